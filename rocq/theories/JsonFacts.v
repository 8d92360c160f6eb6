(** JSON documents read back: proofs. *)
From Coq Require Import Lia ZifyBool ZifyNat ZifyN Permutation.
From Verif Require Import Bytes BytesFacts Ssbh Formats Strings Float32 File MeshEx Json JsonSchema JsonFile JsonSpec.
Ltac Zify.zify_post_hook ::= ZifyBool.elim_bool_cstr; Z.to_euclidean_division_equations.

(** ** Induction on schemas *)
Section Ind.
  Variable P : schema -> Prop.
  Hypothesis HInt : forall w sg, P (SInt w sg).
  Hypothesis HF32 : P SF32.
  Hypothesis HName : forall tags, P (SName tags).
  Hypothesis HBits : forall w, P (SBits w).
  Hypothesis HUnit : P SUnit.
  Hypothesis HStruct : forall fs, Forall (fun p => P (snd p)) fs -> P (SStruct fs).
  Hypothesis HWrap : forall s, P s -> P (SWrap s).
  Hypothesis HRel : forall s, P s -> P (SRel s).
  Hypothesis HAbs : forall s, P s -> P (SAbs s).
  Hypothesis HArr : forall s, P s -> P (SArr s).
  Hypothesis HBuf : P SBuf.
  Hypothesis HCStr : P SCStr.
  Hypothesis HCase : forall vs, Forall (fun p => P (snd p)) vs -> P (SCase vs).
  Hypothesis HFix : forall n s, P s -> P (SFix n s).
  Hypothesis HText : P SText.
  Hypothesis HBool : P SBool.
  Hypothesis HEnum : forall vs, Forall (fun p => P (snd p)) vs -> P (SEnum vs).
  Hypothesis HDef : forall nul d s, P s -> P (SDef nul d s).

  Fixpoint schema_ind2 (s : schema) : P s :=
    match s with
    | SInt w sg => HInt w sg
    | SF32 => HF32
    | SName tags => HName tags
    | SBits w => HBits w
    | SUnit => HUnit
    | SStruct fs =>
        HStruct fs
          ((fix go (fs : list (string * schema)) : Forall (fun p => P (snd p)) fs :=
              match fs with
              | [] => Forall_nil _
              | (x, s') :: r => Forall_cons (x, s') (schema_ind2 s') (go r)
              end) fs)
    | SWrap s' => HWrap s' (schema_ind2 s')
    | SRel s' => HRel s' (schema_ind2 s')
    | SAbs s' => HAbs s' (schema_ind2 s')
    | SArr s' => HArr s' (schema_ind2 s')
    | SBuf => HBuf
    | SCStr => HCStr
    | SCase vs =>
        HCase vs
          ((fix go (vs : list (Z * string * schema)) : Forall (fun p => P (snd p)) vs :=
              match vs with
              | [] => Forall_nil _
              | (x, s') :: r => Forall_cons (x, s') (schema_ind2 s') (go r)
              end) vs)
    | SFix n s' => HFix n s' (schema_ind2 s')
    | SText => HText
    | SBool => HBool
    | SEnum vs =>
        HEnum vs
          ((fix go (vs : list (Z * string * schema)) : Forall (fun p => P (snd p)) vs :=
              match vs with
              | [] => Forall_nil _
              | (x, s') :: r => Forall_cons (x, s') (schema_ind2 s') (go r)
              end) vs)
    | SDef nul d s' => HDef nul d s' (schema_ind2 s')
    end.
End Ind.

(** ** Schemas: well formed, and agreeing with a layout *)

Fixpoint nodupb {A} (eqb : A -> A -> bool) (l : list A) : bool :=
  match l with
  | [] => true
  | a :: r => negb (existsb (eqb a) r) && nodupb eqb r
  end.

Lemma nodupb_spec {A} (eqb : A -> A -> bool) l :
  (forall a b, eqb a b = true <-> a = b) -> nodupb eqb l = true -> NoDup l.
Proof.
  intros E. induction l as [|a l IH]; cbn; intros H; [constructor|].
  apply andb_true_iff in H as [H1 H2]. constructor; auto. intros I.
  rewrite negb_true_iff in H1. assert (existsb (eqb a) l = true) as X; [|congruence].
  apply existsb_exists. exists a. split; auto. now apply E.
Qed.

(** A pointer to a float would lose the float. *)
Fixpoint no_float (s : schema) : bool :=
  match s with SF32 => false | SDef _ _ s' => no_float s' | _ => true end.
(** Never written as null *)
Definition plain (s : schema) : bool :=
  match s with SName _ => true | _ => false end.

Fixpoint sch_ok (s : schema) : bool :=
  match s with
  | SInt w _ => 0 <? w
  | SF32 | SUnit | SBuf | SCStr | SText | SBool => true
  | SName tags => nodupb Z.eqb (map fst tags) && nodupb String.eqb (map snd tags)
  | SBits w => 0 <? w
  | SStruct fs => nodupb String.eqb (map fst fs) && forallb (fun p => sch_ok (snd p)) fs
  | SWrap s' => no_float s' && sch_ok s'
  | SRel s' | SAbs s' => no_float s' && sch_ok s'
  | SArr s' => sch_ok s'
  | SFix _ s' => sch_ok s'
  | SDef nul _ s' => (negb nul || plain s') && sch_ok s'
  | SCase vs | SEnum vs =>
      nodupb Z.eqb (map (fun p => fst (fst p)) vs) && nodupb String.eqb (map (fun p => snd (fst p)) vs)
      && forallb (fun p => sch_ok (snd p)) vs
  end.

Fixpoint sty (s : schema) (v : val) : bool :=
  match s, v with
  | SInt w _, VInt n => (0 <=? n) && (n <? 256 ^ w)
  | SF32, VInt n => (0 <=? n) && (n <? 256 ^ 4)
  | SName tags, VInt n => existsb (Z.eqb n) (map fst tags)
  | SBits w, VInt n => (0 <=? n) && (n <? 256 ^ w)
  | SUnit, VStruct [] => true
  | SStruct fs, VStruct vs =>
      (fix go (fs : list (string * schema)) (vs : list val) : bool :=
         match fs, vs with
         | [], [] => true
         | (_, s') :: fr, v' :: vr => sty s' v' && go fr vr
         | _, _ => false
         end) fs vs
  | SWrap s', VStruct [v'] => sty s' v'
  | SRel s', VPtr o | SAbs s', VPtr o => match o with None => true | Some v' => sty s' v' end
  | SArr s', VArr vs => forallb (sty s') vs
  | SFix n s', VArr vs => (zlen vs =? n) && forallb (sty s') vs
  | SBuf, VBytes bs => bytes_ok bs
  | SCStr, VBytes bs => forallb (fun x => (0 <? x) && (x <? 256)) bs
  | SCase vs, VPtr o =>
      match o with
      | None => true
      | Some (VCase tag (VStruct [v'])) =>
          (fix go (vs : list (Z * string * schema)) : bool :=
             match vs with
             | [] => false
             | (t, _, s') :: r => if tag =? t then sty s' v' else go r
             end) vs
      | Some _ => false
      end
  | SText, VBytes bs => utf8_valid bs
  | SBool, VInt n => (n =? 0) || (n =? 1)
  | SEnum vs, VCase tag v' =>
      (fix go (vs : list (Z * string * schema)) : bool :=
         match vs with
         | [] => false
         | (t, _, s') :: r => if tag =? t then sty s' v' else go r
         end) vs
  | SDef _ _ s', v' => sty s' v'
  | _, _ => false
  end.

Fixpoint fits (s : schema) (t : ty) : bool :=
  match s, t with
  | SInt w _, TInt w' => w =? w'
  | SF32, TInt w => w =? 4
  | SName tags, TRepr _ _ tags' =>
      forallb (fun n => existsb (Z.eqb n) (map fst tags)) tags'
      && forallb (fun n => existsb (Z.eqb n) tags') (map fst tags)
  | SBits w, TBits w' => w =? w'
  | SUnit, TUnit => true
  | SStruct fs, TStruct gs _ _ _ =>
      (fix go (fs : list (string * schema)) (gs : list (ty * (Z * Z))) : bool :=
         match fs, gs with
         | [], [] => true
         | (_, s') :: fr, (t', _) :: gr => fits s' t' && go fr gr
         | _, _ => false
         end) fs gs
  | SWrap s', TStruct [(t', _)] _ _ _ => fits s' t'
  | SRel s', TRel t' => fits s' t'
  | SAbs s', TAbs _ t' => fits s' t'
  | SArr s', TArr t' | SArr s', TVec _ t' => fits s' t'
  | SFix n s', TFix n' t' => (n =? n') && fits s' t'
  | SBuf, TBuf => true
  | SCStr, TCStr _ => true
  | SCase vs, TEnum ts =>
      (fix go (vs : list (Z * string * schema)) (ts : list (Z * ty)) : bool :=
         match vs, ts with
         | [], [] => true
         | (n, _, s') :: vr, (n', t') :: tr =>
             (n =? n') && match t' with TStruct [(t'', _)] _ _ _ => fits s' t'' | _ => false end && go vr tr
         | _, _ => false
         end) vs ts
  | _, _ => false
  end.

(** A value of a layout is a value of the schema. *)
Lemma wt_sty : forall s t v, fits s t = true -> wt t v = true -> sty s v = true.
Proof.
  induction s using schema_ind2; intros t v F W; destruct t; cbn in F; try discriminate;
    destruct v; cbn in W; try discriminate.
  - apply Z.eqb_eq in F as <-. exact W.
  - apply Z.eqb_eq in F as ->. exact W.
  - apply andb_true_iff in F as [F _]. rewrite forallb_forall in F. apply existsb_exists in W as (m & I & E).
    apply Z.eqb_eq in E as ->. exact (F _ I).
  - apply Z.eqb_eq in F as <-. exact W.
  - exact W.
  - cbn. revert fs0 vs F W. induction fs as [|[x s] fs IH]; intros [|[t' p] gs] vs F W; try discriminate;
      destruct vs as [|v vs]; try discriminate; auto.
    inversion H; subst. apply andb_true_iff in F as [F1 F2]. apply andb_true_iff in W as [W1 W2].
    apply andb_true_iff. split; [exact (H2 _ _ F1 W1)|exact (IH H3 _ _ F2 W2)].
  - destruct fs as [|[t' p] [|]]; try discriminate. destruct vs as [|v [|]]; try discriminate.
    + cbn. apply andb_true_iff in W as [W _]. eauto.
    + rewrite andb_false_r in W. discriminate.
  - destruct o as [v'|]; cbn; auto. eauto.
  - destruct o as [v'|]; cbn; auto. eauto.
  - cbn. apply andb_true_iff in W as [_ W]. rewrite forallb_forall in *. eauto.
  - cbn. apply andb_true_iff in W as [_ W]. rewrite forallb_forall in *. eauto.
  - cbn. now apply andb_true_iff in W as [_ W].
  - exact W.
  - destruct o as [v'|]; cbn; auto. destruct v'; try discriminate.
    assert (exists body, v' = VStruct [body]) as (body & ->).
    { clear H. revert vs0 F W. induction vs as [|[[n x] s] vs IH]; intros [|[n' t'] ts] F W; try discriminate.
      apply andb_true_iff in F as [F F3]. apply andb_true_iff in F as [F1 F2].
      destruct (tag =? n') eqn:E; [|eauto].
      destruct t' as [| | | |[|[t'' p] [|]] | | | | | | | |]; try discriminate.
      destruct v' as [| |[|v'' [|]]| | |]; cbn in W; try discriminate; [eauto|].
      now rewrite andb_false_r in W. }
    revert vs0 F W. induction vs as [|[[n x] s] vs IH]; intros [|[n' t'] ts] F W; try discriminate.
    apply andb_true_iff in F as [F F3]. apply andb_true_iff in F as [F1 F2]. inversion H; subst.
    apply Z.eqb_eq in F1 as <-. destruct (tag =? n) eqn:E.
    + destruct t' as [| | | |[|[t'' p] [|]] | | | | | | | |]; try discriminate.
      cbn in W. rewrite andb_true_r in W. eauto.
    + eauto.
  - cbn. apply andb_true_iff in F as [F1 F2]. apply Z.eqb_eq in F1 as <-.
    apply andb_true_iff in W as [W1 W2]. rewrite W1. cbn. rewrite forallb_forall in *. eauto.
Qed.

(** ** Leaves *)

Lemma int_roundtrip w sg n :
  0 < w -> 0 <= n < 256 ^ w ->
  json_int w sg (int_json w sg n) = Some (VInt n).
Proof.
  intros Hw Hn. unfold int_json, json_int.
  assert (256 ^ w = 2 * (256 ^ w / 2)) as E.
  { replace w with (Z.succ (w - 1)) by lia. rewrite Z.pow_succ_r by lia.
    replace (256 * 256 ^ (w - 1)) with ((128 * 256 ^ (w - 1)) * 2) by lia.
    rewrite Z.div_mul by lia. lia. }
  set (h := 256 ^ w / 2) in *. clearbody h. destruct sg; cbn [andb].
  - destruct (h <=? n) eqn:L.
    + replace ((- h <=? n - 256 ^ w) && (n - 256 ^ w <? h)) with true by lia.
      replace (n - 256 ^ w <? 0) with true by lia. do 2 f_equal. lia.
    + replace ((- h <=? n) && (n <? h)) with true by lia. replace (n <? 0) with false by lia. reflexivity.
  - replace ((0 <=? n) && (n <? 256 ^ w)) with true by lia. reflexivity.
Qed.

Lemma hex_digit_value n : 0 <= n < 16 -> hex_value (hex_digit n) = Some n.
Proof.
  intros H. unfold hex_digit, hex_value. destruct (n <? 10) eqn:E.
  - replace ((48 <=? 48 + n) && (48 + n <=? 57)) with true by lia. f_equal. lia.
  - replace ((48 <=? 87 + n) && (87 + n <=? 57)) with false by lia.
    replace ((97 <=? 87 + n) && (87 + n <=? 102)) with true by lia. f_equal. lia.
Qed.

Lemma hex_roundtrip bs : bytes_ok bs = true -> hex_decode (hex_encode bs) = Some bs.
Proof.
  induction bs as [|b bs IH]; cbn [bytes_ok forallb hex_encode flat_map app]; intros H; auto.
  apply andb_true_iff in H as [H1 H2]. unfold is_byte in H1.
  assert (0 <= b < 256) as Hb by lia.
  cbn [hex_decode]. rewrite !hex_digit_value by lia.
  fold (hex_encode bs). rewrite IH by auto. do 2 f_equal. lia.
Qed.

Lemma text_eqb_spec a b : text_eqb a b = true <-> a = b.
Proof.
  revert b. induction a as [|x a IH]; intros [|y b]; cbn; split; intros H; try discriminate; auto.
  - apply andb_true_iff in H as [H1 H2]. apply Z.eqb_eq in H1 as ->. f_equal. now apply IH.
  - injection H as -> ->. rewrite Z.eqb_refl. now apply IH.
Qed.

Lemma text_of_inj a b : text_of a = text_of b -> a = b.
Proof.
  revert b. induction a as [|x a IH]; intros [|y b]; cbn; intros H; try discriminate; auto.
  injection H as H1 H2. apply N2Z.inj in H1.
  rewrite <- (Ascii.ascii_N_embedding x), <- (Ascii.ascii_N_embedding y), H1. f_equal. auto.
Qed.

Lemma variant_find {A} (x : string) (vs : list (string * (option json -> option A))) f :
  NoDup (map fst vs) -> In (x, f) vs -> variant_of (text_of x) vs = Some f.
Proof.
  induction vs as [|[y g] vs IH]; cbn; intros N I; [destruct I|].
  inversion N as [|? ? N1 N2]; subst. destruct I as [E|I].
  - injection E as -> ->. now replace (text_eqb (text_of x) (text_of x)) with true by (symmetry; now apply text_eqb_spec).
  - destruct (text_eqb (text_of x) (text_of y)) eqn:E; [|auto].
    apply text_eqb_spec, text_of_inj in E as ->. destruct N1. apply in_map_iff. now exists (y, f).
Qed.

Lemma member_notin x ms : ~ In x (map fst ms) -> member x ms = Some None.
Proof.
  induction ms as [|[y j] ms IH]; cbn; intros H; auto.
  destruct (String.eqb_spec x y) as [->|]; [tauto|]. tauto.
Qed.

Lemma member_in x j ms : NoDup (map fst ms) -> In (x, j) ms -> member x ms = Some (Some j).
Proof.
  induction ms as [|[y k] ms IH]; cbn; intros N I; [destruct I|].
  inversion N as [|? ? N1 N2]; subst. destruct I as [E|I].
  - injection E as -> ->. rewrite String.eqb_refl, member_notin; auto.
  - destruct (String.eqb_spec x y) as [->|]; [|auto]. destruct N1. apply in_map_iff. now exists (y, j).
Qed.

Lemma cstring_whole bs :
  forallb (fun x => (0 <? x) && (x <? 256)) bs = true -> cstring_from_bytes bs = bs.
Proof.
  induction bs as [|b bs IH]; cbn; intros H; auto. apply andb_true_iff in H as [H1 H2].
  replace (b =? 0) with false by lia. f_equal. auto.
Qed.

(** ** Lists *)

Lemma opt_all_map {A B} (f : A -> option B) (g : A -> B) (c : A -> bool) l :
  (forall a, In a l -> f a = if c a then Some (g a) else None) ->
  opt_all (map f l) = if forallb c l then Some (map g l) else None.
Proof.
  induction l as [|a l IH]; cbn; intros H; auto.
  rewrite (H a) by auto. rewrite IH by auto. destruct (c a); auto. cbn. now destruct (forallb c l).
Qed.

(** Floats, as a computation *)
Definition float_ok (p : schema * val) : bool :=
  match p with (SF32, VInt n) => f32_finite n | _ => true end.
Definition floats (s : schema) (v : val) : bool := forallb float_ok (parts s v).

Lemma floats_spec s v : floats s v = true <-> finite_floats s v.
Proof.
  unfold floats, finite_floats. rewrite forallb_forall, Forall_forall.
  split; intros H p I; specialize (H p I).
  - intros (n & -> & E). cbn in H. unfold f32_finite in H. rewrite E in H. discriminate.
  - destruct p as [s' v']. destruct s', v'; cbn; auto. unfold f32_finite.
    destruct ((n / 2 ^ 23) mod 2 ^ 8 =? 255) eqn:E; auto. apply Z.eqb_eq in E.
    destruct H. now exists n.
Qed.

Lemma forallb_flat_map {A B} (f : B -> bool) (g : A -> list B) l :
  forallb f (flat_map g l) = forallb (fun a => forallb f (g a)) l.
Proof. induction l; cbn; auto. rewrite forallb_app. now f_equal. Qed.

Lemma forallb_concat {B} (f : B -> bool) l : forallb f (List.concat l) = forallb (forallb f) l.
Proof. induction l; cbn; auto. rewrite forallb_app. now f_equal. Qed.

Lemma name_of_some n tags :
  existsb (Z.eqb n) (map fst tags) = true -> exists x, name_of n tags = Some x /\ In (n, x) tags.
Proof.
  induction tags as [|[t x] tags IH]; cbn; intros H; [discriminate|].
  destruct (n =? t) eqn:E.
  - apply Z.eqb_eq in E as ->. eauto.
  - destruct (IH H) as (y & Hy & I). eauto.
Qed.

(** The value of a bit field *)
Lemma le_val_bytes w n : 0 <= n < 256 ^ Z.of_nat w -> le_val (le_bytes w n) = n.
Proof.
  revert n. induction w as [|w IH]; intros n H; cbn [le_bytes le_val].
  - change (256 ^ Z.of_nat 0) with 1 in H. lia.
  - rewrite IH; [lia|]. rewrite Nat2Z.inj_succ, Z.pow_succ_r in H by lia.
    split; [apply Z.div_pos; lia|]. apply Z.div_lt_upper_bound; lia.
Qed.

Lemma le_bytes_range w n : Forall (fun x => 0 <= x < 256) (le_bytes w n).
Proof. revert n. induction w; intros; cbn; constructor; auto. apply Z.mod_pos_bound. lia. Qed.

Lemma le_bytes_len w n : List.length (le_bytes w n) = w.
Proof. revert n. induction w; intros; cbn; auto. Qed.

Lemma bits_roundtrip w n : 0 < w -> 0 <= n < 256 ^ w -> json_bits w (bits_json w n) = Some (VInt n).
Proof.
  intros Hw Hn. unfold bits_json, json_bits, json_struct. cbn [map fst snd member opt_all].
  change (String.eqb "bytes" "bytes") with true. cbn iota beta.
  unfold json_bytes, json_list. rewrite map_map.
  assert (forall l, Forall (fun x => 0 <= x < 256) l ->
            opt_all (map (fun x => json_int 1 false (JInt x)) l) = Some (map VInt l)) as E.
  { induction l as [|x l IH]; cbn [map opt_all]; intros F; auto. inversion F; subst.
    replace (json_int 1 false (JInt x)) with (Some (VInt x)).
    - now rewrite IH.
    - unfold json_int. change (256 ^ 1) with 256. now replace ((0 <=? x) && (x <? 256)) with true by lia. }
  rewrite E by apply le_bytes_range. unfold zlen. rewrite map_length, le_bytes_len, Z2Nat.id by lia.
  rewrite Z.eqb_refl. cbn. rewrite map_map. cbn. rewrite map_id. do 2 f_equal. apply le_val_bytes.
  rewrite Z2Nat.id by lia. auto.
Qed.

(** When a value is written as null *)
Lemma nullish_null : forall s v,
  sch_ok s = true -> sty s v = true -> no_float s = true ->
  (nullish s v = true <-> to_json s v = JNull).
Proof.
  induction s using schema_ind2; intros v O T NF; cbn in O;
    [..|apply andb_true_iff in O as [_ O]; exact (IHs v O T NF)];
    destruct v; cbn in T; try discriminate; cbn;
    try (split; intros X; discriminate || reflexivity).
  - split; [discriminate|]. destruct (name_of_some _ _ T) as (x & -> & _). discriminate.
  - destruct vs as [|v [|]]; try discriminate. apply andb_true_iff in O as [O1 O2]. auto.
  - destruct o as [v|]; [|tauto]. apply andb_true_iff in O as [O1 O2]. auto.
  - destruct o as [v|]; [|tauto]. apply andb_true_iff in O as [O1 O2]. auto.
  - destruct o as [v|]; [|split; discriminate]. destruct v as [| | | | |tag v]; try discriminate.
    destruct v as [| |[|v [|]]| | |]; try discriminate. split; discriminate.
  - clear - T. split; [discriminate|]. induction vs as [|[[t x] s] vs IH]; [discriminate|].
    destruct (tag =? t); [discriminate|auto].
Qed.
