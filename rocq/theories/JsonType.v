(** Accepted JSON documents give values that can be saved: proofs. *)
From Coq Require Import Lia ZifyBool ZifyNat ZifyN.
From Verif Require Import Bytes BytesFacts Ssbh Formats Strings Float32 FloatFacts File FileFacts MeshEx MeshExFacts
  Json JsonSchema JsonFile JsonSpec JsonFacts JsonRound JsonDoc JsonOrder JsonTool.
Ltac Zify.zify_post_hook ::= ZifyBool.elim_bool_cstr; Z.to_euclidean_division_equations.

#[local] Strategy opaque [file_write file_read meshex_write meshex_read adj_write adj_read].

Lemma utf8_bytes bs : utf8_valid bs = true -> bytes_ok bs = true.
Proof.
  assert (forall n l, (List.length l <= n)%nat -> utf8_valid l = true -> bytes_ok l = true) as H; [|eauto].
  induction n as [|n IH]; intros l L U.
  - destruct l; [reflexivity|cbn in L; lia].
  - destruct l as [|a r]; [reflexivity|]. cbn [utf8_valid] in U. cbn [List.length] in L.
    unfold bytes_ok in *. cbn [forallb]. unfold is_byte at 1.
    destruct (a <=? 127) eqn:E1.
    { apply andb_true_iff in U as [U1 U2]. rewrite (IH r) by (auto; lia). lia. }
    destruct ((194 <=? a) && (a <=? 223)) eqn:E2.
    { destruct r as [|b r]; [discriminate|]. apply andb_true_iff in U as [U1 U2].
      cbn [List.length forallb] in *. unfold is_byte at 1. unfold cont in *. rewrite (IH r) by (auto; lia). lia. }
    destruct ((224 <=? a) && (a <=? 239)) eqn:E3.
    { destruct r as [|b [|c r]]; try discriminate. apply andb_true_iff in U as [U1 U2].
      apply andb_true_iff in U1 as [U1 U3].
      cbn [List.length forallb] in *. unfold is_byte at 1 2. unfold cont in *. rewrite (IH r) by (auto; lia).
      destruct (a =? 224), (a =? 237); lia. }
    destruct ((240 <=? a) && (a <=? 244)) eqn:E4; [|discriminate].
    destruct r as [|b [|c [|d r]]]; try discriminate. apply andb_true_iff in U as [U1 U2].
    apply andb_true_iff in U1 as [U1 U3]. apply andb_true_iff in U1 as [U1 U4].
    cbn [List.length forallb] in *. unfold is_byte at 1 2 3. unfold cont in *. rewrite (IH r) by (auto; lia).
    destruct (a =? 240), (a =? 244); lia.
Qed.

Lemma hex_value_range c x : hex_value c = Some x -> 0 <= x < 16.
Proof.
  unfold hex_value. intros H.
  destruct ((48 <=? c) && (c <=? 57)) eqn:E1; [injection H as <-; lia|].
  destruct ((97 <=? c) && (c <=? 102)) eqn:E2; [injection H as <-; lia|].
  destruct ((65 <=? c) && (c <=? 70)) eqn:E3; [injection H as <-; lia|discriminate].
Qed.

Lemma hex_decode_ok n : forall cs bs, (List.length cs <= n)%nat -> hex_decode cs = Some bs ->
  bytes_ok bs = true /\ (List.length bs <= List.length cs)%nat.
Proof.
  induction n as [|n IH]; intros [|a [|b r]] bs L H; cbn [List.length] in L; cbn [hex_decode] in H; try discriminate; try lia;
    try (injection H as <-; now split).
  destruct (hex_value a) as [x|] eqn:Ea; [|discriminate]. destruct (hex_value b) as [y|] eqn:Eb; [|discriminate].
  destruct (hex_decode r) as [l|] eqn:E; [|discriminate].
  apply hex_value_range in Ea, Eb. assert (0 <= 16 * x + y < 256) as Z by lia.
  generalize dependent (16 * x + y). intros z H Z. injection H as <-. apply (IH r) in E as [E1 E2]; [|lia].
  unfold bytes_ok in *. cbn [forallb List.length]. unfold is_byte at 1. rewrite E1.
  split; [clear - Z; lia|clear - E2; lia].
Qed.

Lemma opt_all_inv {A} (l : list (option A)) vs : opt_all l = Some vs -> l = map Some vs.
Proof.
  revert vs. induction l as [|[a|] l IH]; cbn; intros vs H; try discriminate.
  - now injection H as <-.
  - destruct (opt_all l) as [b|]; [|discriminate]. injection H as <-. cbn. f_equal. auto.
Qed.

Lemma member_some x ms j : member x ms = Some (Some j) -> In (x, j) ms.
Proof.
  induction ms as [|[y k] ms IH]; cbn; [discriminate|]. destruct (String.eqb_spec x y) as [->|].
  - destruct (member y ms) as [[|]|]; try discriminate. intros H. injection H as <-. auto.
  - auto.
Qed.

Fixpoint no_vec (t : ty) : bool :=
  match t with
  | TVec _ _ => false
  | TStruct fs _ _ _ =>
      (fix go (fs : list (ty * (Z * Z))) : bool :=
         match fs with [] => true | (t', _) :: r => no_vec t' && go r end) fs
  | TRel t' | TAbs _ t' | TArr t' | TFix _ t' => no_vec t'
  | TEnum vs =>
      (fix go (vs : list (Z * ty)) : bool :=
         match vs with [] => true | (_, t') :: r => no_vec t' && go r end) vs
  | _ => true
  end.

(** What a reader gives for proper documents *)
Definition gives (f : json -> option val) (t : ty) : Prop :=
  forall j v, proper j = true -> f j = Some v -> wt t v = true.

Lemma list_gives f t j vs : gives f t -> proper j = true -> json_list f j = Some vs ->
  forallb (wt t) vs = true /\ zlen vs < two64.
Proof.
  intros G P H. unfold json_list in H. destruct j; try discriminate. cbn in P.
  apply andb_true_iff in P as [L P]. apply opt_all_inv in H.
  assert (List.length js = List.length vs) as E.
  { rewrite <- (map_length f js), H. apply map_length. }
  split; [|unfold zlen, two64; change (2 ^ 64) with 18446744073709551616 in *; lia]. clear L E.
  revert vs H. induction js as [|j js IH]; intros [|v vs] H; cbn in *; try discriminate; auto.
  apply andb_true_iff in P as [P1 P2]. injection H as H1 H2. apply andb_true_iff. split; eauto.
Qed.

Lemma struct_gives (fs : list field_reader) gs sp aa al :
  Forall2 (fun (f : field_reader) (g : ty * (Z * Z)) =>
             gives (snd f) (fst g) /\ (forall b v, absent b f = Some v -> wt (fst g) v = true)) fs gs ->
  gives (json_struct fs) (TStruct gs sp aa al).
Proof.
  intros F j v P H. unfold json_struct in H. destruct j as [| | | | |js|ms]; try discriminate.
  - destruct (json_seq fs js) as [vs|] eqn:E; [|discriminate]. injection H as <-.
    cbn in P. apply andb_true_iff in P as [_ P]. cbn.
    revert js vs P E. induction F as [|f [t p] fs gs [G M] F IH]; intros [|j js] vs P E; cbn [json_seq] in E; try discriminate.
    + now injection E as <-.
    + destruct (absent true f) as [v|] eqn:E1; [|discriminate]. destruct (json_seq fs []) as [r|] eqn:E2; [|discriminate].
      injection E as <-. apply andb_true_iff. split; eauto.
    + destruct (snd f j) as [v|] eqn:E1; [|discriminate]. destruct (json_seq fs js) as [r|] eqn:E2; [|discriminate].
      injection E as <-. cbn in P. apply andb_true_iff in P as [P1 P2]. apply andb_true_iff. split; eauto.
  - destruct (opt_all _) as [vs|] eqn:E; [|discriminate]. injection H as <-. apply opt_all_inv in E.
    cbn in P. rewrite forallb_forall in P. cbn.
    revert vs E. induction F as [|f [t p] fs gs [G M] F IH]; intros [|v vs] E; cbn in *; try discriminate; auto.
    injection E as E1 E2. apply andb_true_iff. split; [|now apply IH].
    destruct (member (fst (fst f)) ms) as [[j|]|] eqn:K; [|eauto|discriminate].
    apply member_some in K. exact (G _ _ (P _ K) E1).
Qed.

Lemma ptr_gives f t j v : gives f t -> proper j = true -> json_ptr f j = Some v ->
  match v with VPtr (Some v') => wt t v' = true | VPtr None => True | _ => False end.
Proof.
  intros G P H. unfold json_ptr in H.
  destruct (f j) as [v'|] eqn:E.
  - assert (v = VPtr None \/ v = VPtr (Some v')) as [-> | ->]; [|auto|eauto].
    destruct j; injection H as <-; auto.
  - destruct j; try discriminate. now injection H as <-.
Qed.

Lemma variant_gives {A} (vs : list (string * (option json -> option A))) (Q : A -> Prop) j a :
  (forall x f o a, In (x, f) vs -> (forall j, o = Some j -> proper j = true) -> f o = Some a -> Q a) ->
  proper j = true -> json_variant vs j = Some a -> Q a.
Proof.
  intros G P H. unfold json_variant in H. destruct j as [| | | |x| |[|[x j] [|]]]; try discriminate.
  - destruct (variant_of x vs) as [f|] eqn:E; [|discriminate]. apply variant_in in E as (y & I).
    refine (G _ _ _ _ I _ H). discriminate.
  - destruct (variant_of (text_of x) vs) as [f|] eqn:E; [|discriminate]. apply variant_in in E as (y & I).
    refine (G _ _ _ _ I _ H). intros j' X. injection X as <-. cbn in P. now rewrite andb_true_r in P.
Qed.

Lemma int_gives w sg : gives (json_int w sg) (TInt w).
Proof.
  intros j v _ H. unfold json_int in H. destruct j; try discriminate.
  set (h := 256 ^ w / 2) in *. assert (2 * h <= 256 ^ w) by (unfold h; lia). clearbody h.
  destruct sg.
  - destruct ((- h <=? n) && (n <? h)) eqn:E; [|discriminate].
    injection H as <-. cbn. destruct (n <? 0) eqn:E2; lia.
  - destruct ((0 <=? n) && (n <? 256 ^ w)) eqn:E; [|discriminate]. now injection H as <-.
Qed.

Lemma f32_gives : gives json_f32 (TInt 4).
Proof.
  intros j v P H. unfold json_f32 in H. destruct j; try discriminate; injection H as <-; cbn.
  - assert (0 <= bits_of_f32 (int_to_f32 n) < 2 ^ 32) as B.
    { apply bits32_bound. intros s m e E. apply binary_normalize_bound in E; [|reflexivity].
      unfold prec32, emax32 in E. lia. }
    change (256 ^ 4) with (2 ^ 32). lia.
  - exact P.
Qed.

Lemma le_val_range8 vs : forallb (wt (TInt 1)) vs = true ->
  0 <= le_val (map int_of_val vs) < 256 ^ zlen vs.
Proof.
  induction vs as [|v vs IH]; cbn [forallb map le_val]; intros H; [cbn; lia|].
  apply andb_true_iff in H as [H1 H2]. destruct v; try discriminate. cbn in H1. change (256 ^ 1) with 256 in H1.
  specialize (IH H2). cbn [int_of_val]. unfold zlen in *. cbn [List.length]. rewrite Nat2Z.inj_succ, Z.pow_succ_r by lia. lia.
Qed.

Theorem from_json_wt : forall s t, sch_ok s = true -> fits s t = true -> no_vec t = true -> gives (from_json s) t.
Proof.
  induction s using schema_ind2; intros t O F N; destruct t; cbn in F; try discriminate; cbn [from_json].
  - apply Z.eqb_eq in F as <-. apply int_gives.
  - apply Z.eqb_eq in F as ->. apply f32_gives.
  - apply andb_true_iff in F as [_ F]. rewrite forallb_forall in F. intros j v P H.
    apply (variant_gives _ (fun v => wt (TRepr w ra tags0) v = true) j v) in H; auto.
    intros x f o a I _ E. apply in_map_iff in I as ([n y] & E2 & I). injection E2 as <- <-.
    assert (a = VInt n) as -> by (destruct o as [[]|]; cbn in E; congruence).
    cbn. apply F. apply in_map_iff. now exists (n, y).
  - apply Z.eqb_eq in F as <-. intros j v P H. unfold json_bits in H.
    destruct (json_struct _ j) as [v'|] eqn:E; [|discriminate].
    destruct v' as [| |[|[| | |vs| |] [|]]| | |]; try discriminate. injection H as <-.
    apply (struct_gives _ [(TFix w (TInt 1), (0, 0))] 0 0 None) in E.
    + cbn in E. rewrite andb_true_r in E. apply andb_true_iff in E as [E1 E2]. apply Z.eqb_eq in E1 as <-.
      pose proof (le_val_range8 vs E2). cbn. lia.
    + repeat constructor; cbn; [|discriminate]. intros j' v' P' H. unfold json_bytes in H.
      destruct (json_list _ j') as [l|] eqn:L; [|discriminate].
      apply (list_gives _ (TInt 1)) in L as [L _]; [|apply int_gives|auto].
      destruct (zlen l =? w) eqn:Z; [|discriminate]. injection H as <-.
      change ((zlen l =? w) && forallb (wt (TInt 1)) l = true). now rewrite Z, L.
    + exact P.
  - intros j v P H. destruct j; try discriminate. now injection H as <-.
  - apply struct_gives. cbn in N, O. apply andb_true_iff in O as [_ O]. revert fs0 F N O.
    induction fs as [|[x s] fs IH]; intros [|[t p] gs] F N O; try discriminate; [constructor|].
    inversion H; subst. apply andb_true_iff in F as [F1 F2]. apply andb_true_iff in N as [N1 N2].
    cbn in O. apply andb_true_iff in O as [O1 O2].
    constructor; [|now apply IH]. cbn. split; [now apply H2|].
    intros b v E. destruct s; try discriminate; destruct t; try discriminate. destruct b; try discriminate.
    now injection E as <-.
  - destruct fs as [|[t' p] [|]]; try discriminate. cbn in N. rewrite andb_true_r in N.
    intros j v P H. destruct (from_json s j) as [v'|] eqn:E; [|discriminate]. injection H as <-.
    cbn. rewrite andb_true_r. cbn in O. apply andb_true_iff in O as [_ O]. exact (IHs _ O F N _ _ P E).
  - cbn in N, O. apply andb_true_iff in O as [_ O]. intros j v P H. apply (ptr_gives _ t) in H; auto.
    destruct v as [| | | |[v|]|]; cbn; try tauto; auto.
  - cbn in N, O. apply andb_true_iff in O as [_ O]. intros j v P H. apply (ptr_gives _ t) in H; auto.
    destruct v as [| | | |[v|]|]; cbn; try tauto; auto.
  - cbn in N. intros j v P H. destruct (json_list (from_json s) j) as [vs|] eqn:E; [|discriminate]. injection H as <-.
    apply (list_gives _ t) in E as [E1 E2]; auto. cbn [wt]. rewrite E1. lia.
  - intros j v P H. destruct j; try discriminate. cbn in P. unfold proper_text in P.
    destruct (hex_decode text) as [bs|] eqn:E; [|discriminate]. injection H as <-.
    apply (hex_decode_ok _ _ _ (le_n _)) in E as [E1 E2]. cbn [wt]. rewrite E1.
    unfold zlen, two64. change (2 ^ 64) with 18446744073709551616 in *. lia.
  - intros j v P H. destruct j; try discriminate. cbn in P. unfold proper_text in P. injection H as <-.
    apply andb_true_iff in P as [P _]. apply andb_true_iff in P as [P1 P2]. apply utf8_bytes in P1. cbn [wt].
    unfold bytes_ok in P1. rewrite forallb_forall in *. intros x I. specialize (P1 x I). specialize (P2 x I).
    unfold is_byte in P1. lia.
  - intros j v P H1. destruct (json_struct _ j) as [v'|] eqn:E; [|discriminate].
    destruct v' as [| |[|v' [|]]| | |]; try discriminate. injection H1 as <-.
    apply (struct_gives _ [(TEnum vs0, (0, 0))] 0 0 None) in E.
    + cbn [wt] in E. now rewrite andb_true_r in E.
    + constructor; [|constructor]. split; [|discriminate]. cbn [fst snd]. intros j' w P' H1.
      unfold json_ptr in H1.
      assert (j' = JNull \/ match json_variant (map (fun p => (snd (fst p), newtype_variant (fun j' =>
                match from_json (snd p) j' with Some v => Some (VCase (fst (fst p)) (VStruct [v])) | None => None end))) vs) j' with
              | Some v => Some (VPtr (Some v)) | None => None end = Some w) as [-> | H2].
      { destruct j'; auto. }
      { now injection H1 as <-. }
      clear H1. destruct (json_variant _ j') as [c|] eqn:K; [|discriminate]. injection H2 as <-.
      apply (variant_gives _ (fun c => wt (TEnum vs0) (VPtr (Some c)) = true) j' c) in K; auto.
      clear K c. intros x f o c I Po E2. apply in_map_iff in I as ([[n y] s] & E3 & I). injection E3 as <- <-.
      destruct o as [j2|]; [|discriminate]. cbn in E2. destruct (from_json s j2) as [b|] eqn:E4; [|discriminate].
      injection E2 as <-. specialize (Po j2 eq_refl). cbn [wt].
      (* the first entry with the tag also fits *)
      assert (forall vs ts, Forall (fun p => forall t, sch_ok (snd p) = true -> fits (snd p) t = true -> no_vec t = true -> gives (from_json (snd p)) t) vs ->
        (fix go (vs : list (Z * string * schema)) (ts : list (Z * ty)) : bool :=
           match vs, ts with
           | [], [] => true
           | (n, _, s') :: vr, (n', t') :: tr =>
             (n =? n') && match t' with TStruct [(t'', _)] _ _ _ => fits s' t'' | _ => false end && go vr tr
           | _, _ => false
           end) vs ts = true ->
        no_vec (TEnum ts) = true -> NoDup (map (fun p => fst (fst p)) vs) ->
        forallb (fun p => sch_ok (snd p)) vs = true -> In (n, y, s) vs ->
        (fix go (vs : list (Z * ty)) : bool :=
             match vs with
             | [] => false
             | (tg, t') :: r => if n =? tg then wt t' (VStruct [b]) else go r
             end) ts = true) as X; [|].
      { clear - E4 Po. induction vs as [|[[m z] s'] vs IH]; intros [|[m' t'] ts] H F N D O I; try discriminate; [destruct I|].
        inversion H; subst. apply andb_true_iff in F as [F F3]. apply andb_true_iff in F as [F1 F2].
        apply Z.eqb_eq in F1 as <-. cbn in N. apply andb_true_iff in N as [N1 N2]. inversion D as [|? ? D1 D2]; subst.
        cbn in O. apply andb_true_iff in O as [O1 O2]. destruct I as [I|I].
        - injection I as -> -> ->. rewrite Z.eqb_refl.
          destruct t' as [| | | |[|[t'' p] [|]] | | | | | | | |]; try discriminate.
          cbn in N1. rewrite andb_true_r in N1. cbn. rewrite andb_true_r. exact (H2 _ O1 F2 N1 _ _ Po E4).
        - destruct (n =? m) eqn:E.
          + apply Z.eqb_eq in E as ->. destruct D1. apply in_map_iff. now exists (m, y, s).
          + exact (IH ts H3 F3 N2 D2 O2 I). }
      cbn in O. apply andb_true_iff in O as [O O3]. apply andb_true_iff in O as [O1 _].
      apply nodupb_spec in O1; [|apply Z.eqb_eq]. exact (X vs vs0 H F N O1 O3 I).
    + exact P.
  - apply andb_true_iff in F as [F1 F2]. apply Z.eqb_eq in F1 as <-. cbn in N. intros j v P H.
    destruct (json_list (from_json s) j) as [vs|] eqn:E; [|discriminate].
    destruct (zlen vs =? n) eqn:L; [|discriminate]. injection H as <-.
    apply (list_gives _ t) in E as [E1 E2]; auto. cbn [wt]. now rewrite E1, L.
Qed.

(** ** Documents *)

Definition typed_entry (k : kind) (e : (Z * Z) * (string * schema)) : bool :=
  match format k (fst e) with
  | Some t => sch_ok (snd (snd e)) && fits (snd (snd e)) t && no_vec t
  | None => false
  end.
Lemma typed_entries k e : In e (schemas k) -> typed_entry k e = true.
Proof.
  assert (forallb (typed_entry k) (schemas k) = true) as H by (destruct k; vm_compute; reflexivity).
  intros I. rewrite forallb_forall in H. auto.
Qed.

Lemma ssbh_accepted j f : proper j = true -> ssbh_from_json j = Some f -> file_ok f.
Proof.
  intros P H. apply (variant_gives _ file_ok j f) in H; auto. clear j P H.
  intros x g o a I Po H. apply in_map_iff in I as (k & E & _). injection E as <- <-.
  destruct o as [j|]; [|discriminate]. specialize (Po j eq_refl). cbn [newtype_variant] in H.
  apply (variant_gives _ file_ok j a) in H; auto. clear j Po H.
  intros x g o c I Po H. apply in_map_iff in I as (e & E & I). injection E as <- <-.
  destruct o as [j|]; [|discriminate]. specialize (Po j eq_refl). cbn [newtype_variant] in H.
  unfold version_from_json in H. destruct (from_json (snd (snd e)) j) as [v|] eqn:E; [|discriminate].
  injection H as <-. apply typed_entries in I. unfold typed_entry in I.
  destruct (format k (fst e)) as [t|] eqn:F; [|discriminate].
  apply andb_true_iff in I as [I N]. apply andb_true_iff in I as [O Fi].
  exists t. split; [exact F|]. exact (from_json_wt _ _ O Fi N _ _ Po E).
Qed.

Definition MeshExTy : ty :=
  record [TAbs 8 AllData; TAbs 8 (TArr MeshObjectGroup); TAbs 8 (TArr MeshEntry);
          TAbs 8 (record [TArr EntryFlag]); u32].
Definition AdjTy : ty := record [TArr AdjEntry; TArr i16].

Lemma meshex_accepted j x : proper j = true -> meshex_from_json j = Some x -> meshex_ok x = true.
Proof.
  intros P H. unfold meshex_from_json in H. destruct (from_json s_meshex_MeshEx j) as [v|] eqn:E; [|discriminate].
  apply (from_json_wt _ MeshExTy meshex_schema_ok eq_refl eq_refl _ _ P) in E.
  unfold MeshExTy, record in E. cbn [map] in E.
  destruct v as [| |[|a [|g [|e [|f [|u [|]]]]]]| | |]; try discriminate; cbn [meshex_of_val] in H; try discriminate.
  cbn [wt] in E. rewrite !andb_true_iff in E. destruct E as (E1 & E2 & E3 & E4 & E5 & _).
  destruct (un_ptr a) as [a'| |] eqn:Ua; try discriminate. destruct (un_vec g) as [g'| |] eqn:Ug; try discriminate.
  destruct (un_vec e) as [e'| |] eqn:Ue; try discriminate. destruct (un_flags f) as [f'| |] eqn:Uf; try discriminate.
  destruct (un_int u) as [u'| |] eqn:Uu; try discriminate. injection H as <-.
  unfold meshex_ok. cbn [mx_all mx_groups mx_entries mx_flags mx_unk1].
  rewrite !andb_true_iff. refine (conj (conj (conj (conj _ _) _) _) _).
  - destruct a; try discriminate. injection Ua as <-. exact E1.
  - destruct g as [| | | |[[]|]|]; try discriminate; injection Ug as <-; [|reflexivity].
    cbn [wt groups_ty vec_ptr option_map opt_len]. apply andb_true_iff in E2 as [_ E2].
    now rewrite Z.eqb_refl.
  - destruct e as [| | | |[[]|]|]; try discriminate; injection Ue as <-; [|reflexivity].
    cbn [wt entries_ty vec_ptr option_map opt_len]. apply andb_true_iff in E3 as [_ E3].
    now rewrite Z.eqb_refl.
  - destruct f as [| | | |[[| |[|[] [|]]| | |]|]|]; try discriminate; injection Uf as <-; [|reflexivity].
    unfold flags_ty, EntryFlags, aligned, flags_ptr. cbn [wt map option_map opt_len]. rewrite Z.eqb_refl.
    apply andb_true_iff in E4 as [E4 _]. apply andb_true_iff in E4 as [_ E4]. now rewrite E4.
  - destruct u; try discriminate. injection Uu as <-. exact E5.
Qed.

Lemma adj_accepted j x : proper j = true -> adj_from_json j = Some x -> adj_ok x = true.
Proof.
  intros P H. unfold adj_from_json in H. destruct (from_json s_adj_Adj j) as [v|] eqn:E; [|discriminate].
  apply (from_json_wt _ AdjTy adj_schema_ok eq_refl eq_refl _ _ P) in E.
  unfold AdjTy, record in E. cbn [map] in E.
  destruct v as [| |[|[| | |es| |] [|[| | |xs| |] [|]]]| | |]; try discriminate; cbn [adj_of_val] in H; try discriminate.
  destruct (opt_all (map entry_of_val es)) as [es'|] eqn:Ee; [|discriminate].
  destruct (opt_all (map index_of_val xs)) as [xs'|] eqn:Ex; [|discriminate]. injection H as <-.
  apply opt_all_inv in Ee, Ex.
  change ((zlen es <? two64) && forallb (wt AdjEntry) es && ((zlen xs <? two64) && forallb (wt i16) xs && true) = true) in E.
  rewrite !andb_true_iff in E. destruct E as ((_ & E1) & (_ & E2) & _).
  unfold adj_ok. cbn [ad_entries ad_indices]. apply andb_true_iff. split.
  - clear Ex E2. revert es' Ee. induction es as [|v es IH]; intros [|e' es'] Ee; try discriminate; auto.
    cbn [map] in Ee. injection Ee as E3 E4. cbn [forallb] in *. apply andb_true_iff in E1 as [E1 E5].
    rewrite (IH E5 _ E4), andb_true_r.
    destruct v as [| |[|[] [|[] [|]]]| | |]; try discriminate. injection E3 as <-.
    cbn in E1. unfold u32_ok. cbn [fst snd]. change (2 ^ 32) with 4294967296. rewrite andb_true_r in E1. exact E1.
  - clear Ee E1. revert xs' Ex. induction xs as [|v xs IH]; intros [|x' xs'] Ex; try discriminate; auto.
    cbn [map] in Ex. injection Ex as E3 E4. cbn [forallb] in *. apply andb_true_iff in E2 as [E2 E5].
    rewrite (IH E5 _ E4), andb_true_r.
    destruct v; try discriminate. injection E3 as <-. exact E2.
Qed.

Theorem accepted_ok j d : proper j = true -> read_document j = Some d -> document_ok d.
Proof.
  intros P H. unfold read_document in H.
  destruct (ssbh_from_json j) as [f|] eqn:E1.
  { injection H as <-. exact (ssbh_accepted _ _ P E1). }
  destruct (meshex_from_json j) as [x|] eqn:E2.
  { injection H as <-. exact (meshex_accepted _ _ P E2). }
  destruct (adj_from_json j) as [x|] eqn:E3; [|discriminate].
  injection H as <-. exact (adj_accepted _ _ P E3).
Qed.

Theorem save_result d : document_ok d -> countable d ->
  (~ balanced d -> save d = Err ECount) /\
  (balanced d -> (exists out, save d = Ok out) \/ save d = Err EPtrRange).
Proof.
  destruct d as [f|x|x]; cbn [document_ok countable balanced save]; intros H C.
  - split; [tauto|]. left. now apply file_write_total.
  - destruct C as (C1 & C2 & C3). exact (meshex_errors x H C1 C2 C3).
  - split; [tauto|]. left. destruct (adj_roundtrip x H C) as (out & W & _). eauto.
Qed.

Theorem accepted_saved j d : proper j = true -> read_document j = Some d -> countable d ->
  (~ balanced d -> json_to_file j = Some (output_ext d, Panic)) /\
  (balanced d -> save d <> Err EPtrRange ->
     exists out, json_to_file j = Some (output_ext d, Ok out) /\
       (zlen out < 2 ^ 63 -> load (output_ext d) out = Ok d)).
Proof.
  intros P R C. pose proof (accepted_ok _ _ P R) as H. destruct (save_result d H C) as (S1 & S2).
  unfold json_to_file. rewrite R. split.
  - intros B. now rewrite (S1 B).
  - intros B N. destruct (S2 B) as [(out & W)|W]; [|tauto]. exists out. rewrite W. split; [reflexivity|].
    now apply save_load.
Qed.
