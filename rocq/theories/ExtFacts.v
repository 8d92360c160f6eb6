(** Placement of pointed-to data: the extents reached through the stored offsets are
    laid out one after another. *)
From Coq Require Import Lia ZifyBool ZifyNat ZifyN.
From Verif Require Import Bytes BytesFacts Ssbh Described SsbhFacts Roundtrip RoundtripMain WriteFacts SsbhSpec DecFacts.
Ltac Zify.zify_post_hook ::= ZifyBool.elim_bool_cstr; Z.to_euclidean_division_equations.

Local Opaque two64 le_bytes put Z.max Z.sub Z.add round_up.


(** ** Extents: [refs] without the owner *)
Record extent := mkExt { e_start : Z; e_len : Z; e_align : Z }.

Fixpoint elems_extents (ext : Z -> val -> list extent) (step p : Z) (vs : list val) : list extent :=
  match vs with
  | [] => []
  | v :: r => ext p v ++ elems_extents ext step (p + step) r
  end.

Fixpoint extents (b : list Z) (t : ty) (p : Z) (v : val) : list extent :=
  match t, v with
  | TStruct fs _ _ _, VStruct vs =>
      (fix go (fs : list (ty * (Z * Z))) (p : Z) (vs : list val) : list extent :=
         match fs, vs with
         | (t', (_, pad)) :: fr, v' :: vr => extents b t' p v' ++ go fr (p + inline_size t' + pad) vr
         | _, _ => []
         end) fs p vs
  | TRel t', VPtr (Some v') =>
      let q := p + u64_at b p in
      mkExt q (object_size t' v') (ssbh_align t') :: extents b t' q v'
  | TAbs w t', VPtr (Some v') =>
      let q := uint_of b p w in
      mkExt q (object_size t' v') (ssbh_align t') :: extents b t' q v'
  | TArr t', VArr (v0 :: vs) =>
      let q := p + u64_at b p in
      mkExt q (zlen (v0 :: vs) * inline_size t') 8
        :: elems_extents (extents b t') (inline_size t') q (v0 :: vs)
  | TBuf, VBytes (x :: bs) => [mkExt (p + u64_at b p) (zlen (x :: bs)) 8]
  | TEnum vs, VPtr (Some (VCase tag v')) =>
      let q := p + u64_at b p in
      (fix go (cs : list (Z * ty)) : list extent :=
         match cs with
         | [] => []
         | (tg, t') :: r =>
             if tag =? tg then mkExt q (object_size t' v') (enum_align vs) :: extents b t' q v'
             else go r
         end) vs
  | TFix _ t', VArr vs | TVec _ t', VArr vs => elems_extents (extents b t') (inline_size t') p vs
  | _, _ => []
  end.

(** The extents follow each other without overlap, the first starting at or after [e];
    each start is a multiple of the alignment, the unused gap before each is shorter than
    [g], and every non-empty extent ends at or before [bound]. *)
Fixpoint laid_out (g e bound : Z) (l : list extent) : Prop :=
  match l with
  | [] => True
  | x :: r =>
      e <= e_start x < e + g /\ e_start x mod e_align x = 0 /\ 0 <= e_len x /\
      (0 < e_len x -> e_start x + e_len x <= bound) /\
      laid_out g (e_start x + e_len x) bound r
  end.

Definition aln_fields (A : Z) : list field -> bool :=
  fix go fs := match fs with [] => true | (t', _) :: r => aln A t' && go r end.

Lemma aln_struct A fs a b c : aln A (TStruct fs a b c) = aln_fields A fs.
Proof. reflexivity. Qed.

Lemma aln_case A vs tag t : aln A (TEnum vs) = true -> In (tag, t) vs -> A mod enum_align vs = 0 /\ aln A t = true.
Proof.
  intros H HI. cbn [aln] in H. apply andb_true_iff in H as [H1 H2]. split; [lia|].
  induction vs as [|[tg t0] r IH]; [destruct HI|]. bsplit H2.
  destruct HI as [[= -> ->]|HI]; auto. clear H1. revert HI H. clear - r.
  induction r as [|[tg t0] r IH]; [intros []|]. cbn. intros HI H. bsplit H.
  destruct HI as [[= -> ->]|HI]; auto.
Qed.

Lemma isize_csize t : twf MInline t = true -> inline_size t = csize t.
Proof.
  induction t using ty_ind'; intros E; cbn [inline_size csize]; auto.
  - fold (isize_fields fs). fold (csize_fields fs). rewrite twf_struct in E.
    apply andb_true_iff in E as [E HT]. bsplit E. clear E H0 H1.
    induction fs as [|[t' [wp rp]] r IH]; cbn [isize_fields csize_fields twf_fields] in *; [lia|].
    inversion H as [|? ? Ht Hr]; subst. bsplit HT. destruct r as [|f r'].
    + bsplit H0. cbn [isize_fields csize_fields]. cbn [fst] in Ht. rewrite Ht by auto. lia.
    + set (r := f :: r') in *. bsplit H0. cbn [fst] in Ht. rewrite Ht by auto. specialize (IH Hr H1). lia.
  - cbn [twf] in E. bsplit E. rewrite IHt; auto.
  - cbn [twf] in E. bsplit E. rewrite IHt; auto.
Qed.

Fixpoint last_end (e : Z) (l : list extent) : Z :=
  match l with [] => e | x :: r => last_end (e_start x + e_len x) r end.

Lemma last_end_app e l r : last_end e (l ++ r) = last_end (last_end e l) r.
Proof. revert e; induction l; cbn; auto. Qed.

Lemma laid_out_app g e bd l r :
  laid_out g e bd (l ++ r) <-> laid_out g e bd l /\ laid_out g (last_end e l) bd r.
Proof. revert e; induction l as [|x l IH]; intros e; cbn; [tauto|]. rewrite IH. tauto. Qed.

Lemma laid_out_end g e bd l : laid_out g e bd l -> e <= last_end e l.
Proof.
  revert e; induction l as [|x l IH]; intros e; cbn; [lia|]. intros (A & _ & B & _ & C).
  apply IH in C. lia.
Qed.

Definition ext_fields (b : list Z) : list field -> Z -> list val -> list extent :=
  fix go fs p vs := match fs, vs with
  | (t', (_, pad)) :: fr, v' :: vr => extents b t' p v' ++ go fr (p + inline_size t' + pad) vr
  | _, _ => []
  end.

Lemma ext_struct b fs x y z p vs : extents b (TStruct fs x y z) p (VStruct vs) = ext_fields b fs p vs.
Proof. reflexivity. Qed.

Lemma ext_enum b vs p tag v :
  extents b (TEnum vs) p (VPtr (Some (VCase tag v))) =
  match find_case tag vs with
  | Some t' => mkExt (p + u64_at b p) (object_size t' v) (enum_align vs)
                 :: extents b t' (p + u64_at b p) v
  | None => []
  end.
Proof.
  cbn [extents]. generalize (enum_align vs). intros al.
  induction vs as [|[tg t'] r IH]; cbn [find_case]; auto. destruct (tag =? tg); auto.
Qed.

Lemma u64_at_read b p o q : read_int 8 b p = Ok (o, q) -> u64_at b p = o.
Proof.
  unfold read_int, u64_at. change (Z.to_nat 8) with 8%nat.
  destruct (get_bytes 8 b p); [|discriminate]. congruence.
Qed.

Lemma uint_of_read w b p o q : read_int w b p = Ok (o, q) -> uint_of b p w = o.
Proof.
  unfold read_int, uint_of. destruct (get_bytes (Z.to_nat w) b p); [|discriminate]. congruence.
Qed.

Lemma written_bound b b' (R : Z -> Prop) q :
  0 < q -> q <= zlen b -> agree R b b' -> R (q - 1) -> q <= zlen b'.
Proof.
  intros H0 H1 HA HR. destruct (byte_at_ex b (q - 1)) as [x Hx]; [lia|].
  apply HA in Hx; auto. apply byte_at_some in Hx. lia.
Qed.

Section Ext.
  Context (A : Z) (HA : 0 < A) (HA8 : A mod 8 = 0).

  Lemma ru_mono x y : x <= y -> round_up x A <= round_up y A.
  Proof. intros H. apply round_up_least; auto; [|apply round_up_mod; auto]. pose proof (round_up_ge y A HA). lia. Qed.

  Lemma ru_ge x : x <= round_up x A.
  Proof. apply round_up_ge; auto. Qed.

  Lemma ru_round x e a : 0 < a -> A mod a = 0 -> x <= round_up e A -> round_up x a <= round_up e A.
  Proof.
    intros Ha Hm H. apply round_up_least; auto.
    pose proof (round_up_mod e A HA) as HM. apply Z.mod_divide in HM; [|lia]. apply Z.mod_divide in Hm; [|lia].
    apply Z.mod_divide; [lia|]. eapply Z.divide_trans; eauto.
  Qed.

  Definition xspec (n : Z) (ext : list Z -> list extent) (s s' : wst) : Prop :=
    forall e b, wpos s + n <= e -> e <= Z.max (wdp s) (wpos s + n) -> wdp s <= round_up e A ->
      wdp s' < two64 -> agree (wreg s s' n) (wbuf s') b ->
      laid_out A e (zlen b) (ext b) /\ last_end e (ext b) <= Z.max (wdp s') (wpos s + n) /\
      wdp s' <= round_up (last_end e (ext b)) A.

  Lemma xspec_bump n k ext s s' : 0 <= k <= n -> xspec n ext (bump k s) s' -> xspec n ext s s'.
  Proof.
    intros Hk H e b H1 H2 H3 H4 H5. unfold xspec, wreg, reg in *. rewrite bump_eq in H. ws.
    apply H; auto; try lia.
    - pose proof (ru_ge e). lia.
    - eapply agree_mono; [|exact H5]. cbv beta. lia.
  Qed.

  Lemma xspec_nil n s s' : 0 <= n -> wdp s' = wdp s -> xspec n (fun _ => []) s s'.
  Proof. intros Hn Hd e b H1 H2 H3 H4 H5. cbn. rewrite Hd. split; [exact I|split; lia]. Qed.

  Definition xtarget (wr : wst -> res wst) (ext : list Z -> Z -> list extent) (osz : Z) : Prop :=
    forall s s3, 0 <= wpos s -> wpos s = wdp s -> wr s = Ok s3 ->
      0 <= osz /\ wpos s3 = wpos s + osz /\
      forall b, Z.max (wpos s3) (wdp s3) < two64 ->
        agree (fun i => wpos s <= i < Z.max (wpos s3) (wdp s3)) (wbuf s3) b ->
        (0 < osz -> wpos s + osz <= zlen b) /\
        laid_out A (wpos s + osz) (zlen b) (ext b (wpos s)) /\
        last_end (wpos s + osz) (ext b (wpos s)) <= Z.max (wpos s3) (wdp s3) /\
        Z.max (wpos s3) (wdp s3) <= round_up (last_end (wpos s + osz) (ext b (wpos s))) A.

  (** Common part of both kinds of pointers: [q] is the target position. *)
  Lemma x_target a wr rd v ext osz buf q s3 d' :
    0 < a -> A mod a = 0 -> 0 <= q -> q mod a = 0 -> target_ok wr rd v -> xtarget wr ext osz ->
    wr (mkW buf q q) = Ok s3 ->
    d' = (if wdp s3 <? wpos s3 then round_up (wpos s3) a else wdp s3) ->
    forall e b, e <= q <= round_up e A -> d' < two64 ->
      agree (fun i => q <= i < d') (wbuf s3) b ->
      laid_out A e (zlen b) (mkExt q osz a :: ext b q) /\
      last_end e (mkExt q osz a :: ext b q) <= d' /\
      d' <= round_up (last_end e (mkExt q osz a :: ext b q)) A.
  Proof.
    intros Ha Hm Hq Hqa HT HX E Hd' e b He Hlt HAg.
    destruct (HT (mkW buf q q) s3 Hq eq_refl E) as (T1 & T2 & _ & _).
    destruct (HX (mkW buf q q) s3 Hq eq_refl E) as (X1 & X2 & X3). ws.
    assert (D4 : Z.max (wpos s3) (wdp s3) <= d').
    { rewrite Hd'. destruct (Z.ltb_spec (wdp s3) (wpos s3)); [|lia].
      pose proof (round_up_ge (wpos s3) a Ha). lia. }
    destruct (X3 b ltac:(lia)) as (Y1 & Y2 & Y3 & Y4).
    { eapply agree_mono; [|exact HAg]. cbv beta. lia. }
    pose proof (round_up_lt e A HA) as HG.
    cbn [laid_out last_end e_start e_len e_align]. split; [|split].
    - split; [lia|]. split; auto.
    - lia.
    - rewrite Hd'. destruct (Z.ltb_spec (wdp s3) (wpos s3)); [|lia].
      apply ru_round; auto. lia.
  Qed.

  Lemma x_relptr a wr rd v ext osz s s' :
    0 < a -> A mod a = 0 -> 0 <= wpos s -> 0 <= wdp s -> target_ok wr rd v -> xtarget wr ext osz ->
    write_relptr a (Some wr) s = Ok s' ->
    xspec 8 (fun b => mkExt (wpos s + u64_at b (wpos s)) osz a :: ext b (wpos s + u64_at b (wpos s))) s s'.
  Proof.
    intros Ha Hm Hp Hd HT HX H. unfold write_relptr, write_rel_ptr_aligned in H.
    rewrite bump_eq in H. ws.
    set (d0 := Z.max (wdp s) (wpos s + 8)) in *. set (du := round_up d0 a) in *.
    assert (Hdu : d0 <= du) by (apply round_up_ge; auto).
    apply bind_ok in H as (s2 & E2 & H). unfold write_relative_offset in E2. ws.
    destruct (Z.ltb_spec du (wpos s)); [discriminate|]. injection E2 as <-.
    apply bind_ok in H as (s3 & E3 & H). injection H as <-. ws.
    rewrite zlen_le_bytes in *. change (Z.of_nat 8) with 8 in *.
    pose proof E3 as E3'. unfold seek in E3'. cbn [wbuf wdp] in E3'.
    apply HT in E3 as (T1 & T2 & T3 & _); ws; try lia.
    set (s4 := if wdp s3 <? wpos s3 then set_dp (round_up (wpos s3) a) s3 else s3).
    assert (B4 : wbuf s4 = wbuf s3) by (unfold s4; destruct (_ <? _); auto).
    assert (D4 : wdp s4 = if wdp s3 <? wpos s3 then round_up (wpos s3) a else wdp s3)
      by (unfold s4; destruct (_ <? _); auto).
    clearbody s4. ws.
    assert (DD : Z.max (wpos s3) (wdp s3) <= wdp s4).
    { rewrite D4. destruct (Z.ltb_spec (wdp s3) (wpos s3)); [|lia].
      pose proof (round_up_ge (wpos s3) a Ha). lia. }
    intros e b H1 H2 H3 H4 H5. unfold wreg, reg in *. ws. rewrite B4 in *. fold d0 in H2, H5.
    assert (R1 : read_int 8 b (wpos s) = Ok (du - wpos s, wpos s + 8)).
    { apply (read_int_agree 8 (du - wpos s) s (fun i => wpos s <= i < wpos s + 8)); try lia.
      - rewrite pow256_8. lia.
      - eapply agree_trans.
        + eapply agree_mono; [|exact T3]. cbn. lia.
        + eapply agree_mono; [|exact H5]. cbv beta. lia. }
    rewrite (u64_at_read _ _ _ _ R1). replace (wpos s + (du - wpos s)) with du by lia.
    destruct (x_target a wr rd v ext osz _ du s3 (wdp s4) Ha Hm ltac:(lia)
      ltac:(apply round_up_mod; auto) HT HX E3' D4 e b) as (L1 & L2 & L3); auto.
    - split; [lia|]. unfold du. apply ru_round; auto. pose proof (ru_ge e). lia.
    - eapply agree_mono; [|exact H5]. cbv beta. lia.
    - split; [|split]; auto. lia.
  Qed.

  Lemma x_absptr w a wr rd v ext osz s s' :
    0 < w -> 0 < a -> A mod a = 0 -> 0 <= wpos s -> 0 <= wdp s -> target_ok wr rd v -> xtarget wr ext osz ->
    write_absptr w a (Some wr) s = Ok s' ->
    xspec w (fun b => mkExt (uint_of b (wpos s) w) osz a :: ext b (uint_of b (wpos s) w)) s s'.
  Proof.
    intros Hw Ha Hm Hp Hd HT HX H. unfold write_absptr in H.
    rewrite !bump_eq in H. ws.
    replace (Z.max (Z.max (wdp s) (wpos s + w)) (wpos s + w))
      with (Z.max (wdp s) (wpos s + w)) in H by lia.
    set (d0 := Z.max (wdp s) (wpos s + w)) in *. set (du := round_up d0 a) in *.
    assert (Hdu : d0 <= du) by (apply round_up_ge; auto).
    destruct (Z.ltb_spec du (256 ^ w)) as [Hpw|]; [|discriminate].
    apply bind_ok in H as (s3 & E3 & H). injection H as <-. ws.
    rewrite zlen_le_bytes in *. assert (Z.of_nat (Z.to_nat w) = w) as Hww by lia. rewrite Hww in *.
    pose proof E3 as E3'. unfold seek in E3'. cbn [wbuf wdp] in E3'.
    apply HT in E3 as (T1 & T2 & T3 & _); ws; try lia.
    set (s4 := if wdp s3 <? wpos s3 then set_dp (round_up (wpos s3) a) s3 else s3).
    assert (B4 : wbuf s4 = wbuf s3) by (unfold s4; destruct (_ <? _); auto).
    assert (D4 : wdp s4 = if wdp s3 <? wpos s3 then round_up (wpos s3) a else wdp s3)
      by (unfold s4; destruct (_ <? _); auto).
    clearbody s4. ws.
    assert (DD : Z.max (wpos s3) (wdp s3) <= wdp s4).
    { rewrite D4. destruct (Z.ltb_spec (wdp s3) (wpos s3)); [|lia].
      pose proof (round_up_ge (wpos s3) a Ha). lia. }
    intros e b H1 H2 H3 H4 H5. unfold wreg, reg in *. ws. rewrite B4 in *. fold d0 in H2, H5.
    assert (R1 : read_int w b (wpos s) = Ok (du, wpos s + w)).
    { apply (read_int_agree w du s (fun i => wpos s <= i < wpos s + w)); try lia.
      eapply agree_trans.
      + eapply agree_mono; [|exact T3]. cbn. lia.
      + eapply agree_mono; [|exact H5]. cbv beta. lia. }
    rewrite (uint_of_read _ _ _ _ _ R1).
    destruct (x_target a wr rd v ext osz _ du s3 (wdp s4) Ha Hm ltac:(lia)
      ltac:(apply round_up_mod; auto) HT HX E3' D4 e b) as (L1 & L2 & L3); auto.
    - split; [lia|]. unfold du. apply ru_round; auto. pose proof (ru_ge e). lia.
    - eapply agree_mono; [|exact H5]. cbv beta. lia.
    - split; [|split]; auto. lia.
  Qed.

  (** Targets *)
  Lemma x_target_tail t v :
    twf MTail t = true -> al16 t = true -> wt t v = true ->
    (forall s s', 0 <= wpos s -> 0 <= wdp s -> write t v s = Ok s' ->
       xspec (csize t) (fun b => extents b t (wpos s) v) s s') ->
    xtarget (write t v) (fun b p => extents b t p v) (csize t).
  Proof.
    intros Et H16 W HX s s3 Hp Hpd E.
    pose proof (csize_nonneg _ _ Et) as HC.
    destruct (wok_all t MTail ltac:(discriminate) Et v s s3 W Hp ltac:(lia) E) as [P1 P2 P3 _].
    destruct (dp_all t MTail v s s3 ltac:(discriminate) Et H16 W Hp ltac:(lia) E) as (D1 & D2 & _).
    split; [auto|]. split; [auto|]. intros b Hlt HAg.
    pose proof (HX s s3 Hp ltac:(lia) E) as HX'.
    unfold xspec, wreg, reg in HX'.
    destruct (HX' (wpos s + csize t) b) as (L1 & L2 & L3); try lia.
    { pose proof (ru_ge (wpos s + csize t)). lia. }
    { eapply agree_mono; [|exact HAg]. cbv beta. lia. }
    split; [|split; [|split]]; auto; try lia.
    - intros Hpos. apply (written_bound (wbuf s3) b _ (wpos s + csize t) ltac:(lia) ltac:(lia) HAg). lia.
    - apply laid_out_end in L1. pose proof (ru_ge (last_end (wpos s + csize t) (extents b t (wpos s) v))). lia.
  Qed.

  Lemma x_target_cstr n bs :
    0 < n -> xtarget (write (TCStr n) (VBytes bs)) (fun b p => extents b (TCStr n) p (VBytes bs))
      (object_size (TCStr n) (VBytes bs)).
  Proof.
    intros Hn s s3 Hp Hpd E.
    destruct (cstr_dptarget n bs Hn s s3 Hp Hpd E) as (D1 & D2 & _).
    cbn [write] in E. injection E as <-.
    set (k := object_size (TCStr n) (VBytes bs)).
    assert (Hk : 0 < k) by (unfold k; cbn; destruct bs; [lia|pose proof (zlen_nonneg (z :: bs)); lia]).
    assert (E1 : wpos (write_cstring n bs s) = wpos s + k).
    { unfold write_cstring, k. destruct bs; cbn [emit wpos object_size].
      - rewrite zlen_zeros; lia.
      - change (zlen [0]) with 1. lia. }
    assert (E2 : wdp (write_cstring n bs s) = wdp s) by (destruct bs; reflexivity).
    clearbody k. rewrite E1, E2 in *. split; [lia|]. split; [auto|]. intros b Hlt HAg.
    cbn [extents laid_out last_end]. split; [|split; [|split]]; auto; try lia.
    - intros _. apply (written_bound (wbuf (write_cstring n bs s)) b _ (wpos s + k) ltac:(lia) ltac:(lia) HAg). lia.
    - pose proof (ru_ge (wpos s + k)). lia.
  Qed.

  Lemma object_csize t v : twf MTail t = true -> wt t v = true -> object_size t v = csize t.
  Proof.
    intros E W. destruct t; try reflexivity. discriminate E.
  Qed.

  Lemma x_target_any t v :
    twf MPtr t = true -> al16 t = true -> wt t v = true ->
    (forall s s', twf MTail t = true -> 0 <= wpos s -> 0 <= wdp s -> write t v s = Ok s' ->
       xspec (csize t) (fun b => extents b t (wpos s) v) s s') ->
    xtarget (write t v) (fun b p => extents b t p v) (object_size t v).
  Proof.
    intros E H16 W HX. destruct (twf_ptr t E) as [Et|(n & -> & Hn)].
    - rewrite object_csize by auto. apply x_target_tail; auto.
    - destruct v; try discriminate W. apply x_target_cstr; auto.
  Qed.

  (** Elements and fields *)
  Lemma x_list t vs : twf MInline t = true ->
    (forall v s s', In v vs -> wt t v = true -> 0 <= wpos s -> 0 <= wdp s -> write t v s = Ok s' ->
       xspec (csize t) (fun b => extents b t (wpos s) v) s s') ->
    forall s s', forallb (wt t) vs = true -> 0 <= wpos s -> 0 <= wdp s ->
    wpos s + zlen vs * csize t <= wdp s ->
    write_list (fun v' => write t v') vs s = Ok s' ->
    forall e b, wpos s + zlen vs * csize t <= e -> e <= wdp s -> wdp s <= round_up e A ->
      wdp s' < two64 -> agree (wreg s s' (zlen vs * csize t)) (wbuf s') b ->
      let l := elems_extents (extents b t) (csize t) (wpos s) vs in
      laid_out A e (zlen b) l /\ last_end e l <= wdp s' /\ wdp s' <= round_up (last_end e l) A.
  Proof.
    intros E HW. pose proof (csize_nonneg _ _ E) as HC.
    assert (HWok : wok MInline t) by (apply wok_all; auto; discriminate).
    set (c := csize t) in *.
    induction vs as [|v r IH]; intros s s' W Hp Hd Hle H e b H1 H2 H3 H4 H5.
    - cbn in H. injection H as <-. cbn. split; [auto|]. split; lia.
    - cbn [write_list] in H. apply bind_ok in H as (s1 & E1 & H). cbn in W. bsplit W.
      rewrite zlen_cons in *. pose proof (zlen_nonneg r) as HL.
      replace ((1 + zlen r) * c) with (c + zlen r * c) in * by lia.
      assert (0 <= zlen r * c) by nia.
      destruct (HWok v s s1 W Hp Hd E1) as [PA PB PC PD]. fold c in PA, PC, PD.
      destruct (write_list_spec t r E HWok s1 s') as (IA & IB & IC & ID); fold c; auto; try lia.
      fold c in IA, IC.
      pose proof (HW v s s1 (or_introl eq_refl) W Hp Hd E1) as HX. fold c in HX.
      unfold xspec, wreg, reg in *.
      destruct (HX e b) as (L1 & L2 & L3); auto; try lia.
      { eapply agree_trans; [eapply agree_mono; [|exact IC]|eapply agree_mono; [|exact H5]]; cbv beta; lia. }
      pose proof (laid_out_end _ _ _ _ L1) as HE.
      cbn [elems_extents]. set (e1 := last_end e (extents b t (wpos s) v)) in *.
      destruct (IH ltac:(intros; eapply HW; eauto; right; auto) s1 s') with (e := e1) (b := b)
        as (M1 & M2 & M3); auto; try lia.
      { eapply agree_mono; [|exact H5]. cbv beta; lia. }
      rewrite PA in M1, M2, M3.
      cbv zeta. rewrite laid_out_app, last_end_app. fold e1. auto.
  Qed.

  (** [lia] without the boolean hypotheses, which it is slow to translate. *)
  Local Ltac qlia := (repeat match goal with HX : @eq bool _ _ |- _ => clear HX end); lia.

  Lemma x_fields m spad fs :
    m <> MPtr -> 0 <= spad ->
    Forall (fun f => forall m v s s', m <> MPtr -> twf m (fst f) = true -> aln A (fst f) = true ->
       al16 (fst f) = true -> wt (fst f) v = true ->
       0 <= wpos s -> 0 <= wdp s -> write (fst f) v s = Ok s' ->
       xspec (csize (fst f)) (fun b => extents b (fst f) (wpos s) v) s s') fs ->
    twf_fields m spad fs = true -> aln_fields A fs = true ->
    al16 (TStruct fs 0 0 None) = true ->
    forall vs s s', wt_fields fs vs = true -> 0 <= wpos s -> 0 <= wdp s ->
    wpos s + csize_fields fs + spad <= wdp s ->
    write_fields fs vs s = Ok s' ->
    forall e b, wpos s + csize_fields fs + spad <= e -> e <= wdp s -> wdp s <= round_up e A ->
      wdp s' < two64 -> agree (wreg s s' (csize_fields fs)) (wbuf s') b ->
      let l := ext_fields b fs (wpos s) vs in
      laid_out A e (zlen b) l /\ last_end e l <= wdp s' /\ wdp s' <= round_up (last_end e l) A.
  Proof.
    intros Hm Hs. induction fs as [|[t [wp rp]] r IH]; intros HF E HAl H16 vs s s' W Hp Hd Hle H e b H1 H2 H3 H4 H5.
    - destruct vs; [|discriminate W]. cbn in H. injection H as <-. cbn. split; [auto|]. split; lia.
    - destruct vs as [|v vr]; [discriminate W|].
      cbn [wt_fields] in W. apply andb_true_iff in W as [W Wr]. cbn [write_fields] in H.
      apply bind_ok in H as (s1 & E1 & H).
      inversion HF as [|? ? Ht Hr]; subst. cbn [fst] in Ht.
      cbn [aln_fields] in HAl. apply andb_true_iff in HAl as [HAt HAr].
      change (al16 t && al16 (TStruct r 0 0 None) = true) in H16. apply andb_true_iff in H16 as [H16t H16r].
      cbn [csize_fields] in *. cbn [twf_fields] in E. apply andb_true_iff in E as [Ewp Er].
      assert (Et : exists m', m' <> MPtr /\ twf m' t = true /\ (r <> [] -> m' = MInline)).
      { destruct r.
        - destruct m; [exists MInline|exists MTail|congruence]; bsplit Er; repeat split; auto; try congruence.
        - exists MInline. bsplit Er. repeat split; auto; congruence. }
      destruct Et as (m' & Hm' & Et & Em1).
      pose proof (csize_nonneg _ _ Et) as HC.
      assert (HR : 0 <= csize_fields r /\ (r <> [] -> twf_fields m spad r = true /\ wp = rp)).
      { destruct r as [|f r']; [cbn; split; [lia|congruence]|]. set (r := f :: r') in *.
        bsplit Er. split; [|split; auto; lia]. clearbody r. clear - H0 Hm. rename H0 into H1.
        induction r as [|[t [wp rp]] r IH]; [cbn; lia|]. cbn [twf_fields csize_fields] in *. bsplit H1.
        destruct r.
        - cbn. assert (0 <= csize t); [|lia]. destruct m; bsplit H; eapply csize_nonneg; eauto.
        - bsplit H. specialize (IH H0). pose proof (csize_nonneg _ _ H). lia. }
      assert (Hwp : 0 <= wp) by (clear - Ewp; lia).
      destruct HR as [HR HRn].
      destruct (wok_all t m' Hm' Et v s s1 W Hp Hd E1) as [PA PB PC _].
      set (s1' := emit (zeros wp) s1) in *.
      assert (P1 : wpos s1' = wpos s + csize t + wp) by (unfold s1'; cbn; rewrite zlen_zeros; qlia).
      assert (D1 : wdp s1' = wdp s1) by reflexivity.
      assert (F1 : agree (fun i => ~ (wpos s1 <= i < wpos s1 + wp)) (wbuf s1) (wbuf s1')).
      { unfold s1'. apply emit_frame; [qlia|]. rewrite zlen_zeros by qlia. qlia. }
      pose proof (Ht m' v s s1 Hm' Et HAt H16t W Hp Hd E1) as HX.
      cbn [ext_fields]. clearbody s1'.
      destruct r as [|f r'].
      + destruct vr; [|discriminate]. cbn in H. injection H as <-. cbn [csize_fields] in *.
        unfold xspec, wreg, reg in *.
        destruct (HX e b) as (L1 & L2 & L3); auto; try qlia.
        { eapply agree_trans; [eapply agree_mono; [|exact F1]|eapply agree_mono; [|exact H5]]; cbv beta; qlia. }
        cbv zeta. cbn [ext_fields]. rewrite app_nil_r. split; [auto|]. split; qlia.
      + set (r := f :: r') in *. destruct HRn as [HTr Hpad]; [discriminate|].
        assert (m' = MInline) as -> by (apply Em1; discriminate). clearbody r.
        assert (HFW : Forall (fun f => forall m, m <> MPtr -> twf m (fst f) = true -> wok m (fst f)) r).
        { clear. induction r; constructor; auto. intros; apply wok_all; auto. }
        destruct (write_fields_spec m spad r Hm Hs HFW HTr vr s1' s') as (IA & IB & IC & _); auto; try qlia.
        unfold xspec, wreg, reg in *.
        destruct (HX e b) as (L1 & L2 & L3); auto; try qlia.
        { eapply agree_trans; [eapply agree_mono; [|exact F1]|
          eapply agree_trans; [eapply agree_mono; [|exact IC]|eapply agree_mono; [|exact H5]]]; cbv beta; qlia. }
        pose proof (laid_out_end _ _ _ _ L1) as HE.
        set (e1 := last_end e (extents b t (wpos s) v)) in *.
        destruct (IH Hr HTr HAr H16r vr s1' s') with (e := e1) (b := b) as (M1 & M2 & M3); auto; try qlia.
        { eapply agree_mono; [|exact H5]. cbv beta; qlia. }
        rewrite P1 in M1, M2, M3. rewrite (isize_csize t) by auto. rewrite <- Hpad.
        cbv zeta. rewrite laid_out_app, last_end_app. fold e1. auto.
  Qed.

  Theorem x_all t : forall m v s s', m <> MPtr -> twf m t = true -> aln A t = true -> al16 t = true ->
    wt t v = true -> 0 <= wpos s -> 0 <= wdp s -> write t v s = Ok s' ->
    xspec (csize t) (fun b => extents b t (wpos s) v) s s'.
  Proof.
    induction t as [w|w ra tags|w| |fs spad aa al HF|t IHt|w t IHt|t IHt| |n|vs HF|n t IHt|n t IHt]
      using ty_ind'; intros m v s s' Hm E HAl H16 W Hp Hd H; pose proof E as E0;
      destruct v; try discriminate W.
    - cbn [write] in H. injection H as <-. cbn [twf] in E. apply xspec_nil; [cbn; lia|reflexivity].
    - cbn [write] in H. injection H as <-. cbn [twf] in E. bsplit E. cbn [csize].
      apply (xspec_bump _ w); [lia|]. apply xspec_nil; [lia|reflexivity].
    - cbn [write] in H. injection H as <-. cbn [twf] in E. cbn [csize].
      apply (xspec_bump _ w); [lia|]. apply xspec_nil; [lia|reflexivity].
    - destruct vs; [|discriminate W]. cbn in H. injection H as <-. apply xspec_nil; [cbn; lia|reflexivity].
    - rewrite wt_struct in W. rewrite write_struct in H.
      pose proof (csize_nonneg _ _ E) as HC. rewrite csize_struct in *.
      rewrite twf_struct in E. apply andb_true_iff in E as [E HTF]. bsplit E.
      assert (aa = 0) as -> by lia.
      rewrite (size_fields_csize m spad) in H; auto.
      apply bind_ok in H as (s1 & E1 & H). injection H as <-.
      change (align_after 0 (emit (zeros spad) s1)) with (emit (zeros spad) s1).
      apply (xspec_bump _ (csize_fields fs + spad)); [lia|].
      rewrite aln_struct in HAl.
      assert (P0 : wpos (bump (csize_fields fs + spad) s) = wpos s) by apply bump_pos.
      assert (D0 : wdp (bump (csize_fields fs + spad) s) = Z.max (wdp s) (wpos s + (csize_fields fs + spad))) by apply bump_dp.
      set (s0 := bump (csize_fields fs + spad) s) in *. clearbody s0.
      assert (HFW : Forall (fun f => forall m, m <> MPtr -> twf m (fst f) = true -> wok m (fst f)) fs).
      { clear. induction fs; constructor; auto. intros; apply wok_all; auto. }
      destruct (write_fields_spec m spad fs Hm ltac:(lia) HFW HTF vs s0 s1) as (PA & PB & PC & _); auto; try lia.
      assert (HCF : 0 <= csize_fields fs).
      { clear - HTF Hm. rename HTF into H1. induction fs as [|[t [wp rp]] r IH]; [cbn; lia|].
        cbn [twf_fields csize_fields] in *. bsplit H1. destruct r.
        - cbn. assert (0 <= csize t); [|lia]. destruct m; bsplit H; eapply csize_nonneg; eauto.
        - bsplit H. specialize (IH H0). pose proof (csize_nonneg _ _ H). lia. }
      assert (F : agree (fun i => ~ (wpos s1 <= i < wpos s1 + spad)) (wbuf s1) (wbuf (emit (zeros spad) s1))).
      { apply emit_frame; [lia|]. rewrite zlen_zeros; lia. }
      intros e b K1 K2 K3 K4 K5. change (wdp (emit (zeros spad) s1)) with (wdp s1) in *.
      unfold wreg, reg in *. change (wdp (emit (zeros spad) s1)) with (wdp s1) in *.
      rewrite ext_struct, <- P0.
      destruct (x_fields m spad fs Hm ltac:(lia) HF HTF HAl) with (vs := vs) (s := s0) (s' := s1) (e := e) (b := b)
        as (M1 & M2 & M3); auto; try lia.
      { unfold wreg, reg. eapply agree_trans; [eapply agree_mono; [|exact F]|eapply agree_mono; [|exact K5]]; cbv beta; lia. }
      split; [auto|]. split; [lia|auto].
    - cbn [wt] in W. cbn [write] in H. cbn [twf] in E. cbn [aln] in HAl. apply andb_true_iff in HAl as [HAl1 HAl2].
      cbn [al16] in H16. apply andb_true_iff in H16 as [H161 H162].
      destruct o as [v|]; cbn [option_map] in H; cbn [csize].
      + cbn [extents].
        apply (x_relptr _ _ (read t) v (fun b p => extents b t p v)) with (osz := object_size t v) in H; auto.
        * eapply ssbh_align_pos; eauto.
        * lia.
        * apply target_of; auto. intros; apply wok_all; auto; discriminate.
        * apply x_target_any; auto. intros s1 s1' Et Hp1 Hd1 Hw1. apply (IHt MTail); auto; discriminate.
      + unfold write_relptr, write_rel_ptr_aligned in H. injection H as <-.
        apply (xspec_bump _ 8); [lia|]. apply xspec_nil; [lia|reflexivity].
    - cbn [wt] in W. cbn [write] in H. cbn [twf] in E. apply andb_true_iff in E as [Ew E].
      cbn [aln] in HAl. apply andb_true_iff in HAl as [HAl1 HAl2].
      cbn [al16] in H16. apply andb_true_iff in H16 as [H161 H162].
      destruct o as [v|]; cbn [option_map] in H; cbn [csize].
      + cbn [extents].
        apply (x_absptr _ _ _ (read t) v (fun b p => extents b t p v)) with (osz := object_size t v) in H; auto.
        * lia.
        * eapply ssbh_align_pos; eauto.
        * lia.
        * apply target_of; auto. intros; apply wok_all; auto; discriminate.
        * apply x_target_any; auto. intros s1 s1' Et Hp1 Hd1 Hw1. apply (IHt MTail); auto; discriminate.
      + unfold write_absptr in H. injection H as <-.
        apply (xspec_bump _ w); [lia|]. apply xspec_nil; [lia|reflexivity].
    - cbn [wt] in W. apply andb_true_iff in W as [Wl W]. cbn [write] in H. cbn [twf] in E.
      cbn [aln al16] in HAl, H16.
      apply bind_ok in H as (s1 & E1 & H). apply bind_ok in H as (s3 & E3 & H). injection H as <-.
      pose proof (csize_nonneg _ _ E) as HC. pose proof (zlen_nonneg vs) as HL. cbn [csize].
      apply (xspec_bump _ 16); [lia|].
      assert (P0 : wpos (bump 16 s) = wpos s) by apply bump_pos.
      assert (D0 : wdp (bump 16 s) = Z.max (wdp s) (wpos s + 16)) by apply bump_dp.
      rewrite <- P0.
      set (s0 := bump 16 s) in *. clearbody s0.
      destruct (dp_header (zlen vs) s0 s1 ltac:(lia) ltac:(lia) E1) as ((_ & _ & _) & _ & HB & _ & _).
      apply array_header in E1 as (PA & PB & PB' & PC & PD); try lia.
      rewrite slice_size_csize in E3 by auto.
      assert (0 <= zlen vs * csize t) by nia.
      set (sz := zlen vs * csize t) in *.
      assert (IHW : wok MInline t) by (apply wok_all; auto; discriminate).
      set (s2 := bump sz (seek (wdp s1) s1)) in *.
      assert (P2 : wpos s2 = wdp s1) by (unfold s2; rewrite bump_pos; reflexivity).
      assert (D2 : wdp s2 = wdp s1 + sz) by (unfold s2; rewrite bump_dp; cbn [seek wpos wdp]; lia).
      assert (B2 : wbuf s2 = wbuf s1) by (unfold s2; rewrite bump_buf; reflexivity).
      clearbody s2.
      destruct (write_list_spec t vs E IHW s2 s3) as (LA & LB & LC & LD); fold sz; auto; try lia.
      fold sz in LA, LC, LD.
      destruct (dp_list t (csize t) vs) with (s := s2) (s' := s3) as ((Q1 & Q2 & _) & _ & _); auto; try lia.
      { intros v Hv sa sb Ha Hb Hw. rewrite forallb_forall in W. split.
        - apply (dp_all t MInline v); auto; discriminate.
        - destruct (IHW v sa sb (W v Hv) Ha Hb Hw). auto. }
      intros e b K1 K2 K3 K4 K5. unfold wreg, reg in *. ws.
      destruct (PD b) as (R1 & _ & _); [lia| |].
      { rewrite <- B2. eapply agree_trans; [eapply agree_mono; [|exact LC]|eapply agree_mono; [|exact K5]]; cbv beta; lia. }
      destruct vs as [|v0 vr].
      + cbn [extents laid_out last_end]. cbn [write_list] in E3. injection E3 as <-.
        change (zlen (@nil val)) with 0 in *. assert (sz = 0) by (unfold sz; lia).
        rewrite D2, PB. split; [auto|]. split; [rewrite <- PB; lia|].
        assert (round_up (wdp s0) 8 <= round_up e A) by (apply ru_round; auto; lia). lia.
      + cbn [extents]. rewrite (isize_csize t) by auto. set (vs := v0 :: vr) in *. fold sz.
        assert (0 < zlen vs) by (unfold vs; rewrite zlen_cons; pose proof (zlen_nonneg vr); lia).
        clearbody vs. replace (zlen vs =? 0) with false in R1 by lia.
        rewrite (u64_at_read _ _ _ _ R1). replace (wpos s0 + (wdp s1 - wpos s0)) with (wdp s1) by lia.
        assert (HQ : e <= wdp s1 <= round_up e A).
        { split; [lia|]. rewrite PB. apply ru_round; auto; lia. }
        assert (HMod : wdp s1 mod 8 = 0) by (rewrite PB; apply round_up_mod; lia).
        pose proof (round_up_lt e A HA) as HG.
        destruct (x_list t vs E) with (s := s2) (s' := s3) (e := wdp s1 + sz) (b := b) as (M1 & M2 & M3); fold sz; auto; try lia.
        { intros v sa sb Hv Wv Ha Hb Hw. apply (IHt MInline); auto; discriminate. }
        { pose proof (ru_ge (wdp s1 + sz)). lia. }
        { unfold wreg, reg. fold sz. eapply agree_mono; [|exact K5]. cbv beta. lia. }
        rewrite P2 in M1, M2, M3.
        cbn [laid_out last_end e_start e_len e_align]. split; [|split]; auto; try lia.
        split; [lia|]. split; [auto|]. split; [lia|]. split; [|auto].
        intros Hsz. apply (written_bound (wbuf s3) b _ (wdp s1 + sz) ltac:(lia) ltac:(lia) K5). lia.
    - cbn [wt] in W. apply andb_true_iff in W as [Wl W]. cbn [write] in H.
      apply bind_ok in H as (s1 & E1 & H). injection H as <-.
      pose proof (zlen_nonneg bs) as HL. cbn [csize].
      apply (xspec_bump _ 16); [lia|].
      assert (P0 : wpos (bump 16 s) = wpos s) by apply bump_pos.
      assert (D0 : wdp (bump 16 s) = Z.max (wdp s) (wpos s + 16)) by apply bump_dp.
      rewrite <- P0.
      set (s0 := bump 16 s) in *. clearbody s0.
      apply array_header in E1 as (PA & PB & PB' & PC & PD); try lia.
      assert (F : agree (fun i => ~ (wdp s1 <= i < wdp s1 + zlen bs)) (wbuf s1) (put (wbuf s1) (wdp s1) bs)).
      { apply (emit_frame bs (seek (wdp s1) s1)); cbn; [lia|]. lia. }
      intros e b K1 K2 K3 K4 K5. unfold wreg, reg in *. ws.
      destruct (PD b) as (R1 & _ & _); [lia| |].
      { eapply agree_trans; [eapply agree_mono; [|exact F]|eapply agree_mono; [|exact K5]]; cbv beta; lia. }
      assert (HQ : e <= wdp s1 <= round_up e A).
      { split; [lia|]. rewrite PB. apply ru_round; auto; lia. }
      destruct bs as [|x r].
      + cbn [extents laid_out last_end]. change (zlen (@nil Z)) with 0. split; [auto|]. split; lia.
      + cbn [extents]. set (bs := x :: r) in *.
        assert (0 < zlen bs) by (unfold bs; rewrite zlen_cons; pose proof (zlen_nonneg r); lia).
        pose proof (put_len (wbuf s1) (wdp s1) bs ltac:(lia)) as PL.
        assert (PL' : wdp s1 + zlen bs <= zlen (put (wbuf s1) (wdp s1) bs)) by (unfold bs in *; lia).
        clearbody bs. replace (zlen bs =? 0) with false in R1 by lia.
        rewrite (u64_at_read _ _ _ _ R1). replace (wpos s0 + (wdp s1 - wpos s0)) with (wdp s1) by lia.
        assert (HMod : wdp s1 mod 8 = 0) by (rewrite PB; apply round_up_mod; lia).
        pose proof (round_up_lt e A HA) as HG. pose proof (ru_ge (wdp s1 + zlen bs)).
        cbn [laid_out last_end e_start e_len e_align]. split; [|split]; try lia.
        split; [lia|]. split; [auto|]. split; [lia|]. split; [|auto].
        intros _. apply (written_bound (put (wbuf s1) (wdp s1) bs) b _ (wdp s1 + zlen bs) ltac:(lia) ltac:(lia) K5). lia.
    - destruct m; [discriminate E|discriminate E|congruence].
    - destruct o as [v|]; [destruct v; try discriminate W|].
      + rewrite wt_enum in W. rewrite write_enum in H. cbn [csize].
        destruct (find_case tag vs) as [t|] eqn:Ef; [|discriminate].
        destruct (find_case_twf _ _ _ E0 Ef) as [_ Et].
        pose proof (find_case_in _ _ _ Ef) as HI.
        destruct (aln_case _ _ _ _ HAl HI) as [HAe HAt].
        assert (H16t : al16 t = true).
        { clear - H16 HI. cbn [al16] in H16. apply andb_true_iff in H16 as [_ H16].
          induction vs as [|[tg t0] r IH]; [destruct HI|]. apply andb_true_iff in H16 as [X1 X2].
          destruct HI as [[= -> ->]|HI]; auto. }
        rewrite Forall_forall in HF. pose proof (HF _ HI) as HX. cbn [snd] in HX.
        apply bind_ok in H as (s1 & E1 & H). injection H as <-.
        apply (xspec_bump _ 16); [lia|].
        assert (P0 : wpos (bump 16 s) = wpos s) by apply bump_pos.
        assert (D0 : wdp (bump 16 s) = Z.max (wdp s) (wpos s + 16)) by apply bump_dp.
        rewrite <- P0. set (s0 := bump 16 s) in *. clearbody s0.
        assert (TO : target_ok (write t v) (read t) v).
        { apply (wok_target MTail); auto; [eapply csize_nonneg; eauto|apply wok_all; auto; discriminate]. }
        assert (XO : xtarget (write t v) (fun b p => extents b t p v) (object_size t v)).
        { rewrite object_csize by auto. apply x_target_tail; auto. intros. apply (HX MTail); auto; discriminate. }
        pose proof (enum_align_pos vs E0) as Hpos.
        pose proof (x_relptr _ _ (read t) v (fun b p => extents b t p v) (object_size t v) s0 s1
          Hpos HAe ltac:(lia) ltac:(lia) TO XO E1) as XS.
        apply (relptr_some _ _ (read t) v) in E1 as (RA & RB & RB' & RC & RD); auto; try lia.
        intros e b K1 K2 K3 K4 K5. unfold xspec, wreg, reg in *. change (wdp (emit (le_bytes 8 tag) s1)) with (wdp s1) in *.
        rewrite ext_enum, Ef.
        assert (F : agree (fun i => ~ (wpos s1 <= i < wpos s1 + 8)) (wbuf s1) (wbuf (emit (le_bytes 8 tag) s1))).
        { apply emit_frame; [lia|]. rewrite zlen_le_bytes. lia. }
        destruct (XS e b) as (L1 & L2 & L3); try lia.
        { eapply agree_trans; [eapply agree_mono; [|exact F]|eapply agree_mono; [|exact K5]]; cbv beta; lia. }
        split; [auto|]. split; [lia|auto].
      + cbn [write] in H. unfold write_relptr, write_rel_ptr_aligned in H. cbn [bind] in H. injection H as <-.
        cbn [csize]. apply (xspec_bump _ 16); [lia|]. apply (xspec_bump _ 8); [lia|]. apply xspec_nil; [lia|reflexivity].
    - cbn [wt] in W. apply andb_true_iff in W as [Wl W]. cbn [write] in H. cbn [twf] in E. bsplit E. cbn [aln al16] in HAl, H16.
      rewrite Wl in H. assert (n = zlen vs) as -> by lia. rewrite slice_size_csize in H by auto.
      pose proof (csize_nonneg _ _ H0) as HC. pose proof (zlen_nonneg vs).
      assert (0 <= zlen vs * csize t) by nia. cbn [csize extents].
      apply (xspec_bump _ (zlen vs * csize t)); [lia|].
      assert (P0 : wpos (bump (zlen vs * csize t) s) = wpos s) by apply bump_pos.
      assert (D0 : wdp (bump (zlen vs * csize t) s) = Z.max (wdp s) (wpos s + zlen vs * csize t)) by apply bump_dp.
      rewrite <- P0. set (s0 := bump (zlen vs * csize t) s) in *. clearbody s0.
      intros e b K1 K2 K3 K4 K5. rewrite (isize_csize t) by auto.
      destruct (x_list t vs H0) with (s := s0) (s' := s') (e := e) (b := b) as (M1 & M2 & M3); auto; try lia.
      { intros v sa sb Hv Wv Ha Hb Hw. apply (IHt MInline); auto; discriminate. }
      split; [auto|]. split; [lia|auto].
    - cbn [wt] in W. apply andb_true_iff in W as [Wl W]. cbn [write] in H. cbn [twf] in E. bsplit E. cbn [aln al16] in HAl, H16.
      rewrite Wl in H. assert (n = zlen vs) as -> by lia. rewrite slice_size_csize in H by auto.
      pose proof (csize_nonneg _ _ H0) as HC. pose proof (zlen_nonneg vs).
      assert (0 <= zlen vs * csize t) by nia. cbn [csize extents].
      apply (xspec_bump _ (zlen vs * csize t)); [lia|].
      assert (P0 : wpos (bump (zlen vs * csize t) s) = wpos s) by apply bump_pos.
      assert (D0 : wdp (bump (zlen vs * csize t) s) = Z.max (wdp s) (wpos s + zlen vs * csize t)) by apply bump_dp.
      rewrite <- P0. set (s0 := bump (zlen vs * csize t) s) in *. clearbody s0.
      intros e b K1 K2 K3 K4 K5. rewrite (isize_csize t) by auto.
      destruct (x_list t vs H0) with (s := s0) (s' := s') (e := e) (b := b) as (M1 & M2 & M3); auto; try lia.
      { intros v sa sb Hv Wv Ha Hb Hw. apply (IHt MInline); auto; discriminate. }
      split; [auto|]. split; [lia|auto].
  Qed.
End Ext.
