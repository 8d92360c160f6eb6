(** The reader computes exactly the layout relation [Dec]. *)
From Coq Require Import Lia ZifyBool ZifyNat ZifyN.
From Verif Require Import Bytes BytesFacts Ssbh Described SsbhFacts SsbhSpec.
Ltac Zify.zify_post_hook ::= ZifyBool.elim_bool_cstr; Z.to_euclidean_division_equations.

Lemma get_bytes_at n b p bs :
  get_bytes n b p = Some bs <-> length bs = n /\ bytes_at b p bs.
Proof.
  rewrite get_bytes_spec. unfold bytes_at. split; intros [H1 H2]; split; auto.
  - intros i x Hx. rewrite H2; auto. assert (nth_error bs i <> None) by congruence.
    apply nth_error_Some in H. lia.
  - intros k Hk. destruct (nth_error bs k) eqn:E; auto.
    apply nth_error_None in E. lia.
Qed.

Lemma read_int_at w b p n q :
  0 <= w -> (read_int w b p = Ok (n, q) <-> uint_at b p w n /\ q = p + w).
Proof.
  intros Hw. unfold read_int, uint_at. split.
  - destruct (get_bytes (Z.to_nat w) b p) as [bs|] eqn:E; [|discriminate].
    intros [= <- <-]. apply get_bytes_at in E as [E1 E2]. split; auto. exists bs.
    unfold zlen. repeat split; auto. lia.
  - intros [(bs & H1 & H2 & ->) ->].
    assert (get_bytes (Z.to_nat w) b p = Some bs) as ->.
    { apply get_bytes_at. unfold zlen in H1. split; auto. lia. }
    auto.
Qed.

Lemma two64_pow : two64 = 2 ^ 64.
Proof. reflexivity. Qed.

Lemma absolute_at p o q : absolute_offset_checked p o = Ok q <-> q = p + o /\ p + o < 2 ^ 64.
Proof.
  unfold absolute_offset_checked. rewrite two64_pow. destruct (Z.ltb_spec (p + o) (2 ^ 64)); split.
  - intros [= <-]. auto.
  - intros [-> _]. auto.
  - discriminate.
  - lia.
Qed.

(** ** Loops and inner fixpoints of the specification *)
Fixpoint isize_fields (fs : list field) : Z :=
  match fs with [] => 0 | (t', (_, pad)) :: r => inline_size t' + pad + isize_fields r end.

Lemma isize_struct fs a b c : inline_size (TStruct fs a b c) = isize_fields fs.
Proof. reflexivity. Qed.

Fixpoint inl_fields (fs : list field) : bool :=
  match fs with [] => true | (t', (_, pad)) :: r => inl false t' && (0 <=? pad) && inl_fields r end.

Lemma inl_struct p fs a b c : inl p (TStruct fs a b c) = inl_fields fs.
Proof. reflexivity. Qed.

Fixpoint inl_cases (vs : list (Z * ty)) : bool :=
  match vs with
  | [] => true
  | (tg, t') :: r => negb (existsb (fun x => fst x =? tg) r) && inl false t' && inl_cases r
  end.

Lemma inl_enum p vs : inl p (TEnum vs) = inl_cases vs.
Proof. reflexivity. Qed.

Lemma inl_case_iff vs tag t :
  inl_cases vs = true -> (find_case tag vs = Some t <-> In (tag, t) vs).
Proof.
  intros H. split; [apply find_case_in|].
  induction vs as [|[tg t0] r IH]; [intros []|]. cbn [inl_cases] in H. bsplit H.
  intros [E|E]; cbn [find_case].
  - injection E as -> ->. now rewrite Z.eqb_refl.
  - destruct (Z.eqb_spec tag tg); auto. subst tg.
    apply negb_true_iff in H. rewrite <- not_true_iff_false in H. exfalso. apply H.
    apply existsb_exists. exists (tag, t). cbn. split; auto. apply Z.eqb_refl.
Qed.

Lemma inl_case_in vs tag t : inl_cases vs = true -> In (tag, t) vs -> inl false t = true.
Proof.
  induction vs as [|[tg t0] r IH]; [intros _ []|]. cbn [inl_cases]. intros H. bsplit H.
  intros [E|E]; auto. injection E as -> ->. auto.
Qed.

Lemma inl_ptr t : inl true t = true -> inl false t = true \/ exists n, t = TCStr n.
Proof. destruct t; cbn; eauto. Qed.

Lemma inl_weaken t : inl false t = true -> inl true t = true.
Proof. destruct t; cbn; auto. Qed.

(** ** Strings *)
Lemma bytes_at_cons b p x bs :
  bytes_at b p (x :: bs) <-> byte_at b p = Some x /\ bytes_at b (p + 1) bs.
Proof.
  unfold bytes_at. split.
  - intros H. split.
    + specialize (H O x eq_refl). now rewrite Z.add_0_r in H.
    + intros i y Hy. specialize (H (S i) y Hy). rewrite <- H. f_equal. lia.
  - intros [H1 H2] [|i] y Hy; cbn in Hy.
    + injection Hy as <-. now rewrite Z.add_0_r.
    + rewrite <- (H2 i y Hy). f_equal. lia.
Qed.

Lemma bytes_at_nil b p : bytes_at b p [].
Proof. intros [|i] x; discriminate. Qed.

Lemma read_cstr_at n b p bs q :
  read_cstr n b p = Ok (bs, q) -> bytes_at b p (bs ++ [0]) /\ ~ In 0 bs /\ q = p + zlen bs + 1.
Proof.
  revert p bs q; induction n as [|n IH]; intros p bs q; cbn [read_cstr]; [discriminate|].
  destruct (byte_at b p) as [x|] eqn:E; [|discriminate].
  destruct (Z.eqb_spec x 0).
  - intros [= <- <-]. subst. split; [|split]; auto.
    + apply bytes_at_cons. split; auto. apply bytes_at_nil.
    + unfold zlen; cbn; lia.
  - intros H. apply bind_ok in H as ([r p'] & Er & H). injection H as <- <-.
    apply IH in Er as (A & B & C). split; [|split].
    + cbn [app]. apply bytes_at_cons. auto.
    + intros [?|?]; auto.
    + rewrite zlen_cons. lia.
Qed.

Lemma at_read_cstr b bs : forall n p,
  bytes_at b p (bs ++ [0]) -> ~ In 0 bs -> (length bs < n)%nat ->
  exists q, read_cstr n b p = Ok (bs, q).
Proof.
  induction bs as [|x r IH]; intros [|n] p H1 H2 H3; cbn [length] in H3; try lia;
    apply bytes_at_cons in H1 as [H1 H1']; cbn [read_cstr]; rewrite H1.
  - cbn. eauto.
  - destruct (Z.eqb_spec x 0); [subst; exfalso; apply H2; left; auto|].
    destruct (IH n (p + 1)) as (q & ->); auto; try lia.
    { intros ?; apply H2; right; auto. }
    cbn. eauto.
Qed.

Lemma bytes_at_end b p bs x : bytes_at b p (bs ++ [x]) -> p + zlen bs < zlen b.
Proof.
  intros H. specialize (H (length bs) x). rewrite nth_error_app2, Nat.sub_diag in H by lia.
  specialize (H eq_refl). apply byte_at_some in H. unfold zlen at 1. lia.
Qed.

Lemma read_buffer_at c b p bs :
  0 <= c -> (read_buffer c b p = Ok bs <-> zlen bs = c /\ bytes_at b p bs).
Proof.
  intros Hc. unfold read_buffer. split.
  - destruct (_ <=? _); [|discriminate].
    destruct (get_bytes _ _ _) as [l|] eqn:E; [|discriminate]. intros [= ->].
    apply get_bytes_at in E as [E1 E2]. split; auto. unfold zlen. lia.
  - intros [H1 H2].
    assert (get_bytes (Z.to_nat c) b p = Some bs) as ->.
    { apply get_bytes_at. split; auto. unfold zlen in H1. lia. }
    replace (c <=? Z.max 0 (zlen b - p)) with true; auto.
    symmetry. apply Z.leb_le.
    destruct bs as [|y r] using rev_ind; [rewrite zlen_nil in H1; lia|].
    rewrite zlen_app in H1. pose proof (bytes_at_end _ _ _ _ H2).
    change (zlen [y]) with 1 in H1. lia.
Qed.

(** ** Elements *)
Lemma read_n_at b t (rd : Z -> res (val * Z)) :
  (forall p v q, rd p = Ok (v, q) -> Dec b t p v /\ q = p + inline_size t) ->
  forall n p vs q, read_n n rd p = Ok (vs, q) ->
    length vs = n /\ q = p + Z.of_nat n * inline_size t /\
    forall i v, nth_error vs i = Some v -> Dec b t (p + Z.of_nat i * inline_size t) v.
Proof.
  intros HR. induction n as [|n IH]; intros p vs q H; cbn [read_n] in H.
  - injection H as <- <-. split; [|split]; auto; try lia. intros [|i] v; discriminate.
  - apply bind_ok in H as ([v p1] & E1 & H). apply bind_ok in H as ([vs' p2] & E2 & H).
    injection H as <- <-. apply HR in E1 as [D1 ->]. apply IH in E2 as (L & Q & D).
    split; [cbn; lia|split].
    + rewrite Q. nia.
    + intros [|i] w Hw; cbn in Hw.
      * injection Hw as <-. now replace (p + Z.of_nat 0 * inline_size t) with p by lia.
      * replace (p + Z.of_nat (S i) * inline_size t)
          with (p + inline_size t + Z.of_nat i * inline_size t) by nia. auto.
Qed.

Lemma at_read_n t (rd : Z -> res (val * Z)) vs : forall p,
  (forall i v, nth_error vs i = Some v ->
     rd (p + Z.of_nat i * inline_size t) = Ok (v, p + Z.of_nat i * inline_size t + inline_size t)) ->
  exists q, read_n (length vs) rd p = Ok (vs, q).
Proof.
  induction vs as [|v r IH]; intros p H; cbn [length read_n]; [eauto|].
  pose proof (H O v eq_refl) as H0. rewrite Z.add_0_r in H0. rewrite H0. cbn [bind].
  destruct (IH (p + inline_size t)) as (q & Hq).
  { intros i w Hw. specialize (H (S i) w Hw).
    replace (p + Z.of_nat (S i) * inline_size t)
      with (p + inline_size t + Z.of_nat i * inline_size t) in H by nia. auto. }
  rewrite Hq. cbn. eauto.
Qed.

Lemma uint_nonneg b p w n : bytes_ok b = true -> uint_at b p w n -> 0 <= n < 256 ^ w.
Proof.
  intros Hb (bs & <- & H & ->). apply le_val_range.
  eapply get_bytes_ok; eauto. apply get_bytes_at. eauto.
Qed.

Lemma uint_fun b p w n n' : uint_at b p w n -> uint_at b p w n' -> n = n'.
Proof.
  intros (bs & H1 & H2 & ->) (bs' & H1' & H2' & ->).
  assert (get_bytes (length bs) b p = Some bs) by (apply get_bytes_at; auto).
  assert (get_bytes (length bs') b p = Some bs') by (apply get_bytes_at; auto).
  replace (length bs') with (length bs) in H0 by (unfold zlen in *; lia). congruence.
Qed.

(** ** Main equivalence.  [bytes_ok b]: the file consists of bytes. *)
Theorem read_Dec t : forall ptr b p v q, inl ptr t = true -> bytes_ok b = true ->
  read t b p = Ok (v, q) -> Dec b t p v /\ (ptr = false -> q = p + inline_size t).
Proof.
  induction t as [w|w ra tags|w| |fs spad aa al HF|t IHt|w t IHt|t IHt| |n|vs HF|n t IHt|n t IHt]
    using ty_ind'; intros ptr b p v q E Hb H.
  - cbn in E, H. apply bind_ok in H as ([n p'] & R & H). injection H as <- <-.
    apply read_int_at in R as [R ->]; [|lia]. split; auto. constructor; auto.
  - cbn [inl read] in E, H. apply bind_ok in H as ([n p'] & R & H).
    destruct (existsb (Z.eqb n) tags) eqn:Ex; [|discriminate]. injection H as <- <-.
    apply read_int_at in R as [R ->]; [|lia]. split; auto. constructor; auto.
    apply existsb_exists in Ex as (x & Hx & Hn). apply Z.eqb_eq in Hn. now subst.
  - cbn in E, H. apply bind_ok in H as ([n p'] & R & H). injection H as <- <-.
    apply read_int_at in R as [R ->]; [|lia]. split; auto. constructor; auto.
  - cbn in H. injection H as <- <-. split; [constructor|]. intros _. cbn [inline_size]. lia.
  - rewrite inl_struct in E. rewrite read_struct in H.
    apply bind_ok in H as ([vs p'] & R & H). injection H as <- <-.
    enough (DecFields b fs p vs /\ p' = p + isize_fields fs) as [A ->].
    { split; [constructor; auto|auto]. }
    clear - HF E Hb R. revert p vs p' R. induction fs as [|[t' [wp rp]] fr IH]; intros p vs p' R.
    + cbn in R. injection R as <- <-. split; [constructor|cbn; lia].
    + inversion HF as [|? ? Ht Hr]; subst. cbn [inl_fields] in E. bsplit E.
      cbn [read_fields] in R. apply bind_ok in R as ([v1 p1] & E1 & R).
      apply bind_ok in R as ([vs2 p2] & E2 & R). injection R as <- <-.
      cbn [fst] in Ht. destruct (Ht _ _ _ _ _ E Hb E1) as [D1 Q1]. rewrite Q1 in * by auto.
      destruct (IH Hr H _ _ _ E2) as [D2 Q2]. split; [constructor; auto|].
      rewrite Q2. cbn [isize_fields]. lia.
  - cbn [read] in H. cbn [inl] in E. apply bind_ok in H as ([o sp] & R & H).
    apply read_int_at in R as [R ->]; [|lia].
    destruct (Z.eqb_spec o 0).
    + injection H as <- <-. subst. split; auto. now constructor.
    + apply bind_ok in H as (sk & Ea & H). apply absolute_at in Ea as [-> Hlt].
      apply bind_ok in H as ([v' q'] & Er & H). injection H as <- <-.
      apply IHt with (ptr := true) in Er as [D _]; auto.
      split; auto. eapply DRel; eauto.
  - cbn [read] in H. cbn [inl] in E. bsplit E. apply bind_ok in H as ([o sp] & R & H).
    apply read_int_at in R as [R ->]; [|lia].
    destruct (Z.eqb_spec o 0).
    + injection H as <- <-. subst. split; auto. now constructor.
    + apply bind_ok in H as ([v' q'] & Er & H). injection H as <- <-.
      apply IHt with (ptr := true) in Er as [D _]; auto.
      split; auto. eapply DAbs; eauto.
  - cbn [read] in H. cbn [inl] in E. apply bind_ok in H as ([o p1] & R1 & H).
    apply read_int_at in R1 as [R1 ->]; [|lia].
    apply bind_ok in H as ([c p2] & R2 & H). apply read_int_at in R2 as [R2 ->]; [|lia].
    apply bind_ok in H as (sk & Ea & H). apply absolute_at in Ea as [-> Hlt].
    apply bind_ok in H as ([vs q'] & Er & H). injection H as <- <-.
    rewrite read_elements_n in Er. apply (read_n_at b t) in Er as (L & _ & D).
    + split; [|intros _; cbn [inline_size]; lia]. pose proof (uint_nonneg _ _ _ _ Hb R2).
      assert (zlen vs = c) by (unfold zlen; lia). subst c.
      eapply DArr; eauto.
    + intros p0 v0 q0 H0. apply IHt with (ptr := false) in H0 as [A B]; auto.
  - cbn [read] in H. apply bind_ok in H as ([o p1] & R1 & H).
    apply read_int_at in R1 as [R1 ->]; [|lia].
    apply bind_ok in H as ([c p2] & R2 & H). apply read_int_at in R2 as [R2 ->]; [|lia].
    apply bind_ok in H as (sk & Ea & H). apply absolute_at in Ea as [-> Hlt].
    apply bind_ok in H as (bs & Er & H). injection H as <- <-.
    pose proof (uint_nonneg _ _ _ _ Hb R2).
    apply read_buffer_at in Er as [<- D]; [|lia].
    split; [|intros _; cbn [inline_size]; lia]. eapply DBuf; eauto.
  - cbn [inl] in E. subst ptr. split; [|discriminate].
    cbn [read] in H. apply bind_ok in H as ([bs p'] & R & H). injection H as <- <-.
    apply read_cstr_at in R as (A & B & _). constructor; auto.
  - rewrite inl_enum in E. rewrite read_enum in H. apply bind_ok in H as ([o p1] & R1 & H).
    apply read_int_at in R1 as [R1 ->]; [|lia].
    apply bind_ok in H as ([tag p2] & R2 & H). apply read_int_at in R2 as [R2 ->]; [|lia].
    destruct (Z.eqb_spec o 0).
    + injection H as <- <-. subst. split; [eapply DEnumNull; eauto|intros _; cbn [inline_size]; lia].
    + apply bind_ok in H as (sk & Ea & H). apply absolute_at in Ea as [-> Hlt].
      apply bind_ok in H as ([v' q'] & Er & H). injection H as <- <-.
      destruct (find_case tag vs) as [t'|] eqn:Ef; [|discriminate].
      apply inl_case_iff in Ef; auto. rewrite Forall_forall in HF. pose proof (HF _ Ef) as HX.
      pose proof (inl_case_in _ _ _ E Ef) as Ei.
      apply HX with (ptr := false) in Er as [D _]; auto.
      split; [|intros _; cbn [inline_size]; lia]. eapply DEnum; eauto.
  - cbn [read] in H. cbn [inl] in E. bsplit E. apply bind_ok in H as ([vs q'] & Er & H).
    injection H as <- <-. rewrite read_elements_n in Er. apply (read_n_at b t) in Er as (L & Q & D).
    + split; [constructor; auto; unfold zlen; lia|]. intros _. cbn [inline_size]. rewrite Q. f_equal. f_equal. lia.
    + intros p0 v0 q0 H1. apply IHt with (ptr := false) in H1 as [A B]; auto.
  - cbn [read] in H. cbn [inl] in E. bsplit E. apply bind_ok in H as ([vs q'] & Er & H).
    injection H as <- <-. rewrite read_elements_n in Er. apply (read_n_at b t) in Er as (L & Q & D).
    + split; [constructor; auto; unfold zlen; lia|]. intros _. cbn [inline_size]. rewrite Q. f_equal. f_equal. lia.
    + intros p0 v0 q0 H1. apply IHt with (ptr := false) in H1 as [A B]; auto.
Qed.

Lemma Dec_read_adv t b p v :
  inl false t = true -> bytes_ok b = true -> (exists q, read t b p = Ok (v, q)) ->
  read t b p = Ok (v, p + inline_size t).
Proof.
  intros E Hb (q & H). pose proof (read_Dec t false b p v q E Hb H) as [_ Q]. rewrite H, Q; auto.
Qed.

Theorem Dec_read t : forall ptr b p v, inl ptr t = true -> bytes_ok b = true ->
  Dec b t p v -> exists q, read t b p = Ok (v, q).
Proof.
  induction t as [w|w ra tags|w| |fs spad aa al HF|t IHt|w t IHt|t IHt| |n|vs HF|n t IHt|n t IHt]
    using ty_ind'; intros ptr b p v E Hb D; inversion D; subst; cbn [inl] in E.
  - assert (read_int w b p = Ok (n, p + w)) as R by (apply read_int_at; auto; lia).
    cbn [read]. rewrite R. cbn. eauto.
  - assert (read_int w b p = Ok (n, p + w)) as R by (apply read_int_at; auto; lia).
    cbn [read]. rewrite R. cbn [bind].
    assert (existsb (Z.eqb n) tags = true) as ->; [|eauto].
    apply existsb_exists. exists n. split; auto. apply Z.eqb_refl.
  - assert (read_int w b p = Ok (n, p + w)) as R by (apply read_int_at; auto; lia).
    cbn [read]. rewrite R. cbn. eauto.
  - cbn. eauto.
  - change (inl_fields fs = true) in E. rewrite read_struct.
    enough (exists q, read_fields fs b p = Ok (vs, q)) as (q & ->) by (cbn; eauto).
    match goal with X : DecFields _ _ _ _ |- _ => rename X into DF end.
    clear D. revert p vs DF. induction fs as [|[t' [wp rp]] fr IH]; intros p vs DF; inversion DF; subst.
    + cbn. eauto.
    + inversion HF as [|? ? Ht Hr]; subst. cbn [inl_fields] in E. bsplit E. cbn [read_fields].
      match goal with X : Dec _ t' _ _ |- _ => apply (Ht _ _ _ _ E Hb) in X as (q1 & R1) end.
      pose proof (Dec_read_adv t' b p v E Hb (ex_intro _ _ R1)) as ->. cbn [bind].
      match goal with X : DecFields _ fr _ _ |- _ => apply (IH Hr) in X as (q2 & R2); auto end.
      rewrite R2. cbn. eauto.
  - match goal with X : uint_at _ _ _ _ |- _ =>
      assert (read_int 8 b p = Ok (0, p + 8)) as R by (apply read_int_at; auto; lia) end.
    cbn [read]. rewrite R. cbn. eauto.
  - match goal with X : uint_at _ _ _ ?o |- _ =>
      assert (read_int 8 b p = Ok (o, p + 8)) as R by (apply read_int_at; auto; lia) end.
    cbn [read]. rewrite R. cbn [bind]. destruct (Z.eqb_spec o 0); [contradiction|].
    assert (absolute_offset_checked p o = Ok (p + o)) as -> by (apply absolute_at; auto). cbn [bind].
    match goal with X : Dec _ t _ _ |- _ => apply (IHt _ _ _ _ E Hb) in X as (q1 & ->) end. cbn. eauto.
  - bsplit E. match goal with X : uint_at _ _ _ _ |- _ =>
      assert (read_int w b p = Ok (0, p + w)) as R by (apply read_int_at; auto; lia) end.
    cbn [read]. rewrite R. cbn. eauto.
  - bsplit E. match goal with X : uint_at _ _ _ ?o |- _ =>
      assert (read_int w b p = Ok (o, p + w)) as R by (apply read_int_at; auto; lia) end.
    cbn [read]. rewrite R. cbn [bind]. destruct (Z.eqb_spec o 0); [contradiction|].
    match goal with X : Dec _ t _ _, Y : inl true t = true |- _ => apply (IHt _ _ _ _ Y Hb) in X as (q1 & ->) end. cbn. eauto.
  - assert (read_int 8 b p = Ok (o, p + 8)) as R by (apply read_int_at; auto; lia).
    assert (read_int 8 b (p + 8) = Ok (zlen vs, p + 8 + 8)) as R2 by (apply read_int_at; auto; lia).
    cbn [read]. rewrite R. cbn [bind]. rewrite R2. cbn [bind].
    assert (absolute_offset_checked p o = Ok (p + o)) as -> by (apply absolute_at; auto). cbn [bind].
    rewrite read_elements_n. unfold zlen. rewrite Nat2Z.id.
    destruct (at_read_n t (read t b) vs (p + o)) as (q & ->); [|cbn; eauto].
    intros i v Hv. apply Dec_read_adv; eauto.
  - assert (read_int 8 b p = Ok (o, p + 8)) as R by (apply read_int_at; auto; lia).
    assert (read_int 8 b (p + 8) = Ok (zlen bs, p + 8 + 8)) as R2 by (apply read_int_at; auto; lia).
    cbn [read]. rewrite R. cbn [bind]. rewrite R2. cbn [bind].
    assert (absolute_offset_checked p o = Ok (p + o)) as -> by (apply absolute_at; auto). cbn [bind].
    assert (read_buffer (zlen bs) b (p + o) = Ok bs) as ->.
    { apply read_buffer_at; auto. apply zlen_nonneg. }
    cbn. eauto.
  - cbn [read]. match goal with X : bytes_at _ _ _ |- _ => pose proof (bytes_at_end _ _ _ _ X) as Hend end.
    destruct (at_read_cstr b bs (Z.to_nat (zlen b - p)) p) as (q & ->); auto; [unfold zlen in *; lia|].
    cbn. eauto.
  - rewrite read_enum.
    assert (read_int 8 b p = Ok (0, p + 8)) as R by (apply read_int_at; auto; lia).
    assert (read_int 8 b (p + 8) = Ok (tag, p + 8 + 8)) as R2 by (apply read_int_at; auto; lia).
    rewrite R. cbn [bind]. rewrite R2. cbn. eauto.
  - rewrite read_enum. change (inl_cases vs = true) in E.
    assert (read_int 8 b p = Ok (o, p + 8)) as R by (apply read_int_at; auto; lia).
    assert (read_int 8 b (p + 8) = Ok (tag, p + 8 + 8)) as R2 by (apply read_int_at; auto; lia).
    rewrite R. cbn [bind]. rewrite R2. cbn [bind]. destruct (Z.eqb_spec o 0); [contradiction|].
    assert (absolute_offset_checked p o = Ok (p + o)) as -> by (apply absolute_at; auto). cbn [bind].
    match goal with X : In _ vs |- _ => rename X into HI end.
    pose proof (proj2 (inl_case_iff _ _ _ E) HI) as ->.
    rewrite Forall_forall in HF. pose proof (HF _ HI) as HX. clear D. cbn [snd] in HX.
    match goal with X : Dec _ _ _ _ |- _ => apply (HX _ _ _ _ (inl_case_in _ _ _ E HI) Hb) in X as (q1 & ->) end.
    cbn. eauto.
  - bsplit E. cbn [read]. rewrite read_elements_n. unfold zlen. rewrite Nat2Z.id.
    destruct (at_read_n t (read t b) vs p) as (q & ->); [|cbn; eauto].
    intros i v Hv. apply Dec_read_adv; eauto.
  - bsplit E. cbn [read]. rewrite read_elements_n. unfold zlen. rewrite Nat2Z.id.
    destruct (at_read_n t (read t b) vs p) as (q & ->); [|cbn; eauto].
    intros i v Hv. apply Dec_read_adv; eauto.
Qed.

(** ** Monotonicity: only the bytes that exist matter *)
Definition extends (b b' : list Z) : Prop := forall i x, byte_at b i = Some x -> byte_at b' i = Some x.

Lemma extends_app b c : extends b (b ++ c).
Proof.
  intros i x H. pose proof (byte_at_some _ _ _ H). rewrite byte_at_nth in * by lia.
  rewrite nth_error_app1; auto. unfold zlen in *. lia.
Qed.

Lemma bytes_at_ext b b' p bs : extends b b' -> bytes_at b p bs -> bytes_at b' p bs.
Proof. intros H H1 i x Hx. apply H, H1; auto. Qed.

Lemma uint_at_ext b b' p w n : extends b b' -> uint_at b p w n -> uint_at b' p w n.
Proof. intros H (bs & A & B & C). exists bs. repeat split; auto. eapply bytes_at_ext; eauto. Qed.

Theorem Dec_ext t : forall b b' p v, extends b b' -> Dec b t p v -> Dec b' t p v.
Proof.
  induction t as [w|w ra tags|w| |fs spad aa al HF|t IHt|w t IHt|t IHt| |n|vs HF|n t IHt|n t IHt]
    using ty_ind'; intros b b' p v X D; inversion D; subst;
    repeat match goal with H : uint_at b _ _ _ |- _ => apply (uint_at_ext b b') in H; [|exact X] end;
    repeat match goal with H : bytes_at b _ _ |- _ => apply (bytes_at_ext b b') in H; [|exact X] end;
    try (econstructor; eauto; fail).
  constructor. match goal with X : DecFields _ _ _ _ |- _ => rename X into DF end.
  clear D. revert p vs DF. induction fs as [|[t' [wp rp]] fr IH]; intros p vs DF; inversion DF; subst;
    constructor; inversion HF as [|? ? Ht Hr]; subst; cbn [fst] in *; eauto.
  - rewrite Forall_forall in HF. match goal with Hi : In (?tag, ?t) vs |- _ => pose proof (HF _ Hi) as HX end.
    eapply DEnum; eauto.
Qed.

(** ** Decoded values are well typed *)
Lemma forallb_nth {A} (f : A -> bool) l :
  (forall i x, nth_error l i = Some x -> f x = true) -> forallb f l = true.
Proof.
  intros H. apply forallb_forall. intros x Hx. apply In_nth_error in Hx as (i & Hi). eauto.
Qed.

Lemma bytes_at_ok b p bs : bytes_ok b = true -> bytes_at b p bs -> bytes_ok bs = true.
Proof. intros Hb H. eapply get_bytes_ok; eauto. apply get_bytes_at. eauto. Qed.

Theorem Dec_wt t : forall ptr b p v, inl ptr t = true -> bytes_ok b = true ->
  Dec b t p v -> wt t v = true.
Proof.
  induction t as [w|w ra tags|w| |fs spad aa al HF|t IHt|w t IHt|t IHt| |n|vs HF|n t IHt|n t IHt]
    using ty_ind'; intros ptr b p v E Hb D; inversion D; subst; cbn [inl] in E;
    repeat match goal with H : uint_at _ _ _ _ |- _ => apply uint_nonneg in H; [|exact Hb] end.
  - cbn [wt]. lia.
  - cbn [wt]. apply existsb_exists. eexists; split; eauto. apply Z.eqb_refl.
  - cbn [wt]. lia.
  - reflexivity.
  - rewrite wt_struct. change (inl_fields fs = true) in E.
    match goal with X : DecFields _ _ _ _ |- _ => rename X into DF end.
    clear D. revert p vs DF. induction fs as [|[t' [wp rp]] fr IH]; intros p vs DF; inversion DF; subst; auto.
    inversion HF as [|? ? Ht Hr]; subst. cbn [inl_fields] in E. bsplit E. cbn [wt_fields fst] in *.
    apply andb_true_iff. eauto.
  - reflexivity.
  - cbn [wt]. eauto.
  - reflexivity.
  - cbn [wt]. bsplit E. eauto.
  - cbn [wt]. apply andb_true_iff. change (256 ^ 8) with two64 in *. split; [lia|].
    apply forallb_nth. eauto.
  - cbn [wt]. apply andb_true_iff. change (256 ^ 8) with two64 in *. split; [lia|].
    eapply bytes_at_ok; eauto.
  - cbn [wt]. match goal with X : bytes_at _ _ _ |- _ => apply bytes_at_ok in X; auto end.
    apply forallb_forall. intros x Hx.
    assert (is_byte x = true).
    { match goal with X : bytes_ok _ = true |- _ => unfold bytes_ok in X end.
      rewrite forallb_forall in *. match goal with X : forall y, In y (bs ++ _) -> _ |- _ => apply X end.
      apply in_or_app; auto. }
    assert (x <> 0) by congruence. unfold is_byte in *. lia.
  - reflexivity.
  - rewrite wt_enum. change (inl_cases vs = true) in E.
    match goal with X : In _ vs |- _ => rename X into HI end.
    pose proof (proj2 (inl_case_iff _ _ _ E) HI) as ->.
    rewrite Forall_forall in HF. pose proof (HF _ HI) as HX. cbn [snd] in HX.
    pose proof (inl_case_in _ _ _ E HI). clear D. eauto.
  - bsplit E. cbn [wt]. apply andb_true_iff. split; [lia|]. apply forallb_nth. eauto.
  - bsplit E. cbn [wt]. apply andb_true_iff. split; [lia|]. apply forallb_nth. eauto.
Qed.
