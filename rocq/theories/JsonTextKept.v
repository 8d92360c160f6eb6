(** The text of floats whose decimal exponent is moderate is read as the float: proofs. *)
From Coq Require Import ZArith Reals Lia Lra.
From Flocq Require Import Core.
From Verif Require Import Bytes BytesFacts Float32 Json JsonText JsonTextSpec JsonTextFacts JsonTextWrite JsonTextDecimal.
From Coq Require Import List.
Import ListNotations.
Open Scope Z_scope.
Notation step := (fun a c => 10 * a + (c - 48)).

Lemma fold_bound ds : forall a, Forall digit ds -> 0 <= a -> a * 10 ^ zlen ds <= fold_left step ds a < (a + 1) * 10 ^ zlen ds.
Proof.
  induction ds as [|c ds IH]; intros a D A; [cbn; lia|]. inversion D as [|x y Dc Dr]; subst. unfold digit in Dc.
  cbn [fold_left]. rewrite zlen_cons, Z.pow_add_r by (pose proof (zlen_nonneg ds); lia). specialize (IH (10 * a + (c - 48)) Dr ltac:(lia)).
  assert (0 < 10 ^ zlen ds) by (apply Z.pow_pos_nonneg; [lia|apply zlen_nonneg]). nia.
Qed.
Lemma value_bound ds : Forall digit ds -> 0 <= digits_value ds < 10 ^ zlen ds.
Proof. intros D. pose proof (fold_bound ds 0 D ltac:(lia)). unfold digits_value. lia. Qed.

Lemma long_decimal_fits ds : forall a e, Forall digit ds -> 0 <= a -> fold_left step ds a < two64 ->
  long_decimal ds a e = (fold_left step ds a, e - zlen ds).
Proof.
  induction ds as [|c ds IH]; intros a e D A L; cbn [fold_left long_decimal] in *.
  - f_equal. cbn. lia.
  - inversion D as [|x y Dc Dr]; subst. unfold digit in Dc.
    assert (G : 10 * a + (c - 48) <= fold_left step ds (10 * a + (c - 48))) by (apply fold_grows; auto; lia).
    unfold overflows. replace (two64 <=? 10 * a + (c - 48)) with false by (symmetry; apply Z.leb_gt; lia).
    rewrite IH by (auto; lia). f_equal. rewrite zlen_cons. lia.
Qed.

(** The significand of all digits, with the exponent *)
Lemma value_parts neg ints fracs exp : Forall digit ints -> Forall digit fracs -> digits_value (ints ++ fracs) < two64 ->
  fracs <> [] \/ exp <> None ->
  number_value neg ints fracs exp =
  float_value neg (digits_value (ints ++ fracs)) (- zlen fracs + match exp with Some x => x | None => 0 end).
Proof.
  intros Di Df L N. unfold digits_value in *. rewrite fold_left_app in *. pose proof (fold_bound ints 0 Di ltac:(lia)) as B.
  assert (G : fold_left step ints 0 <= fold_left step fracs (fold_left step ints 0)) by (apply fold_grows; auto; lia).
  unfold number_value. rewrite long_integer_fits by (auto; lia). rewrite long_decimal_fits by (auto; lia). rewrite Z.sub_0_l.
  destruct fracs, exp; try reflexivity. destruct N; congruence.
Qed.

Lemma show_exp_exponent x : exponent (Some x) (show_exp x).
Proof.
  unfold show_exp, show_int. destruct (x <? 0) eqn:S.
  - destruct (digits_spec (- x)) as ((N & D & _) & V); [lia|]. replace x with (- digits_value (digits (- x))) at 1 by lia. constructor; auto. now left.
  - destruct (digits_spec x) as ((N & D & _) & V); [lia|]. rewrite <- V at 1. constructor; auto. now left.
Qed.

Lemma zeros_digits n : Forall digit (zeros_text n).
Proof. unfold zeros_text. induction (Z.to_nat n); cbn; constructor; auto. unfold digit. lia. Qed.
Lemma zeros_len n : 0 <= n -> zlen (zeros_text n) = n.
Proof. intros H. unfold zeros_text, zlen. rewrite repeat_length. lia. Qed.
Lemma fold_zeros n : forall a, fold_left step (repeat 48 n) a = a * 10 ^ Z.of_nat n.
Proof.
  induction n as [|n IH]; intros a; [cbn; lia|]. cbn [repeat fold_left]. rewrite IH, Nat2Z.inj_succ, Z.pow_succ_r by lia. ring.
Qed.

Lemma p10_shift m k j : 0 <= j -> (IZR (m * 10 ^ j) * p10 (k - j) = IZR m * p10 k)%R.
Proof.
  intros J. rewrite mult_IZR, p10_Z by lia. rewrite Rmult_assoc, <- bpow_plus. do 2 f_equal. lia.
Qed.

(** The text gives the decimal, as its digits or (large integers) with zeros and one more digit. *)
Theorem kept_text n m k : n mod 2 ^ 31 <> 0 -> shortest n = (m, k) -> 0 < m <= 2 ^ 29 ->
  float_value (2 ^ 31 <=? n) m k = Some (JFloat n) ->
  (0 <= k -> 0 < m * 10 ^ (k + 1) < 10 ^ 14 -> float_value (2 ^ 31 <=? n) (m * 10 ^ (k + 1)) (-1) = Some (JFloat n)) -> float_kept n.
Proof.
  intros NZ H Hm Same Long. unfold float_kept.
  destruct (digits_spec m) as ((N & D & Z0) & V); [lia|].
  assert (T64 : two64 = 18446744073709551616) by reflexivity.
  pose proof (value_bound (digits m) D) as VB. rewrite V in VB.
  assert (Z31 : n mod 2 ^ 31 =? 0 = false) by (now apply Z.eqb_neq).
  assert (G : forall ints fracs exp tf te, integer_part ints -> fraction fracs tf -> exponent exp te ->
     number_value (2 ^ 31 <=? n) ints fracs exp = Some (JFloat n) ->
     forall t, t = ints ++ tf ++ te -> read_number ((if 2 ^ 31 <=? n then [45] else []) ++ t) = Some (JFloat n, [])).
  { intros ints fracs exp tf te IP F X NV t ->. set (sg := if 2 ^ 31 <=? n then [45] else []). rewrite <- (app_nil_r (sg ++ ints ++ tf ++ te)).
    apply (read_number_complete (2 ^ 31 <=? n) ints fracs exp); [|exact NV|exact I]. exists tf, te. auto. }
  unfold show_f32. rewrite Z31, H. set (ds := digits m) in *. clearbody ds. set (kk := zlen ds + k).
  assert (IP : integer_part ds) by (repeat split; auto).
  destruct ((0 <=? k) && (kk <=? 13)) eqn:C1; [|destruct ((0 <? kk) && (kk <=? 13)) eqn:C2; [|destruct ((-6 <? kk) && (kk <=? 0)) eqn:C3]].
  - apply (G (ds ++ zeros_text k) [48] None (46 :: [48]) []); [| | | |rewrite <- app_assoc; reflexivity].
    + split; [destruct ds; [congruence|discriminate]|]. split; [apply Forall_app; split; auto using zeros_digits|].
      intros c r X. destruct ds as [|a [|b ds]]; [congruence| |].
      * cbn in X. injection X as -> _. unfold digits_value in V. cbn in V. lia.
      * cbn in X. injection X as -> -> _. exact (Z0 _ _ eq_refl).
    + constructor; [discriminate|]. repeat constructor; unfold digit; lia.
    + constructor.
    + assert (VV : digits_value ((ds ++ zeros_text k) ++ [48]) = m * 10 ^ (k + 1)).
      { unfold digits_value in *. rewrite !fold_left_app. rewrite V. unfold zeros_text. rewrite fold_zeros. cbn [fold_left].
        rewrite Z2Nat.id, Z.pow_add_r by lia. lia. }
      assert (BB : m * 10 ^ (k + 1) < 10 ^ 14).
      { assert (m * 10 ^ k < 10 ^ zlen ds * 10 ^ k) by (apply Z.mul_lt_mono_pos_r; [apply Z.pow_pos_nonneg; lia|lia]).
        rewrite <- Z.pow_add_r in H0 by (try apply zlen_nonneg; lia). assert (10 ^ (zlen ds + k) <= 10 ^ 13) by (apply Z.pow_le_mono_r; unfold kk in C1; lia).
        rewrite Z.pow_add_r by lia. change (10 ^ 13) with 10000000000000 in *. change (10 ^ 14) with 100000000000000. lia. }
      assert (P0 : 0 < m * 10 ^ (k + 1)) by (apply Z.mul_pos_pos; [lia|apply Z.pow_pos_nonneg; lia]).
      change (10 ^ 14) with 100000000000000 in BB.
      rewrite value_parts; [| | |rewrite VV, T64; lia|left; discriminate].
      * rewrite VV. apply Long; [lia|]. change (10 ^ 14) with 100000000000000. lia.
      * apply Forall_app. split; auto using zeros_digits.
      * repeat constructor; unfold digit; lia.
  - assert (K0 : 0 < kk < zlen ds) by (unfold kk in *; lia).
    pose proof (firstn_skipn (Z.to_nat kk) ds) as FS. set (a := firstn (Z.to_nat kk) ds) in *. set (b := skipn (Z.to_nat kk) ds) in *.
    assert (La : zlen a = kk) by (unfold a, zlen in *; rewrite firstn_length; lia).
    assert (Lb : zlen b = zlen ds - kk) by (rewrite <- FS, zlen_app; lia).
    assert (Da : Forall digit a) by (rewrite <- FS in D; apply Forall_app in D; tauto).
    assert (Db : Forall digit b) by (rewrite <- FS in D; apply Forall_app in D; tauto).
    assert (Nb : b <> []) by (intros ->; cbn in Lb; lia).
    apply (G a b None (46 :: b) []); [| | | |now rewrite app_nil_r].
    + split; [intros X; rewrite X in La; cbn in La; lia|]. split; auto. intros c r X. rewrite X in FS. cbn in FS. exact (Z0 _ _ (eq_sym FS)).
    + now constructor.
    + constructor.
    + rewrite value_parts; auto; rewrite FS, V; [|rewrite T64; lia]. replace (- zlen b + 0) with k by (unfold kk in *; lia). exact Same.
  - apply (G [48] (zeros_text (- kk) ++ ds) None (46 :: zeros_text (- kk) ++ ds) []); [| | | |cbn [app]; now rewrite app_nil_r].
    + repeat split; try discriminate. repeat constructor; unfold digit; lia.
    + constructor; [destruct (zeros_text (- kk)); [exact N|discriminate]|]. apply Forall_app. split; auto using zeros_digits.
    + constructor.
    + assert (VV : digits_value ([48] ++ zeros_text (- kk) ++ ds) = m).
      { unfold digits_value in *. rewrite !fold_left_app. cbn [fold_left]. unfold zeros_text. rewrite fold_zeros. rewrite Z.mul_0_l. exact V. }
      rewrite value_parts; [| | |rewrite VV, T64; lia|left; destruct (zeros_text (- kk)); [exact N|discriminate]].
      * rewrite VV, zlen_app, zeros_len by lia. replace (- (- kk + zlen ds) + 0) with k by (unfold kk; lia). exact Same.
      * repeat constructor; unfold digit; lia.
      * apply Forall_app. split; auto using zeros_digits.
  - destruct ds as [|d [|d' r]]; [congruence| |].
    + apply (G [d] [] (Some (kk - 1)) [] (show_exp (kk - 1))); [exact IP|constructor|apply show_exp_exponent| |reflexivity].
      rewrite value_parts; [| exact D|constructor|rewrite app_nil_r, V, T64; lia|right; discriminate].
      rewrite app_nil_r, V. replace (- zlen (@nil Z) + (kk - 1)) with k by (unfold kk; change (zlen (@nil Z)) with 0; change (zlen [d]) with 1; lia). exact Same.
    + assert (Dd : digit d /\ Forall digit (d' :: r)) by (inversion D; auto). destruct Dd as [Dd Dr].
      apply (G [d] (d' :: r) (Some (kk - 1)) (46 :: d' :: r) (show_exp (kk - 1))); [| |apply show_exp_exponent| |].
      * repeat split; try discriminate. constructor; auto.
      * constructor; [discriminate|exact Dr].
      * rewrite value_parts; [|constructor; auto|exact Dr|change ([d] ++ d' :: r) with (d :: d' :: r); rewrite V, T64; lia|left; discriminate].
        change ([d] ++ d' :: r) with (d :: d' :: r). rewrite V. replace (- zlen (d' :: r) + (kk - 1)) with k by (unfold kk; rewrite !zlen_cons; lia). exact Same.
      * reflexivity.
Qed.

Theorem kept_normal n m k : 0 <= n < 2 ^ 32 -> 1 <= exp_field n <= 254 -> shortest n = (m, k) -> -12 <= k <= 9 -> float_kept n.
Proof.
  intros B E H K. destruct (shortest_normal n m k E H K) as (_ & Hm & _). apply (kept_text n m k); auto.
  - intros X. unfold exp_field in E. pose proof (Z.div_mod n (2 ^ 31)) as Y. rewrite X in Y.
    replace n with (n / 2 ^ 31 * 2 ^ 8 * 2 ^ 23) in E by lia. rewrite Z.div_mul, Z.mod_mul in E by lia. lia.
  - apply (float_back n m k); auto; lia.
  - intros K0 L. apply (float_back n m k); auto; try lia.
    replace (-1) with (k - (k + 1)) by lia. apply p10_shift. lia.
Qed.
