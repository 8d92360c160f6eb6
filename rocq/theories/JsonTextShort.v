(** The decimal written for a float has the largest exponent possible: proofs. *)
From Coq Require Import ZArith Reals SpecFloat Lia Lra ZifyBool.
From Flocq Require Import Core BinarySingleNaN.
From Verif Require Import Bytes Float32 FloatFacts FlocqFacts QuantSpec QuantFacts RoundFacts Json JsonText JsonTextSpec
  JsonTextDecimal JsonTextKept JsonTextFarey JsonTextAll JsonTextFinite.

(** If one multiple of 10^k is strictly between the ends, one is found. *)
Section Found.
Open Scope Z_scope.
Variables (A C B d m' : Z).
Hypothesis (HA : 0 < A < C) (HB : C - A <= B - C) (Hd : 0 < d) (Hm : 0 < m') (H : A < m' * d < B).
Lemma found (even : bool) : let m := round_div C d in
  let inside (x : Z) := if even then (A <=? x * d) && (x * d <=? B) else (A <? x * d) && (x * d <? B) in
  (if (0 <? m) && inside m then Some m else if inside (m + 1) then Some (m + 1) else None) <> None.
Proof.
  intros m inside.
  assert (In : forall x, A < x * d < B -> inside x = true) by (intros x X; unfold inside; destruct even; lia).
  assert (S : 0 < m -> A < m * d < B \/ A < (m + 1) * d < B -> (if (0 <? m) && inside m then Some m else if inside (m + 1) then Some (m + 1) else None) <> None).
  { intros P [X|X]; rewrite (In _ X); [replace (0 <? m) with true by lia|destruct ((0 <? m) && inside m)]; discriminate. }
  assert (T : A < (m + 1) * d < B -> (if (0 <? m) && inside m then Some m else if inside (m + 1) then Some (m + 1) else None) <> None).
  { intros X. rewrite (In _ X). destruct ((0 <? m) && inside m); discriminate. }
  pose proof (Z.div_mod C d ltac:(lia)) as Dm. pose proof (Z.mod_pos_bound C d Hd) as R.
  assert (Q0 : 0 <= C / d) by (apply Z.div_pos; lia).
  assert (E : m = C / d \/ m = C / d + 1 /\ d <= 2 * (C mod d)) by (unfold m, round_div; destruct (_ || _) eqn:X; lia).
  clearbody m. set (q := C / d) in *. set (r := C mod d) in *. clearbody q r.
  destruct (Z_le_gt_dec m' q) as [L|L].
  - assert (m' * d <= q * d) by (apply Z.mul_le_mono_nonneg_r; lia). destruct E as [->|[-> E]]; apply S; try lia; left; nia.
  - assert ((q + 1) * d <= m' * d) by (apply Z.mul_le_mono_nonneg_r; lia). destruct E as [->|[-> E]]; [apply T|apply S; [lia|left]]; nia.
Qed.
End Found.

Local Open Scope R_scope.
Lemma at_none even lo m4 hi e k m' : shortest_at even lo m4 hi e k = None -> (0 < lo < m4)%Z -> (m4 - lo <= hi - m4)%Z -> (0 < m')%Z ->
  ~ (IZR lo * p2 e < IZR m' * p10 k < IZR hi * p2 e).
Proof.
  intros N L H M [W1 W2]. pose proof (scale_pos e k) as S.
  assert (P2 : (0 < 2 ^ Z.max e 0)%Z) by (apply Z.pow_pos_nonneg; lia). assert (P10 : (0 < 10 ^ Z.max (- k) 0)%Z) by (apply Z.pow_pos_nonneg; lia).
  assert (Pd : (0 < 10 ^ Z.max k 0 * 2 ^ Z.max (- e) 0)%Z) by (apply Z.mul_pos_pos; apply Z.pow_pos_nonneg; lia).
  assert (V : (lo * 2 ^ Z.max e 0 * 10 ^ Z.max (- k) 0 < m' * (10 ^ Z.max k 0 * 2 ^ Z.max (- e) 0) < hi * 2 ^ Z.max e 0 * 10 ^ Z.max (- k) 0)%Z).
  { split; apply lt_IZR; rewrite scaled_n, scaled_d; apply Rmult_lt_compat_r; auto. }
  revert N. unfold shortest_at. cbv zeta. apply (found (lo * 2 ^ Z.max e 0 * 10 ^ Z.max (- k) 0) (m4 * 2 ^ Z.max e 0 * 10 ^ Z.max (- k) 0)
    (hi * 2 ^ Z.max e 0 * 10 ^ Z.max (- k) 0) (10 ^ Z.max k 0 * 2 ^ Z.max (- e) 0) m'); auto.
  - rewrite <- !Z.mul_assoc. assert (0 < 2 ^ Z.max e 0 * 10 ^ Z.max (- k) 0)%Z by lia. split; [apply Z.mul_pos_pos; lia|apply Z.mul_lt_mono_pos_r; lia].
  - rewrite <- !Z.mul_assoc. set (s := (2 ^ Z.max e 0 * 10 ^ Z.max (- k) 0)%Z). assert (0 < s)%Z by (unfold s; lia). nia.
Qed.

Theorem shortest_best n m k m' k' : (0 <= n < 2 ^ 32)%Z -> (0 < n mod 2 ^ 31 < 255 * 2 ^ 23)%Z -> shortest n = (m, k) -> (0 < m')%Z ->
  IZR (spot_low (M n, e n)) * p2 (e n - 2) < IZR m' * p10 k' < IZR (4 * M n + 2) * p2 (e n - 2) -> (k' <= k)%Z.
Proof.
  intros B Fin H M' W. destruct (Z_le_gt_dec k' k) as [|G]; [assumption|exfalso].
  destruct (spot_facts n B Fin) as ((HM & He & Hn) & _).
  assert (HS : shortest n = shortest_from 100 (Z.even (M n)) (spot_low (M n, e n)) (4 * M n) (4 * M n + 2) (e n - 2) 39).
  { unfold shortest. pose proof (spot_n n B) as SN. unfold spot in SN. cbv zeta in *. rewrite SN. reflexivity. }
  rewrite HS in H. clear HS. set (mm := M n) in *. set (ee := e n) in *. clearbody mm ee.
  assert (LM : (4 * mm - 2 <= spot_low (mm, ee) <= 4 * mm - 1)%Z) by (unfold spot_low; destruct (_ && _)%bool; lia).
  destruct (Z_le_gt_dec k' 39) as [K|K].
  - destruct (from_spec _ _ _ _ _ _ _ _ _ (-46)%Z H) as (_ & _ & N); [lia| |].
    + apply at_exists; auto; try lia; [|apply p10_small; lia]. unfold spot_low. destruct (mm =? 2 ^ 23)%Z eqn:E2.
      * left. apply Z.eqb_eq in E2. rewrite E2. reflexivity.
      * right. cbn [andb]. lia.
    + apply (at_none _ _ _ _ _ _ m' (N k' ltac:(lia))); auto; lia.
  - assert (U : IZR (4 * mm + 2) * p2 (ee - 2) <= p2 128).
    { apply Rle_trans with (p2 (26 + (ee - 2))); [|apply bpow_le; lia]. rewrite bpow_plus. apply Rmult_le_compat_r; [apply bpow_ge_0|].
      rewrite <- (p2_Z 26) by lia. apply IZR_le. lia. }
    assert (Big : p2 128 < p10 39) by (rewrite <- p10_Z, <- p2_Z by lia; apply IZR_lt; reflexivity).
    assert (p10 39 <= p10 k') by (apply bpow_le; lia). assert (1 <= IZR m') by (apply IZR_le; lia). pose proof (p10_pos k'). nra.
Qed.

Theorem shortest_exponent n m k : (0 <= n < 2 ^ 32)%Z -> (n mod 2 ^ 31 <> 0)%Z -> ((n / 2 ^ 23) mod 2 ^ 8 <> 255)%Z -> shortest n = (m, k) ->
  forall m' k', (0 < m')%Z ->
  (forall c q, (0 <= c <= 2 ^ 24)%Z -> (-149 <= q)%Z -> IZR c * powerRZ 2 q <> Rabs (real n) ->
     Rabs (Rabs (real n) - IZR m' * powerRZ 10 k') < Rabs (IZR c * powerRZ 2 q - IZR m' * powerRZ 10 k')) -> (k' <= k)%Z.
Proof.
  intros B NZ F H m' k' M' Near. pose proof (Z.mod_pos_bound n (2 ^ 31) eq_refl).
  assert (Fi : (n mod 2 ^ 31 < 255 * 2 ^ 23)%Z) by (apply finite_iff_exponent; auto; unfold f32_finite; apply Z.eqb_neq in F; now rewrite F).
  assert (Fin : (0 < n mod 2 ^ 31 < 255 * 2 ^ 23)%Z) by lia.
  apply (shortest_best n m k m' k' B Fin H M').
  destruct (spot_facts n B Fin) as ((HM & He & Hn) & _). destruct (rep_spot n B Fin) as [(_ & _ & R) _].
  assert (X : Rabs (real n) = IZR (M n) * p2 (e n)).
  { unfold real. rewrite real_of_SF2R, R. assert (0 <= IZR (M n) * p2 (e n)) by (apply Rmult_le_pos; [apply IZR_le; lia|apply bpow_ge_0]).
    destruct (2 ^ 31 <=? n)%Z; [rewrite Rabs_Ropp|]; now apply Rabs_pos_eq. }
  rewrite X in Near. set (mm := M n) in *. set (ee := e n) in *. clearbody mm ee. clear R X.
  assert (Near' : forall c q, (0 <= c <= 2 ^ 24)%Z -> (-149 <= q)%Z -> IZR c * p2 q <> IZR mm * p2 ee ->
     Rabs (IZR mm * p2 ee - IZR m' * p10 k') < Rabs (IZR c * p2 q - IZR m' * p10 k')).
  { intros c q. rewrite (bpow_powerRZ radix2 q), (bpow_powerRZ radix10 k'). apply Near. }
  clear Near. set (D := IZR m' * p10 k') in *. clearbody D.
  assert (S4 : p2 ee = 4 * p2 (ee - 2)) by (replace ee with (2 + (ee - 2))%Z at 1 by lia; now rewrite bpow_plus).
  assert (S2 : p2 (ee - 1) = 2 * p2 (ee - 2)) by (replace (ee - 1)%Z with (1 + (ee - 2))%Z by lia; now rewrite bpow_plus).
  pose proof (p2_pos (ee - 2)) as P. set (u := p2 (ee - 2)) in *.
  assert (Side : forall y, Rabs (IZR mm * p2 ee - D) < Rabs (y - D) -> (y < IZR mm * p2 ee -> (y + IZR mm * p2 ee) / 2 < D) /\ (IZR mm * p2 ee < y -> D < (y + IZR mm * p2 ee) / 2)).
  { intros y Y. unfold Rabs in Y. split; intros O; destruct (Rcase_abs _), (Rcase_abs _); lra. }
  split.
  - unfold spot_low. destruct ((mm =? 2 ^ 23)%Z && (-149 <? ee)%Z)%bool eqn:Q.
    + specialize (Near' (2 * mm - 1)%Z (ee - 1)%Z ltac:(lia) ltac:(lia)). rewrite minus_IZR, mult_IZR, S2 in Near'. rewrite S4 in *.
      specialize (Near' ltac:(lra)). apply Side in Near' as [Near' _]. rewrite minus_IZR, mult_IZR. specialize (Near' ltac:(lra)). lra.
    + specialize (Near' (mm - 1)%Z ee ltac:(lia) ltac:(lia)). rewrite minus_IZR in Near'. rewrite S4 in *.
      specialize (Near' ltac:(lra)). apply Side in Near' as [Near' _]. rewrite minus_IZR, mult_IZR. specialize (Near' ltac:(lra)). lra.
  - specialize (Near' (mm + 1)%Z ee ltac:(lia) ltac:(lia)). rewrite plus_IZR in Near'. rewrite S4 in *.
    specialize (Near' ltac:(lra)). apply Side in Near' as [_ Near']. rewrite plus_IZR, mult_IZR. specialize (Near' ltac:(lra)). lra.
Qed.
