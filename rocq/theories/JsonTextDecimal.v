(** Floats written as decimals: the shortest decimal and what is computed from it, for moderate exponents: proofs. *)
From Coq Require Import ZArith Reals SpecFloat Lia Lra.
From Flocq Require Import Core Relative BinarySingleNaN.
From Verif Require Import Bytes Float32 FloatFacts FlocqFacts QuantSpec QuantFacts RoundFacts Json JsonText.
Local Open Scope R_scope.

Definition radix10 : radix := Build_radix 10 eq_refl.
Notation p2 := (bpow radix2).
Notation p10 := (bpow radix10).

Lemma p2_Z n : (0 <= n)%Z -> IZR (2 ^ n) = p2 n.
Proof. intros H. now rewrite <- (IZR_Zpower radix2) by exact H. Qed.
Lemma p10_Z n : (0 <= n)%Z -> IZR (10 ^ n) = p10 n.
Proof. intros H. now rewrite <- (IZR_Zpower radix10) by exact H. Qed.
Lemma p2_pos n : 0 < p2 n. Proof. apply bpow_gt_0. Qed.
Lemma p10_pos n : 0 < p10 n. Proof. apply bpow_gt_0. Qed.

(** ** The decimal chosen *)
Definition scale (e k : Z) : R := p10 (Z.max (- k) 0) * p2 (Z.max (- e) 0).
Lemma scale_pos e k : 0 < scale e k.
Proof. apply Rmult_lt_0_compat; apply bpow_gt_0. Qed.
Lemma scaled_n e k x : IZR (x * 2 ^ Z.max e 0 * 10 ^ Z.max (- k) 0) = IZR x * p2 e * scale e k.
Proof.
  rewrite !mult_IZR, p2_Z, p10_Z by lia. replace (Z.max e 0) with (e + Z.max (- e) 0)%Z by lia. rewrite bpow_plus. unfold scale. ring.
Qed.
Lemma scaled_d e k m : IZR (m * (10 ^ Z.max k 0 * 2 ^ Z.max (- e) 0)) = IZR m * p10 k * scale e k.
Proof.
  rewrite !mult_IZR, p2_Z, p10_Z by lia. replace (Z.max k 0) with (k + Z.max (- k) 0)%Z by lia. rewrite bpow_plus. unfold scale. ring.
Qed.

Definition within (strict : bool) (l x h : R) : Prop := if strict then l < x < h else l <= x <= h.

Lemma at_some even lo m4 hi e k m : shortest_at even lo m4 hi e k = Some m ->
  within (negb even) (IZR lo * p2 e) (IZR m * p10 k) (IZR hi * p2 e).
Proof.
  unfold shortest_at. set (d := (10 ^ Z.max k 0 * 2 ^ Z.max (- e) 0)%Z).
  assert (X : forall q, (if even then (lo * 2 ^ Z.max e 0 * 10 ^ Z.max (- k) 0 <=? q * d)%Z && (q * d <=? hi * 2 ^ Z.max e 0 * 10 ^ Z.max (- k) 0)%Z
                         else (lo * 2 ^ Z.max e 0 * 10 ^ Z.max (- k) 0 <? q * d)%Z && (q * d <? hi * 2 ^ Z.max e 0 * 10 ^ Z.max (- k) 0)%Z) = true ->
              within (negb even) (IZR lo * p2 e) (IZR q * p10 k) (IZR hi * p2 e)).
  { intros q H. pose proof (scale_pos e k) as P. pose proof (scaled_n e k lo) as A. pose proof (scaled_n e k hi) as B.
    pose proof (scaled_d e k q) as C. fold d in C. unfold within. destruct even; cbn [negb]; apply andb_prop in H as [H1 H2].
    - apply Z.leb_le, IZR_le in H1. apply Z.leb_le, IZR_le in H2. rewrite A, C in H1. rewrite B, C in H2.
      split; apply Rmult_le_reg_r with (1 := P); assumption.
    - apply Z.ltb_lt, IZR_lt in H1. apply Z.ltb_lt, IZR_lt in H2. rewrite A, C in H1. rewrite B, C in H2.
      split; apply Rmult_lt_reg_r with (1 := P); assumption. }
  intros H. destruct ((0 <? _)%Z && _) eqn:E.
  - injection H as <-. apply X. now apply andb_prop in E as [_ E].
  - match type of H with (if ?c then _ else _) = _ => destruct c eqn:E' end; [|discriminate]. injection H as <-. now apply X.
Qed.

Lemma round_div_near a b : (0 < b)%Z -> (2 * Z.abs (round_div a b * b - a) <= b)%Z.
Proof.
  intros B. unfold round_div. pose proof (Z.div_mod a b). pose proof (Z.mod_pos_bound a b B).
  destruct ((2 * (a mod b) <? b) || (2 * (a mod b) =? b) && Z.even (a / b))%Z eqn:E; nia.
Qed.

(** Some decimal is inside when the unit is at most half the distance of neighbours. *)
Lemma at_exists even lo m4 hi e k : (2 <= m4)%Z -> (lo <= m4 - 1)%Z -> (m4 + 1 <= hi)%Z ->
  even = true \/ (lo < m4 - 1)%Z /\ (m4 + 1 < hi)%Z -> p10 k <= p2 (e + 1) -> shortest_at even lo m4 hi e k <> None.
Proof.
  intros M L U S P. unfold shortest_at. set (d := (10 ^ Z.max k 0 * 2 ^ Z.max (- e) 0)%Z).
  set (c := (2 ^ Z.max e 0 * 10 ^ Z.max (- k) 0)%Z).
  assert (C : (0 < c)%Z) by (apply Z.mul_pos_pos; apply Z.pow_pos_nonneg; lia).
  assert (D : (0 < d)%Z) by (apply Z.mul_pos_pos; apply Z.pow_pos_nonneg; lia).
  assert (DC : (d <= 2 * c)%Z).
  { apply le_IZR. pose proof (scaled_d e k 1) as A. pose proof (scaled_n e k 2) as B. rewrite <- Z.mul_assoc in B. fold c in B. rewrite Z.mul_1_l in A. fold d in A.
    rewrite A, B. apply Rmult_le_compat_r; [apply Rlt_le, scale_pos|]. rewrite Z.add_comm, bpow_plus in P. change (p2 1) with 2 in P. lra. }
  rewrite <- !Z.mul_assoc. fold c. set (q := round_div (m4 * c) d). pose proof (round_div_near (m4 * c) d D) as N. fold q in N.
  clearbody c d q. assert (A : ((m4 - 1) * c <= q * d <= (m4 + 1) * c)%Z) by lia.
  assert (Q : (0 < q)%Z) by nia.
  assert (I : (if even then (lo * c <=? q * d)%Z && (q * d <=? hi * c)%Z else (lo * c <? q * d)%Z && (q * d <? hi * c)%Z) = true).
  { destruct S as [->|[S1 S2]]; [|destruct even]; apply andb_true_intro; split; first [apply Z.leb_le|apply Z.ltb_lt]; nia. }
  rewrite I. replace (0 <? q)%Z with true by lia. discriminate.
Qed.

Lemma from_spec fuel even lo m4 hi e : forall k0 m k k1, shortest_from fuel even lo m4 hi e k0 = (m, k) ->
  (k0 - Z.of_nat fuel < k1 <= k0)%Z -> shortest_at even lo m4 hi e k1 <> None ->
  shortest_at even lo m4 hi e k = Some m /\ (k1 <= k)%Z /\ (forall k', (k < k' <= k0)%Z -> shortest_at even lo m4 hi e k' = None).
Proof.
  induction fuel as [|fuel IH]; intros k0 m k k1 H K N; [lia|]. cbn [shortest_from] in H.
  destruct (shortest_at even lo m4 hi e k0) as [m'|] eqn:E.
  - injection H as <- <-. repeat split; auto; lia.
  - assert (k1 <> k0) by congruence. destruct (IH (k0 - 1)%Z m k k1 H ltac:(lia) N) as (A & B & C). repeat split; auto.
    intros k' K'. destruct (Z.eq_dec k' k0) as [->|]; [exact E|apply C; lia].
Qed.

(** ** Decimals and the numbers halfway between floats are equal or apart. *)
Lemma apart_core (a b : Z) w : 0 < w -> IZR a * w * p2 (-53) < w -> IZR a * w <> IZR b * w -> p2 (-53) * (IZR a * w) < Rabs (IZR a * w - IZR b * w).
Proof.
  intros W S N. replace (IZR a * w - IZR b * w) with (IZR (a - b) * w) by (rewrite minus_IZR; ring).
  rewrite Rabs_mult, (Rabs_pos_eq w) by lra. assert (1 <= Rabs (IZR (a - b))).
  { rewrite <- abs_IZR. apply IZR_le. assert (a <> b) by (intros ->; auto). lia. }
  assert (1 * w <= Rabs (IZR (a - b)) * w) by (apply Rmult_le_compat_r; lra). lra.
Qed.
Lemma p2_53 : p2 (-53) = / 9007199254740992. Proof. reflexivity. Qed.
Lemma p10_split k : (0 <= k)%Z -> p10 k = IZR (5 ^ k) * p2 k.
Proof. intros K. rewrite <- p10_Z, <- p2_Z, <- mult_IZR, <- Z.pow_mul_l by lia. reflexivity. Qed.

Lemma apart m k c e : (0 < m <= 2 ^ 29)%Z -> (-12 <= k <= 9)%Z -> (0 < c < 2 ^ 25)%Z ->
  IZR m * p10 k <= IZR c * p2 e * (1 + / 4194304) -> IZR m * p10 k <> IZR c * p2 e ->
  p2 (-53) * (IZR m * p10 k) < Rabs (IZR m * p10 k - IZR c * p2 e).
Proof.
  intros M K C B N. destruct (Z_le_gt_dec 0 k) as [K0|K0].
  - set (a := (m * 5 ^ k)%Z). assert (A : (0 < a < 2 ^ 50)%Z).
    { assert (0 < 5 ^ k)%Z by (apply Z.pow_pos_nonneg; lia). assert (5 ^ k <= 5 ^ 9)%Z by (apply Z.pow_le_mono_r; lia).
      change (2 ^ 29)%Z with 536870912%Z in M. change (5 ^ 9)%Z with 1953125%Z in *. unfold a. change (2 ^ 50)%Z with 1125899906842624%Z. nia. }
    assert (E : IZR m * p10 k = IZR a * p2 k) by (rewrite p10_split by lia; unfold a; rewrite mult_IZR; ring).
    destruct (Z_le_gt_dec k e) as [KE|KE].
    + assert (E' : IZR c * p2 e = IZR (c * 2 ^ (e - k)) * p2 k).
      { rewrite mult_IZR, p2_Z by lia. rewrite Rmult_assoc, <- bpow_plus. do 2 f_equal. lia. }
      rewrite E, E' in *. apply apart_core; auto using p2_pos. rewrite p2_53. pose proof (p2_pos k).
      assert (IZR a < 1125899906842624) by (apply IZR_lt; lia). nra.
    + assert (E' : IZR a * p2 k = IZR (a * 2 ^ (k - e)) * p2 e).
      { rewrite mult_IZR, p2_Z by lia. rewrite Rmult_assoc, <- bpow_plus. do 2 f_equal. lia. }
      rewrite E, E' in *. apply apart_core; auto using p2_pos. rewrite p2_53. pose proof (p2_pos e).
      assert (IZR c < 33554432) by (apply IZR_lt; lia). nra.
  - set (j := (- k)%Z). set (Q := (5 ^ j)%Z). assert (HQ : (0 < Q <= 244140625)%Z).
    { unfold Q, j. split; [apply Z.pow_pos_nonneg; lia|]. change 244140625%Z with (5 ^ 12)%Z. apply Z.pow_le_mono_r; lia. }
    set (z := IZR Q * p2 j). assert (Zp : 0 < z) by (apply Rmult_lt_0_compat; [apply IZR_lt; lia|apply p2_pos]).
    assert (Zk : p10 k * z = 1).
    { unfold z, Q. rewrite <- p10_split by (unfold j; lia). rewrite <- bpow_plus. replace (k + j)%Z with 0%Z by (unfold j; lia). reflexivity. }
    assert (G : forall a b w, IZR m = IZR a * w -> IZR c * p2 e * z = IZR b * w -> 0 < w -> IZR a * w * p2 (-53) < w ->
      p2 (-53) * (IZR m * p10 k) < Rabs (IZR m * p10 k - IZR c * p2 e)).
    { intros a b w Ea Eb W S. apply Rmult_lt_reg_r with (1 := Zp). rewrite <- (Rabs_pos_eq z) at 2 by lra. rewrite <- Rabs_mult.
      replace (p2 (-53) * (IZR m * p10 k) * z) with (p2 (-53) * IZR m * (p10 k * z)) by ring.
      replace ((IZR m * p10 k - IZR c * p2 e) * z) with (IZR m * (p10 k * z) - IZR c * p2 e * z) by ring.
      rewrite Zk, !Rmult_1_r, Eb, Ea. apply apart_core; auto. rewrite <- Ea, <- Eb. intros X. apply N.
      apply Rmult_eq_reg_r with z; [|lra]. rewrite <- X, Rmult_assoc, Zk. ring. }
    assert (Ec : IZR c * p2 e * z = IZR (c * Q) * p2 (e + j)) by (unfold z; rewrite mult_IZR, bpow_plus; ring).
    assert (Mr : IZR m <= 536870912) by (apply IZR_le; lia).
    assert (B' : IZR m <= IZR (c * Q) * p2 (e + j) * (1 + / 4194304)).
    { rewrite <- Ec. replace (IZR m) with (IZR m * p10 k * z) by (rewrite Rmult_assoc, Zk; ring).
      replace (IZR c * p2 e * z * (1 + / 4194304)) with (IZR c * p2 e * (1 + / 4194304) * z) by ring. apply Rmult_le_compat_r; lra. }
    destruct (Z_le_gt_dec 0 (e + j)) as [S|S].
    + apply (G m (c * Q * 2 ^ (e + j))%Z 1); [ring| |lra|].
      * rewrite Ec, (mult_IZR (c * Q)), p2_Z by lia. ring.
      * rewrite p2_53. lra.
    + apply (G (m * 2 ^ (- (e + j)))%Z (c * Q)%Z (p2 (e + j))); [| |apply p2_pos|].
      * rewrite mult_IZR, p2_Z by lia. rewrite Rmult_assoc, <- bpow_plus. replace (- (e + j) + (e + j))%Z with 0%Z by lia. cbn. ring.
      * exact Ec.
      * rewrite mult_IZR, p2_Z by lia. rewrite (Rmult_assoc (IZR m)), <- bpow_plus. replace (- (e + j) + (e + j))%Z with 0%Z by lia.
        change (p2 0) with 1. rewrite p2_53. pose proof (p2_pos (e + j)) as W.
        assert (X : IZR (c * Q) <= 8191999755859375) by (apply IZR_le; change (2 ^ 25)%Z with 33554432%Z in C; nia).
        nra.
Qed.

(** ** Rounding *)
Definition low (M : Z) : Z := if (M =? 2 ^ 23)%Z then (4 * M - 1)%Z else (4 * M - 2)%Z.

Lemma rnd_NE p e (P : Prec_gt_0 p) (Q : (1 < p)%Z) y x : let F := generic_format radix2 (SpecFloat.fexp p e) in
  Rnd_NE_pt radix2 (SpecFloat.fexp p e) y x -> rnd p e y = x.
Proof.
  intros F H. assert (V : Valid_exp (FLT_exp (emin p e) p)) by (apply FLT_exp_valid; auto).
  assert (E : Exists_NE radix2 (FLT_exp (emin p e) p)) by (apply exists_NE_FLT; auto).
  pose proof (@round_NE_pt radix2 (FLT_exp (emin p e) p) V E y) as R.
  destruct (@Rnd_NE_pt_round radix2 (FLT_exp (emin p e) p) V E) as [_ M].
  exact (round_unique _ M _ _ _ R H).
Qed.

Lemma mag_float M e : (2 ^ 23 <= M < 2 ^ 24)%Z -> mag radix2 (IZR M * p2 e) = (e + 24)%Z :> Z.
Proof.
  intros H. apply mag_unique_pos. replace (e + 24 - 1)%Z with (23 + e)%Z by lia. replace (e + 24)%Z with (24 + e)%Z by lia.
  rewrite !bpow_plus. pose proof (p2_pos e). rewrite <- (p2_Z 23), <- (p2_Z 24) by lia.
  assert (IZR (2 ^ 23) <= IZR M) by (apply IZR_le; lia). assert (IZR M < IZR (2 ^ 24)) by (apply IZR_lt; lia).
  split; [apply Rmult_le_compat_r; lra|apply Rmult_lt_compat_r; lra].
Qed.

Lemma nearest_float M e y : (2 ^ 23 <= M < 2 ^ 24)%Z -> (-140 <= e)%Z ->
  within (negb (Z.even M)) (IZR (low M) * p2 (e - 2)) y (IZR (4 * M + 2) * p2 (e - 2)) -> rnd32 y = IZR M * p2 e.
Proof.
  intros HM He W. set (x := IZR M * p2 e). set (fx := FLT_exp (emin prec32 emax32) prec32).
  assert (V : Valid_exp fx) by (apply FLT_exp_valid; reflexivity).
  assert (Mg : mag radix2 x = (e + 24)%Z :> Z) by (apply mag_float; auto).
  assert (Cx : cexp radix2 fx x = e).
  { unfold cexp. rewrite Mg. unfold fx, FLT_exp, emin, prec32, emax32. lia. }
  assert (Fx : generic_format radix2 fx x).
  { apply (generic_format_F2R radix2 fx M e). intros _. change (F2R (Float radix2 M e)) with x. rewrite Cx. lia. }
  assert (X0 : 0 < x) by (apply Rmult_lt_0_compat; [apply IZR_lt; lia|apply p2_pos]).
  assert (S4 : p2 e = 4 * p2 (e - 2)) by (replace e with (2 + (e - 2))%Z at 1 by lia; now rewrite bpow_plus).
  assert (S2 : p2 (e - 1) = 2 * p2 (e - 2)) by (replace (e - 1)%Z with (1 + (e - 2))%Z at 1 by lia; now rewrite bpow_plus).
  set (u := p2 (e - 2)) in *. assert (U : 0 < u) by apply p2_pos.
  assert (Hi : IZR (4 * M + 2) * u = x + 2 * u) by (unfold x; rewrite plus_IZR, mult_IZR, S4; ring).
  assert (Sx : succ radix2 fx x = x + 4 * u).
  { rewrite succ_eq_pos by lra. rewrite ulp_neq_0 by lra. now rewrite Cx, S4. }
  assert (Px : exists g, IZR (low M) * u = x - g /\ pred radix2 fx x = x - 2 * g /\ 0 < g).
  { unfold low. rewrite pred_eq_pos by lra. unfold pred_pos. rewrite Mg. replace (e + 24 - 1)%Z with (23 + e)%Z by lia.
    rewrite bpow_plus. change (p2 23) with 8388608. destruct (M =? 2 ^ 23)%Z eqn:E.
    - exists u. apply Z.eqb_eq in E. assert (EM : IZR M = 8388608) by (rewrite E; reflexivity). split; [|split; auto].
      + unfold x. rewrite minus_IZR, mult_IZR, S4. ring.
      + rewrite Req_bool_true by (unfold x; rewrite EM; reflexivity).
        assert (EE : fx (23 + e)%Z = (e - 1)%Z) by (unfold fx, FLT_exp, emin, prec32, emax32; lia).
        rewrite EE, S2. ring.
    - exists (2 * u). apply Z.eqb_neq in E. split; [|split; [|lra]].
      + unfold x. rewrite minus_IZR, mult_IZR, S4. ring.
      + rewrite Req_bool_false; [rewrite ulp_neq_0, Cx, S4 by lra; ring|].
        unfold x. intros X. apply Rmult_eq_reg_r in X; [|pose proof (p2_pos e); lra]. apply eq_IZR in X. lia. }
  destruct Px as (g & Lo & Px & G). rewrite Lo, Hi in W.
  assert (Away : forall z, generic_format radix2 fx z -> z <> x -> z <= x - 2 * g \/ x + 4 * u <= z).
  { intros z Fz N. destruct (Rtotal_order z x) as [H|[H|H]]; [left|congruence|right].
    - rewrite <- Px. now apply pred_ge_gt.
    - rewrite <- Sx. now apply succ_le_lt. }
  assert (W' : x - g <= y <= x + 2 * u) by (unfold within in W; destruct (negb _); lra).
  apply rnd_NE; [reflexivity|reflexivity|]. split.
  - split; [exact Fx|]. intros z Fz. destruct (Req_dec z x) as [->|N]; [lra|].
    destruct (Away z Fz N); unfold Rabs; repeat destruct Rcase_abs; lra.
  - destruct (Z.even M) eqn:Ev.
    + left. exists (Float radix2 M e). split; [reflexivity|]. split; [|exact Ev]. unfold canonical. cbn [Fexp].
      change (F2R (Float radix2 M e)) with x. symmetry. exact Cx.
    + right. cbn [negb within] in W. intros z [Fz Nz]. destruct (Req_dec z x) as [->|N]; [reflexivity|exfalso].
      specialize (Nz x Fx). destruct (Away z Fz N); unfold Rabs in Nz; repeat destruct Rcase_abs in Nz; lra.
Qed.

(** The rounding to f64 does not leave the numbers rounded to the float. *)
Lemma format64_int c e : (Z.abs c < 2 ^ 53)%Z -> (-1074 <= e)%Z -> format64 (IZR c * p2 e).
Proof.
  intros C E. apply generic_format_FLT. exists (Float radix2 c e); [reflexivity|exact C|exact E].
Qed.
Lemma rnd64_err d : p2 (-1022) <= Rabs d -> Rabs (rnd64 d - d) <= p2 (-53) * Rabs d.
Proof.
  intros H. pose proof (relative_error_N_FLT radix2 (emin prec64 emax64) prec64 eq_refl (fun x => negb (Z.even x)) d) as R.
  rewrite p2_53, <- err64. apply R. exact H.
Qed.

Lemma within_rnd M e m k : (2 ^ 23 <= M < 2 ^ 24)%Z -> (-100 <= e)%Z -> (0 < m <= 2 ^ 29)%Z -> (-12 <= k <= 9)%Z ->
  within (negb (Z.even M)) (IZR (low M) * p2 (e - 2)) (IZR m * p10 k) (IZR (4 * M + 2) * p2 (e - 2)) ->
  within (negb (Z.even M)) (IZR (low M) * p2 (e - 2)) (rnd64 (IZR m * p10 k)) (IZR (4 * M + 2) * p2 (e - 2)).
Proof.
  intros HM He Hm Hk W. set (d := IZR m * p10 k) in *. set (l := IZR (low M) * p2 (e - 2)) in *. set (h := IZR (4 * M + 2) * p2 (e - 2)) in *.
  assert (LM : (4 * M - 2 <= low M <= 4 * M - 1)%Z) by (unfold low; destruct (M =? 2 ^ 23)%Z; lia).
  assert (B : l <= rnd64 d <= h).
  { apply rnd_between; [reflexivity| | |unfold within in W; destruct (negb _); lra]; apply format64_int; lia. }
  unfold within in *. destruct (negb (Z.even M)); [|exact B].
  assert (U : 0 < p2 (e - 2)) by apply p2_pos.
  assert (D0 : 0 < d) by (apply Rmult_lt_0_compat; [apply IZR_lt; lia|apply p10_pos]).
  assert (Err : Rabs (rnd64 d - d) <= p2 (-53) * d).
  { rewrite <- (Rabs_pos_eq d) at 3 by lra. apply rnd64_err. rewrite Rabs_pos_eq by lra.
    assert (p10 (-12) <= p10 k) by (apply bpow_le; lia). assert (1 <= IZR m) by (apply IZR_le; lia).
    assert (p2 (-1022) <= p2 (-40)) by (apply bpow_le; lia). assert (p2 (-40) <= p10 (-12)).
    { cbn. lra. }
    unfold d. pose proof (p10_pos k). nra. }
  assert (HL : h <= l * (1 + / 4194304)).
  { unfold h, l. replace (IZR (low M) * p2 (e - 2) * (1 + / 4194304)) with (IZR (low M) * (1 + / 4194304) * p2 (e - 2)) by ring.
    apply Rmult_le_compat_r; [lra|]. rewrite plus_IZR, mult_IZR.
    assert (4 * IZR M - 2 <= IZR (low M)). { replace (4 * IZR M - 2) with (IZR (4 * M - 2)) by (rewrite minus_IZR, mult_IZR; ring). apply IZR_le. lia. }
    assert (8388608 <= IZR M) by (apply IZR_le; lia). lra. }
  assert (L0 : 0 < l) by (apply Rmult_lt_0_compat; [apply IZR_lt; lia|exact U]).
  (* the ends as odd numbers below 2^25 *)
  assert (El : exists c e', l = IZR c * p2 e' /\ (0 < c < 2 ^ 25)%Z).
  { unfold l, low. destruct (M =? 2 ^ 23)%Z eqn:E.
    - apply Z.eqb_eq in E. exists (4 * M - 1)%Z, (e - 2)%Z. split; [reflexivity|lia].
    - exists (2 * M - 1)%Z, (e - 1)%Z. split; [|lia]. replace (e - 1)%Z with (1 + (e - 2))%Z by lia. rewrite (bpow_plus radix2 1). change (p2 1) with 2.
      rewrite !minus_IZR, !mult_IZR. ring. }
  assert (Eh : exists c e', h = IZR c * p2 e' /\ (0 < c < 2 ^ 25)%Z).
  { unfold h. exists (2 * M + 1)%Z, (e - 1)%Z. split; [|lia]. replace (e - 1)%Z with (1 + (e - 2))%Z by lia. rewrite (bpow_plus radix2 1). change (p2 1) with 2.
    rewrite !plus_IZR, !mult_IZR. ring. }
  assert (No : forall c e', (0 < c < 2 ^ 25)%Z -> d <= IZR c * p2 e' * (1 + / 4194304) -> d <> IZR c * p2 e' -> rnd64 d <> IZR c * p2 e').
  { intros c e' C D N E. pose proof (apart m k c e' Hm Hk C D N) as A. fold d in A. rewrite <- E in A. rewrite Rabs_minus_sym in A. lra. }
  destruct El as (c1 & e1 & El & C1). destruct Eh as (c2 & e2 & Eh & C2).
  assert (N1 : rnd64 d <> l) by (rewrite El in *; apply No; auto; lra).
  assert (N2 : rnd64 d <> h) by (rewrite Eh in *; apply No; auto; lra). lra.
Qed.

(** ** Floats and their decimals *)
Definition exp_field (n : Z) : Z := ((n / 2 ^ 23) mod 2 ^ 8)%Z.
Definition mant (n : Z) : Z := (n mod 2 ^ 23 + 2 ^ 23)%Z.
Lemma mant_range n : (2 ^ 23 <= mant n < 2 ^ 24)%Z.
Proof. unfold mant. pose proof (Z.mod_pos_bound n (2 ^ 23) eq_refl). lia. Qed.

Lemma neg_powers a b : (0 <= a)%Z -> (0 <= b)%Z -> (2 ^ b <=? 10 ^ a)%Z = true -> p10 (- a) <= p2 (- b).
Proof.
  intros A B H. rewrite !bpow_opp. apply Rinv_le; [apply p2_pos|]. rewrite <- p10_Z, <- p2_Z by lia. apply IZR_le. now apply Z.leb_le.
Qed.
Lemma p10_small e : (-149 <= e)%Z -> p10 (-46) <= p2 (e - 2 + 1).
Proof.
  intros H. apply Rle_trans with (p2 (-150)); [|apply bpow_le; lia]. now apply (neg_powers 46 150).
Qed.
Lemma p10_twelve e : (-38 <= e)%Z -> p10 (-12) <= p2 (e - 2 + 1).
Proof.
  intros H. apply Rle_trans with (p2 (-39)); [|apply bpow_le; lia]. now apply (neg_powers 12 39).
Qed.
Lemma upper M e : (2 ^ 23 <= M < 2 ^ 24)%Z -> IZR (4 * M + 2) * p2 (e - 2) <= p2 (e + 24).
Proof.
  intros H. replace (e + 24)%Z with (26 + (e - 2))%Z by lia. rewrite bpow_plus. apply Rmult_le_compat_r; [apply bpow_ge_0|].
  rewrite <- (p2_Z 26) by lia. apply IZR_le. lia.
Qed.

Lemma shortest_normal n m k : (1 <= exp_field n <= 254)%Z -> shortest n = (m, k) -> (-12 <= k <= 9)%Z ->
  let M := mant n in let e := (exp_field n - 150)%Z in
  within (negb (Z.even M)) (IZR (low M) * p2 (e - 2)) (IZR m * p10 k) (IZR (4 * M + 2) * p2 (e - 2)) /\
  (0 < m <= 2 ^ 29)%Z /\ (-100 <= e)%Z.
Proof.
  intros E H K M e. pose proof (mant_range n) as HM. fold M in HM. unfold shortest in H. fold (exp_field n) in H.
  replace (exp_field n =? 0)%Z with false in H by lia. fold (mant n) in H. fold M in H. fold e in H. cbv zeta in H.
  set (lo := if (M =? 2 ^ 23)%Z && (-149 <? e)%Z then (4 * M - 1)%Z else (4 * M - 2)%Z) in H.
  assert (X : forall k', p10 k' <= p2 (e - 2 + 1) -> shortest_at (Z.even M) lo (4 * M) (4 * M + 2) (e - 2) k' <> None).
  { intros k' P. apply at_exists; auto; try lia.
    - unfold lo. destruct (_ && _); lia.
    - destruct (M =? 2 ^ 23)%Z eqn:E2.
      + left. apply Z.eqb_eq in E2. rewrite E2. reflexivity.
      + right. unfold lo. cbn [andb]. lia. }
  destruct (from_spec _ _ _ _ _ _ _ _ _ (-46)%Z H) as (A & _ & N); [lia|apply X, p10_small; unfold e; lia|].
  apply at_some in A.
  assert (Lo : (4 * M - 2 <= lo)%Z) by (unfold lo; destruct (_ && _); lia).
  assert (L0 : 0 < IZR lo * p2 (e - 2)) by (apply Rmult_lt_0_compat; [apply IZR_lt; lia|apply p2_pos]).
  assert (D : 0 < IZR m * p10 k <= p2 (e + 24)).
  { pose proof (upper M e HM). unfold within in A. destruct (negb _); lra. }
  assert (m0 : (0 < m)%Z).
  { apply lt_IZR. apply Rmult_lt_reg_r with (p10 k); [apply p10_pos|]. rewrite Rmult_0_l. apply D. }
  assert (e0 : (-100 <= e)%Z).
  { destruct (Z_lt_le_dec e (-100)) as [S|S]; auto. exfalso. assert (p2 (e + 24) < p2 (-40)) by (apply bpow_lt; lia).
    assert (p2 (-40) <= p10 (-12)) by (cbn; lra). assert (p10 (-12) <= p10 k) by (apply bpow_le; lia).
    assert (1 <= IZR m) by (apply IZR_le; lia). pose proof (p10_pos k). nra. }
  assert (El : lo = low M) by (unfold lo, low; replace (-149 <? e)%Z with true by lia; now rewrite andb_true_r).
  rewrite El in A. split; [exact A|]. split; [|exact e0]. split; [exact m0|].
  assert (P : p2 (e - 2 + 1) < p10 (k + 1)).
  { apply Rnot_le_lt. intros P. apply (X (k + 1)%Z P). apply N. lia. }
  rewrite (bpow_plus radix10) in P. change (p10 1) with 10 in P.
  assert (U : p2 (e + 24) = 33554432 * p2 (e - 2 + 1)).
  { replace (e + 24)%Z with (25 + (e - 2 + 1))%Z by lia. now rewrite bpow_plus. }
  apply le_IZR. change (IZR (2 ^ 29)) with 536870912. apply Rmult_le_reg_r with (p10 k); [apply p10_pos|]. pose proof (p10_pos k). lra.
Qed.

Lemma shortest_range n m k : (112 <= exp_field n <= 159)%Z -> shortest n = (m, k) -> (-12 <= k <= 9)%Z.
Proof.
  intros E H. set (M := mant n). set (e := (exp_field n - 150)%Z). pose proof (mant_range n) as HM. fold M in HM. unfold shortest in H. fold (exp_field n) in H.
  replace (exp_field n =? 0)%Z with false in H by lia. fold (mant n) in H. fold M in H. fold e in H. cbv zeta in H.
  replace (-149 <? e)%Z with true in H by (unfold e; lia). rewrite andb_true_r in H. fold (low M) in H.
  destruct (from_spec _ _ _ _ _ _ _ _ _ (-12)%Z H) as (A & B & _); [lia| |].
  - apply at_exists; try lia.
    + unfold low. destruct (_ =? _)%Z; lia.
    + unfold low. destruct (M =? 2 ^ 23)%Z eqn:E2; [left; apply Z.eqb_eq in E2; rewrite E2; reflexivity|right; lia].
    + apply p10_twelve. unfold e. lia.
  - split; [exact B|]. apply at_some in A.
    assert (LM : (4 * M - 2 <= low M)%Z) by (unfold low; destruct (M =? 2 ^ 23)%Z; lia).
    assert (L0 : 0 < IZR (low M) * p2 (e - 2)) by (apply Rmult_lt_0_compat; [apply IZR_lt; lia|apply p2_pos]).
    assert (D : 0 < IZR m * p10 k <= p2 (e + 24)).
    { pose proof (upper M e HM). unfold within in A. destruct (negb _); lra. }
    assert (m0 : (0 < m)%Z).
    { apply lt_IZR. apply Rmult_lt_reg_r with (p10 k); [apply p10_pos|]. rewrite Rmult_0_l. apply D. }
    destruct (Z_lt_le_dec 9 k) as [S|S]; auto. exfalso.
    assert (p2 (e + 24) <= p2 33) by (apply bpow_le; unfold e; lia). assert (p2 33 < p10 10) by (cbn; lra).
    assert (p10 10 <= p10 k) by (apply bpow_le; lia). assert (1 <= IZR m) by (apply IZR_le; lia). pose proof (p10_pos k). nra.
Qed.

(** ** The float read *)
Lemma rep_unique f g r : rep32 f r -> rep32 g r -> r <> 0 -> f = g.
Proof.
  intros F G N. apply rep_B in F as (b & Eb & Fb & Rb). apply rep_B in G as (c & Ec & Fc & Rc).
  assert (S : forall b : binary_float prec32 emax32, is_finite b = true -> B2R b = r -> is_finite_strict b = true).
  { intros [s|s| |s p x V] F R; try discriminate; [exfalso; apply N; rewrite <- R; reflexivity|reflexivity]. }
  subst f g. f_equal. apply B2R_inj; [now apply S|now apply S|congruence].
Qed.
Lemma rep_opp p e f r : rep p e f r -> rep p e (SFopp f) (- r).
Proof.
  intros (V & F & E). destruct f as [s|s| |s m x]; try discriminate.
  - repeat split. cbn in *. lra.
  - repeat split; [exact V|]. cbn [SFopp SF2R] in *. rewrite <- E. rewrite <- F2R_Zopp. f_equal. f_equal. destruct s; reflexivity.
Qed.
Lemma normal_rep n : (0 <= n < 2 ^ 32)%Z -> (1 <= exp_field n <= 254)%Z ->
  rep32 (f32_of n) ((if 2 ^ 31 <=? n then Ropp else fun x => x)%Z (IZR (mant n) * p2 (exp_field n - 150))) /\
  bits_of_f32 (f32_of n) = n.
Proof.
  intros B E. pose proof (f32_of_valid n B) as V. pose proof (mant_range n) as HM.
  assert (X : exists p, f32_of n = S754_finite (2 ^ 31 <=? n)%Z p (exp_field n - 150) /\ Z.pos p = mant n).
  { unfold f32_of. fold (exp_field n). fold (mant n). replace (exp_field n =? 0)%Z with false by lia. replace (exp_field n =? 255)%Z with false by lia.
    destruct (mant n) as [|p|p]; try lia. exists p. auto. }
  destruct X as (p & X & P). rewrite X in *. split.
  - split; [exact V|]. split; [reflexivity|]. cbn [SF2R]. rewrite P. unfold F2R. cbn [Fnum Fexp].
    destruct (2 ^ 31 <=? n)%Z; cbn [cond_Zopp]; [rewrite opp_IZR; ring|reflexivity].
  - unfold bits_of_f32. rewrite P. replace (mant n <? 2 ^ 23)%Z with false by lia.
    unfold mant, exp_field in *. destruct (2 ^ 31 <=? n)%Z eqn:S.
    + clear - B S. pose proof (Z.div_mod n (2 ^ 23)). pose proof (Z.div_mod (n / 2 ^ 23) (2 ^ 8)).
      assert ((n / 2 ^ 23) / 2 ^ 8 = 1)%Z by (rewrite Z.div_div by lia; change (2 ^ 23 * 2 ^ 8)%Z with (2 ^ 31)%Z; pose proof (Z.div_mod n (2 ^ 31)); pose proof (Z.mod_pos_bound n (2 ^ 31) eq_refl); apply Z.leb_le in S; lia).
      lia.
    + clear - B S. pose proof (Z.div_mod n (2 ^ 23)). pose proof (Z.div_mod (n / 2 ^ 23) (2 ^ 8)).
      assert ((n / 2 ^ 23) / 2 ^ 8 = 0)%Z by (rewrite Z.div_div by lia; change (2 ^ 23 * 2 ^ 8)%Z with (2 ^ 31)%Z; apply Z.div_small; apply Z.leb_gt in S; lia).
      lia.
Qed.

Lemma p10_rep k : (0 <= k <= 15)%Z -> rep64 (pow10 k) (p10 k).
Proof.
  intros K. rewrite <- p10_Z by lia. unfold pow10, int_to_f64. apply rep_int; [reflexivity|reflexivity| |vm_compute; discriminate].
  assert (0 < 10 ^ k)%Z by (apply Z.pow_pos_nonneg; lia). assert (10 ^ k <= 10 ^ 15)%Z by (apply Z.pow_le_mono_r; lia).
  change (10 ^ 15)%Z with 1000000000000000%Z in *. change (2 ^ prec64)%Z with 9007199254740992%Z. lia.
Qed.

Lemma parts_finite fuel s m e exp : (Z.abs exp <=? 308)%Z = true -> let f := S754_finite s m e in
  f64_parts fuel f exp =
    if (0 <=? exp)%Z then match mul64 f (pow10 exp) with S754_infinity _ => None | g => Some g end else Some (div64 f (pow10 (- exp))).
Proof. intros H f. destruct fuel; cbn [f64_parts]; rewrite H; reflexivity. Qed.
Lemma parts_rep sig exp r : (0 < sig < 2 ^ 53)%Z -> (-15 <= exp <= 15)%Z -> r = rnd64 (IZR sig * p10 exp) -> Rabs r < p2 1024 ->
  exists f, f64_parts 10 (int_to_f64 sig) exp = Some f /\ rep64 f r.
Proof.
  intros S E -> O. assert (F : rep64 (int_to_f64 sig) (IZR sig)).
  { unfold int_to_f64. apply rep_int; [reflexivity|reflexivity| |vm_compute; discriminate]. change prec64 with 53%Z. lia. }
  assert (NZ : IZR sig <> 0) by (apply IZR_neq; lia).
  assert (X : forall f, rep64 f (IZR sig) -> f64_parts 10 f exp =
    if (0 <=? exp)%Z then match mul64 f (pow10 exp) with S754_infinity _ => None | g => Some g end else Some (div64 f (pow10 (- exp)))).
  { intros f (V & Fi & R). destruct f as [s|s| |s m e]; try discriminate; [exfalso; apply NZ; rewrite <- R; reflexivity|].
    apply parts_finite. lia. }
  set (i := int_to_f64 sig) in *. clearbody i. rewrite (X _ F). destruct (0 <=? exp)%Z eqn:P.
  - pose proof (rep_mul prec64 emax64 eq_refl eq_refl _ _ _ _ F (p10_rep exp ltac:(lia)) O) as R.
    exists (mul64 i (pow10 exp)). split; [|exact R]. destruct R as (_ & Fi & _). unfold mul64.
    destruct (SFmul prec64 emax64 i (pow10 exp)); try discriminate; reflexivity.
  - exists (div64 i (pow10 (- exp))). split; [reflexivity|].
    assert (Q : IZR sig * p10 exp = IZR sig / p10 (- exp)) by (rewrite bpow_opp; field; apply Rgt_not_eq, p10_pos).
    rewrite Q in *. apply rep_div; auto; [reflexivity|reflexivity|apply p10_rep; lia|apply Rgt_not_eq, p10_pos].
Qed.

Lemma float_back n m k sig exp : (0 <= n < 2 ^ 32)%Z -> (1 <= exp_field n <= 254)%Z -> shortest n = (m, k) -> (-12 <= k <= 9)%Z ->
  (0 < sig < 2 ^ 53)%Z -> (-15 <= exp <= 15)%Z -> IZR sig * p10 exp = IZR m * p10 k ->
  float_value (2 ^ 31 <=? n)%Z sig exp = Some (JFloat n).
Proof.
  intros B E H K S X D. destruct (shortest_normal n m k E H K) as (W & Hm & He). pose proof (mant_range n) as HM.
  pose proof (within_rnd _ _ _ _ HM He Hm K W) as W'. assert (He' : (-140 <= exp_field n - 150)%Z) by lia. pose proof (nearest_float _ _ _ HM He' W') as R32. rewrite <- D in R32, W'.
  set (x := IZR (mant n) * p2 (exp_field n - 150)) in *.
  assert (x0 : 0 < x < p2 128).
  { unfold x. split; [apply Rmult_lt_0_compat; [apply IZR_lt; lia|apply p2_pos]|].
    apply Rlt_le_trans with (p2 24 * p2 (exp_field n - 150)); [apply Rmult_lt_compat_r; [apply p2_pos|rewrite <- (p2_Z 24) by lia; apply IZR_lt; lia]|].
    rewrite <- bpow_plus. apply bpow_le. lia. }
  destruct (parts_rep sig exp _ S X eq_refl) as (f & Ef & Rf).
  { assert (LM : (0 < low (mant n))%Z) by (unfold low; destruct (_ =? _)%Z; lia).
    pose proof (upper (mant n) (exp_field n - 150) HM) as U.
    assert (0 < IZR (low (mant n)) * p2 (exp_field n - 150 - 2)) by (apply Rmult_lt_0_compat; [apply IZR_lt; lia|apply p2_pos]).
    assert (p2 (exp_field n - 150 + 24) < p2 1024) by (apply bpow_lt; lia).
    apply Rabs_def1; unfold within in W'; destruct (negb _); lra. }
  unfold float_value. rewrite Ef. do 2 f_equal. destruct (normal_rep n B E) as [Rn Bn]. rewrite <- Bn at 2. f_equal.
  fold x in Rn. change (convert prec32 emax32) with f64_to_f32.
  destruct (2 ^ 31 <=? n)%Z.
  - apply (rep_unique _ _ (- x)); [|exact Rn|lra]. rewrite <- R32. unfold rnd at 1. rewrite <- round_NE_opp. apply rep_narrow.
    + apply rep_opp. exact Rf.
    + unfold rnd at 1. rewrite round_NE_opp. fold (rnd32 (rnd64 (IZR sig * p10 exp))). rewrite R32, Rabs_Ropp, Rabs_pos_eq; lra.
  - apply (rep_unique _ _ x); [|exact Rn|lra]. rewrite <- R32. apply rep_narrow; [exact Rf|]. rewrite R32, Rabs_pos_eq; lra.
Qed.
