(** The error of quantised floats. *)
From Coq Require Import ZArith Reals SpecFloat Lia Lra.
From Flocq Require Import Core BinarySingleNaN.
From Verif Require Import Bytes Float32 FloatFacts FlocqFacts AnimComp QuantSpec.
Local Open Scope R_scope.
(** The conclusion of [H], leaving its premise *)
Ltac spec H := match type of H with ?A -> _ => let P := fresh in assert (P : A); [|specialize (H P); clear P] end.

Notation rep32 := (rep prec32 emax32).
Notation rep64 := (rep prec64 emax64).
Notation rnd32 := (rnd prec32 emax32).
Notation rnd64 := (rnd prec64 emax64).
Notation format32 := (generic_format radix2 (SpecFloat.fexp prec32 emax32)).
Notation format64 := (generic_format radix2 (SpecFloat.fexp prec64 emax64)).

Lemma real_of_SF2R f : real_of f = SF2R radix2 f.
Proof. destruct f; try reflexivity. cbn [real_of SF2R]. unfold F2R. cbn [Fnum Fexp]. now rewrite bpow_powerRZ. Qed.
Lemma finite_rep x : finite x = true -> rep32 (f32_of x) (real x).
Proof.
  unfold finite. intros H. apply andb_prop in H as [H F]. apply andb_prop in H as [H1 H2]. split; [apply f32_of_valid; lia|].
  split; [|symmetry; apply real_of_SF2R]. destruct (f32_of x); auto.
Qed.

(** ** Constants *)
Lemma err32 : / 2 * bpow radix2 (- prec32 + 1) = / 16777216.
Proof. unfold prec32. cbn. lra. Qed.
Lemma err64 : / 2 * bpow radix2 (- prec64 + 1) = / 9007199254740992.
Proof. unfold prec64. cbn. lra. Qed.
Lemma tiny32 : / 2 * bpow radix2 (emin prec32 emax32) = bpow radix2 (-150).
Proof. change (emin prec32 emax32) with (-149)%Z. change (-150)%Z with (-1 + -149)%Z. rewrite bpow_plus. cbn [bpow]. reflexivity. Qed.
Lemma tiny64 : / 2 * bpow radix2 (emin prec64 emax64) = bpow radix2 (-1075).
Proof. change (emin prec64 emax64) with (-1074)%Z. change (-1075)%Z with (-1 + -1074)%Z. rewrite bpow_plus. cbn [bpow]. reflexivity. Qed.

Lemma rnd32_err x : exists e h, Rabs e <= / 16777216 /\ Rabs h <= bpow radix2 (-150) /\ rnd32 x = x * (1 + e) + h.
Proof. destruct (rnd_err prec32 emax32 _ x) as (e & h & He & Hh & E). rewrite err32 in He. rewrite tiny32 in Hh. eauto. Qed.
Lemma rnd64_err x : exists e h, Rabs e <= / 9007199254740992 /\ Rabs h <= bpow radix2 (-1075) /\ rnd64 x = x * (1 + e) + h.
Proof. destruct (rnd_err prec64 emax64 _ x) as (e & h & He & Hh & E). rewrite err64 in He. rewrite tiny64 in Hh. eauto. Qed.
Lemma rnd32_sub x y : format32 x -> format32 y -> exists e, Rabs e <= / 16777216 /\ rnd32 (x - y) = (x - y) * (1 + e).
Proof. intros Fx Fy. destruct (rnd_sub_err prec32 emax32 _ x y Fx Fy) as (e & He & E). rewrite err32 in He. eauto. Qed.

(** Products of factors near one *)
Lemma near_mul a b x y : Rabs (a - 1) <= x -> Rabs (b - 1) <= y -> Rabs (a * b - 1) <= x + y + x * y.
Proof.
  intros Ha Hb. replace (a * b - 1) with ((a - 1) * (b - 1) + (a - 1) + (b - 1)) by ring.
  eapply Rle_trans; [apply Rabs_triang|]. eapply Rle_trans; [apply Rplus_le_compat_r, Rabs_triang|].
  rewrite Rabs_mult. assert (Rabs (a - 1) * Rabs (b - 1) <= x * y) by (apply Rmult_le_compat; auto using Rabs_pos). lra.
Qed.
Lemma near_inv a x : Rabs (a - 1) <= x -> x <= / 2 -> Rabs (/ a - 1) <= x + 2 * x * x.
Proof.
  intros Ha Hx. apply Rabs_le_inv in Ha. assert (A : / 2 <= a) by lra. assert (0 <= x) by lra.
  replace (/ a - 1) with ((1 - a) * / a) by (field; lra). rewrite Rabs_mult.
  assert (B : Rabs (1 - a) <= x) by (apply Rabs_le; lra).
  assert (C : / a <= 1 + 2 * x).
  { apply Rmult_le_reg_l with a; [lra|]. rewrite Rinv_r by lra. assert (0 <= (a - / 2) * x + 0) by (apply Rplus_le_le_0_compat; [apply Rmult_le_pos; lra|lra]). nra. }
  assert (D : 0 < / a) by (apply Rinv_0_lt_compat; lra). rewrite (Rabs_pos_eq (/ a)) by lra.
  apply Rle_trans with (x * (1 + 2 * x)); [|lra]. apply Rmult_le_compat; auto using Rabs_pos; lra.
Qed.

(** ** Compressing *)
Section Compress.
Variables mn mx x : R.
Hypothesis Fn : format32 mn.
Hypothesis Fx : format32 mx.
Hypothesis Fv : format32 x.
Hypothesis H1 : mn <= x.
Hypothesis H2 : x <= mx.
Hypothesis H3 : mn < mx.
Variable s : R.
Hypothesis Hs : 1 <= s.
Hypothesis Fs : format32 s.
Let d := rnd32 (x - mn).
Let D := rnd32 (mx - mn).
Let r := rnd32 (d / D).
Let p := rnd32 (r * s).

Lemma format_0 : format32 0.
Proof. apply generic_format_0. Qed.
Lemma format_1 : format32 1.
Proof. apply (int_format prec32 emax32 1%Z); [reflexivity|vm_compute; discriminate]. Qed.

Lemma D_pos : 0 < D.
Proof.
  destruct (rnd32_sub mx mn Fx Fn) as (e & He & E). unfold D. rewrite E. apply Rabs_le_inv in He. apply Rmult_lt_0_compat; lra.
Qed.
Lemma d_bounds : 0 <= d <= D.
Proof.
  unfold d, D. split.
  - rewrite <- (rnd_0 prec32 emax32). apply rnd_mono; [apply prec32_pos|lra].
  - apply rnd_mono; [apply prec32_pos|lra].
Qed.
Lemma r_bounds : 0 <= r <= 1.
Proof.
  pose proof D_pos as DP. pose proof d_bounds as DB. apply rnd_between; auto using format_0, format_1; [apply prec32_pos|]. split.
  - apply Rmult_le_pos; [lra|]. left. now apply Rinv_0_lt_compat.
  - apply Rmult_le_reg_r with D; auto. unfold Rdiv. rewrite Rmult_assoc, Rinv_l by lra. lra.
Qed.
Lemma p_bounds : 0 <= p <= s.
Proof.
  pose proof r_bounds as RB. apply rnd_between; auto using format_0; [apply prec32_pos|]. split; nra.
Qed.

(** The ends of the range are exact. *)
Lemma p_min : x = mn -> p = 0.
Proof.
  intros E. unfold p, r, d. replace (x - mn) with 0 by lra. rewrite (rnd_0 prec32 emax32). unfold Rdiv. rewrite Rmult_0_l, (rnd_0 prec32 emax32), Rmult_0_l.
  apply (rnd_0 prec32 emax32).
Qed.
Lemma p_max : x = mx -> p = s.
Proof.
  intros E. pose proof D_pos as DP. unfold p, r, d. rewrite E. fold D. replace (D / D) with 1 by (field; lra).
  rewrite (rnd_id prec32 emax32 1 format_1), Rmult_1_l. apply rnd_id. exact Fs.
Qed.

Lemma p_error : Rabs (p - s * ((x - mn) / (mx - mn))) <= 5 * s * / 16777216.
Proof.
  destruct (rnd32_sub x mn Fv Fn) as (e1 & He1 & E1). destruct (rnd32_sub mx mn Fx Fn) as (e2 & He2 & E2).
  destruct (rnd32_err (d / D)) as (e3 & h3 & He3 & Hh3 & E3). destruct (rnd32_err (r * s)) as (e4 & h4 & He4 & Hh4 & E4).
  set (t := (x - mn) / (mx - mn)). assert (T : 0 <= t <= 1).
  { unfold t. split.
    - apply Rmult_le_pos; [lra|]. left. apply Rinv_0_lt_compat. lra.
    - apply Rmult_le_reg_r with (mx - mn); [lra|]. unfold Rdiv. rewrite Rmult_assoc, Rinv_l by lra. lra. }
  set (u := / 16777216) in *. assert (U : 0 < u <= / 1000000) by (unfold u; lra).
  assert (A2 := Rabs_le_inv _ _ He2).
  set (K := (1 + e1) * / (1 + e2) * ((1 + e3) * (1 + e4))).
  assert (EK : p = s * t * K + (s * h3 * (1 + e4) + h4)).
  { unfold p. rewrite E4. unfold r. rewrite E3. unfold d, D. rewrite E1, E2. unfold K, t. field. split; lra. }
  assert (BK : Rabs (K - 1) <= 4.1 * u).
  { assert (X : Rabs ((1 + e1) * / (1 + e2) - 1) <= 2.01 * u).
    { eapply Rle_trans; [apply near_mul with (x := u) (y := u + 2 * u * u)|nra].
      - replace (1 + e1 - 1) with e1 by ring. exact He1.
      - apply near_inv; [replace (1 + e2 - 1) with e2 by ring; exact He2|lra]. }
    assert (Y : Rabs ((1 + e3) * (1 + e4) - 1) <= 2.01 * u).
    { eapply Rle_trans; [apply near_mul with (x := u) (y := u)|nra].
      - replace (1 + e3 - 1) with e3 by ring. exact He3.
      - replace (1 + e4 - 1) with e4 by ring. exact He4. }
    unfold K. eapply Rle_trans; [apply near_mul; [exact X|exact Y]|nra]. }
  set (q := bpow radix2 (-150)) in *. assert (Q : 0 < q <= / 10 * u).
  { split; [apply bpow_gt_0|]. unfold u, q. apply Rle_trans with (bpow radix2 (-28)); [apply bpow_le; lia|]. cbn. lra. }
  rewrite EK. replace (s * t * K + (s * h3 * (1 + e4) + h4) - s * t) with (s * (t * (K - 1)) + (s * (h3 * (1 + e4)) + h4)) by ring.
  assert (P1 : Rabs (t * (K - 1)) <= 4.1 * u).
  { rewrite Rabs_mult, (Rabs_pos_eq t) by lra. assert (0 <= Rabs (K - 1)) by apply Rabs_pos. nra. }
  assert (P2 : Rabs (h3 * (1 + e4)) <= 2 * q).
  { rewrite Rabs_mult. apply Rabs_le_inv in He4. rewrite (Rabs_pos_eq (1 + e4)) by lra. pose proof (Rabs_pos h3). nra. }
  apply Rabs_le_inv in P1. apply Rabs_le_inv in P2. apply Rabs_le_inv in Hh4. apply Rabs_le. split; nra.
Qed.
End Compress.

(** ** Decompressing *)
Lemma format_32_64 r : format32 r -> format64 r.
Proof.
  intros H. apply (generic_inclusion_mag radix2 (SpecFloat.fexp prec32 emax32)); auto.
  intros _. unfold SpecFloat.fexp, emin, prec32, emax32, prec64, emax64. lia.
Qed.
Lemma unit_mul u e w : 0 <= u <= 1 -> - w <= e <= w -> - w <= u * e <= w.
Proof. intros; split; nra. Qed.
Lemma scale_between u a m : 0 <= u -> - m <= a <= m -> - (u * m) <= a * u <= u * m.
Proof. intros; split; nra. Qed.
Section Decompress.
Variables mn mx : R.
Hypothesis Fn : format32 mn.
Hypothesis Fx : format32 mx.
Hypothesis H3 : mn < mx.
Variables c s : R.
Hypothesis Hs : 1 <= s <= 16777216.
Hypothesis Hc : c = 0 \/ c = s \/ 1 <= c <= s - 1.
Let t := rnd64 (c / s).
Let q := rnd64 (1 - t).
Let m1 := rnd64 (mn * q).
Let m2 := rnd64 (mx * t).
Let v := rnd64 (m1 + m2).
Let M := Rmax (Rabs mn) (Rabs mx).
Let L := mn * (1 - c / s) + mx * (c / s).

Lemma format64_0 : format64 0.
Proof. apply generic_format_0. Qed.
Lemma format64_1 : format64 1.
Proof. apply (int_format prec64 emax64 1%Z); [reflexivity|vm_compute; discriminate]. Qed.
Lemma tau_bounds : 0 <= c / s <= 1.
Proof.
  assert (0 < / s) by (apply Rinv_0_lt_compat; lra). assert (I : s * / s = 1) by (apply Rinv_r; lra). unfold Rdiv. split; [|rewrite <- I]; nra.
Qed.
Lemma t_bounds : 0 <= t <= 1.
Proof. apply rnd_between; auto using format64_0, format64_1, tau_bounds. apply prec64_pos. Qed.
Lemma q_bounds : 0 <= q <= 1.
Proof. pose proof t_bounds. apply rnd_between; auto using format64_0, format64_1; [apply prec64_pos|lra]. Qed.
Lemma M_pos : 0 < M.
Proof.
  unfold M. destruct (Req_dec mx 0) as [E|E].
  - assert (0 < Rabs mn) by (apply Rabs_pos_lt; lra). eapply Rlt_le_trans; [eassumption|apply Rmax_l].
  - assert (0 < Rabs mx) by (apply Rabs_pos_lt; lra). eapply Rlt_le_trans; [eassumption|apply Rmax_r].
Qed.
(** The smallest positive f32 *)
Lemma format32_small r : format32 r -> r <> 0 -> bpow radix2 (-149) <= Rabs r.
Proof.
  intros F Z. apply (generic_format_abs radix2) in F. 
  pose proof (generic_format_ge_bpow radix2 (SpecFloat.fexp prec32 emax32) (-149)%Z) as G. apply G; auto.
  - intros e. unfold SpecFloat.fexp, emin, prec32, emax32. lia.
  - apply Rabs_pos_lt. exact Z.
Qed.
Lemma M_small : bpow radix2 (-149) <= M.
Proof.
  unfold M. destruct (Req_dec mx 0) as [E|E].
  - eapply Rle_trans; [apply (format32_small mn Fn); lra|apply Rmax_l].
  - eapply Rle_trans; [apply (format32_small mx Fx); lra|apply Rmax_r].
Qed.
Lemma M_gap : M <= (mx - mn) * 16777217.
Proof.
  destruct (format_gap prec32 emax32 _ mn mx Fn Fx H3) as [G1 G2].
  assert (B : bpow radix2 prec32 = 16777216) by (unfold prec32; cbn; lra). rewrite B in *. unfold M. apply Rmax_lub; lra.
Qed.

(** The four roundings *)
Lemma v_error : Rabs (v - L) <= 8 * M * / 9007199254740992.
Proof.
  destruct (rnd64_err (c / s)) as (e1 & h1 & He1 & Hh1 & E1). destruct (rnd64_err (1 - t)) as (e2 & h2 & He2 & Hh2 & E2).
  destruct (rnd64_err (mn * q)) as (e3 & h3 & He3 & Hh3 & E3). destruct (rnd64_err (mx * t)) as (e4 & h4 & He4 & Hh4 & E4).
  destruct (rnd64_err (m1 + m2)) as (e5 & h5 & He5 & Hh5 & E5).
  fold t in E1. fold q in E2. fold m1 in E3. fold m2 in E4. fold v in E5.
  pose proof tau_bounds as TB. pose proof t_bounds as tB. pose proof q_bounds as qB. pose proof M_pos as MP. pose proof M_small as MS.
  set (tau := c / s) in *. set (w := / 9007199254740992) in *. assert (W : 0 < w <= / 1000000000) by (unfold w; lra).
  set (z := bpow radix2 (-1075)) in *. assert (Zp : 0 < z) by apply bpow_gt_0.
  assert (Zw : z <= / 100 * w).
  { unfold z, w. apply Rle_trans with (bpow radix2 (-60)); [apply bpow_le; lia|]. cbn. lra. }
  assert (ZM : z <= / 100 * (w * M)).
  { apply Rle_trans with (bpow radix2 (-149) * bpow radix2 (-60)); [rewrite <- bpow_plus; apply bpow_le; lia|].
    assert (bpow radix2 (-60) <= / 100 * w) by (unfold w; cbn; lra). pose proof (bpow_gt_0 radix2 (-149)). pose proof (bpow_gt_0 radix2 (-60)). nra. }
  apply Rabs_le_inv in He1, Hh1, He2, Hh2, He3, Hh3, He4, Hh4, He5, Hh5.
  assert (Mn : Rabs mn <= M) by apply Rmax_l. assert (Mx : Rabs mx <= M) by apply Rmax_r.
  apply Rabs_le_inv in Mn. apply Rabs_le_inv in Mx.
  (* t and q *)
  assert (DT : - (1.01 * w) <= t - tau <= 1.01 * w).
  { replace (t - tau) with (tau * e1 + h1) by (rewrite E1; ring). pose proof (unit_mul tau e1 w TB He1). lra. }
  assert (DQ : - (2.05 * w) <= q - (1 - tau) <= 2.05 * w).
  { replace (q - (1 - tau)) with (- (t - tau) + ((1 - t) * e2 + h2)) by (rewrite E2; ring). 
    pose proof (unit_mul (1 - t) e2 w ltac:(lra) He2). lra. }
  (* the products: |m1 - mn (1 - tau)| and |m2 - mx tau| *)
  assert (prod : forall a k b e h B, - M <= a <= M -> 0 <= k <= 1 -> - B <= k - b <= B -> 0 <= B -> - w <= e <= w -> - z <= h <= z ->
    - (M * B + 1.01 * (w * M)) <= a * k * (1 + e) + h - a * b <= M * B + 1.01 * (w * M)).
  { intros a k b e h B Ha Hk Hb HB He Hh. replace (a * k * (1 + e) + h - a * b) with (a * (k - b) + a * k * e + h) by ring.
    assert (X : Rabs (a * (k - b)) <= M * B) by (rewrite Rabs_mult; apply Rmult_le_compat; try apply Rabs_pos; apply Rabs_le; lra).
    assert (Y : Rabs (a * k * e) <= M * 1 * w).
    { rewrite !Rabs_mult. apply Rmult_le_compat; [apply Rmult_le_pos; apply Rabs_pos|apply Rabs_pos| |apply Rabs_le; lra].
      apply Rmult_le_compat; try apply Rabs_pos; apply Rabs_le; lra. }
    apply Rabs_le_inv in X. apply Rabs_le_inv in Y. lra. }
  pose proof (prod mn q (1 - tau) e3 h3 _ Mn qB DQ ltac:(lra) He3 Hh3) as P1. rewrite <- E3 in P1.
  pose proof (prod mx t tau e4 h4 _ Mx tB DT ltac:(lra) He4 Hh4) as P2. rewrite <- E4 in P2.
  assert (WM : 0 < w * M) by (apply Rmult_lt_0_compat; lra).
  assert (LB : - M <= L <= M).
  { unfold L. pose proof (scale_between (1 - tau) mn M ltac:(lra) Mn). pose proof (scale_between tau mx M ltac:(lra) Mx). lra. }
  assert (SB : Rabs (m1 + m2) <= 1.01 * M).
  { apply Rabs_le. assert (w * M <= / 1000000000 * M) by (apply Rmult_le_compat_r; lra). 
    replace (m1 + m2) with (L + ((m1 - mn * (1 - tau)) + (m2 - mx * tau))) by (unfold L; ring). lra. }
  assert (S5 : Rabs ((m1 + m2) * e5) <= 1.01 * M * w).
  { rewrite Rabs_mult. apply Rmult_le_compat; try apply Rabs_pos; auto. apply Rabs_le. lra. }
  apply Rabs_le_inv in S5. apply Rabs_le.
  replace (v - L) with ((m1 - mn * (1 - tau)) + (m2 - mx * tau) + ((m1 + m2) * e5 + h5)) by (rewrite E5; unfold L; ring). lra.
Qed.

Lemma v_bounds : mn <= v <= mx.
Proof.
  pose proof v_error as VE. pose proof M_gap as G. pose proof M_pos as MP. apply Rabs_le_inv in VE.
  destruct Hc as [C|[C|C]].
  - assert (T : t = 0) by (unfold t; rewrite C; unfold Rdiv; rewrite Rmult_0_l; apply rnd_0).
    assert (Q : q = 1) by (unfold q; rewrite T, Rminus_0_r; apply rnd_id, format64_1).
    assert (E1 : m1 = mn) by (unfold m1; rewrite Q, Rmult_1_r; apply rnd_id, format_32_64, Fn).
    assert (E2 : m2 = 0) by (unfold m2; rewrite T, Rmult_0_r; apply rnd_0).
    unfold v. rewrite E1, E2, Rplus_0_r, rnd_id by apply format_32_64, Fn. lra.
  - assert (T : t = 1) by (unfold t; rewrite C; unfold Rdiv; rewrite Rinv_r by lra; apply rnd_id, format64_1).
    assert (Q : q = 0) by (unfold q; rewrite T; replace (1 - 1) with 0 by ring; apply rnd_0).
    assert (E1 : m1 = 0) by (unfold m1; rewrite Q, Rmult_0_r; apply rnd_0).
    assert (E2 : m2 = mx) by (unfold m2; rewrite T, Rmult_1_r; apply rnd_id, format_32_64, Fx).
    unfold v. rewrite E1, E2, Rplus_0_l, rnd_id by apply format_32_64, Fx. lra.
  - assert (I0 : / 16777216 <= / s) by (apply Rinv_le; lra). assert (I : s * / s = 1) by (apply Rinv_r; lra).
    assert (A1 : / s <= c / s) by (unfold Rdiv; nra). assert (A2 : c / s <= 1 - / s) by (unfold Rdiv; nra).
    assert (LN : mn + (mx - mn) * / s <= L) by (unfold L; nra). assert (LX : L <= mx - (mx - mn) * / s) by (unfold L; nra).
    assert (GG : (mx - mn) * / 16777216 <= (mx - mn) * / s) by (apply Rmult_le_compat_l; lra). lra.
Qed.
Lemma result_error : Rabs (rnd32 v - L) <= M * / 8388608 + bpow radix2 (-150).
Proof.
  pose proof v_error as VE. pose proof v_bounds as VB. pose proof M_pos as MP.
  destruct (rnd32_err v) as (e & h & He & Hh & E). assert (Mn : Rabs mn <= M) by apply Rmax_l. assert (Mx : Rabs mx <= M) by apply Rmax_r.
  apply Rabs_le_inv in Mn. apply Rabs_le_inv in Mx. assert (V : Rabs v <= M) by (apply Rabs_le; lra).
  assert (X : Rabs (v * e) <= M * / 16777216) by (rewrite Rabs_mult; apply Rmult_le_compat; auto using Rabs_pos).
  apply Rabs_le_inv in VE. apply Rabs_le_inv in X. apply Rabs_le_inv in Hh. apply Rabs_le.
  replace (rnd32 v - L) with (v * e + h + (v - L)) by (rewrite E; ring). lra.
Qed.
Lemma result_bounds : mn <= rnd32 v <= mx.
Proof. apply rnd_between; auto using v_bounds. apply prec32_pos. Qed.
Lemma result_min : c = 0 -> rnd32 v = mn.
Proof.
  intros E. unfold v, m1, m2, q, t. rewrite E. unfold Rdiv. rewrite Rmult_0_l, (rnd_0 prec64 emax64), Rminus_0_r, (rnd_id prec64 emax64 1 format64_1).
  rewrite Rmult_1_r, Rmult_0_r, (rnd_0 prec64 emax64), Rplus_0_r. rewrite !(rnd_id prec64 emax64 mn (format_32_64 _ Fn)). now apply rnd_id.
Qed.
Lemma result_max : c = s -> rnd32 v = mx.
Proof.
  intros E. unfold v, m1, m2, q, t. rewrite E. replace (s / s) with 1 by (field; lra). rewrite (rnd_id prec64 emax64 1 format64_1).
  rewrite Rminus_diag_eq by reflexivity. rewrite (rnd_0 prec64 emax64), Rmult_0_r, (rnd_0 prec64 emax64), Rplus_0_l, Rmult_1_r.
  rewrite !(rnd_id prec64 emax64 mx (format_32_64 _ Fx)). now apply rnd_id.
Qed.
End Decompress.

(** ** The model *)
Lemma rep32_bound f r : rep32 f r -> Rabs r < bpow radix2 128.
Proof. intros H. apply (rep_B prec32 emax32) in H as (b & _ & _ & <-). apply abs_B2R_lt_emax. Qed.
Lemma rep64_bound f r : rep64 f r -> Rabs r < bpow radix2 1024.
Proof. intros H. apply (rep_B prec64 emax64) in H as (b & _ & _ & <-). apply abs_B2R_lt_emax. Qed.
Lemma rep_widen f r : rep32 f r -> rep64 (f32_to_f64 f) r.
Proof.
  intros H. pose proof (rep32_bound f r H) as B. pose proof (format_32_64 r (rep_format prec32 emax32 f r H)) as F. destruct H as (V & Fi & E).
  destruct f as [s|s| |s m e]; try discriminate.
  - cbn in E. subst r. repeat split.
  - cbn [SF2R] in E. unfold f32_to_f64, convert. pose proof (rep_normalize prec64 emax64 _ _ (cond_Zopp s (Z.pos m)) e s) as N.
    rewrite E, (rnd_id _ _ _ F) in N. apply N. eapply Rlt_trans; [exact B|]. apply bpow_lt. reflexivity.
Qed.
Lemma rep_narrow f r : rep64 f r -> Rabs (rnd32 r) < bpow radix2 128 -> rep32 (f64_to_f32 f) (rnd32 r).
Proof.
  intros (V & Fi & E) B. destruct f as [s|s| |s m e]; try discriminate.
  - cbn in E. subst r. rewrite (rnd_0 prec32 emax32). repeat split.
  - cbn [SF2R] in E. unfold f64_to_f32, convert. pose proof (rep_normalize prec32 emax32 _ _ (cond_Zopp s (Z.pos m)) e s) as N.
    rewrite E in N. apply N. exact B.
Qed.
Lemma between_abs a b x B : Rabs a < B -> Rabs b < B -> a <= x <= b -> Rabs x < B.
Proof. intros Ha Hb H. apply Rabs_def2 in Ha. apply Rabs_def2 in Hb. apply Rabs_def1; lra. Qed.
Lemma small_bpow x n : Rabs x <= 16777216 -> (25 <= n)%Z -> Rabs x < bpow radix2 n.
Proof. intros H N. apply Rle_lt_trans with (1 := H). apply Rlt_le_trans with (bpow radix2 25); [cbn; lra|]. now apply bpow_le. Qed.

Lemma scale_bounds bits : (1 <= bits <= 24)%Z -> (1 <= 2 ^ bits - 1 <= 16777215)%Z.
Proof.
  intros H. assert (2 ^ 1 <= 2 ^ bits)%Z by (apply Z.pow_le_mono_r; lia). assert (2 ^ bits <= 2 ^ 24)%Z by (apply Z.pow_le_mono_r; lia). lia.
Qed.
Section Model.
Variables x mn mx bits : Z.
Hypothesis Fv : finite x = true.
Hypothesis Fn : finite mn = true.
Hypothesis Fx : finite mx = true.
Hypothesis H1 : real mn <= real x <= real mx.
Hypothesis H2 : real mn < real mx.
Hypothesis HD : finite_f (sub32 (f32_of mx) (f32_of mn)) = true.
Hypothesis HB : (1 <= bits <= 24)%Z.

Let RV := finite_rep x Fv.
Let RN := finite_rep mn Fn.
Let RX := finite_rep mx Fx.

Lemma code_spec : exists p, compress_f32 x mn mx bits = Zfloor p /\ 0 <= p <= IZR (2 ^ bits - 1) /\
  Rabs (p - IZR (2 ^ bits - 1) * ((real x - real mn) / (real mx - real mn))) <= 5 * IZR (2 ^ bits - 1) * / 16777216 /\
  (real x = real mn -> p = 0) /\ (real x = real mx -> p = IZR (2 ^ bits - 1)).
Proof.
  pose proof (scale_bounds bits HB) as SB. set (s := (2 ^ bits - 1)%Z) in *.
  assert (Hs : 1 <= IZR s <= 16777215) by (split; apply IZR_le; lia).
  pose proof (rep_int prec32 emax32 _ _ s ltac:(unfold prec32; lia) ltac:(vm_compute; discriminate)) as RS.
  pose proof (rep_format _ _ _ _ RV) as FV. pose proof (rep_format _ _ _ _ RN) as FN. pose proof (rep_format _ _ _ _ RX) as FX.
  pose proof (rep_format _ _ _ _ RS) as FS.
  assert (HD' : is_finite_SF (SFsub prec32 emax32 (f32_of mx) (f32_of mn)) = true).
  { unfold sub32 in HD. destruct (SFsub prec32 emax32 (f32_of mx) (f32_of mn)); auto. }
  destruct (rep_sub_finite prec32 emax32 _ _ _ _ _ _ RX RN HD') as [RD BD].
  pose proof (d_bounds (real mn) (real mx) (real x) (proj1 H1) (proj2 H1)) as DB. pose proof (D_pos _ _ FN FX H2) as DP.
  assert (Rd := rep_sub prec32 emax32 _ _ _ _ _ _ RV RN).
  spec Rd.
  { rewrite Rabs_pos_eq by lra. rewrite Rabs_pos_eq in BD by lra. lra. }
  pose proof (r_bounds _ _ _ FN FX (proj1 H1) (proj2 H1) H2) as RB.
  assert (Rr := rep_div prec32 emax32 _ _ _ _ _ _ Rd RD ltac:(lra)). spec Rr.
  { apply small_bpow; [rewrite Rabs_pos_eq; lra|vm_compute; discriminate]. }
  pose proof (p_bounds _ _ _ FN FX (proj1 H1) (proj2 H1) H2 (IZR s) (proj1 Hs) FS) as PB.
  assert (Rp := rep_mul prec32 emax32 _ _ _ _ _ _ Rr RS). spec Rp.
  { apply small_bpow; [rewrite Rabs_pos_eq; lra|vm_compute; discriminate]. }
  eexists. split; [apply (rep_floor prec32 emax32); [exact Rp|lra]|]. split; [exact PB|].
  split; [apply p_error; auto; lra|]. split; [now apply p_min|intros E; now apply p_max].
Qed.

Lemma decode_spec c : (0 <= c <= 2 ^ bits - 1)%Z -> let y := decompress_f32 c mn mx bits in
  finite y = true /\ real mn <= real y <= real mx /\
  Rabs (real y - (real mn * (1 - IZR c / IZR (2 ^ bits - 1)) + real mx * (IZR c / IZR (2 ^ bits - 1)))) <= magnitude mn mx * / 8388608 + bpow radix2 (-150) /\
  (c = 0%Z -> real y = real mn) /\ (c = (2 ^ bits - 1)%Z -> real y = real mx).
Proof.
  intros Hc y. pose proof (scale_bounds bits HB) as SB.
  pose proof (rep_int prec64 emax64 _ _ (2 ^ bits - 1)%Z ltac:(unfold prec64; lia) ltac:(vm_compute; discriminate)) as RS.
  pose proof (rep_int prec64 emax64 _ _ c ltac:(unfold prec64; lia) ltac:(vm_compute; discriminate)) as RC.
  pose proof (rep_int prec64 emax64 _ _ 1%Z ltac:(unfold prec64; lia) ltac:(vm_compute; discriminate)) as R1.
  assert (Hs : 1 <= IZR (2 ^ bits - 1) <= 16777216) by (split; apply IZR_le; lia).
  assert (Hc' : IZR c = 0 \/ IZR c = IZR (2 ^ bits - 1) \/ 1 <= IZR c <= IZR (2 ^ bits - 1) - 1).
  { destruct (Z.eq_dec c 0) as [->|]; [now left|]. destruct (Z.eq_dec c (2 ^ bits - 1)) as [E|]; [right; left; congruence|].
    right; right. rewrite <- minus_IZR. split; apply IZR_le; lia. }
  pose proof (rep_format _ _ _ _ RN) as FN. pose proof (rep_format _ _ _ _ RX) as FX.
  pose proof (rep32_bound _ _ RN) as BN. pose proof (rep32_bound _ _ RX) as BX.
  pose proof (rep_widen _ _ RN) as WN. pose proof (rep_widen _ _ RX) as WX.
  pose proof (t_bounds _ _ Hs Hc') as TB. pose proof (q_bounds _ _ Hs Hc') as QB.
  pose proof (v_bounds _ _ FN FX H2 _ _ Hs Hc') as VB.
  pose proof (result_error _ _ FN FX H2 _ _ Hs Hc') as RE.
  pose proof (result_bounds _ _ FN FX H2 _ _ Hs Hc') as RB.
  assert (Rt := rep_div prec64 emax64 _ _ _ _ _ _ RC RS ltac:(lra)). spec Rt.
  { apply small_bpow; [rewrite Rabs_pos_eq; lra|vm_compute; discriminate]. }
  assert (Rq := rep_sub prec64 emax64 _ _ _ _ _ _ R1 Rt). spec Rq.
  { apply small_bpow; [rewrite Rabs_pos_eq; lra|vm_compute; discriminate]. }
  assert (MU : forall a u, Rabs a < bpow radix2 128 -> 0 <= u <= 1 -> format64 a -> Rabs (rnd64 (a * u)) < bpow radix2 128).
  { intros a u Ha Hu Fa. destruct (Rle_dec 0 a) as [P|P].
    - apply (between_abs 0 a); auto; [rewrite Rabs_R0; apply bpow_gt_0|]. apply rnd_between; auto using format64_0; try typeclasses eauto; nra.
    - apply (between_abs a 0); auto; [rewrite Rabs_R0; apply bpow_gt_0|]. apply rnd_between; auto using format64_0; try typeclasses eauto; nra. }
  assert (UP : bpow radix2 128 < bpow radix2 1024) by (apply bpow_lt; reflexivity).
  assert (Rm1 := rep_mul prec64 emax64 _ _ _ _ _ _ WN Rq). spec Rm1.
  { eapply Rlt_trans; [apply MU; auto; now apply format_32_64|exact UP]. }
  assert (Rm2 := rep_mul prec64 emax64 _ _ _ _ _ _ WX Rt). spec Rm2.
  { eapply Rlt_trans; [apply MU; auto; now apply format_32_64|exact UP]. }
  assert (Rv := rep_add prec64 emax64 _ _ _ _ _ _ Rm1 Rm2). spec Rv.
  { eapply Rlt_trans; [|exact UP]. apply (between_abs (real mn) (real mx)); auto. }
  assert (Ry := rep_narrow _ _ Rv). spec Ry.
  { apply (between_abs (real mn) (real mx)); auto. }
  destruct Ry as (V & Fi & E).
  assert (YF : f32_of y = f64_to_f32 (SFadd prec64 emax64 (SFmul prec64 emax64 (f32_to_f64 (f32_of mn))
     (SFsub prec64 emax64 (int_to_f64 1) (SFdiv prec64 emax64 (int_to_f64 c) (int_to_f64 (2 ^ bits - 1)))))
     (SFmul prec64 emax64 (f32_to_f64 (f32_of mx)) (SFdiv prec64 emax64 (int_to_f64 c) (int_to_f64 (2 ^ bits - 1)))))).
  { apply f32_of_bits. exact V. }
  assert (YR : real y = SF2R radix2 (f32_of y)) by apply real_of_SF2R.
  rewrite YF in YR. unfold int_to_f64 in YR. rewrite E in YR. rewrite YR.
  split; [|split; [exact RB|split; [exact RE|split; intros Ec; [apply result_min|apply result_max]; auto; now rewrite Ec]]].
  unfold finite. rewrite YF. apply andb_true_intro. split.
  - assert (0 <= y < 2 ^ 32)%Z; [|apply andb_true_intro; split; [apply Z.leb_le|apply Z.ltb_lt]; lia].
    apply bits32_bound. intros sg m e EE. apply convert_bound in EE; [|reflexivity]. unfold prec32, emax32 in EE. lia.
  - unfold finite_f. unfold int_to_f64. revert Fi. match goal with |- context [is_finite_SF ?f] => destruct f end; auto.
Qed.

Lemma quantise : let code := compress_f32 x mn mx bits in let y := decompress_f32 code mn mx bits in
  (0 <= code < 2 ^ bits)%Z /\ finite y = true /\ real mn <= real y <= real mx /\
  Rabs (real y - real x) <= step mn mx bits * (1 + 5 * IZR (2 ^ bits - 1) / 16777216) + magnitude mn mx / 8388608 + / IZR (2 ^ 150).
Proof.
  intros code y. pose proof (scale_bounds bits HB) as SB. destruct code_spec as (p & Ec & PB & PE & _).
  assert (CB : (0 <= code <= 2 ^ bits - 1)%Z).
  { unfold code. rewrite Ec. split; [apply Zfloor_lub; simpl; lra|]. rewrite <- (Zfloor_IZR (2 ^ bits - 1)). apply Zfloor_le. lra. }
  destruct (decode_spec code CB) as (F & B & Er & _). fold y in F, B, Er.
  split; [lia|]. split; [exact F|]. split; [exact B|].
  assert (Fl : IZR code <= p < IZR code + 1).
  { unfold code. rewrite Ec. split; [apply Zfloor_lb|apply Zfloor_ub]. }
  change (/ IZR (2 ^ 150)) with (bpow radix2 (-150)).
  set (s := IZR (2 ^ bits - 1)) in *. assert (Hs : 1 <= s) by (apply IZR_le; lia).
  set (L := real mn * (1 - IZR code / s) + real mx * (IZR code / s)) in *.
  assert (D : L - real x = step mn mx bits * (IZR code - s * ((real x - real mn) / (real mx - real mn)))).
  { unfold L, step. fold s. field. split; lra. }
  assert (ST : 0 < step mn mx bits) by (unfold step; fold s; apply Rdiv_lt_0_compat; lra).
  assert (Rabs (L - real x) <= step mn mx bits * (1 + 5 * s / 16777216)).
  { rewrite D, Rabs_mult, (Rabs_pos_eq (step mn mx bits)) by lra. apply Rmult_le_compat_l; [lra|].
    apply Rabs_le_inv in PE. apply Rabs_le. lra. }
  replace (real y - real x) with ((real y - L) + (L - real x)) by ring.
  eapply Rle_trans; [apply Rabs_triang|]. lra.
Qed.
Lemma quantise_ends : let y := decompress_f32 (compress_f32 x mn mx bits) mn mx bits in
  (real x = real mn -> real y = real mn) /\ (real x = real mx -> real y = real mx).
Proof.
  intros y. pose proof (scale_bounds bits HB) as SB. destruct code_spec as (p & Ec & PB & _ & P0 & P1).
  assert (CB : (0 <= compress_f32 x mn mx bits <= 2 ^ bits - 1)%Z).
  { rewrite Ec. split; [apply Zfloor_lub; simpl; lra|]. rewrite <- (Zfloor_IZR (2 ^ bits - 1)). apply Zfloor_le. lra. }
  destruct (decode_spec _ CB) as (_ & _ & _ & D0 & D1). fold y in D0, D1.
  split; intros E; [apply D0; rewrite Ec, (P0 E); exact (Zfloor_IZR 0)|apply D1; rewrite Ec, (P1 E); apply Zfloor_IZR].
Qed.
End Model.

Lemma power_neg p : powerRZ 2 (Zneg p) = / IZR (2 ^ Zpos p).
Proof.
  unfold powerRZ. f_equal. rewrite <- (positive_nat_Z p). rewrite <- pow_IZR. reflexivity.
Qed.
Lemma one_step_refuted : exists x mn mx,
  finite x = true /\ finite mn = true /\ finite mx = true /\
  real mn <= real x <= real mx /\ real mn < real mx /\ finite_f (sub32 (f32_of mx) (f32_of mn)) = true /\
  Rabs (real (decompress_f32 (compress_f32 x mn mx 24) mn mx 24) - real x) > step mn mx 24 + magnitude mn mx / 8388608 + / IZR (2 ^ 150).
Proof.
  exists 1064509816%Z, 3178120592%Z, 1064524262%Z.
  replace (decompress_f32 (compress_f32 1064509816 3178120592 1064524262 24) 3178120592 1064524262 24) with 1064509813%Z by (vm_compute; reflexivity).
  assert (A : real 3178120592 = -15615376 * / 268435456).
  { change (real 3178120592) with (IZR (-15615376) * powerRZ 2 (-28)). rewrite power_neg. reflexivity. }
  assert (B : real 1064524262 = 15948262 * / 16777216).
  { change (real 1064524262) with (IZR 15948262 * powerRZ 2 (-24)). rewrite power_neg. reflexivity. }
  assert (C : real 1064509816 = 15933816 * / 16777216).
  { change (real 1064509816) with (IZR 15933816 * powerRZ 2 (-24)). rewrite power_neg. reflexivity. }
  assert (D : real 1064509813 = 15933813 * / 16777216).
  { change (real 1064509813) with (IZR 15933813 * powerRZ 2 (-24)). rewrite power_neg. reflexivity. }
  unfold step, magnitude. rewrite A, B, C, D.
  do 3 (split; [vm_compute; reflexivity|]). split; [lra|]. split; [lra|]. split; [vm_compute; reflexivity|].
  change (2 ^ 24 - 1)%Z with 16777215%Z. change (2 ^ 150)%Z with 1427247692705959881058285969449495136382746624%Z.
  unfold Rmax. rewrite (Rabs_left (-15615376 * / 268435456)), (Rabs_pos_eq (15948262 * / 16777216)), Rabs_left by lra.
  destruct (Rle_dec _ _); lra.
Qed.
