(** Proofs about transformed points and vectors. *)
From Coq Require Import ZArith Reals SpecFloat Lia Lra.
From Flocq Require Import Core BinarySingleNaN.
From Verif Require Import Bytes Float32 FloatFacts FlocqFacts VecData MeshSpec QuantSpec QuantFacts RoundFacts RotFacts
  TransformData TransformSpec.
Local Open Scope R_scope.

Notation overflow := (bpow radix2 128).
Lemma finite_f_SF f : finite_f f = is_finite_SF f. Proof. now destruct f. Qed.

Lemma rep_finite f : valid_binary prec32 emax32 f = true -> is_finite_SF f = true -> rep32 f (SF2R radix2 f).
Proof. now repeat split. Qed.
(** Sums and products of finite numbers are the rounded ones if they are finite. *)
Lemma add_valid f g : valid_binary prec32 emax32 f = true -> valid_binary prec32 emax32 g = true ->
  valid_binary prec32 emax32 (add32 f g) = true.
Proof.
  intros Vf Vg. rewrite <- (B2SF_SF2B _ _ f Vf), <- (B2SF_SF2B _ _ g Vg). unfold add32.
  rewrite (add_equiv prec32 emax32 _ _). apply valid_binary_B2SF.
Qed.
Lemma mul_valid f g : valid_binary prec32 emax32 f = true -> valid_binary prec32 emax32 g = true ->
  valid_binary prec32 emax32 (mul32 f g) = true.
Proof.
  intros Vf Vg. rewrite <- (B2SF_SF2B _ _ f Vf), <- (B2SF_SF2B _ _ g Vg). unfold mul32.
  rewrite (mul_equiv prec32 emax32 _ _). apply valid_binary_B2SF.
Qed.
Lemma rep_add_finite f g a b : rep32 f a -> rep32 g b -> is_finite_SF (add32 f g) = true ->
  rep32 (add32 f g) (rnd32 (a + b)).
Proof.
  intros Hf Hg F. destruct (Rlt_or_le (Rabs (rnd32 (a + b))) overflow) as [L|L]; [apply (rep_add prec32 emax32 _ _); auto|]. exfalso.
  apply (rep_B prec32 emax32) in Hf as (x & <- & Fx & <-). apply (rep_B prec32 emax32) in Hg as (y & <- & Fy & <-).
  unfold add32 in F. rewrite (add_equiv prec32 emax32 _ _) in F.
  pose proof (Bplus_correct prec32 emax32 _ _ mode_NE x y Fx Fy) as C. rewrite Rlt_bool_false in C by exact L. destruct C as [C _].
  rewrite C in F. discriminate.
Qed.
Lemma rep_mul_finite f g a b : rep32 f a -> rep32 g b -> is_finite_SF (mul32 f g) = true ->
  rep32 (mul32 f g) (rnd32 (a * b)).
Proof.
  intros Hf Hg F. destruct (Rlt_or_le (Rabs (rnd32 (a * b))) overflow) as [L|L]; [apply (rep_mul prec32 emax32 _ _); auto|]. exfalso.
  apply (rep_B prec32 emax32) in Hf as (x & <- & Fx & <-). apply (rep_B prec32 emax32) in Hg as (y & <- & Fy & <-).
  unfold mul32 in F. rewrite (mul_equiv prec32 emax32 _ _) in F.
  pose proof (Bmult_correct prec32 emax32 _ _ mode_NE x y) as C. rewrite Rlt_bool_false in C by exact L.
  rewrite C in F. discriminate.
Qed.
(** A finite sum has finite terms. *)
Lemma add_finite_inv f g : is_finite_SF (add32 f g) = true -> is_finite_SF f = true /\ is_finite_SF g = true.
Proof. destruct f as [s|s| |s m e], g as [t|t| |t n q]; cbn; auto; try discriminate. destruct (Bool.eqb s t); discriminate. Qed.

(** ** Rounding errors *)
Lemma format_rnd x : format32 (rnd32 x).
Proof. apply generic_format_round; [apply fexp_correct; typeclasses eauto|apply valid_rnd_N]. Qed.
Lemma rnd_dist x : Rabs (rnd32 x - x) <= / 16777216 * Rabs x + bpow radix2 (-150).
Proof.
  destruct (rnd32_err x) as (e & h & He & Hh & ->). replace (x * (1 + e) + h - x) with (x * e + h) by ring.
  eapply Rle_trans; [apply Rabs_triang|]. rewrite Rabs_mult. pose proof (Rabs_pos x).
  assert (Rabs x * Rabs e <= Rabs x * / 16777216) by now apply Rmult_le_compat_l. lra.
Qed.
Lemma rnd_add_dist x y : format32 x -> format32 y -> Rabs (rnd32 (x + y) - (x + y)) <= / 16777216 * (Rabs x + Rabs y).
Proof.
  intros Fx Fy. replace (x + y) with (x - - y) by ring. destruct (rnd32_sub x (- y) Fx (generic_format_opp _ _ _ Fy)) as (e & He & ->).
  replace ((x - - y) * (1 + e) - (x - - y)) with ((x + y) * e) by ring. rewrite Rabs_mult.
  pose proof (Rabs_triang x y). pose proof (Rabs_pos e). pose proof (Rabs_pos (x + y)).
  apply Rle_trans with (Rabs (x + y) * / 16777216); [now apply Rmult_le_compat_l|]. lra.
Qed.
Lemma split_abs x a : Rabs x <= a -> - a <= x <= a. Proof. apply Rabs_le_inv. Qed.

(** ** One coordinate *)
(** The value of a sum of four rounded products *)
Definition sum3 (t0 t1 t2 : R) : R := rnd32 (rnd32 (rnd32 t0 + rnd32 t1) + rnd32 t2).
Definition sum4 (t0 t1 t2 t3 : R) : R := rnd32 (sum3 t0 t1 t2 + rnd32 t3).
Lemma sum_bounds t0 t1 t2 t3 : let size := Rabs t0 + Rabs t1 + Rabs t2 + Rabs t3 in let h := bpow radix2 (-150) in
  (Rabs (rnd32 t0) <= size * 1.1 + h /\ Rabs (rnd32 t1) <= size * 1.1 + h /\ Rabs (rnd32 t2) <= size * 1.1 + h /\ Rabs (rnd32 t3) <= size * 1.1 + h) /\
  Rabs (rnd32 (rnd32 t0 + rnd32 t1)) <= size * 1.1 + 5 * h /\ Rabs (sum3 t0 t1 t2) <= size * 1.1 + 5 * h /\
  Rabs (sum4 t0 t1 t2 t3) <= size * 1.1 + 5 * h /\
  Rabs (sum4 t0 t1 t2 t3 - (t0 + t1 + t2 + t3)) <= 5 * size / 16777216 + 5 * h.
Proof.
  intros size h. pose proof (rnd_dist t0) as D0. pose proof (rnd_dist t1) as D1. pose proof (rnd_dist t2) as D2. pose proof (rnd_dist t3) as D3.
  pose proof (rnd_add_dist _ _ (format_rnd t0) (format_rnd t1)) as S1.
  pose proof (rnd_add_dist _ _ (format_rnd (rnd32 t0 + rnd32 t1)) (format_rnd t2)) as S2.
  pose proof (rnd_add_dist _ _ (format_rnd (rnd32 (rnd32 t0 + rnd32 t1) + rnd32 t2)) (format_rnd t3)) as S3.
  unfold sum4, sum3. fold h in D0, D1, D2, D3. assert (H : 0 <= h) by (unfold h; apply bpow_ge_0).
  set (q0 := rnd32 t0) in *. set (q1 := rnd32 t1) in *. set (q2 := rnd32 t2) in *. set (q3 := rnd32 t3) in *.
  set (s1 := rnd32 (q0 + q1)) in *. set (s2 := rnd32 (s1 + q2)) in *. set (s3 := rnd32 (s2 + q3)) in *.
  unfold size. clearbody q0 q1 q2 q3 s1 s2 s3 h. clear size.
  assert (T : forall x y, Rabs x <= Rabs (x - y) + Rabs y) by (intros x y; replace x with ((x - y) + y) at 1 by ring; apply Rabs_triang).
  pose proof (T q0 t0). pose proof (T q1 t1). pose proof (T q2 t2). pose proof (T q3 t3).
  pose proof (T s1 (q0 + q1)). pose proof (T s2 (s1 + q2)). pose proof (T s3 (s2 + q3)).
  pose proof (Rabs_triang q0 q1). pose proof (Rabs_triang s1 q2). pose proof (Rabs_triang s2 q3).
  pose proof (Rabs_pos t0). pose proof (Rabs_pos t1). pose proof (Rabs_pos t2). pose proof (Rabs_pos t3).
  assert (B0 : Rabs q0 <= Rabs t0 * (1 + / 16777216) + h) by lra. assert (B1 : Rabs q1 <= Rabs t1 * (1 + / 16777216) + h) by lra.
  assert (B2 : Rabs q2 <= Rabs t2 * (1 + / 16777216) + h) by lra. assert (B3 : Rabs q3 <= Rabs t3 * (1 + / 16777216) + h) by lra.
  assert (C1 : Rabs s1 <= (Rabs q0 + Rabs q1) * (1 + / 16777216)) by lra.
  assert (C2 : Rabs s2 <= (Rabs s1 + Rabs q2) * (1 + / 16777216)) by lra.
  assert (C3 : Rabs s3 <= (Rabs s2 + Rabs q3) * (1 + / 16777216)) by lra.
  assert (E1 : Rabs s1 <= (Rabs t0 + Rabs t1) * (1 + / 8000000) + h * 2.01) by lra.
  assert (E2 : Rabs s2 <= (Rabs t0 + Rabs t1 + Rabs t2) * (1 + / 5000000) + h * 3.02) by lra.
  assert (E3 : Rabs s3 <= (Rabs t0 + Rabs t1 + Rabs t2 + Rabs t3) * (1 + / 4000000) + h * 4.03) by lra.
  split; [repeat split; lra|]. split; [lra|]. split; [lra|]. split; [lra|].
  apply Rle_trans with (Rabs (s3 - (s2 + q3)) + Rabs (s2 - (s1 + q2)) + Rabs (s1 - (q0 + q1)) + (Rabs (q0 - t0) + Rabs (q1 - t1) + Rabs (q2 - t2) + Rabs (q3 - t3))).
  - replace (s3 - (t0 + t1 + t2 + t3)) with ((s3 - (s2 + q3)) + (s2 - (s1 + q2)) + (s1 - (q0 + q1)) + ((q0 - t0) + (q1 - t1) + (q2 - t2) + (q3 - t3))) by ring.
    repeat (eapply Rle_trans; [apply Rabs_triang|]; apply Rplus_le_compat); try apply Rle_refl.
  - lra.
Qed.

Section Dot.
Variables a0 a1 a2 a3 x0 x1 x2 x3 : spec_float.
Variables ra0 ra1 ra2 ra3 rx0 rx1 rx2 rx3 : R.
Hypothesis A0 : rep32 a0 ra0. Hypothesis A1 : rep32 a1 ra1. Hypothesis A2 : rep32 a2 ra2. Hypothesis A3 : rep32 a3 ra3.
Hypothesis X0 : rep32 x0 rx0. Hypothesis X1 : rep32 x1 rx1. Hypothesis X2 : rep32 x2 rx2. Hypothesis X3 : rep32 x3 rx3.
Definition dot3 := add32 (add32 (mul32 a0 x0) (mul32 a1 x1)) (mul32 a2 x2).
Definition dot := add32 dot3 (mul32 a3 x3).

Lemma dot3_rep : is_finite_SF dot3 = true -> rep32 dot3 (sum3 (ra0 * rx0) (ra1 * rx1) (ra2 * rx2)).
Proof.
  intros F2. unfold dot3, sum3 in *. pose proof (add_finite_inv _ _ F2) as [F1 G2]. pose proof (add_finite_inv _ _ F1) as [G0 G1].
  auto using rep_mul_finite, rep_add_finite.
Qed.
Lemma dot_rep : is_finite_SF dot = true -> rep32 dot (sum4 (ra0 * rx0) (ra1 * rx1) (ra2 * rx2) (ra3 * rx3)).
Proof.
  intros F. unfold dot, sum4 in *. pose proof (add_finite_inv _ _ F) as [F2 G3].
  auto using rep_mul_finite, rep_add_finite, dot3_rep.
Qed.
Lemma dot_finite : Rabs (ra0 * rx0) + Rabs (ra1 * rx1) + Rabs (ra2 * rx2) + Rabs (ra3 * rx3) <= bpow radix2 127 -> is_finite_SF dot = true.
Proof.
  intros L. pose proof (sum_bounds (ra0 * rx0) (ra1 * rx1) (ra2 * rx2) (ra3 * rx3)) as B. cbv zeta in B.
  set (size := Rabs (ra0 * rx0) + Rabs (ra1 * rx1) + Rabs (ra2 * rx2) + Rabs (ra3 * rx3)) in *.
  assert (E : overflow = 2 * bpow radix2 127) by (change 128%Z with (1 + 127)%Z; rewrite bpow_plus; reflexivity).
  assert (H : bpow radix2 (-150) <= 1) by (change 1 with (bpow radix2 0); apply bpow_le; lia).
  assert (H' : 100 <= bpow radix2 127).
  { apply Rle_trans with (bpow radix2 7); [change (bpow radix2 7) with (IZR 128); lra|apply bpow_le; lia]. }
  destruct B as ((B0 & B1 & B2 & B3) & B4 & B5 & B6 & _). unfold sum4, sum3 in *.
  assert (forall x, x <= size * 1.1 + 5 * bpow radix2 (-150) -> x < overflow) as O by (intros; lra).
  assert (forall x, x <= size * 1.1 + bpow radix2 (-150) -> x < overflow) as O' by (intros; pose proof (bpow_ge_0 radix2 (-150)); lra).
  assert (P0 := rep_mul prec32 emax32 _ _ _ _ _ _ A0 X0 (O' _ B0)). assert (P1 := rep_mul prec32 emax32 _ _ _ _ _ _ A1 X1 (O' _ B1)).
  assert (P2 := rep_mul prec32 emax32 _ _ _ _ _ _ A2 X2 (O' _ B2)). assert (P3 := rep_mul prec32 emax32 _ _ _ _ _ _ A3 X3 (O' _ B3)).
  assert (S1 := rep_add prec32 emax32 _ _ _ _ _ _ P0 P1 (O _ B4)). assert (S2 := rep_add prec32 emax32 _ _ _ _ _ _ S1 P2 (O _ B5)).
  assert (S3 := rep_add prec32 emax32 _ _ _ _ _ _ S2 P3 (O _ B6)). apply S3.
Qed.
End Dot.

(** ** Bit patterns *)
Definition valid32 (x : Z) : Prop := valid_binary prec32 emax32 (f32_of x) = true.
Lemma mul_bits_of x y : valid32 x -> valid32 y -> f32_of (mul_bits x y) = mul32 (f32_of x) (f32_of y) /\ valid32 (mul_bits x y).
Proof.
  intros Vx Vy. pose proof (mul_valid _ _ Vx Vy) as V. unfold valid32, mul_bits. rewrite f32_of_bits by exact V. auto.
Qed.
Lemma add_bits_of x y : valid32 x -> valid32 y -> f32_of (add_bits x y) = add32 (f32_of x) (f32_of y) /\ valid32 (add_bits x y).
Proof.
  intros Vx Vy. pose proof (add_valid _ _ Vx Vy) as V. unfold valid32, add_bits. rewrite f32_of_bits by exact V. auto.
Qed.
Lemma finite_valid x : finite x = true -> valid32 x.
Proof. unfold finite. intros H. apply andb_prop in H as [H _]. apply f32_of_valid. lia. Qed.
Lemma bits_range f : valid_binary prec32 emax32 f = true -> (0 <= bits_of_f32 f < 2 ^ 32)%Z.
Proof.
  intros V. destruct (is_finite_SF f) eqn:F; [exact (bits32_rep f _ (rep_finite f V F))|].
  destruct f as [s|s| |s m e]; try discriminate F; [destruct s|]; cbn; lia.
Qed.

Lemma nth_vscale col x i : (i < length col)%nat -> nth i (vscale col x) 0%Z = mul_bits (nth i col 0%Z) x.
Proof. revert i. induction col as [|a col IH]; intros i H; cbn in H; [lia|]. destruct i; cbn; auto. apply IH. lia. Qed.
Lemma vscale_length col x : length (vscale col x) = length col. Proof. apply map_length. Qed.
Lemma vadd_length a b : length a = length b -> length (vadd a b) = length a.
Proof. revert b. induction a as [|x a IH]; intros [|y b] H; cbn in *; try discriminate; auto. Qed.
Lemma nth_vadd a b i : length a = length b -> (i < length a)%nat -> nth i (vadd a b) 0%Z = add_bits (nth i a 0%Z) (nth i b 0%Z).
Proof.
  revert b i. induction a as [|x a IH]; intros [|y b] i H Hi; cbn in *; try discriminate; try lia. destruct i; auto. apply IH; lia.
Qed.

Lemma matrix_inv m : finite_matrix m -> exists c0 c1 c2 c3, m = [c0; c1; c2; c3] /\
  (length c0 = 4%nat /\ length c1 = 4%nat /\ length c2 = 4%nat /\ length c3 = 4%nat) /\
  forall i, (i < 4)%nat -> finite (nth i c0 0%Z) = true /\ finite (nth i c1 0%Z) = true /\ finite (nth i c2 0%Z) = true /\ finite (nth i c3 0%Z) = true.
Proof.
  intros [L H]. destruct m as [|c0 [|c1 [|c2 [|c3 [|]]]]]; try discriminate. exists c0, c1, c2, c3. split; auto.
  destruct (H c0) as [L0 H0]; [cbn; auto|]. destruct (H c1) as [L1 H1]; [cbn; auto|]. destruct (H c2) as [L2 H2]; [cbn; auto|].
  destruct (H c3) as [L3 H3]; [cbn; auto|]. split; auto. intros i Hi.
  repeat split; [apply H0|apply H1|apply H2|apply H3]; apply nth_In; lia.
Qed.

(** One coordinate of the product *)
Lemma product_coord c0 c1 c2 c3 x y z w i : length c0 = 4%nat -> length c1 = 4%nat -> length c2 = 4%nat -> length c3 = 4%nat -> (i < 4)%nat ->
  nth i (mul_vec4 [c0; c1; c2; c3] [x; y; z; w]) 0%Z =
  add_bits (add_bits (add_bits (mul_bits (nth i c0 0%Z) x) (mul_bits (nth i c1 0%Z) y)) (mul_bits (nth i c2 0%Z) z)) (mul_bits (nth i c3 0%Z) w) /\
  length (mul_vec4 [c0; c1; c2; c3] [x; y; z; w]) = 4%nat.
Proof.
  intros L0 L1 L2 L3 Hi. cbn [mul_vec4].
  rewrite !nth_vadd, !nth_vscale; rewrite ?vadd_length; rewrite ?vadd_length, ?vscale_length; try lia; auto;
    rewrite ?vadd_length; rewrite ?vscale_length; lia.
Qed.

Lemma finite_pattern x : valid32 x -> (0 <= x < 2 ^ 32)%Z -> finite x = is_finite_SF (f32_of x).
Proof.
  intros _ B. unfold finite. replace (0 <=? x)%Z with true by (symmetry; apply Z.leb_le; lia).
  replace (x <? 2 ^ 32)%Z with true by (symmetry; apply Z.ltb_lt; lia). apply finite_f_SF.
Qed.
Section Coordinate.
Variables (c0 c1 c2 c3 : list Z) (x y z w : Z) (i : nat).
Hypothesis L : length c0 = 4%nat /\ length c1 = 4%nat /\ length c2 = 4%nat /\ length c3 = 4%nat.
Hypothesis F : finite (nth i c0 0%Z) = true /\ finite (nth i c1 0%Z) = true /\ finite (nth i c2 0%Z) = true /\ finite (nth i c3 0%Z) = true.
Hypothesis Fx : finite x = true. Hypothesis Fy : finite y = true. Hypothesis Fz : finite z = true. Hypothesis Fw : finite w = true.
Hypothesis Hi : (i < 4)%nat.
Let c := nth i (mul_vec4 [c0; c1; c2; c3] [x; y; z; w]) 0%Z.

Lemma coord_float : f32_of c = dot (f32_of (nth i c0 0%Z)) (f32_of (nth i c1 0%Z)) (f32_of (nth i c2 0%Z)) (f32_of (nth i c3 0%Z))
    (f32_of x) (f32_of y) (f32_of z) (f32_of w) /\ finite c = is_finite_SF (f32_of c).
Proof.
  destruct L as (L0 & L1 & L2 & L3). destruct F as (F0 & F1 & F2 & F3).
  unfold c. rewrite (proj1 (product_coord c0 c1 c2 c3 x y z w i L0 L1 L2 L3 Hi)).
  destruct (mul_bits_of _ _ (finite_valid _ F0) (finite_valid _ Fx)) as [E0 V0].
  destruct (mul_bits_of _ _ (finite_valid _ F1) (finite_valid _ Fy)) as [E1 V1].
  destruct (mul_bits_of _ _ (finite_valid _ F2) (finite_valid _ Fz)) as [E2 V2].
  destruct (mul_bits_of _ _ (finite_valid _ F3) (finite_valid _ Fw)) as [E3 V3].
  destruct (add_bits_of _ _ V0 V1) as [G1 W1]. destruct (add_bits_of _ _ W1 V2) as [G2 W2]. destruct (add_bits_of _ _ W2 V3) as [G3 W3].
  split; [rewrite G3, G2, G1, E0, E1, E2, E3; reflexivity|]. apply finite_pattern; auto. apply bits_range. now apply add_valid.
Qed.
Let t0 := real (nth i c0 0%Z) * real x. Let t1 := real (nth i c1 0%Z) * real y.
Let t2 := real (nth i c2 0%Z) * real z. Let t3 := real (nth i c3 0%Z) * real w.
Lemma coord_value : finite c = true -> real c = sum4 t0 t1 t2 t3.
Proof.
  destruct coord_float as [E G]. rewrite G. intros H. destruct F as (F0 & F1 & F2 & F3). rewrite E in H.
  apply (dot_rep _ _ _ _ _ _ _ _ _ _ _ _ _ _ _ _ (finite_rep _ F0) (finite_rep _ F1) (finite_rep _ F2) (finite_rep _ F3)
    (finite_rep _ Fx) (finite_rep _ Fy) (finite_rep _ Fz) (finite_rep _ Fw)) in H.
  unfold real at 1. rewrite real_of_SF2R, E. apply H.
Qed.
Lemma coord_finite : Rabs t0 + Rabs t1 + Rabs t2 + Rabs t3 <= bpow radix2 127 -> finite c = true.
Proof.
  destruct coord_float as [E G]. rewrite G, E. intros H. destruct F as (F0 & F1 & F2 & F3).
  exact (dot_finite _ _ _ _ _ _ _ _ _ _ _ _ _ _ _ _ (finite_rep _ F0) (finite_rep _ F1) (finite_rep _ F2) (finite_rep _ F3)
    (finite_rep _ Fx) (finite_rep _ Fy) (finite_rep _ Fz) (finite_rep _ Fw) H).
Qed.
End Coordinate.

Lemma bpow_int n : (0 <= n)%Z -> bpow radix2 n = IZR (2 ^ n). Proof. intros H. now rewrite <- (IZR_Zpower radix2). Qed.
Lemma bpow127 : bpow radix2 127 = IZR (2 ^ 127). Proof. now apply bpow_int. Qed.
Lemma tiny_sum : 5 * bpow radix2 (-150) <= / IZR (2 ^ 147).
Proof.
  rewrite <- bpow_int by lia. rewrite <- bpow_opp. change (-(147))%Z with (3 + -150)%Z. rewrite bpow_plus.
  change (bpow radix2 3) with (IZR 8). pose proof (bpow_ge_0 radix2 (-150)). lra.
Qed.

Lemma row_transformed m w row : finite_matrix m -> finite w = true -> finite_coords row -> (2 <= length row <= 4)%nat ->
  let p := mul_vec4 m (row_with_w w row) in length p = 4%nat /\
  forall i, (i < 4)%nat -> let c := nth i p 0%Z in
     (finite c = true -> Rabs (real c - exact_product m row (real w) i) <= 5 * product_size m row (real w) i / IZR (2 ^ 24) + / IZR (2 ^ 147)) /\
     (product_size m row (real w) i <= IZR (2 ^ 127) -> finite c = true).
Proof.
  intros M Fw Fr Hl p. destruct (matrix_inv m M) as (c0 & c1 & c2 & c3 & -> & L & H).
  assert (exists x y z, row_with_w w row = [x; y; z; w] /\ nth 0 row 0%Z = x /\ nth 1 row 0%Z = y /\ nth 2 row 0%Z = z /\
    finite x = true /\ finite y = true /\ finite z = true) as (x & y & z & E & Ex & Ey & Ez & Fx & Fy & Fz).
  { unfold finite_coords in Fr. destruct row as [|x [|y [|z [|t [|]]]]]; cbn in Hl; try lia; cbn in Fr;
    eexists _, _, _; cbn; repeat split; try (apply Fr; cbn; auto; fail); reflexivity. }
  destruct L as (L0 & L1 & L2 & L3). unfold p. rewrite E. split; [apply (product_coord c0 c1 c2 c3 x y z w 0); auto; lia|].
  intros i Hi. set (c := nth i _ _). specialize (H i Hi). pose proof (conj L0 (conj L1 (conj L2 L3))) as L.
  pose proof (coord_value c0 c1 c2 c3 x y z w i L H Fx Fy Fz Fw Hi) as V.
  pose proof (coord_finite c0 c1 c2 c3 x y z w i L H Fx Fy Fz Fw Hi) as B. fold c in V, B.
  unfold exact_product, product_size, entry, coord. rewrite Ex, Ey, Ez. cbn [nth].
  split; [|intros G; apply B; rewrite bpow127; exact G]. intros Hc. rewrite (V Hc).
  destruct (sum_bounds (real (nth i c0 0%Z) * real x) (real (nth i c1 0%Z) * real y) (real (nth i c2 0%Z) * real z) (real (nth i c3 0%Z) * real w)) as (_ & _ & _ & _ & G).
  cbv zeta in G. pose proof tiny_sum. change (IZR (2 ^ 24)) with 16777216. eapply Rle_trans; [exact G|]. lra.
Qed.

Lemma rows_length v row : vec_ok v = true -> In row (vec_rows v) -> length row = dim_count (vec_dim v).
Proof.
  unfold vec_ok. rewrite forallb_forall. intros H I. specialize (H row I). apply andb_prop in H as [H _].
  apply Z.eqb_eq in H. unfold zlen in H. lia.
Qed.
Lemma nth_firstn_lt {A} n (l : list A) i d : (i < n)%nat -> nth i (firstn n l) d = nth i l d.
Proof. revert l i. induction n; intros l i H; [lia|]. destruct l; [destruct i; reflexivity|]. destruct i; auto. cbn. apply IHn. lia. Qed.

(** The result of one row, from the product *)
Definition shaped (row p : list Z) : list Z :=
  match length row with 2%nat => firstn 2 p | 3%nat => firstn 3 p | _ => firstn 3 p ++ [nth 3 row 0%Z] end.
Lemma inner_rows v m w : vec_ok v = true -> transform_inner v m w =
  MkVec (vec_dim v) (map (fun row => shaped row (mul_vec4 m (row_with_w w row))) (vec_rows v)).
Proof.
  intros H. unfold transform_inner, to_vec4_with_w. f_equal. pose proof (rows_length v) as R.
  destruct (vec_dim v); cbn [dim_count] in R.
  - rewrite !map_map. apply map_ext_in. intros row I. unfold shaped. now rewrite (R row H I).
  - rewrite !map_map. apply map_ext_in. intros row I. unfold shaped. now rewrite (R row H I).
  - assert (C : forall l, (forall row, In row l -> length row = 4%nat) ->
      map (fun p => firstn 3 (snd p) ++ [nth 3 (fst p) 0%Z]) (combine l (map (mul_vec4 m) (map (row_with_w w) l))) =
      map (fun row => shaped row (mul_vec4 m (row_with_w w row))) l); [|apply C; intros; now apply R].
    induction l as [|row l IH]; intros G; [reflexivity|]. cbn [map combine fst snd]. rewrite IH by (intros; apply G; now right).
    f_equal. unfold shaped. now rewrite (G row (or_introl eq_refl)).
Qed.
Lemma dim_length v row : vec_ok v = true -> In row (vec_rows v) -> (2 <= length row <= 4)%nat.
Proof. intros H I. rewrite (rows_length v row H I). destruct (vec_dim v); cbn; lia. Qed.
Lemma shaped_nth row p : (2 <= length row <= 4)%nat -> length p = 4%nat -> length (shaped row p) = length row /\
  (forall i, (i < 3)%nat -> (i < length row)%nat -> nth i (shaped row p) 0%Z = nth i p 0%Z) /\
  (length row = 4%nat -> nth 3 (shaped row p) 0%Z = nth 3 row 0%Z).
Proof.
  intros H Hp. destruct p as [|a [|b [|c [|d [|]]]]]; try discriminate. unfold shaped.
  assert (length row = 2 \/ length row = 3 \/ length row = 4)%nat as [E|[E|E]] by lia; rewrite E; cbn;
    (split; [reflexivity|split; [|lia || reflexivity]]); intros i H1 H2; destruct i as [|[|[|]]]; try lia; reflexivity.
Qed.

Theorem inner_transformed v m w : vec_ok v = true -> finite_matrix m -> finite w = true -> Forall finite_coords (vec_rows v) ->
  let r := transform_inner v m w in
  vec_dim r = vec_dim v /\ Forall2 (transformed m (real w)) (vec_rows v) (vec_rows r).
Proof.
  intros H M Fw Fr. cbv zeta. rewrite inner_rows by exact H. cbn [vec_dim vec_rows]. split; auto.
  assert (D : Forall (fun row => (2 <= length row <= 4)%nat) (vec_rows v)) by (apply Forall_forall; intros; now apply (dim_length v)).
  induction (vec_rows v) as [|row l IH]; cbn; constructor; inversion Fr; inversion D; subst; auto.
  destruct (row_transformed m w row M Fw) as [Lp P]; auto. cbv zeta in P.
  destruct (shaped_nth row (mul_vec4 m (row_with_w w row))) as (S1 & S2 & S3); auto.
  split; [exact S1|split; [|exact S3]]. intros i I1 I2. cbv zeta. rewrite S2 by auto. apply P. lia.
Qed.
Lemma real_one : finite 0x3f800000 = true /\ real 0x3f800000 = 1.
Proof. split; [reflexivity|]. change (real _) with (IZR 8388608 * powerRZ 2 (-23)). rewrite power_neg. cbn. lra. Qed.
Lemma real_zero : finite 0 = true /\ real 0 = 0. Proof. split; reflexivity. Qed.
Theorem points_transformed v m : vec_ok v = true -> finite_matrix m -> Forall finite_coords (vec_rows v) ->
  let r := transform_points v m in vec_dim r = vec_dim v /\ Forall2 (transformed m 1) (vec_rows v) (vec_rows r).
Proof. intros. rewrite <- (proj2 real_one). apply inner_transformed; auto. Qed.
Theorem vectors_transformed v m : vec_ok v = true -> finite_matrix m -> Forall finite_coords (vec_rows v) ->
  let r := transform_vectors v m in vec_dim r = vec_dim v /\ Forall2 (transformed m 0) (vec_rows v) (vec_rows r).
Proof. intros. rewrite <- (proj2 real_zero). apply inner_transformed; auto. Qed.

(** ** Vectors ignore the translation *)
Lemma mul_zero f : is_finite_SF f = true -> exists s, mul32 f (f32_of 0) = S754_zero s.
Proof. destruct f as [s|s| |s m e]; try discriminate; intros _; destruct s; eexists; reflexivity. Qed.
Lemma add_zero f s : is_finite_SF (add32 f (S754_zero s)) = is_finite_SF f /\ real_of (add32 f (S754_zero s)) = real_of f.
Proof. destruct f as [t|t| |t m e]; cbn; auto. destruct (Bool.eqb t s); auto. Qed.
Lemma finite_SF x : finite x = true -> is_finite_SF (f32_of x) = true.
Proof. unfold finite. intros H. apply andb_prop in H as [_ H]. now rewrite finite_f_SF in H. Qed.
Lemma same_refl x : same_number x x. Proof. now split. Qed.

Lemma coord_zero c0 c1 c2 c3 x y z i : length c0 = 4%nat /\ length c1 = 4%nat /\ length c2 = 4%nat /\ length c3 = 4%nat ->
  finite (nth i c0 0%Z) = true /\ finite (nth i c1 0%Z) = true /\ finite (nth i c2 0%Z) = true /\ finite (nth i c3 0%Z) = true ->
  finite x = true -> finite y = true -> finite z = true -> (i < 4)%nat ->
  let d := dot3 (f32_of (nth i c0 0%Z)) (f32_of (nth i c1 0%Z)) (f32_of (nth i c2 0%Z)) (f32_of x) (f32_of y) (f32_of z) in
  let c := nth i (mul_vec4 [c0; c1; c2; c3] [x; y; z; 0%Z]) 0%Z in finite c = is_finite_SF d /\ real c = real_of d.
Proof.
  intros L F Fx Fy Fz Hi d c. destruct (coord_float c0 c1 c2 c3 x y z 0%Z i L F Fx Fy Fz eq_refl Hi) as [E G]. fold c in E, G.
  rewrite G. unfold real. rewrite E. unfold dot. destruct F as (_ & _ & _ & F3).
  destruct (mul_zero _ (finite_SF _ F3)) as [s ->]. apply add_zero.
Qed.

Lemma row_points w row : finite_coords row -> (2 <= length row <= 4)%nat -> exists x y z, row_with_w w row = [x; y; z; w] /\
  nth 0 row 0%Z = x /\ nth 1 row 0%Z = y /\ nth 2 row 0%Z = z /\ finite x = true /\ finite y = true /\ finite z = true.
Proof.
  intros Fr Hl. unfold finite_coords in Fr. destruct row as [|x [|y [|z [|t [|]]]]]; cbn in Hl; try lia; cbn in Fr;
    eexists _, _, _; cbn; repeat split; try (apply Fr; cbn; auto; fail); reflexivity.
Qed.
Lemma nth_forall2 (P : Z -> Z -> Prop) l l' : length l = length l' -> (forall i, (i < length l)%nat -> P (nth i l 0%Z) (nth i l' 0%Z)) -> Forall2 P l l'.
Proof.
  revert l'. induction l as [|a l IH]; intros [|b l'] H G; try discriminate; constructor.
  - exact (G 0%nat (Nat.lt_0_succ _)).
  - apply IH; [now injection H|]. intros i Hi. apply (G (S i)). cbn. lia.
Qed.
Lemma shaped_same row p p' : (2 <= length row <= 4)%nat -> length p = 4%nat -> length p' = 4%nat ->
  (forall i, (i < 3)%nat -> same_number (nth i p 0%Z) (nth i p' 0%Z)) -> Forall2 same_number (shaped row p) (shaped row p').
Proof.
  intros Hl Lp Lp' H. destruct (shaped_nth row p Hl Lp) as (S1 & S2 & S3). destruct (shaped_nth row p' Hl Lp') as (T1 & T2 & T3).
  apply nth_forall2; [congruence|]. intros i Hi. rewrite S1 in Hi. destruct (Nat.lt_ge_cases i 3) as [I|I].
  - rewrite S2, T2 by auto. auto.
  - assert (i = 3%nat) by lia. subst i. rewrite S3, T3 by lia. apply same_refl.
Qed.
Theorem vectors_translation v m m' : vec_ok v = true -> finite_matrix m -> finite_matrix m' -> firstn 3 m = firstn 3 m' ->
  Forall finite_coords (vec_rows v) -> same_rows (transform_vectors v m) (transform_vectors v m').
Proof.
  intros H M M' E Fr. unfold transform_vectors. rewrite !inner_rows by exact H. split; [reflexivity|]. cbn [vec_rows].
  destruct (matrix_inv m M) as (c0 & c1 & c2 & c3 & -> & L & F). destruct (matrix_inv m' M') as (d0 & d1 & d2 & d3 & -> & L' & F').
  cbn in E. injection E as <- <- <-.
  assert (D : Forall (fun row => (2 <= length row <= 4)%nat) (vec_rows v)) by (apply Forall_forall; intros; now apply (dim_length v)).
  induction (vec_rows v) as [|row l IH]; cbn [map]; constructor; inversion Fr as [|? ? R1 R2]; inversion D as [|? ? D1 D2]; subst; auto.
  destruct (row_points 0%Z row R1 D1) as (x & y & z & -> & _ & _ & _ & Fx & Fy & Fz).
  assert (L4 : forall q, length q = 4%nat -> length (mul_vec4 [c0; c1; c2; q] [x; y; z; 0%Z]) = 4%nat).
  { intros q Q. apply (product_coord c0 c1 c2 q x y z 0%Z 0); try apply L; auto. }
  apply shaped_same; [auto|apply L4, L|apply L4, L'|]. intros i Hi. assert (I : (i < 4)%nat) by lia.
  destruct (coord_zero c0 c1 c2 c3 x y z i L (F i I) Fx Fy Fz I) as [A1 A2].
  destruct (coord_zero c0 c1 c2 d3 x y z i L' (F' i I) Fx Fy Fz I) as [B1 B2].
  split; congruence.
Qed.

(** ** The identity *)
Lemma identity_finite : finite_matrix identity_matrix.
Proof.
  split; [reflexivity|]. intros col H. cbn in H. destruct H as [<-|[<-|[<-|[<-|[]]]]]; (split; [reflexivity|]);
    intros x H; cbn in H; destruct H as [<-|[<-|[<-|[<-|[]]]]]; reflexivity.
Qed.
Lemma one_rep : rep32 (f32_of 0x3f800000) 1. Proof. rewrite <- (proj2 real_one). apply finite_rep, real_one. Qed.
Lemma mul_one f r : rep32 f r -> rep32 (mul32 (f32_of 0x3f800000) f) r.
Proof.
  intros H. pose proof (rep_mul prec32 emax32 _ _ _ _ _ _ one_rep H) as P. rewrite Rmult_1_l in P.
  rewrite (rnd_id prec32 emax32 _ (rep_format prec32 emax32 _ _ H)) in P.
  apply P. exact (rep32_bound _ _ H).
Qed.
Lemma zero_mul f : is_finite_SF f = true -> exists s, mul32 (f32_of 0) f = S754_zero s.
Proof. destruct f as [s|s| |s m e]; try discriminate; intros _; destruct s; eexists; reflexivity. Qed.
Lemma zero_add f s : is_finite_SF (add32 (S754_zero s) f) = is_finite_SF f /\ real_of (add32 (S754_zero s) f) = real_of f.
Proof. destruct f as [t|t| |t m e]; cbn; auto. destruct (Bool.eqb s t); auto. Qed.
Lemma zeros s t : exists u, add32 (S754_zero s) (S754_zero t) = S754_zero u. Proof. cbn. destruct (Bool.eqb s t); eauto. Qed.

#[local] Strategy opaque [f32_of mul32].
Theorem identity_rows v w : vec_ok v = true -> finite w = true -> Forall finite_coords (vec_rows v) ->
  same_rows v (transform_inner v identity_matrix w).
Proof.
  intros H Fw Fr. rewrite inner_rows by exact H. split; [reflexivity|]. cbn [vec_rows].
  assert (D : Forall (fun row => (2 <= length row <= 4)%nat) (vec_rows v)) by (apply Forall_forall; intros; now apply (dim_length v)).
  induction (vec_rows v) as [|row l IH]; cbn [map]; constructor; inversion Fr as [|? ? R1 R2]; inversion D as [|? ? D1 D2]; subst; auto.
  destruct (row_points w row R1 D1) as (x & y & z & -> & Ex & Ey & Ez & Fx & Fy & Fz).
  destruct (matrix_inv _ identity_finite) as (c0 & c1 & c2 & c3 & E & L & F).
  pose proof (fun i I => coord_float c0 c1 c2 c3 x y z w i L (F i I) Fx Fy Fz Fw I) as C.
  pose proof (proj2 (product_coord c0 c1 c2 c3 x y z w 0 (proj1 L) (proj1 (proj2 L)) (proj1 (proj2 (proj2 L))) (proj2 (proj2 (proj2 L))) (Nat.lt_0_succ _))) as Lp.
  injection E as <- <- <- <-. fold identity_matrix in *. set (p := mul_vec4 identity_matrix [x; y; z; w]) in *.
  destruct (shaped_nth row p D1 Lp) as (S1 & S2 & S3). apply nth_forall2; [auto|]. intros i Hi.
  destruct (Nat.lt_ge_cases i 3) as [I|I]; [|assert (i = 3%nat) by lia; subst i; rewrite S3 by lia; apply same_refl].
  rewrite S2 by auto. destruct (C i) as [C1 C2]; [lia|]. unfold same_number, real. rewrite C2, C1. clear C C1 C2.
  destruct (zero_mul _ (finite_SF _ Fx)) as [s0 Z0]. destruct (zero_mul _ (finite_SF _ Fy)) as [s1 Z1].
  destruct (zero_mul _ (finite_SF _ Fz)) as [s2 Z2]. destruct (zero_mul _ (finite_SF _ Fw)) as [s3 Z3].
  destruct (mul_one _ _ (finite_rep _ Fx)) as (_ & Ox & Vx). destruct (mul_one _ _ (finite_rep _ Fy)) as (_ & Oy & Vy).
  destruct (mul_one _ _ (finite_rep _ Fz)) as (_ & Oz & Vz). rewrite <- real_of_SF2R in Vx, Vy, Vz. unfold dot, dot3.
  destruct i as [|[|[|]]]; [| | |clear - I; lia]; cbn [nth].
  - rewrite Ex, Fx, Z1, Z2, Z3. destruct (add_zero (add32 (add32 (mul32 (f32_of 1065353216) (f32_of x)) (S754_zero s1)) (S754_zero s2)) s3) as [-> ->].
    destruct (add_zero (add32 (mul32 (f32_of 1065353216) (f32_of x)) (S754_zero s1)) s2) as [-> ->].
    destruct (add_zero (mul32 (f32_of 1065353216) (f32_of x)) s1) as [-> ->]. now rewrite Ox, Vx.
  - rewrite Ey, Fy, Z0, Z2, Z3. destruct (add_zero (add32 (add32 (S754_zero s0) (mul32 (f32_of 1065353216) (f32_of y))) (S754_zero s2)) s3) as [-> ->].
    destruct (add_zero (add32 (S754_zero s0) (mul32 (f32_of 1065353216) (f32_of y))) s2) as [-> ->].
    destruct (zero_add (mul32 (f32_of 1065353216) (f32_of y)) s0) as [-> ->]. now rewrite Oy, Vy.
  - rewrite Ez, Fz, Z0, Z1, Z3. destruct (add_zero (add32 (add32 (S754_zero s0) (S754_zero s1)) (mul32 (f32_of 1065353216) (f32_of z))) s3) as [-> ->].
    assert (exists s, add32 (S754_zero s0) (S754_zero s1) = S754_zero s) as [s ->] by (exact (zeros s0 s1)).
    destruct (zero_add (mul32 (f32_of 1065353216) (f32_of z)) s) as [-> ->]. now rewrite Oz, Vz.
Qed.
