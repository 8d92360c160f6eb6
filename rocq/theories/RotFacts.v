(** The w component of rotations in compressed tracks. *)
From Coq Require Import ZArith Reals SpecFloat Lia Lra.
From Flocq Require Import Core BinarySingleNaN.
From Verif Require Import Bytes Float32 FloatFacts FlocqFacts AnimComp AnimBuf AnimSpec CodecFacts AnimFacts QuantSpec QuantFacts QuantTrack RoundFacts.
Local Open Scope R_scope.

Lemma sqrt_equiv (x : binary_float prec32 emax32) : SFsqrt prec32 emax32 (B2SF x) = B2SF (Bsqrt mode_NE x).
Proof.
  destruct x as [[|]|[|]| |[|] m e B]; try reflexivity. cbn. rewrite B2SF_SF2B.
  destruct (SFsqrt_core_binary _ _ _ _) as [[mz ez] lz]. apply round_aux_equiv.
Qed.
Lemma rep_sqrt f r : rep32 f r -> (match f with S754_finite true _ _ => false | _ => true end) = true -> rep32 (sqrt32 f) (rnd32 (sqrt r)).
Proof.
  intros H S. apply (rep_B prec32 emax32) in H as (x & <- & Fx & <-). unfold sqrt32. rewrite sqrt_equiv.
  destruct (Bsqrt_correct prec32 emax32 _ _ mode_NE x) as (C1 & C2 & _). apply (rep_B prec32 emax32). eexists. split; [reflexivity|]. split; [|exact C1].
  rewrite C2. destruct x as [s|s| |s m e B]; auto.
Qed.
Lemma bits32_rep f r : rep32 f r -> (0 <= bits_of_f32 f < 2 ^ 32)%Z.
Proof.
  intros (V & _ & _). apply bits32_bound. intros s m e ->. cbn [valid_binary] in V.
  unfold bounded, canonical_mantissa, SpecFloat.fexp, emin, prec32, emax32 in V. apply andb_prop in V as [V1 V2].
  apply Zeq_bool_eq in V1. apply Z.leb_le in V2. pose proof (digits2_upper m) as U.
  assert (Zpos m < 2 ^ 24)%Z by (eapply Z.lt_le_trans; [exact U|apply Z.pow_le_mono_r; lia]). lia.
Qed.
Lemma rep_opp f r : rep32 f r -> rep32 (SFopp f) (- r).
Proof.
  intros (V & F & <-). destruct f as [s|s| |s m e]; try discriminate F; (split; [exact V|split; [reflexivity|]]); cbn [SFopp SF2R]; [lra|].
  rewrite cond_Zopp_negb. apply F2R_Zopp.
Qed.
Lemma rep_nonneg f r : rep32 f r -> (match f with S754_zero s | S754_infinity s | S754_finite s _ _ => s | S754_nan => false end) = false -> 0 <= r.
Proof. intros (V & F & <-) S. destruct f as [s|s| |s m e]; try discriminate F; cbn [SF2R]; [lra|]. subst s. apply F2R_ge_0. cbn. lia. Qed.
Lemma rep_nonpos f r : rep32 f r -> (match f with S754_zero s | S754_infinity s | S754_finite s _ _ => s | S754_nan => false end) = true -> r <= 0.
Proof. intros (V & F & <-) S. destruct f as [s|s| |s m e]; try discriminate F; cbn [SF2R]; [lra|]. subst s. apply F2R_le_0. cbn. lia. Qed.

Lemma one_format : format32 1.
Proof. apply (int_format prec32 emax32 1); [unfold prec32; lia|unfold emin, prec32, emax32; lia]. Qed.
(** The rounding error of numbers of moderate size *)
Lemma rnd32_close x B : Rabs x <= B -> Rabs (rnd32 x - x) <= B / 16777216 + / 1073741824.
Proof.
  intros H. destruct (rnd32_err x) as (e & h & He & Hh & ->). replace (x * (1 + e) + h - x) with (x * e + h) by ring.
  assert (bpow radix2 (-150) <= bpow radix2 (-30)) by (apply bpow_le; lia). change (bpow radix2 (-30)) with (/ 1073741824) in *.
  eapply Rle_trans; [apply Rabs_triang|]. apply Rplus_le_compat; [|lra]. rewrite Rabs_mult. apply Rmult_le_compat; auto using Rabs_pos.
Qed.
Lemma square_unit x : Rabs x <= 1 -> 0 <= x * x <= 1.
Proof. intros H. apply Rabs_le_inv in H. split; nra. Qed.
Lemma rnd_unit x : 0 <= x <= 1 -> 0 <= rnd32 x <= 1.
Proof. intros H. apply rnd_between; [typeclasses eauto|apply generic_format_0|apply one_format|exact H]. Qed.
Lemma int_rnd a b x : (Z.abs a < 16777216)%Z -> (Z.abs b < 16777216)%Z -> IZR a <= x <= IZR b -> IZR a <= rnd32 x <= IZR b.
Proof.
  intros Ha Hb H. apply rnd_between; [typeclasses eauto| | |exact H]; apply (int_format prec32 emax32); unfold emin, prec32, emax32; lia.
Qed.
Lemma small32 x : Rabs x <= 4 -> Rabs x < bpow radix2 emax32.
Proof. intros H. apply small_bpow; [lra|unfold emax32; lia]. Qed.

Section Rotation.
Variables (r : vec3) (flip : bool).
Hypothesis Fx : finite (v3x r) = true.
Hypothesis Fy : finite (v3y r) = true.
Hypothesis Fz : finite (v3z r) = true.
Hypothesis Bx : Rabs (real (v3x r)) <= 1.
Hypothesis By : Rabs (real (v3y r)) <= 1.
Hypothesis Bz : Rabs (real (v3z r)) <= 1.
Let x := real (v3x r).
Let y := real (v3y r).
Let z := real (v3z r).
Let sum := x * x + y * y + z * z.

Lemma square_rep a : finite a = true -> Rabs (real a) <= 1 ->
  exists s, rep32 (mul32 (f32_of a) (f32_of a)) s /\ 0 <= s <= 1 /\ Rabs (s - real a * real a) <= / 16777216 + / 1073741824.
Proof.
  intros F B. pose proof (square_unit _ B) as U. pose proof (rnd_unit _ U) as R. exists (rnd32 (real a * real a)). split; [|split; [exact R|]].
  - apply (rep_mul prec32 emax32 _ _); [apply finite_rep, F..|]. apply small32. apply Rabs_le. lra.
  - replace (/ 16777216) with (1 / 16777216) by lra. apply rnd32_close. apply Rabs_le. lra.
Qed.
Lemma w2_rep : exists w2,
  rep32 (sub32 (int_to_f32 1) (add32 (add32 (mul32 (f32_of (v3x r)) (f32_of (v3x r))) (mul32 (f32_of (v3y r)) (f32_of (v3y r)))) (mul32 (f32_of (v3z r)) (f32_of (v3z r))))) w2 /\
  -2 <= w2 <= 1 /\ Rabs (w2 - (1 - sum)) <= 10 / 16777216 + 6 / 1073741824.
Proof.
  destruct (square_rep _ Fx Bx) as (a & Ra & Ba & Ea). destruct (square_rep _ Fy By) as (b & Rb & Bb & Eb). destruct (square_rep _ Fz Bz) as (c & Rc & Bc & Ec).
  fold x in Ea. fold y in Eb. fold z in Ec.
  pose proof (int_rnd 0 2 (a + b) ltac:(lia) ltac:(lia) ltac:(lra)) as B1. pose proof (rnd32_close (a + b) 2 ltac:(apply Rabs_le; lra)) as E1.
  assert (R1 := rep_add prec32 emax32 _ _ _ _ _ _ Ra Rb (small32 (rnd32 (a + b)) ltac:(apply Rabs_le; lra))). set (s1 := rnd32 (a + b)) in *.
  pose proof (int_rnd 0 3 (s1 + c) ltac:(lia) ltac:(lia) ltac:(lra)) as B2. pose proof (rnd32_close (s1 + c) 3 ltac:(apply Rabs_le; lra)) as E2.
  assert (R2 := rep_add prec32 emax32 _ _ _ _ _ _ R1 Rc (small32 (rnd32 (s1 + c)) ltac:(apply Rabs_le; lra))). set (s2 := rnd32 (s1 + c)) in *.
  pose proof (int_rnd (-2) 1 (1 - s2) ltac:(lia) ltac:(lia) ltac:(lra)) as B3. pose proof (rnd32_close (1 - s2) 2 ltac:(apply Rabs_le; lra)) as E3.
  assert (R3 := rep_sub prec32 emax32 _ _ _ _ _ _ (rep255 1 ltac:(lia)) R2 (small32 (rnd32 (1 - s2)) ltac:(apply Rabs_le; lra))). set (w2 := rnd32 (1 - s2)) in *.
  exists w2. split; [exact R3|]. split; [exact B3|]. unfold sum. apply Rabs_le_inv in Ea, Eb, Ec, E1, E2, E3. apply Rabs_le. lra.
Qed.
Lemma max_close a b e : Rabs (a - b) <= e -> Rabs (Rmax 0 a - Rmax 0 b) <= e.
Proof. intros H. apply Rabs_le_inv in H. apply Rabs_le. unfold Rmax. destruct (Rle_dec 0 a), (Rle_dec 0 b); lra. Qed.
Theorem rotation_w_spec : let w := rotation_w flip r in
  finite w = true /\ Rabs (real w) <= 1 /\ (if flip then real w <= 0 else 0 <= real w) /\
  Rabs (real w * real w - Rmax 0 (1 - sum)) <= / 1048576.
Proof.
  cbv zeta. unfold rotation_w. destruct w2_rep as (w2 & R & B & E). set (f := sub32 _ _) in *. cbv zeta. fold f.
  set (neg := match f with S754_zero s | S754_infinity s | S754_finite s _ _ => s | S754_nan => false end).
  assert (W : exists w, rep32 (if neg then S754_zero false else sqrt32 f) w /\ 0 <= w <= 1 /\ Rabs (w * w - Rmax 0 w2) <= 3 / 16777216).
  { destruct neg eqn:N.
    - exists 0. split; [repeat split|]. split; [lra|]. rewrite Rmax_left by (apply (rep_nonpos f); auto). replace (0 * 0 - 0) with 0 by ring. rewrite Rabs_R0. lra.
    - pose proof (rep_nonneg f w2 R N) as P. exists (rnd32 (sqrt w2)). split; [apply rep_sqrt; [exact R|unfold neg in N; destruct f as [| | |s ? ?]; auto; now subst s]|].
      assert (S : 0 <= sqrt w2 <= 1) by (split; [apply sqrt_pos|rewrite <- sqrt_1; apply sqrt_le_1_alt; lra]). pose proof (rnd_unit _ S) as U. split; [exact U|].
      rewrite Rmax_right by exact P. pose proof (rnd32_close (sqrt w2) 1 ltac:(apply Rabs_le; lra)) as C. pose proof (sqrt_sqrt w2 P) as Q.
      set (q := sqrt w2) in *. set (w := rnd32 q) in *. clearbody q w. rewrite <- Q. replace (w * w - q * q) with ((w - q) * (w + q)) by ring. rewrite Rabs_mult.
      rewrite (Rabs_pos_eq (w + q)) by lra.
      apply Rle_trans with ((1 / 16777216 + / 1073741824) * 2); [|lra]. apply Rmult_le_compat; auto using Rabs_pos; lra. }
  destruct W as (w & Rw & Bw & Ew). pose proof (max_close _ _ _ E) as M.
  assert (Q : Rabs (w * w - Rmax 0 (1 - sum)) <= / 1048576) by (apply Rabs_le_inv in Ew, M; apply Rabs_le; lra).
  destruct flip.
  - destruct (bits32_finite _ _ (rep_opp _ _ Rw)) as [F ->]; [eapply bits32_rep, rep_opp, Rw|]. split; [exact F|]. split; [apply Rabs_le; lra|]. split; [lra|].
    replace (- w * - w) with (w * w) by ring. exact Q.
  - destruct (bits32_finite _ _ Rw) as [F ->]; [eapply bits32_rep, Rw|]. split; [exact F|]. split; [apply Rabs_le; lra|]. split; [lra|exact Q].
Qed.
End Rotation.

(** ** Tracks *)
Lemma sign_real w : finite w = true -> if sign_negative w then real w <= 0 else 0 <= real w.
Proof.
  intros _. unfold sign_negative, real, f32_of. set (s := (2 ^ 31 <=? w)%Z). cbv zeta.
  assert (P : forall m e, 0 < IZR (Zpos m) * powerRZ 2 e) by (intros; apply Rmult_lt_0_compat; [now apply IZR_lt|apply powerRZ_lt; lra]).
  assert (N : forall m e, IZR (Zneg m) * powerRZ 2 e < 0).
  { intros m e. specialize (P m e). change (Zneg m) with (- Zpos m)%Z. rewrite opp_IZR. lra. }
  assert (G : forall f, (exists m e, f = S754_finite s m e) \/ real_of f = 0 -> if s then real_of f <= 0 else 0 <= real_of f).
  { intros f [(m & e & ->)|Q]; [|destruct s; lra]. cbn [real_of]. destruct s; cbn [cond_Zopp Z.opp]; [specialize (N m e)|specialize (P m e)]; lra. }
  apply G. destruct (_ =? 0)%Z; [destruct (w mod 2 ^ 23)%Z; [right; reflexivity|left; eauto|right; reflexivity]|].
  destruct (_ =? 255)%Z; [right; destruct (_ =? 0)%Z; reflexivity|]. destruct (_ + _)%Z; [right; reflexivity|left; eauto|right; reflexivity].
Qed.
Lemma square_diff a b : Rabs a <= 1 -> Rabs b <= 1 -> Rabs (a * a - b * b) <= 2 * Rabs (b - a).
Proof.
  intros Ha Hb. replace (a * a - b * b) with ((b - a) * - (a + b)) by ring. rewrite Rabs_mult, Rabs_Ropp, Rmult_comm.
  apply Rmult_le_compat_r; [apply Rabs_pos|]. eapply Rle_trans; [apply Rabs_triang|]. lra.
Qed.
Lemma same_sign a b : (0 <= a /\ 0 <= b) \/ (a <= 0 /\ b <= 0) -> (a - b) * (a - b) <= Rabs (a * a - b * b).
Proof.
  intros H. replace (a * a - b * b) with ((a - b) * (a + b)) by ring. rewrite Rabs_mult.
  assert (E : (a - b) * (a - b) = Rabs (a - b) * Rabs (a - b)) by (rewrite <- Rabs_mult; symmetry; apply Rabs_pos_eq, Rle_0_sqr). rewrite E.
  apply Rmult_le_compat_l; [apply Rabs_pos|]. destruct H as [[H1 H2]|[H1 H2]].
  - rewrite (Rabs_pos_eq (a + b)) by lra. apply Rabs_le. lra.
  - rewrite (Rabs_left1 (a + b)) by lra. apply Rabs_le. lra.
Qed.
Theorem rotation_track l cs : values_ok (TvTransform l) = true -> (forall col, In col (columns (TvTransform l)) -> column_finite col) ->
  (forall t, In t l -> Rabs (real (rx t)) <= 1 /\ Rabs (real (ry t)) <= 1 /\ Rabs (real (rz t)) <= 1) ->
  exists b l' c, tv_write (TvTransform l) Compressed cs = Ok b /\
  read_track_values b (track_type (TvTransform l)) Compressed (tv_len (TvTransform l)) = Ok (TvTransform l', c) /\
  forall i t t', nth_error l i = Some t -> nth_error l' i = Some t' ->
  let w := v4w (tr_rot t) in let w' := v4w (tr_rot t') in
  let length2 t := real (rx t) * real (rx t) + real (ry t) * real (ry t) + real (rz t) * real (rz t) in
  finite w' = true /\ Rabs (real w') <= 1 /\ (if sign_negative w then real w' <= 0 else 0 <= real w') /\
  Rabs (real w' * real w' - Rmax 0 (1 - length2 t')) <= / 1048576 /\
  (finite w = true -> (real w' - real w) * (real w' - real w) <=
     Rabs (length2 t + real w * real w - 1) + / 1048576 +
     2 * (Rabs (real (rx t') - real (rx t)) + Rabs (real (ry t') - real (ry t)) + Rabs (real (rz t') - real (rz t)))).
Proof.
  intros W F U. destruct (compressed_values (TvTransform l) cs W) as (b & E & _ & _ & R).
  assert (G : forall i t t', nth_error l i = Some t -> nth_error (map (stored_transform l) l) i = Some t' ->
    let w := v4w (tr_rot t) in let w' := v4w (tr_rot t') in
    let length2 t := real (rx t) * real (rx t) + real (ry t) * real (ry t) + real (rz t) * real (rz t) in
    finite w' = true /\ Rabs (real w') <= 1 /\ (if sign_negative w then real w' <= 0 else 0 <= real w') /\
    Rabs (real w' * real w' - Rmax 0 (1 - length2 t')) <= / 1048576 /\
    (finite w = true -> (real w' - real w) * (real w' - real w) <=
       Rabs (length2 t + real w * real w - 1) + / 1048576 +
       2 * (Rabs (real (rx t') - real (rx t)) + Rabs (real (ry t') - real (ry t)) + Rabs (real (rz t') - real (rz t))))).
  { intros i t t' Ht Ht'. rewrite nth_error_map, Ht in Ht'. cbn [option_map] in Ht'. injection Ht' as <-.
    assert (It := nth_error_In _ _ Ht).
    assert (C : forall f, In (map f l) (columns (TvTransform l)) -> (forall u, In u l -> Rabs (real (f u)) <= 1) -> finite (cvalue f l t) = true /\ Rabs (real (cvalue f l t)) <= 1).
    { intros f Hf B. assert (Fi : forall y, In y (map f l) -> finite y = true) by (intros y Hy; apply (F _ Hf y y); auto).
      pose proof (find_range (map f l) ltac:(destruct l; [contradiction|discriminate]) Fi) as Q.
      pose proof (map_close f l (F _ Hf) i (f t) (cvalue f l t) _ _ ltac:(rewrite nth_error_map, Ht; reflexivity) ltac:(rewrite nth_error_map, Ht; reflexivity) Q) as (C1 & C2 & _).
      split; [exact C1|]. destruct Q as (Q1 & Q2 & _). apply in_map_iff in Q1 as (u & Eu & Hu). apply in_map_iff in Q2 as (v & Ev & Hv).
      rewrite <- Eu, <- Ev in C2. pose proof (Rabs_le_inv _ _ (B u Hu)). pose proof (Rabs_le_inv _ _ (B v Hv)). apply Rabs_le. lra. }
    destruct (C rx ltac:(cbn; auto 10) ltac:(intros u Hu; apply (U u Hu))) as [Fx Bx].
    destruct (C ry ltac:(cbn; auto 10) ltac:(intros u Hu; apply (U u Hu))) as [Fy By].
    destruct (C rz ltac:(cbn; auto 10) ltac:(intros u Hu; apply (U u Hu))) as [Fz Bz].
    destruct (U t It) as (Ux & Uy & Uz).
    pose proof (rotation_w_spec (V3 (cvalue rx l t) (cvalue ry l t) (cvalue rz l t)) (sign_negative (v4w (tr_rot t))) Fx Fy Fz Bx By Bz) as S.
    cbv zeta in S. destruct S as (S1 & S2 & S3 & S4). cbn [v3x v3y v3z] in S4.
    unfold stored_transform. cbv zeta. cbn [tr_rot v4w v3x v3y v3z]. change (rx (Tr _ (V4 ?a _ _ _) _)) with a. change (ry (Tr _ (V4 _ ?a _ _) _)) with a.
    change (rz (Tr _ (V4 _ _ ?a _) _)) with a.
    set (w' := rotation_w _ _) in *. set (x' := cvalue rx l t) in *. set (y' := cvalue ry l t) in *. set (z' := cvalue rz l t) in *.
    split; [exact S1|]. split; [exact S2|]. split; [exact S3|]. split; [exact S4|]. intros Fw. pose proof (sign_real _ Fw) as SR.
    set (w := v4w (tr_rot t)) in *.
    eapply Rle_trans; [apply same_sign; destruct (sign_negative w); [right|left]; auto|].
    pose proof (square_diff _ _ Ux Bx) as Dx. pose proof (square_diff _ _ Uy By) as Dy. pose proof (square_diff _ _ Uz Bz) as Dz.
    assert (M : Rabs (Rmax 0 (1 - (real x' * real x' + real y' * real y' + real z' * real z')) - Rmax 0 (real w * real w)) <=
      Rabs (real (rx t) * real (rx t) + real (ry t) * real (ry t) + real (rz t) * real (rz t) + real w * real w - 1) +
      2 * (Rabs (real x' - real (rx t)) + Rabs (real y' - real (ry t)) + Rabs (real z' - real (rz t)))).
    { apply max_close. set (T := real (rx t) * real (rx t) + real (ry t) * real (ry t) + real (rz t) * real (rz t) + real w * real w - 1).
      replace (1 - (real x' * real x' + real y' * real y' + real z' * real z') - real w * real w) with
        (- T + ((real (rx t) * real (rx t) - real x' * real x') + (real (ry t) * real (ry t) - real y' * real y') + (real (rz t) * real (rz t) - real z' * real z')))
        by (unfold T; ring).
      eapply Rle_trans; [apply Rabs_triang|]. rewrite Rabs_Ropp. apply Rplus_le_compat_l.
      eapply Rle_trans; [apply Rabs_triang|]. eapply Rle_trans; [apply Rplus_le_compat_r, Rabs_triang|]. lra. }
    rewrite (Rmax_right 0 (real w * real w)) in M by apply Rle_0_sqr.
    set (m := Rmax 0 _) in *. replace (real w' * real w' - real w * real w) with ((real w' * real w' - m) + (m - real w * real w)) by ring.
    eapply Rle_trans; [apply Rabs_triang|]. lra. }
  destruct (frame_bits (TvTransform l) =? 0)%Z; eexists; eexists; eexists; (split; [exact E|]).
  - split; [exact R|]. intros i t t' Ht Ht'. apply nth_firstn1 in Ht'. exact (G i t t' Ht Ht').
  - split; [exact R|]. exact G.
Qed.
