(** The operations of the standard library's [spec_float] compute correctly rounded real
    results.  From Flocq's theorems on [binary_float]. *)
From Coq Require Import ZArith Reals SpecFloat Lia Lra.
From Flocq Require Import Core BinarySingleNaN Relative Plus_error.
From Verif Require Import Bytes Float32 FloatFacts.

Section Equiv.
Variable prec emax : Z.
Context (prec_gt_0_ : Prec_gt_0 prec).
Context (prec_lt_emax_ : Prec_lt_emax prec emax).

Lemma nearest_even_equiv s m l : round_nearest_even m l = choice_mode mode_NE s m l.
Proof.
  destruct l as [|c]; [reflexivity|]. destruct c; [|reflexivity..]. cbn. unfold Round.cond_incr. now destruct (Z.even m).
Qed.
Lemma round_aux_equiv sx mx ex lx :
  SpecFloat.binary_round_aux prec emax sx mx ex lx = BinarySingleNaN.binary_round_aux prec emax mode_NE sx mx ex lx.
Proof.
  unfold SpecFloat.binary_round_aux, BinarySingleNaN.binary_round_aux. destruct (shr_fexp _ _ _ _ _) as [mrs' e'].
  cbv zeta. now rewrite (nearest_even_equiv sx).
Qed.
Lemma round_equiv s m e : SpecFloat.binary_round prec emax s m e = BinarySingleNaN.binary_round prec emax mode_NE s m e.
Proof.
  unfold SpecFloat.binary_round, BinarySingleNaN.binary_round, shl_align_fexp. destruct (shl_align _ _ _) as [mz ez]. apply round_aux_equiv.
Qed.
Lemma normalize_equiv m e sz :
  SpecFloat.binary_normalize prec emax m e sz = B2SF (BinarySingleNaN.binary_normalize prec emax _ _ mode_NE m e sz).
Proof. destruct m as [|p|p]; [reflexivity|cbn; rewrite B2SF_SF2B; apply round_equiv..]. Qed.

Lemma add_equiv (x y : binary_float prec emax) : SFadd prec emax (B2SF x) (B2SF y) = B2SF (Bplus mode_NE x y).
Proof. destruct x as [sx|sx| |sx mx ex Bx]; destruct y as [sy|sy| |sy my ey By]; try (cbn; destruct (Bool.eqb _ _); reflexivity); try reflexivity. apply normalize_equiv. Qed.
Lemma sub_equiv (x y : binary_float prec emax) : SFsub prec emax (B2SF x) (B2SF y) = B2SF (Bminus mode_NE x y).
Proof.
  destruct x as [sx|sx| |sx mx ex Bx]; destruct y as [sy|sy| |sy my ey By]; try (cbn; destruct (Bool.eqb _ _); reflexivity); try reflexivity.
  cbn. unfold Zminus. rewrite <- cond_Zopp_negb. apply normalize_equiv.
Qed.
Lemma mul_equiv (x y : binary_float prec emax) : SFmul prec emax (B2SF x) (B2SF y) = B2SF (Bmult mode_NE x y).
Proof.
  destruct x as [sx|sx| |sx mx ex Bx]; destruct y as [sy|sy| |sy my ey By]; try reflexivity. cbn. rewrite B2SF_SF2B. apply round_aux_equiv.
Qed.
Lemma div_equiv (x y : binary_float prec emax) : SFdiv prec emax (B2SF x) (B2SF y) = B2SF (Bdiv mode_NE x y).
Proof.
  destruct x as [sx|sx| |sx mx ex Bx]; destruct y as [sy|sy| |sy my ey By]; try reflexivity. cbn. rewrite B2SF_SF2B.
  destruct (SFdiv_core_binary _ _ _ _ _ _) as [[mz ez] lz]. apply round_aux_equiv.
Qed.

(** [f] is a finite number of the format with the value [r]. *)
Definition rep (f : spec_float) (r : R) : Prop :=
  valid_binary prec emax f = true /\ is_finite_SF f = true /\ SF2R radix2 f = r.
Notation fexp := (SpecFloat.fexp prec emax).
Definition rnd (r : R) : R := round radix2 fexp ZnearestE r.
Notation overflow := (bpow radix2 emax).

Lemma rep_B f r : rep f r <-> exists b : binary_float prec emax, B2SF b = f /\ is_finite b = true /\ B2R b = r.
Proof.
  split.
  - intros (V & F & E). exists (SF2B f V). rewrite B2SF_SF2B, is_finite_SF2B, B2R_SF2B. auto.
  - intros (b & <- & F & E). split; [apply valid_binary_B2SF|]. rewrite is_finite_SF_B2SF, SF2R_B2SF. auto.
Qed.
Lemma rep_format f r : rep f r -> generic_format radix2 fexp r.
Proof. intros H. apply rep_B in H as (b & _ & _ & <-). apply generic_format_B2R. Qed.
Lemma rep_fun f r s : rep f r -> rep f s -> r = s.
Proof. intros (_ & _ & <-) (_ & _ & E). exact E. Qed.

Lemma rep_add f g a b : rep f a -> rep g b -> (Rabs (rnd (a + b)) < overflow)%R -> rep (SFadd prec emax f g) (rnd (a + b)).
Proof.
  intros Hf Hg L. apply rep_B in Hf as (x & <- & Fx & <-). apply rep_B in Hg as (y & <- & Fy & <-). rewrite add_equiv.
  pose proof (Bplus_correct prec emax _ _ mode_NE x y Fx Fy) as C. rewrite Rlt_bool_true in C by exact L. destruct C as (C1 & C2 & _).
  apply rep_B. eexists; eauto.
Qed.
Lemma rep_sub f g a b : rep f a -> rep g b -> (Rabs (rnd (a - b)) < overflow)%R -> rep (SFsub prec emax f g) (rnd (a - b)).
Proof.
  intros Hf Hg L. apply rep_B in Hf as (x & <- & Fx & <-). apply rep_B in Hg as (y & <- & Fy & <-). rewrite sub_equiv.
  pose proof (Bminus_correct prec emax _ _ mode_NE x y Fx Fy) as C. rewrite Rlt_bool_true in C by exact L. destruct C as (C1 & C2 & _).
  apply rep_B. eexists; eauto.
Qed.
(** The difference is finite exactly when it rounds to a finite number. *)
Lemma rep_sub_finite f g a b : rep f a -> rep g b -> is_finite_SF (SFsub prec emax f g) = true ->
  rep (SFsub prec emax f g) (rnd (a - b)) /\ (Rabs (rnd (a - b)) < overflow)%R.
Proof.
  intros Hf Hg F. destruct (Rlt_or_le (Rabs (rnd (a - b))) overflow) as [L|L]; [split; [apply rep_sub; auto|exact L]|]. exfalso.
  apply rep_B in Hf as (x & <- & Fx & <-). apply rep_B in Hg as (y & <- & Fy & <-). rewrite sub_equiv in F.
  pose proof (Bminus_correct prec emax _ _ mode_NE x y Fx Fy) as C. rewrite Rlt_bool_false in C by exact L. destruct C as [C _].
  rewrite C in F. discriminate.
Qed.
Lemma rep_mul f g a b : rep f a -> rep g b -> (Rabs (rnd (a * b)) < overflow)%R -> rep (SFmul prec emax f g) (rnd (a * b)).
Proof.
  intros Hf Hg L. apply rep_B in Hf as (x & <- & Fx & <-). apply rep_B in Hg as (y & <- & Fy & <-). rewrite mul_equiv.
  pose proof (Bmult_correct prec emax _ _ mode_NE x y) as C. rewrite Rlt_bool_true in C by exact L. destruct C as (C1 & C2 & _).
  apply rep_B. eexists. split; [reflexivity|]. split; [|exact C1]. now rewrite C2, Fx, Fy.
Qed.
Lemma rep_div f g a b : rep f a -> rep g b -> (b <> 0)%R -> (Rabs (rnd (a / b)) < overflow)%R -> rep (SFdiv prec emax f g) (rnd (a / b)).
Proof.
  intros Hf Hg Z L. apply rep_B in Hf as (x & <- & Fx & <-). apply rep_B in Hg as (y & <- & Fy & <-). rewrite div_equiv.
  pose proof (Bdiv_correct prec emax _ _ mode_NE x y Z) as C. rewrite Rlt_bool_true in C by exact L. destruct C as (C1 & C2 & _).
  apply rep_B. eexists. split; [reflexivity|]. split; [|exact C1]. now rewrite C2.
Qed.
Lemma rep_normalize m e sz : (Rabs (rnd (F2R (Float radix2 m e))) < overflow)%R ->
  rep (SpecFloat.binary_normalize prec emax m e sz) (rnd (F2R (Float radix2 m e))).
Proof.
  intros L. rewrite normalize_equiv. pose proof (binary_normalize_correct prec emax _ _ mode_NE m e sz) as C. cbv zeta in C.
  rewrite Rlt_bool_true in C by exact L. destruct C as (C1 & C2 & _). apply rep_B. eexists; eauto.
Qed.

Lemma rnd_mono a b : (a <= b)%R -> (rnd a <= rnd b)%R.
Proof. apply round_le; [apply fexp_correct; auto|apply valid_rnd_N]. Qed.
Lemma rnd_id a : generic_format radix2 fexp a -> rnd a = a.
Proof. apply round_generic. apply valid_rnd_N. Qed.
Lemma rnd_0 : rnd 0 = 0%R.
Proof. apply round_0. apply valid_rnd_N. Qed.
Lemma rnd_between a b x : generic_format radix2 fexp a -> generic_format radix2 fexp b -> (a <= x <= b)%R -> (a <= rnd x <= b)%R.
Proof. intros Fa Fb [H1 H2]. apply rnd_mono in H1, H2. rewrite (rnd_id a Fa) in H1. rewrite (rnd_id b Fb) in H2. auto. Qed.
(** Integers below 2^prec are exact. *)
Lemma int_format n : (Z.abs n < 2 ^ prec)%Z -> (emin prec emax <= 0)%Z -> generic_format radix2 fexp (IZR n).
Proof.
  intros H E. apply (generic_format_FLT radix2 (emin prec emax) prec). exists (Float radix2 n 0); auto.
  unfold F2R. cbn [Fnum Fexp bpow]. lra.
Qed.
Lemma rep_int n : (Z.abs n < 2 ^ prec)%Z -> (emin prec emax <= 0)%Z -> rep (SpecFloat.binary_normalize prec emax n 0 false) (IZR n).
Proof.
  intros H E. pose proof (int_format n H E) as F. assert (EQ : F2R (Float radix2 n 0) = IZR n) by (unfold F2R; cbn [Fnum Fexp bpow]; lra).
  pose proof (rep_normalize n 0 false) as R. rewrite EQ, (rnd_id _ F) in R. apply R.
  rewrite <- abs_IZR. apply Rlt_trans with (bpow radix2 prec); [|apply bpow_lt, prec_lt_emax_].
  assert (0 <= prec)%Z by (pose proof (prec_gt_0 prec); lia). rewrite <- (IZR_Zpower radix2) by auto. now apply IZR_lt.
Qed.
Lemma rnd_err x : exists e h, (Rabs e <= / 2 * bpow radix2 (- prec + 1))%R /\ (Rabs h <= / 2 * bpow radix2 (emin prec emax))%R /\
  rnd x = (x * (1 + e) + h)%R.
Proof.
  destruct (error_N_FLT radix2 (emin prec emax) prec (prec_gt_0 prec) (fun z => negb (Z.even z)) x) as (e & h & He & Hh & _ & E).
  exists e, h. auto.
Qed.
Lemma rnd_add_err x y : generic_format radix2 fexp x -> generic_format radix2 fexp y ->
  exists e, (Rabs e <= / 2 * bpow radix2 (- prec + 1))%R /\ rnd (x + y) = ((x + y) * (1 + e))%R.
Proof.
  intros Fx Fy. destruct (FLT_plus_error_N_ex radix2 (emin prec emax) prec (fun z => negb (Z.even z)) x y Fx Fy) as (e & He & E).
  exists e. split; [|exact E]. eapply Rle_trans; [exact He|]. unfold u_ro. set (u := bpow radix2 (- prec + 1)).
  assert (0 < u)%R by apply bpow_gt_0. unfold Rdiv. apply Rle_trans with (/ 2 * u * 1)%R; [|lra]. apply Rmult_le_compat_l; [lra|].
  rewrite <- Rinv_1. apply Rinv_le; lra.
Qed.
Lemma rnd_sub_err x y : generic_format radix2 fexp x -> generic_format radix2 fexp y ->
  exists e, (Rabs e <= / 2 * bpow radix2 (- prec + 1))%R /\ rnd (x - y) = ((x - y) * (1 + e))%R.
Proof. intros Fx Fy. apply rnd_add_err; auto. now apply generic_format_opp. Qed.
(** Different numbers of the format are apart. *)
Lemma format_gap_pos x y : generic_format radix2 fexp x -> generic_format radix2 fexp y -> (0 <= x < y)%R ->
  (y <= (y - x) * (1 + bpow radix2 prec))%R.
Proof.
  intros Fx Fy [H0 H]. assert (V : Valid_exp fexp) by (apply fexp_correct; auto).
  pose proof (succ_le_lt radix2 fexp x y Fx Fy H) as S. rewrite succ_eq_pos in S by exact H0.
  pose proof (ulp_FLT_gt radix2 (emin prec emax) prec x) as G. rewrite Rabs_pos_eq in G by exact H0.
  change (FLT_exp (emin prec emax) prec) with fexp in G.
  assert (P : (bpow radix2 (- prec) * bpow radix2 prec = 1)%R) by (rewrite <- bpow_plus; replace (- prec + prec)%Z with 0%Z by lia; reflexivity).
  pose proof (bpow_gt_0 radix2 prec) as B.
  assert (x * bpow radix2 (- prec) * bpow radix2 prec <= (y - x) * bpow radix2 prec)%R by (apply Rmult_le_compat_r; lra).
  rewrite Rmult_assoc, P in *. lra.
Qed.
Lemma format_gap x y : generic_format radix2 fexp x -> generic_format radix2 fexp y -> (x < y)%R ->
  (Rabs x <= (y - x) * (1 + bpow radix2 prec) /\ Rabs y <= (y - x) * (1 + bpow radix2 prec))%R.
Proof.
  intros Fx Fy H. pose proof (bpow_gt_0 radix2 prec) as B. assert (0 <= (y - x) * bpow radix2 prec)%R by (apply Rmult_le_pos; lra).
  destruct (Rle_or_lt 0 x) as [X|X].
  - pose proof (format_gap_pos x y Fx Fy (conj X H)). rewrite !Rabs_pos_eq by lra. lra.
  - destruct (Rle_or_lt y 0) as [Y|Y].
    + pose proof (format_gap_pos (- y) (- x) (generic_format_opp _ _ _ Fy) (generic_format_opp _ _ _ Fx)) as G.
      rewrite !Rabs_left1 by lra. replace (- x - - y)%R with (y - x)%R in G by ring. lra.
    + rewrite (Rabs_left1 x), (Rabs_pos_eq y) by lra. lra.
Qed.
(** Truncation of a nonnegative number *)
Lemma rep_floor f r : rep f r -> (0 <= r < 4294967296)%R -> f32_to_u32 f = Zfloor r.
Proof.
  intros (V & F & E) [H0 H1]. destruct f as [s|s| |s m e]; try discriminate.
  - cbn in E. subst r. symmetry. apply Zfloor_imp. cbn. lra.
  - cbn in E. destruct s.
    + exfalso. subst r. assert (F2R (Float radix2 (Zneg m) e) < 0)%R by (apply F2R_lt_0; cbn; lia). cbn [cond_Zopp Z.opp] in H0. lra.
    + cbn [f32_to_u32]. assert (Q : Zfloor r = Z.shiftl (Zpos m) e).
      { subst r. destruct e as [|p|p].
        - rewrite Z.shiftl_0_r. unfold F2R. cbn. rewrite Rmult_1_r. apply Zfloor_IZR.
        - rewrite Z.shiftl_mul_pow2 by lia. unfold F2R. cbn [Fnum Fexp cond_Zopp]. rewrite <- IZR_Zpower by lia. rewrite <- mult_IZR. apply Zfloor_IZR.
        - change (Z.neg p) with (- Z.pos p)%Z. rewrite Z.shiftl_opp_r, Z.shiftr_div_pow2 by lia. unfold F2R. cbn [Fnum Fexp cond_Zopp].
          rewrite bpow_opp, <- IZR_Zpower by lia. rewrite <- Zfloor_div; [reflexivity|]. change (radix_val radix2) with 2%Z. lia. }
      rewrite <- Q. apply Z.min_r. assert (Zfloor r < 4294967296)%Z; [|lia]. apply lt_IZR. pose proof (Zfloor_lb r). lra.
Qed.
End Equiv.

(** ** f32 *)
#[global] Instance prec32_pos : Prec_gt_0 prec32. Proof. reflexivity. Qed.
#[global] Instance prec32_emax : Prec_lt_emax prec32 emax32. Proof. reflexivity. Qed.
#[global] Instance prec64_pos : Prec_gt_0 prec64. Proof. reflexivity. Qed.
#[global] Instance prec64_emax : Prec_lt_emax prec64 emax64. Proof. reflexivity. Qed.

Lemma digits_exact p n : (2 ^ (n - 1) <= Zpos p < 2 ^ n)%Z -> (0 < n)%Z -> Zpos (digits2_pos p) = n.
Proof.
  intros [H1 H2] Hn. rewrite Zpos_digits2_pos. apply Zdigits_unique. cbn [Z.abs radix_val radix2]. split; auto.
Qed.
Lemma f32_of_valid x : (0 <= x < 2 ^ 32)%Z -> valid_binary prec32 emax32 (f32_of x) = true.
Proof.
  intros H. unfold f32_of. assert (Hm : (0 <= x mod 2 ^ 23 < 2 ^ 23)%Z) by (apply Z.mod_pos_bound; lia).
  assert (He : (0 <= (x / 2 ^ 23) mod 2 ^ 8 < 2 ^ 8)%Z) by (apply Z.mod_pos_bound; lia).
  set (m := (x mod 2 ^ 23)%Z) in *. set (e := ((x / 2 ^ 23) mod 2 ^ 8)%Z) in *. clearbody m e.
  destruct (Z.eqb_spec e 0).
  - destruct m as [|p|p]; [reflexivity| |reflexivity]. cbn [valid_binary]. unfold bounded, canonical_mantissa, SpecFloat.fexp, emin, prec32, emax32.
    pose proof (digits2_upper p) as _. assert (D : (Zpos (digits2_pos p) <= 23)%Z).
    { rewrite Zpos_digits2_pos. apply Zdigits_le_Zpower. cbn [Z.abs radix_val radix2]. lia. }
    apply andb_true_intro. split; [apply Zeq_is_eq_bool; lia|apply Z.leb_le; lia].
  - destruct (Z.eqb_spec e 255); [destruct (m =? 0)%Z; reflexivity|]. destruct (m + 2 ^ 23)%Z as [|p|p] eqn:P; [lia| |lia].
    cbn [valid_binary]. unfold bounded, canonical_mantissa, SpecFloat.fexp, emin, prec32, emax32.
    assert (D : Zpos (digits2_pos p) = 24%Z) by (apply digits_exact; lia). rewrite D.
    apply andb_true_intro. split; [apply Zeq_is_eq_bool; lia|apply Z.leb_le; lia].
Qed.
(** The bits of a number and back *)
Lemma f32_of_bits f : valid_binary prec32 emax32 f = true -> f32_of (bits_of_f32 f) = f.
Proof.
  destruct f as [s|s| |s m e]; intros V; [destruct s; reflexivity..|reflexivity|].
  cbn [valid_binary] in V. unfold bounded, canonical_mantissa, SpecFloat.fexp, emin, prec32, emax32 in V. apply andb_prop in V as [V1 V2].
  apply Zeq_bool_eq in V1. apply Z.leb_le in V2. pose proof (digits2_upper m) as U.
  assert (D : (2 ^ (Zpos (digits2_pos m) - 1) <= Zpos m)%Z).
  { pose proof (Zdigits_correct radix2 (Zpos m)) as [D _]. rewrite <- Zpos_digits2_pos in D. exact D. }
  assert (M : (Zpos m < 2 ^ 24)%Z) by (eapply Z.lt_le_trans; [exact U|apply Z.pow_le_mono_r; lia]).
  unfold bits_of_f32, f32_of. destruct (Z.ltb_spec (Zpos m) (2 ^ 23)) as [L|L].
  - assert (E : e = (-149)%Z).
    { destruct (Z.le_gt_cases 24 (Zpos (digits2_pos m))) as [G|G]; [|lia]. exfalso.
      assert (2 ^ 23 <= Zpos m)%Z by (eapply Z.le_trans; [|exact D]; apply Z.pow_le_mono_r; lia). lia. }
    subst e. destruct s.
    + assert (Q1 : (2 ^ 31 <=? 2 ^ 31 + Zpos m)%Z = true) by (apply Z.leb_le; lia).
      assert (Q2 : ((2 ^ 31 + Zpos m) / 2 ^ 23 = 256)%Z) by (symmetry; apply Z.div_unique with (Zpos m); lia).
      assert (Q3 : ((2 ^ 31 + Zpos m) mod 2 ^ 23 = Zpos m)%Z) by (symmetry; apply Z.mod_unique with 256%Z; lia).
      cbv zeta. rewrite Q1, Q2, Q3. reflexivity.
    + assert (Q1 : (2 ^ 31 <=? 0 + Zpos m)%Z = false) by (apply Z.leb_gt; lia).
      assert (Q2 : ((0 + Zpos m) / 2 ^ 23 = 0)%Z) by (apply Z.div_small; lia).
      assert (Q3 : ((0 + Zpos m) mod 2 ^ 23 = Zpos m)%Z) by (apply Z.mod_small; lia).
      cbv zeta. rewrite Q1, Q2, Q3. reflexivity.
  - assert (G : Zpos (digits2_pos m) = 24%Z) by (apply digits_exact; lia). assert (E : (-149 <= e <= 104)%Z) by lia.
    assert (Q4 : exists p, (Zpos m - 2 ^ 23 + 2 ^ 23 = Zpos p)%Z /\ p = m) by (exists m; split; [lia|reflexivity]). destruct Q4 as (p & Q4 & ->).
    destruct s.
    + set (x := (2 ^ 31 + (e + 150) * 2 ^ 23 + (Zpos m - 2 ^ 23))%Z).
      assert (Q1 : (2 ^ 31 <=? x)%Z = true) by (apply Z.leb_le; unfold x; lia).
      assert (Q2 : (x / 2 ^ 23 = 256 + (e + 150))%Z) by (symmetry; apply Z.div_unique with (Zpos m - 2 ^ 23)%Z; unfold x; lia).
      assert (Q3 : (x mod 2 ^ 23 = Zpos m - 2 ^ 23)%Z) by (symmetry; apply Z.mod_unique with (256 + (e + 150))%Z; unfold x; lia).
      assert (Q5 : ((256 + (e + 150)) mod 2 ^ 8 = e + 150)%Z) by (symmetry; apply Z.mod_unique with 1%Z; lia).
      cbv zeta. rewrite Q1, Q2, Q3, Q5. destruct (Z.eqb_spec (e + 150) 0); [lia|]. destruct (Z.eqb_spec (e + 150) 255); [lia|]. rewrite Q4.
      f_equal. lia.
    + set (x := (0 + (e + 150) * 2 ^ 23 + (Zpos m - 2 ^ 23))%Z).
      assert (Q1 : (2 ^ 31 <=? x)%Z = false) by (apply Z.leb_gt; unfold x; lia).
      assert (Q2 : (x / 2 ^ 23 = (e + 150))%Z) by (symmetry; apply Z.div_unique with (Zpos m - 2 ^ 23)%Z; unfold x; lia).
      assert (Q3 : (x mod 2 ^ 23 = Zpos m - 2 ^ 23)%Z) by (symmetry; apply Z.mod_unique with (e + 150)%Z; unfold x; lia).
      assert (Q5 : ((e + 150) mod 2 ^ 8 = e + 150)%Z) by (apply Z.mod_small; lia).
      cbv zeta. rewrite Q1, Q2, Q3, Q5. destruct (Z.eqb_spec (e + 150) 0); [lia|]. destruct (Z.eqb_spec (e + 150) 255); [lia|]. rewrite Q4.
      f_equal. lia.
Qed.
