(** Rounding of vertex numbers: halves and colour bytes. *)
From Coq Require Import ZArith Reals SpecFloat Lia Lra.
From Flocq Require Import Core BinarySingleNaN.
From Verif Require Import Bytes Float32 FloatFacts FlocqFacts VecData MeshSpec QuantSpec QuantFacts QuantTrack.
Local Open Scope R_scope.

#[global] Instance prec16_pos : Prec_gt_0 prec16. Proof. reflexivity. Qed.
#[global] Instance prec16_emax : Prec_lt_emax prec16 emax16. Proof. reflexivity. Qed.
Notation rep16 := (rep prec16 emax16).
Notation rnd16 := (rnd prec16 emax16).
Notation format16 := (generic_format radix2 (SpecFloat.fexp prec16 emax16)).

Lemma f16_of_valid x : (0 <= x < 2 ^ 16)%Z -> valid_binary prec16 emax16 (f16_of x) = true.
Proof.
  intros H. unfold f16_of. assert (Hm : (0 <= x mod 2 ^ 10 < 2 ^ 10)%Z) by (apply Z.mod_pos_bound; lia).
  assert (He : (0 <= (x / 2 ^ 10) mod 2 ^ 5 < 2 ^ 5)%Z) by (apply Z.mod_pos_bound; lia).
  set (m := (x mod 2 ^ 10)%Z) in *. set (e := ((x / 2 ^ 10) mod 2 ^ 5)%Z) in *. clearbody m e.
  destruct (Z.eqb_spec e 0).
  - destruct m as [|p|p]; [reflexivity| |reflexivity]. cbn [valid_binary]. unfold bounded, canonical_mantissa, SpecFloat.fexp, emin, prec16, emax16.
    pose proof (digits2_upper p) as _. assert (D : (Zpos (digits2_pos p) <= 10)%Z).
    { rewrite Zpos_digits2_pos. apply Zdigits_le_Zpower. cbn [Z.abs radix_val radix2]. lia. }
    apply andb_true_intro. split; [apply Zeq_is_eq_bool; lia|apply Z.leb_le; lia].
  - destruct (Z.eqb_spec e 31); [destruct (m =? 0)%Z; reflexivity|]. destruct (m + 2 ^ 10)%Z as [|p|p] eqn:P; [lia| |lia].
    cbn [valid_binary]. unfold bounded, canonical_mantissa, SpecFloat.fexp, emin, prec16, emax16.
    assert (D : Zpos (digits2_pos p) = 11%Z) by (apply digits_exact; lia). rewrite D.
    apply andb_true_intro. split; [apply Zeq_is_eq_bool; lia|apply Z.leb_le; lia].
Qed.
(** The bits of a number and back *)
Lemma f16_of_bits f : valid_binary prec16 emax16 f = true -> f16_of (bits_of_f16 f) = f.
Proof.
  destruct f as [s|s| |s m e]; intros V; [destruct s; reflexivity..|reflexivity|].
  cbn [valid_binary] in V. unfold bounded, canonical_mantissa, SpecFloat.fexp, emin, prec16, emax16 in V. apply andb_prop in V as [V1 V2].
  apply Zeq_bool_eq in V1. apply Z.leb_le in V2. pose proof (digits2_upper m) as U.
  assert (D : (2 ^ (Zpos (digits2_pos m) - 1) <= Zpos m)%Z).
  { pose proof (Zdigits_correct radix2 (Zpos m)) as [D _]. rewrite <- Zpos_digits2_pos in D. exact D. }
  assert (M : (Zpos m < 2 ^ 11)%Z) by (eapply Z.lt_le_trans; [exact U|apply Z.pow_le_mono_r; lia]).
  unfold bits_of_f16, f16_of. destruct (Z.ltb_spec (Zpos m) (2 ^ 10)) as [L|L].
  - assert (E : e = (-24)%Z).
    { destruct (Z.le_gt_cases 11 (Zpos (digits2_pos m))) as [G|G]; [|lia]. exfalso.
      assert (2 ^ 10 <= Zpos m)%Z by (eapply Z.le_trans; [|exact D]; apply Z.pow_le_mono_r; lia). lia. }
    subst e. destruct s.
    + assert (Q1 : (2 ^ 15 <=? 2 ^ 15 + Zpos m)%Z = true) by (apply Z.leb_le; lia).
      assert (Q2 : ((2 ^ 15 + Zpos m) / 2 ^ 10 = 32)%Z) by (symmetry; apply Z.div_unique with (Zpos m); lia).
      assert (Q3 : ((2 ^ 15 + Zpos m) mod 2 ^ 10 = Zpos m)%Z) by (symmetry; apply Z.mod_unique with 32%Z; lia).
      cbv zeta. rewrite Q1, Q2, Q3. reflexivity.
    + assert (Q1 : (2 ^ 15 <=? 0 + Zpos m)%Z = false) by (apply Z.leb_gt; lia).
      assert (Q2 : ((0 + Zpos m) / 2 ^ 10 = 0)%Z) by (apply Z.div_small; lia).
      assert (Q3 : ((0 + Zpos m) mod 2 ^ 10 = Zpos m)%Z) by (apply Z.mod_small; lia).
      cbv zeta. rewrite Q1, Q2, Q3. reflexivity.
  - assert (G : Zpos (digits2_pos m) = 11%Z) by (apply digits_exact; lia). assert (E : (-24 <= e <= 5)%Z) by lia.
    assert (Q4 : exists p, (Zpos m - 2 ^ 10 + 2 ^ 10 = Zpos p)%Z /\ p = m) by (exists m; split; [lia|reflexivity]). destruct Q4 as (p & Q4 & ->).
    destruct s.
    + set (x := (2 ^ 15 + (e + 25) * 2 ^ 10 + (Zpos m - 2 ^ 10))%Z).
      assert (Q1 : (2 ^ 15 <=? x)%Z = true) by (apply Z.leb_le; unfold x; lia).
      assert (Q2 : (x / 2 ^ 10 = 32 + (e + 25))%Z) by (symmetry; apply Z.div_unique with (Zpos m - 2 ^ 10)%Z; unfold x; lia).
      assert (Q3 : (x mod 2 ^ 10 = Zpos m - 2 ^ 10)%Z) by (symmetry; apply Z.mod_unique with (32 + (e + 25))%Z; unfold x; lia).
      assert (Q5 : ((32 + (e + 25)) mod 2 ^ 5 = e + 25)%Z) by (symmetry; apply Z.mod_unique with 1%Z; lia).
      cbv zeta. rewrite Q1, Q2, Q3, Q5. destruct (Z.eqb_spec (e + 25) 0); [lia|]. destruct (Z.eqb_spec (e + 25) 31); [lia|]. rewrite Q4.
      f_equal. lia.
    + set (x := (0 + (e + 25) * 2 ^ 10 + (Zpos m - 2 ^ 10))%Z).
      assert (Q1 : (2 ^ 15 <=? x)%Z = false) by (apply Z.leb_gt; unfold x; lia).
      assert (Q2 : (x / 2 ^ 10 = (e + 25))%Z) by (symmetry; apply Z.div_unique with (Zpos m - 2 ^ 10)%Z; unfold x; lia).
      assert (Q3 : (x mod 2 ^ 10 = Zpos m - 2 ^ 10)%Z) by (symmetry; apply Z.mod_unique with (e + 25)%Z; unfold x; lia).
      assert (Q5 : ((e + 25) mod 2 ^ 5 = e + 25)%Z) by (apply Z.mod_small; lia).
      cbv zeta. rewrite Q1, Q2, Q3, Q5. destruct (Z.eqb_spec (e + 25) 0); [lia|]. destruct (Z.eqb_spec (e + 25) 31); [lia|]. rewrite Q4.
      f_equal. lia.
Qed.

(** ** Halves *)
Lemma finite16_rep h : finite16 h = true -> rep16 (f16_of h) (real16 h).
Proof.
  unfold finite16. intros H. apply andb_prop in H as [H F]. apply andb_prop in H as [H1 H2]. split; [apply f16_of_valid; lia|].
  split; [|symmetry; apply real_of_SF2R]. destruct (f16_of h); auto.
Qed.
Lemma bits16_finite f : rep16 f (SF2R radix2 f) -> (0 <= bits_of_f16 f < 2 ^ 16)%Z -> finite16 (bits_of_f16 f) = true /\ real16 (bits_of_f16 f) = SF2R radix2 f.
Proof.
  intros (V & F & _) B. unfold finite16, real16. rewrite f16_of_bits by exact V. split; [|apply real_of_SF2R].
  apply andb_true_intro. split; [apply andb_true_intro; split; lia|]. destruct f; auto.
Qed.
Lemma bits32_finite f r : rep32 f r -> (0 <= bits_of_f32 f < 2 ^ 32)%Z -> finite (bits_of_f32 f) = true /\ real (bits_of_f32 f) = r.
Proof.
  intros (V & F & E) B. unfold finite, real. rewrite f32_of_bits by exact V. split; [|rewrite real_of_SF2R; exact E].
  apply andb_true_intro. split; [apply andb_true_intro; split; lia|]. destruct f; auto.
Qed.
(** Conversion to the halves *)
Lemma rep_half f r : rep32 f r -> Rabs (rnd16 r) < bpow radix2 16 -> rep16 (convert prec16 emax16 f) (rnd16 r).
Proof.
  intros (V & Fi & E) B. destruct f as [s|s| |s m e]; try discriminate.
  - cbn in E. subst r. rewrite (rnd_0 prec16 emax16). repeat split.
  - cbn [SF2R] in E. unfold convert. pose proof (rep_normalize prec16 emax16 _ _ (cond_Zopp s (Z.pos m)) e s) as N.
    rewrite E in N. apply N. exact B.
Qed.
Lemma format_16_32 r : format16 r -> format32 r.
Proof.
  apply generic_inclusion_mag. intros _. unfold SpecFloat.fexp, emin, prec16, emax16, prec32, emax32. lia.
Qed.
Lemma rep16_bound f r : rep16 f r -> Rabs r < bpow radix2 16.
Proof. intros H. apply (rep_B prec16 emax16) in H as (b & _ & _ & <-). apply abs_B2R_lt_emax. Qed.
Lemma rep_unhalf f r : rep16 f r -> rep32 (convert prec32 emax32 f) r.
Proof.
  intros H. pose proof (rep16_bound f r H) as B. pose proof (format_16_32 r (rep_format prec16 emax16 f r H)) as F. destruct H as (V & Fi & E).
  destruct f as [s|s| |s m e]; try discriminate.
  - cbn in E. subst r. repeat split.
  - cbn [SF2R] in E. unfold convert. pose proof (rep_normalize prec32 emax32 _ _ (cond_Zopp s (Z.pos m)) e s) as N.
    rewrite E, (rnd_id _ _ _ F) in N. apply N. eapply Rlt_trans; [exact B|]. apply bpow_lt. reflexivity.
Qed.
Lemma half_widen h : finite16 h = true -> finite (f16_to_f32 h) = true /\ real (f16_to_f32 h) = real16 h.
Proof.
  intros H. apply bits32_finite; [apply rep_unhalf, finite16_rep, H|]. apply f16_to_f32_bound.
Qed.

(** Rounding chooses a nearest number of the format. *)
Lemma rnd_nearest p e (P : Prec_gt_0 p) x g : generic_format radix2 (SpecFloat.fexp p e) g -> Rabs (rnd p e x - x) <= Rabs (g - x).
Proof.
  intros G. unfold rnd. assert (V : Valid_exp (SpecFloat.fexp p e)) by (apply fexp_correct; auto).
  destruct (round_N_pt radix2 (SpecFloat.fexp p e) (fun z => negb (Z.even z)) x) as [_ N]. apply N, G.
Qed.
Lemma max_half : format16 65504.
Proof.
  apply (generic_format_FLT radix2 (emin prec16 emax16) prec16). exists (Float radix2 2047 5); [unfold F2R; cbn; lra|reflexivity|discriminate].
Qed.
Lemma half_fits r : Rabs r < 65520 -> Rabs (rnd16 r) < bpow radix2 16.
Proof.
  intros H. change (bpow radix2 16) with 65536. apply Rabs_def2 in H as [H1 H2]. pose proof max_half as M.
  assert (M' : format16 (-65504)) by (apply generic_format_opp, max_half).
  destruct (Rle_or_lt r 65504) as [A|A].
  - destruct (Rle_or_lt (-65504) r) as [B|B].
    + pose proof (rnd_between prec16 emax16 _ _ _ _ M' M (conj B A)). apply Rabs_def1; lra.
    + pose proof (rnd_nearest prec16 emax16 _ r _ M') as N. rewrite (Rabs_pos_eq (-65504 - r)) in N by lra. apply Rabs_le_inv in N.
      assert (rnd16 r <= rnd16 (-65504)) by (apply rnd_mono; [typeclasses eauto|lra]). rewrite (rnd_id _ _ _ M') in *. apply Rabs_def1; lra.
  - pose proof (rnd_nearest prec16 emax16 _ r _ M) as N. rewrite (Rabs_left1 (65504 - r)) in N by lra. apply Rabs_le_inv in N.
    assert (rnd16 65504 <= rnd16 r) by (apply rnd_mono; [typeclasses eauto|lra]). rewrite (rnd_id _ _ _ M) in *. apply Rabs_def1; lra.
Qed.
Lemma err16 : / 2 * bpow radix2 (- prec16 + 1) = / 2048.
Proof. unfold prec16. cbn. lra. Qed.
Lemma tiny16 : / 2 * bpow radix2 (emin prec16 emax16) = / 33554432.
Proof. change (emin prec16 emax16) with (-24)%Z. cbn. lra. Qed.
Theorem half_nearest x : finite x = true -> Rabs (real x) < 65520 -> let h := f16_from_f32 x in
  finite16 h = true /\ (forall h', finite16 h' = true -> Rabs (real16 h - real x) <= Rabs (real16 h' - real x)) /\
  Rabs (real16 h - real x) <= Rabs (real x) / 2048 + / 33554432.
Proof.
  intros Fx B h. pose proof (rep_half _ _ (finite_rep x Fx) (half_fits _ B)) as R.
  assert (S : rep16 (convert prec16 emax16 (f32_of x)) (SF2R radix2 (convert prec16 emax16 (f32_of x)))) by (destruct R as (R1 & R2 & R3); repeat split; auto).
  destruct (bits16_finite _ S (f16_from_f32_bound x)) as [Q1 Q2]. change (bits_of_f16 _) with h in Q1, Q2.
  rewrite (rep_fun _ _ _ _ _ S R) in Q2. split; [exact Q1|]. rewrite Q2. split.
  - intros h' F'. apply rnd_nearest; [typeclasses eauto|]. apply (rep_format prec16 emax16 _ _ (finite16_rep h' F')).
  - destruct (rnd_err prec16 emax16 _ (real x)) as (e & d & He & Hd & ->). rewrite err16 in He. rewrite tiny16 in Hd.
    replace (real x * (1 + e) + d - real x) with (real x * e + d) by ring. eapply Rle_trans; [apply Rabs_triang|]. apply Rplus_le_compat; auto.
    rewrite Rabs_mult. unfold Rdiv. apply Rmult_le_compat_l; auto using Rabs_pos.
Qed.

(** Numbers from 65520 on become infinite. *)
Lemma rnd_tie : rnd16 65520 = 65536.
Proof.
  unfold rnd, round, scaled_mantissa, cexp. assert (M : mag radix2 65520 = 16%Z :> Z).
  { apply mag_unique. rewrite Rabs_pos_eq by lra. cbn. lra. }
  rewrite M. change (SpecFloat.fexp prec16 emax16 16) with 5%Z. assert (E : ZnearestE (65520 * bpow radix2 (- (5))) = 2048%Z).
  { replace (65520 * bpow radix2 (- (5))) with (2047 + / 2) by (cbn; lra). unfold Znearest.
    assert (F : Zfloor (2047 + / 2) = 2047%Z) by (apply Zfloor_imp; cbn; lra). rewrite F, Rcompare_Eq by lra. cbn.
    rewrite Zceil_floor_neq; rewrite F; [reflexivity|lra]. }
  rewrite E. unfold F2R. cbn. lra.
Qed.
Lemma convert_overflow f r : rep32 f r -> bpow radix2 16 <= Rabs (rnd16 r) -> convert prec16 emax16 f = S754_infinity (Rlt_bool r 0).
Proof.
  intros (V & Fi & E) B. destruct f as [s|s| |s m e]; try discriminate.
  - exfalso. cbn in E. subst r. rewrite (rnd_0 prec16 emax16), Rabs_R0 in B. pose proof (bpow_gt_0 radix2 16). lra.
  - cbn [SF2R] in E. unfold convert. rewrite (normalize_equiv prec16 emax16 _ _).
    pose proof (binary_normalize_correct prec16 emax16 _ _ mode_NE (cond_Zopp s (Z.pos m)) e s) as C. cbv zeta in C.
    rewrite E in C. rewrite Rlt_bool_false in C by exact B. rewrite C. reflexivity.
Qed.
Theorem half_overflow x : finite x = true ->
  (65520 <= real x -> f16_from_f32 x = 31744%Z) /\ (real x <= -65520 -> f16_from_f32 x = 64512%Z).
Proof.
  intros F. pose proof (finite_rep x F) as R. split; intros H; unfold f16_from_f32.
  - assert (M : rnd16 65520 <= rnd16 (real x)) by (apply rnd_mono; [typeclasses eauto|exact H]). rewrite rnd_tie in M.
    rewrite (convert_overflow _ _ R); [|change (bpow radix2 16) with 65536; rewrite Rabs_pos_eq; lra]. rewrite Rlt_bool_false by lra. reflexivity.
  - assert (M : rnd16 (real x) <= rnd16 (Ropp 65520)) by (apply rnd_mono; [typeclasses eauto|lra]). unfold rnd in M at 2. rewrite round_NE_opp in M.
    fold (rnd16 65520) in M. rewrite rnd_tie in M.
    rewrite (convert_overflow _ _ R); [|change (bpow radix2 16) with 65536; rewrite Rabs_left1; lra]. rewrite Rlt_bool_true by lra. reflexivity.
Qed.

(** ** Colours *)
Lemma round_u8_floor f r : rep32 f r -> 0 <= r <= 255 -> round_u8 f = Zfloor (r + / 2).
Proof.
  intros (V & F & E) [H0 H1]. destruct f as [s|s| |s m e]; try discriminate.
  - cbn in E. subst r. symmetry. apply Zfloor_imp. cbn. lra.
  - cbn in E. destruct s.
    + exfalso. subst r. assert (F2R (Float radix2 (Zneg m) e) < 0)%R by (apply F2R_lt_0; cbn; lia). cbn [cond_Zopp Z.opp] in H0. lra.
    + cbn [round_u8]. assert (Q : (if (0 <=? e)%Z then Z.shiftl (Z.pos m) e else Z.shiftr (Z.pos m + Z.shiftl 1 (- e - 1)) (- e)) = Zfloor (r + / 2)).
      { subst r. unfold F2R. cbn [Fnum Fexp cond_Zopp]. destruct (Z.leb_spec 0 e).
        - rewrite Z.shiftl_mul_pow2 by lia. rewrite <- IZR_Zpower by lia. rewrite <- mult_IZR. symmetry. apply Zfloor_imp. rewrite plus_IZR. cbn [radix_val radix2].
          change (Zpower radix2 e) with (2 ^ e)%Z. lra.
        - rewrite Z.shiftl_mul_pow2, Z.shiftr_div_pow2 by lia. set (k := (- e)%Z). replace e with (- k)%Z by lia. rewrite bpow_opp.
          rewrite <- IZR_Zpower by lia. change (Zpower radix2 k) with (2 ^ k)%Z. rewrite <- Zfloor_div by lia. f_equal.
          rewrite plus_IZR, Z.mul_1_l. assert (D : (2 ^ k = 2 * 2 ^ (k - 1))%Z) by (rewrite <- Z.pow_succ_r by lia; f_equal; lia). rewrite D, mult_IZR.
          assert (0 < IZR (2 ^ (k - 1))) by (apply IZR_lt; lia). field. lra. }
      rewrite Q. apply Z.min_r. assert (Zfloor (r + / 2) < 256)%Z; [|lia]. apply lt_IZR. pose proof (Zfloor_lb (r + / 2)). lra.
Qed.
Lemma real_zero : real 0 = 0. Proof. reflexivity. Qed.
Lemma real_one : real 1065353216 = 1.
Proof. change (real _) with (IZR 8388608 * powerRZ 2 (-23)). rewrite power_neg. cbn. lra. Qed.
Lemma clamp01_real x : finite x = true -> finite (clamp01 x) = true /\ real (clamp01 x) = unit_part (real x).
Proof.
  intros F. pose proof (proj1 (ltb_real x 0 F eq_refl)) as A1. pose proof (proj2 (ltb_real x 0 F eq_refl)) as A2.
  pose proof (proj1 (ltb_real 1065353216 x eq_refl F)) as B1. pose proof (proj2 (ltb_real 1065353216 x eq_refl F)) as B2. rewrite real_zero in *. rewrite real_one in *.
  unfold clamp01, unit_part. destruct (f32_ltb x 0) eqn:A.
  - specialize (A1 eq_refl). split; [reflexivity|]. rewrite real_zero, Rmin_right, Rmax_left by lra. reflexivity.
  - destruct (f32_ltb 1065353216 x) eqn:B.
    + specialize (B1 eq_refl). split; [reflexivity|]. rewrite real_one, Rmin_left, Rmax_right by lra. reflexivity.
    + split; [exact F|]. assert (~ real x < 0) by (intros G; specialize (A2 G); discriminate). assert (~ 1 < real x) by (intros G; specialize (B2 G); discriminate).
      rewrite Rmin_right, Rmax_right by lra. reflexivity.
Qed.
Lemma unit_part_bounds r : 0 <= unit_part r <= 1.
Proof. unfold unit_part. split; [apply Rmax_l|]. apply Rmax_lub; [lra|apply Rmin_l]. Qed.
Lemma rep255 n : (0 <= n <= 255)%Z -> rep32 (int_to_f32 n) (IZR n).
Proof. intros H. apply (rep_int prec32 emax32); [typeclasses eauto..| |]; unfold prec32, emax32, emin; lia. Qed.
Lemma scaled_bounds u : 0 <= u <= 1 -> 0 <= rnd32 (u * 255) <= 255.
Proof.
  intros H. apply rnd_between; [typeclasses eauto| | |lra]; [apply generic_format_0|].
  apply int_format; [unfold prec32; lia|unfold emin, prec32, emax32; lia].
Qed.
Lemma colour_floor x : finite x = true -> get_u8_clamped x = Zfloor (rnd32 (unit_part (real x) * 255) + / 2).
Proof.
  intros F. destruct (clamp01_real x F) as [F' R]. pose proof (unit_part_bounds (real x)) as U. pose proof (scaled_bounds _ U) as S.
  unfold get_u8_clamped. apply round_u8_floor; [|exact S]. rewrite <- R. rewrite <- R in S. apply (rep_mul prec32 emax32 _ _).
  - apply finite_rep, F'.
  - apply rep255. lia.
  - apply small_bpow; [apply Rabs_le; lra|unfold emax32; lia].
Qed.
Theorem colour_nearest x : finite x = true -> (0 <= get_u8_clamped x <= 255)%Z /\
  Rabs (IZR (get_u8_clamped x) - 255 * unit_part (real x)) <= / 2 + / 65536.
Proof.
  intros F. rewrite colour_floor by exact F. pose proof (unit_part_bounds (real x)) as U. set (u := unit_part (real x)) in *. pose proof (scaled_bounds u U) as S.
  set (p := rnd32 (u * 255)) in *. pose proof (Zfloor_lb (p + / 2)) as L. pose proof (Zfloor_ub (p + / 2)) as G. split.
  - split; [apply Zfloor_lub; cbn; lra|]. assert (Zfloor (p + / 2) < 256)%Z; [|lia]. apply lt_IZR. lra.
  - assert (E : Rabs (p - 255 * u) <= / 65536).
    { unfold p. destruct (rnd32_err (u * 255)) as (e & h & He & Hh & ->). replace (u * 255 * (1 + e) + h - 255 * u) with (u * 255 * e + h) by ring.
      eapply Rle_trans; [apply Rabs_triang|]. rewrite Rabs_mult, (Rabs_pos_eq (u * 255)) by lra.
      assert (u * 255 * Rabs e <= 255 * / 16777216) by (apply Rmult_le_compat; auto using Rabs_pos; lra).
      assert (bpow radix2 (-150) <= bpow radix2 (-30)) by (apply bpow_le; lia). change (bpow radix2 (-30)) with (/ 1073741824) in *. lra. }
    apply Rabs_le_inv in E. apply Rabs_le. lra.
Qed.
Theorem colour_mono x y : finite x = true -> finite y = true -> real x <= real y -> (get_u8_clamped x <= get_u8_clamped y)%Z.
Proof.
  intros Fx Fy H. rewrite !colour_floor by auto. apply Zfloor_le. apply Rplus_le_compat_r. apply rnd_mono; [typeclasses eauto|].
  apply Rmult_le_compat_r; [lra|]. unfold unit_part. apply Rle_max_compat_l. apply Rle_min_compat_l. exact H.
Qed.
Lemma byte_rep c : (0 <= c <= 255)%Z -> rep32 (div32 (int_to_f32 c) (int_to_f32 255)) (rnd32 (IZR c / 255)).
Proof.
  intros H. apply (rep_div prec32 emax32 _ _); [apply rep255; lia|apply rep255; lia|lra|]. assert (0 <= IZR c <= 255) by (split; apply IZR_le; lia).
  apply small_bpow; [|unfold emax32; lia]. assert (0 <= rnd32 (IZR c / 255) <= 1); [|apply Rabs_le; lra].
  apply rnd_between; [typeclasses eauto|apply generic_format_0| |lra]. apply (int_format prec32 emax32 1); [unfold prec32; lia|unfold emin, prec32, emax32; lia].
Qed.
Lemma byte_real c : (0 <= c <= 255)%Z -> finite (u8_to_f32 c) = true /\ real (u8_to_f32 c) = rnd32 (IZR c / 255).
Proof. intros H. apply bits32_finite; [apply byte_rep, H|]. apply u8_to_f32_bound. lia. Qed.
Theorem byte_nearest c y : (0 <= c <= 255)%Z -> finite y = true ->
  Rabs (real (u8_to_f32 c) - IZR c / 255) <= Rabs (real y - IZR c / 255).
Proof.
  intros H F. destruct (byte_real c H) as [_ ->]. apply rnd_nearest; [typeclasses eauto|]. apply (rep_format prec32 emax32 _ _ (finite_rep y F)).
Qed.
Theorem colour_back x : finite x = true -> Rabs (real (u8_to_f32 (get_u8_clamped x)) - unit_part (real x)) <= / 510 + / 4194304.
Proof.
  intros F. destruct (colour_nearest x F) as [B E]. destruct (byte_real _ B) as [_ ->]. set (c := get_u8_clamped x) in *. set (u := unit_part (real x)) in *.
  assert (C : 0 <= IZR c <= 255) by (split; apply IZR_le; lia). destruct (rnd32_err (IZR c / 255)) as (e & h & He & Hh & ->).
  assert (bpow radix2 (-150) <= bpow radix2 (-30)) by (apply bpow_le; lia). change (bpow radix2 (-30)) with (/ 1073741824) in *.
  replace (IZR c / 255 * (1 + e) + h - u) with ((IZR c - 255 * u) / 255 + (IZR c / 255 * e + h)) by field.
  assert (A : Rabs (IZR c / 255 * e + h) <= / 16777216 + / 1073741824).
  { eapply Rle_trans; [apply Rabs_triang|]. apply Rplus_le_compat; [|lra]. rewrite Rabs_mult, (Rabs_pos_eq (IZR c / 255)) by lra.
    replace (/ 16777216) with (1 * / 16777216) by ring. apply Rmult_le_compat; auto using Rabs_pos; lra. }
  apply Rabs_le_inv in A. apply Rabs_le_inv in E. apply Rabs_le. lra.
Qed.

Lemma special x : is_nan x = true -> f16_is_nan (f16_from_f32 x) = true /\ get_u8_clamped x = 0%Z.
Proof.
  intros H. unfold is_nan in H. destruct (f32_of x) eqn:E; try discriminate.
  unfold f16_from_f32, get_u8_clamped, clamp01, f32_ltb. rewrite E. split; [reflexivity|]. cbn [SFltb SFcompare].
  replace (SFltb (f32_of 1065353216) S754_nan) with false by reflexivity. rewrite E. reflexivity.
Qed.
