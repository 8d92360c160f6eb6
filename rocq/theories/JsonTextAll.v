(** The text of every finite float is read as the float: proofs. *)
From Coq Require Import ZArith Reals SpecFloat Lia Lra.
From Flocq Require Import Core Relative BinarySingleNaN.
From Verif Require Import Bytes Float32 FloatFacts FlocqFacts QuantSpec QuantFacts RoundFacts Json JsonText JsonTextSpec
  JsonTextDecimal JsonTextKept JsonTextFarey.
Local Open Scope R_scope.

(** ** Numbers strictly between those halfway to the neighbours *)
Definition placed (M e : Z) : Prop := (0 < M < 2 ^ 24)%Z /\ (-149 <= e <= 104)%Z /\ ((2 ^ 23 <= M)%Z \/ e = (-149)%Z).

Lemma strict_float M e y : placed M e ->
  IZR (spot_low (M, e)) * p2 (e - 2) < y < IZR (4 * M + 2) * p2 (e - 2) -> rnd32 y = IZR M * p2 e.
Proof.
  intros (HM & He & Hn) W. set (x := IZR M * p2 e). set (fx := FLT_exp (emin prec32 emax32) prec32).
  assert (V : Valid_exp fx) by (apply FLT_exp_valid; reflexivity).
  assert (X0 : 0 < x) by (apply Rmult_lt_0_compat; [apply IZR_lt; lia|apply p2_pos]).
  assert (Mu : (mag radix2 x <= e + 24)%Z).
  { apply mag_le_bpow; [lra|]. rewrite Rabs_pos_eq by lra. unfold x. rewrite Z.add_comm, bpow_plus. apply Rmult_lt_compat_r; [apply p2_pos|].
    rewrite <- (p2_Z 24) by lia. apply IZR_lt. lia. }
  assert (Ml : (2 ^ 23 <= M)%Z -> mag radix2 x = (e + 24)%Z :> Z) by (intros L; apply mag_float; lia).
  assert (Cx : cexp radix2 fx x = e).
  { unfold cexp, fx, FLT_exp, emin, prec32, emax32. destruct Hn as [Hn|Hn]; [rewrite (Ml Hn)|]; lia. }
  assert (Fx : generic_format radix2 fx x).
  { apply (generic_format_F2R radix2 fx M e). intros _. change (F2R (Float radix2 M e)) with x. rewrite Cx. lia. }
  assert (S4 : p2 e = 4 * p2 (e - 2)) by (replace e with (2 + (e - 2))%Z at 1 by lia; now rewrite bpow_plus).
  assert (S2 : p2 (e - 1) = 2 * p2 (e - 2)) by (replace (e - 1)%Z with (1 + (e - 2))%Z at 1 by lia; now rewrite bpow_plus).
  set (u := p2 (e - 2)) in *. assert (U : 0 < u) by apply p2_pos.
  assert (Hi : IZR (4 * M + 2) * u = x + 2 * u) by (unfold x; rewrite plus_IZR, mult_IZR, S4; ring).
  assert (Sx : succ radix2 fx x = x + 4 * u).
  { rewrite succ_eq_pos by lra. rewrite ulp_neq_0 by lra. now rewrite Cx, S4. }
  assert (Px : exists g, IZR (spot_low (M, e)) * u = x - g /\ x - 2 * g <= x /\ pred radix2 fx x <= x - 2 * g /\ 0 < g).
  { unfold spot_low. rewrite pred_eq_pos by lra. unfold pred_pos. destruct ((M =? 2 ^ 23)%Z && (-149 <? e)%Z) eqn:E.
    - apply andb_prop in E as [E E']. apply Z.eqb_eq in E. apply Z.ltb_lt in E'. exists u. assert (EM : IZR M = 8388608) by (rewrite E; reflexivity).
      rewrite Ml by lia. replace (e + 24 - 1)%Z with (23 + e)%Z by lia. rewrite bpow_plus. change (p2 23) with 8388608. repeat split; try lra.
      + unfold x. rewrite minus_IZR, mult_IZR, S4. ring.
      + rewrite Req_bool_true by (unfold x; rewrite EM; reflexivity).
        assert (EE : fx (23 + e)%Z = (e - 1)%Z) by (unfold fx, FLT_exp, emin, prec32, emax32; lia).
        rewrite EE, S2. lra.
    - exists (2 * u). repeat split; try lra.
      + unfold x. rewrite minus_IZR, mult_IZR, S4. ring.
      + case Req_bool_spec; intros EX; [|rewrite ulp_neq_0, Cx, S4 by lra; lra].
        assert (EE : fx (mag radix2 x - 1)%Z = e); [|rewrite EE, S4; lra].
        unfold fx, FLT_exp, emin, prec32, emax32. destruct (Z.eq_dec e (-149)) as [->|Ne]; [lia|]. exfalso.
        assert (L : (2 ^ 23 <= M)%Z) by lia. rewrite Ml in EX by exact L. replace (e + 24 - 1)%Z with (23 + e)%Z in EX by lia.
        rewrite bpow_plus in EX. unfold x in EX. apply Rmult_eq_reg_r in EX; [|pose proof (p2_pos e); lra].
        rewrite <- (p2_Z 23) in EX by lia. apply eq_IZR in EX. lia. }
  destruct Px as (g & Lo & _ & Px & G). rewrite Lo, Hi in W.
  change (rnd32 y) with (round radix2 fx ZnearestE y). apply Rle_antisym.
  - apply round_N_le_midp; auto. rewrite Sx. lra.
  - apply round_N_ge_midp; auto. lra.
Qed.

(** ** The number computed *)
Notation ulp64 := (p2 (-53)).
Definition er : R := / 4503599627370495.
Lemma rnd_rel d : p2 (-1022) <= d -> d * (1 - ulp64) <= rnd64 d <= d * (1 + ulp64).
Proof.
  intros H. pose proof (p2_pos (-1022)). assert (A : Rabs d = d) by (apply Rabs_pos_eq; lra).
  pose proof (rnd64_err d) as E. rewrite A in E. specialize (E H). apply Rabs_le_inv in E. lra.
Qed.
Lemma p10_bound k : (-60 <= k <= 60)%Z -> p2 (-210) <= p10 k <= p2 210.
Proof.
  intros K. split.
  - apply Rle_trans with (p10 (-60)); [|apply bpow_le; lia]. rewrite (bpow_opp radix2 210 : p2 (-210) = _), (bpow_opp radix10 60 : p10 (-60) = _). apply Rinv_le; [apply p10_pos|].
    rewrite <- p10_Z, <- p2_Z by lia. apply IZR_le. now apply Z.leb_le.
  - apply Rle_trans with (p10 60); [apply bpow_le; lia|]. rewrite <- p10_Z, <- p2_Z by lia. apply IZR_le. now apply Z.leb_le.
Qed.
Lemma pow_rep k : (0 <= k <= 60)%Z -> exists q, rep64 (pow10 k) q /\ p10 k * (1 - ulp64) <= q <= p10 k * (1 + ulp64).
Proof.
  intros K. exists (rnd64 (p10 k)). pose proof (p10_bound k ltac:(lia)) as B.
  assert (L : 1 <= p10 k) by (change 1 with (p10 0); apply bpow_le; lia).
  assert (R : p10 k * (1 - ulp64) <= rnd64 (p10 k) <= p10 k * (1 + ulp64)).
  { apply rnd_rel. apply Rle_trans with 1; [|exact L]. change 1 with (p2 0). apply bpow_le. lia. }
  split; [|exact R]. unfold pow10, int_to_f64. pose proof (rep_normalize prec64 emax64 _ _ (10 ^ k) 0 false) as N.
  assert (E : F2R (Float radix2 (10 ^ k) 0) = p10 k) by (unfold F2R; cbn [Fnum Fexp]; rewrite p10_Z by lia; change (p2 0) with 1; ring).
  rewrite E in N. apply N. assert (p2 210 < p2 211) by (apply bpow_lt; lia). assert (p2 211 < p2 1024) by (apply bpow_lt; lia).
  assert (p2 211 = 2 * p2 210) by (change 211%Z with (1 + 210)%Z; rewrite bpow_plus; reflexivity). rewrite p2_53 in R.
  change (bpow radix2 emax64) with (p2 1024). apply Rabs_def1; lra.
Qed.

Lemma parts_near m k : (0 < m < 2 ^ 53)%Z -> (-60 <= k <= 60)%Z ->
  exists f y, f64_parts 10 (int_to_f64 m) k = Some f /\ rep64 f y /\ Rabs (y - IZR m * p10 k) <= er * (IZR m * p10 k).
Proof.
  intros M K. assert (F : rep64 (int_to_f64 m) (IZR m)).
  { unfold int_to_f64. apply rep_int; [reflexivity|reflexivity| |vm_compute; discriminate]. change prec64 with 53%Z. lia. }
  assert (M1 : 1 <= IZR m <= 9007199254740992) by (split; apply IZR_le; lia).
  assert (X : forall f, rep64 f (IZR m) -> f64_parts 10 f k =
    if (0 <=? k)%Z then match mul64 f (pow10 k) with S754_infinity _ => None | g => Some g end else Some (div64 f (pow10 (- k)))).
  { intros f (V & Fi & R). destruct f as [s|s| |s p e]; try discriminate; [exfalso; cbn in R; lra|]. apply parts_finite. lia. }
  set (i := int_to_f64 m) in *. clearbody i. rewrite (X _ F). clear X.
  pose proof (p10_bound k ltac:(lia)) as B. pose proof (p10_pos k) as P. set (D := IZR m * p10 k).
  assert (D0 : 0 < D) by (apply Rmult_lt_0_compat; lra).
  assert (DB : p2 (-210) <= D <= p2 270).
  { unfold D. split; [nra|]. apply Rle_trans with (p2 53 * p2 210); [|rewrite <- bpow_plus; apply bpow_le; lia].
    apply Rmult_le_compat; try lra. change (p2 53) with 9007199254740992. lra. }
  assert (Small : p2 (-1022) <= p2 (-211)) by (apply bpow_le; lia). assert (Half : p2 (-210) = 2 * p2 (-211)) by (change (-210)%Z with (1 + -211)%Z; now rewrite bpow_plus).
  assert (Big : p2 272 <= p2 1024) by (apply bpow_le; lia). assert (Four : p2 272 = 4 * p2 270) by (change 272%Z with (2 + 270)%Z; now rewrite bpow_plus).
  pose proof (p2_pos (-211)) as P211. pose proof (p2_pos 270) as P270.
  assert (Done : forall q, D * (1 - ulp64) <= q * (1 + ulp64) -> q * (1 - ulp64) <= D * (1 + ulp64) \/ q * (1 - ulp64) <= D ->
     D * (1 - ulp64) <= q \/ D <= q * (1 + ulp64) ->
     q <= D * (1 + ulp64) \/ q * (1 - ulp64) <= D ->
     Rabs (rnd64 q) < p2 1024 /\ Rabs (rnd64 q - D) <= er * D).
  { intros q H1 H2 H3 H4. rewrite p2_53 in *. unfold er. assert (Q1 : / 2 * D <= q <= 2 * D) by lra.
    pose proof (rnd_rel q ltac:(lra)) as R. rewrite p2_53 in R. split; [apply Rabs_def1; lra|]. apply Rabs_le. destruct H3, H4; lra. }
  destruct (0 <=? k)%Z eqn:Ks.
  - destruct (pow_rep k ltac:(lia)) as (q & Rq & Bq).
    assert (G : Rabs (rnd64 (IZR m * q)) < p2 1024 /\ Rabs (rnd64 (IZR m * q) - D) <= er * D).
    { assert (D * (1 - ulp64) <= IZR m * q <= D * (1 + ulp64)).
      { unfold D. rewrite !Rmult_assoc. split; apply Rmult_le_compat_l; lra. }
      rewrite p2_53 in *. apply Done; [lra|left; lra|left; lra|left; lra]. }
    destruct G as [G1 G2]. pose proof (rep_mul prec64 emax64 eq_refl eq_refl _ _ _ _ F Rq G1) as R.
    exists (mul64 i (pow10 k)), (rnd64 (IZR m * q)). split; [|split; [exact R|exact G2]]. destruct R as (_ & Fi & _). unfold mul64.
    destruct (SFmul prec64 emax64 i (pow10 k)); try discriminate; reflexivity.
  - destruct (pow_rep (- k) ltac:(lia)) as (q & Rq & Bq). pose proof (p10_pos (- k)) as Pk.
    assert (q0 : 0 < q) by (rewrite p2_53 in Bq; lra).
    assert (DE : D * p10 (- k) = IZR m).
    { unfold D. rewrite Rmult_assoc, <- bpow_plus. replace (k + - k)%Z with 0%Z by lia. change (p10 0) with 1. ring. }
    assert (G : Rabs (rnd64 (IZR m / q)) < p2 1024 /\ Rabs (rnd64 (IZR m / q) - D) <= er * D).
    { assert (Q : D <= IZR m / q * (1 + ulp64) /\ IZR m / q * (1 - ulp64) <= D).
      { split; apply Rmult_le_reg_r with (1 := q0); replace (IZR m / q * (1 + ulp64) * q) with (IZR m * (1 + ulp64)) by (field; lra);
          replace (IZR m / q * (1 - ulp64) * q) with (IZR m * (1 - ulp64)) by (field; lra); rewrite <- DE, Rmult_assoc; apply Rmult_le_compat_l; lra. }
      rewrite p2_53 in *. apply Done; [lra|right; lra|right; lra|right; lra]. }
    destruct G as [G1 G2]. exists (div64 i (pow10 (- k))), (rnd64 (IZR m / q)). split; [reflexivity|]. split; [|exact G2].
    apply rep_div; auto; [reflexivity|reflexivity|lra].
Qed.

(** ** Numbers that are close to one halfway *)
Lemma num_R f k : IZR (num f k) = p2 f * scale f k.
Proof. pose proof (scaled_n f k 1) as H. rewrite Z.mul_1_l in H. unfold num. rewrite H. ring. Qed.
Lemma den_R f k : IZR (den f k) = p10 k * scale f k.
Proof. pose proof (scaled_d f k 1) as H. rewrite Z.mul_1_l in H. unfold den. rewrite H. ring. Qed.

Lemma near_pair f k m c : (-150 <= f <= 103)%Z -> (-46 <= k <= 39)%Z -> ~ (-12 <= k <= 9)%Z -> (0 < m)%Z -> (0 < c < 2 ^ 25)%Z ->
  p2 f < p10 (k + 1) -> Rabs (IZR m * p10 k - IZR c * p2 f) <= er * (IZR m * p10 k) -> pair_ok f k m c = true.
Proof.
  intros F K NK M C W N. apply Rabs_le_inv in N. set (D := IZR m * p10 k) in *. set (L := IZR c * p2 f) in *. unfold er in N.
  pose proof (scale_pos f k) as S. assert (M1 : 1 <= IZR m) by (apply IZR_le; lia). pose proof (p10_pos k) as P. pose proof (p2_pos f) as P2.
  assert (D0 : 0 < D) by (apply Rmult_lt_0_compat; lra).
  assert (E0 : IZR eps = 4503599627370496) by reflexivity.
  apply close_ok; auto.
  - unfold window. apply andb_true_intro. split; apply Z.ltb_lt, lt_IZR.
    + rewrite num_R, den_R. apply Rmult_lt_compat_r; [apply scale_pos|exact W].
    + rewrite mult_IZR, num_R, den_R. change (IZR (2 ^ 26)) with 67108864. rewrite <- Rmult_assoc. apply Rmult_lt_compat_r; [exact S|].
      assert (IZR c < 33554432) by (apply IZR_lt; lia). assert (p10 k <= D) by (unfold D; nra). assert (L < 33554432 * p2 f) by (unfold L; apply Rmult_lt_compat_r; lra). lra.
  - apply le_IZR. rewrite !mult_IZR, minus_IZR, num_R, den_R, E0.
    replace (p2 f * scale f k * (4503599627370496 - 1) * IZR c) with (L * 4503599627370495 * scale f k) by (unfold L; ring).
    replace (IZR m * (p10 k * scale f k * 4503599627370496)) with (D * 4503599627370496 * scale f k) by (unfold D; ring).
    apply Rmult_le_compat_r; lra.
  - apply le_IZR. rewrite !mult_IZR, !minus_IZR, num_R, den_R, E0.
    replace (p2 f * scale f k * (4503599627370496 - 1) * IZR c) with (L * 4503599627370495 * scale f k) by (unfold L; ring).
    replace (IZR m * (p10 k * scale f k * (4503599627370496 - 2))) with (D * 4503599627370494 * scale f k) by (unfold D; ring).
    apply Rmult_le_compat_r; lra.
Qed.

(** ** All finite floats *)
Section Float.
Variable n : Z.
Hypothesis (B : (0 <= n < 2 ^ 32)%Z) (Fin : (0 < n mod 2 ^ 31 < 255 * 2 ^ 23)%Z).
Notation a := (n mod 2 ^ 31)%Z.
Notation sign := (2 ^ 31 <=? n)%Z.

Lemma signed : n = (if sign then a + 2 ^ 31 else a)%Z.
Proof.
  destruct (2 ^ 31 <=? n)%Z eqn:S; [apply Z.leb_le in S|apply Z.leb_gt in S].
  - rewrite <- (Z.mod_unique n (2 ^ 31) 1 (n - 2 ^ 31)); lia.
  - rewrite Z.mod_small; lia.
Qed.
Lemma fields : ((n / 2 ^ 23) mod 2 ^ 8 = (a / 2 ^ 23) mod 2 ^ 8 /\ n mod 2 ^ 23 = a mod 2 ^ 23)%Z.
Proof.
  rewrite signed at 1 3. destruct (2 ^ 31 <=? n)%Z; auto. replace (a + 2 ^ 31)%Z with (a + 2 ^ 8 * 2 ^ 23)%Z by lia.
  rewrite Z.div_add by lia. rewrite Z_mod_plus_full. split; auto. rewrite <- (Z.mul_1_l (2 ^ 8)) at 1. apply Z_mod_plus_full.
Qed.

Definition M : Z := fst (spot a).
Definition e : Z := snd (spot a).
Lemma spot_n : spot n = (M, e).
Proof. unfold M, e. rewrite <- surjective_pairing. unfold spot. destruct fields as [-> ->]. reflexivity. Qed.
Lemma spot_facts : placed M e /\ a = ((e + 149) * 2 ^ 23 + M)%Z /\ (spot a = (M, e)) /\
  (((n / 2 ^ 23) mod 2 ^ 8 = 0 /\ e = -149 /\ M = n mod 2 ^ 23)%Z \/
   ((n / 2 ^ 23) mod 2 ^ 8 <> 0 /\ e = (n / 2 ^ 23) mod 2 ^ 8 - 150 /\ M = n mod 2 ^ 23 + 2 ^ 23 /\ (n / 2 ^ 23) mod 2 ^ 8 <> 255)%Z).
Proof.
  destruct fields as [F1 F2]. unfold M, e, placed, spot. rewrite F1, F2.
  assert (S : ((a / 2 ^ 23) mod 2 ^ 8 = a / 2 ^ 23)%Z).
  { apply Z.mod_small. split; [apply Z.div_pos; lia|]. apply Z.div_lt_upper_bound; lia. }
  rewrite S. pose proof (Z.div_mod a (2 ^ 23)) as D. pose proof (Z.mod_pos_bound a (2 ^ 23) eq_refl) as R.
  assert (Q : (a / 2 ^ 23 < 255)%Z) by (apply Z.div_lt_upper_bound; lia). assert (Q0 : (0 <= a / 2 ^ 23)%Z) by (apply Z.div_pos; lia).
  set (q := (a / 2 ^ 23)%Z) in *. set (r := (a mod 2 ^ 23)%Z) in *. clearbody q r.
  destruct (Z.eqb_spec q 0) as [E|E]; cbn [fst snd]; repeat split; try lia; auto.
Qed.

Lemma rep_spot : rep32 (f32_of n) ((if sign then Ropp else fun x => x) (IZR M * p2 e)) /\ bits_of_f32 (f32_of n) = n.
Proof.
  pose proof (f32_of_valid n B) as V. destruct spot_facts as ((HM & He & _) & Ea & _ & C). pose proof signed as Sg.
  assert (X : exists p, f32_of n = S754_finite sign p e /\ Z.pos p = M).
  { unfold f32_of. destruct C as [(C1 & C2 & C3)|(C1 & C2 & C3 & C4)].
    - rewrite C1. cbn [Z.eqb]. rewrite <- C3, C2. destruct M as [|p|p]; try lia. exists p. auto.
    - destruct (Z.eqb_spec ((n / 2 ^ 23) mod 2 ^ 8) 0); [lia|]. destruct (Z.eqb_spec ((n / 2 ^ 23) mod 2 ^ 8) 255); [lia|].
      rewrite <- C3, <- C2. destruct M as [|p|p]; try lia. exists p. auto. }
  destruct X as (p & X & P). rewrite X in *. split.
  - split; [exact V|]. split; [reflexivity|]. cbn [SF2R]. rewrite P. unfold F2R. cbn [Fnum Fexp].
    destruct (2 ^ 31 <=? n)%Z; cbn [cond_Zopp]; [rewrite opp_IZR; ring|reflexivity].
  - unfold bits_of_f32. rewrite P. destruct (Z.ltb_spec M (2 ^ 23)).
    + assert (e = -149)%Z by (clear - C H B Fin; destruct C as [C|C]; [lia|]; pose proof (Z.mod_pos_bound n (2 ^ 23) eq_refl); lia).
      destruct (2 ^ 31 <=? n)%Z; lia.
    + destruct (2 ^ 31 <=? n)%Z; lia.
Qed.

Lemma shortest_facts m k : shortest n = (m, k) ->
  spot_at (M, e) k = Some m /\ (IZR (spot_low (M, e)) * p2 (e - 2) <= IZR m * p10 k <= IZR (4 * M + 2) * p2 (e - 2)) /\
  (0 < m <= 2 ^ 29)%Z /\ (-46 <= k <= 38)%Z /\ p2 (e - 1) < p10 (k + 1) /\ IZR m * p10 k <= p2 (e + 24).
Proof.
  intros H. destruct spot_facts as ((HM & He & Hn) & _).
  assert (HS : shortest n = shortest_from 100 (Z.even M) (spot_low (M, e)) (4 * M) (4 * M + 2) (e - 2) 39).
  { unfold shortest. pose proof spot_n as SN. unfold spot in SN. cbv zeta in *. rewrite SN. reflexivity. }
  rewrite HS in H. clear HS.
  assert (LM : (4 * M - 2 <= spot_low (M, e) <= 4 * M - 1)%Z) by (unfold spot_low; destruct (_ && _); lia).
  assert (X : forall k', p10 k' <= p2 (e - 2 + 1) -> shortest_at (Z.even M) (spot_low (M, e)) (4 * M) (4 * M + 2) (e - 2) k' <> None).
  { intros k' P. apply at_exists; auto; try lia. unfold spot_low. destruct (M =? 2 ^ 23)%Z eqn:E2.
    - left. apply Z.eqb_eq in E2. rewrite E2. reflexivity.
    - right. cbn [andb]. lia. }
  destruct (from_spec _ _ _ _ _ _ _ _ _ (-46)%Z H) as (A & K1 & N); [lia|apply X, p10_small; lia|].
  split; [exact A|]. apply at_some in A.
  assert (L0 : 0 < IZR (spot_low (M, e)) * p2 (e - 2)) by (apply Rmult_lt_0_compat; [apply IZR_lt; lia|apply p2_pos]).
  assert (A' : IZR (spot_low (M, e)) * p2 (e - 2) <= IZR m * p10 k <= IZR (4 * M + 2) * p2 (e - 2)) by (unfold within in A; destruct (negb _); lra).
  split; [exact A'|].
  assert (U : IZR (4 * M + 2) * p2 (e - 2) <= p2 (e + 24)).
  { replace (e + 24)%Z with (26 + (e - 2))%Z by lia. rewrite bpow_plus. apply Rmult_le_compat_r; [apply bpow_ge_0|].
    rewrite <- (p2_Z 26) by lia. apply IZR_le. lia. }
  assert (m0 : (0 < m)%Z).
  { apply lt_IZR. apply Rmult_lt_reg_r with (p10 k); [apply p10_pos|]. rewrite Rmult_0_l. lra. }
  assert (k38 : (k <= 38)%Z).
  { destruct (Z_lt_le_dec 38 k) as [G|G]; auto. exfalso. assert (p2 (e + 24) <= p2 128) by (apply bpow_le; lia).
    assert (Big : p2 128 < p10 39) by (rewrite <- p10_Z, <- p2_Z by lia; apply IZR_lt; reflexivity).
    assert (p10 39 <= p10 k) by (apply bpow_le; lia). assert (1 <= IZR m) by (apply IZR_le; lia). pose proof (p10_pos k). nra. }
  assert (P : p2 (e - 2 + 1) < p10 (k + 1)).
  { apply Rnot_le_lt. intros P. apply (X (k + 1)%Z P). apply N. lia. }
  replace (e - 2 + 1)%Z with (e - 1)%Z in P by lia. split; [|split; [lia|split; [exact P|lra]]]. split; [exact m0|].
  rewrite (bpow_plus radix10) in P. change (p10 1) with 10 in P.
  assert (U' : p2 (e + 24) = 33554432 * p2 (e - 1)) by (replace (e + 24)%Z with (25 + (e - 1))%Z by lia; now rewrite bpow_plus).
  apply le_IZR. change (IZR (2 ^ 29)) with 536870912. apply Rmult_le_reg_r with (p10 k); [apply p10_pos|]. pose proof (p10_pos k). lra.
Qed.

(** The computed number, when it is rounded to the float *)
Lemma value_from sig exp f y : f64_parts 10 (int_to_f64 sig) exp = Some f -> rep64 f y -> rnd32 y = IZR M * p2 e ->
  float_value sign sig exp = Some (JFloat n).
Proof.
  intros Ef Rf R32. destruct spot_facts as ((HM & He & _) & _). destruct rep_spot as [Rn Bn]. set (x := IZR M * p2 e) in *.
  assert (x0 : 0 < x < p2 128).
  { unfold x. split; [apply Rmult_lt_0_compat; [apply IZR_lt; lia|apply p2_pos]|].
    apply Rlt_le_trans with (p2 24 * p2 e); [apply Rmult_lt_compat_r; [apply p2_pos|rewrite <- (p2_Z 24) by lia; apply IZR_lt; lia]|].
    rewrite <- bpow_plus. apply bpow_le. lia. }
  unfold float_value. rewrite Ef. do 2 f_equal. rewrite <- Bn at 2. f_equal. change (convert prec32 emax32) with f64_to_f32.
  destruct (2 ^ 31 <=? n)%Z.
  - apply (rep_unique _ _ (- x)); [|exact Rn|lra]. rewrite <- R32. unfold rnd at 1. rewrite <- round_NE_opp. apply rep_narrow.
    + apply rep_opp. exact Rf.
    + unfold rnd at 1. rewrite round_NE_opp. fold (rnd32 y). rewrite R32, Rabs_Ropp, Rabs_pos_eq; lra.
  - apply (rep_unique _ _ x); [|exact Rn|lra]. rewrite <- R32. apply rep_narrow; [exact Rf|]. rewrite R32, Rabs_pos_eq; lra.
Qed.

(** The number is away from those halfway, or the float has been checked. *)
Lemma apart_or_checked m k : shortest n = (m, k) -> ~ (-12 <= k <= 9)%Z ->
  (er * (IZR m * p10 k) < Rabs (IZR m * p10 k - IZR (spot_low (M, e)) * p2 (e - 2)) /\
   er * (IZR m * p10 k) < Rabs (IZR m * p10 k - IZR (4 * M + 2) * p2 (e - 2))) \/ read_back a m k = true.
Proof.
  intros H NK. destruct (shortest_facts m k H) as (_ & _ & Hm & Hk & Hw & _). destruct spot_facts as ((HM & He & Hn) & Ea & _ & _).
  assert (Up : IZR (4 * M + 2) * p2 (e - 2) = IZR (2 * M + 1) * p2 (e - 1)).
  { replace (e - 1)%Z with (1 + (e - 2))%Z by lia. rewrite (bpow_plus radix2 1). change (p2 1) with 2. rewrite !plus_IZR, !mult_IZR. ring. }
  assert (Half : forall z, (0 <= z)%Z -> ((2 * z + 1 - 1) / 2 = z)%Z) by (intros z _; replace (2 * z + 1 - 1)%Z with (z * 2)%Z by ring; apply Z.div_mul; lia).
  destruct (Rlt_le_dec (er * (IZR m * p10 k)) (Rabs (IZR m * p10 k - IZR (4 * M + 2) * p2 (e - 2)))) as [N2|N2].
  - destruct (Rlt_le_dec (er * (IZR m * p10 k)) (Rabs (IZR m * p10 k - IZR (spot_low (M, e)) * p2 (e - 2)))) as [N1|N1]; [left; auto|right].
    unfold spot_low in N1. destruct ((M =? 2 ^ 23)%Z && (-149 <? e)%Z) eqn:E.
    + apply andb_prop in E as [E1 E2]. apply Z.eqb_eq in E1. apply Z.ltb_lt in E2.
      assert (P : pair_ok (e - 2) k m (4 * M - 1) = true).
      { apply near_pair; auto; try lia. apply Rlt_trans with (2 := Hw). apply bpow_lt. lia. }
      unfold pair_ok in P. replace (Z.odd (4 * M - 1)) with true in P by (rewrite E1; reflexivity).
      replace (2 ^ 24 <=? 4 * M - 1)%Z with true in P by lia. rewrite orb_true_r in P. cbn [negb orb] in P. apply andb_prop in P as [_ P].
      replace (before (e - 2) (4 * M - 1) + 1)%Z with a in P; [exact P|]. unfold before.
      replace (4 * M - 1)%Z with (2 * (2 * M - 1) + 1)%Z by ring. rewrite Half by lia. lia.
    + assert (Lo : IZR (4 * M - 2) * p2 (e - 2) = IZR (2 * M - 1) * p2 (e - 1)).
      { replace (e - 1)%Z with (1 + (e - 2))%Z by lia. rewrite (bpow_plus radix2 1). change (p2 1) with 2. rewrite !minus_IZR, !mult_IZR. ring. }
      rewrite Lo in N1. assert (P : pair_ok (e - 1) k m (2 * M - 1) = true) by (apply near_pair; auto; lia).
      unfold pair_ok in P. replace (2 * M - 1)%Z with (2 * (M - 1) + 1)%Z in P by ring. rewrite Z.odd_add_mul_2, (Z.mul_comm 2) in P || rewrite Z.odd_add, Z.odd_mul in P.
      cbn [Z.odd andb xorb negb orb] in P.
      replace ((e - 1 =? -150)%Z || (2 ^ 24 <=? 2 * (M - 1) + 1)%Z) with true in P by lia. cbn [negb] in P. apply andb_prop in P as [_ P].
      replace (before (e - 1) (2 * (M - 1) + 1) + 1)%Z with a in P; [exact P|]. unfold before. rewrite Half by lia. lia.
  - right. rewrite Up in N2. assert (P : pair_ok (e - 1) k m (2 * M + 1) = true) by (apply near_pair; auto; lia).
    unfold pair_ok in P. rewrite Z.odd_add, Z.odd_mul in P. cbn [Z.odd andb xorb negb orb] in P.
    replace ((e - 1 =? -150)%Z || (2 ^ 24 <=? 2 * M + 1)%Z) with true in P by lia. cbn [negb] in P. apply andb_prop in P as [P _].
    replace (before (e - 1) (2 * M + 1))%Z with a in P; [exact P|]. unfold before. rewrite Half by lia. lia.
Qed.

Lemma is_float_iff j z : is_float j z = true -> j = Some (JFloat z).
Proof. destruct j as [[]|]; try discriminate. cbn [is_float]. intros I. apply Z.eqb_eq in I. now subst. Qed.
Lemma guarded (b1 b2 b3 x : bool) : b1 = false -> b2 = false -> b3 = true -> (if b1 || b2 || negb b3 then true else x) = true -> x = true.
Proof. now intros -> -> ->. Qed.
Lemma read_back_both m k s : spot_at (spot a) k = Some m -> read_back a m k = true ->
  (is_float (float_value s m k) (if s then a + 2 ^ 31 else a) &&
   (if k <? 0 then true else is_float (float_value s (m * 10 ^ (k + 1)) (-1)) (if s then a + 2 ^ 31 else a)))%Z = true.
Proof.
  intros A H. unfold read_back in H. apply guarded in H; [|lia|lia|rewrite A; apply Z.eqb_refl].
  rewrite forallb_forall in H. apply (H s). destruct s; cbn [In]; auto.
Qed.
Lemma read_back_value m k : spot_at (spot a) k = Some m -> read_back a m k = true ->
  float_value sign m k = Some (JFloat n) /\ ((0 <= k)%Z -> float_value sign (m * 10 ^ (k + 1)) (-1) = Some (JFloat n)).
Proof.
  intros A H. pose proof (read_back_both m k sign A H) as X. rewrite <- signed in X. apply andb_prop in X as [X1 X2].
  split; [exact (is_float_iff _ _ X1)|]. intros K. assert (E : (k <? 0)%Z = false) by lia. rewrite E in X2. exact (is_float_iff _ _ X2).
Qed.

Lemma kept_far m k : shortest n = (m, k) -> ~ (-12 <= k <= 9)%Z -> float_kept n.
Proof.
  intros H NK. destruct (shortest_facts m k H) as (At & LH & Hm & Hk & _ & HU). destruct spot_facts as (Pl & Ea & Sa & _).
  apply (kept_text n m k); auto; [lia| |].
  - destruct (apart_or_checked m k H NK) as [[N1 N2]|R]; [|apply (read_back_value m k); [rewrite Sa; exact At|exact R]].
    destruct (parts_near m k) as (f & y & Ef & Rf & Ey); [lia|lia|]. apply (value_from m k f y Ef Rf). apply strict_float; [exact Pl|].
    apply Rabs_le_inv in Ey. rewrite Rabs_pos_eq in N1 by lra. rewrite Rabs_left1 in N2 by lra. lra.
  - intros K0 L14. destruct (apart_or_checked m k H NK) as [[N1 N2]|R]; [|apply (read_back_value m k); [rewrite Sa; exact At|exact R|exact K0]].
    assert (DE : IZR (m * 10 ^ (k + 1)) * p10 (-1) = IZR m * p10 k) by (replace (-1)%Z with (k - (k + 1))%Z by lia; apply p10_shift; lia).
    assert (D1 : 1 <= IZR m * p10 k <= p2 128).
    { split; [|apply Rle_trans with (1 := HU); apply bpow_le; destruct Pl as (_ & Pl & _); lia].
      assert (1 <= IZR m) by (apply IZR_le; lia). assert (1 <= p10 k) by (change 1 with (p10 0); apply bpow_le; lia). nra. }
    set (D := IZR m * p10 k) in *. pose proof (rnd_rel D) as RR. specialize (RR ltac:(apply Rle_trans with 1; [change 1 with (p2 0); apply bpow_le; lia|lra])).
    destruct (parts_rep (m * 10 ^ (k + 1)) (-1) (rnd64 D)) as (f & Ef & Rf); [change (10 ^ 14)%Z with 100000000000000%Z in L14; lia|lia|now rewrite DE| |].
    { rewrite p2_53 in RR. assert (B2 : p2 129 < p2 1024) by (apply bpow_lt; lia). change 129%Z with (1 + 128)%Z in B2. rewrite bpow_plus in B2. change (p2 1) with 2 in B2. apply Rabs_def1; lra. }
    apply (value_from _ _ f (rnd64 D) Ef Rf). apply strict_float; [exact Pl|].
    rewrite Rabs_pos_eq in N1 by lra. rewrite Rabs_left1 in N2 by lra. rewrite p2_53 in RR. unfold er in *. lra.
Qed.

Lemma kept_number : float_kept n.
Proof.
  destruct (shortest n) as [m k] eqn:H. destruct (shortest_facts m k H) as (At & LH & Hm & Hk & _ & HU).
  destruct spot_facts as (Pl & Ea & Sa & C). assert (M1 : 1 <= IZR m) by (apply IZR_le; lia). pose proof (p10_pos k) as P0.
  destruct (Z_le_gt_dec (-12) k) as [K1|K1]; [destruct (Z_le_gt_dec k 9) as [K2|K2]|].
  - destruct C as [(C1 & C2 & C3)|(C1 & C2 & C3 & C4)].
    + exfalso. rewrite C2 in HU. change (-149 + 24)%Z with (-125)%Z in HU. assert (p2 (-125) < p2 (-40)) by (apply bpow_lt; lia).
      assert (p2 (-40) <= p10 (-12)) by (cbn; lra). assert (p10 (-12) <= p10 k) by (apply bpow_le; lia). nra.
    + assert (X : (1 <= exp_field n <= 254)%Z); [|apply (kept_normal n m k B X H); lia]. unfold exp_field. pose proof (Z.mod_pos_bound (n / 2 ^ 23) (2 ^ 8) eq_refl). lia.
  - apply (kept_far m k H); lia.
  - apply (kept_far m k H); lia.
Qed.
End Float.

Theorem kept_finite n : (0 <= n < 2 ^ 32)%Z -> (n mod 2 ^ 31 < 255 * 2 ^ 23)%Z -> float_kept n.
Proof.
  intros B F. destruct (Z.eq_dec (n mod 2 ^ 31) 0) as [Z0|N].
  - assert (n = 0 \/ n = 2 ^ 31)%Z as [->| ->] by (pose proof (Z.div_mod n (2 ^ 31)); lia); vm_compute; reflexivity.
  - pose proof (Z.mod_pos_bound n (2 ^ 31) eq_refl). apply kept_number; auto. lia.
Qed.
