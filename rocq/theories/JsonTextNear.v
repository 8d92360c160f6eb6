(** How close the floats read from texts of any length are to the decimals: proofs. *)
From Coq Require Import ZArith Reals SpecFloat Lia Lra ZifyBool.
From Flocq Require Import Core Relative BinarySingleNaN.
From Verif Require Import Bytes BytesFacts Float32 FloatFacts FlocqFacts QuantSpec QuantFacts RoundFacts Json JsonText JsonTextSpec
  JsonTextFacts JsonTextWrite JsonTextFloat JsonTextDecimal JsonTextKept JsonTextAll JsonTextNumber JsonTextLong.
From Coq Require Import List.
Import ListNotations.
Local Open Scope R_scope.

(** The f64 computed from a significand that is already rounded, as parts_near *)
Lemma parts_near_any i v k : rep64 i v -> 1 <= v <= p2 65 -> (-60 <= k <= 60)%Z ->
  exists f y, f64_parts 10 i k = Some f /\ rep64 f y /\ Rabs (y - v * p10 k) <= er * (v * p10 k).
Proof.
  intros F M1 K.
  assert (X : f64_parts 10 i k =
    if (0 <=? k)%Z then match mul64 i (pow10 k) with S754_infinity _ => None | g => Some g end else Some (div64 i (pow10 (- k)))).
  { destruct F as (V & Fi & R). destruct i as [s|s| |s p e]; try discriminate; [exfalso; cbn in R; lra|]. apply parts_finite. lia. }
  rewrite X. clear X.
  pose proof (p10_bound k ltac:(lia)) as B. pose proof (p10_pos k) as P. set (D := v * p10 k).
  assert (D0 : 0 < D) by (apply Rmult_lt_0_compat; lra).
  assert (DB : p2 (-210) <= D <= p2 275).
  { unfold D. split; [nra|]. rewrite (bpow_plus radix2 65 210 : p2 275 = _).
    apply Rmult_le_compat; lra. }
  assert (Small : p2 (-1022) <= p2 (-211)) by (apply bpow_le; lia). assert (Half : p2 (-210) = 2 * p2 (-211)) by (change (-210)%Z with (1 + -211)%Z; now rewrite bpow_plus).
  assert (Big : p2 277 <= p2 1024) by (apply bpow_le; lia). assert (Four : p2 277 = 4 * p2 275) by (change 277%Z with (2 + 275)%Z; now rewrite bpow_plus).
  pose proof (p2_pos (-211)) as P211. pose proof (p2_pos 275) as P275.
  assert (Done : forall q, D * (1 - ulp64) <= q * (1 + ulp64) -> q * (1 - ulp64) <= D * (1 + ulp64) \/ q * (1 - ulp64) <= D ->
     D * (1 - ulp64) <= q \/ D <= q * (1 + ulp64) ->
     q <= D * (1 + ulp64) \/ q * (1 - ulp64) <= D ->
     Rabs (rnd64 q) < p2 1024 /\ Rabs (rnd64 q - D) <= er * D).
  { intros q H1 H2 H3 H4. rewrite p2_53 in *. unfold er. assert (Q1 : / 2 * D <= q <= 2 * D) by lra.
    pose proof (rnd_rel q ltac:(lra)) as R. rewrite p2_53 in R. split; [apply Rabs_def1; lra|]. apply Rabs_le. destruct H3, H4; lra. }
  destruct (0 <=? k)%Z eqn:Ks.
  - destruct (pow_rep k ltac:(lia)) as (q & Rq & Bq).
    assert (G : Rabs (rnd64 (v * q)) < p2 1024 /\ Rabs (rnd64 (v * q) - D) <= er * D).
    { assert (D * (1 - ulp64) <= v * q <= D * (1 + ulp64)).
      { unfold D. rewrite !Rmult_assoc. split; apply Rmult_le_compat_l; lra. }
      rewrite p2_53 in *. apply Done; [lra|left; lra|left; lra|left; lra]. }
    destruct G as [G1 G2]. pose proof (rep_mul prec64 emax64 eq_refl eq_refl _ _ _ _ F Rq G1) as R.
    exists (mul64 i (pow10 k)), (rnd64 (v * q)). split; [|split; [exact R|exact G2]]. destruct R as (_ & Fi & _). unfold mul64.
    destruct (SFmul prec64 emax64 i (pow10 k)); try discriminate; reflexivity.
  - destruct (pow_rep (- k) ltac:(lia)) as (q & Rq & Bq). pose proof (p10_pos (- k)) as Pk.
    assert (q0 : 0 < q) by (rewrite p2_53 in Bq; lra).
    assert (DE : D * p10 (- k) = v).
    { unfold D. rewrite Rmult_assoc, <- bpow_plus. replace (k + - k)%Z with 0%Z by lia. change (p10 0) with 1. ring. }
    assert (G : Rabs (rnd64 (v / q)) < p2 1024 /\ Rabs (rnd64 (v / q) - D) <= er * D).
    { assert (Q : D <= v / q * (1 + ulp64) /\ v / q * (1 - ulp64) <= D).
      { split; apply Rmult_le_reg_r with (1 := q0); replace (v / q * (1 + ulp64) * q) with (v * (1 + ulp64)) by (field; lra);
          replace (v / q * (1 - ulp64) * q) with (v * (1 - ulp64)) by (field; lra); rewrite <- DE, Rmult_assoc; apply Rmult_le_compat_l; lra. }
      rewrite p2_53 in *. apply Done; [lra|right; lra|right; lra|right; lra]. }
    destruct G as [G1 G2]. exists (div64 i (pow10 (- k))), (rnd64 (v / q)). split; [reflexivity|]. split; [|exact G2].
    apply rep_div; auto; [reflexivity|reflexivity|lra].
Qed.

Lemma sig_rep sig : (0 < sig < 2 ^ 64)%Z -> exists v, rep64 (int_to_f64 sig) v /\ 1 <= v <= p2 65 /\
  IZR sig * (1 - ulp64) <= v <= IZR sig * (1 + ulp64).
Proof.
  intros S. exists (rnd64 (IZR sig)). assert (B : 1 <= IZR sig <= p2 64).
  { rewrite <- p2_Z by lia. split; apply IZR_le; lia. }
  assert (L : p2 (-1022) <= 1) by (change 1 with (p2 0); apply bpow_le; lia).
  pose proof (rnd_rel (IZR sig) ltac:(lra)) as R.
  assert (T : p2 65 = 2 * p2 64) by (change 65%Z with (1 + 64)%Z; now rewrite bpow_plus).
  assert (H : p2 65 < p2 1024) by (apply bpow_lt; lia).
  assert (O : 1 <= rnd64 (IZR sig)).
  { rewrite <- (rnd_id prec64 emax64 1) at 1; [|exact (int_format prec64 emax64 1 ltac:(reflexivity) ltac:(vm_compute; discriminate))].
    unfold rnd. apply round_le; [typeclasses eauto..|]. lra. }
  assert (E : F2R (Float radix2 sig 0) = IZR sig) by (unfold F2R; cbn [Fnum Fexp]; change (p2 0) with 1; ring).
  assert (U : rnd64 (IZR sig) <= p2 65) by (rewrite p2_53 in R; lra).
  split; [|split; [split; assumption|exact R]].
  unfold int_to_f64. pose proof (rep_normalize prec64 emax64 _ _ sig 0 false) as N. rewrite E in N. apply N.
  change (bpow radix2 emax64) with (p2 1024). apply Rabs_def1; lra.
Qed.

(** A significand of 64 bits and an exponent that are close to [r] *)
Lemma value_close neg sig k r : (0 < sig < 2 ^ 64)%Z -> p2 (-125) <= r <= p2 127 ->
  0 <= r - IZR sig * p10 k <= r / 100000000000000000 ->
  exists n, float_value neg sig k = Some (JFloat n) /\ finite n = true /\
    Rabs (real n - (if neg then - r else r)) <= r / 16777215.
Proof.
  intros S B C. pose proof (p10_pos k) as Pk.
  assert (P : 0 < p2 (-126)) by apply p2_pos. assert (T : p2 (-125) = 2 * p2 (-126)) by (change (-125)%Z with (1 + -126)%Z; now rewrite bpow_plus).
  assert (U : p2 128 = 2 * p2 127) by (change 128%Z with (1 + 127)%Z; now rewrite bpow_plus).
  assert (S1 : 1 <= IZR sig) by (apply IZR_le; lia).
  assert (S2 : IZR sig <= p2 64) by (rewrite <- p2_Z by lia; apply IZR_le; lia).
  set (D := IZR sig * p10 k) in *.
  assert (K : (-60 <= k <= 60)%Z).
  { split.
    - apply Z.nlt_ge. intros L. assert (A : p10 k <= p10 (-61)) by (apply bpow_le; lia).
      assert (G : p10 (-61) <= p2 (-190)).
      { rewrite (bpow_opp radix2 190 : p2 (-190) = _), (bpow_opp radix10 61 : p10 (-61) = _). apply Rinv_le; [apply p2_pos|].
        rewrite <- p10_Z, <- p2_Z by lia. apply IZR_le. now apply Z.leb_le. }
      assert (D <= p2 64 * p2 (-190)) by (unfold D; apply Rmult_le_compat; lra).
      rewrite <- bpow_plus in H. change (64 + -190)%Z with (-126)%Z in H. lra.
    - apply Z.nlt_ge. intros L. assert (A : p10 61 <= p10 k) by (apply bpow_le; lia).
      assert (G : p2 128 <= p10 61) by (rewrite <- p10_Z, <- p2_Z by lia; apply IZR_le; now apply Z.leb_le).
      assert (p10 k <= D) by (unfold D; nra). lra. }
  destruct (sig_rep sig S) as (v & Rv & V1 & V2).
  destruct (parts_near_any _ v k Rv V1 K) as (f & y & Ef & Rf & Ey).
  assert (W : D * (1 - ulp64) <= v * p10 k <= D * (1 + ulp64)).
  { unfold D. split; [replace (IZR sig * p10 k * (1 - ulp64)) with (IZR sig * (1 - ulp64) * p10 k) by ring|
      replace (IZR sig * p10 k * (1 + ulp64)) with (IZR sig * (1 + ulp64) * p10 k) by ring]; apply Rmult_le_compat_r; lra. }
  set (w := v * p10 k) in *. clearbody w D. rewrite p2_53 in W. apply Rabs_le_inv in Ey. unfold er in Ey.
  assert (Y : Rabs y = y) by (apply Rabs_pos_eq; lra). pose proof (rnd32_err y) as E. rewrite Y in E. specialize (E ltac:(lra)). apply Rabs_le_inv in E.
  unfold float_value. rewrite Ef. change (convert prec32 emax32) with f64_to_f32.
  set (g := if neg then SFopp f else f). set (z := if neg then - y else y).
  assert (G : rep64 g z) by (unfold g, z; destruct neg; [now apply rep_opp|exact Rf]).
  assert (Z : rnd32 z = if neg then - rnd32 y else rnd32 y) by (unfold z; destruct neg; [unfold rnd; apply round_NE_opp|reflexivity]).
  assert (Q : Rabs (rnd32 y) < p2 128) by (apply Rabs_def1; lra).
  pose proof (rep_narrow g z G) as N. rewrite Z in N. specialize (N ltac:(destruct neg; [rewrite Rabs_Ropp|]; exact Q)).
  eexists. split; [reflexivity|]. apply bits32_finite in N; [|apply convert_range]. destruct N as [N1 N2]. split; [exact N1|]. rewrite N2.
  apply Rabs_le. destruct neg; lra.
Qed.

Theorem number_close neg ints fracs exp t : number neg ints fracs exp t ->
  fracs <> [] \/ exp <> None \/ ((if neg then 2 ^ 63 else 2 ^ 64 - 1) < digits_value ints)%Z ->
  let m := digits_value (ints ++ fracs) in
  let k := (match exp with Some x => x | None => 0 end - zlen fracs)%Z in
  let r := IZR m * powerRZ 10 k in
  powerRZ 2 (-125) <= r <= powerRZ 2 127 ->
  exists n, from_text t = Some (JFloat n) /\ finite n = true /\ Rabs (real n - (if neg then - r else r)) <= r / 16777215.
Proof.
  intros N X m k r B. destruct (number_parts neg ints fracs exp t N X) as (sig & s & S1 & S2 & S3 & S4 & S5 & V).
  fold m in S3, S4, S5. fold k in V.
  assert (R : r = IZR m * p10 k) by (unfold r; now rewrite bpow_powerRZ).
  assert (B' : p2 (-125) <= r <= p2 127) by (rewrite !bpow_powerRZ; exact B).
  pose proof (p10_pos k) as Pk. pose proof (p2_pos (-125)) as P2.
  assert (D : IZR sig * p10 (k + s) = IZR (sig * 10 ^ s) * p10 k).
  { rewrite bpow_plus, mult_IZR, (p10_Z s) by lia. ring. }
  assert (C : 0 <= r - IZR sig * p10 (k + s) <= r / 100000000000000000).
  { rewrite D, R. apply IZR_le in S4, S5. rewrite minus_IZR in S4. rewrite mult_IZR, minus_IZR in S5.
    change (IZR (10 ^ 17)) with 100000000000000000 in S5. set (a := IZR m) in *. set (b := IZR (sig * 10 ^ s)) in *. clearbody a b.
    replace (a * p10 k - b * p10 k) with ((a - b) * p10 k) by ring. split; [apply Rmult_le_pos; lra|].
    replace (a * p10 k / 100000000000000000) with (a / 100000000000000000 * p10 k) by field. apply Rmult_le_compat_r; lra. }
  assert (S0 : sig <> 0%Z).
  { intros ->. rewrite Rmult_0_l in C. lra. }
  destruct (value_close neg sig (k + s) r ltac:(unfold two64 in S1; lia) B' C) as (n & F1 & F2 & F3).
  exists n. split; [|split; [exact F2|exact F3]].
  apply from_text_iff. exists [], t, []. rewrite app_nil_r. repeat split; try constructor; [|cbn; lia].
  apply de_number with neg ints fracs exp; auto. rewrite V. exact F1.
Qed.
