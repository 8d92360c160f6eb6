(** Results of the rounding operations of [spec_float] fit their format. *)
From Coq Require Import Lia ZifyBool ZifyNat ZifyN.
From Verif Require Import Bytes Float32 VecData MeshSpec.
Ltac Zify.zify_post_hook ::= ZifyBool.elim_bool_cstr; Z.to_euclidean_division_equations.

Lemma digits2_upper p : Zpos p < 2 ^ Zpos (digits2_pos p).
Proof.
  induction p as [p IH|p IH|]; cbn [digits2_pos].
  - rewrite Pos2Z.inj_succ, Z.pow_succ_r by lia. lia.
  - rewrite Pos2Z.inj_succ, Z.pow_succ_r by lia. lia.
  - reflexivity.
Qed.

Lemma shr_1_m r : 0 <= shr_m r -> shr_m (shr_1 r) = shr_m r / 2.
Proof. destruct r as [[|p|p] a b]; cbn; try lia; destruct p; cbn; intros; try reflexivity; lia. Qed.

Lemma iter_shr_m n r : 0 <= shr_m r -> shr_m (SpecFloat.iter_pos shr_1 n r) = shr_m r / 2 ^ Zpos n.
Proof.
  revert r; induction n as [n IH|n IH|]; intros r Hr; cbn [SpecFloat.iter_pos].
  - assert (A : 0 <= shr_m (shr_1 r)) by (rewrite shr_1_m by lia; apply Z.div_pos; lia).
    rewrite IH, IH, shr_1_m by (try rewrite IH by lia; try apply Z.div_pos; lia).
    rewrite !Z.div_div by lia. f_equal.
    replace (Zpos n~1) with (1 + Zpos n + Zpos n) by lia. rewrite !Z.pow_add_r by lia. change (2 ^ 1) with 2. ring.
  - rewrite IH, IH by (try rewrite IH by lia; try apply Z.div_pos; lia).
    rewrite Z.div_div by lia. f_equal.
    replace (Zpos n~0) with (Zpos n + Zpos n) by lia. rewrite Z.pow_add_r by lia. reflexivity.
  - cbn. apply shr_1_m; lia.
Qed.

Lemma shr_record_m m l : shr_m (shr_record_of_loc m l) = m.
Proof. destruct l as [|[]]; reflexivity. Qed.

Lemma shr_fexp_bound prec emax m e r e' :
  0 < prec -> 0 <= m -> shr_fexp prec emax m e loc_Exact = (r, e') ->
  shr_m r < 2 ^ prec /\ 3 - emax - prec <= e' /\ 0 <= shr_m r.
Proof.
  intros Hp Hm. unfold shr_fexp, shr. set (f := fexp prec emax (Zdigits2 m + e)).
  assert (F1 : Zdigits2 m + e - prec <= f) by (unfold f, fexp; lia).
  assert (F2 : 3 - emax - prec <= f) by (unfold f, fexp, emin; lia).
  assert (D : m < 2 ^ Zdigits2 m).
  { destruct m as [|p|p]; cbn [Zdigits2]; [reflexivity|apply digits2_upper|lia]. }
  assert (D0 : 0 <= Zdigits2 m) by (destruct m; cbn [Zdigits2]; lia).
  clearbody f. destruct (f - e) as [|n|n] eqn:E; intros [= <- <-].
  - cbn [shr_record_of_loc shr_m]. repeat split; try lia.
    apply Z.lt_le_trans with (1 := D). apply Z.pow_le_mono_r; lia.
  - rewrite iter_shr_m by (cbn [shr_record_of_loc shr_m]; lia). cbn [shr_record_of_loc shr_m].
    repeat split; try lia; [|apply Z.div_pos; lia].
    apply Z.div_lt_upper_bound; [lia|]. rewrite <- Z.pow_add_r by lia.
    apply Z.lt_le_trans with (1 := D). apply Z.pow_le_mono_r; lia.
  - cbn [shr_record_of_loc shr_m]. repeat split; try lia.
    apply Z.lt_le_trans with (1 := D). apply Z.pow_le_mono_r; lia.
Qed.

Lemma round_nearest_even_nonneg m l : 0 <= m -> 0 <= round_nearest_even m l.
Proof. destruct l as [|[]]; cbn; try lia. destruct (Z.even m); lia. Qed.

Lemma shr_nonneg r e n : 0 <= shr_m r -> 0 <= shr_m (fst (shr r e n)).
Proof.
  destruct n; cbn; try lia. intros. rewrite iter_shr_m by lia. apply Z.div_pos; lia.
Qed.

(** Every finite result of a rounding has a mantissa of [prec] bits and an exponent in range. *)
Lemma binary_round_aux_bound prec emax sx mx ex lx s m e :
  0 < prec -> 0 <= mx -> binary_round_aux prec emax sx mx ex lx = S754_finite s m e ->
  Zpos m < 2 ^ prec /\ 3 - emax - prec <= e <= emax - prec.
Proof.
  intros Hp Hm. unfold binary_round_aux.
  destruct (shr_fexp prec emax mx ex lx) as [r1 e1] eqn:E1.
  assert (N1 : 0 <= shr_m r1).
  { replace r1 with (fst (shr_fexp prec emax mx ex lx)) by (rewrite E1; reflexivity).
    unfold shr_fexp. apply shr_nonneg. rewrite shr_record_m; lia. }
  destruct (shr_fexp prec emax _ e1 loc_Exact) as [r2 e2] eqn:E2.
  destruct (shr_fexp_bound _ _ _ _ _ _ Hp (round_nearest_even_nonneg _ _ N1) E2) as (B1 & B2 & B3).
  destruct (shr_m r2) as [|p|p]; [discriminate| |discriminate].
  destruct (Z.leb_spec e2 (emax - prec)); [|discriminate].
  intros [= <- <- <-]. lia.
Qed.

Lemma binary_normalize_bound prec emax n ex sz s m e :
  0 < prec -> binary_normalize prec emax n ex sz = S754_finite s m e ->
  Zpos m < 2 ^ prec /\ 3 - emax - prec <= e <= emax - prec.
Proof.
  intros Hp. unfold binary_normalize, binary_round. destruct n as [|p|p]; [discriminate| |];
    destruct (shl_align _ _ _) as [mz ez]; apply binary_round_aux_bound; lia.
Qed.

Lemma convert_bound prec emax f s m e :
  0 < prec -> convert prec emax f = S754_finite s m e ->
  Zpos m < 2 ^ prec /\ 3 - emax - prec <= e <= emax - prec.
Proof. intros Hp. destruct f; cbn [convert]; try discriminate. apply binary_normalize_bound; lia. Qed.

(** A half float is a u16. *)
Lemma bits16_bound f :
  (forall s m e, f = S754_finite s m e -> Zpos m < 2 ^ 11 /\ -24 <= e <= 5) -> 0 <= bits_of_f16 f < 2 ^ 16.
Proof.
  intros H. destruct f as [s|s| |s m e]; cbn [bits_of_f16]; try (destruct s); try lia.
  - destruct (H _ _ _ eq_refl). destruct (Z.ltb_spec (Zpos m) (2 ^ 10)); lia.
  - destruct (H _ _ _ eq_refl). destruct (Z.ltb_spec (Zpos m) (2 ^ 10)); lia.
Qed.
Lemma f16_from_f32_bound x : 0 <= f16_from_f32 x < 2 ^ 16.
Proof.
  apply bits16_bound. intros s m e E. apply convert_bound in E; [|reflexivity].
  unfold prec16, emax16 in E. lia.
Qed.

Lemma bits32_bound f :
  (forall s m e, f = S754_finite s m e -> Zpos m < 2 ^ 24 /\ -149 <= e <= 104) -> 0 <= bits_of_f32 f < 2 ^ 32.
Proof.
  intros H. destruct f as [s|s| |s m e]; cbn [bits_of_f32]; try (destruct s); try lia.
  - destruct (H _ _ _ eq_refl). destruct (Z.ltb_spec (Zpos m) (2 ^ 23)); lia.
  - destruct (H _ _ _ eq_refl). destruct (Z.ltb_spec (Zpos m) (2 ^ 23)); lia.
Qed.
Lemma f16_to_f32_bound x : 0 <= f16_to_f32 x < 2 ^ 32.
Proof.
  apply bits32_bound. intros s m e E. apply convert_bound in E; [|reflexivity].
  unfold prec32, emax32 in E. lia.
Qed.

Lemma round_u8_bound f : 0 <= round_u8 f < 256.
Proof.
  destruct f as [s|s| |[] m e]; cbn [round_u8]; try (destruct s); try lia.
  split; [|lia]. apply Z.min_glb; [lia|]. destruct (Z.leb_spec 0 e).
  - apply Z.shiftl_nonneg. lia.
  - apply Z.shiftr_nonneg. assert (0 <= Z.shiftl 1 (- e - 1)) by (apply Z.shiftl_nonneg; lia). lia.
Qed.
Lemma get_u8_clamped_bound x : 0 <= get_u8_clamped x < 256.
Proof. apply round_u8_bound. Qed.

(** ** Exhaustive checks *)

(** The numbers from [n] down *)
Fixpoint all_below (n : nat) (f : Z -> bool) (x : Z) : bool :=
  match n with O => true | S n => f x && all_below n f (x + 1) end.
Lemma all_below_spec n f x : all_below n f x = true -> forall y, x <= y < x + Z.of_nat n -> f y = true.
Proof.
  revert x; induction n as [|n IH]; cbn [all_below]; intros x H y Hy; [lia|].
  apply andb_prop in H as [H1 H2]. destruct (Z.eq_dec y x) as [->|]; [exact H1|].
  apply (IH (x + 1)); [exact H2|lia].
Qed.

Definition u8_back (x : Z) : bool := get_u8_clamped (u8_to_f32 x) =? x.
Lemma u8_exhaustive : all_below 256 u8_back 0 = true.
Proof. vm_compute. reflexivity. Qed.
Lemma u8_roundtrip x : 0 <= x < 256 -> get_u8_clamped (u8_to_f32 x) = x.
Proof. intros H. apply Z.eqb_eq. apply (all_below_spec _ _ _ u8_exhaustive x). lia. Qed.

Definition u8_f32_range (x : Z) : bool := (0 <=? u8_to_f32 x) && (u8_to_f32 x <? 2 ^ 32).
Lemma u8_range_exhaustive : all_below 256 u8_f32_range 0 = true.
Proof. vm_compute. reflexivity. Qed.
Lemma u8_to_f32_bound x : 0 <= x < 256 -> 0 <= u8_to_f32 x < 2 ^ 32.
Proof. intros H. assert (Q := all_below_spec _ _ _ u8_range_exhaustive x ltac:(lia)). unfold u8_f32_range in Q. lia. Qed.

Definition f16_back (x : Z) : bool := f16_is_nan x || (f16_from_f32 (f16_to_f32 x) =? x).
Lemma f16_exhaustive : all_below (256 * 256) f16_back 0 = true.
Proof. vm_compute. reflexivity. Qed.
Lemma f16_roundtrip x : 0 <= x < 2 ^ 16 -> f16_is_nan x = false -> f16_from_f32 (f16_to_f32 x) = x.
Proof.
  intros H N. assert (Q := all_below_spec _ _ _ f16_exhaustive x).
  assert (B : 0 <= x < 0 + Z.of_nat (256 * 256)) by (rewrite Nat2Z.inj_mul; lia).
  specialize (Q B). unfold f16_back in Q. rewrite N in Q. cbn [orb] in Q. lia.
Qed.

(** ** Converting twice *)
Lemma f16_nan_canonical x : f16_is_nan (f16_from_f32 x) = true -> f16_from_f32 x = 32256.
Proof.
  unfold f16_from_f32. remember (convert prec16 emax16 (f32_of x)) as f eqn:E. destruct f as [s|s| |s m e]; cbn [bits_of_f16].
  - destruct s; discriminate.
  - destruct s; discriminate.
  - reflexivity.
  - symmetry in E. apply convert_bound in E; [|reflexivity]. unfold prec16, emax16 in E. destruct E as [E1 E2].
    unfold f16_is_nan. intros H. apply andb_prop in H as [H _]. exfalso. apply Z.eqb_eq in H.
    destruct (Z.ltb_spec (Zpos m) (2 ^ 10)) as [L|L].
    + assert (Q : ((if s then 2 ^ 15 else 0) + Zpos m) / 2 ^ 10 = if s then 32 else 0).
      { destruct s; [change (2 ^ 15) with (32 * 2 ^ 10); rewrite Z.div_add_l, Z.div_small by lia; lia|rewrite Z.add_0_l; apply Z.div_small; lia]. }
      rewrite Q in H. destruct s; discriminate.
    + assert (Q : ((if s then 2 ^ 15 else 0) + (e + 25) * 2 ^ 10 + (Zpos m - 2 ^ 10)) / 2 ^ 10 = (if s then 32 else 0) + (e + 25)).
      { replace ((if s then 2 ^ 15 else 0) + (e + 25) * 2 ^ 10 + (Zpos m - 2 ^ 10)) with (((if s then 32 else 0) + (e + 25)) * 2 ^ 10 + (Zpos m - 2 ^ 10)) by (destruct s; lia).
        rewrite Z.div_add_l, Z.div_small by lia. lia. }
      rewrite Q in H. change (2 ^ 5) with 32 in H. destruct s; lia.
Qed.
Theorem f16_idem x : f16_from_f32 (f16_to_f32 (f16_from_f32 x)) = f16_from_f32 x.
Proof.
  destruct (f16_is_nan (f16_from_f32 x)) eqn:N.
  - rewrite (f16_nan_canonical x N). vm_compute. reflexivity.
  - apply f16_roundtrip; auto using f16_from_f32_bound.
Qed.
