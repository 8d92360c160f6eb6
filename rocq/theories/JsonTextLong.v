(** Numbers with more digits than 64 bits hold: the digits dropped are counted. *)
From Coq Require Import Lia ZifyBool.
From Verif Require Import Bytes Json JsonText JsonTextSpec JsonTextFacts JsonTextWrite JsonTextKept.
From Coq Require Import List.
Import ListNotations.
Open Scope Z_scope.
Open Scope list_scope.

(** [sig] with [s] digits dropped stands for [m] *)
Definition stands (sig s m : Z) : Prop :=
  0 <= sig < two64 /\ 0 <= s /\ sig * 10 ^ s <= m < (sig + 10) * 10 ^ s /\
  (s = 0 -> m = sig) /\ (0 < s -> two64 <= 10 * sig + 9).

Lemma drop_one sig s m c : 0 <= sig -> 0 <= s -> digit c -> sig * 10 ^ s <= m < (sig + 10) * 10 ^ s ->
  sig * 10 ^ (s + 1) <= 10 * m + (c - 48) < (sig + 10) * 10 ^ (s + 1).
Proof. unfold digit. intros S0 S C M. rewrite Z.pow_add_r, Z.pow_1_r by lia. nia. Qed.

(** Before digits after the point are added, the number is the one with [s] digits cut off *)
Definition tight (sig s m : Z) : Prop :=
  0 <= sig < two64 /\ 0 <= s /\ sig * 10 ^ s <= m < (sig + 1) * 10 ^ s /\
  (0 < s -> two64 <= 10 * sig + 9 /\ two64 * 10 ^ s <= 10 * m).

Lemma tight_stands sig s m : tight sig s m -> stands sig s m.
Proof.
  intros (A & B & C & D). assert (0 < 10 ^ s) by (apply Z.pow_pos_nonneg; lia).
  split; [exact A|]. split; [exact B|]. split; [nia|]. split; [intros ->; cbn in C; lia|intros P; apply D; exact P].
Qed.

(** Digits before the point *)
Lemma tight_one sig s m c : digit c -> tight sig s m -> two64 <= 10 * m + (c - 48) -> two64 <= 10 * sig + 9 -> (s = 0 -> two64 <= 10 * sig + (c - 48)) ->
  tight sig (s + 1) (10 * m + (c - 48)).
Proof.
  intros C (S1 & S2 & S3 & S4) M O Z. unfold digit in C. unfold tight. rewrite Z.pow_add_r, Z.pow_1_r by lia.
  assert (0 < 10 ^ s) by (apply Z.pow_pos_nonneg; lia). split; [exact S1|]. split; [lia|].
  split; [rewrite !Z.mul_assoc; set (P := 10 ^ s) in *; clearbody P; clear O M S4 Z; split; [lia|]; assert (m + 1 <= (sig + 1) * P) by lia; lia|]. intros _. split; [exact O|].
  destruct (Z.eq_dec s 0) as [->|N]; [rewrite Z.pow_0_r in *; lia|]. destruct S4 as [_ S4]; [lia|]. rewrite Z.mul_assoc. lia.
Qed.

Lemma integer_dropped ds : forall sig s m, Forall digit ds -> tight sig s m -> 0 < s ->
  exists s', long_integer ds sig true s = (sig, s') /\ tight sig s' (fold_left (fun a c => 10 * a + (c - 48)) ds m).
Proof.
  induction ds as [|c ds IH]; intros sig s m D S P; cbn [long_integer fold_left orb]; [eauto|].
  inversion D as [|x y Dc Dr]; subst. apply IH; auto; [|lia]. destruct S as (S1 & S2 & S3 & S4). destruct (S4 P) as [S5 S6].
  assert (1 <= 10 ^ s) by (apply (Z.pow_le_mono_r 10 0 s); lia). unfold digit in Dc.
  apply tight_one; [exact Dc|unfold tight; auto|unfold two64 in *; nia|exact S5|lia].
Qed.

Lemma integer_tight ds : forall a, Forall digit ds -> 0 <= a < two64 ->
  exists sig s, long_integer ds a false 0 = (sig, s) /\ tight sig s (fold_left (fun a c => 10 * a + (c - 48)) ds a).
Proof.
  induction ds as [|c ds IH]; intros a D A; cbn [long_integer fold_left orb].
  - exists a, 0. unfold tight. rewrite Z.pow_0_r. repeat split; lia.
  - inversion D as [|x y Dc Dr]; subst. unfold overflows. destruct (two64 <=? 10 * a + (c - 48)) eqn:O.
    + destruct (integer_dropped ds a (0 + 1) (10 * a + (c - 48)) Dr) as (s & E & T); [|lia|eauto].
      unfold digit in Dc. apply tight_one; [exact Dc|unfold tight; rewrite Z.pow_0_r; repeat split; lia|lia|lia|lia].
    + unfold digit in Dc. apply IH; auto. lia.
Qed.

(** Digits after the point *)
Lemma rest_dropped ds : forall sig s m, Forall digit ds -> stands sig s m -> two64 <= 10 * sig + 9 ->
  stands sig (s + zlen ds) (fold_left (fun a c => 10 * a + (c - 48)) ds m).
Proof.
  induction ds as [|c ds IH]; intros sig s m D S O.
  - cbn [fold_left]. unfold zlen. cbn [length]. replace (s + Z.of_nat 0) with s by lia. exact S.
  - inversion D as [|x y Dc Dr]; subst. destruct S as (S1 & S2 & S3 & S4 & S5). cbn [fold_left].
    replace (s + zlen (c :: ds)) with (s + 1 + zlen ds) by (unfold zlen; cbn [length]; lia).
    apply IH; auto. split; [lia|]. split; [lia|]. split; [apply drop_one; auto; lia|]. split; lia.
Qed.

Lemma decimal_full ds : forall sig e, Forall digit ds -> two64 <= 10 * sig -> long_decimal ds sig e = (sig, e).
Proof.
  destruct ds as [|c ds]; intros sig e D O; cbn [long_decimal]; auto. inversion D as [|x y Dc Dr]; subst. unfold digit in Dc.
  unfold overflows. replace (two64 <=? 10 * sig + (c - 48)) with true by lia. reflexivity.
Qed.

Lemma decimal_stands ds : forall sig s m e, Forall digit ds -> tight sig s m ->
  exists sig' s', long_decimal ds sig e = (sig', e - s + (s' - zlen ds)) /\
    stands sig' s' (fold_left (fun a c => 10 * a + (c - 48)) ds m).
Proof.
  induction ds as [|c ds IH]; intros sig s m e D S; cbn [long_decimal].
  - exists sig, s. split; [f_equal; unfold zlen; cbn [length]; lia|exact (tight_stands _ _ _ S)].
  - assert (D' := D). inversion D as [|x y Dc Dr]; subst. assert (Dc' := Dc). unfold digit in Dc'.
    assert (Z1 : zlen (c :: ds) = zlen ds + 1) by (unfold zlen; cbn [length]; lia).
    unfold overflows. destruct (two64 <=? 10 * sig + (c - 48)) eqn:O.
    + exists sig, (s + zlen (c :: ds)). split; [f_equal; lia|]. apply rest_dropped; [exact D'|exact (tight_stands _ _ _ S)|lia].
    + cbn [fold_left]. destruct S as (S1 & S2 & S3 & S4). destruct (Z.eq_dec s 0) as [->|N].
      * destruct (IH (10 * sig + (c - 48)) 0 (10 * m + (c - 48)) (e - 1) Dr) as (sig' & s' & E & T).
        -- unfold tight. rewrite Z.pow_0_r in *. repeat split; lia.
        -- exists sig', s'. split; [rewrite E; f_equal; lia|exact T].
      * destruct S4 as [S4 S5]; [lia|]. assert (0 < 10 ^ s) by (apply Z.pow_pos_nonneg; lia).
        exists (10 * sig + (c - 48)), (s + zlen ds). split.
        -- rewrite decimal_full; [f_equal; lia|exact Dr|unfold two64 in *; lia].
        -- apply rest_dropped; [exact Dr| |unfold two64 in *; lia].
           split; [lia|]. split; [lia|]. split; [nia|]. split; [lia|]. intros _. unfold two64 in *. lia.
Qed.

(** A number is read as the float of a significand below 2^64 and an exponent.  If digits are
    dropped, what is left is closer to the number than 1 / 10^17 of it. *)
Theorem number_parts neg ints fracs exp t : number neg ints fracs exp t ->
  fracs <> [] \/ exp <> None \/ (if neg then 2 ^ 63 else two64 - 1) < digits_value ints ->
  let m := digits_value (ints ++ fracs) in
  let x := match exp with Some x => x | None => 0 end in
  exists sig s, 0 <= sig < two64 /\ 0 <= s /\ (s = 0 -> sig = m) /\
    0 <= m - sig * 10 ^ s /\ 10 ^ 17 * (m - sig * 10 ^ s) <= m /\
    number_value neg ints fracs exp = float_value neg sig (x - zlen fracs + s).
Proof.
  intros N X m x. assert (D : Forall digit ints /\ Forall digit fracs).
  { destruct N as (tf & te & (_ & D & _) & F & _). split; [exact D|]. destruct F; [constructor|assumption]. }
  destruct D as [D1 D2].
  destruct (integer_tight ints 0 D1 ltac:(unfold two64; lia)) as (a & s & E & T).
  assert (G : forall sig s', stands sig s' m -> 0 <= sig < two64 /\ 0 <= s' /\ (s' = 0 -> sig = m) /\
    0 <= m - sig * 10 ^ s' /\ 10 ^ 17 * (m - sig * 10 ^ s') <= m).
  { intros sig s' (A & B & C & F & O). assert (0 < 10 ^ s') by (apply Z.pow_pos_nonneg; lia).
    split; [exact A|]. split; [exact B|]. split; [intros Q; symmetry; auto|]. split; [lia|].
    destruct (Z.eq_dec s' 0) as [->|Q]; [rewrite F in *; lia|]. unfold two64 in *. nia. }
  assert (M : m = fold_left (fun a c => 10 * a + (c - 48)) fracs (fold_left (fun a c => 10 * a + (c - 48)) ints 0)).
  { unfold m, digits_value. apply fold_left_app. }
  destruct (decimal_stands fracs a s _ s D2 T) as (sig & s' & E' & T'). rewrite <- M in T'.
  exists sig, s'. destruct (G sig s' T') as (G1 & G2 & G3 & G4 & G5). repeat (split; [assumption|]).
  unfold number_value. rewrite E.
  assert (R : (let (sig, e) := long_decimal fracs a s in float_value neg sig (e + x)) = float_value neg sig (x - zlen fracs + s')).
  { rewrite E'. f_equal. lia. }
  destruct fracs as [|c r]; [|exact R]. destruct exp as [y|]; [exact R|].
  cbn [long_decimal] in R, E'. injection E' as <- Es. unfold x, zlen in *. cbn [length] in *.
  assert (s' = s) by lia. subst s'. replace (0 - Z.of_nat 0 + s) with s by lia.
  destruct X as [X|[X|X]]; [destruct (X eq_refl)|destruct (X eq_refl)|].
  assert (MI : m = digits_value ints) by (rewrite M; reflexivity). rewrite <- MI in X.
  destruct neg.
  - replace ((s =? 0) && (0 <? a) && (a <=? 2 ^ 63)) with false; [reflexivity|].
    symmetry. destruct (Z.eqb_spec s 0) as [Q|Q]; [|reflexivity]. cbn [andb]. rewrite (G3 Q). lia.
  - destruct (Z.eqb_spec s 0) as [Q|Q]; [|reflexivity]. rewrite <- (G3 Q) in X. lia.
Qed.
