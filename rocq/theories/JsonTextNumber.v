(** How close the floats read from texts are to the decimals: proofs. *)
From Coq Require Import ZArith Reals SpecFloat Lia Lra ZifyBool.
From Flocq Require Import Core Relative BinarySingleNaN.
From Verif Require Import Bytes BytesFacts Float32 FloatFacts FlocqFacts QuantSpec QuantFacts RoundFacts Json JsonText JsonTextSpec
  JsonTextFacts JsonTextWrite JsonTextFloat JsonTextDecimal JsonTextKept JsonTextAll.
From Coq Require Import List.
Import ListNotations.
Local Open Scope R_scope.

Lemma rnd32_err r : p2 (-126) <= Rabs r -> Rabs (rnd32 r - r) <= / 16777216 * Rabs r.
Proof.
  intros H. replace (/ 16777216) with (/ 2 * p2 (- 24 + 1)) by (cbn; lra).
  apply (relative_error_N_FLT radix2 (-149) 24 ltac:(reflexivity) (fun x => negb (Z.even x))). exact H.
Qed.

Theorem integer_exact neg ints t : number neg ints [] None t ->
  let m := digits_value ints in
  (if neg then 0 < m <= 2 ^ 63 else m < 2 ^ 64)%Z -> from_text t = Some (JInt (if neg then - m else m)).
Proof.
  intros N m B. assert (D : Forall digit ints) by (destruct N as (tf & te & (_ & D & _) & _); exact D).
  apply from_text_iff. exists [], t, []. rewrite app_nil_r. repeat split; try constructor; [|destruct neg; cbn; lia].
  apply de_number with neg ints [] None; auto. unfold number_value.
  assert (L : (fold_left (fun a c => 10 * a + (c - 48)) ints 0 < two64)%Z) by (fold (digits_value ints); fold m; unfold two64; destruct neg; lia).
  rewrite long_integer_fits by (auto; lia). fold (digits_value ints). fold m. clearbody m. destruct neg; [|reflexivity].
  cbn [Z.eqb andb]. replace ((0 <? m) && (m <=? 2 ^ 63))%Z%bool with true by lia. reflexivity.
Qed.
