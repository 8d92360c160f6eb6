(** The floats of JSON texts: proofs. *)
From Coq Require Import ZArith Reals SpecFloat Lia Lra.
From Flocq Require Import Core BinarySingleNaN.
From Verif Require Import Bytes Float32 FloatFacts FlocqFacts MeshSpec QuantSpec QuantFacts RoundFacts RotFacts TransformFacts
  Json JsonText JsonTextSpec.
Open Scope Z_scope.

Lemma convert_range f : 0 <= bits_of_f32 (convert prec32 emax32 f) < 2 ^ 32.
Proof.
  destruct f as [s|s| |s m e]; [destruct s; cbn; lia|destruct s; cbn; lia|cbn; lia|].
  apply bits_range. unfold convert. rewrite (normalize_equiv prec32 emax32 _ _). apply valid_binary_B2SF.
Qed.

Lemma float_value_float b m e j : float_value b m e = Some j -> exists n, j = JFloat n /\ 0 <= n < 2 ^ 32.
Proof.
  unfold float_value. destruct (f64_parts 10 (int_to_f64 m) e) as [f|]; [|discriminate].
  generalize (convert_range (if b then SFopp f else f)). generalize (bits_of_f32 (convert prec32 emax32 (if b then SFopp f else f))).
  intros n B H. exists n. split; auto. congruence.
Qed.
