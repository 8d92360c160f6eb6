(** Files that do not start with the magic of SSBH. *)
From Coq Require Import Lia ZifyBool ZifyNat ZifyN String.
From Verif Require Import Bytes BytesFacts Ssbh SsbhSpec Formats File FileSpec FileFacts MeshExFacts DecFacts SsbhLemmas.
Ltac Zify.zify_post_hook ::= ZifyBool.elim_bool_cstr; Z.to_euclidean_division_equations.

Theorem bad_magic b m : length m = 4%nat -> bytes_at b 0 m -> m <> stored_name "SSBH" ->
  file_read b = Err EBadMagic.
Proof.
  intros L H N. unfold file_read, read_file.
  assert (G : get_bytes 4 b 0 = Some m) by (rewrite <- L; now apply get_bytes_at).
  rewrite G. destruct (list_eqb m hbss) eqn:E; [|reflexivity]. apply list_eqb_eq in E. now rewrite E in N.
Qed.

Theorem short_file b : zlen b < 4 -> file_read b = Err EEof.
Proof.
  intros H. unfold file_read, read_file. destruct b as [|x [|y [|z [|w b]]]]; try reflexivity.
  unfold zlen in H. cbn in H. lia.
Qed.

Theorem header_errors b k :
  (zlen b < 4 -> file_read b = Err EEof /\ typed_read k b = Err EEof) /\
  (forall m, List.length m = 4%nat -> bytes_at b 0 m -> m <> stored_name "SSBH" ->
     file_read b = Err EBadMagic /\ typed_read k b = Err EBadMagic).
Proof.
  unfold typed_read. split.
  - intros H. rewrite short_file by auto. auto.
  - intros m L H N. rewrite (bad_magic b m) by auto. auto.
Qed.
