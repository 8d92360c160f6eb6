(** Properties of transformed points and vectors.  The specification is in TransformSpec.v. *)
From Coq Require Import Reals Lra.
From Verif Require Import Bytes Float32 VecData MeshSpec QuantSpec TransformData TransformSpec TransformFacts.
Local Open Scope R_scope.

(** ** C67
    Each transformed point has the components of the original one.  The first three are the exact
    affine image up to rounding, the fourth is kept. *)
Theorem C67_points : forall v m, vec_ok v = true -> finite_matrix m -> Forall finite_coords (vec_rows v) ->
  let r := transform_points v m in vec_dim r = vec_dim v /\ Forall2 (transformed m 1) (vec_rows v) (vec_rows r).
Proof. exact points_transformed. Qed.
Print Assumptions C67_points.

(** Vectors get the linear image. *)
Theorem C67_vectors : forall v m, vec_ok v = true -> finite_matrix m -> Forall finite_coords (vec_rows v) ->
  let r := transform_vectors v m in vec_dim r = vec_dim v /\ Forall2 (transformed m 0) (vec_rows v) (vec_rows r).
Proof. exact vectors_transformed. Qed.
Print Assumptions C67_vectors.

(** Finite translations do not change transformed vectors at all. *)
Theorem C67_translation : forall v m m', vec_ok v = true -> finite_matrix m -> finite_matrix m' -> firstn 3 m = firstn 3 m' ->
  Forall finite_coords (vec_rows v) -> same_rows (transform_vectors v m) (transform_vectors v m').
Proof. exact vectors_translation. Qed.
Print Assumptions C67_translation.

(** The identity changes no finite number. *)
Theorem C67_identity : forall v, vec_ok v = true -> Forall finite_coords (vec_rows v) ->
  same_rows v (transform_points v identity_matrix) /\ same_rows v (transform_vectors v identity_matrix).
Proof. exact (fun v H F => conj (identity_rows v 0x3f800000 H eq_refl F) (identity_rows v 0 H eq_refl F)). Qed.
Print Assumptions C67_identity.

(** Scale by 2, 3, 4 and move by 1, 1/2, -1: the tangent (1, 1/2, -1) keeps its sign component, a
    NaN.  1.0 is 0x3f800000. *)
Definition some_matrix : list (list Z) :=
  [[0x40000000; 0; 0; 0]; [0; 0x40400000; 0; 0]; [0; 0; 0x40800000; 0]; [0x3f800000; 0x3f000000; 0xbf800000; 0x3f800000]]%Z.
Definition some_tangent : vector_data := MkVec Four [[0x3f800000; 0x3f000000; 0xbf800000; 0x7fc00000]]%Z.
Definition some_uv : vector_data := MkVec Two [[0x3f800000; 0x3f000000]]%Z.
Example C67_example : vec_ok some_tangent = true /\ vec_ok some_uv = true /\ finite_matrix some_matrix /\
  Forall finite_coords (vec_rows some_tangent) /\ Forall finite_coords (vec_rows some_uv) /\
  transform_points some_tangent some_matrix = MkVec Four [[0x40400000; 0x40000000; 0xc0a00000; 0x7fc00000]]%Z /\
  transform_vectors some_tangent some_matrix = MkVec Four [[0x40000000; 0x3fc00000; 0xc0800000; 0x7fc00000]]%Z /\
  transform_points some_uv some_matrix = MkVec Two [[0x40400000; 0x40000000]]%Z /\
  firstn 3 some_matrix = firstn 3 (firstn 3 some_matrix ++ [[0; 0; 0; 0]])%Z.
Proof.
  split; [reflexivity|]. split; [reflexivity|]. split.
  - split; [reflexivity|]. intros col [<-|[<-|[<-|[<-|[]]]]]; (split; [reflexivity|]); intros x [<-|[<-|[<-|[<-|[]]]]]; reflexivity.
  - split; [constructor; [|constructor]; intros x [<-|[<-|[<-|[]]]]; reflexivity|].
    split; [constructor; [|constructor]; intros x [<-|[<-|[]]]; reflexivity|]. repeat split; vm_compute; reflexivity.
Qed.

(** Bit patterns are not kept by the identity: -0.0 becomes 0.0, and an infinite coordinate turns
    the other coordinates into NaN. *)
Theorem C67_identity_bits_refuted : exists v, vec_ok v = true /\ Forall finite_coords (vec_rows v) /\
  transform_points v identity_matrix <> v.
Proof.
  exists (MkVec Two [[0x80000000; 0]]%Z). split; [reflexivity|]. split; [|vm_compute; discriminate].
  constructor; [|constructor]. intros x [<-|[<-|[]]]; reflexivity.
Qed.
Print Assumptions C67_identity_bits_refuted.
Theorem C67_infinite_refuted : exists v, vec_ok v = true /\
  transform_points v identity_matrix = MkVec Two [[0x7f800000; 0x7fc00000]]%Z /\ vec_rows v = [[0x7f800000; 0]]%Z.
Proof. exists (MkVec Two [[0x7f800000; 0]]%Z). repeat split; vm_compute; reflexivity. Qed.
Print Assumptions C67_infinite_refuted.
(** Vectors depend on a translation that is not finite. *)
Theorem C67_infinite_translation_refuted : exists v m m', vec_ok v = true /\ Forall finite_coords (vec_rows v) /\
  firstn 3 m = firstn 3 m' /\ finite_matrix m /\ transform_vectors v m <> transform_vectors v m'.
Proof.
  exists (MkVec Two [[0x3f800000; 0]]%Z), identity_matrix, (firstn 3 identity_matrix ++ [[0x7f800000; 0; 0; 0x3f800000]])%Z.
  split; [reflexivity|]. split; [constructor; [|constructor]; intros x [<-|[<-|[]]]; reflexivity|].
  split; [reflexivity|]. split; [exact identity_finite|]. vm_compute. discriminate.
Qed.
Print Assumptions C67_infinite_translation_refuted.
