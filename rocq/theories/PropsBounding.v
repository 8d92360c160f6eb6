(** C84: vectors, matrices and the bounding info of saved meshes. *)
From Coq Require Import Reals Lra.
From Verif Require Import Bytes Ssbh Formats Float32 AnimComp AnimSpec SkelData VecData MeshData MeshSpec QuantSpec TransformData TransformSpec
  Bounding BoundingSpec BoundingFacts PropsMesh PropsTransform.
Local Open Scope R_scope.

(** ** Vectors and matrices *)
Theorem C84_vectors_convert :
  (forall v, array_vec3 (vec3_array v) = v) /\ (forall l, length l = 3%nat -> vec3_array (array_vec3 l) = l) /\
  (forall v, array_vec4 (vec4_array v) = v) /\ (forall l, length l = 4%nat -> vec4_array (array_vec4 l) = l) /\
  (forall v w, xyz (extend v w) = v) /\ (forall v, extend (xyz v) (v4w v) = v) /\
  (forall m, from_cols (to_cols m) = m) /\ (forall l, length l = 4%nat -> (forall c, In c l -> length c = 4%nat) -> to_cols (from_cols l) = l) /\
  (forall m, from_cols3 (to_cols3 m) = m) /\ (forall l, length l = 3%nat -> (forall c, In c l -> length c = 3%nat) -> to_cols3 (from_cols3 l) = l).
Proof. exact vectors_convert. Qed.
Print Assumptions C84_vectors_convert.
(** Minimum and maximum bound both vectors in every component, also with infinities, and ignore NaNs. *)
Theorem C84_vectors_extremes :
  (forall u v i, (i < 3)%nat -> least (comp (vec3_min u v) i) (comp u i) (comp v i) /\ greatest (comp (vec3_max u v) i) (comp u i) (comp v i)) /\
  (forall u v i, (i < 4)%nat -> let c w := nth i (vec4_array w) 0%Z in least (c (vec4_min u v)) (c u) (c v) /\ greatest (c (vec4_max u v)) (c u) (c v)).
Proof. exact vectors_extremes. Qed.
Print Assumptions C84_vectors_extremes.
(** The identity changes no finite point and no finite vector. *)
Theorem C84_identity : forall v, vec_ok v = true -> Forall finite_coords (vec_rows v) ->
  same_rows v (transform_points v (to_cols identity4)) /\ same_rows v (transform_vectors v (to_cols identity4)).
Proof. exact C67_identity. Qed.
Print Assumptions C84_identity.
(** 1, -infinity, NaN and 0, 2, 3; the columns 1 to 4, 5 to 8, ... *)
Example C84_vectors_example :
  vec3_min (V3 0x3f800000 0xff800000 0x7fc00000) (V3 0 0x40000000 0x40400000) = V3 0 0xff800000 0x40400000 /\
  vec3_max (V3 0x3f800000 0xff800000 0x7fc00000) (V3 0 0x40000000 0x40400000) = V3 0x3f800000 0x40000000 0x40400000 /\
  from_cols [[1; 2; 3; 4]; [5; 6; 7; 8]; [9; 10; 11; 12]; [13; 14; 15; 16]]%Z = Mat (V4 1 2 3 4) (V4 5 6 7 8) (V4 9 10 11 12) (V4 13 14 15 16) /\
  vec_ok (MkVec Three [[0x3f800000; 0; 0x40000000]%Z]) = true.
Proof. vm_compute. auto. Qed.

(** ** Bounding info.  The functions of geometry_tools are arguments. *)
(** It is a value of its type, so the theorems on meshes (C32 to C35, C52, C53) hold with it. *)
Theorem C84_bounding_ok : forall sphere aabb, (forall ps, vec4_ok (sphere ps) = true) -> aabb_exact aabb ->
  bounding_ok (calculate_bounding_info sphere aabb).
Proof. exact (fun sphere aabb S A ps => info_typed sphere aabb ps (S ps) (proj1 (A ps)) (proj1 (proj2 (A ps)))). Qed.
Print Assumptions C84_bounding_ok.
(** In a saved mesh the boxes of every object are around its points, those of the mesh around all
    points of all objects.  Middle and half lengths of the oriented box are rounded. *)
Theorem C84_mesh_boxes : forall sphere aabb d v, aabb_exact aabb -> mesh_ok d = true -> create_mesh (calculate_bounding_info sphere aabb) d = Ok v ->
  boxes_around (mesh_info v) (flat_map first_positions (mesh_objects d)) /\
  Forall2 (fun o info => boxes_around info (first_positions o)) (mesh_objects d) (object_infos v).
Proof. exact mesh_boxes. Qed.
Print Assumptions C84_mesh_boxes.
(** The assumption on geometry_tools can be met. *)
Theorem C84_aabb_exists : aabb_exact simple_aabb.
Proof. exact simple_exact. Qed.
Print Assumptions C84_aabb_exists.

(** The oriented box need not contain the points: from -1 to the number after 1 it ends before it. *)
Theorem C84_inside_refuted : exists ps row lo hi center size, moderate ps /\ In row ps /\
  info_parts (calculate_bounding_info (fun _ => V4 0 0 0 0) simple_aabb ps) lo hi center size /\
  Rabs (real (nth 0 row 0%Z) - real (comp center 0)) > real (comp size 0).
Proof.
  exists [[0xbf800000; 0; 0]; [0x3f800001; 0; 0]]%Z, [0x3f800001; 0; 0]%Z, (V3 0xbf800000 0 0), (V3 0x3f800001 0 0), (V3 0x33800000 0 0), (V3 0x3f800000 0 0).
  assert (R1 : real 0x3f800001 = 8388609 / 8388608) by exact number_after_one.
  assert (R2 : real 0xbf800000 = -1) by exact number_minus_one. assert (R3 : real 0 = 0) by reflexivity.
  assert (P : 1 <= IZR (2 ^ 126)) by (apply IZR_le; discriminate).
  assert (A : forall x, In x [0xbf800000; 0x3f800001; 0]%Z -> finite x = true /\ Rabs (real x) <= IZR (2 ^ 126)).
  { intros x [<-|[<-|[<-|[]]]]; (split; [reflexivity|]); rewrite ?R1, ?R2, ?R3; apply Rabs_le; split; lra. }
  split; [|split; [cbn; auto|split]].
  - split; [discriminate|]. intros i x Hi Hx. apply A. destruct i as [|[|[|i]]]; cbn in Hx |- *; intuition.
  - eexists. reflexivity.
  - change (nth 0 [1065353217; 0; 0]%Z 0%Z) with 0x3f800001%Z. change (comp (V3 0x33800000 0 0) 0) with 0x33800000%Z. change (comp (V3 0x3f800000 0 0) 0) with 0x3f800000%Z.
    assert (R4 : real 0x33800000 = / 16777216) by exact number_tiny. assert (R5 : real 0x3f800000 = 1) by exact number_one.
    rewrite R1, R4, R5. apply Rlt_gt. eapply Rlt_le_trans; [|apply Rle_abs]. lra.
Qed.
Print Assumptions C84_inside_refuted.
(** Finite points can have an infinite oriented box: from the smallest to the largest number. *)
Theorem C84_finite_refuted : exists ps lo hi center size, (forall row x, In row ps -> In x row -> finite x = true) /\
  info_parts (calculate_bounding_info (fun _ => V4 0 0 0 0) simple_aabb ps) lo hi center size /\ finite (comp size 0) = false.
Proof.
  exists [[0xff7fffff; 0; 0]; [0x7f7fffff; 0; 0]]%Z, (V3 0xff7fffff 0 0), (V3 0x7f7fffff 0 0), (V3 0 0 0), (V3 0x7f800000 0 0).
  split; [|split; [eexists; reflexivity|reflexivity]]. intros row x [<-|[<-|[]]] Hx; cbn in Hx; intuition subst; reflexivity.
Qed.
Print Assumptions C84_finite_refuted.

(** The object of PropsMesh.v; the points (1, 2, 3) and (3, -2, 3.5) have the middle (2, 0, 3.25) and the
    half lengths 1, 2 and 0.25. *)
Example C84_example :
  (exists v, mesh_ok (ex_mesh 10) = true /\ create_mesh (calculate_bounding_info (fun _ => V4 0 0 0 0) simple_aabb) (ex_mesh 10) = Ok v) /\
  (let (lo, hi) := simple_aabb [[0x3f800000; 0x40000000; 0x40400000]; [0x40400000; 0xc0000000; 0x40600000]]%Z in
   (obb_center lo hi, obb_size lo hi) = (V3 0x40000000 0 0x40500000, V3 0x3f800000 0x40000000 0x3e800000)).
Proof. split; [eexists; split; vm_compute; reflexivity|vm_compute; reflexivity]. Qed.
