(** Vectors, matrices and the bounding info of meshes.
    Paths below are relative to /repo. *)
From Verif Require Import Bytes Ssbh Float32 AnimComp SkelData TransformData.

(** ** ssbh_lib/src/vectors.rs.  Arrays are lists; [xyz] and the records are in AnimComp.v. *)

(** Vector3::to_array, vectors.rs:36-38, and From<[f32; 3]>, 114-122, for arrays of length 3 *)
Definition vec3_array (v : vec3) : list Z := [v3x v; v3y v; v3z v].
Definition array_vec3 (l : list Z) : vec3 := V3 (nth 0 l 0) (nth 1 l 0) (nth 2 l 0).
(** Vector3::extend, vectors.rs:48-55 *)
Definition extend (v : vec3) (w : Z) : vec4 := V4 (v3x v) (v3y v) (v3z v) w.
(** Vector3::min and max, vectors.rs:69-95 *)
Definition vec3_min : vec3 -> vec3 -> vec3 := vec3_zip f32_min.
Definition vec3_max : vec3 -> vec3 -> vec3 := vec3_zip f32_max.
(** Vector4::to_array, vectors.rs:247-249, and From<[f32; 4]>, 311-320 *)
Definition vec4_array (v : vec4) : list Z := [v4x v; v4y v; v4z v; v4w v].
Definition array_vec4 (l : list Z) : vec4 := V4 (nth 0 l 0) (nth 1 l 0) (nth 2 l 0) (nth 3 l 0).
(** Vector4::min and max, vectors.rs:263-292 *)
Definition vec4_min : vec4 -> vec4 -> vec4 := vec4_zip f32_min.
Definition vec4_max : vec4 -> vec4 -> vec4 := vec4_zip f32_max.

(** Matrix4x4::identity, to_cols_array and from_cols_array, vectors.rs:364-427 *)
Definition identity4 : mat := Mat (V4 0x3f800000 0 0 0) (V4 0 0x3f800000 0 0) (V4 0 0 0x3f800000 0) (V4 0 0 0 0x3f800000).
Definition to_cols (m : mat) : list (list Z) := [vec4_array (col1 m); vec4_array (col2 m); vec4_array (col3 m); vec4_array (col4 m)].
Definition from_cols (cols : list (list Z)) : mat :=
  Mat (array_vec4 (nth 0 cols [])) (array_vec4 (nth 1 cols [])) (array_vec4 (nth 2 cols [])) (array_vec4 (nth 3 cols [])).
(** Matrix3x3, vectors.rs:133-211 *)
Record mat3 := Mat3 { c31 : vec3; c32 : vec3; c33 : vec3 }.
Definition identity3 : mat3 := Mat3 (V3 0x3f800000 0 0) (V3 0 0x3f800000 0) (V3 0 0 0x3f800000).
Definition to_cols3 (m : mat3) : list (list Z) := [vec3_array (c31 m); vec3_array (c32 m); vec3_array (c33 m)].
Definition from_cols3 (cols : list (list Z)) : mat3 := Mat3 (array_vec3 (nth 0 cols [])) (array_vec3 (nth 1 cols [])) (array_vec3 (nth 2 cols [])).
Definition mat3_val (m : mat3) : val := VStruct [vec3_val (c31 m); vec3_val (c32 m); vec3_val (c33 m)].

(** ** calculate_bounding_info, ssbh_data/src/mesh_data.rs:1198-1222.  [sphere] and [aabb] are
    calculate_bounding_sphere_from_points and calculate_aabb_from_points of the crate geometry_tools.
    The operators of glam::Vec3A work on each component. *)
Definition sub_bits (x y : Z) : Z := bits_of_f32 (sub32 (f32_of x) (f32_of y)).
Definition half_bits (x : Z) : Z := bits_of_f32 (div32 (f32_of x) (f32_of 0x40000000)).
Definition vec3_half (v : vec3) : vec3 := V3 (half_bits (v3x v)) (half_bits (v3y v)) (half_bits (v3z v)).
Definition obb_center (lo hi : vec3) : vec3 := vec3_half (vec3_zip add_bits lo hi).
Definition obb_size (lo hi : vec3) : vec3 := vec3_half (vec3_zip sub_bits hi lo).
Definition calculate_bounding_info (sphere : list (list Z) -> vec4) (aabb : list (list Z) -> vec3 * vec3) (positions : list (list Z)) : val :=
  let s := sphere positions in
  let (lo, hi) := aabb positions in
  VStruct [VStruct [vec3_val (V3 (v4x s) (v4y s) (v4z s)); VInt (v4w s)];
           VStruct [vec3_val lo; vec3_val hi];
           VStruct [vec3_val (obb_center lo hi); mat3_val identity3; vec3_val (obb_size lo hi)]].
