(** transform_points and transform_vectors of ssbh_data.  f32 values are bit patterns.
    Paths below are relative to /repo/ssbh_data/src.  Vectors have two, three or four components
    ([VectorData] is an enum over arrays); the match arms for other lengths are never used. *)
From Verif Require Import Bytes Float32 VecData.

(** Operators on f32 *)
Definition mul_bits (x y : Z) : Z := bits_of_f32 (mul32 (f32_of x) (f32_of y)).
Definition add_bits (x y : Z) : Z := bits_of_f32 (add32 (f32_of x) (f32_of y)).

(** to_vec4_with_w and to_glam_vec4_with_w, mesh_data/vector_data.rs:66-73 and 109-124: both have
    the same three arms *)
Definition row_with_w (w : Z) (row : list Z) : list Z :=
  match row with
  | [x; y] => [x; y; 0; w]
  | [x; y; z] => [x; y; z; w]
  | [x; y; z; _] => [x; y; z; w]
  | _ => []
  end.
Definition to_vec4_with_w (v : vector_data) (w : Z) : list (list Z) := map (row_with_w w) (vec_rows v).

(** glam::Mat4::mul_vec4 for a matrix given by its columns (from_cols_array_2d): the columns are
    multiplied by the coordinates and added from left to right.  This is the code of glam 0.28 without
    fused multiplication. *)
Definition vscale (col : list Z) (x : Z) : list Z := map (fun a => mul_bits a x) col.
Fixpoint vadd (a b : list Z) : list Z :=
  match a, b with
  | x :: a', y :: b' => add_bits x y :: vadd a' b'
  | _, _ => []
  end.
Definition mul_vec4 (m : list (list Z)) (p : list Z) : list Z :=
  match m, p with
  | [cx; cy; cz; cw], [x; y; z; w] => vadd (vadd (vadd (vscale cx x) (vscale cy y)) (vscale cz z)) (vscale cw w)
  | _, _ => []
  end.

(** transform_inner, mesh_data.rs:1080-1107 *)
Definition transform_inner (v : vector_data) (transform : list (list Z)) (w : Z) : vector_data :=
  let points := map (mul_vec4 transform) (to_vec4_with_w v w) in
  MkVec (vec_dim v)
    match vec_dim v with
    | Two => map (firstn 2) points
    | Three => map (firstn 3) points
    | Four => map (fun p => firstn 3 (snd p) ++ [nth 3 (fst p) 0]) (combine (vec_rows v) points)
    end.
(** transform_points, mesh_data.rs:1134-1136; 0x3f800000 is 1.0 *)
Definition transform_points (v : vector_data) (transform : list (list Z)) : vector_data :=
  transform_inner v transform 0x3f800000.
(** transform_vectors, mesh_data.rs:1164-1166 *)
Definition transform_vectors (v : vector_data) (transform : list (list Z)) : vector_data :=
  transform_inner v transform 0.
