(** Specification of bounding boxes, in real numbers. *)
From Coq Require Import Reals.
From Verif Require Import Bytes Ssbh Float32 AnimComp AnimSpec QuantSpec MeshData Bounding.

(** ** Component-wise minimum and maximum *)
(** [m] is one of [x] and [y], not above either that is a number, and a NaN only if both are. *)
Definition least (m x y : Z) : Prop :=
  (m = x \/ m = y) /\ (is_nan m = true -> is_nan x = true /\ is_nan y = true) /\
  (is_nan x = false -> f32_leb m x = true) /\ (is_nan y = false -> f32_leb m y = true).
Definition greatest (m x y : Z) : Prop :=
  (m = x \/ m = y) /\ (is_nan m = true -> is_nan x = true /\ is_nan y = true) /\
  (is_nan x = false -> f32_leb x m = true) /\ (is_nan y = false -> f32_leb y m = true).

(** ** Boxes *)
Local Open Scope R_scope.
(** The side of a box with the middle [c] and the half length [s] covers the numbers from [a] to [b]
    and ends at these, up to a unit in the last place of the larger one. *)
Definition side_error (a b : Z) : R := Rmax (Rabs (real a)) (Rabs (real b)) / IZR (2 ^ 24) + / IZR (2 ^ 149).
Definition side_covers (a b c s : Z) : Prop :=
  finite c = true /\ finite s = true /\ 0 <= real s /\
  Rabs (real c - real s - real a) <= side_error a b /\ Rabs (real c + real s - real b) <= side_error a b /\
  forall x, real a <= x <= real b -> Rabs (x - real c) <= real s + side_error a b.

(** Coordinate [i] of a vector *)
Definition comp (v : vec3) (i : nat) : Z := nth i (vec3_array v) 0%Z.
(** Coordinate [i] of all points *)
Definition column (i : nat) (ps : list (list Z)) : list Z := map (fun row => nth i row 0%Z) ps.
(** What is known of the axis aligned box that geometry_tools computes: patterns of 32 bits, and for
    finite points a smallest and a largest coordinate. *)
Definition aabb_exact (aabb : list (list Z) -> vec3 * vec3) : Prop := forall ps,
  vec3_ok (fst (aabb ps)) = true /\ vec3_ok (snd (aabb ps)) = true /\
  (ps <> [] -> (forall i x, (i < 3)%nat -> In x (column i ps) -> finite x = true) ->
   forall i, (i < 3)%nat -> column_range (column i ps) (comp (fst (aabb ps)) i) (comp (snd (aabb ps)) i)).
(** Points with finite coordinates up to 2^126 *)
Definition moderate (ps : list (list Z)) : Prop :=
  ps <> [] /\ forall i x, (i < 3)%nat -> In x (column i ps) -> finite x = true /\ Rabs (real x) <= IZR (2 ^ 126).
(** The parts of a bounding info: the axis aligned box, the middle and half lengths of the oriented
    box, which is not turned *)
Definition info_parts (info : val) (lo hi center size : vec3) : Prop := exists sphere,
  info = VStruct [sphere; VStruct [vec3_val lo; vec3_val hi]; VStruct [vec3_val center; mat3_val identity3; vec3_val size]].
(** The boxes are around the points: exactly for the axis aligned one, up to rounding for the other *)
Definition boxes_around (info : val) (ps : list (list Z)) : Prop := exists lo hi center size, info_parts info lo hi center size /\
  (moderate ps -> forall i, (i < 3)%nat -> column_range (column i ps) (comp lo i) (comp hi i) /\ side_covers (comp lo i) (comp hi i) (comp center i) (comp size i)).
(** The bounding info of a saved mesh and of its objects *)
Definition mesh_info (v : val) : val := match v with VStruct [VStruct (_ :: info :: _)] => info | _ => VInt 0 end.
Definition object_infos (v : val) : list val :=
  match v with
  | VStruct [VStruct (_ :: _ :: _ :: VArr objects :: _)] => map (fun o => match o with VStruct fields => nth 20 fields (VInt 0) | _ => VInt 0 end) objects
  | _ => []
  end.
