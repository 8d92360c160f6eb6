(** Specification for quantised floats: the real number of a bit pattern. *)
From Coq Require Import Reals.
From Verif Require Import Bytes Float32 AnimComp AnimBuf AnimSpec VecData.

Definition real_of (f : spec_float) : R :=
  match f with
  | S754_finite s m e => IZR (cond_Zopp s (Zpos m)) * powerRZ 2 e
  | _ => 0
  end.
Definition real (x : Z) : R := real_of (f32_of x).
(** Neither infinite nor a NaN *)
Definition finite_f (f : spec_float) : bool := match f with S754_finite _ _ _ | S754_zero _ => true | _ => false end.
Definition finite (x : Z) : bool := (0 <=? x) && (x <? 2 ^ 32) && finite_f (f32_of x).

(** The distance of two neighbouring codes *)
Definition step (mn mx bits : Z) : R := (real mx - real mn) / IZR (2 ^ bits - 1).
(** The larger absolute value of the bounds *)
Definition magnitude (mn mx : Z) : R := Rmax (Rabs (real mn)) (Rabs (real mx)).

(** ** Tracks *)

(** The coordinates of a track that are stored as quantised floats, each over all frames.  The
    w component of a rotation is not stored. *)
Definition columns (v : track_values) : list (list Z) :=
  match v with
  | TvTransform l => [map sx l; map sy l; map sz l; map rx l; map ry l; map rz l; map tx l; map ty_ l; map tz l]
  | TvUv l => [map uv_su l; map uv_sv l; map uv_rot l; map uv_tu l; map uv_tv l]
  | TvFloat l => [l]
  | TvVec4 l => [map v4x l; map v4y l; map v4z l; map v4w l]
  | TvPattern _ | TvBool _ => []
  end.
(** Finite numbers with finite differences *)
Definition column_finite (l : list Z) : Prop :=
  forall x y, In x l -> In y l -> finite x = true /\ finite_f (sub32 (f32_of x) (f32_of y)) = true.
(** [lo] is a smallest and [hi] a largest number of [l]. *)
Definition column_range (l : list Z) (lo hi : Z) : Prop :=
  In lo l /\ In hi l /\ forall x, In x l -> (real lo <= real x <= real hi)%R.
Definition values_finite (v : track_values) : Prop := forall col, In col (columns v) -> column_finite col.
Definition anim_finite (d : anim_data) : Prop := forall t, In t (tracks_of d) -> values_finite (td_values t).
(** Six steps of the 24 bit codes, and the rounding of the result *)
Definition column_error (lo hi : Z) : R := 6 * step lo hi 24 + magnitude lo hi / 8388608 + / IZR (2 ^ 150).

(** ** Vertex numbers *)

(** The real number of a half, and the patterns of finite halves *)
Definition real16 (h : Z) : R := real_of (f16_of h).
Definition finite16 (h : Z) : bool := (0 <=? h) && (h <? 2 ^ 16) && finite_f (f16_of h).
(** The nearest number of 0 .. 1 *)
Definition unit_part (r : R) : R := Rmax 0 (Rmin 1 r).
