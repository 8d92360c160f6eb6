(** Specification for reading the data of animation tracks: what is stored, by its position in
    the bytes, whoever wrote them. *)
From Verif Require Import Bytes Ssbh SsbhSpec Bits Float32 AnimComp AnimBuf AnimSpec.

(** ** Values without compression; floats are bit patterns *)
Definition word_at (b : list Z) (p n : Z) : Prop := uint_at b p 4 n.
Definition vec3_at (b : list Z) (p : Z) (v : vec3) : Prop :=
  word_at b p (v3x v) /\ word_at b (p + 4) (v3y v) /\ word_at b (p + 8) (v3z v).
Definition vec4_at (b : list Z) (p : Z) (v : vec4) : Prop :=
  word_at b p (v4x v) /\ word_at b (p + 4) (v4y v) /\ word_at b (p + 8) (v4z v) /\ word_at b (p + 12) (v4w v).
Definition transform_at (b : list Z) (p : Z) (t : utransform) : Prop :=
  vec3_at b p (ut_scale t) /\ vec4_at b (p + 12) (ut_rot t) /\ vec3_at b (p + 28) (ut_trans t) /\
  word_at b (p + 40) (ut_comp t).
Definition uv_at (b : list Z) (p : Z) (t : uvtransform) : Prop :=
  word_at b p (uv_su t) /\ word_at b (p + 4) (uv_sv t) /\ word_at b (p + 8) (uv_rot t) /\
  word_at b (p + 12) (uv_tu t) /\ word_at b (p + 16) (uv_tv t).
Definition bool_at (b : list Z) (p x : Z) : Prop := uint_at b p 1 x.

(** [n] values of [size] bytes *)
Definition plain_at {T} (value : list Z -> Z -> T -> Prop) (size : Z) (b : list Z) (n : Z) (l : list T) : Prop :=
  zlen l = n /\ forall k x, nth_error l k = Some x -> value b (size * Z.of_nat k) x.

(** ** Compression parameters: smallest value, largest value and number of bits of a component *)
Definition range_at (b : list Z) (p : Z) (c : rangec) : Prop :=
  word_at b p (rc_min c) /\ word_at b (p + 4) (rc_max c) /\ uint_at b (p + 8) 8 (rc_bits c) /\ rc_bits c <= 32.
Definition ranges3_at (b : list Z) (p : Z) (c : vec3c) : Prop :=
  range_at b p (cx c) /\ range_at b (p + 16) (cy c) /\ range_at b (p + 32) (cz c).
Definition ranges4_at (b : list Z) (p : Z) (c : vec4c) : Prop :=
  range_at b p (c4x c) /\ range_at b (p + 16) (c4y c) /\ range_at b (p + 32) (c4z c) /\ range_at b (p + 48) (c4w c).
Definition transform_ranges_at (b : list Z) (p : Z) (c : transformc) : Prop :=
  ranges3_at b p (tc_scale c) /\ ranges3_at b (p + 48) (tc_rot c) /\ ranges3_at b (p + 96) (tc_trans c).
Definition uv_ranges_at (b : list Z) (p : Z) (c : uvc) : Prop :=
  range_at b p (uc_su c) /\ range_at b (p + 16) (uc_sv c) /\ range_at b (p + 32) (uc_rot c) /\
  range_at b (p + 48) (uc_tu c) /\ range_at b (p + 64) (uc_tv c).
(** Boolean tracks have 16 bytes without a meaning in this place. *)
Definition unused_at (b : list Z) (p x : Z) : Prop := uint_at b p 16 x.

(** ** Frames; positions are numbers of bits from the start of the bytes *)

(** The number of [w] bits at [pos], lowest bit first *)
Definition code_at (b : list Z) (pos w v : Z) : Prop :=
  0 <= v < 2 ^ w /\ forall i, 0 <= i < w -> stream_bit b (pos + i) = Some (Z.testbit v i).

(** A component takes no space if its range is a single value. *)
Definition width (c : rangec) : Z := if f32_eqb (rc_min c) (rc_max c) then 0 else rc_bits c.
(** A component that takes no space has the default value [d]; otherwise the code [v] stands for
    the value v / (2^bits - 1) of the way from the smallest to the largest (C29). *)
Definition component (b : list Z) (pos : Z) (c : rangec) (d x : Z) : Prop :=
  if width c =? 0 then x = d
  else exists v, code_at b pos (width c) v /\ x = decompress_f32 v (rc_min c) (rc_max c) (width c).

Definition width3 (c : vec3c) : Z := width (cx c) + width (cy c) + width (cz c).
Definition components3 (b : list Z) (pos : Z) (c : vec3c) (d v : vec3) : Prop :=
  component b pos (cx c) (v3x d) (v3x v) /\
  component b (pos + width (cx c)) (cy c) (v3y d) (v3y v) /\
  component b (pos + width (cx c) + width (cy c)) (cz c) (v3z d) (v3z v).

(** Bits of the flags: 0 scale, 1 uniform scale, 2 rotation, 3 translation.  What is absent is
    the default value. *)
Definition scale_width (c : transformc) (flags : Z) : Z :=
  if Z.testbit flags 0 then (if Z.testbit flags 1 then width (cx (tc_scale c)) else width3 (tc_scale c)) else 0.
Definition rotation_width (c : transformc) (flags : Z) : Z := if Z.testbit flags 2 then width3 (tc_rot c) else 0.
Definition translation_width (c : transformc) (flags : Z) : Z := if Z.testbit flags 3 then width3 (tc_trans c) else 0.
Definition transform_width (c : transformc) (flags : Z) : Z :=
  scale_width c flags + rotation_width c flags + translation_width c flags + (if Z.testbit flags 2 then 1 else 0).

(** Scale, rotation, translation and the sign of w, which is computed from x, y and z (C58) *)
Definition transform_frame (b : list Z) (pos : Z) (c : transformc) (d : utransform) (flags : Z) (t : utransform) : Prop :=
  let rot := pos + scale_width c flags in
  let trans := rot + rotation_width c flags in
  let sign := trans + translation_width c flags in
  (if Z.testbit flags 1 then
     v3y (ut_scale t) = v3x (ut_scale t) /\ v3z (ut_scale t) = v3x (ut_scale t) /\
     (if Z.testbit flags 0 then component b pos (cx (tc_scale c)) (v3x (ut_scale d)) (v3x (ut_scale t))
      else v3x (ut_scale t) = v3x (ut_scale d))
   else if Z.testbit flags 0 then components3 b pos (tc_scale c) (ut_scale d) (ut_scale t)
   else ut_scale t = ut_scale d) /\
  (if Z.testbit flags 2 then
     components3 b rot (tc_rot c) (xyz (ut_rot d)) (xyz (ut_rot t)) /\
     exists negative, stream_bit b sign = Some negative /\ v4w (ut_rot t) = rotation_w negative (xyz (ut_rot t))
   else ut_rot t = ut_rot d) /\
  (if Z.testbit flags 3 then components3 b trans (tc_trans c) (ut_trans d) (ut_trans t) else ut_trans t = ut_trans d) /\
  ut_comp t = ut_comp d.

(** Only the flag for uniform scale matters for texture transforms. *)
Definition uv_scale_width (c : uvc) (flags : Z) : Z :=
  if Z.testbit flags 1 then width (uc_su c) else width (uc_su c) + width (uc_sv c).
Definition uv_width (c : uvc) (flags : Z) : Z :=
  uv_scale_width c flags + width (uc_rot c) + width (uc_tu c) + width (uc_tv c).
Definition uv_frame (b : list Z) (pos : Z) (c : uvc) (d : uvtransform) (flags : Z) (t : uvtransform) : Prop :=
  let rot := pos + uv_scale_width c flags in
  component b pos (uc_su c) (uv_su d) (uv_su t) /\
  (if Z.testbit flags 1 then uv_sv t = uv_su t
   else component b (pos + width (uc_su c)) (uc_sv c) (uv_sv d) (uv_sv t)) /\
  component b rot (uc_rot c) (uv_rot d) (uv_rot t) /\
  component b (rot + width (uc_rot c)) (uc_tu c) (uv_tu d) (uv_tu t) /\
  component b (rot + width (uc_rot c) + width (uc_tu c)) (uc_tv c) (uv_tv d) (uv_tv t).

Definition width4 (c : vec4c) : Z := width (c4x c) + width (c4y c) + width (c4z c) + width (c4w c).
Definition vec4_frame (b : list Z) (pos : Z) (c : vec4c) (d v : vec4) : Prop :=
  component b pos (c4x c) (v4x d) (v4x v) /\
  component b (pos + width (c4x c)) (c4y c) (v4y d) (v4y v) /\
  component b (pos + width (c4x c) + width (c4y c)) (c4z c) (v4z d) (v4z v) /\
  component b (pos + width (c4x c) + width (c4y c) + width (c4z c)) (c4w c) (v4w d) (v4w v).

(** Indices count from the smallest; the largest and the default are not used. *)
Definition index_frame (b : list Z) (pos : Z) (c : rangec) (x : Z) : Prop :=
  exists v, code_at b pos (rc_bits c) v /\ x = rc_min c + v /\ x < 2 ^ 32.

(** ** Compressed tracks *)

(** The header: flags, position of the default value, bits per frame and position of the bits.
    The words at 0 and 12 are not used but have to exist. *)
Definition header_at (b : list Z) (flags default bits bits_at : Z) : Prop :=
  16 <= zlen b /\ uint_at b 2 2 flags /\ uint_at b 4 2 default /\ uint_at b 6 2 bits /\ uint_at b 8 4 bits_at.

(** Only one frame is returned if frames take no space. *)
Definition compressed_at {T C} (params : list Z -> Z -> C -> Prop) (value : list Z -> Z -> T -> Prop) (bits : C -> Z -> Z)
  (frame : list Z -> Z -> C -> T -> Z -> T -> Prop) (b : list Z) (n : Z) (l : list T) : Prop :=
  exists flags default bits_at c,
    header_at b flags default (bits c flags) bits_at /\ params b 16 c /\ bits_at <> 0 /\
    zlen l = (if bits c flags =? 0 then Z.min n 1 else n) /\
    (default = 0 -> l = []) /\
    (default <> 0 -> exists d, value b default d /\
       forall k x, nth_error l k = Some x -> frame b (8 * bits_at + bits c flags * Z.of_nat k) c d flags x).

(** ** All tracks *)
Definition transforms_at (compression : Z) : list Z -> Z -> list utransform -> Prop :=
  if compression =? Compressed then compressed_at transform_ranges_at transform_at transform_width transform_frame
  else plain_at transform_at 44.
Definition uvs_at (compression : Z) : list Z -> Z -> list uvtransform -> Prop :=
  if compression =? Compressed then compressed_at uv_ranges_at uv_at uv_width uv_frame else plain_at uv_at 20.
Definition floats_at (compression : Z) : list Z -> Z -> list Z -> Prop :=
  if compression =? Compressed
  then compressed_at range_at word_at (fun c _ => width c) (fun b pos c d _ => component b pos c d)
  else plain_at word_at 4.
Definition indices_at (compression : Z) : list Z -> Z -> list Z -> Prop :=
  if compression =? Compressed
  then compressed_at range_at word_at (fun c _ => rc_bits c) (fun b pos c _ _ => index_frame b pos c)
  else plain_at word_at 4.
Definition bools_at (compression : Z) : list Z -> Z -> list Z -> Prop :=
  if compression =? Compressed
  then compressed_at unused_at bool_at (fun _ _ => 1) (fun b pos _ _ _ => code_at b pos 1)
  else plain_at bool_at 1.
Definition vec4s_at (compression : Z) : list Z -> Z -> list vec4 -> Prop :=
  if compression =? Compressed
  then compressed_at ranges4_at vec4_at (fun c _ => width4 c) (fun b pos c d _ => vec4_frame b pos c d)
  else plain_at vec4_at 16.

(** The values of a track of type [t] with [n] frames.  Scale compensation is that of the first
    frame. *)
Definition track_at (b : list Z) (t compression n : Z) (v : track_values) (compensate : bool) : Prop :=
  match v with
  | TvTransform l =>
      t = 1 /\ exists us, transforms_at compression b n us /\
        l = map (fun u => Tr (ut_scale u) (ut_rot u) (ut_trans u)) us /\
        (compensate = true <-> exists u r, us = u :: r /\ ut_comp u <> 0)
  | TvUv l => t = 2 /\ uvs_at compression b n l /\ compensate = false
  | TvFloat l => t = 3 /\ floats_at compression b n l /\ compensate = false
  | TvPattern l => t = 5 /\ indices_at compression b n l /\ compensate = false
  | TvBool l =>
      t = 8 /\ exists xs, bools_at compression b n xs /\ l = map (fun x => negb (x =? 0)) xs /\ compensate = false
  | TvVec4 l => t = 9 /\ vec4s_at compression b n l /\ compensate = false
  end.

(** ** When reading panics *)

(** The bits end just before the sign of w of a frame that is to be read, or an index that is to
    be read does not fit 32 bits. *)
Definition sign_missing (b : list Z) (n : Z) : Prop :=
  exists flags default bits_at c d k,
    header_at b flags default (transform_width c flags) bits_at /\ transform_ranges_at b 16 c /\ bits_at <> 0 /\
    default <> 0 /\ transform_at b default d /\ Z.testbit flags 2 = true /\
    0 <= k < n /\ 8 * bits_at + transform_width c flags * (k + 1) = 8 * Z.max bits_at (zlen b) + 1.
Definition index_too_large (b : list Z) (n : Z) : Prop :=
  exists flags default bits_at c d k v,
    header_at b flags default (rc_bits c) bits_at /\ range_at b 16 c /\ bits_at <> 0 /\
    default <> 0 /\ word_at b default d /\
    0 < rc_bits c /\ 0 <= k < n /\ code_at b (8 * bits_at + rc_bits c * k) (rc_bits c) v /\ 2 ^ 32 <= rc_min c + v.
