(** Compression of animation tracks.  Paths below are relative to
    /repo/ssbh_data/src/anim_data. *)
From Verif Require Import Bytes Ssbh Formats Bits Float32.

(** ** Values; f32 fields are bit patterns *)
Record vec3 := V3 { v3x : Z; v3y : Z; v3z : Z }.
Record vec4 := V4 { v4x : Z; v4y : Z; v4z : Z; v4w : Z }.
Definition xyz (v : vec4) : vec3 := V3 (v4x v) (v4y v) (v4z v).

(** compression.rs:282-289 *)
Record utransform := UT { ut_scale : vec3; ut_rot : vec4; ut_trans : vec3; ut_comp : Z }.
(** ../anim_data.rs:671-678 *)
Record uvtransform := Uv { uv_su : Z; uv_sv : Z; uv_rot : Z; uv_tu : Z; uv_tv : Z }.

(** ** Compression parameters *)

(** F32Compression, compression.rs:187-195, and U32Compression, 164-172 *)
Record rangec := Rc { rc_min : Z; rc_max : Z; rc_bits : Z }.
(** compression.rs:220-225, 243-249, 271-278, 337-344 *)
Record vec3c := V3c { cx : rangec; cy : rangec; cz : rangec }.
Record vec4c := V4c { c4x : rangec; c4y : rangec; c4z : rangec; c4w : rangec }.
Record transformc := Tc { tc_scale : vec3c; tc_rot : vec3c; tc_trans : vec3c }.
Record uvc := Uvc { uc_su : rangec; uc_sv : rangec; uc_rot : rangec; uc_tu : rangec; uc_tv : rangec }.

(** CompressionFlags, compression.rs:62-73: bits 0 to 3 of a 16 bit word. *)
Definition has_scale (flags : Z) : bool := Z.testbit flags 0.
Definition uniform_scale (flags : Z) : bool := Z.testbit flags 1.
Definition has_rotation (flags : Z) : bool := Z.testbit flags 2.
Definition has_translation (flags : Z) : bool := Z.testbit flags 3.
Definition flags_of (scale uniform rotation translation : bool) : Z :=
  Z.b2z scale + 2 * Z.b2z uniform + 4 * Z.b2z rotation + 8 * Z.b2z translation.

(** DEFAULT_F32_BIT_COUNT, compression.rs:26 *)
Definition default_bits := 24.

(** F32Compression::from_range, compression.rs:197-207 *)
Definition f32_range (mn mx : Z) : rangec := Rc mn mx (if f32_eqb mn mx then 0 else default_bits).
(** Vector3Compression::from_range, compression.rs:227-235 *)
Definition vec3_range (mn mx : vec3) : vec3c :=
  V3c (f32_range (v3x mn) (v3x mx)) (f32_range (v3y mn) (v3y mx)) (f32_range (v3z mn) (v3z mx)).
(** Vector4Compression::from_range, compression.rs:251-260 *)
Definition vec4_range (mn mx : vec4) : vec4c :=
  V4c (f32_range (v4x mn) (v4x mx)) (f32_range (v4y mn) (v4y mx))
      (f32_range (v4z mn) (v4z mx)) (f32_range (v4w mn) (v4w mx)).

(** ** Bit counts *)

(** compression.rs:209-218 *)
Definition f32c_bits (c : rangec) : Z := if f32_eqb (rc_min c) (rc_max c) then 0 else rc_bits c.
(** compression.rs:237-241 *)
Definition vec3c_bits (c : vec3c) : Z := f32c_bits (cx c) + f32c_bits (cy c) + f32c_bits (cz c).
(** compression.rs:262-269 *)
Definition vec4c_bits (c : vec4c) : Z :=
  f32c_bits (c4x c) + f32c_bits (c4y c) + f32c_bits (c4z c) + f32c_bits (c4w c).
(** compression.rs:312-335 *)
Definition transformc_bits (c : transformc) (flags : Z) : Z :=
  (if has_translation flags then vec3c_bits (tc_trans c) else 0) +
  (if has_scale flags then
     (if uniform_scale flags then f32c_bits (cx (tc_scale c)) else vec3c_bits (tc_scale c))
   else 0) +
  (if has_rotation flags then vec3c_bits (tc_rot c) + 1 else 0).
(** compression.rs:346-364 *)
Definition uvc_bits (c : uvc) (flags : Z) : Z :=
  (if uniform_scale flags then f32c_bits (uc_su c) else f32c_bits (uc_su c) + f32c_bits (uc_sv c)) +
  f32c_bits (uc_rot c) + f32c_bits (uc_tu c) + f32c_bits (uc_tv c).

(** ** Single floats *)

(** bit_mask, compression.rs:390-395.  The counts in use are at most 32. *)
Definition bit_mask (bits : Z) : Z := 2 ^ bits - 1.

(** compress_f32, compression.rs:397-410 *)
Definition compress_f32 (value mn mx bits : Z) : Z :=
  let scale := bit_mask bits in
  let ratio := div32 (sub32 (f32_of value) (f32_of mn)) (sub32 (f32_of mx) (f32_of mn)) in
  f32_to_u32 (mul32 ratio (int_to_f32 scale)).

(** decompress_f32, compression.rs:412-427 *)
Definition decompress_f32 (value mn mx bits : Z) : Z :=
  let scale := bit_mask bits in
  let t := div64 (int_to_f64 value) (int_to_f64 scale) in
  let v := add64 (mul64 (f32_to_f64 (f32_of mn)) (sub64 (int_to_f64 1) t))
                 (mul64 (f32_to_f64 (f32_of mx)) t) in
  bits_of_f32 (f64_to_f32 v).

(** <f32 as CompressedData>::compress, compression.rs:825-835 *)
Definition f32_compress (x : Z) (c : rangec) (w : bwriter) : res bwriter :=
  if rc_bits c =? 0 then Ok w
  else bw_write (compress_f32 x (rc_min c) (rc_max c) (rc_bits c)) (rc_bits c) w.

(** <f32 as CompressedData>::decompress, compression.rs:804-823 *)
Definition f32_decompress (c : rangec) (default : Z) (r : breader) : res (Z * breader) :=
  if rc_bits c =? 0 then Ok (default, r)
  else if f32_eqb (rc_min c) (rc_max c) then Ok (default, r)
  else
    let* (value, r1) := read_u32_bits (rc_bits c) r in
    Ok (decompress_f32 value (rc_min c) (rc_max c) (rc_bits c), r1).

(** ** Vectors *)

(** compression.rs:637-659 *)
Definition vec3_decompress (c : vec3c) (d : vec3) (r : breader) : res (vec3 * breader) :=
  let* (x, r) := f32_decompress (cx c) (v3x d) r in
  let* (y, r) := f32_decompress (cy c) (v3y d) r in
  let* (z, r) := f32_decompress (cz c) (v3z d) r in
  Ok (V3 x y z, r).
Definition vec3_compress (v : vec3) (c : vec3c) (w : bwriter) : res bwriter :=
  let* w := f32_compress (v3x v) (cx c) w in
  let* w := f32_compress (v3y v) (cy c) w in
  f32_compress (v3z v) (cz c) w.

(** compression.rs:714-738 *)
Definition vec4_decompress (c : vec4c) (d : vec4) (r : breader) : res (vec4 * breader) :=
  let* (x, r) := f32_decompress (c4x c) (v4x d) r in
  let* (y, r) := f32_decompress (c4y c) (v4y d) r in
  let* (z, r) := f32_decompress (c4z c) (v4z d) r in
  let* (w, r) := f32_decompress (c4w c) (v4w d) r in
  Ok (V4 x y z w, r).
Definition vec4_compress (v : vec4) (c : vec4c) (w : bwriter) : res bwriter :=
  let* w := f32_compress (v4x v) (c4x c) w in
  let* w := f32_compress (v4y v) (c4y c) w in
  let* w := f32_compress (v4z v) (c4z c) w in
  f32_compress (v4w v) (c4w c) w.

(** ** Transforms *)

(** calculate_rotation_w, compression.rs:366-388: [read_bit().unwrap()] panics at the end
    of the stream.  A square that is not a number counts as positive. *)
Definition rotation_w (flip : bool) (r : vec3) : Z :=
  let sq x := mul32 (f32_of x) (f32_of x) in
  let w2 := sub32 (int_to_f32 1) (add32 (add32 (sq (v3x r)) (sq (v3y r))) (sq (v3z r))) in
  let negative := match w2 with
                  | S754_zero s | S754_infinity s | S754_finite s _ _ => s
                  | S754_nan => false
                  end in
  let w := if negative then S754_zero false else sqrt32 w2 in
  bits_of_f32 (if flip then SFopp w else w).
Definition calculate_rotation_w (rot : vec3) (r : breader) : res (Z * breader) :=
  match read_bit r with
  | Ok (flip, r1) => Ok (rotation_w flip rot, r1)
  | _ => Panic
  end.

(** compression.rs:434-476 *)
Definition transform_decompress (c : transformc) (d : utransform) (flags : Z) (r : breader)
  : res (utransform * breader) :=
  let* (scale, r) :=
    match has_scale flags, uniform_scale flags with
    | true, true =>
        let* (s, r) := f32_decompress (cx (tc_scale c)) (v3x (ut_scale d)) r in Ok (V3 s s s, r)
    | true, false => vec3_decompress (tc_scale c) (ut_scale d) r
    | false, true => Ok (V3 (v3x (ut_scale d)) (v3x (ut_scale d)) (v3x (ut_scale d)), r)
    | false, false => Ok (ut_scale d, r)
    end in
  let* (rot, r) :=
    if has_rotation flags then vec3_decompress (tc_rot c) (xyz (ut_rot d)) r
    else Ok (xyz (ut_rot d), r) in
  let* (trans, r) :=
    if has_translation flags then vec3_decompress (tc_trans c) (ut_trans d) r
    else Ok (ut_trans d, r) in
  let* (w, r) :=
    if has_rotation flags then calculate_rotation_w rot r else Ok (v4w (ut_rot d), r) in
  Ok (UT scale (V4 (v3x rot) (v3y rot) (v3z rot) w) trans (ut_comp d), r).

(** compression.rs:478-505 *)
Definition transform_compress (t : utransform) (c : transformc) (flags : Z) (w : bwriter) : res bwriter :=
  let* w := if uniform_scale flags then f32_compress (v3x (ut_scale t)) (cx (tc_scale c)) w
            else vec3_compress (ut_scale t) (tc_scale c) w in
  let* w := if has_rotation flags then vec3_compress (xyz (ut_rot t)) (tc_rot c) w else Ok w in
  let* w := if has_translation flags then vec3_compress (ut_trans t) (tc_trans c) w else Ok w in
  if has_rotation flags then bw_write_bit (sign_negative (v4w (ut_rot t))) w else Ok w.

(** compression.rs:547-571 *)
Definition uv_decompress (c : uvc) (d : uvtransform) (flags : Z) (r : breader) : res (uvtransform * breader) :=
  let* (su, sv, r) :=
    if uniform_scale flags then
      let* (s, r) := f32_decompress (uc_su c) (uv_su d) r in Ok (s, s, r)
    else
      let* (su, r) := f32_decompress (uc_su c) (uv_su d) r in
      let* (sv, r) := f32_decompress (uc_sv c) (uv_sv d) r in
      Ok (su, sv, r) in
  let* (rot, r) := f32_decompress (uc_rot c) (uv_rot d) r in
  let* (tu, r) := f32_decompress (uc_tu c) (uv_tu d) r in
  let* (tv, r) := f32_decompress (uc_tv c) (uv_tv d) r in
  Ok (Uv su sv rot tu tv, r).

(** compression.rs:573-590 *)
Definition uv_compress (t : uvtransform) (c : uvc) (flags : Z) (w : bwriter) : res bwriter :=
  let* w := if uniform_scale flags then f32_compress (uv_su t) (uc_su c) w
            else let* w := f32_compress (uv_su t) (uc_su c) w in f32_compress (uv_sv t) (uc_sv c) w in
  let* w := f32_compress (uv_rot t) (uc_rot c) w in
  let* w := f32_compress (uv_tu t) (uc_tu c) w in
  f32_compress (uv_tv t) (uc_tv c) w.

(** ** Pattern indices *)

(** compression.rs:757-771; the addition overflows u32 with a panic (debug build). *)
Definition u32_decompress (c : rangec) (r : breader) : res (Z * breader) :=
  if rc_bits c =? 0 then Ok (rc_min c, r)
  else
    let* (value, r1) := read_u32_bits (rc_bits c) r in
    if value + rc_min c <? 2 ^ 32 then Ok (value + rc_min c, r1) else Panic.
(** compression.rs:773-783; the subtraction underflows with a panic (debug build). *)
Definition u32_compress (x : Z) (c : rangec) (w : bwriter) : res bwriter :=
  if x <? rc_min c then Panic else bw_write (x - rc_min c) (rc_bits c) w.

(** ** Booleans, as the u8 inside [Boolean] *)

(** compression.rs:886-896 *)
Definition bool_decompress (bits_per_entry : Z) (r : breader) : res (Z * breader) :=
  read_u8_bits bits_per_entry r.
(** compression.rs:898-900 and 868-872 *)
Definition bool_compress (x : Z) (w : bwriter) : res bwriter := bw_write_bit (negb (x =? 0)) w.

(** ** Defaults and ranges of a track *)
Definition or_default {A} (d : A) (o : option A) : A := match o with Some x => x | None => d end.

(** compression.rs:673-679; Vector3::min etc. are componentwise, ssbh_lib/src/vectors.rs:69-95,
    263-291 *)
Definition find_min (l : list Z) : Z := or_default 0 (reduce f32_min l).
Definition find_max (l : list Z) : Z := or_default 0 (reduce f32_max l).
Definition vec3_zip (f : Z -> Z -> Z) (a b : vec3) : vec3 :=
  V3 (f (v3x a) (v3x b)) (f (v3y a) (v3y b)) (f (v3z a) (v3z b)).
Definition vec4_zip (f : Z -> Z -> Z) (a b : vec4) : vec4 :=
  V4 (f (v4x a) (v4x b)) (f (v4y a) (v4y b)) (f (v4z a) (v4z b)) (f (v4w a) (v4w b)).
(** compression.rs:681-707 *)
Definition find_min3 (l : list vec3) : vec3 := or_default (V3 0 0 0) (reduce (vec3_zip f32_min) l).
Definition find_max3 (l : list vec3) : vec3 := or_default (V3 0 0 0) (reduce (vec3_zip f32_max) l).
Definition find_min4 (l : list vec4) : vec4 := or_default (V4 0 0 0 0) (reduce (vec4_zip f32_min) l).
Definition find_max4 (l : list vec4) : vec4 := or_default (V4 0 0 0 0) (reduce (vec4_zip f32_max) l).

(** compression.rs:511-539 *)
Definition transform_default (l : list utransform) (compensate_scale : bool) : utransform * transformc :=
  let min_scale := find_min3 (map ut_scale l) in
  let max_scale := find_max3 (map ut_scale l) in
  let min_rotation := find_min4 (map ut_rot l) in
  let max_rotation := find_max4 (map ut_rot l) in
  let min_translation := find_min3 (map ut_trans l) in
  let max_translation := find_max3 (map ut_trans l) in
  (UT min_scale min_rotation min_translation (if compensate_scale then 1 else 0),
   Tc (vec3_range min_scale max_scale) (vec3_range (xyz min_rotation) (xyz max_rotation))
      (vec3_range min_translation max_translation)).

(** compression.rs:596-629 *)
Definition uv_default (l : list uvtransform) : uvtransform * uvc :=
  let mn f := find_min (map f l) in
  let mx f := find_max (map f l) in
  (Uv (mn uv_su) (mn uv_sv) (mn uv_rot) (mn uv_tu) (mn uv_tv),
   Uvc (f32_range (mn uv_su) (mx uv_su)) (f32_range (mn uv_sv) (mx uv_sv)) (f32_range (mn uv_rot) (mx uv_rot))
       (f32_range (mn uv_tu) (mx uv_tu)) (f32_range (mn uv_tv) (mx uv_tv))).

(** compression.rs:742-748 *)
Definition vec4_default (l : list vec4) : vec4 * vec4c :=
  (find_min4 l, vec4_range (find_min4 l) (find_max4 l)).

(** compression.rs:839-846 *)
Definition f32_default (l : list Z) : Z * rangec := (find_min l, f32_range (find_min l) (find_max l)).

(** compression.rs:787-796 *)
Definition u32_default (l : list Z) : Z * rangec :=
  (0, Rc (or_default 0 (reduce Z.min l)) (or_default 0 (reduce Z.max l)) default_bits).

(** ** Stored forms, as values of the universe of Ssbh.v *)
Definition F32Compression : ty := record [f32; f32; u64].
Definition Vector3Compression : ty := record [F32Compression; F32Compression; F32Compression].
Definition Vector4Compression : ty := record [F32Compression; F32Compression; F32Compression; F32Compression].
Definition TransformCompression : ty := record [Vector3Compression; Vector3Compression; Vector3Compression].
Definition UvTransformCompression : ty :=
  record [F32Compression; F32Compression; F32Compression; F32Compression; F32Compression].
Definition UncompressedTransform : ty := record [Vector3; Vector4; Vector3; u32].
Definition UvTransform : ty := record [f32; f32; f32; f32; f32].
Definition Boolean : ty := record [u8].

Definition vec3_val (v : vec3) : val := VStruct [VInt (v3x v); VInt (v3y v); VInt (v3z v)].
Definition vec4_val (v : vec4) : val := VStruct [VInt (v4x v); VInt (v4y v); VInt (v4z v); VInt (v4w v)].
Definition utransform_val (t : utransform) : val :=
  VStruct [vec3_val (ut_scale t); vec4_val (ut_rot t); vec3_val (ut_trans t); VInt (ut_comp t)].
Definition uv_val (t : uvtransform) : val :=
  VStruct [VInt (uv_su t); VInt (uv_sv t); VInt (uv_rot t); VInt (uv_tu t); VInt (uv_tv t)].
Definition bool_val (x : Z) : val := VStruct [VInt x].
Definition range_val (c : rangec) : val := VStruct [VInt (rc_min c); VInt (rc_max c); VInt (rc_bits c)].
Definition vec3c_val (c : vec3c) : val := VStruct [range_val (cx c); range_val (cy c); range_val (cz c)].
Definition vec4c_val (c : vec4c) : val :=
  VStruct [range_val (c4x c); range_val (c4y c); range_val (c4z c); range_val (c4w c)].
Definition transformc_val (c : transformc) : val :=
  VStruct [vec3c_val (tc_scale c); vec3c_val (tc_rot c); vec3c_val (tc_trans c)].
Definition uvc_val (c : uvc) : val :=
  VStruct [range_val (uc_su c); range_val (uc_sv c); range_val (uc_rot c); range_val (uc_tu c); range_val (uc_tv c)].

(** The other direction; other shapes cannot be read. *)
Definition un_z (v : val) : res Z := match v with VInt n => Ok n | _ => Err EType end.
Definition un_vec3 (v : val) : res vec3 :=
  match v with VStruct [VInt x; VInt y; VInt z] => Ok (V3 x y z) | _ => Err EType end.
Definition un_vec4 (v : val) : res vec4 :=
  match v with VStruct [VInt x; VInt y; VInt z; VInt w] => Ok (V4 x y z w) | _ => Err EType end.
Definition un_utransform (v : val) : res utransform :=
  match v with
  | VStruct [s; r; t; VInt c] =>
      let* s := un_vec3 s in let* r := un_vec4 r in let* t := un_vec3 t in Ok (UT s r t c)
  | _ => Err EType
  end.
Definition un_uv (v : val) : res uvtransform :=
  match v with
  | VStruct [VInt a; VInt b; VInt c; VInt d; VInt e] => Ok (Uv a b c d e)
  | _ => Err EType
  end.
Definition un_bool (v : val) : res Z := match v with VStruct [VInt x] => Ok x | _ => Err EType end.
(** #[br(assert(bit_count <= 32))], compression.rs:170, 193 *)
Definition un_range (v : val) : res rangec :=
  match v with
  | VStruct [VInt a; VInt b; VInt n] => if n <=? 32 then Ok (Rc a b n) else Err (EData DAssert)
  | _ => Err EType
  end.
Definition un_vec3c (v : val) : res vec3c :=
  match v with
  | VStruct [x; y; z] =>
      let* x := un_range x in let* y := un_range y in let* z := un_range z in Ok (V3c x y z)
  | _ => Err EType
  end.
Definition un_vec4c (v : val) : res vec4c :=
  match v with
  | VStruct [x; y; z; w] =>
      let* x := un_range x in let* y := un_range y in let* z := un_range z in let* w := un_range w in
      Ok (V4c x y z w)
  | _ => Err EType
  end.
Definition un_transformc (v : val) : res transformc :=
  match v with
  | VStruct [s; r; t] =>
      let* s := un_vec3c s in let* r := un_vec3c r in let* t := un_vec3c t in Ok (Tc s r t)
  | _ => Err EType
  end.
Definition un_uvc (v : val) : res uvc :=
  match v with
  | VStruct [a; b; c; d; e] =>
      let* a := un_range a in let* b := un_range b in let* c := un_range c in let* d := un_range d in
      let* e := un_range e in Ok (Uvc a b c d e)
  | _ => Err EType
  end.

(** ** The trait CompressedData, compression.rs:104-142, with its associated Compression *)
Record codec (T C : Type) := Codec {
  cd_ty : ty;                                     (* BinRead and SsbhWrite of Self *)
  cd_val : T -> val;
  cd_un : val -> res T;
  cd_cty : ty;                                    (* and of Self::Compression *)
  cd_cval : C -> val;
  cd_cun : val -> res C;
  cd_bits : C -> Z -> Z;                          (* Compression::bit_count *)
  cd_compress : T -> C -> Z -> bwriter -> res bwriter;
  cd_decompress : C -> T -> Z -> Z -> breader -> res (T * breader);   (* flags, bits_per_entry *)
  cd_default : list T -> bool -> T * C
}.
Arguments Codec {T C}.
Arguments cd_ty {T C}. Arguments cd_val {T C}. Arguments cd_un {T C}. Arguments cd_cty {T C}.
Arguments cd_cval {T C}. Arguments cd_cun {T C}. Arguments cd_bits {T C}.
Arguments cd_compress {T C}. Arguments cd_decompress {T C}. Arguments cd_default {T C}.

(** compression.rs:429-540 *)
Definition transform_codec : codec utransform transformc :=
  Codec UncompressedTransform utransform_val un_utransform TransformCompression transformc_val un_transformc
    transformc_bits transform_compress (fun c d flags _ => transform_decompress c d flags) transform_default.
(** compression.rs:542-630 *)
Definition uv_codec : codec uvtransform uvc :=
  Codec UvTransform uv_val un_uv UvTransformCompression uvc_val un_uvc
    uvc_bits uv_compress (fun c d flags _ => uv_decompress c d flags) (fun l _ => uv_default l).
(** compression.rs:709-749 *)
Definition vec4_codec : codec vec4 vec4c :=
  Codec Vector4 vec4_val un_vec4 Vector4Compression vec4c_val un_vec4c
    (fun c _ => vec4c_bits c) (fun v c _ => vec4_compress v c) (fun c d _ _ => vec4_decompress c d)
    (fun l _ => vec4_default l).
(** compression.rs:752-797 *)
Definition u32_codec : codec Z rangec :=
  Codec u32 VInt un_z F32Compression range_val un_range
    (fun c _ => rc_bits c) (fun v c _ => u32_compress v c) (fun c _ _ _ => u32_decompress c)
    (fun l _ => u32_default l).
(** compression.rs:799-847 *)
Definition f32_codec : codec Z rangec :=
  Codec f32 VInt un_z F32Compression range_val un_range
    (fun c _ => f32c_bits c) (fun v c _ => f32_compress v c) (fun c d _ _ => f32_decompress c d)
    (fun l _ => f32_default l).
(** compression.rs:880-910, and 181-185 for u128 *)
Definition bool_codec : codec Z Z :=
  Codec Boolean bool_val un_bool (TInt 16) VInt un_z
    (fun _ _ => 1) (fun v _ _ => bool_compress v) (fun _ _ _ bpe => bool_decompress bpe)
    (fun _ _ => (0, 0)).
