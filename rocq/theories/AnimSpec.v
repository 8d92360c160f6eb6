(** Specification for bit streams and animation tracks. *)
From Verif Require Import Bytes Ssbh SsbhSpec Strings Bits Float32 AnimComp AnimBuf.

(** ** Bit streams: a sequence of integers with a width, and single bits *)
Inductive item := Bits (value width : Z) | Bit (b : bool).

Definition item_width (i : item) : Z := match i with Bits _ n => n | Bit _ => 1 end.
Definition total_width (l : list item) : Z := fold_right (fun i n => item_width i + n) 0 l.
Definition item_ok (i : item) : Prop := 1 <= item_width i <= 32.
(** What can be stored in the width of the item *)
Definition stored_item (i : item) : item :=
  match i with Bits v n => Bits (v mod 2 ^ n) n | Bit b => Bit b end.

(** Bit [j] of an item *)
Definition item_bit (i : item) (j : Z) : bool := match i with Bits v _ => Z.testbit v j | Bit b => b end.

(** One writer call per item, and one reader call per item *)
Fixpoint write_items (l : list item) (w : bwriter) : res bwriter :=
  match l with
  | [] => Ok w
  | i :: r =>
      let* w := match i with Bits v n => bw_write v n w | Bit b => bw_write_bit b w end in
      write_items r w
  end.
Fixpoint read_items (l : list item) (r : breader) : res (list item) :=
  match l with
  | [] => Ok []
  | i :: t =>
      let* (x, r) :=
        match i with
        | Bits _ n => let* (v, r) := read_u32_bits n r in Ok (Bits v n, r)
        | Bit _ => let* (b, r) := read_bit r in Ok (Bit b, r)
        end in
      let* xs := read_items t r in
      Ok (x :: xs)
  end.

(** Bit [i] of a stream of bytes: least significant bit of the first byte first *)
Definition stream_bit (bytes : list Z) (i : Z) : option bool :=
  option_map (fun x => Z.testbit x (i mod 8)) (byte_at bytes (i / 8)).

(** ** Data without pointers: the little endian bytes of the fields one after the other *)
Fixpoint plain (t : ty) : bool :=
  match t with
  | TInt w | TBits w => 0 <? w
  | TStruct fs spad aa _ =>
      (spad =? 0) && (aa =? 0) &&
      (fix go (fs : list (ty * (Z * Z))) : bool :=
         match fs with
         | [] => true
         | (t', (wp, rp)) :: r => plain t' && (wp =? 0) && (rp =? 0) && go r
         end) fs
  | TFix n t' | TVec n t' => (0 <=? n) && plain t'
  | _ => false
  end.
Fixpoint enc (t : ty) (v : val) : list Z :=
  match t, v with
  | TInt w, VInt n | TBits w, VInt n => le_bytes (Z.to_nat w) n
  | TStruct fs _ _ _, VStruct vs =>
      (fix go (fs : list (ty * (Z * Z))) (vs : list val) : list Z :=
         match fs, vs with
         | (t', _) :: fr, v' :: vr => enc t' v' ++ go fr vr
         | _, _ => []
         end) fs vs
  | TFix _ t', VArr vs | TVec _ t', VArr vs => flat_map (enc t') vs
  | _, _ => []
  end.

(** ** Compressed tracks: a 16 byte header with the flags, the position of the default value,
    the number of bits per frame, the position of the bits and the number of frames,
    followed by the compression parameters, the default value and the bits. *)
Definition compressed_track (flags bits count : Z) (params default buffer : list Z) : list Z :=
  le_bytes 2 4 ++ le_bytes 2 flags ++ le_bytes 2 (16 + zlen params) ++ le_bytes 2 bits ++
  le_bytes 4 (16 + zlen params + zlen default) ++ le_bytes 4 count ++ params ++ default ++ buffer.

(** ** What compression does to the values of a track

    A component (one coordinate over all frames) whose smallest and largest value are equal
    takes no space; any other is stored as a 24 bit code per frame (C29 is about the code). *)
Definition comp_bits (mn mx : Z) : Z := if f32_eqb mn mx then 0 else 24.
Definition comp_code (mn mx x : Z) : Z := compress_f32 x mn mx 24 mod 2 ^ 24.
Definition comp_value (mn mx x : Z) : Z :=
  if f32_eqb mn mx then mn else decompress_f32 (comp_code mn mx x) mn mx 24.

(** The number of bits and the value read back for the component [f] of a track *)
Definition cbits {T} (f : T -> Z) (l : list T) : Z := comp_bits (find_min (map f l)) (find_max (map f l)).
Definition cvalue {T} (f : T -> Z) (l : list T) (x : T) : Z :=
  comp_value (find_min (map f l)) (find_max (map f l)) (f x).

(** Scales with equal coordinates in all frames are stored once. *)
Definition tr_uniform (l : list transform) : bool :=
  forallb (fun t => f32_eqb (v3x (tr_scale t)) (v3y (tr_scale t)) && f32_eqb (v3y (tr_scale t)) (v3z (tr_scale t))) l.
Definition uv_uniform (l : list uvtransform) : bool := forallb (fun t => f32_eqb (uv_su t) (uv_sv t)) l.

Definition sx t := v3x (tr_scale t).  Definition sy t := v3y (tr_scale t).  Definition sz t := v3z (tr_scale t).
Definition rx t := v4x (tr_rot t).    Definition ry t := v4y (tr_rot t).    Definition rz t := v4z (tr_rot t).
Definition tx t := v3x (tr_trans t).  Definition ty_ t := v3y (tr_trans t). Definition tz t := v3z (tr_trans t).

(** Bits per frame *)
Definition frame_bits (v : track_values) : Z :=
  match v with
  | TvTransform l =>
      (if tr_uniform l then cbits sx l else cbits sx l + cbits sy l + cbits sz l) +
      (cbits rx l + cbits ry l + cbits rz l) + (cbits tx l + cbits ty_ l + cbits tz l) + 1
  | TvUv l =>
      (if uv_uniform l then cbits uv_su l else cbits uv_su l + cbits uv_sv l) +
      cbits uv_rot l + cbits uv_tu l + cbits uv_tv l
  | TvFloat l => cbits (fun x => x) l
  | TvPattern _ => 24
  | TvBool _ => 1
  | TvVec4 l => cbits v4x l + cbits v4y l + cbits v4z l + cbits v4w l
  end.

(** The values read back.  The w component of a rotation is recomputed from the others, only
    its sign is stored; pattern indices are stored relative to the smallest. *)
Definition stored_transform (l : list transform) (t : transform) : transform :=
  let rot := V3 (cvalue rx l t) (cvalue ry l t) (cvalue rz l t) in
  Tr (if tr_uniform l then V3 (cvalue sx l t) (cvalue sx l t) (cvalue sx l t)
      else V3 (cvalue sx l t) (cvalue sy l t) (cvalue sz l t))
     (V4 (v3x rot) (v3y rot) (v3z rot) (rotation_w (sign_negative (v4w (tr_rot t))) rot))
     (V3 (cvalue tx l t) (cvalue ty_ l t) (cvalue tz l t)).
Definition stored_uv (l : list uvtransform) (t : uvtransform) : uvtransform :=
  Uv (cvalue uv_su l t) (if uv_uniform l then cvalue uv_su l t else cvalue uv_sv l t)
     (cvalue uv_rot l t) (cvalue uv_tu l t) (cvalue uv_tv l t).
Definition stored_vec4 (l : list vec4) (v : vec4) : vec4 :=
  V4 (cvalue v4x l v) (cvalue v4y l v) (cvalue v4z l v) (cvalue v4w l v).
Definition lowest (l : list Z) : Z := or_default 0 (reduce Z.min l).
Definition stored_index (l : list Z) (x : Z) : Z := lowest l + (x - lowest l) mod 2 ^ 24.

Definition stored_values (v : track_values) : track_values :=
  match v with
  | TvTransform l => TvTransform (map (stored_transform l) l)
  | TvUv l => TvUv (map (stored_uv l) l)
  | TvFloat l => TvFloat (map (cvalue (fun x => x) l) l)
  | TvPattern l => TvPattern (map (stored_index l) l)
  | TvBool l => TvBool l
  | TvVec4 l => TvVec4 (map (stored_vec4 l) l)
  end.

(** Only the first frame *)
Definition first_frame (v : track_values) : track_values :=
  match v with
  | TvTransform l => TvTransform (firstn 1 l) | TvUv l => TvUv (firstn 1 l) | TvFloat l => TvFloat (firstn 1 l)
  | TvPattern l => TvPattern (firstn 1 l) | TvBool l => TvBool (firstn 1 l) | TvVec4 l => TvVec4 (firstn 1 l)
  end.

(** f32 and u32 values *)
Definition is32 (x : Z) : bool := (0 <=? x) && (x <? 2 ^ 32).
Definition vec3_ok (v : vec3) : bool := is32 (v3x v) && is32 (v3y v) && is32 (v3z v).
Definition vec4_ok (v : vec4) : bool := is32 (v4x v) && is32 (v4y v) && is32 (v4z v) && is32 (v4w v).
Definition values_ok (v : track_values) : bool :=
  match v with
  | TvTransform l => forallb (fun t => vec3_ok (tr_scale t) && vec4_ok (tr_rot t) && vec3_ok (tr_trans t)) l
  | TvUv l => forallb (fun t => is32 (uv_su t) && is32 (uv_sv t) && is32 (uv_rot t) && is32 (uv_tu t) && is32 (uv_tv t)) l
  | TvFloat l | TvPattern l => forallb is32 l
  | TvBool _ => true
  | TvVec4 l => forallb vec4_ok l
  end.

(** Scale compensation is stored with the values of a transform track. *)
Definition stored_compensation (v : track_values) (cs : bool) : bool :=
  match v with TvTransform (_ :: _) => cs | _ => false end.

(** ** Whole animations *)

(** Text that can be stored and read back: valid UTF-8 without NUL *)
Definition text_ok (s : list Z) : bool := utf8_valid s && forallb (fun x => negb (x =? 0)) s.

Definition tracks_of (d : anim_data) : list track_data :=
  flat_map (fun g => flat_map nd_tracks (gd_nodes g)) (ad_groups d).

Definition track_ok (t : track_data) : bool :=
  text_ok (td_name t) && values_ok (td_values t) && (tv_len (td_values t) <? 2 ^ 32).
Definition node_ok (n : node_data) : bool :=
  text_ok (nd_name n) && (zlen (nd_tracks n) <? 2 ^ 64) && forallb track_ok (nd_tracks n).
(** The group types Transform, Visibility, Material and Camera *)
Definition group_ok (g : group_data) : bool :=
  existsb (Z.eqb (gd_type g)) [1; 2; 4; 5] && (zlen (gd_nodes g) <? 2 ^ 64) && forallb node_ok (gd_nodes g).
Definition anim_ok (d : anim_data) : bool :=
  is32 (ad_final d) && (zlen (ad_groups d) <? 2 ^ 64) && forallb group_ok (ad_groups d).

(** What a track is read back as.  Whether a track is compressed depends on the number of
    frames only: these are the largest numbers of frames that are not. *)
Definition plain_frames (v : track_values) : Z :=
  match v with TvTransform _ => 5 | TvUv _ => 6 | TvFloat _ | TvPattern _ => 10 | TvBool _ => 34 | TvVec4 _ => 7 end.
Definition compressed (v : track_values) : bool := plain_frames v <? tv_len v.
Definition stored_track_values (v : track_values) : track_values :=
  if compressed v then (if frame_bits v =? 0 then first_frame (stored_values v) else stored_values v) else v.
Definition stored_track (t : track_data) : track_data :=
  TD (td_name t) (stored_compensation (td_values t) (td_comp t)) (td_flags t) (stored_track_values (td_values t)).
Definition stored_node (n : node_data) : node_data := ND (nd_name n) (map stored_track (nd_tracks n)).
Definition stored_group (g : group_data) : group_data := GD (gd_type g) (map stored_node (gd_nodes g)).
Definition stored_anim (d : anim_data) : anim_data :=
  AD (ad_major d) (ad_minor d) (ad_final d) (map stored_group (ad_groups d)).

(** The number of bytes of a track: 4 bytes per float or index, one per boolean and a word
    for scale compensation; compressed tracks have a header with the range of every
    component. *)
Definition value_size (v : track_values) : Z :=
  match v with TvTransform _ => 44 | TvUv _ => 20 | TvFloat _ | TvPattern _ => 4 | TvBool _ => 1 | TvVec4 _ => 16 end.
Definition params_size (v : track_values) : Z :=
  match v with
  | TvTransform _ => 9 * 16 | TvUv _ => 5 * 16 | TvFloat _ | TvPattern _ | TvBool _ => 16 | TvVec4 _ => 4 * 16
  end.
Definition track_size (v : track_values) : Z :=
  if compressed v then 16 + params_size v + value_size v + (tv_len v * frame_bits v + 7) / 8
  else tv_len v * value_size v.
Definition anim_size (d : anim_data) : Z := fold_right Z.add 0 (map (fun t => track_size (td_values t)) (tracks_of d)).

(** The final frame index has to reach the last frame of every track. *)
Definition max_frames (d : anim_data) : Z := fold_right Z.max 0 (map (fun t => tv_len (td_values t)) (tracks_of d)).
Definition final_ok (d : anim_data) : bool :=
  SFleb (S754_zero false) (f32_of (ad_final d)) &&
  SFleb (sub32 (int_to_f32 (max_frames d)) (int_to_f32 1)) (f32_of (ad_final d)).

(** The byte ranges of a list of tracks follow each other from [a] to [b]. *)
Fixpoint tiles (a b : Z) (l : list track) : Prop :=
  match l with
  | [] => a = b
  | t :: r => tk_offset t = a /\ 0 <= tk_size t /\ tiles (a + tk_size t) b r
  end.
