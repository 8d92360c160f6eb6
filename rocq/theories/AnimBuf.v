(** Track buffers and the conversion between AnimData and Anim.  Paths below are relative
    to /repo/ssbh_data/src. *)
From Verif Require Import Bytes Ssbh Formats File Strings Bits Float32 AnimComp.

(** ../anim_data.rs:683-692 *)
Record transform := Tr { tr_scale : vec3; tr_rot : vec4; tr_trans : vec3 }.

(** TrackValues, anim_data.rs:722-735 *)
Inductive track_values :=
| TvTransform (l : list transform)
| TvUv (l : list uvtransform)
| TvFloat (l : list Z)
| TvPattern (l : list Z)
| TvBool (l : list bool)
| TvVec4 (l : list vec4).

(** anim_data.rs:746-755 *)
Definition tv_len (v : track_values) : Z :=
  match v with
  | TvTransform l => zlen l | TvUv l => zlen l | TvFloat l => zlen l
  | TvPattern l => zlen l | TvBool l => zlen l | TvVec4 l => zlen l
  end.

(** anim_data.rs:775-784 with the values of TrackTypeV2, ssbh_lib/src/formats/anim.rs:225-235 *)
Definition track_type (v : track_values) : Z :=
  match v with
  | TvTransform _ => 1 | TvUv _ => 2 | TvFloat _ => 3 | TvPattern _ => 5 | TvBool _ => 8 | TvVec4 _ => 9
  end.

(** CompressionType, ssbh_lib/src/formats/anim.rs:242-257 *)
Definition Direct := 1.
Definition ConstTransform := 2.
Definition Compressed := 4.
Definition Constant := 5.

(** CompressionFlags::from_track, anim_data/compression.rs:77-100 *)
Definition flags_from_track (v : track_values) : Z :=
  match v with
  | TvTransform l =>
      let uniform := forallb (fun t => f32_eqb (v3x (tr_scale t)) (v3y (tr_scale t)) &&
                                       f32_eqb (v3y (tr_scale t)) (v3z (tr_scale t))) l in
      flags_of true uniform true true
  | TvUv l => flags_of true (forallb (fun t => f32_eqb (uv_su t) (uv_sv t)) l) true true
  | _ => 0
  end.

(** UncompressedTransform::from_transform, anim_data/compression.rs:301-310, and the
    conversion back, 291-299 *)
Definition from_transform (compensate_scale : bool) (t : transform) : utransform :=
  UT (tr_scale t) (tr_rot t) (tr_trans t) (if compensate_scale then 1 else 0).
Definition to_transform (t : utransform) : transform := Tr (ut_scale t) (ut_rot t) (ut_trans t).

(** Boolean::from and bool::from, anim_data/compression.rs:858-872 *)
Definition from_bool (b : bool) : Z := if b then 1 else 0.
Definition to_bool (x : Z) : bool := negb (x =? 0).

(** ** Compressed tracks *)

(** CompressedHeader and CompressedTrackData, anim_data/compression.rs:28-43; the buffer
    (46-54) is written as a Vec<u8> with alignment 1. *)
Definition CompressedBuffer (n : Z) : ty := aligned [TVec n u8] 1.
Definition CompressedTrackData (default compression : ty) (n : Z) : ty :=
  record [record [u16; TBits 2; TAbs 2 default; u16; TAbs 4 (CompressedBuffer n); u32]; compression].

(** The loop over the frames in create_compressed_buffer *)
Fixpoint compress_all {T C} (cd : codec T C) (c : C) (flags : Z) (l : list T) (w : bwriter) : res bwriter :=
  match l with
  | [] => Ok w
  | v :: r => let* w := cd_compress cd v c flags w in compress_all cd c flags r w
  end.

(** create_compressed_buffer, anim_data/buffers.rs:148-166 *)
Definition create_compressed_buffer {T C} (cd : codec T C) (values : list T) (c : C) (flags : Z)
  : res (list Z) :=
  let bits := repeat false (Z.to_nat (zlen values * cd_bits cd c flags)) in
  let* w := compress_all cd c flags values (bw_new bits) in
  Ok (bw_into_bytes w).

(** write_compressed, anim_data/buffers.rs:122-146, into a fresh cursor.  [as u16] and
    [as u32] truncate. *)
Definition write_compressed {T C} (cd : codec T C) (values : list T) (flags : Z) (compensate_scale : bool)
  : res (list Z) :=
  let '(default, compression) := cd_default cd values compensate_scale in
  let* compressed_data := create_compressed_buffer cd values compression flags in
  let data :=
    VStruct [VStruct [VInt 4; VInt flags; VPtr (Some (cd_val cd default));
                      VInt (cd_bits cd compression flags mod 2 ^ 16);
                      VPtr (Some (VStruct [VArr (map VInt compressed_data)]));
                      VInt (zlen values mod 2 ^ 32)];
             cd_cval cd compression] in
  let* s := write (CompressedTrackData (cd_ty cd) (cd_cty cd) (zlen compressed_data)) data fresh in
  Ok (wbuf s).

(** A pointer to a CompressedBuffer: Ptr32 (ssbh_lib/src/lib.rs:371-389) with read_to_end
    (anim_data/compression.rs:46-50): everything from the target to the end of the slice. *)
Definition read_buffer_ptr (b : list Z) (p : Z) : res (option (list Z) * Z) :=
  let* (offset, q) := read_int 4 b p in
  if offset =? 0 then Ok (None, q) else Ok (Some (skipn (Z.to_nat offset) b), q).

(** The loop over the frames in read_compressed_inner *)
Fixpoint decompress_all {T C} (cd : codec T C) (c : C) (d : option T) (flags bpe : Z) (n : nat) (r : breader)
  : res (list T) :=
  match n with
  | O => Ok []
  | S n' =>
      match d with
      | None => Err (EData DMalformed)
      | Some d0 =>
          let* (v, r) := cd_decompress cd c d0 flags bpe r in
          let* vs := decompress_all cd c d flags bpe n' r in
          Ok (v :: vs)
      end
  end.

(** read_compressed and read_compressed_inner, anim_data/buffers.rs:271-330 *)
Definition read_compressed {T C} (cd : codec T C) (b : list Z) (frame_count : Z) : res (list T) :=
  let* (_, p) := read u16 b 0 in
  let* (flags, p) := read_int 2 b p in
  let* (default, p) := read (TAbs 2 (cd_ty cd)) b p in
  let* default :=
    match default with
    | VPtr None => Ok None
    | VPtr (Some v) => let* d := cd_un cd v in Ok (Some d)
    | _ => Err EType
    end in
  let* (bits_per_entry, p) := read_int 2 b p in
  let* (buffer, p) := read_buffer_ptr b p in
  let* (_, p) := read_int 4 b p in
  let* (c, p) := read (cd_cty cd) b p in
  let* compression := cd_cun cd c in
  let expected_bit_count := cd_bits cd compression flags in
  if negb (bits_per_entry =? expected_bit_count) then Err (EData DBitCount)
  else
    match buffer with
    | None => Err (EData DMalformed)
    | Some bytes =>
        let actual_count :=
          if (expected_bit_count =? 0) && (0 <? frame_count) then 1 else frame_count in
        decompress_all cd compression default flags bits_per_entry (Z.to_nat actual_count) (br_from_slice bytes)
    end.

(** ** Uncompressed tracks *)

(** [values.write(writer)] for a Vec, into a fresh cursor *)
Definition write_uncompressed (t : ty) (vs : list val) : res (list Z) :=
  let* s := write (TVec (zlen vs) t) (VArr vs) fresh in Ok (wbuf s).

Fixpoint un_list {T} (un : val -> res T) (vs : list val) : res (list T) :=
  match vs with
  | [] => Ok []
  | v :: r => let* x := un v in let* xs := un_list un r in Ok (x :: xs)
  end.

(** read_uncompressed, anim_data/buffers.rs:168-179 *)
Definition read_uncompressed {T} (t : ty) (un : val -> res T) (b : list Z) (frame_count : Z) : res (list T) :=
  let* (vs, _) := read_elements (read t b) frame_count 0 in un_list un vs.

(** ** Track values *)

(** TrackValues::write, anim_data/buffers.rs:22-92, into a fresh cursor *)
Definition tv_write (v : track_values) (compression : Z) (compensate_scale : bool) : res (list Z) :=
  if compression =? Compressed then
    let flags := flags_from_track v in
    match v with
    | TvTransform l => write_compressed transform_codec (map (from_transform compensate_scale) l) flags compensate_scale
    | TvUv l => write_compressed uv_codec l flags compensate_scale
    | TvFloat l => write_compressed f32_codec l flags compensate_scale
    | TvPattern l => write_compressed u32_codec l flags compensate_scale
    | TvBool l => write_compressed bool_codec (map from_bool l) flags compensate_scale
    | TvVec4 l => write_compressed vec4_codec l flags compensate_scale
    end
  else
    match v with
    | TvTransform l =>
        write_uncompressed UncompressedTransform (map utransform_val (map (from_transform compensate_scale) l))
    | TvUv l => write_uncompressed UvTransform (map uv_val l)
    | TvFloat l => write_uncompressed f32 (map VInt l)
    | TvPattern l => write_uncompressed u32 (map VInt l)
    | TvBool l => write_uncompressed Boolean (map bool_val (map from_bool l))
    | TvVec4 l => write_uncompressed Vector4 (map vec4_val l)
    end.

(** [values.iter().map(|t| t.compensate_scale != 0).next().unwrap_or_default()] *)
Definition first_compensate (l : list utransform) : bool :=
  match l with [] => false | t :: _ => negb (ut_comp t =? 0) end.

(** read_track_values, anim_data/buffers.rs:181-269.  Other track types do not exist. *)
Definition read_track_values (b : list Z) (ttype compression count : Z) : res (track_values * bool) :=
  if compression =? Compressed then
    match ttype with
    | 1 => let* l := read_compressed transform_codec b count in
           Ok (TvTransform (map to_transform l), first_compensate l)
    | 2 => let* l := read_compressed uv_codec b count in Ok (TvUv l, false)
    | 3 => let* l := read_compressed f32_codec b count in Ok (TvFloat l, false)
    | 5 => let* l := read_compressed u32_codec b count in Ok (TvPattern l, false)
    | 8 => let* l := read_compressed bool_codec b count in Ok (TvBool (map to_bool l), false)
    | 9 => let* l := read_compressed vec4_codec b count in Ok (TvVec4 l, false)
    | _ => Err EType
    end
  else
    match ttype with
    | 1 => let* l := read_uncompressed UncompressedTransform un_utransform b count in
           Ok (TvTransform (map to_transform l), first_compensate l)
    | 2 => let* l := read_uncompressed UvTransform un_uv b count in Ok (TvUv l, false)
    | 3 => let* l := read_uncompressed f32 un_z b count in Ok (TvFloat l, false)
    | 5 => let* l := read_uncompressed u32 un_z b count in Ok (TvPattern l, false)
    | 8 => let* l := read_uncompressed Boolean un_bool b count in Ok (TvBool (map to_bool l), false)
    | 9 => let* l := read_uncompressed Vector4 un_vec4 b count in Ok (TvVec4 l, false)
    | _ => Err EType
    end.

(** compressed_overhead_in_bytes (anim_data/compression.rs:124-130, buffers.rs:95-108) and
    data_size_in_bytes (buffers.rs:110-119): the sizes do not depend on the values *)
Definition data_size (v : track_values) : Z :=
  match v with
  | TvTransform _ => size UncompressedTransform (utransform_val (UT (V3 0 0 0) (V4 0 0 0 0) (V3 0 0 0) 0))
  | TvUv _ => size UvTransform (uv_val (Uv 0 0 0 0 0))
  | TvFloat _ => size f32 (VInt 0)
  | TvPattern _ => size u32 (VInt 0)
  | TvBool _ => size Boolean (bool_val 0)
  | TvVec4 _ => size Vector4 (vec4_val (V4 0 0 0 0))
  end.
Definition compressed_overhead (v : track_values) : Z :=
  let r0 := Rc 0 0 0 in
  let v0 := V3c r0 r0 r0 in
  16 + data_size v +
  match v with
  | TvTransform _ => size TransformCompression (transformc_val (Tc v0 v0 v0))
  | TvUv _ => size UvTransformCompression (uvc_val (Uvc r0 r0 r0 r0 r0))
  | TvFloat _ | TvPattern _ => size F32Compression (range_val r0)
  | TvBool _ => size (TInt 16) (VInt 0)
  | TvVec4 _ => size Vector4Compression (vec4c_val (V4c r0 r0 r0 r0))
  end.

(** infer_optimal_compression_type, anim_data.rs:338-360 *)
Definition infer_compression (v : track_values) : Z :=
  match v, tv_len v <=? 1 with
  | TvTransform _, true => ConstTransform
  | _, true => Constant
  | _, false =>
      let uncompressed_frames_per_header := compressed_overhead v / data_size v in
      if uncompressed_frames_per_header + 1 <? tv_len v then Compressed else Direct
  end.

(** ** AnimData; names are the UTF-8 bytes of the strings *)

(** TransformFlags, anim_data.rs:639-644 *)
Record tflags := TF { override_translation : bool; override_rotation : bool;
                      override_scale : bool; override_compensate_scale : bool }.
(** TrackData, anim_data.rs:607-633 *)
Record track_data := TD { td_name : list Z; td_comp : bool; td_flags : tflags; td_values : track_values }.
(** NodeData and GroupData, anim_data.rs:573-586 *)
Record node_data := ND { nd_name : list Z; nd_tracks : list track_data }.
Record group_data := GD { gd_type : Z; gd_nodes : list node_data }.
(** AnimData, anim_data.rs:69-82 *)
Record anim_data := AD { ad_major : Z; ad_minor : Z; ad_final : Z; ad_groups : list group_data }.

(** ../ssbh_lib/src/formats/anim.rs: TrackV2, Node, Group and the versions 2.0 and 2.1 of
    Anim.  Strings are values of SsbhString. *)
Record track := Tk { tk_name : val; tk_type : Z; tk_comp : Z; tk_frames : Z; tk_flags : Z;
                     tk_offset : Z; tk_size : Z }.
Record node := Nd { nd_nm : val; nd_tks : list track }.
Record group := Gr { gr_type : Z; gr_nodes : list node }.
Record anim := An { an_minor : Z; an_final : Z; an_unk1 : Z; an_unk2 : Z; an_name : val;
                    an_groups : list group; an_buffer : list Z; an_unk_data : val }.

(** anim_data.rs:646-666: bits 0 to 3 *)
Definition tflags_bits (f : tflags) : Z :=
  Z.b2z (override_translation f) + 2 * Z.b2z (override_rotation f) +
  4 * Z.b2z (override_scale f) + 8 * Z.b2z (override_compensate_scale f).
Definition tflags_of (x : Z) : tflags :=
  TF (Z.testbit x 0) (Z.testbit x 1) (Z.testbit x 2) (Z.testbit x 3).

(** create_anim_track_v2, anim_data.rs:304-336; [buffer] is the content of the cursor,
    whose position is its end. *)
Definition create_track (t : track_data) (buffer : list Z) : res (track * list Z) :=
  let compression := infer_compression (td_values t) in
  let pos_before := zlen buffer in
  let* data := tv_write (td_values t) compression (td_comp t) in
  let buffer' := buffer ++ data in
  let pos_after := zlen buffer' in
  Ok (Tk (ssbh_string (td_name t)) (track_type (td_values t)) compression
         (tv_len (td_values t) mod 2 ^ 32) (tflags_bits (td_flags t))
         (pos_before mod 2 ^ 32) (pos_after - pos_before), buffer').

(** [iter().map(f).collect::<Result<Vec<_>, _>>()] with the buffer passed along *)
Fixpoint map_buffer {A B} (f : A -> list Z -> res (B * list Z)) (l : list A) (buffer : list Z)
  : res (list B * list Z) :=
  match l with
  | [] => Ok ([], buffer)
  | x :: r =>
      let* (y, buffer) := f x buffer in
      let* (ys, buffer) := map_buffer f r buffer in
      Ok (y :: ys, buffer)
  end.

(** create_anim_node, anim_data.rs:292-302 *)
Definition create_node (n : node_data) (buffer : list Z) : res (node * list Z) :=
  let* (ts, buffer) := map_buffer create_track (nd_tracks n) buffer in
  Ok (Nd (ssbh_string (nd_name n)) ts, buffer).
(** create_anim_group, anim_data.rs:280-290 *)
Definition create_group (g : group_data) (buffer : list Z) : res (group * list Z) :=
  let* (ns, buffer) := map_buffer create_node (gd_nodes g) buffer in
  Ok (Gr (gd_type g) ns, buffer).

(** The frame counts of all tracks; the nested [max] calls compute their maximum *)
Definition all_tracks (gs : list group) : list track :=
  flat_map (fun g => flat_map nd_tks (gr_nodes g)) gs.
Definition max_frame_count (gs : list group) : Z :=
  or_default 0 (reduce Z.max (map tk_frames (all_tracks gs))).

(** create_anim, anim_data.rs:214-278 *)
Definition create_anim (d : anim_data) : res anim :=
  if (ad_major d =? 2) && ((ad_minor d =? 0) || (ad_minor d =? 1)) then
    let* (groups, buffer) := map_buffer create_group (ad_groups d) [] in
    if SFleb (S754_zero false) (f32_of (ad_final d)) &&
       SFleb (sub32 (int_to_f32 (max_frame_count groups)) (int_to_f32 1)) (f32_of (ad_final d)) then
      Ok (An (ad_minor d) (ad_final d) 1 3 (ssbh_string []) groups buffer (VStruct [VArr []; VArr []]))
    else Err (EData DFinalFrame)
  else Err (EData DVersion).

(** create_track_data_v20, anim_data.rs:536-567; usize is 64 bits wide *)
Definition create_track_data (t : track) (buffer : list Z) : res track_data :=
  let start := tk_offset t in
  let end_ := start + tk_size t in
  if two64 <=? end_ then Err (EData DTrackRange)
  else if zlen buffer <? end_ then Err (EData DTrackRange)
  else
    let data := firstn (Z.to_nat (tk_size t)) (skipn (Z.to_nat start) buffer) in
    let* (values, compensate_scale) := read_track_values data (tk_type t) (tk_comp t) (tk_frames t) in
    Ok (TD (ssbh_to_string_lossy (tk_name t)) compensate_scale (tflags_of (tk_flags t)) values).

Fixpoint mapM {A B} (f : A -> res B) (l : list A) : res (list B) :=
  match l with
  | [] => Ok []
  | x :: r => let* y := f x in let* ys := mapM f r in Ok (y :: ys)
  end.

(** read_groups_v20, anim_data.rs:502-534 *)
Definition read_groups (gs : list group) (buffer : list Z) : res (list group_data) :=
  mapM (fun g =>
    let* nodes := mapM (fun n =>
      let* tracks := mapM (fun t => create_track_data t buffer) (nd_tks n) in
      Ok (ND (ssbh_to_string_lossy (nd_nm n)) tracks)) (gr_nodes g) in
    Ok (GD (gr_type g) nodes)) gs.

(** TryFrom<&Anim> for AnimData, anim_data.rs:93-115, for versions 2.0 and 2.1 *)
Definition read_anim (a : anim) : res anim_data :=
  let* groups := read_groups (an_groups a) (an_buffer a) in
  Ok (AD 2 (an_minor a) (an_final a) groups).

(** The value of the format type that an [anim] stands for (Formats.v) *)
Definition track_val (t : track) : val :=
  VStruct [tk_name t; VStruct [VInt (tk_type t); VInt (tk_comp t)]; VInt (tk_frames t); VInt (tk_flags t);
           VInt (tk_offset t); VInt (tk_size t)].
Definition node_val (n : node) : val := VStruct [nd_nm n; VArr (map track_val (nd_tks n))].
Definition group_val (g : group) : val := VStruct [VInt (gr_type g); VArr (map node_val (gr_nodes g))].
Definition anim_val (a : anim) : val :=
  VStruct ([VInt (an_final a); VInt (an_unk1 a); VInt (an_unk2 a); an_name a;
            VArr (map group_val (an_groups a)); VBytes (an_buffer a)] ++
           (if an_minor a =? 1 then [an_unk_data a] else [])).
