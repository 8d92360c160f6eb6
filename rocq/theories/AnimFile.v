(** Saving and loading AnimData.  Paths are relative to /repo/ssbh_data/src. *)
From Verif Require Import Bytes Ssbh Formats File Strings Bits Float32 AnimComp AnimBuf.

(** A value of the format types of Formats.v as an [anim], the inverse of [anim_val];
    other shapes cannot be read. *)
Definition un_track (v : val) : res track :=
  match v with
  | VStruct [n; VStruct [VInt t; VInt c]; VInt f; VInt fl; VInt o; VInt s] => Ok (Tk n t c f fl o s)
  | _ => Err EType
  end.
Definition un_node (v : val) : res node :=
  match v with
  | VStruct [n; VArr ts] => let* ts := un_list un_track ts in Ok (Nd n ts)
  | _ => Err EType
  end.
Definition un_group (v : val) : res group :=
  match v with
  | VStruct [VInt t; VArr ns] => let* ns := un_list un_node ns in Ok (Gr t ns)
  | _ => Err EType
  end.
Definition un_anim (version : Z * Z) (v : val) : res anim :=
  match version, v with
  | (2, 0), VStruct [VInt fi; VInt u1; VInt u2; n; VArr gs; VBytes b] =>
      let* gs := un_list un_group gs in Ok (An 0 fi u1 u2 n gs b (VStruct [VArr []; VArr []]))
  | (2, 1), VStruct [VInt fi; VInt u1; VInt u2; n; VArr gs; VBytes b; u] =>
      let* gs := un_list un_group gs in Ok (An 1 fi u1 u2 n gs b u)
  | _, _ => Err EType
  end.

(** ** Version 1.2

    TrackV1, ../ssbh_lib/src/formats/anim.rs:112-128, with the buffer index of each property;
    names of properties are only printed. *)
Record track_v1 := TV1 { v1_name : val; v1_type : Z; v1_properties : list Z }.
(** The tracks and buffers of Anim::V12, anim.rs:29-43 *)
Record anim_v1 := AV1 { av1_final : Z; av1_tracks : list track_v1; av1_buffers : list (list Z) }.

Definition un_property (v : val) : res Z :=
  match v with VStruct [_; VInt i] => Ok i | _ => Err EType end.
Definition un_track_v1 (v : val) : res track_v1 :=
  match v with
  | VStruct [n; VInt t; VArr ps] => let* ps := un_list un_property ps in Ok (TV1 n t ps)
  | _ => Err EType
  end.
Definition un_bytes (v : val) : res (list Z) := match v with VBytes b => Ok b | _ => Err EType end.
Definition un_anim_v1 (v : val) : res anim_v1 :=
  match v with
  | VStruct [_; _; VInt fi; _; _; VArr ts; VArr bs] =>
      let* ts := un_list un_track_v1 ts in
      let* bs := un_list un_bytes bs in
      Ok (AV1 fi ts bs)
  | _ => Err EType
  end.

(** Reading [n] bytes at [p] that are only printed; the new position *)
Definition skip_bytes (b : list Z) (p n : Z) : res Z := if zlen b <? p + n then Err EEof else Ok (p + n).

(** The body of the loop over the properties, anim_data.rs:435-484.  Printing is left out.  The
    sizes are those of the types that are read: f32, (f32, f32), Vector3, Vector4, u16, V12Test1,
    V12Test3 and V12Test2 (anim_data.rs:786-825).  V12Test3 is aligned after its bytes; the
    subtraction after it underflows for a short buffer. *)
Definition read_property (buffers : list (list Z)) (index : Z) : res unit :=
  if zlen buffers <=? index then Err (EData DBufferIndex)
  else
    let data := nth (Z.to_nat index) buffers [] in
    let* (header, p) := read_int 4 data 0 in
    if header =? 0x1003 then let* _ := skip_bytes data p 4 in Ok tt
    else if header =? 0x2003 then let* _ := skip_bytes data p 8 in Ok tt
    else if header =? 0x3003 then let* _ := skip_bytes data p 12 in Ok tt
    else if header =? 0x4003 then let* _ := skip_bytes data p 16 in Ok tt
    else if header =? 0x1013 then let* _ := skip_bytes data p 2 in Ok tt
    else if header =? 0x3409 then let* _ := skip_bytes data p 52 in Ok tt
    else if header =? 0x4308 then
      let* (frame_count, p) := read_int 4 data p in
      let* p := skip_bytes data p 4 in
      let* p := skip_bytes data p frame_count in
      let* _ := skip_bytes data ((p + 3) / 4 * 4) 36 in
      if zlen data <? 72 + 4 then Panic else Ok tt
    else if header =? 0x4409 then let* _ := skip_bytes data p 64 in Ok tt
    else Ok tt.

(** group_type_v12, anim_data.rs:383-389, and the names in create_track_data_v12,
    anim_data.rs:491-495: "Transform", "Material" and "Visibility" *)
Definition group_type_v12 (t : Z) : Z := if t =? 0 then 1 else if t =? 2 then 4 else 2.
Definition track_name_v12 (t : Z) : list Z :=
  if t =? 0 then [84; 114; 97; 110; 115; 102; 111; 114; 109]
  else if t =? 2 then [77; 97; 116; 101; 114; 105; 97; 108]
  else [86; 105; 115; 105; 98; 105; 108; 105; 116; 121].

(** create_track_data_v12, anim_data.rs:429-500 *)
Definition create_track_data_v12 (buffers : list (list Z)) (t : track_v1) : res track_data :=
  let* _ := mapM (read_property buffers) (v1_properties t) in
  Ok (TD (track_name_v12 (v1_type t)) false (TF false false false false) (TvFloat [])).

(** read_groups_v12, anim_data.rs:391-427.  The groups are the entries of a HashMap in the order
    of its iterator, which is unspecified: [order] arranges the keys. *)
Definition read_groups_v12 (order : list Z -> list Z) (tracks : list track_v1) (buffers : list (list Z)) : res (list group_data) :=
  let* nodes := mapM (fun t =>
    let* track := unwrap (create_track_data_v12 buffers t) in
    Ok (group_type_v12 (v1_type t), ND (ssbh_to_string_lossy (v1_name t)) [track])) tracks in
  Ok (map (fun k => GD k (map snd (filter (fun n => fst n =? k) nodes))) (order (nodup Z.eq_dec (map fst nodes)))).

(** ** Files *)

(** AnimData::write, lib.rs:115-119: conversion and writing *)
Definition anim_data_write (d : anim_data) : res (list Z) :=
  let* a := create_anim d in
  typed_write Anim (2, an_minor a) (anim_val a).

(** AnimData::read, lib.rs:111-113 and anim_data.rs:92-115; [order] is only used for version 1.2 *)
Definition anim_data_read (order : list Z -> list Z) (b : list Z) : res anim_data :=
  let* (version, v) := typed_read Anim b in
  if (fst version =? 1) && (snd version =? 2) then
    let* a := un_anim_v1 v in
    let* groups := read_groups_v12 order (av1_tracks a) (av1_buffers a) in
    Ok (AD 1 2 (av1_final a) groups)
  else
    let* a := un_anim version v in
    read_anim a.
