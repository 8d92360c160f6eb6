(** ModlData, HlpbData and MeshExData: conversion to and from the file types, saving and
    loading.  Text is the list of its UTF-8 bytes, f32 values are bit patterns.
    Paths below are relative to /repo/ssbh_data/src. *)
From Verif Require Import Bytes Ssbh Formats File MeshEx Strings AnimComp AnimBuf.

(** The UTF-8 bytes of a String *)
Notation text := (list Z) (only parsing).

(** ** modl_data.rs *)

(** ModlEntryData, modl_data.rs:43-51 *)
Record modl_entry := ME { me_name : text; me_subindex : Z; me_material : text }.
(** ModlData, modl_data.rs:29-41 *)
Record modl_data := MD {
  md_major : Z; md_minor : Z; md_model : text; md_skel : text; md_materials : list text;
  md_anim : option text; md_mesh : text; md_entries : list modl_entry
}.

(** From<&ModlEntryData> for ModlEntry, modl_data.rs:114-122 *)
Definition modl_entry_val (e : modl_entry) : val :=
  VStruct [ssbh_string (me_name e); VInt (me_subindex e); ssbh_string (me_material e)].
(** From<&ModlData> for Modl, modl_data.rs:95-106: always version 1.7 *)
Definition modl_val (d : modl_data) : val :=
  VStruct [ssbh_string (md_model d); ssbh_string (md_skel d); VArr (map ssbh_string (md_materials d));
           VPtr (option_map ssbh_string (md_anim d)); ssbh_string (md_mesh d);
           VArr (map modl_entry_val (md_entries d))].

(** From<&ModlEntry> for ModlEntryData, modl_data.rs:124-132 *)
Definition un_modl_entry (v : val) : res modl_entry :=
  match v with
  | VStruct [n; VInt i; m] => Ok (ME (ssbh_to_string_lossy n) i (ssbh_to_string_lossy m))
  | _ => Err EType
  end.
(** From<&Modl> for ModlData, modl_data.rs:60-87 *)
Definition un_modl (version : Z * Z) (v : val) : res modl_data :=
  match v with
  | VStruct [a; b; VArr c; VPtr d; e; VArr f] =>
      let* entries := un_list un_modl_entry f in
      Ok (MD (fst version) (snd version) (ssbh_to_string_lossy a) (ssbh_to_string_lossy b)
             (map ssbh_to_string_lossy c) (option_map ssbh_to_string_lossy d) (ssbh_to_string_lossy e) entries)
  | _ => Err EType
  end.

(** ModlData::write and ModlData::read, lib.rs:176-187 *)
Definition modl_data_write (d : modl_data) : res (list Z) := typed_write Modl (1, 7) (modl_val d).
Definition modl_data_read (b : list Z) : res modl_data :=
  let* (version, v) := typed_read Modl b in un_modl version v.

(** ** hlpb_data.rs *)

(** AimConstraintData, hlpb_data.rs:27-41 *)
Record aim := Aim {
  am_name : text; am_bone1 : text; am_bone2 : text; am_type1 : text; am_type2 : text;
  am_target1 : text; am_target2 : text; am_unk1 : Z; am_unk2 : Z;
  am_aim : vec3; am_up : vec3; am_quat1 : vec4; am_quat2 : vec4
}.
(** OrientConstraintData, hlpb_data.rs:47-59 *)
Record orient := Orient {
  or_name : text; or_parent1 : text; or_parent2 : text; or_source : text; or_target : text;
  or_type : Z; or_axes : vec3; or_quat1 : vec4; or_quat2 : vec4; or_min : vec3; or_max : vec3
}.
(** HlpbData, hlpb_data.rs:14-19 *)
Record hlpb_data := HD { hd_major : Z; hd_minor : Z; hd_aims : list aim; hd_orients : list orient }.

(** From<&AimConstraintData> for AimConstraint, hlpb_data.rs:139-164 *)
Definition aim_val (a : aim) : val :=
  VStruct [ssbh_string (am_name a); ssbh_string (am_bone1 a); ssbh_string (am_bone2 a);
           ssbh_string (am_type1 a); ssbh_string (am_type2 a); ssbh_string (am_target1 a); ssbh_string (am_target2 a);
           VInt (am_unk1 a); VInt (am_unk2 a); vec3_val (am_aim a); vec3_val (am_up a);
           vec4_val (am_quat1 a); vec4_val (am_quat2 a); VInt 0; VInt 0; VInt 0; VInt 0; VInt 0; VInt 0].
(** From<&OrientConstraintData> for OrientConstraint, hlpb_data.rs:196-212 *)
Definition orient_val (o : orient) : val :=
  VStruct [ssbh_string (or_name o); ssbh_string (or_parent1 o); ssbh_string (or_parent2 o);
           ssbh_string (or_source o); ssbh_string (or_target o); VInt (or_type o); vec3_val (or_axes o);
           vec4_val (or_quat1 o); vec4_val (or_quat2 o); vec3_val (or_min o); vec3_val (or_max o)].

(** [0..n as u32]; [n] is a usize.  The numbers from [from] on, at most [k] of them. *)
Fixpoint range_from (from : Z) (k : nat) : list Z :=
  match k with O => [] | S k' => from :: range_from (from + 1) k' end.
Definition range32 (n : Z) : list Z := range_from 0 (Z.to_nat (n mod 2 ^ 32)).

(** From<&HlpbData> for Hlpb, hlpb_data.rs:91-105; ConstraintType::Aim = 0 and Orient = 1
    (ssbh_lib/src/formats/hlpb.rs:120-125) *)
Definition hlpb_val (d : hlpb_data) : val :=
  VStruct [VArr (map aim_val (hd_aims d)); VArr (map orient_val (hd_orients d));
           VArr (map VInt (range32 (zlen (hd_aims d)) ++ range32 (zlen (hd_orients d))));
           VArr (repeat (VInt 0) (length (hd_aims d)) ++ repeat (VInt 1) (length (hd_orients d)))].

(** From<&AimConstraint> for AimConstraintData, hlpb_data.rs:113-131 *)
Definition un_aim (v : val) : res aim :=
  match v with
  | VStruct [a; b; c; d; e; f; g; VInt u1; VInt u2; x; y; q1; q2; _; _; _; _; _; _] =>
      let* x := un_vec3 x in let* y := un_vec3 y in let* q1 := un_vec4 q1 in let* q2 := un_vec4 q2 in
      Ok (Aim (ssbh_to_string_lossy a) (ssbh_to_string_lossy b) (ssbh_to_string_lossy c) (ssbh_to_string_lossy d)
              (ssbh_to_string_lossy e) (ssbh_to_string_lossy f) (ssbh_to_string_lossy g) u1 u2 x y q1 q2)
  | _ => Err EType
  end.
(** From<&OrientConstraint> for OrientConstraintData, hlpb_data.rs:172-188 *)
Definition un_orient (v : val) : res orient :=
  match v with
  | VStruct [a; b; c; d; e; VInt t; x; q1; q2; y; z] =>
      let* x := un_vec3 x in let* q1 := un_vec4 q1 in let* q2 := un_vec4 q2 in
      let* y := un_vec3 y in let* z := un_vec3 z in
      Ok (Orient (ssbh_to_string_lossy a) (ssbh_to_string_lossy b) (ssbh_to_string_lossy c) (ssbh_to_string_lossy d)
                 (ssbh_to_string_lossy e) t x q1 q2 y z)
  | _ => Err EType
  end.
(** From<&Hlpb> for HlpbData, hlpb_data.rs:68-83 *)
Definition un_hlpb (v : val) : res hlpb_data :=
  match v with
  | VStruct [VArr a; VArr o; _; _] =>
      let* a := un_list un_aim a in let* o := un_list un_orient o in Ok (HD 1 1 a o)
  | _ => Err EType
  end.

(** HlpbData::write and HlpbData::read, lib.rs:176-187 *)
Definition hlpb_data_write (d : hlpb_data) : res (list Z) := typed_write Hlpb (1, 1) (hlpb_val d).
Definition hlpb_data_read (b : list Z) : res hlpb_data :=
  let* (_, v) := typed_read Hlpb b in un_hlpb v.

(** ** meshex_data.rs *)

(** BoundingSphere: centre and radius *)
Record sphere := Sph { sp_center : vec3; sp_radius : Z }.
(** EntryFlags, meshex_data.rs:45-49 *)
Record entry_flags := EF { ef_draw : bool; ef_shadow : bool }.
(** MeshObjectGroupData, meshex_data.rs:33-39 *)
Record mesh_group := MG { mg_sphere : sphere; mg_full : text; mg_name : text; mg_flags : list entry_flags }.
(** MeshExData, meshex_data.rs:22-24, is the list of its groups. *)

Definition sphere_val (s : sphere) : val := VStruct [vec3_val (sp_center s); VInt (sp_radius s)].
Definition un_sphere (v : val) : res sphere :=
  match v with VStruct [c; VInt r] => let* c := un_vec3 c in Ok (Sph c r) | _ => Err EType end.
(** [Ptr64::new(text.into())] and its inverse [as_ref().map(to_string_lossy).unwrap_or_default()] *)
Definition cstr_ptr (t : text) : val := VPtr (Some (VBytes (cstring_from_bytes t))).
Definition un_cstr_ptr (v : val) : res text :=
  match v with
  | VPtr None => Ok []
  | VPtr (Some (VBytes bs)) => Ok (match cstring_to_str bs with Some s => s | None => [] end)
  | _ => Err EType
  end.

(** EntryFlag, ssbh_lib/src/formats/meshex.rs:83-99: bit 0 draw_model, bit 1 cast_shadow *)
Definition flag_val (e : entry_flags) : val := VInt (Z.b2z (ef_draw e) + 2 * Z.b2z (ef_shadow e)).
Definition un_flag (v : val) : res entry_flags :=
  match v with VInt n => Ok (EF (Z.testbit n 0) (Z.testbit n 1)) | _ => Err EType end.

Definition group_value (g : mesh_group) : val :=
  VStruct [sphere_val (mg_sphere g); cstr_ptr (mg_full g); cstr_ptr (mg_name g)].
(** One MeshEntry with the default vector (0, 1, 0) *)
Definition mesh_entry (i : Z) : val := VStruct [VInt (i mod 2 ^ 32); VStruct [VInt 0; VInt 0x3f800000; VInt 0]].
(** [enumerate().flat_map(...)] *)
Fixpoint entries_from (i : Z) (gs : list mesh_group) : list val :=
  match gs with
  | [] => []
  | g :: r => map (fun _ => mesh_entry i) (mg_flags g) ++ entries_from (i + 1) r
  end.

(** From<&MeshExData> for MeshEx, meshex_data.rs:184-246.  The sphere around all groups is
    computed by another crate (geometry_tools) and is an argument here. *)
Definition meshex_of (all : sphere) (gs : list mesh_group) : meshex :=
  mkMeshEx (Some (VStruct [sphere_val all; cstr_ptr [65; 108; 108]]))
           (Some (map group_value gs)) (Some (entries_from 0 gs)) (Some (flat_map (fun g => map flag_val (mg_flags g)) gs)) 0.

(** The flags of the entries that name group [i]: [positions(...)] then [filter_map(get)].
    [es] are the entries from position [k] on. *)
Fixpoint flags_of_group (i : Z) (es : list val) (k : nat) (flags : option (list val)) : res (list entry_flags) :=
  match es with
  | [] => Ok []
  | VStruct [VInt g; _] :: r =>
      let* rest := flags_of_group i r (S k) flags in
      if g =? i then
        match flags with
        | None => Ok rest
        | Some fs => match nth_error fs k with None => Ok rest | Some f => let* f := un_flag f in Ok (f :: rest) end
        end
      else Ok rest
  | _ => Err EType
  end.

Definition or_empty (o : option (list val)) : list val := match o with Some l => l | None => [] end.

(** From<&MeshEx> for MeshExData, meshex_data.rs:134-176 *)
Fixpoint un_groups (x : meshex) (i : Z) (gs : list val) : res (list mesh_group) :=
  match gs with
  | [] => Ok []
  | VStruct [s; f; n] :: r =>
      let* s := un_sphere s in
      let* f := un_cstr_ptr f in
      let* n := un_cstr_ptr n in
      let* flags := flags_of_group i (or_empty (mx_entries x)) 0 (mx_flags x) in
      let* rest := un_groups x (i + 1) r in
      Ok (MG s f n flags :: rest)
  | _ => Err EType
  end.
Definition un_meshex (x : meshex) : res (list mesh_group) := un_groups x 0 (or_empty (mx_groups x)).

(** MeshExData::write and MeshExData::read, lib.rs:176-187 *)
Definition meshex_data_write (all : sphere) (gs : list mesh_group) : res (list Z) := meshex_write (meshex_of all gs).
Definition meshex_data_read (b : list Z) : res (list mesh_group) :=
  let* x := meshex_read b in un_meshex x.

(** Does the text start with the pattern? *)
Fixpoint starts_with (pat s : text) : bool :=
  match pat, s with
  | [], _ => true
  | p :: pat', c :: s' => (p =? c) && starts_with pat' s'
  | _ :: _, [] => false
  end.
(** [str::find]: byte index of the first occurrence of a non-empty ASCII pattern *)
Fixpoint find_text (pat s : text) : option nat :=
  if starts_with pat s then Some O
  else match s with [] => None | _ :: s' => option_map S (find_text pat s') end.

(** "_VIS", "_O_" and "Shape" *)
Definition tag_vis : text := [95; 86; 73; 83].
Definition tag_o : text := [95; 79; 95].
Definition tag_shape : text := [83; 104; 97; 112; 101].

(** [full_name.ends_with("Shape")]; then [rfind] gives the index five bytes before the end. *)
Definition ends_with (pat s : text) : bool := starts_with (rev pat) (rev s).

(** strip_mesh_name_tags, meshex_data.rs:98-126.  [get(..end)] always succeeds because all
    patterns start with an ASCII character, which is a character boundary. *)
Definition strip_mesh_name_tags (s : text) : text :=
  match find_text tag_vis s, find_text tag_o s with
  | None, None => if ends_with tag_shape s then firstn (length s - length tag_shape) s else s
  | v, o =>
      let len := length s in
      firstn (Nat.min (match v with Some i => i | None => len end) (match o with Some i => i | None => len end)) s
  end.

Definition text_eqb (a b : text) : bool := if list_eq_dec Z.eq_dec a b then true else false.

(** [group_by(|o| &o.name)]: runs of consecutive objects with the same name.  An object is
    its name and anything else. *)
Fixpoint group_by_name {A} (l : list (text * A)) : list (text * list A) :=
  match l with
  | [] => []
  | (n, a) :: r =>
      match group_by_name r with
      | (m, g) :: rest => if text_eqb n m then (m, a :: g) :: rest else (n, [a]) :: (m, g) :: rest
      | [] => [(n, [a])]
      end
  end.

(** MeshExData::from_mesh_objects, meshex_data.rs:54-91.  The sphere of the points of a group
    is computed by another crate and is an argument here. *)
Definition from_mesh_objects {A} (bounds : list A -> sphere) (objects : list (text * A)) : list mesh_group :=
  map (fun g => MG (bounds (snd g)) (fst g) (strip_mesh_name_tags (fst g)) (map (fun _ => EF true true) (snd g)))
      (group_by_name objects).
