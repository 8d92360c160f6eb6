(** Specification for the data types of ssbh_data other than animations. *)
From Verif Require Import Bytes Ssbh Formats File MeshEx Strings AnimComp AnimBuf AnimSpec SmallData.

(** ** Values Rust's types admit, with text that can be stored (UTF-8 without NUL) *)
Definition u64_ok (x : Z) : bool := (0 <=? x) && (x <? 2 ^ 64).
Definition vec3_ok (v : vec3) : bool := is32 (v3x v) && is32 (v3y v) && is32 (v3z v).
Definition vec4_ok (v : vec4) : bool := is32 (v4x v) && is32 (v4y v) && is32 (v4z v) && is32 (v4w v).
Definition len_ok {A} (l : list A) : bool := zlen l <? 2 ^ 64.

Definition modl_entry_ok (e : modl_entry) : bool :=
  text_ok (me_name e) && u64_ok (me_subindex e) && text_ok (me_material e).
Definition modl_ok (d : modl_data) : bool :=
  text_ok (md_model d) && text_ok (md_skel d) && (len_ok (md_materials d) && forallb text_ok (md_materials d)) &&
  match md_anim d with Some a => text_ok a | None => true end && text_ok (md_mesh d) &&
  (len_ok (md_entries d) && forallb modl_entry_ok (md_entries d)).

(** The version is fixed; nothing else changes. *)
Definition stored_modl (d : modl_data) : modl_data :=
  MD 1 7 (md_model d) (md_skel d) (md_materials d) (md_anim d) (md_mesh d) (md_entries d).

Definition aim_ok (a : aim) : bool :=
  forallb text_ok [am_name a; am_bone1 a; am_bone2 a; am_type1 a; am_type2 a; am_target1 a; am_target2 a] &&
  u32_ok (am_unk1 a) && u32_ok (am_unk2 a) && vec3_ok (am_aim a) && vec3_ok (am_up a) &&
  vec4_ok (am_quat1 a) && vec4_ok (am_quat2 a).
Definition orient_ok (o : orient) : bool :=
  forallb text_ok [or_name o; or_parent1 o; or_parent2 o; or_source o; or_target o] &&
  u32_ok (or_type o) && vec3_ok (or_axes o) && vec4_ok (or_quat1 o) && vec4_ok (or_quat2 o) &&
  vec3_ok (or_min o) && vec3_ok (or_max o).
Definition hlpb_ok (d : hlpb_data) : bool :=
  (zlen (hd_aims d) <? 2 ^ 32) && forallb aim_ok (hd_aims d) &&
  (zlen (hd_orients d) <? 2 ^ 32) && forallb orient_ok (hd_orients d).

Definition sphere_ok (s : sphere) : bool := vec3_ok (sp_center s) && is32 (sp_radius s).
Definition mesh_group_ok (g : mesh_group) : bool :=
  sphere_ok (mg_sphere g) && text_ok (mg_full g) && text_ok (mg_name g).
(** Groups, and entries over all groups, are counted with 32 bits. *)
Definition groups_ok (gs : list mesh_group) : bool :=
  forallb mesh_group_ok gs && (zlen gs <? 2 ^ 32) && (zlen (flat_map mg_flags gs) <? 2 ^ 32).

(** The group an entry of a MeshEx file belongs to, and the two flags that are kept *)
Definition in_group (i : Z) (e : val) : bool :=
  match e with VStruct [VInt g; _] => g =? i | _ => false end.
Definition flags_in (v : val) : entry_flags :=
  match v with VInt n => EF (Z.testbit n 0) (Z.testbit n 1) | _ => EF false false end.

(** The flags of the entries of group [i], entries and flags taken side by side *)
Definition group_flags (i : Z) (entries flags : list val) : list entry_flags :=
  map (fun ef => flags_in (snd ef)) (filter (fun ef => in_group i (fst ef)) (combine entries flags)).

(** [pat] occurs in [s] *)
Definition occurs (pat s : text) : Prop := exists a b, s = a ++ pat ++ b.
