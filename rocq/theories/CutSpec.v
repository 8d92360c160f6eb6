(** Specification of what a file keeps of data with texts and numbers of any size. *)
From Verif Require Import Bytes Ssbh Formats File MeshEx Strings AnimComp AnimBuf AnimSpec SmallData DataSpec MatlData
  MatlSpec SkelData SkelSpec AdjData AdjSpec VecData MeshData MeshSpec MeshReadSpec Json JsonSpec DataJson DataJsonSpec.

(** The bytes of a text before its first NUL *)
Fixpoint cut (t : list Z) : list Z :=
  match t with
  | [] => []
  | x :: r => if x =? 0 then [] else x :: cut r
  end.

Definition cut_modl_entry (e : modl_entry) : modl_entry := ME (cut (me_name e)) (me_subindex e) (cut (me_material e)).
(** The version of a model is fixed. *)
Definition cut_modl (d : modl_data) : modl_data :=
  MD 1 7 (cut (md_model d)) (cut (md_skel d)) (map cut (md_materials d)) (option_map cut (md_anim d)) (cut (md_mesh d))
     (map cut_modl_entry (md_entries d)).

Definition cut_aim (a : aim) : aim :=
  Aim (cut (am_name a)) (cut (am_bone1 a)) (cut (am_bone2 a)) (cut (am_type1 a)) (cut (am_type2 a))
      (cut (am_target1 a)) (cut (am_target2 a)) (am_unk1 a) (am_unk2 a) (am_aim a) (am_up a) (am_quat1 a) (am_quat2 a).
Definition cut_orient (o : orient) : orient :=
  Orient (cut (or_name o)) (cut (or_parent1 o)) (cut (or_parent2 o)) (cut (or_source o)) (cut (or_target o))
         (or_type o) (or_axes o) (or_quat1 o) (or_quat2 o) (or_min o) (or_max o).
(** So is that of helper bones. *)
Definition cut_hlpb (d : hlpb_data) : hlpb_data := HD 1 1 (map cut_aim (hd_aims d)) (map cut_orient (hd_orients d)).

Definition cut_mesh_group (g : mesh_group) : mesh_group := MG (mg_sphere g) (cut (mg_full g)) (cut (mg_name g)) (mg_flags g).

(** The number of an object has 32 bits in the file. *)
Definition cut_adj_entry (e : adj_entry) : adj_entry := AE (ae_object e mod 2 ^ 32) (ae_adjacency e).

(** The number of a parent has 16 bits in the file, and one with the top bit set stands for no
    parent. *)
Definition kept_parent (p : option Z) : option Z :=
  match p with
  | Some i => if i mod 2 ^ 16 <? 2 ^ 15 then Some (i mod 2 ^ 16) else None
  | None => None
  end.
Definition cut_bone (b : bone) : bone := Bone (cut (bn_name b)) (bn_transform b) (kept_parent (bn_parent b)) (bn_billboard b).

Definition cut_param (p : param text) : param text := Prm (pr_id p) (cut (pr_data p)).
Definition cut_matl_entry (e : matl_entry) : matl_entry :=
  MatE (cut (mt_label e)) (cut (mt_shader e)) (mt_blends e) (mt_floats e) (mt_bools e) (mt_vectors e) (mt_rasters e)
       (mt_samplers e) (map cut_param (mt_textures e)) (mt_uvs e).
Definition cut_matl (d : matl_data) : matl_data := MatD (mt_major d) (mt_minor d) (map cut_matl_entry (mt_entries d)).

Definition cut_track (t : track_data) : track_data := TD (cut (td_name t)) (td_comp t) (td_flags t) (td_values t).
Definition cut_node (n : node_data) : node_data := ND (cut (nd_name n)) (map cut_track (nd_tracks n)).
Definition cut_group (g : group_data) : group_data := GD (gd_type g) (map cut_node (gd_nodes g)).
Definition cut_anim (d : anim_data) : anim_data := AD (ad_major d) (ad_minor d) (ad_final d) (map cut_group (ad_groups d)).

Definition cut_attribute (a : attribute_data) : attribute_data := MkAttr (cut (attr_name a)) (attr_data a).
Definition cut_influence (i : bone_influence) : bone_influence := MkInf (cut (inf_bone i)) (inf_weights i).
Definition cut_object (o : mesh_object) : mesh_object :=
  MkObj (cut (ob_name o)) (ob_subindex o) (cut (ob_parent o)) (ob_bias o) (ob_no_write o) (ob_no_test o) (ob_indices o)
        (map cut_attribute (ob_positions o)) (map cut_attribute (ob_normals o)) (map cut_attribute (ob_binormals o))
        (map cut_attribute (ob_tangents o)) (map cut_attribute (ob_texcoords o)) (map cut_attribute (ob_colors o))
        (map cut_influence (ob_influences o)).
Definition cut_mesh (d : mesh_data) : mesh_data := MkMesh (mesh_major d) (mesh_minor d) (map cut_object (mesh_objects d)).

Definition cut_data (d : data) : data :=
  match d with
  | DtMesh d => DtMesh (cut_mesh d)
  | DtSkel _ _ bones => DtSkel 1 0 (map cut_bone bones)
  | DtAnim d => DtAnim (cut_anim d)
  | DtModl d => DtModl (cut_modl d)
  | DtMatl d => DtMatl (cut_matl d)
  | DtHlpb d => DtHlpb (cut_hlpb d)
  | DtMeshEx d => DtMeshEx (map cut_mesh_group d)
  | DtAdj d => DtAdj (map cut_adj_entry d)
  end.

(** Numbers of elements that fit into the fields of the file.  Lists of 2^64 elements do not
    exist; the other bounds are those of the counts and offsets of a file. *)
Definition counts_fit (d : data) : Prop :=
  match d with
  | DtMesh d => zlen (mesh_objects d) < 2 ^ 64 /\ Forall lists_fit (mesh_objects d) /\
                mesh_fits (mesh_version_of d) (mesh_objects d)
  | DtSkel _ _ bones => zlen bones < 2 ^ 64
  | DtAnim d => zlen (ad_groups d) < 2 ^ 64 /\
      (forall g, In g (ad_groups d) -> zlen (gd_nodes g) < 2 ^ 64 /\
        forall n, In n (gd_nodes g) -> zlen (nd_tracks n) < 2 ^ 64) /\
      (forall t, In t (tracks_of d) -> tv_len (td_values t) < 2 ^ 32) /\ anim_size d < 2 ^ 32
  | DtModl d => zlen (md_materials d) < 2 ^ 64 /\ zlen (md_entries d) < 2 ^ 64
  | DtMatl d => zlen (mt_entries d) < 2 ^ 64 /\ forall e, In e (mt_entries d) -> param_count e < 2 ^ 64
  | DtHlpb d => zlen (hd_aims d) < 2 ^ 32 /\ zlen (hd_orients d) < 2 ^ 32
  | DtMeshEx d => zlen d < 2 ^ 32 /\ zlen (flat_map mg_flags d) < 2 ^ 32
  | DtAdj d => zlen d < 2 ^ 32 /\ 2 * zlen (flat_map ae_adjacency (removelast d)) < 2 ^ 32
  end.

(** The influences of objects with the same name and number are not told apart: each of these
    objects gets those of all of them, in the order of the objects. *)
Definition same_key (o o' : mesh_object) : bool := list_eqb (ob_name o') (ob_name o) && (ob_subindex o' =? ob_subindex o).
Definition merged_objects (os : list mesh_object) : list mesh_object :=
  map (fun o => with_influences (flat_map ob_influences (filter (same_key o) os)) o) os.
Definition merged_data (d : data) : data :=
  match d with
  | DtMesh d => DtMesh (MkMesh (mesh_major d) (mesh_minor d) (merged_objects (mesh_objects d)))
  | d => d
  end.

(** The names of mesh objects differ, or their numbers do, also in what is kept of them. *)
Definition keys_differ (d : data) : Prop :=
  match d with
  | DtMesh d => NoDup (map (fun o => (cut (ob_name o), ob_subindex o)) (mesh_objects d))
  | _ => True
  end.
