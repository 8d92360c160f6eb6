(** Specification for JSON documents of the data types of ssbh_data. *)
From Verif Require Import Bytes Ssbh Formats File MeshEx Strings AnimComp AnimBuf AnimSpec SmallData DataSpec MatlData
  MatlSpec SkelData SkelSpec AdjData VecData MeshData MeshSpec MeshReadSpec Json JsonSpec DataJson.

(** ** Values Rust's types admit

    A String is UTF-8 and may contain NUL.  Numbers are bit patterns, enums the numbers of
    their variants. *)
Definition typed_opt {A} (f : A -> bool) (o : option A) : bool := match o with Some a => f a | None => true end.

Definition typed_modl_entry (e : modl_entry) : bool :=
  utf8_valid (me_name e) && u64_ok (me_subindex e) && utf8_valid (me_material e).
Definition typed_modl (d : modl_data) : bool :=
  u16_ok (md_major d) && u16_ok (md_minor d) && utf8_valid (md_model d) && utf8_valid (md_skel d) &&
  forallb utf8_valid (md_materials d) && typed_opt utf8_valid (md_anim d) && utf8_valid (md_mesh d) &&
  forallb typed_modl_entry (md_entries d).

Definition typed_aim (a : aim) : bool :=
  utf8_valid (am_name a) && utf8_valid (am_bone1 a) && utf8_valid (am_bone2 a) && utf8_valid (am_type1 a) &&
  utf8_valid (am_type2 a) && utf8_valid (am_target1 a) && utf8_valid (am_target2 a) &&
  u32_ok (am_unk1 a) && u32_ok (am_unk2 a) && vec3_ok (am_aim a) && vec3_ok (am_up a) &&
  vec4_ok (am_quat1 a) && vec4_ok (am_quat2 a).
Definition typed_orient (o : orient) : bool :=
  utf8_valid (or_name o) && utf8_valid (or_parent1 o) && utf8_valid (or_parent2 o) && utf8_valid (or_source o) &&
  utf8_valid (or_target o) && u32_ok (or_type o) && vec3_ok (or_axes o) && vec4_ok (or_quat1 o) &&
  vec4_ok (or_quat2 o) && vec3_ok (or_min o) && vec3_ok (or_max o).
Definition typed_hlpb (d : hlpb_data) : bool :=
  u16_ok (hd_major d) && u16_ok (hd_minor d) && forallb typed_aim (hd_aims d) && forallb typed_orient (hd_orients d).

Definition typed_mesh_group (g : mesh_group) : bool :=
  sphere_ok (mg_sphere g) && utf8_valid (mg_full g) && utf8_valid (mg_name g).
Definition typed_adj_entry (e : adj_entry) : bool := u64_ok (ae_object e) && forallb u16_ok (ae_adjacency e).

(** BillboardType, ssbh_lib/src/formats/skel.rs *)
Definition typed_bone (b : bone) : bool :=
  utf8_valid (bn_name b) && mat_ok (bn_transform b) && typed_opt u64_ok (bn_parent b) &&
  existsb (Z.eqb (bn_billboard b)) [0; 1; 2; 3; 4; 6; 8].

Definition typed_matl_entry (e : matl_entry) : bool :=
  utf8_valid (mt_label e) && utf8_valid (mt_shader e) &&
  forallb (param_ok blend_ok) (mt_blends e) && forallb (param_ok is32) (mt_floats e) &&
  forallb (param_ok (fun _ => true)) (mt_bools e) && forallb (param_ok vec4_ok) (mt_vectors e) &&
  forallb (param_ok raster_ok) (mt_rasters e) && forallb (param_ok sampler_ok) (mt_samplers e) &&
  forallb (param_ok utf8_valid) (mt_textures e) && forallb (param_ok uvt_ok) (mt_uvs e).
Definition typed_matl (d : matl_data) : bool :=
  u16_ok (mt_major d) && u16_ok (mt_minor d) && forallb typed_matl_entry (mt_entries d).

Definition typed_track (t : track_data) : bool := utf8_valid (td_name t) && values_ok (td_values t).
Definition typed_node (n : node_data) : bool := utf8_valid (nd_name n) && forallb typed_track (nd_tracks n).
Definition typed_group (g : group_data) : bool :=
  existsb (Z.eqb (gd_type g)) [1; 2; 4; 5] && forallb typed_node (gd_nodes g).
Definition typed_anim (d : anim_data) : bool :=
  u16_ok (ad_major d) && u16_ok (ad_minor d) && is32 (ad_final d) && forallb typed_group (ad_groups d).

Definition typed_attribute (a : attribute_data) : bool := utf8_valid (attr_name a) && vec_ok (attr_data a).
Definition typed_influence (i : bone_influence) : bool :=
  utf8_valid (inf_bone i) && forallb weight_ok (inf_weights i).
Definition typed_object (o : mesh_object) : bool :=
  utf8_valid (ob_name o) && u64_ok (ob_subindex o) && utf8_valid (ob_parent o) && is32 (ob_bias o) &&
  forallb is32 (ob_indices o) && forallb typed_attribute (ob_positions o) && forallb typed_attribute (ob_normals o) &&
  forallb typed_attribute (ob_binormals o) && forallb typed_attribute (ob_tangents o) &&
  forallb typed_attribute (ob_texcoords o) && forallb typed_attribute (ob_colors o) &&
  forallb typed_influence (ob_influences o).
Definition typed_mesh (d : mesh_data) : bool :=
  u16_ok (mesh_major d) && u16_ok (mesh_minor d) && forallb typed_object (mesh_objects d).

Definition typed_data (d : data) : bool :=
  match d with
  | DtMesh d => typed_mesh d
  | DtSkel major minor bones => u16_ok major && u16_ok minor && forallb typed_bone bones
  | DtAnim d => typed_anim d
  | DtModl d => typed_modl d
  | DtMatl d => typed_matl d
  | DtHlpb d => typed_hlpb d
  | DtMeshEx d => forallb typed_mesh_group d
  | DtAdj d => forallb typed_adj_entry d
  end.

(** ** The floats of a value *)
Definition vec3_floats (v : vec3) : list Z := [v3x v; v3y v; v3z v].
Definition vec4_floats (v : vec4) : list Z := [v4x v; v4y v; v4z v; v4w v].
Definition uv_floats (u : uvtransform) : list Z := [uv_su u; uv_sv u; uv_rot u; uv_tu u; uv_tv u].
Definition aim_floats (a : aim) : list Z :=
  vec3_floats (am_aim a) ++ vec3_floats (am_up a) ++ vec4_floats (am_quat1 a) ++ vec4_floats (am_quat2 a).
Definition orient_floats (o : orient) : list Z :=
  vec3_floats (or_axes o) ++ vec4_floats (or_quat1 o) ++ vec4_floats (or_quat2 o) ++
  vec3_floats (or_min o) ++ vec3_floats (or_max o).
Definition hlpb_floats (d : hlpb_data) : list Z :=
  flat_map aim_floats (hd_aims d) ++ flat_map orient_floats (hd_orients d).
Definition mesh_group_floats (g : mesh_group) : list Z :=
  vec3_floats (sp_center (mg_sphere g)) ++ [sp_radius (mg_sphere g)].
Definition mat_floats (m : mat) : list Z :=
  vec4_floats (col1 m) ++ vec4_floats (col2 m) ++ vec4_floats (col3 m) ++ vec4_floats (col4 m).
Definition sampler_floats (s : sampler) : list Z := vec4_floats (sm_border s) ++ [sm_lod s].
Definition raster_floats (r : raster) : list Z := [rs_bias r].
Definition matl_entry_floats (e : matl_entry) : list Z :=
  map pr_data (mt_floats e) ++ flat_map (fun p => vec4_floats (pr_data p)) (mt_vectors e) ++
  flat_map (fun p => raster_floats (pr_data p)) (mt_rasters e) ++
  flat_map (fun p => sampler_floats (pr_data p)) (mt_samplers e) ++
  flat_map (fun p => uv_floats (pr_data p)) (mt_uvs e).
Definition transform_floats (t : transform) : list Z :=
  vec3_floats (tr_scale t) ++ vec4_floats (tr_rot t) ++ vec3_floats (tr_trans t).
Definition values_floats (v : track_values) : list Z :=
  match v with
  | TvTransform l => flat_map transform_floats l
  | TvUv l => flat_map uv_floats l
  | TvFloat l => l
  | TvPattern _ | TvBool _ => []
  | TvVec4 l => flat_map vec4_floats l
  end.
Definition anim_floats (d : anim_data) : list Z :=
  ad_final d :: flat_map (fun t => values_floats (td_values t)) (tracks_of d).
Definition attribute_floats (a : attribute_data) : list Z := List.concat (vec_rows (attr_data a)).
Definition object_floats (o : mesh_object) : list Z :=
  flat_map attribute_floats (all_attributes o) ++ flat_map (fun i => map wt_weight (inf_weights i)) (ob_influences o).

Definition data_floats (d : data) : list Z :=
  match d with
  | DtMesh d => flat_map object_floats (mesh_objects d)
  | DtSkel _ _ bones => flat_map (fun b => mat_floats (bn_transform b)) bones
  | DtAnim d => anim_floats d
  | DtModl _ => []
  | DtMatl d => flat_map matl_entry_floats (mt_entries d)
  | DtHlpb d => hlpb_floats d
  | DtMeshEx d => flat_map mesh_group_floats d
  | DtAdj _ => []
  end.

(** Neither an infinity nor NaN: the exponent bits are not all ones. *)
Definition finite (n : Z) : Prop := (n / 2 ^ 23) mod 2 ^ 8 <> 255.
Definition finite_data (d : data) : Prop := Forall finite (data_floats d).

(** Documents in memory: strings are UTF-8, a float has 32 bits. *)
Fixpoint wellformed (j : json) : bool :=
  match j with
  | JStr t => utf8_valid t
  | JArr js => forallb wellformed js
  | JObj ms => forallb (fun m => wellformed (snd m)) ms
  | JFloat n => is32 n
  | _ => true
  end.

(** What a saved value is read back as *)
Definition stored_data (d : data) : data :=
  match d with
  | DtMesh d => DtMesh (stored_mesh d)
  | DtAnim d => DtAnim (stored_anim d)
  | d => d
  end.
(** Numbers of elements that fit into the fields of the file *)
Definition data_fits (d : data) : Prop :=
  match d with
  | DtMesh d => Forall lists_fit (mesh_objects d) /\ mesh_fits (mesh_version_of d) (mesh_objects d)
  | DtAnim d => anim_size d < 2 ^ 32
  | DtHlpb d => zlen (hd_aims d) < 2 ^ 32 /\ zlen (hd_orients d) < 2 ^ 32
  | _ => True
  end.

(** Members that may be left out, with what they are then read as: the defaults of
    SamplerData, matl_data.rs:172-194, and BlendStateData, 265-278 *)
Definition jtext (s : string) : json := JStr (text_of s).
Definition sampler_defaults : list (string * json) :=
  [("wraps"%string, jtext "ClampToEdge"); ("wrapt"%string, jtext "ClampToEdge"); ("wrapr"%string, jtext "ClampToEdge");
   ("min_filter"%string, jtext "LinearMipmapLinear"); ("mag_filter"%string, jtext "Linear");
   ("border_color"%string,
    JObj [("r"%string, JFloat 0); ("g"%string, JFloat 0); ("b"%string, JFloat 0); ("a"%string, JFloat 0)]);
   ("lod_bias"%string, JFloat 0); ("max_anisotropy"%string, jtext "One"); ("max_anisotropy"%string, JNull)].
Definition blend_defaults : list (string * json) :=
  [("source_color"%string, jtext "One"); ("color_operation"%string, jtext "Add"); ("destination_color"%string, jtext "Zero");
   ("source_alpha"%string, jtext "One"); ("alpha_operation"%string, jtext "Add"); ("destination_alpha"%string, jtext "Zero");
   ("alpha_sample_to_coverage"%string, JBool false)].
