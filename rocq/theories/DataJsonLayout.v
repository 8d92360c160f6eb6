(** The documents of the types of ssbh_data, written out member by member. *)
From Verif Require Import Bytes Ssbh Formats Strings AnimComp AnimBuf AnimFile SmallData MatlData SkelData AdjData VecData
  MeshData Json JsonSchema DataJson.
Local Open Scope string_scope.
Local Open Scope list_scope.
Local Open Scope Z_scope.

(** An f32, and a number of [w] bytes read as signed *)
Definition jfloat (n : Z) : json := if (n / 2 ^ 23) mod 2 ^ 8 =? 255 then JNull else JFloat n.
Definition jsigned (w n : Z) : json := JInt (if n <? 256 ^ w / 2 then n else n - 256 ^ w).
Definition jlist {A} (f : A -> json) (l : list A) : json := JArr (map f l).
Definition jopt {A} (f : A -> json) (o : option A) : json := match o with Some a => f a | None => JNull end.
(** A fieldless enum: the name that belongs to the number *)
Definition jname (s : schema) (n : Z) : json :=
  match s with
  | SName tags => match find (fun t => fst t =? n) tags with Some t => JStr (text_of (snd t)) | None => JNull end
  | _ => JNull
  end.
Definition jvec3 (v : vec3) : json := JObj [("x", jfloat (v3x v)); ("y", jfloat (v3y v)); ("z", jfloat (v3z v))].
Definition jvec4 (v : vec4) : json :=
  JObj [("x", jfloat (v4x v)); ("y", jfloat (v4y v)); ("z", jfloat (v4z v)); ("w", jfloat (v4w v))].
Definition jcolor (v : vec4) : json :=
  JObj [("r", jfloat (v4x v)); ("g", jfloat (v4y v)); ("b", jfloat (v4z v)); ("a", jfloat (v4w v))].

Definition jmodl_entry (e : modl_entry) : json :=
  JObj [("mesh_object_name", JStr (me_name e)); ("mesh_object_subindex", JInt (me_subindex e));
        ("material_label", JStr (me_material e))].
Definition jmodl (d : modl_data) : json :=
  JObj [("major_version", JInt (md_major d)); ("minor_version", JInt (md_minor d)); ("model_name", JStr (md_model d));
        ("skeleton_file_name", JStr (md_skel d)); ("material_file_names", jlist JStr (md_materials d));
        ("animation_file_name", jopt JStr (md_anim d)); ("mesh_file_name", JStr (md_mesh d));
        ("entries", jlist jmodl_entry (md_entries d))].

Definition jaim (a : aim) : json :=
  JObj [("name", JStr (am_name a)); ("aim_bone_name1", JStr (am_bone1 a)); ("aim_bone_name2", JStr (am_bone2 a));
        ("aim_type1", JStr (am_type1 a)); ("aim_type2", JStr (am_type2 a)); ("target_bone_name1", JStr (am_target1 a));
        ("target_bone_name2", JStr (am_target2 a)); ("unk1", JInt (am_unk1 a)); ("unk2", JInt (am_unk2 a));
        ("aim", jvec3 (am_aim a)); ("up", jvec3 (am_up a)); ("quat1", jvec4 (am_quat1 a)); ("quat2", jvec4 (am_quat2 a))].
Definition jorient (o : orient) : json :=
  JObj [("name", JStr (or_name o)); ("parent_bone_name1", JStr (or_parent1 o)); ("parent_bone_name2", JStr (or_parent2 o));
        ("source_bone_name", JStr (or_source o)); ("target_bone_name", JStr (or_target o)); ("unk_type", JInt (or_type o));
        ("constraint_axes", jvec3 (or_axes o)); ("quat1", jvec4 (or_quat1 o)); ("quat2", jvec4 (or_quat2 o));
        ("range_min", jvec3 (or_min o)); ("range_max", jvec3 (or_max o))].
Definition jhlpb (d : hlpb_data) : json :=
  JObj [("major_version", JInt (hd_major d)); ("minor_version", JInt (hd_minor d));
        ("aim_constraints", jlist jaim (hd_aims d)); ("orient_constraints", jlist jorient (hd_orients d))].

Definition jflags (e : entry_flags) : json := JObj [("draw_model", JBool (ef_draw e)); ("cast_shadow", JBool (ef_shadow e))].
Definition jmesh_group (g : mesh_group) : json :=
  JObj [("bounding_sphere", JObj [("center", jvec3 (sp_center (mg_sphere g))); ("radius", jfloat (sp_radius (mg_sphere g)))]);
        ("mesh_object_full_name", JStr (mg_full g)); ("mesh_object_name", JStr (mg_name g));
        ("entry_flags", jlist jflags (mg_flags g))].
Definition jadj_entry (e : adj_entry) : json :=
  JObj [("mesh_object_index", JInt (ae_object e)); ("vertex_adjacency", jlist (jsigned 2) (ae_adjacency e))].

(** A matrix is an array of four columns. *)
Definition jcol (v : vec4) : json := JArr [jfloat (v4x v); jfloat (v4y v); jfloat (v4z v); jfloat (v4w v)].
Definition jbone (b : bone) : json :=
  JObj [("name", JStr (bn_name b));
        ("transform", JArr [jcol (col1 (bn_transform b)); jcol (col2 (bn_transform b)); jcol (col3 (bn_transform b));
                            jcol (col4 (bn_transform b))]);
        ("parent_index", jopt JInt (bn_parent b)); ("billboard_type", jname s_skel_BillboardType (bn_billboard b))].

Definition jparam {A} (f : A -> json) (p : param A) : json :=
  JObj [("param_id", jname s_matl_ParamId (pr_id p)); ("data", f (pr_data p))].
Definition jblend (b : blend) : json :=
  JObj [("source_color", jname s_matl_BlendFactor (bl_src b)); ("color_operation", jname s_matl_BlendOperation (bl_cop b));
        ("destination_color", jname s_matl_BlendFactor (bl_dst b)); ("source_alpha", jname s_matl_BlendFactor (bl_asrc b));
        ("alpha_operation", jname s_matl_BlendOperation (bl_aop b));
        ("destination_alpha", jname s_matl_BlendFactor (bl_adst b)); ("alpha_sample_to_coverage", JBool (bl_coverage b))].
Definition jraster (r : raster) : json :=
  JObj [("fill_mode", jname s_matl_FillMode (rs_fill r)); ("cull_mode", jname s_matl_CullMode (rs_cull r));
        ("depth_bias", jfloat (rs_bias r))].
Definition jsampler (s : sampler) : json :=
  JObj [("wraps", jname s_matl_WrapMode (sm_wraps s)); ("wrapt", jname s_matl_WrapMode (sm_wrapt s));
        ("wrapr", jname s_matl_WrapMode (sm_wrapr s)); ("min_filter", jname s_matl_MinFilter (sm_min s));
        ("mag_filter", jname s_matl_MagFilter (sm_mag s)); ("border_color", jcolor (sm_border s));
        ("lod_bias", jfloat (sm_lod s)); ("max_anisotropy", jname s_matl_MaxAnisotropy (sm_aniso s))].
Definition juv (u : uvtransform) : json :=
  JObj [("scale_u", jfloat (uv_su u)); ("scale_v", jfloat (uv_sv u)); ("rotation", jfloat (uv_rot u));
        ("translate_u", jfloat (uv_tu u)); ("translate_v", jfloat (uv_tv u))].
Definition jmatl_entry (e : matl_entry) : json :=
  JObj [("material_label", JStr (mt_label e)); ("shader_label", JStr (mt_shader e));
        ("blend_states", jlist (jparam jblend) (mt_blends e)); ("floats", jlist (jparam jfloat) (mt_floats e));
        ("booleans", jlist (jparam JBool) (mt_bools e)); ("vectors", jlist (jparam jvec4) (mt_vectors e));
        ("rasterizer_states", jlist (jparam jraster) (mt_rasters e)); ("samplers", jlist (jparam jsampler) (mt_samplers e));
        ("textures", jlist (jparam JStr) (mt_textures e)); ("uv_transforms", jlist (jparam juv) (mt_uvs e))].
Definition jmatl (d : matl_data) : json :=
  JObj [("major_version", JInt (mt_major d)); ("minor_version", JInt (mt_minor d)); ("entries", jlist jmatl_entry (mt_entries d))].

Definition jtransform (t : transform) : json :=
  JObj [("scale", jvec3 (tr_scale t)); ("rotation", jvec4 (tr_rot t)); ("translation", jvec3 (tr_trans t))].
Definition jvalues (v : track_values) : json :=
  match v with
  | TvTransform l => JObj [("Transform", jlist jtransform l)]
  | TvUv l => JObj [("UvTransform", jlist juv l)]
  | TvFloat l => JObj [("Float", jlist jfloat l)]
  | TvPattern l => JObj [("PatternIndex", jlist JInt l)]
  | TvBool l => JObj [("Boolean", jlist JBool l)]
  | TvVec4 l => JObj [("Vector4", jlist jvec4 l)]
  end.
Definition jtflags (f : tflags) : json :=
  JObj [("override_translation", JBool (override_translation f)); ("override_rotation", JBool (override_rotation f));
        ("override_scale", JBool (override_scale f)); ("override_compensate_scale", JBool (override_compensate_scale f))].
Definition jtrack (t : track_data) : json :=
  JObj [("name", JStr (td_name t)); ("compensate_scale", JBool (td_comp t)); ("transform_flags", jtflags (td_flags t));
        ("values", jvalues (td_values t))].
Definition jnode (n : node_data) : json := JObj [("name", JStr (nd_name n)); ("tracks", jlist jtrack (nd_tracks n))].
Definition jgroup (g : group_data) : json :=
  JObj [("group_type", jname s_anim_GroupType (gd_type g)); ("nodes", jlist jnode (gd_nodes g))].
Definition janim (d : anim_data) : json :=
  JObj [("major_version", JInt (ad_major d)); ("minor_version", JInt (ad_minor d)); ("final_frame_index", jfloat (ad_final d));
        ("groups", jlist jgroup (ad_groups d))].

Definition jvector_data (v : vector_data) : json :=
  JObj [(match vec_dim v with Two => "Vector2" | Three => "Vector3" | Four => "Vector4" end, jlist (jlist jfloat) (vec_rows v))].
Definition jattribute (a : attribute_data) : json := JObj [("name", JStr (attr_name a)); ("data", jvector_data (attr_data a))].
Definition jinfluence (i : bone_influence) : json :=
  JObj [("bone_name", JStr (inf_bone i));
        ("vertex_weights", jlist (fun w => JObj [("vertex_index", JInt (wt_index w)); ("vertex_weight", jfloat (wt_weight w))])
                             (inf_weights i))].
Definition jobject (o : mesh_object) : json :=
  JObj [("name", JStr (ob_name o)); ("subindex", JInt (ob_subindex o)); ("parent_bone_name", JStr (ob_parent o));
        ("sort_bias", jsigned 4 (ob_bias o)); ("disable_depth_write", JBool (ob_no_write o));
        ("disable_depth_test", JBool (ob_no_test o)); ("vertex_indices", jlist JInt (ob_indices o));
        ("positions", jlist jattribute (ob_positions o)); ("normals", jlist jattribute (ob_normals o));
        ("binormals", jlist jattribute (ob_binormals o)); ("tangents", jlist jattribute (ob_tangents o));
        ("texture_coordinates", jlist jattribute (ob_texcoords o)); ("color_sets", jlist jattribute (ob_colors o));
        ("bone_influences", jlist jinfluence (ob_influences o))].

Definition jdata (d : data) : json :=
  match d with
  | DtMesh d =>
      JObj [("major_version", JInt (mesh_major d)); ("minor_version", JInt (mesh_minor d)); ("objects", jlist jobject (mesh_objects d))]
  | DtSkel major minor bones =>
      JObj [("major_version", JInt major); ("minor_version", JInt minor); ("bones", jlist jbone bones)]
  | DtAnim d => janim d
  | DtModl d => jmodl d
  | DtMatl d => jmatl d
  | DtHlpb d => jhlpb d
  | DtMeshEx gs => JObj [("mesh_object_groups", jlist jmesh_group gs)]
  | DtAdj es => JObj [("entries", jlist jadj_entry es)]
  end.

(** ** The documents of the model *)
Lemma as_list {A} (s : schema) (f : A -> val) (g : A -> json) l :
  (forall a, to_json s (f a) = g a) -> to_json (SArr s) (list_doc f l) = jlist g l.
Proof. intros H. unfold list_doc, jlist. cbn [to_json]. rewrite map_map. f_equal. now apply map_ext. Qed.
Lemma as_fix {A} n (s : schema) (f : A -> val) (g : A -> json) l :
  (forall a, to_json s (f a) = g a) -> to_json (SFix n s) (list_doc f l) = jlist g l.
Proof. intros H. unfold list_doc, jlist. cbn [to_json]. rewrite map_map. f_equal. now apply map_ext. Qed.
Lemma as_opt {A} (s : schema) (f : A -> val) (g : A -> json) o :
  (forall a, to_json s (f a) = g a) -> to_json (SAbs s) (opt_doc f o) = jopt g o.
Proof. intros H. destruct o; cbn; auto. Qed.
Lemma as_float n : to_json SF32 (VInt n) = jfloat n.
Proof. cbn [to_json]. unfold f32_json, f32_finite, jfloat. now destruct (_ =? 255). Qed.
Lemma as_signed w n : to_json (SInt w true) (VInt n) = jsigned w n.
Proof.
  cbn [to_json]. unfold int_json, jsigned. cbn [andb].
  destruct (Z.leb_spec (256 ^ w / 2) n), (Z.ltb_spec n (256 ^ w / 2)); try reflexivity; exfalso; apply (Z.lt_irrefl n); eauto using Z.lt_le_trans, Z.le_lt_trans.
Qed.
Lemma as_name tags n : to_json (SName tags) (VInt n) = jname (SName tags) n.
Proof.
  cbn [to_json jname]. induction tags as [|[t x] tags IH]; [reflexivity|]. cbn [name_of find fst]. rewrite (Z.eqb_sym t n).
  destruct (n =? t); auto.
Qed.
Lemma as_bool b : to_json SBool (VInt (Z.b2z b)) = JBool b.
Proof. now destruct b. Qed.
Lemma as_struct fs vs : to_json (SStruct fs) (VStruct vs) = JObj (map2 (fun p v => (fst p, to_json (snd p) v)) fs vs).
Proof. reflexivity. Qed.
Lemma as_default nul dv s v : to_json (SDef nul dv s) v = to_json s v.
Proof. reflexivity. Qed.
Lemma pair_cons (x : string) (a b : json) l m : a = b -> l = m -> (x, a) :: l = (x, b) :: m.
Proof. now intros -> ->. Qed.
Lemma item_cons (a b : json) l m : a = b -> l = m -> a :: l = b :: m.
Proof. now intros -> ->. Qed.
Ltac part :=
  lazymatch goal with
  | |- to_json (SArr _) (list_doc _ _) = jlist _ _ => apply as_list; intros
  | |- to_json (SFix _ _) (list_doc _ _) = jlist _ _ => apply as_fix; intros
  | |- to_json (SAbs _) (opt_doc _ _) = jopt _ _ => apply as_opt; intros
  | |- to_json SF32 _ = jfloat _ => apply as_float
  | |- to_json (SInt _ true) _ = jsigned _ _ => apply as_signed
  | |- to_json SBool _ = JBool _ => apply as_bool
  | |- to_json (SDef _ _ _) _ = _ => rewrite as_default
  | |- to_json _ _ = jname _ _ => apply as_name
  | |- _ = JStr _ => reflexivity
  | |- _ = JInt _ => reflexivity
  | _ => auto with layout
  end.
Ltac members := apply (f_equal JObj); repeat apply pair_cons; [..|reflexivity]; repeat part.
Ltac layout := rewrite as_struct; cbn [map2 fst snd]; members.
Lemma lay_vec3 v : to_json s_vectors_Vector3 (vec3_val v) = jvec3 v.
Proof. unfold s_vectors_Vector3, vec3_val, jvec3. layout. Qed.
Lemma lay_vec4 v : to_json s_vectors_Vector4 (vec4_val v) = jvec4 v.
Proof. unfold s_vectors_Vector4, vec4_val, jvec4. layout. Qed.
Lemma lay_color v : to_json s_vectors_Color4f (vec4_val v) = jcolor v.
Proof. unfold s_vectors_Color4f, vec4_val, jcolor. layout. Qed.
#[local] Hint Resolve lay_vec3 lay_vec4 lay_color : layout.
Lemma lay_modl d : to_json sd_modl (modl_doc d) = jmodl d.
Proof.
  unfold sd_modl, modl_doc, jmodl. layout.
Qed.
Lemma lay_aim a : to_json sd_aim (aim_doc a) = jaim a.
Proof. unfold sd_aim, aim_doc, jaim. layout. Qed.
Lemma lay_orient a : to_json sd_orient (orient_doc a) = jorient a.
Proof. unfold sd_orient, orient_doc, jorient. layout. Qed.
#[local] Hint Resolve lay_aim lay_orient : layout.
Lemma lay_hlpb d : to_json sd_hlpb (hlpb_doc d) = jhlpb d.
Proof. unfold sd_hlpb, hlpb_doc, jhlpb. layout. Qed.
Lemma lay_sphere s : to_json s_mesh_BoundingSphere (sphere_val s) = JObj [("center", jvec3 (sp_center s)); ("radius", jfloat (sp_radius s))].
Proof. unfold s_mesh_BoundingSphere, sphere_val. layout. Qed.
Lemma lay_flags e : to_json sd_flags (flags_doc e) = jflags e.
Proof. unfold sd_flags, flags_doc, jflags. layout. Qed.
#[local] Hint Resolve lay_sphere lay_flags : layout.
Lemma lay_mesh_group g : to_json sd_mesh_group (mesh_group_doc g) = jmesh_group g.
Proof. unfold sd_mesh_group, mesh_group_doc, jmesh_group. layout. Qed.
Lemma lay_adj_entry e : to_json sd_adj_entry (adj_entry_doc e) = jadj_entry e.
Proof. unfold sd_adj_entry, adj_entry_doc, jadj_entry. layout. Qed.
Lemma lay_col v : to_json (SFix 4 SF32) (col_doc v) = jcol v.
Proof. unfold col_doc, jcol. cbn [to_json map]. apply (f_equal JArr). repeat apply item_cons; [..|reflexivity]; apply as_float. Qed.
Lemma lay_mat m : to_json sd_mat (mat_doc m) = JArr [jcol (col1 m); jcol (col2 m); jcol (col3 m); jcol (col4 m)].
Proof. change (JArr (map (to_json (SFix 4 SF32)) [col_doc (col1 m); col_doc (col2 m); col_doc (col3 m); col_doc (col4 m)]) = JArr [jcol (col1 m); jcol (col2 m); jcol (col3 m); jcol (col4 m)]).
  cbn [map]. now rewrite !lay_col. Qed.
#[local] Hint Resolve lay_mesh_group lay_adj_entry lay_mat : layout.
Lemma lay_bone b : to_json sd_bone (bone_doc b) = jbone b.
Proof. unfold sd_bone, bone_doc, jbone. layout. Qed.
#[local] Hint Resolve lay_bone : layout.
Lemma lay_param {A} s (f : A -> val) (g : A -> json) p : (forall a, to_json s (f a) = g a) -> to_json (sd_param s) (param_doc f p) = jparam g p.
Proof. intros H. unfold sd_param, param_doc, jparam. layout. Qed.
Lemma lay_blend b : to_json sd_blend (blend_doc b) = jblend b.
Proof. unfold sd_blend, blend_doc at 2, jblend. cbn [defaults blend_doc map2 fst snd]. layout. Qed.
Lemma lay_raster b : to_json sd_raster (raster_doc b) = jraster b.
Proof. unfold sd_raster, raster_doc, jraster. layout. Qed.
Lemma lay_sampler b : to_json sd_sampler (sampler_doc b) = jsampler b.
Proof. unfold sd_sampler, sampler_doc at 2, jsampler. cbn [defaults sampler_doc map2 fst snd]. layout. Qed.
Lemma lay_uv u : to_json s_matl_UvTransform (uv_val u) = juv u.
Proof. unfold s_matl_UvTransform, uv_val, juv. layout. Qed.
Lemma lay_uv' u : to_json sd_uv (uv_val u) = juv u.
Proof. unfold sd_uv, uv_val, juv. layout. Qed.
#[local] Hint Resolve lay_blend lay_raster lay_sampler lay_uv lay_uv' as_float as_bool : layout.
Lemma lay_matl_entry e : to_json sd_matl_entry (matl_entry_doc e) = jmatl_entry e.
Proof.
  unfold sd_matl_entry, matl_entry_doc, jmatl_entry. layout; apply lay_param; intros; auto with layout. apply as_bool.
Qed.
#[local] Hint Resolve lay_matl_entry : layout.
Lemma lay_matl d : to_json sd_matl (matl_doc d) = jmatl d.
Proof. unfold sd_matl, matl_doc, jmatl. layout. Qed.
Lemma lay_transform t : to_json sd_transform (transform_doc t) = jtransform t.
Proof. unfold sd_transform, transform_doc, jtransform. layout. Qed.
Lemma lay_tflags t : to_json sd_tflags (tflags_doc t) = jtflags t.
Proof. unfold sd_tflags, tflags_doc, jtflags. layout. Qed.
#[local] Hint Resolve lay_transform lay_tflags : layout.
Lemma as_case vs tag v : to_json (SEnum vs) (VCase tag v) =
  match find (fun p => fst (fst p) =? tag) vs with Some p => JObj [(snd (fst p), to_json (snd p) v)] | None => JNull end.
Proof.
  cbn [to_json]. induction vs as [|[[t x] s] vs IH]; [reflexivity|]. cbn [find fst snd]. rewrite (Z.eqb_sym t tag).
  destruct (tag =? t); auto.
Qed.
Lemma lay_values v : to_json sd_track_values (track_values_doc v) = jvalues v.
Proof.
  unfold sd_track_values. destruct v; cbn [track_values_doc jvalues]; rewrite as_case;
    cbn [find fst snd Z.eqb Pos.eqb]; members.
Qed.
#[local] Hint Resolve lay_values : layout.
Lemma lay_track t : to_json sd_track (track_doc t) = jtrack t.
Proof. unfold sd_track, track_doc, jtrack. layout. Qed.
#[local] Hint Resolve lay_track : layout.
Lemma lay_node n : to_json sd_node (node_doc n) = jnode n.
Proof. unfold sd_node, node_doc, jnode. layout. Qed.
#[local] Hint Resolve lay_node : layout.
Lemma lay_group n : to_json sd_group (group_doc n) = jgroup n.
Proof. unfold sd_group, group_doc, jgroup. layout. Qed.
#[local] Hint Resolve lay_group : layout.
Lemma lay_anim d : to_json sd_anim (anim_doc d) = janim d.
Proof. unfold sd_anim, anim_doc, janim. layout. Qed.
Lemma lay_vector_data v : to_json sd_vector_data (vector_data_doc v) = jvector_data v.
Proof.
  unfold sd_vector_data, vector_data_doc, jvector_data. destruct (vec_dim v); cbn [dim_tag]; rewrite as_case;
    cbn [find fst snd Z.eqb Pos.eqb]; members.
Qed.
#[local] Hint Resolve lay_vector_data : layout.
Lemma lay_attribute a : to_json sd_attribute (attribute_doc a) = jattribute a.
Proof. unfold sd_attribute, attribute_doc, jattribute. layout. Qed.
Lemma lay_influence i : to_json sd_influence (influence_doc i) = jinfluence i.
Proof. unfold sd_influence, influence_doc, jinfluence. layout. unfold sd_weight, weight_doc. layout. Qed.
#[local] Hint Resolve lay_attribute lay_influence : layout.
Lemma lay_object o : to_json sd_object (object_doc o) = jobject o.
Proof. unfold sd_object, object_doc, jobject. layout. Qed.
#[local] Hint Resolve lay_object : layout.

Theorem data_layout d : data_json d = jdata d.
Proof.
  unfold data_json. destruct d; cbn [data_kind_of data_schema data_doc jdata];
    auto using lay_anim, lay_modl, lay_matl, lay_hlpb.
  - unfold sd_mesh, mesh_doc. layout.
  - unfold sd_skel, skel_doc. layout.
  - unfold sd_meshex, meshex_doc. layout.
  - unfold sd_adj, adj_doc. layout.
Qed.
