(** ssbh_data_json: the data types of ssbh_data as JSON.
    Paths below are relative to /repo/ssbh_data/src unless they name another crate.

    Each type has a schema, which is what serde makes of its fields, and a conversion to and
    from the values the schema is about.  The conversions only rename: fields are in the order
    of the Rust type, booleans are 0 and 1, enums the numbers of their variants. *)
From Verif Require Import Bytes Ssbh Formats File MeshEx Strings AnimComp AnimBuf AnimFile SmallData MatlData SkelData
  AdjData VecData MeshData Json JsonSchema.
Local Open Scope string_scope.
Local Open Scope Z_scope.

(** ** Values *)
Definition text_doc (t : list Z) : val := VBytes t.
Definition un_text_doc (v : val) : res (list Z) := match v with VBytes t => Ok t | _ => Err EType end.
Definition int_doc (n : Z) : val := VInt n.
Definition un_int_doc (v : val) : res Z := match v with VInt n => Ok n | _ => Err EType end.
Definition bool_doc (b : bool) : val := VInt (Z.b2z b).
Definition un_bool_doc (v : val) : res bool := match v with VInt n => Ok (negb (n =? 0)) | _ => Err EType end.
Definition list_doc {A} (f : A -> val) (l : list A) : val := VArr (map f l).
Definition un_list_doc {A} (f : val -> res A) (v : val) : res (list A) :=
  match v with VArr vs => un_list f vs | _ => Err EType end.
Definition opt_doc {A} (f : A -> val) (o : option A) : val := VPtr (option_map f o).
Definition un_opt_doc {A} (f : val -> res A) (v : val) : res (option A) :=
  match v with
  | VPtr None => Ok None
  | VPtr (Some v') => let* a := f v' in Ok (Some a)
  | _ => Err EType
  end.

(** Fields of a struct with #[serde(default)] *)
Definition defaults (fs : list (string * schema)) (d : val) : list (string * schema) :=
  match d with VStruct ds => map2 (fun p v => (fst p, SDef false v (snd p))) fs ds | _ => fs end.

(** ** modl_data.rs *)

(** ModlEntryData, modl_data.rs:47-51 *)
Definition sd_modl_entry : schema :=
  SStruct [("mesh_object_name", SText); ("mesh_object_subindex", SInt 8 false); ("material_label", SText)].
Definition modl_entry_doc (e : modl_entry) : val :=
  VStruct [text_doc (me_name e); int_doc (me_subindex e); text_doc (me_material e)].
Definition un_modl_entry_doc (v : val) : res modl_entry :=
  match v with
  | VStruct [a; b; c] =>
      let* a := un_text_doc a in let* b := un_int_doc b in let* c := un_text_doc c in Ok (ME a b c)
  | _ => Err EType
  end.
(** ModlData, modl_data.rs:32-41 *)
Definition sd_modl : schema :=
  SStruct [("major_version", SInt 2 false); ("minor_version", SInt 2 false); ("model_name", SText);
           ("skeleton_file_name", SText); ("material_file_names", SArr SText);
           ("animation_file_name", SAbs SText); ("mesh_file_name", SText); ("entries", SArr sd_modl_entry)].
Definition modl_doc (d : modl_data) : val :=
  VStruct [int_doc (md_major d); int_doc (md_minor d); text_doc (md_model d); text_doc (md_skel d);
           list_doc text_doc (md_materials d); opt_doc text_doc (md_anim d); text_doc (md_mesh d);
           list_doc modl_entry_doc (md_entries d)].
Definition un_modl_doc (v : val) : res modl_data :=
  match v with
  | VStruct [a; b; c; d; e; f; g; h] =>
      let* a := un_int_doc a in let* b := un_int_doc b in let* c := un_text_doc c in let* d := un_text_doc d in
      let* e := un_list_doc un_text_doc e in let* f := un_opt_doc un_text_doc f in let* g := un_text_doc g in
      let* h := un_list_doc un_modl_entry_doc h in Ok (MD a b c d e f g h)
  | _ => Err EType
  end.

(** ** hlpb_data.rs *)

(** AimConstraintData, hlpb_data.rs:27-41 *)
Definition sd_aim : schema :=
  SStruct [("name", SText); ("aim_bone_name1", SText); ("aim_bone_name2", SText); ("aim_type1", SText);
           ("aim_type2", SText); ("target_bone_name1", SText); ("target_bone_name2", SText);
           ("unk1", SInt 4 false); ("unk2", SInt 4 false); ("aim", s_vectors_Vector3); ("up", s_vectors_Vector3);
           ("quat1", s_vectors_Vector4); ("quat2", s_vectors_Vector4)].
Definition aim_doc (a : aim) : val :=
  VStruct [text_doc (am_name a); text_doc (am_bone1 a); text_doc (am_bone2 a); text_doc (am_type1 a);
           text_doc (am_type2 a); text_doc (am_target1 a); text_doc (am_target2 a);
           int_doc (am_unk1 a); int_doc (am_unk2 a); vec3_val (am_aim a); vec3_val (am_up a);
           vec4_val (am_quat1 a); vec4_val (am_quat2 a)].
Definition un_aim_doc (v : val) : res aim :=
  match v with
  | VStruct [a; b; c; d; e; f; g; h; i; j; k; l; m] =>
      let* a := un_text_doc a in let* b := un_text_doc b in let* c := un_text_doc c in let* d := un_text_doc d in
      let* e := un_text_doc e in let* f := un_text_doc f in let* g := un_text_doc g in
      let* h := un_int_doc h in let* i := un_int_doc i in let* j := un_vec3 j in let* k := un_vec3 k in
      let* l := un_vec4 l in let* m := un_vec4 m in Ok (Aim a b c d e f g h i j k l m)
  | _ => Err EType
  end.
(** OrientConstraintData, hlpb_data.rs:47-59 *)
Definition sd_orient : schema :=
  SStruct [("name", SText); ("parent_bone_name1", SText); ("parent_bone_name2", SText); ("source_bone_name", SText);
           ("target_bone_name", SText); ("unk_type", SInt 4 false); ("constraint_axes", s_vectors_Vector3);
           ("quat1", s_vectors_Vector4); ("quat2", s_vectors_Vector4); ("range_min", s_vectors_Vector3);
           ("range_max", s_vectors_Vector3)].
Definition orient_doc (o : orient) : val :=
  VStruct [text_doc (or_name o); text_doc (or_parent1 o); text_doc (or_parent2 o); text_doc (or_source o);
           text_doc (or_target o); int_doc (or_type o); vec3_val (or_axes o); vec4_val (or_quat1 o);
           vec4_val (or_quat2 o); vec3_val (or_min o); vec3_val (or_max o)].
Definition un_orient_doc (v : val) : res orient :=
  match v with
  | VStruct [a; b; c; d; e; f; g; h; i; j; k] =>
      let* a := un_text_doc a in let* b := un_text_doc b in let* c := un_text_doc c in let* d := un_text_doc d in
      let* e := un_text_doc e in let* f := un_int_doc f in let* g := un_vec3 g in let* h := un_vec4 h in
      let* i := un_vec4 i in let* j := un_vec3 j in let* k := un_vec3 k in Ok (Orient a b c d e f g h i j k)
  | _ => Err EType
  end.
(** HlpbData, hlpb_data.rs:14-19 *)
Definition sd_hlpb : schema :=
  SStruct [("major_version", SInt 2 false); ("minor_version", SInt 2 false); ("aim_constraints", SArr sd_aim);
           ("orient_constraints", SArr sd_orient)].
Definition hlpb_doc (d : hlpb_data) : val :=
  VStruct [int_doc (hd_major d); int_doc (hd_minor d); list_doc aim_doc (hd_aims d); list_doc orient_doc (hd_orients d)].
Definition un_hlpb_doc (v : val) : res hlpb_data :=
  match v with
  | VStruct [a; b; c; d] =>
      let* a := un_int_doc a in let* b := un_int_doc b in let* c := un_list_doc un_aim_doc c in
      let* d := un_list_doc un_orient_doc d in Ok (HD a b c d)
  | _ => Err EType
  end.

(** ** meshex_data.rs and adj_data.rs *)

(** EntryFlags, meshex_data.rs:45-49 *)
Definition sd_flags : schema := SStruct [("draw_model", SBool); ("cast_shadow", SBool)].
Definition flags_doc (e : entry_flags) : val := VStruct [bool_doc (ef_draw e); bool_doc (ef_shadow e)].
Definition un_flags_doc (v : val) : res entry_flags :=
  match v with
  | VStruct [a; b] => let* a := un_bool_doc a in let* b := un_bool_doc b in Ok (EF a b)
  | _ => Err EType
  end.
(** MeshObjectGroupData, meshex_data.rs:33-39; BoundingSphere is a type of ssbh_lib. *)
Definition sd_mesh_group : schema :=
  SStruct [("bounding_sphere", s_mesh_BoundingSphere); ("mesh_object_full_name", SText); ("mesh_object_name", SText);
           ("entry_flags", SArr sd_flags)].
Definition mesh_group_doc (g : mesh_group) : val :=
  VStruct [sphere_val (mg_sphere g); text_doc (mg_full g); text_doc (mg_name g); list_doc flags_doc (mg_flags g)].
Definition un_mesh_group_doc (v : val) : res mesh_group :=
  match v with
  | VStruct [a; b; c; d] =>
      let* a := un_sphere a in let* b := un_text_doc b in let* c := un_text_doc c in
      let* d := un_list_doc un_flags_doc d in Ok (MG a b c d)
  | _ => Err EType
  end.
(** MeshExData, meshex_data.rs:22-24 *)
Definition sd_meshex : schema := SStruct [("mesh_object_groups", SArr sd_mesh_group)].
Definition meshex_doc (gs : list mesh_group) : val := VStruct [list_doc mesh_group_doc gs].
Definition un_meshex_doc (v : val) : res (list mesh_group) :=
  match v with VStruct [a] => un_list_doc un_mesh_group_doc a | _ => Err EType end.

(** AdjEntryData, adj_data.rs:66-74; usize has 64 bits. *)
Definition sd_adj_entry : schema := SStruct [("mesh_object_index", SInt 8 false); ("vertex_adjacency", SArr (SInt 2 true))].
Definition adj_entry_doc (e : adj_entry) : val := VStruct [int_doc (ae_object e); list_doc int_doc (ae_adjacency e)].
Definition un_adj_entry_doc (v : val) : res adj_entry :=
  match v with
  | VStruct [a; b] => let* a := un_int_doc a in let* b := un_list_doc un_int_doc b in Ok (AE a b)
  | _ => Err EType
  end.
(** AdjData, adj_data.rs:58-60 *)
Definition sd_adj : schema := SStruct [("entries", SArr sd_adj_entry)].
Definition adj_doc (d : list adj_entry) : val := VStruct [list_doc adj_entry_doc d].
Definition un_adj_doc (v : val) : res (list adj_entry) :=
  match v with VStruct [a] => un_list_doc un_adj_entry_doc a | _ => Err EType end.

(** ** skel_data.rs *)

(** [[f32; 4]; 4], the columns of the matrix *)
Definition sd_mat : schema := SFix 4 (SFix 4 SF32).
Definition col_doc (v : vec4) : val := VArr [VInt (v4x v); VInt (v4y v); VInt (v4z v); VInt (v4w v)].
Definition mat_doc (m : mat) : val := VArr [col_doc (col1 m); col_doc (col2 m); col_doc (col3 m); col_doc (col4 m)].
Definition un_col_doc (v : val) : res vec4 :=
  match v with VArr [VInt x; VInt y; VInt z; VInt w] => Ok (V4 x y z w) | _ => Err EType end.
Definition un_mat_doc (v : val) : res mat :=
  match v with
  | VArr [a; b; c; d] =>
      let* a := un_col_doc a in let* b := un_col_doc b in let* c := un_col_doc c in let* d := un_col_doc d in
      Ok (Mat a b c d)
  | _ => Err EType
  end.
(** BoneData, skel_data.rs:48-59 *)
Definition sd_bone : schema :=
  SStruct [("name", SText); ("transform", sd_mat); ("parent_index", SAbs (SInt 8 false));
           ("billboard_type", s_skel_BillboardType)].
Definition bone_doc (b : bone) : val :=
  VStruct [text_doc (bn_name b); mat_doc (bn_transform b); opt_doc int_doc (bn_parent b); int_doc (bn_billboard b)].
Definition un_bone_doc (v : val) : res bone :=
  match v with
  | VStruct [a; b; c; d] =>
      let* a := un_text_doc a in let* b := un_mat_doc b in let* c := un_opt_doc un_int_doc c in
      let* d := un_int_doc d in Ok (Bone a b c d)
  | _ => Err EType
  end.
(** SkelData, skel_data.rs:34-38: the version and the bones *)
Definition sd_skel : schema :=
  SStruct [("major_version", SInt 2 false); ("minor_version", SInt 2 false); ("bones", SArr sd_bone)].
Definition skel_doc (major minor : Z) (bones : list bone) : val :=
  VStruct [int_doc major; int_doc minor; list_doc bone_doc bones].
Definition un_skel_doc (v : val) : res (Z * Z * list bone) :=
  match v with
  | VStruct [a; b; c] =>
      let* a := un_int_doc a in let* b := un_int_doc b in let* c := un_list_doc un_bone_doc c in Ok (a, b, c)
  | _ => Err EType
  end.

(** ** matl_data.rs *)

(** Default for SamplerData, matl_data.rs:172-194: ClampToEdge, LinearMipmapLinear, Linear,
    no colour, no bias, One *)
Definition default_sampler : sampler := Smp 1 1 1 1 1 (V4 0 0 0 0) 0 1.
(** Default for BlendStateData, matl_data.rs:265-278: One, Add, Zero, One, Add, Zero *)
Definition default_blend : blend := Bld 1 0 0 1 0 0 false.

(** SamplerData, matl_data.rs:148-162, and parse_max_anisotropy, 164-170 *)
Definition sampler_doc (s : sampler) : val :=
  VStruct [int_doc (sm_wraps s); int_doc (sm_wrapt s); int_doc (sm_wrapr s); int_doc (sm_min s); int_doc (sm_mag s);
           vec4_val (sm_border s); int_doc (sm_lod s); int_doc (sm_aniso s)].
Definition sd_sampler : schema :=
  SStruct (defaults [("wraps", s_matl_WrapMode); ("wrapt", s_matl_WrapMode); ("wrapr", s_matl_WrapMode);
                     ("min_filter", s_matl_MinFilter); ("mag_filter", s_matl_MagFilter);
                     ("border_color", s_vectors_Color4f); ("lod_bias", SF32);
                     ("max_anisotropy", SDef true (int_doc 1) s_matl_MaxAnisotropy)]
                    (sampler_doc default_sampler)).
Definition un_sampler_doc (v : val) : res sampler :=
  match v with
  | VStruct [a; b; c; d; e; f; g; h] =>
      let* a := un_int_doc a in let* b := un_int_doc b in let* c := un_int_doc c in let* d := un_int_doc d in
      let* e := un_int_doc e in let* f := un_vec4 f in let* g := un_int_doc g in let* h := un_int_doc h in
      Ok (Smp a b c d e f g h)
  | _ => Err EType
  end.
(** BlendStateData, matl_data.rs:255-263 *)
Definition blend_doc (b : blend) : val :=
  VStruct [int_doc (bl_src b); int_doc (bl_cop b); int_doc (bl_dst b); int_doc (bl_asrc b); int_doc (bl_aop b);
           int_doc (bl_adst b); bool_doc (bl_coverage b)].
Definition sd_blend : schema :=
  SStruct (defaults [("source_color", s_matl_BlendFactor); ("color_operation", s_matl_BlendOperation);
                     ("destination_color", s_matl_BlendFactor); ("source_alpha", s_matl_BlendFactor);
                     ("alpha_operation", s_matl_BlendOperation); ("destination_alpha", s_matl_BlendFactor);
                     ("alpha_sample_to_coverage", SBool)]
                    (blend_doc default_blend)).
Definition un_blend_doc (v : val) : res blend :=
  match v with
  | VStruct [a; b; c; d; e; f; g] =>
      let* a := un_int_doc a in let* b := un_int_doc b in let* c := un_int_doc c in let* d := un_int_doc d in
      let* e := un_int_doc e in let* f := un_int_doc f in let* g := un_bool_doc g in Ok (Bld a b c d e f g)
  | _ => Err EType
  end.
(** RasterizerStateData, matl_data.rs:374-378 *)
Definition sd_raster : schema :=
  SStruct [("fill_mode", s_matl_FillMode); ("cull_mode", s_matl_CullMode); ("depth_bias", SF32)].
Definition raster_doc (r : raster) : val := VStruct [int_doc (rs_fill r); int_doc (rs_cull r); int_doc (rs_bias r)].
Definition un_raster_doc (v : val) : res raster :=
  match v with
  | VStruct [a; b; c] =>
      let* a := un_int_doc a in let* b := un_int_doc b in let* c := un_int_doc c in Ok (Rst a b c)
  | _ => Err EType
  end.
(** ParamData, matl_data.rs:113-118 *)
Definition sd_param (s : schema) : schema := SStruct [("param_id", s_matl_ParamId); ("data", s)].
Definition param_doc {A} (f : A -> val) (p : param A) : val := VStruct [int_doc (pr_id p); f (pr_data p)].
Definition un_param_doc {A} (f : val -> res A) (v : val) : res (param A) :=
  match v with
  | VStruct [a; b] => let* a := un_int_doc a in let* b := f b in Ok (Prm a b)
  | _ => Err EType
  end.
(** MatlEntryData, matl_data.rs:95-107, with the types of parameters of 45-52 *)
Definition sd_matl_entry : schema :=
  SStruct [("material_label", SText); ("shader_label", SText); ("blend_states", SArr (sd_param sd_blend));
           ("floats", SArr (sd_param SF32)); ("booleans", SArr (sd_param SBool));
           ("vectors", SArr (sd_param s_vectors_Vector4)); ("rasterizer_states", SArr (sd_param sd_raster));
           ("samplers", SArr (sd_param sd_sampler)); ("textures", SArr (sd_param SText));
           ("uv_transforms", SDef false (VArr []) (SArr (sd_param s_matl_UvTransform)))].
Definition matl_entry_doc (e : matl_entry) : val :=
  VStruct [text_doc (mt_label e); text_doc (mt_shader e); list_doc (param_doc blend_doc) (mt_blends e);
           list_doc (param_doc int_doc) (mt_floats e); list_doc (param_doc bool_doc) (mt_bools e);
           list_doc (param_doc vec4_val) (mt_vectors e); list_doc (param_doc raster_doc) (mt_rasters e);
           list_doc (param_doc sampler_doc) (mt_samplers e); list_doc (param_doc text_doc) (mt_textures e);
           list_doc (param_doc uv_val) (mt_uvs e)].
Definition un_matl_entry_doc (v : val) : res matl_entry :=
  match v with
  | VStruct [a; b; c; d; e; f; g; h; i; j] =>
      let* a := un_text_doc a in let* b := un_text_doc b in let* c := un_list_doc (un_param_doc un_blend_doc) c in
      let* d := un_list_doc (un_param_doc un_int_doc) d in let* e := un_list_doc (un_param_doc un_bool_doc) e in
      let* f := un_list_doc (un_param_doc un_vec4) f in let* g := un_list_doc (un_param_doc un_raster_doc) g in
      let* h := un_list_doc (un_param_doc un_sampler_doc) h in let* i := un_list_doc (un_param_doc un_text_doc) i in
      let* j := un_list_doc (un_param_doc un_uv) j in Ok (MatE a b c d e f g h i j)
  | _ => Err EType
  end.
(** MatlData, matl_data.rs:82-86 *)
Definition sd_matl : schema :=
  SStruct [("major_version", SInt 2 false); ("minor_version", SInt 2 false); ("entries", SArr sd_matl_entry)].
Definition matl_doc (d : matl_data) : val :=
  VStruct [int_doc (mt_major d); int_doc (mt_minor d); list_doc matl_entry_doc (mt_entries d)].
Definition un_matl_doc (v : val) : res matl_data :=
  match v with
  | VStruct [a; b; c] =>
      let* a := un_int_doc a in let* b := un_int_doc b in let* c := un_list_doc un_matl_entry_doc c in Ok (MatD a b c)
  | _ => Err EType
  end.

(** ** anim_data.rs *)

(** Transform, anim_data.rs:684-692 *)
Definition sd_transform : schema :=
  SStruct [("scale", s_vectors_Vector3); ("rotation", s_vectors_Vector4); ("translation", s_vectors_Vector3)].
Definition transform_doc (t : transform) : val := VStruct [vec3_val (tr_scale t); vec4_val (tr_rot t); vec3_val (tr_trans t)].
Definition un_transform_doc (v : val) : res transform :=
  match v with
  | VStruct [a; b; c] => let* a := un_vec3 a in let* b := un_vec4 b in let* c := un_vec3 c in Ok (Tr a b c)
  | _ => Err EType
  end.
(** UvTransform, anim_data.rs:672-678 *)
Definition sd_uv : schema :=
  SStruct [("scale_u", SF32); ("scale_v", SF32); ("rotation", SF32); ("translate_u", SF32); ("translate_v", SF32)].
(** TransformFlags, anim_data.rs:639-644 *)
Definition sd_tflags : schema :=
  SStruct [("override_translation", SBool); ("override_rotation", SBool); ("override_scale", SBool);
           ("override_compensate_scale", SBool)].
Definition tflags_doc (f : tflags) : val :=
  VStruct [bool_doc (override_translation f); bool_doc (override_rotation f); bool_doc (override_scale f);
           bool_doc (override_compensate_scale f)].
Definition un_tflags_doc (v : val) : res tflags :=
  match v with
  | VStruct [a; b; c; d] =>
      let* a := un_bool_doc a in let* b := un_bool_doc b in let* c := un_bool_doc c in let* d := un_bool_doc d in
      Ok (TF a b c d)
  | _ => Err EType
  end.
(** TrackValues, anim_data.rs:722-735; variants are numbered in order. *)
Definition sd_track_values : schema :=
  SEnum [(0, "Transform", SArr sd_transform); (1, "UvTransform", SArr sd_uv); (2, "Float", SArr SF32);
         (3, "PatternIndex", SArr (SInt 4 false)); (4, "Boolean", SArr SBool); (5, "Vector4", SArr s_vectors_Vector4)].
Definition track_values_doc (v : track_values) : val :=
  match v with
  | TvTransform l => VCase 0 (list_doc transform_doc l)
  | TvUv l => VCase 1 (list_doc uv_val l)
  | TvFloat l => VCase 2 (list_doc int_doc l)
  | TvPattern l => VCase 3 (list_doc int_doc l)
  | TvBool l => VCase 4 (list_doc bool_doc l)
  | TvVec4 l => VCase 5 (list_doc vec4_val l)
  end.
Definition un_track_values_doc (v : val) : res track_values :=
  match v with
  | VCase 0 v' => let* l := un_list_doc un_transform_doc v' in Ok (TvTransform l)
  | VCase 1 v' => let* l := un_list_doc un_uv v' in Ok (TvUv l)
  | VCase 2 v' => let* l := un_list_doc un_int_doc v' in Ok (TvFloat l)
  | VCase 3 v' => let* l := un_list_doc un_int_doc v' in Ok (TvPattern l)
  | VCase 4 v' => let* l := un_list_doc un_bool_doc v' in Ok (TvBool l)
  | VCase 5 v' => let* l := un_list_doc un_vec4 v' in Ok (TvVec4 l)
  | _ => Err EType
  end.
(** TrackData, anim_data.rs:607-632 *)
Definition sd_track : schema :=
  SStruct [("name", SText); ("compensate_scale", SBool); ("transform_flags", sd_tflags); ("values", sd_track_values)].
Definition track_doc (t : track_data) : val :=
  VStruct [text_doc (td_name t); bool_doc (td_comp t); tflags_doc (td_flags t); track_values_doc (td_values t)].
Definition un_track_doc (v : val) : res track_data :=
  match v with
  | VStruct [a; b; c; d] =>
      let* a := un_text_doc a in let* b := un_bool_doc b in let* c := un_tflags_doc c in
      let* d := un_track_values_doc d in Ok (TD a b c d)
  | _ => Err EType
  end.
(** NodeData and GroupData, anim_data.rs:573-586 *)
Definition sd_node : schema := SStruct [("name", SText); ("tracks", SArr sd_track)].
Definition node_doc (n : node_data) : val := VStruct [text_doc (nd_name n); list_doc track_doc (nd_tracks n)].
Definition un_node_doc (v : val) : res node_data :=
  match v with
  | VStruct [a; b] => let* a := un_text_doc a in let* b := un_list_doc un_track_doc b in Ok (ND a b)
  | _ => Err EType
  end.
Definition sd_group : schema := SStruct [("group_type", s_anim_GroupType); ("nodes", SArr sd_node)].
Definition group_doc (g : group_data) : val := VStruct [int_doc (gd_type g); list_doc node_doc (gd_nodes g)].
Definition un_group_doc (v : val) : res group_data :=
  match v with
  | VStruct [a; b] => let* a := un_int_doc a in let* b := un_list_doc un_node_doc b in Ok (GD a b)
  | _ => Err EType
  end.
(** AnimData, anim_data.rs:69-82 *)
Definition sd_anim : schema :=
  SStruct [("major_version", SInt 2 false); ("minor_version", SInt 2 false); ("final_frame_index", SF32);
           ("groups", SArr sd_group)].
Definition anim_doc (d : anim_data) : val :=
  VStruct [int_doc (ad_major d); int_doc (ad_minor d); int_doc (ad_final d); list_doc group_doc (ad_groups d)].
Definition un_anim_doc (v : val) : res anim_data :=
  match v with
  | VStruct [a; b; c; d] =>
      let* a := un_int_doc a in let* b := un_int_doc b in let* c := un_int_doc c in
      let* d := un_list_doc un_group_doc d in Ok (AD a b c d)
  | _ => Err EType
  end.

(** ** mesh_data.rs *)

(** VectorData, mesh_data/vector_data.rs:21-25 *)
Definition sd_vector_data : schema :=
  SEnum [(0, "Vector2", SArr (SFix 2 SF32)); (1, "Vector3", SArr (SFix 3 SF32)); (2, "Vector4", SArr (SFix 4 SF32))].
Definition dim_tag (d : dim) : Z := match d with Two => 0 | Three => 1 | Four => 2 end.
Definition vector_data_doc (v : vector_data) : val :=
  VCase (dim_tag (vec_dim v)) (list_doc (list_doc int_doc) (vec_rows v)).
Definition un_vector_data_doc (v : val) : res vector_data :=
  match v with
  | VCase tag v' =>
      let* rows := un_list_doc (un_list_doc un_int_doc) v' in
      match tag with
      | 0 => Ok (MkVec Two rows)
      | 1 => Ok (MkVec Three rows)
      | 2 => Ok (MkVec Four rows)
      | _ => Err EType
      end
  | _ => Err EType
  end.
(** AttributeData, mesh_data.rs:587-590 *)
Definition sd_attribute : schema := SStruct [("name", SText); ("data", sd_vector_data)].
Definition attribute_doc (a : attribute_data) : val := VStruct [text_doc (attr_name a); vector_data_doc (attr_data a)].
Definition un_attribute_doc (v : val) : res attribute_data :=
  match v with
  | VStruct [a; b] => let* a := un_text_doc a in let* b := un_vector_data_doc b in Ok (MkAttr a b)
  | _ => Err EType
  end.
(** VertexWeight, mesh_data.rs:181-184 *)
Definition sd_weight : schema := SStruct [("vertex_index", SInt 4 false); ("vertex_weight", SF32)].
Definition weight_doc (w : vertex_weight) : val := VStruct [int_doc (wt_index w); int_doc (wt_weight w)].
Definition un_weight_doc (v : val) : res vertex_weight :=
  match v with
  | VStruct [a; b] => let* a := un_int_doc a in let* b := un_int_doc b in Ok (MkWeight a b)
  | _ => Err EType
  end.
(** BoneInfluence, mesh_data.rs:474-477 *)
Definition sd_influence : schema := SStruct [("bone_name", SText); ("vertex_weights", SArr sd_weight)].
Definition influence_doc (i : bone_influence) : val := VStruct [text_doc (inf_bone i); list_doc weight_doc (inf_weights i)].
Definition un_influence_doc (v : val) : res bone_influence :=
  match v with
  | VStruct [a; b] => let* a := un_text_doc a in let* b := un_list_doc un_weight_doc b in Ok (MkInf a b)
  | _ => Err EType
  end.
(** MeshObjectData, mesh_data.rs:558-581 *)
Definition sd_object : schema :=
  SStruct [("name", SText); ("subindex", SInt 8 false); ("parent_bone_name", SText); ("sort_bias", SInt 4 true);
           ("disable_depth_write", SBool); ("disable_depth_test", SBool); ("vertex_indices", SArr (SInt 4 false));
           ("positions", SArr sd_attribute); ("normals", SArr sd_attribute); ("binormals", SArr sd_attribute);
           ("tangents", SArr sd_attribute); ("texture_coordinates", SArr sd_attribute);
           ("color_sets", SArr sd_attribute); ("bone_influences", SArr sd_influence)].
Definition object_doc (o : mesh_object) : val :=
  VStruct [text_doc (ob_name o); int_doc (ob_subindex o); text_doc (ob_parent o); int_doc (ob_bias o);
           bool_doc (ob_no_write o); bool_doc (ob_no_test o); list_doc int_doc (ob_indices o);
           list_doc attribute_doc (ob_positions o); list_doc attribute_doc (ob_normals o);
           list_doc attribute_doc (ob_binormals o); list_doc attribute_doc (ob_tangents o);
           list_doc attribute_doc (ob_texcoords o); list_doc attribute_doc (ob_colors o);
           list_doc influence_doc (ob_influences o)].
Definition un_object_doc (v : val) : res mesh_object :=
  match v with
  | VStruct [a; b; c; d; e; f; g; h; i; j; k; l; m; n] =>
      let* a := un_text_doc a in let* b := un_int_doc b in let* c := un_text_doc c in let* d := un_int_doc d in
      let* e := un_bool_doc e in let* f := un_bool_doc f in let* g := un_list_doc un_int_doc g in
      let* h := un_list_doc un_attribute_doc h in let* i := un_list_doc un_attribute_doc i in
      let* j := un_list_doc un_attribute_doc j in let* k := un_list_doc un_attribute_doc k in
      let* l := un_list_doc un_attribute_doc l in let* m := un_list_doc un_attribute_doc m in
      let* n := un_list_doc un_influence_doc n in Ok (MkObj a b c d e f g h i j k l m n)
  | _ => Err EType
  end.
(** MeshData, mesh_data.rs:484-488 *)
Definition sd_mesh : schema :=
  SStruct [("major_version", SInt 2 false); ("minor_version", SInt 2 false); ("objects", SArr sd_object)].
Definition mesh_doc (d : mesh_data) : val :=
  VStruct [int_doc (mesh_major d); int_doc (mesh_minor d); list_doc object_doc (mesh_objects d)].
Definition un_mesh_doc (v : val) : res mesh_data :=
  match v with
  | VStruct [a; b; c] =>
      let* a := un_int_doc a in let* b := un_int_doc b in let* c := un_list_doc un_object_doc c in Ok (MkMesh a b c)
  | _ => Err EType
  end.

(** ** The program, ssbh_data_json/src/main.rs *)

Inductive data_kind := DkMesh | DkSkel | DkAnim | DkModl | DkMatl | DkHlpb | DkMeshEx | DkAdj.
Inductive data :=
| DtMesh (d : mesh_data)
| DtSkel (major minor : Z) (bones : list bone)
| DtAnim (d : anim_data)
| DtModl (d : modl_data)
| DtMatl (d : matl_data)
| DtHlpb (d : hlpb_data)
| DtMeshEx (d : list mesh_group)
| DtAdj (d : list adj_entry).

Definition data_kind_of (d : data) : data_kind :=
  match d with
  | DtMesh _ => DkMesh | DtSkel _ _ _ => DkSkel | DtAnim _ => DkAnim | DtModl _ => DkModl
  | DtMatl _ => DkMatl | DtHlpb _ => DkHlpb | DtMeshEx _ => DkMeshEx | DtAdj _ => DkAdj
  end.
Definition data_schema (k : data_kind) : schema :=
  match k with
  | DkMesh => sd_mesh | DkSkel => sd_skel | DkAnim => sd_anim | DkModl => sd_modl
  | DkMatl => sd_matl | DkHlpb => sd_hlpb | DkMeshEx => sd_meshex | DkAdj => sd_adj
  end.
Definition data_doc (d : data) : val :=
  match d with
  | DtMesh d => mesh_doc d | DtSkel major minor bones => skel_doc major minor bones | DtAnim d => anim_doc d
  | DtModl d => modl_doc d | DtMatl d => matl_doc d | DtHlpb d => hlpb_doc d | DtMeshEx d => meshex_doc d
  | DtAdj d => adj_doc d
  end.
Definition un_data_doc (k : data_kind) (v : val) : res data :=
  match k with
  | DkMesh => let* d := un_mesh_doc v in Ok (DtMesh d)
  | DkSkel => let* d := un_skel_doc v in Ok (DtSkel (fst (fst d)) (snd (fst d)) (snd d))
  | DkAnim => let* d := un_anim_doc v in Ok (DtAnim d)
  | DkModl => let* d := un_modl_doc v in Ok (DtModl d)
  | DkMatl => let* d := un_matl_doc v in Ok (DtMatl d)
  | DkHlpb => let* d := un_hlpb_doc v in Ok (DtHlpb d)
  | DkMeshEx => let* d := un_meshex_doc v in Ok (DtMeshEx d)
  | DkAdj => let* d := un_adj_doc v in Ok (DtAdj d)
  end.

(** serde_json::to_string_pretty and serde_json::from_str *)
Definition data_json (d : data) : json := to_json (data_schema (data_kind_of d)) (data_doc d).
Definition read_as (k : data_kind) (j : json) : option data :=
  match from_json (data_schema k) j with
  | Some v => match un_data_doc k v with Ok d => Some d | _ => None end
  | None => None
  end.

(** The extensions, main.rs:67-74 and 81-101 *)
Definition data_ext (k : data_kind) : string :=
  match k with
  | DkMesh => "numshb" | DkSkel => "nusktb" | DkAnim => "nuanmb" | DkModl => "numdlb"
  | DkMatl => "numatb" | DkHlpb => "nuhlpb" | DkMeshEx => "numshexb" | DkAdj => "adjb"
  end.
(** The order of the attempts, main.rs:81-101 *)
Definition attempts : list data_kind := [DkMesh; DkSkel; DkAnim; DkModl; DkMatl; DkHlpb; DkMeshEx; DkAdj].
Fixpoint read_first (ks : list data_kind) (j : json) : option data :=
  match ks with
  | [] => None
  | k :: r => match read_as k j with Some d => Some d | None => read_first r j end
  end.

Section Program.
(** Matrix arithmetic (glam), bounding volumes (geometry_tools) and the order of groups read
    from an animation of version 1.2 (a hash map) *)
Variable mul : mat -> mat -> mat.
Variable inv : mat -> mat.
Variable bounding : list (list Z) -> val.
Variable sphere_of : list mesh_group -> sphere.
Variable order : list Z -> list Z.

(** SsbhData::from_file and SsbhData::write_to_file, lib.rs:105-129, without the file system *)
Definition load_as (k : data_kind) (b : list Z) : res data :=
  match k with
  | DkMesh => let* d := mesh_data_read b in Ok (DtMesh d)
  | DkSkel => let* d := skel_data_read b in Ok (DtSkel 1 0 d)
  | DkAnim => let* d := anim_data_read order b in Ok (DtAnim d)
  | DkModl => let* d := modl_data_read b in Ok (DtModl d)
  | DkMatl => let* d := matl_data_read b in Ok (DtMatl d)
  | DkHlpb => let* d := hlpb_data_read b in Ok (DtHlpb d)
  | DkMeshEx => let* d := meshex_data_read b in Ok (DtMeshEx d)
  | DkAdj => let* d := adj_data_read b in Ok (DtAdj d)
  end.
Definition save_data (d : data) : res (list Z) :=
  match d with
  | DtMesh d => mesh_data_write bounding d
  | DtSkel _ _ bones => skel_data_write mul inv bones
  | DtAnim d => anim_data_write d
  | DtModl d => modl_data_write d
  | DtMatl d => matl_data_write d
  | DtHlpb d => hlpb_data_write d
  | DtMeshEx d => meshex_data_write (sphere_of d) d
  | DtAdj d => adj_data_write d
  end.

(** parse_and_write_json, main.rs:21-36, for the type the extension selects, 66-75; the
    extension "json" is handled below, any other does nothing ([None]).  An error of the reader
    is printed, nothing is written. *)
Definition kind_of_ext (ext : string) : option data_kind :=
  find (fun k => String.eqb ext (data_ext k)) attempts.
Definition data_to_json (ext : string) (b : list Z) : option (res json) :=
  match kind_of_ext ext with
  | Some k => Some (let* d := load_as k b in Ok (data_json d))
  | None => None
  end.

(** The branch "json", main.rs:76-102, and deserialize_and_save, 38-52: the extension and the
    bytes of the file.  A failed save panics, and so does a document no type accepts. *)
Definition json_to_data_file (j : json) : res (string * list Z) :=
  match read_first attempts j with
  | Some d => let* out := unwrap (save_data d) in Ok (data_ext (data_kind_of d), out)
  | None => Panic
  end.
End Program.
