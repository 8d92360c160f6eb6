(** The items of ssbh_lib and ssbh_data that derive Serialize and are not in Items.v, with the type
    aliases they use.  Paths are relative to /repo.  Transcribed by tools/items.py.
    A string given to an attribute is transcribed as its bytes. *)
From Verif Require Import Bytes Ssbh Derive Elab.
Open Scope string_scope.
Open Scope Z_scope.

(** ssbh_lib/src/lib.rs:498-501 *)
Definition i_lib_SsbhFile : decl := DeclItem (Item "lib::SsbhFile" [] [Attr "serde" (Some [MPath
  "transparent"]); Attr "br" (Some [MNameValue ["magic"] (LByteStr [72; 66; 83; 83])])] (DStruct (FNamed [Fld
  "data" [Attr "br" (Some [MNameValue ["align_before"] (LInt 16)])] (RPath "lib::Ssbh" [])]))).
(** ssbh_lib/src/lib.rs:507-537 *)
Definition i_lib_Ssbh : decl := DeclItem (Item "lib::Ssbh" [] [] (DEnum [Variant "Hlpb" [Attr "br" (Some
  [MNameValue ["magic"] (LByteStr [66; 80; 76; 72])])] None (FUnnamed [Fld "0" [] (RPath "lib::Versioned"
  [(RPath "hlpb::Hlpb" [])])]); Variant "Matl" [Attr "br" (Some [MNameValue ["magic"] (LByteStr [76; 84; 65;
  77])])] None (FUnnamed [Fld "0" [] (RPath "lib::Versioned" [(RPath "matl::Matl" [])])]); Variant "Modl"
  [Attr "br" (Some [MNameValue ["magic"] (LByteStr [76; 68; 79; 77])])] None (FUnnamed [Fld "0" [] (RPath
  "lib::Versioned" [(RPath "modl::Modl" [])])]); Variant "Mesh" [Attr "br" (Some [MNameValue ["magic"]
  (LByteStr [72; 83; 69; 77])])] None (FUnnamed [Fld "0" [] (RPath "lib::Versioned" [(RPath "mesh::Mesh"
  [])])]); Variant "Skel" [Attr "br" (Some [MNameValue ["magic"] (LByteStr [76; 69; 75; 83])])] None (FUnnamed
  [Fld "0" [] (RPath "lib::Versioned" [(RPath "skel::Skel" [])])]); Variant "Anim" [Attr "br" (Some
  [MNameValue ["magic"] (LByteStr [77; 73; 78; 65])])] None (FUnnamed [Fld "0" [] (RPath "lib::Versioned"
  [(RPath "anim::Anim" [])])]); Variant "Nlst" [Attr "br" (Some [MNameValue ["magic"] (LByteStr [84; 83; 76;
  78])])] None (FUnnamed [Fld "0" [] (RPath "lib::Versioned" [(RPath "nlst::Nlst" [])])]); Variant "Nrpd"
  [Attr "br" (Some [MNameValue ["magic"] (LByteStr [68; 80; 82; 78])])] None (FUnnamed [Fld "0" [] (RPath
  "lib::Versioned" [(RPath "nrpd::Nrpd" [])])]); Variant "Nufx" [Attr "br" (Some [MNameValue ["magic"]
  (LByteStr [88; 70; 85; 78])])] None (FUnnamed [Fld "0" [] (RPath "lib::Versioned" [(RPath "nufx::Nufx"
  [])])]); Variant "Shdr" [Attr "br" (Some [MNameValue ["magic"] (LByteStr [82; 68; 72; 83])])] None (FUnnamed
  [Fld "0" [] (RPath "lib::Versioned" [(RPath "shdr::Shdr" [])])])])).
(** ssbh_lib/src/lib.rs:545-554 *)
Definition i_lib_Versioned : decl := DeclItem (Item "lib::Versioned" ["T"] [Attr "serde" (Some [MPath
  "transparent"])] (DStruct (FNamed [Fld "major_version" [Attr "br" (Some [MPath "temp"])] (RPath "u16" []);
  Fld "minor_version" [Attr "br" (Some [MPath "temp"])] (RPath "u16" []); Fld "data" [Attr "br" (Some
  [MOther])] (RPath "T" [])]))).
(** ssbh_lib/src/formats/meshex.rs:18-41 *)
Definition i_meshex_MeshEx : decl := DeclItem (Item "meshex::MeshEx" [] [] (DStruct (FNamed [Fld
  "_file_length" [Attr "br" (Some [MPath "temp"])] (RPath "u64" []); Fld "entry_count" [Attr "br" (Some [MPath
  "temp"])] (RPath "u32" []); Fld "mesh_object_group_count" [Attr "br" (Some [MPath "temp"])] (RPath "u32"
  []); Fld "all_data" [] (RPath "lib::Ptr64" [(RPath "meshex::AllData" [])]); Fld "mesh_object_groups" [Attr
  "br" (Some [MOther])] (RPath "lib::Ptr64" [(RPath "Vec" [(RPath "meshex::MeshObjectGroup" [])])]); Fld
  "entries" [Attr "br" (Some [MOther])] (RPath "lib::Ptr64" [(RPath "Vec" [(RPath "meshex::MeshEntry" [])])]);
  Fld "entry_flags" [Attr "br" (Some [MOther])] (RPath "lib::Ptr64" [(RPath "meshex::EntryFlags" [])]); Fld
  "unk1" [] (RPath "u32" [])]))).
(** ssbh_lib/src/formats/adj.rs:17-43 *)
Definition i_adj_Adj : decl := DeclItem (Item "adj::Adj" [] [] (DStruct (FNamed [Fld "entry_count" [Attr "br"
  (Some [MPath "temp"])] (RPath "u32" []); Fld "entries" [Attr "br" (Some [MOther])] (RPath "Vec" [(RPath
  "adj::AdjEntry" [])]); Fld "index_buffer" [Attr "br" (Some [MOther])] (RPath "Vec" [(RPath "i16" [])])]))).
(** ssbh_data/src/anim_data.rs:69-82 *)
Definition i_anim_data_AnimData : decl := DeclItem (Item "anim_data::AnimData" [] [] (DStruct (FNamed [Fld
  "major_version" [] (RPath "u16" []); Fld "minor_version" [] (RPath "u16" []); Fld "final_frame_index" []
  (RPath "f32" []); Fld "groups" [] (RPath "Vec" [(RPath "anim_data::GroupData" [])])]))).
(** ssbh_data/src/anim_data.rs:573-577 *)
Definition i_anim_data_GroupData : decl := DeclItem (Item "anim_data::GroupData" [] [] (DStruct (FNamed [Fld
  "group_type" [] (RPath "anim::GroupType" []); Fld "nodes" [] (RPath "Vec" [(RPath "anim_data::NodeData"
  [])])]))).
(** ssbh_data/src/anim_data.rs:583-586 *)
Definition i_anim_data_NodeData : decl := DeclItem (Item "anim_data::NodeData" [] [] (DStruct (FNamed [Fld
  "name" [] (RPath "String" []); Fld "tracks" [] (RPath "Vec" [(RPath "anim_data::TrackData" [])])]))).
(** ssbh_data/src/anim_data.rs:607-632 *)
Definition i_anim_data_TrackData : decl := DeclItem (Item "anim_data::TrackData" [] [] (DStruct (FNamed [Fld
  "name" [] (RPath "String" []); Fld "compensate_scale" [] (RPath "bool" []); Fld "transform_flags" [] (RPath
  "anim_data::TransformFlags" []); Fld "values" [] (RPath "anim_data::TrackValues" [])]))).
(** ssbh_data/src/anim_data.rs:639-644 *)
Definition i_anim_data_TransformFlags : decl := DeclItem (Item "anim_data::TransformFlags" [] [] (DStruct
  (FNamed [Fld "override_translation" [] (RPath "bool" []); Fld "override_rotation" [] (RPath "bool" []); Fld
  "override_scale" [] (RPath "bool" []); Fld "override_compensate_scale" [] (RPath "bool" [])]))).
(** ssbh_data/src/anim_data.rs:684-692 *)
Definition i_anim_data_Transform : decl := DeclItem (Item "anim_data::Transform" [] [] (DStruct (FNamed [Fld
  "scale" [] (RPath "vectors::Vector3" []); Fld "rotation" [] (RPath "vectors::Vector4" []); Fld "translation"
  [] (RPath "vectors::Vector3" [])]))).
(** ssbh_data/src/anim_data.rs:722-735 *)
Definition i_anim_data_TrackValues : decl := DeclItem (Item "anim_data::TrackValues" [] [] (DEnum [Variant
  "Transform" [] None (FUnnamed [Fld "0" [] (RPath "Vec" [(RPath "anim_data::Transform" [])])]); Variant
  "UvTransform" [] None (FUnnamed [Fld "0" [] (RPath "Vec" [(RPath "anim_data::UvTransform" [])])]); Variant
  "Float" [] None (FUnnamed [Fld "0" [] (RPath "Vec" [(RPath "f32" [])])]); Variant "PatternIndex" [] None
  (FUnnamed [Fld "0" [] (RPath "Vec" [(RPath "u32" [])])]); Variant "Boolean" [] None (FUnnamed [Fld "0" []
  (RPath "Vec" [(RPath "bool" [])])]); Variant "Vector4" [] None (FUnnamed [Fld "0" [] (RPath "Vec" [(RPath
  "vectors::Vector4" [])])])])).
(** ssbh_data/src/modl_data.rs:32-41 *)
Definition i_modl_data_ModlData : decl := DeclItem (Item "modl_data::ModlData" [] [] (DStruct (FNamed [Fld
  "major_version" [] (RPath "u16" []); Fld "minor_version" [] (RPath "u16" []); Fld "model_name" [] (RPath
  "String" []); Fld "skeleton_file_name" [] (RPath "String" []); Fld "material_file_names" [] (RPath "Vec"
  [(RPath "String" [])]); Fld "animation_file_name" [] (RPath "Option" [(RPath "String" [])]); Fld
  "mesh_file_name" [] (RPath "String" []); Fld "entries" [] (RPath "Vec" [(RPath "modl_data::ModlEntryData"
  [])])]))).
(** ssbh_data/src/modl_data.rs:47-51 *)
Definition i_modl_data_ModlEntryData : decl := DeclItem (Item "modl_data::ModlEntryData" [] [] (DStruct
  (FNamed [Fld "mesh_object_name" [] (RPath "String" []); Fld "mesh_object_subindex" [] (RPath "u64" []); Fld
  "material_label" [] (RPath "String" [])]))).
(** ssbh_data/src/hlpb_data.rs:14-19 *)
Definition i_hlpb_data_HlpbData : decl := DeclItem (Item "hlpb_data::HlpbData" [] [] (DStruct (FNamed [Fld
  "major_version" [] (RPath "u16" []); Fld "minor_version" [] (RPath "u16" []); Fld "aim_constraints" []
  (RPath "Vec" [(RPath "hlpb_data::AimConstraintData" [])]); Fld "orient_constraints" [] (RPath "Vec" [(RPath
  "hlpb_data::OrientConstraintData" [])])]))).
(** ssbh_data/src/hlpb_data.rs:27-41 *)
Definition i_hlpb_data_AimConstraintData : decl := DeclItem (Item "hlpb_data::AimConstraintData" [] []
  (DStruct (FNamed [Fld "name" [] (RPath "String" []); Fld "aim_bone_name1" [] (RPath "String" []); Fld
  "aim_bone_name2" [] (RPath "String" []); Fld "aim_type1" [] (RPath "String" []); Fld "aim_type2" [] (RPath
  "String" []); Fld "target_bone_name1" [] (RPath "String" []); Fld "target_bone_name2" [] (RPath "String"
  []); Fld "unk1" [] (RPath "u32" []); Fld "unk2" [] (RPath "u32" []); Fld "aim" [] (RPath "vectors::Vector3"
  []); Fld "up" [] (RPath "vectors::Vector3" []); Fld "quat1" [] (RPath "vectors::Vector4" []); Fld "quat2" []
  (RPath "vectors::Vector4" [])]))).
(** ssbh_data/src/hlpb_data.rs:47-59 *)
Definition i_hlpb_data_OrientConstraintData : decl := DeclItem (Item "hlpb_data::OrientConstraintData" [] []
  (DStruct (FNamed [Fld "name" [] (RPath "String" []); Fld "parent_bone_name1" [] (RPath "String" []); Fld
  "parent_bone_name2" [] (RPath "String" []); Fld "source_bone_name" [] (RPath "String" []); Fld
  "target_bone_name" [] (RPath "String" []); Fld "unk_type" [] (RPath "u32" []); Fld "constraint_axes" []
  (RPath "vectors::Vector3" []); Fld "quat1" [] (RPath "vectors::Vector4" []); Fld "quat2" [] (RPath
  "vectors::Vector4" []); Fld "range_min" [] (RPath "vectors::Vector3" []); Fld "range_max" [] (RPath
  "vectors::Vector3" [])]))).
(** ssbh_data/src/meshex_data.rs:22-24 *)
Definition i_meshex_data_MeshExData : decl := DeclItem (Item "meshex_data::MeshExData" [] [] (DStruct (FNamed
  [Fld "mesh_object_groups" [] (RPath "Vec" [(RPath "meshex_data::MeshObjectGroupData" [])])]))).
(** ssbh_data/src/meshex_data.rs:33-39 *)
Definition i_meshex_data_MeshObjectGroupData : decl := DeclItem (Item "meshex_data::MeshObjectGroupData" [] []
  (DStruct (FNamed [Fld "bounding_sphere" [] (RPath "mesh::BoundingSphere" []); Fld "mesh_object_full_name" []
  (RPath "String" []); Fld "mesh_object_name" [] (RPath "String" []); Fld "entry_flags" [] (RPath "Vec"
  [(RPath "meshex_data::EntryFlags" [])])]))).
(** ssbh_data/src/meshex_data.rs:45-49 *)
Definition i_meshex_data_EntryFlags : decl := DeclItem (Item "meshex_data::EntryFlags" [] [] (DStruct (FNamed
  [Fld "draw_model" [] (RPath "bool" []); Fld "cast_shadow" [] (RPath "bool" [])]))).
(** ssbh_data/src/adj_data.rs:58-60 *)
Definition i_adj_data_AdjData : decl := DeclItem (Item "adj_data::AdjData" [] [] (DStruct (FNamed [Fld
  "entries" [] (RPath "Vec" [(RPath "adj_data::AdjEntryData" [])])]))).
(** ssbh_data/src/adj_data.rs:66-74 *)
Definition i_adj_data_AdjEntryData : decl := DeclItem (Item "adj_data::AdjEntryData" [] [] (DStruct (FNamed
  [Fld "mesh_object_index" [] (RPath "usize" []); Fld "vertex_adjacency" [] (RPath "Vec" [(RPath "i16"
  [])])]))).
(** ssbh_data/src/skel_data.rs:34-38 *)
Definition i_skel_data_SkelData : decl := DeclItem (Item "skel_data::SkelData" [] [] (DStruct (FNamed [Fld
  "major_version" [] (RPath "u16" []); Fld "minor_version" [] (RPath "u16" []); Fld "bones" [] (RPath "Vec"
  [(RPath "skel_data::BoneData" [])])]))).
(** ssbh_data/src/skel_data.rs:48-59 *)
Definition i_skel_data_BoneData : decl := DeclItem (Item "skel_data::BoneData" [] [] (DStruct (FNamed [Fld
  "name" [] (RPath "String" []); Fld "transform" [] (RFix (RFix (RPath "f32" []) 4) 4); Fld "parent_index" []
  (RPath "Option" [(RPath "usize" [])]); Fld "billboard_type" [] (RPath "skel::BillboardType" [])]))).
(** ssbh_data/src/matl_data.rs:45-45 *)
Definition i_matl_data_BlendStateParam : decl := DeclAlias "matl_data::BlendStateParam" [] (RPath
  "matl_data::ParamData" [(RPath "matl_data::BlendStateData" [])]).
(** ssbh_data/src/matl_data.rs:46-46 *)
Definition i_matl_data_FloatParam : decl := DeclAlias "matl_data::FloatParam" [] (RPath "matl_data::ParamData"
  [(RPath "f32" [])]).
(** ssbh_data/src/matl_data.rs:47-47 *)
Definition i_matl_data_BooleanParam : decl := DeclAlias "matl_data::BooleanParam" [] (RPath
  "matl_data::ParamData" [(RPath "bool" [])]).
(** ssbh_data/src/matl_data.rs:48-48 *)
Definition i_matl_data_Vector4Param : decl := DeclAlias "matl_data::Vector4Param" [] (RPath
  "matl_data::ParamData" [(RPath "vectors::Vector4" [])]).
(** ssbh_data/src/matl_data.rs:49-49 *)
Definition i_matl_data_RasterizerStateParam : decl := DeclAlias "matl_data::RasterizerStateParam" [] (RPath
  "matl_data::ParamData" [(RPath "matl_data::RasterizerStateData" [])]).
(** ssbh_data/src/matl_data.rs:50-50 *)
Definition i_matl_data_SamplerParam : decl := DeclAlias "matl_data::SamplerParam" [] (RPath
  "matl_data::ParamData" [(RPath "matl_data::SamplerData" [])]).
(** ssbh_data/src/matl_data.rs:51-51 *)
Definition i_matl_data_TextureParam : decl := DeclAlias "matl_data::TextureParam" [] (RPath
  "matl_data::ParamData" [(RPath "String" [])]).
(** ssbh_data/src/matl_data.rs:52-52 *)
Definition i_matl_data_UvTransformParam : decl := DeclAlias "matl_data::UvTransformParam" [] (RPath
  "matl_data::ParamData" [(RPath "matl::UvTransform" [])]).
(** ssbh_data/src/matl_data.rs:82-86 *)
Definition i_matl_data_MatlData : decl := DeclItem (Item "matl_data::MatlData" [] [] (DStruct (FNamed [Fld
  "major_version" [] (RPath "u16" []); Fld "minor_version" [] (RPath "u16" []); Fld "entries" [] (RPath "Vec"
  [(RPath "matl_data::MatlEntryData" [])])]))).
(** ssbh_data/src/matl_data.rs:95-107 *)
Definition i_matl_data_MatlEntryData : decl := DeclItem (Item "matl_data::MatlEntryData" [] [] (DStruct
  (FNamed [Fld "material_label" [] (RPath "String" []); Fld "shader_label" [] (RPath "String" []); Fld
  "blend_states" [] (RPath "Vec" [(RPath "matl_data::BlendStateParam" [])]); Fld "floats" [] (RPath "Vec"
  [(RPath "matl_data::FloatParam" [])]); Fld "booleans" [] (RPath "Vec" [(RPath "matl_data::BooleanParam"
  [])]); Fld "vectors" [] (RPath "Vec" [(RPath "matl_data::Vector4Param" [])]); Fld "rasterizer_states" []
  (RPath "Vec" [(RPath "matl_data::RasterizerStateParam" [])]); Fld "samplers" [] (RPath "Vec" [(RPath
  "matl_data::SamplerParam" [])]); Fld "textures" [] (RPath "Vec" [(RPath "matl_data::TextureParam" [])]); Fld
  "uv_transforms" [Attr "serde" (Some [MPath "default"])] (RPath "Vec" [(RPath "matl_data::UvTransformParam"
  [])])]))).
(** ssbh_data/src/matl_data.rs:113-118 *)
Definition i_matl_data_ParamData : decl := DeclItem (Item "matl_data::ParamData" ["T"] [] (DStruct (FNamed
  [Fld "param_id" [] (RPath "matl::ParamId" []); Fld "data" [] (RPath "T" [])]))).
(** ssbh_data/src/matl_data.rs:148-162 *)
Definition i_matl_data_SamplerData : decl := DeclItem (Item "matl_data::SamplerData" [] [Attr "serde" (Some
  [MPath "default"])] (DStruct (FNamed [Fld "wraps" [] (RPath "matl::WrapMode" []); Fld "wrapt" [] (RPath
  "matl::WrapMode" []); Fld "wrapr" [] (RPath "matl::WrapMode" []); Fld "min_filter" [] (RPath
  "matl::MinFilter" []); Fld "mag_filter" [] (RPath "matl::MagFilter" []); Fld "border_color" [] (RPath
  "vectors::Color4f" []); Fld "lod_bias" [] (RPath "f32" []); Fld "max_anisotropy" [Attr "serde" (Some
  [MNameValue ["deserialize_with"] (LByteStr [112; 97; 114; 115; 101; 95; 109; 97; 120; 95; 97; 110; 105; 115;
  111; 116; 114; 111; 112; 121])])] (RPath "matl::MaxAnisotropy" [])]))).
(** ssbh_data/src/matl_data.rs:255-263 *)
Definition i_matl_data_BlendStateData : decl := DeclItem (Item "matl_data::BlendStateData" [] [Attr "serde"
  (Some [MPath "default"])] (DStruct (FNamed [Fld "source_color" [] (RPath "matl::BlendFactor" []); Fld
  "color_operation" [] (RPath "matl::BlendOperation" []); Fld "destination_color" [] (RPath
  "matl::BlendFactor" []); Fld "source_alpha" [] (RPath "matl::BlendFactor" []); Fld "alpha_operation" []
  (RPath "matl::BlendOperation" []); Fld "destination_alpha" [] (RPath "matl::BlendFactor" []); Fld
  "alpha_sample_to_coverage" [] (RPath "bool" [])]))).
(** ssbh_data/src/matl_data.rs:374-378 *)
Definition i_matl_data_RasterizerStateData : decl := DeclItem (Item "matl_data::RasterizerStateData" [] []
  (DStruct (FNamed [Fld "fill_mode" [] (RPath "matl::FillMode" []); Fld "cull_mode" [] (RPath "matl::CullMode"
  []); Fld "depth_bias" [] (RPath "f32" [])]))).
(** ssbh_data/src/mesh_data.rs:181-184 *)
Definition i_mesh_data_VertexWeight : decl := DeclItem (Item "mesh_data::VertexWeight" [] [] (DStruct (FNamed
  [Fld "vertex_index" [] (RPath "u32" []); Fld "vertex_weight" [] (RPath "f32" [])]))).
(** ssbh_data/src/mesh_data.rs:474-477 *)
Definition i_mesh_data_BoneInfluence : decl := DeclItem (Item "mesh_data::BoneInfluence" [] [] (DStruct
  (FNamed [Fld "bone_name" [] (RPath "String" []); Fld "vertex_weights" [] (RPath "Vec" [(RPath
  "mesh_data::VertexWeight" [])])]))).
(** ssbh_data/src/mesh_data.rs:484-488 *)
Definition i_mesh_data_MeshData : decl := DeclItem (Item "mesh_data::MeshData" [] [] (DStruct (FNamed [Fld
  "major_version" [] (RPath "u16" []); Fld "minor_version" [] (RPath "u16" []); Fld "objects" [] (RPath "Vec"
  [(RPath "mesh_data::MeshObjectData" [])])]))).
(** ssbh_data/src/mesh_data.rs:558-581 *)
Definition i_mesh_data_MeshObjectData : decl := DeclItem (Item "mesh_data::MeshObjectData" [] [] (DStruct
  (FNamed [Fld "name" [] (RPath "String" []); Fld "subindex" [] (RPath "u64" []); Fld "parent_bone_name" []
  (RPath "String" []); Fld "sort_bias" [] (RPath "i32" []); Fld "disable_depth_write" [] (RPath "bool" []);
  Fld "disable_depth_test" [] (RPath "bool" []); Fld "vertex_indices" [] (RPath "Vec" [(RPath "u32" [])]); Fld
  "positions" [] (RPath "Vec" [(RPath "mesh_data::AttributeData" [])]); Fld "normals" [] (RPath "Vec" [(RPath
  "mesh_data::AttributeData" [])]); Fld "binormals" [] (RPath "Vec" [(RPath "mesh_data::AttributeData" [])]);
  Fld "tangents" [] (RPath "Vec" [(RPath "mesh_data::AttributeData" [])]); Fld "texture_coordinates" [] (RPath
  "Vec" [(RPath "mesh_data::AttributeData" [])]); Fld "color_sets" [] (RPath "Vec" [(RPath
  "mesh_data::AttributeData" [])]); Fld "bone_influences" [] (RPath "Vec" [(RPath "mesh_data::BoneInfluence"
  [])])]))).
(** ssbh_data/src/mesh_data.rs:587-590 *)
Definition i_mesh_data_AttributeData : decl := DeclItem (Item "mesh_data::AttributeData" [] [] (DStruct
  (FNamed [Fld "name" [] (RPath "String" []); Fld "data" [] (RPath "vector_data::VectorData" [])]))).
(** ssbh_data/src/mesh_data/vector_data.rs:21-25 *)
Definition i_vector_data_VectorData : decl := DeclItem (Item "vector_data::VectorData" [] [] (DEnum [Variant
  "Vector2" [] None (FUnnamed [Fld "0" [] (RPath "Vec" [(RFix (RPath "f32" []) 2)])]); Variant "Vector3" []
  None (FUnnamed [Fld "0" [] (RPath "Vec" [(RFix (RPath "f32" []) 3)])]); Variant "Vector4" [] None (FUnnamed
  [Fld "0" [] (RPath "Vec" [(RFix (RPath "f32" []) 4)])])])).

Definition serde_items : list decl :=
  [i_lib_SsbhFile; i_lib_Ssbh; i_lib_Versioned; i_meshex_MeshEx; i_adj_Adj; i_anim_data_AnimData;
   i_anim_data_GroupData; i_anim_data_NodeData; i_anim_data_TrackData; i_anim_data_TransformFlags;
   i_anim_data_Transform; i_anim_data_TrackValues; i_modl_data_ModlData; i_modl_data_ModlEntryData;
   i_hlpb_data_HlpbData; i_hlpb_data_AimConstraintData; i_hlpb_data_OrientConstraintData;
   i_meshex_data_MeshExData; i_meshex_data_MeshObjectGroupData; i_meshex_data_EntryFlags;
   i_adj_data_AdjData; i_adj_data_AdjEntryData; i_skel_data_SkelData; i_skel_data_BoneData;
   i_matl_data_BlendStateParam; i_matl_data_FloatParam; i_matl_data_BooleanParam; i_matl_data_Vector4Param;
   i_matl_data_RasterizerStateParam; i_matl_data_SamplerParam; i_matl_data_TextureParam;
   i_matl_data_UvTransformParam; i_matl_data_MatlData; i_matl_data_MatlEntryData; i_matl_data_ParamData;
   i_matl_data_SamplerData; i_matl_data_BlendStateData; i_matl_data_RasterizerStateData;
   i_mesh_data_VertexWeight; i_mesh_data_BoneInfluence; i_mesh_data_MeshData; i_mesh_data_MeshObjectData;
   i_mesh_data_AttributeData; i_vector_data_VectorData].
