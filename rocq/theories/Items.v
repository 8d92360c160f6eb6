(** The items of ssbh_lib and of ssbh_data's animation modules that derive SsbhWrite, with the type
    aliases, bit fields and ssbh_enum! declarations they use.  Paths are relative to /repo.
    Transcribed by tools/items.py.  The associated type T::Compression is a parameter. *)
From Verif Require Import Bytes Ssbh Derive Elab.
Open Scope string_scope.
Open Scope Z_scope.

(** ssbh_lib/src/lib.rs:354-354 *)
Definition i_lib_Ptr16 : decl := DeclAlias "lib::Ptr16" ["T"] (RPath "Ptr" [(RPath "u16" []); (RPath "T"
  [])]).
(** ssbh_lib/src/lib.rs:357-357 *)
Definition i_lib_Ptr32 : decl := DeclAlias "lib::Ptr32" ["T"] (RPath "Ptr" [(RPath "u32" []); (RPath "T"
  [])]).
(** ssbh_lib/src/lib.rs:360-360 *)
Definition i_lib_Ptr64 : decl := DeclAlias "lib::Ptr64" ["T"] (RPath "Ptr" [(RPath "u64" []); (RPath "T"
  [])]).
(** ssbh_lib/src/strings.rs:13-13 *)
Definition i_strings_SsbhStringN : decl := DeclItem (Item "strings::SsbhStringN" ["N"] [] (DStruct (FUnnamed
  [Fld "0" [] (RPath "RelPtr64" [(RPath "CString" [(RPath "N" [])])])]))).
(** ssbh_lib/src/strings.rs:16-16 *)
Definition i_strings_SsbhString : decl := DeclAlias "strings::SsbhString" [] (RPath "strings::SsbhStringN"
  [(RConst 4)]).
(** ssbh_lib/src/strings.rs:19-19 *)
Definition i_strings_SsbhString8 : decl := DeclAlias "strings::SsbhString8" [] (RPath "strings::SsbhStringN"
  [(RConst 8)]).
(** ssbh_lib/src/strings.rs:22-22 *)
Definition i_strings_CString1 : decl := DeclAlias "strings::CString1" [] (RPath "CString" [(RConst 1)]).
(** ssbh_lib/src/vectors.rs:11-15 *)
Definition i_vectors_Vector3 : decl := DeclItem (Item "vectors::Vector3" [] [] (DStruct (FNamed [Fld "x" []
  (RPath "f32" []); Fld "y" [] (RPath "f32" []); Fld "z" [] (RPath "f32" [])]))).
(** ssbh_lib/src/vectors.rs:134-138 *)
Definition i_vectors_Matrix3x3 : decl := DeclItem (Item "vectors::Matrix3x3" [] [] (DStruct (FNamed [Fld
  "col1" [] (RPath "vectors::Vector3" []); Fld "col2" [] (RPath "vectors::Vector3" []); Fld "col3" [] (RPath
  "vectors::Vector3" [])]))).
(** ssbh_lib/src/vectors.rs:216-221 *)
Definition i_vectors_Vector4 : decl := DeclItem (Item "vectors::Vector4" [] [] (DStruct (FNamed [Fld "x" []
  (RPath "f32" []); Fld "y" [] (RPath "f32" []); Fld "z" [] (RPath "f32" []); Fld "w" [] (RPath "f32" [])]))).
(** ssbh_lib/src/vectors.rs:332-337 *)
Definition i_vectors_Color4f : decl := DeclItem (Item "vectors::Color4f" [] [] (DStruct (FNamed [Fld "r" []
  (RPath "f32" []); Fld "g" [] (RPath "f32" []); Fld "b" [] (RPath "f32" []); Fld "a" [] (RPath "f32" [])]))).
(** ssbh_lib/src/vectors.rs:343-348 *)
Definition i_vectors_Matrix4x4 : decl := DeclItem (Item "vectors::Matrix4x4" [] [] (DStruct (FNamed [Fld
  "col1" [] (RPath "vectors::Vector4" []); Fld "col2" [] (RPath "vectors::Vector4" []); Fld "col3" [] (RPath
  "vectors::Vector4" []); Fld "col4" [] (RPath "vectors::Vector4" [])]))).
(** ssbh_lib/src/formats/modl.rs:16-34 *)
Definition i_modl_Modl : decl := DeclItem (Item "modl::Modl" [] [Attr "br" (Some [MOther])] (DEnum [Variant
  "V17" [Attr "br" (Some [MVersion 1 7])] None (FNamed [Fld "model_name" [] (RPath "strings::SsbhString" []);
  Fld "skeleton_file_name" [] (RPath "strings::SsbhString" []); Fld "material_file_names" [] (RPath
  "SsbhArray" [(RPath "strings::SsbhString" [])]); Fld "animation_file_name" [] (RPath "RelPtr64" [(RPath
  "strings::SsbhString" [])]); Fld "mesh_file_name" [] (RPath "strings::SsbhString8" []); Fld "entries" []
  (RPath "SsbhArray" [(RPath "modl::ModlEntry" [])])])])).
(** ssbh_lib/src/formats/modl.rs:48-57 *)
Definition i_modl_ModlEntry : decl := DeclItem (Item "modl::ModlEntry" [] [] (DStruct (FNamed [Fld
  "mesh_object_name" [] (RPath "strings::SsbhString" []); Fld "mesh_object_subindex" [] (RPath "u64" []); Fld
  "material_label" [] (RPath "strings::SsbhString" [])]))).
(** ssbh_lib/src/formats/nlst.rs:14-17 *)
Definition i_nlst_Nlst : decl := DeclItem (Item "nlst::Nlst" [] [Attr "br" (Some [MOther])] (DEnum [Variant
  "V10" [Attr "br" (Some [MVersion 1 0])] None (FNamed [Fld "file_names" [] (RPath "SsbhArray" [(RPath
  "strings::SsbhString" [])])])])).
(** ssbh_lib/src/formats/hlpb.rs:19-36 *)
Definition i_hlpb_Hlpb : decl := DeclItem (Item "hlpb::Hlpb" [] [Attr "br" (Some [MOther])] (DEnum [Variant
  "V11" [Attr "br" (Some [MVersion 1 1])] None (FNamed [Fld "aim_constraints" [] (RPath "SsbhArray" [(RPath
  "hlpb::AimConstraint" [])]); Fld "orient_constraints" [] (RPath "SsbhArray" [(RPath "hlpb::OrientConstraint"
  [])]); Fld "constraint_indices" [] (RPath "SsbhArray" [(RPath "u32" [])]); Fld "constraint_types" [] (RPath
  "SsbhArray" [(RPath "hlpb::ConstraintType" [])])])])).
(** ssbh_lib/src/formats/hlpb.rs:54-77 *)
Definition i_hlpb_AimConstraint : decl := DeclItem (Item "hlpb::AimConstraint" [] [] (DStruct (FNamed [Fld
  "name" [] (RPath "strings::SsbhString" []); Fld "aim_bone_name1" [] (RPath "strings::SsbhString" []); Fld
  "aim_bone_name2" [] (RPath "strings::SsbhString" []); Fld "aim_type1" [] (RPath "strings::SsbhString" []);
  Fld "aim_type2" [] (RPath "strings::SsbhString" []); Fld "target_bone_name1" [] (RPath "strings::SsbhString"
  []); Fld "target_bone_name2" [] (RPath "strings::SsbhString" []); Fld "unk1" [] (RPath "u32" []); Fld "unk2"
  [] (RPath "u32" []); Fld "aim" [] (RPath "vectors::Vector3" []); Fld "up" [] (RPath "vectors::Vector3" []);
  Fld "quat1" [] (RPath "vectors::Vector4" []); Fld "quat2" [] (RPath "vectors::Vector4" []); Fld "unk17" []
  (RPath "f32" []); Fld "unk18" [] (RPath "f32" []); Fld "unk19" [] (RPath "f32" []); Fld "unk20" [] (RPath
  "f32" []); Fld "unk21" [] (RPath "f32" []); Fld "unk22" [] (RPath "f32" [])]))).
(** ssbh_lib/src/formats/hlpb.rs:85-112 *)
Definition i_hlpb_OrientConstraint : decl := DeclItem (Item "hlpb::OrientConstraint" [] [] (DStruct (FNamed
  [Fld "name" [] (RPath "strings::SsbhString" []); Fld "parent_bone_name1" [] (RPath "strings::SsbhString"
  []); Fld "parent_bone_name2" [] (RPath "strings::SsbhString" []); Fld "source_bone_name" [] (RPath
  "strings::SsbhString" []); Fld "target_bone_name" [] (RPath "strings::SsbhString" []); Fld "unk_type" []
  (RPath "u32" []); Fld "constraint_axes" [] (RPath "vectors::Vector3" []); Fld "quat1" [] (RPath
  "vectors::Vector4" []); Fld "quat2" [] (RPath "vectors::Vector4" []); Fld "range_min" [] (RPath
  "vectors::Vector3" []); Fld "range_max" [] (RPath "vectors::Vector3" [])]))).
(** ssbh_lib/src/formats/hlpb.rs:120-125 *)
Definition i_hlpb_ConstraintType : decl := DeclItem (Item "hlpb::ConstraintType" [] [Attr "br" (Some [MRepr
  "u32"]); Attr "ssbhwrite" (Some [MRepr "u32"])] (DEnum [Variant "Aim" [] (Some 0) FUnit; Variant "Orient" []
  (Some 1) FUnit])).
(** ssbh_lib/src/formats/skel.rs:25-43 *)
Definition i_skel_Skel : decl := DeclItem (Item "skel::Skel" [] [Attr "br" (Some [MOther])] (DEnum [Variant
  "V10" [Attr "br" (Some [MVersion 1 0])] None (FNamed [Fld "bone_entries" [] (RPath "SsbhArray" [(RPath
  "skel::SkelBoneEntry" [])]); Fld "world_transforms" [] (RPath "SsbhArray" [(RPath "vectors::Matrix4x4"
  [])]); Fld "inv_world_transforms" [] (RPath "SsbhArray" [(RPath "vectors::Matrix4x4" [])]); Fld "transforms"
  [] (RPath "SsbhArray" [(RPath "vectors::Matrix4x4" [])]); Fld "inv_transforms" [] (RPath "SsbhArray" [(RPath
  "vectors::Matrix4x4" [])])])])).
(** ssbh_lib/src/formats/skel.rs:58-66 *)
Definition i_skel_SkelBoneEntry : decl := DeclItem (Item "skel::SkelBoneEntry" [] [] (DStruct (FNamed [Fld
  "name" [] (RPath "strings::SsbhString" []); Fld "index" [] (RPath "u16" []); Fld "parent_index" [] (RPath
  "i16" []); Fld "flags" [] (RPath "skel::SkelEntryFlags" [])]))).
(** ssbh_lib/src/formats/skel.rs:72-76 *)
Definition i_skel_SkelEntryFlags : decl := DeclItem (Item "skel::SkelEntryFlags" [] [Attr "ssbhwrite" (Some
  [MNameValue ["pad_after"] (LInt 2)])] (DStruct (FNamed [Fld "unk1" [] (RPath "u8" []); Fld "billboard_type"
  [Attr "br" (Some [MNameValue ["pad_after"] (LInt 2)])] (RPath "skel::BillboardType" [])]))).
(** ssbh_lib/src/formats/skel.rs:97-112 *)
Definition i_skel_BillboardType : decl := DeclItem (Item "skel::BillboardType" [] [Attr "br" (Some [MRepr
  "u8"]); Attr "ssbhwrite" (Some [MRepr "u8"])] (DEnum [Variant "Disabled" [] (Some 0) FUnit; Variant
  "XAxisViewPointAligned" [] (Some 1) FUnit; Variant "YAxisViewPointAligned" [] (Some 2) FUnit; Variant "Unk3"
  [] (Some 3) FUnit; Variant "XYAxisViewPointAligned" [] (Some 4) FUnit; Variant "YAxisViewPlaneAligned" []
  (Some 6) FUnit; Variant "XYAxisViewPlaneAligned" [] (Some 8) FUnit])).
(** ssbh_lib/src/formats/shdr.rs:13-16 *)
Definition i_shdr_Shdr : decl := DeclItem (Item "shdr::Shdr" [] [Attr "br" (Some [MOther])] (DEnum [Variant
  "V12" [Attr "br" (Some [MVersion 1 2])] None (FNamed [Fld "shaders" [] (RPath "SsbhArray" [(RPath
  "shdr::Shader" [])])])])).
(** ssbh_lib/src/formats/shdr.rs:30-39 *)
Definition i_shdr_Shader : decl := DeclItem (Item "shdr::Shader" [] [Attr "ssbhwrite" (Some [MNameValue
  ["pad_after"] (LInt 16)])] (DStruct (FNamed [Fld "name" [] (RPath "strings::SsbhString" []); Fld
  "shader_stage" [] (RPath "shdr::ShaderStage" []); Fld "unk3" [] (RPath "u32" []); Fld "shader_binary" []
  (RPath "SsbhByteBuffer" []); Fld "binary_size" [Attr "br" (Some [MNameValue ["pad_after"] (LInt 16)])]
  (RPath "u64" [])]))).
(** ssbh_lib/src/formats/shdr.rs:47-52 *)
Definition i_shdr_ShaderStage : decl := DeclItem (Item "shdr::ShaderStage" [] [Attr "repr" (Some [MPath
  "u32"]); Attr "br" (Some [MRepr "u32"]); Attr "ssbhwrite" (Some [MRepr "u32"])] (DEnum [Variant "Vertex" []
  (Some 0) FUnit; Variant "Geometry" [] (Some 3) FUnit; Variant "Fragment" [] (Some 4) FUnit; Variant
  "Compute" [] (Some 5) FUnit])).
(** ssbh_lib/src/formats/nufx.rs:19-26 *)
Definition i_nufx_Nufx : decl := DeclItem (Item "nufx::Nufx" [] [Attr "br" (Some [MOther])] (DEnum [Variant
  "V0" [Attr "br" (Some [MVersion 1 0])] None (FUnnamed [Fld "0" [] (RPath "nufx::NufxV0" [])]); Variant "V1"
  [Attr "br" (Some [MVersion 1 1])] None (FUnnamed [Fld "0" [] (RPath "nufx::NufxV1" [])])])).
(** ssbh_lib/src/formats/nufx.rs:40-43 *)
Definition i_nufx_NufxV0 : decl := DeclItem (Item "nufx::NufxV0" [] [] (DStruct (FNamed [Fld "programs" []
  (RPath "SsbhArray" [(RPath "nufx::ShaderProgramV0" [])]); Fld "unk_string_list" [] (RPath "SsbhArray"
  [(RPath "nufx::UnkItem" [])])]))).
(** ssbh_lib/src/formats/nufx.rs:48-51 *)
Definition i_nufx_NufxV1 : decl := DeclItem (Item "nufx::NufxV1" [] [] (DStruct (FNamed [Fld "programs" []
  (RPath "SsbhArray" [(RPath "nufx::ShaderProgramV1" [])]); Fld "unk_string_list" [] (RPath "SsbhArray"
  [(RPath "nufx::UnkItem" [])])]))).
(** ssbh_lib/src/formats/nufx.rs:58-61 *)
Definition i_nufx_VertexAttribute : decl := DeclItem (Item "nufx::VertexAttribute" [] [] (DStruct (FNamed [Fld
  "name" [] (RPath "strings::SsbhString" []); Fld "attribute_name" [] (RPath "strings::SsbhString" [])]))).
(** ssbh_lib/src/formats/nufx.rs:68-73 *)
Definition i_nufx_MaterialParameter : decl := DeclItem (Item "nufx::MaterialParameter" [] [Attr "ssbhwrite"
  (Some [MNameValue ["pad_after"] (LInt 8)])] (DStruct (FNamed [Fld "param_id" [] (RPath "u64" []); Fld
  "parameter_name" [Attr "br" (Some [MNameValue ["pad_after"] (LInt 8)])] (RPath "strings::SsbhString8"
  [])]))).
(** ssbh_lib/src/formats/nufx.rs:79-86 *)
Definition i_nufx_ShaderStages : decl := DeclItem (Item "nufx::ShaderStages" [] [] (DStruct (FNamed [Fld
  "vertex_shader" [] (RPath "strings::SsbhString" []); Fld "unk_shader1" [] (RPath "strings::SsbhString" []);
  Fld "unk_shader2" [] (RPath "strings::SsbhString" []); Fld "geometry_shader" [] (RPath "strings::SsbhString"
  []); Fld "pixel_shader" [] (RPath "strings::SsbhString" []); Fld "compute_shader" [] (RPath
  "strings::SsbhString" [])]))).
(** ssbh_lib/src/formats/nufx.rs:93-103 *)
Definition i_nufx_ShaderProgramV0 : decl := DeclItem (Item "nufx::ShaderProgramV0" [] [] (DStruct (FNamed [Fld
  "name" [] (RPath "strings::SsbhString" []); Fld "render_pass" [] (RPath "strings::SsbhString" []); Fld
  "shaders" [] (RPath "nufx::ShaderStages" []); Fld "material_parameters" [] (RPath "SsbhArray" [(RPath
  "nufx::MaterialParameter" [])])]))).
(** ssbh_lib/src/formats/nufx.rs:110-122 *)
Definition i_nufx_ShaderProgramV1 : decl := DeclItem (Item "nufx::ShaderProgramV1" [] [] (DStruct (FNamed [Fld
  "name" [] (RPath "strings::SsbhString" []); Fld "render_pass" [] (RPath "strings::SsbhString" []); Fld
  "shaders" [] (RPath "nufx::ShaderStages" []); Fld "vertex_attributes" [] (RPath "SsbhArray" [(RPath
  "nufx::VertexAttribute" [])]); Fld "material_parameters" [] (RPath "SsbhArray" [(RPath
  "nufx::MaterialParameter" [])])]))).
(** ssbh_lib/src/formats/nufx.rs:127-130 *)
Definition i_nufx_UnkItem : decl := DeclItem (Item "nufx::UnkItem" [] [] (DStruct (FNamed [Fld "name" []
  (RPath "strings::SsbhString" []); Fld "unk1" [] (RPath "SsbhArray" [(RPath "strings::SsbhString" [])])]))).
(** ssbh_lib/src/formats/mesh.rs:26-41 *)
Definition i_mesh_Mesh : decl := DeclItem (Item "mesh::Mesh" [] [Attr "br" (Some [MOther]); Attr "ssbhwrite"
  (Some [MNameValue ["pad_after"] (LInt 16); MNameValue ["align_after"] (LInt 8)])] (DEnum [Variant "V8" [Attr
  "br" (Some [MVersion 1 8])] None (FUnnamed [Fld "0" [] (RPath "mesh::MeshInner" [(RPath "mesh::AttributeV8"
  []); (RPath "SsbhArray" [(RPath "mesh::VertexWeightV8" [])])])]); Variant "V9" [Attr "br" (Some [MVersion 1
  9])] None (FUnnamed [Fld "0" [] (RPath "mesh::MeshInner" [(RPath "mesh::AttributeV9" []); (RPath "SsbhArray"
  [(RPath "mesh::VertexWeightV8" [])])])]); Variant "V10" [Attr "br" (Some [MVersion 1 10])] None (FUnnamed
  [Fld "0" [] (RPath "mesh::MeshInner" [(RPath "mesh::AttributeV10" []); (RPath "SsbhByteBuffer" [])])])])).
(** ssbh_lib/src/formats/mesh.rs:56-75 *)
Definition i_mesh_MeshInner : decl := DeclItem (Item "mesh::MeshInner" ["A"; "W1"] [] (DStruct (FNamed [Fld
  "model_name" [] (RPath "strings::SsbhString" []); Fld "bounding_info" [] (RPath "mesh::BoundingInfo" []);
  Fld "unk1" [] (RPath "u32" []); Fld "objects" [] (RPath "SsbhArray" [(RPath "mesh::MeshObject" [(RPath "A"
  [])])]); Fld "buffer_sizes" [] (RPath "SsbhArray" [(RPath "u32" [])]); Fld "polygon_index_size" [] (RPath
  "u64" []); Fld "vertex_buffers" [] (RPath "SsbhArray" [(RPath "SsbhByteBuffer" [])]); Fld "index_buffer" []
  (RPath "SsbhByteBuffer" []); Fld "rigging_buffers" [] (RPath "SsbhArray" [(RPath "mesh::RiggingGroup"
  [(RPath "W1" [])])])]))).
(** ssbh_lib/src/formats/mesh.rs:80-87 *)
Definition i_mesh_AttributeV8 : decl := DeclItem (Item "mesh::AttributeV8" [] [] (DStruct (FNamed [Fld "usage"
  [] (RPath "mesh::AttributeUsageV8" []); Fld "data_type" [] (RPath "mesh::AttributeDataTypeV8" []); Fld
  "buffer_index" [] (RPath "u32" []); Fld "buffer_offset" [] (RPath "u32" []); Fld "subindex" [] (RPath "u32"
  [])]))).
(** ssbh_lib/src/formats/mesh.rs:92-101 *)
Definition i_mesh_AttributeV9 : decl := DeclItem (Item "mesh::AttributeV9" [] [] (DStruct (FNamed [Fld "usage"
  [] (RPath "mesh::AttributeUsageV9" []); Fld "data_type" [] (RPath "mesh::AttributeDataTypeV8" []); Fld
  "buffer_index" [] (RPath "u32" []); Fld "buffer_offset" [] (RPath "u32" []); Fld "subindex" [] (RPath "u64"
  []); Fld "name" [] (RPath "strings::SsbhString" []); Fld "attribute_names" [] (RPath "SsbhArray" [(RPath
  "strings::SsbhString" [])])]))).
(** ssbh_lib/src/formats/mesh.rs:106-115 *)
Definition i_mesh_AttributeV10 : decl := DeclItem (Item "mesh::AttributeV10" [] [] (DStruct (FNamed [Fld
  "usage" [] (RPath "mesh::AttributeUsageV9" []); Fld "data_type" [] (RPath "mesh::AttributeDataTypeV10" []);
  Fld "buffer_index" [] (RPath "u32" []); Fld "buffer_offset" [] (RPath "u32" []); Fld "subindex" [] (RPath
  "u64" []); Fld "name" [] (RPath "strings::SsbhString" []); Fld "attribute_names" [] (RPath "SsbhArray"
  [(RPath "strings::SsbhString" [])])]))).
(** ssbh_lib/src/formats/mesh.rs:120-124 *)
Definition i_mesh_BoundingInfo : decl := DeclItem (Item "mesh::BoundingInfo" [] [] (DStruct (FNamed [Fld
  "bounding_sphere" [] (RPath "mesh::BoundingSphere" []); Fld "bounding_volume" [] (RPath
  "mesh::BoundingVolume" []); Fld "oriented_bounding_box" [] (RPath "mesh::OrientedBoundingBox" [])]))).
(** ssbh_lib/src/formats/mesh.rs:129-132 *)
Definition i_mesh_BoundingSphere : decl := DeclItem (Item "mesh::BoundingSphere" [] [] (DStruct (FNamed [Fld
  "center" [] (RPath "vectors::Vector3" []); Fld "radius" [] (RPath "f32" [])]))).
(** ssbh_lib/src/formats/mesh.rs:139-142 *)
Definition i_mesh_BoundingVolume : decl := DeclItem (Item "mesh::BoundingVolume" [] [] (DStruct (FNamed [Fld
  "min" [] (RPath "vectors::Vector3" []); Fld "max" [] (RPath "vectors::Vector3" [])]))).
(** ssbh_lib/src/formats/mesh.rs:147-151 *)
Definition i_mesh_OrientedBoundingBox : decl := DeclItem (Item "mesh::OrientedBoundingBox" [] [] (DStruct
  (FNamed [Fld "center" [] (RPath "vectors::Vector3" []); Fld "transform" [] (RPath "vectors::Matrix3x3" []);
  Fld "size" [] (RPath "vectors::Vector3" [])]))).
(** ssbh_lib/src/formats/mesh.rs:157-164 *)
Definition i_mesh_RiggingFlags : decl := DeclItem (Item "mesh::RiggingFlags" [] [Attr "ssbhwrite" (Some
  [MNameValue ["pad_after"] (LInt 6)])] (DStruct (FNamed [Fld "max_influences" [] (RPath "u8" []); Fld "unk1"
  [Attr "br" (Some [MNameValue ["pad_after"] (LInt 6)])] (RPath "u8" [])]))).
(** ssbh_lib/src/formats/mesh.rs:169-172 *)
Definition i_mesh_BoneBuffer : decl := DeclItem (Item "mesh::BoneBuffer" ["W2"] [] (DStruct (FNamed [Fld
  "bone_name" [] (RPath "strings::SsbhString" []); Fld "data" [] (RPath "W2" [])]))).
(** ssbh_lib/src/formats/mesh.rs:179-184 *)
Definition i_mesh_RiggingGroup : decl := DeclItem (Item "mesh::RiggingGroup" ["W3"] [] (DStruct (FNamed [Fld
  "mesh_object_name" [] (RPath "strings::SsbhString" []); Fld "mesh_object_subindex" [] (RPath "u64" []); Fld
  "flags" [] (RPath "mesh::RiggingFlags" []); Fld "buffers" [] (RPath "SsbhArray" [(RPath "mesh::BoneBuffer"
  [(RPath "W3" [])])])]))).
(** ssbh_lib/src/formats/mesh.rs:190-199 *)
Definition i_mesh_Attributes : decl := DeclItem (Item "mesh::Attributes" [] [Attr "br" (Some [MOther])] (DEnum
  [Variant "V8" [Attr "br" (Some [MVersion 1 8])] None (FUnnamed [Fld "0" [] (RPath "SsbhArray" [(RPath
  "mesh::AttributeV8" [])])]); Variant "V9" [Attr "br" (Some [MVersion 1 9])] None (FUnnamed [Fld "0" []
  (RPath "SsbhArray" [(RPath "mesh::AttributeV9" [])])]); Variant "V10" [Attr "br" (Some [MVersion 1 10])]
  None (FUnnamed [Fld "0" [] (RPath "SsbhArray" [(RPath "mesh::AttributeV10" [])])])])).
(** ssbh_lib/src/formats/mesh.rs:205-208 *)
Definition i_mesh_VertexWeightV8 : decl := DeclItem (Item "mesh::VertexWeightV8" [] [] (DStruct (FNamed [Fld
  "vertex_index" [] (RPath "u32" []); Fld "vertex_weight" [] (RPath "f32" [])]))).
(** ssbh_lib/src/formats/mesh.rs:222-267 *)
Definition i_mesh_MeshObject : decl := DeclItem (Item "mesh::MeshObject" ["A"] [] (DStruct (FNamed [Fld "name"
  [] (RPath "strings::SsbhString" []); Fld "subindex" [] (RPath "u64" []); Fld "parent_bone_name" [] (RPath
  "strings::SsbhString" []); Fld "vertex_count" [] (RPath "u32" []); Fld "vertex_index_count" [] (RPath "u32"
  []); Fld "unk2" [] (RPath "u32" []); Fld "vertex_buffer0_offset" [] (RPath "u32" []); Fld
  "vertex_buffer1_offset" [] (RPath "u32" []); Fld "vertex_buffer2_offset" [] (RPath "u32" []); Fld
  "vertex_buffer3_offset" [] (RPath "u32" []); Fld "stride0" [] (RPath "u32" []); Fld "stride1" [] (RPath
  "u32" []); Fld "stride2" [] (RPath "u32" []); Fld "stride3" [] (RPath "u32" []); Fld "index_buffer_offset"
  [] (RPath "u32" []); Fld "unk8" [] (RPath "u32" []); Fld "draw_element_type" [] (RPath
  "mesh::DrawElementType" []); Fld "use_vertex_skinning" [] (RPath "u32" []); Fld "sort_bias" [] (RPath "i32"
  []); Fld "depth_flags" [] (RPath "mesh::DepthFlags" []); Fld "bounding_info" [] (RPath "mesh::BoundingInfo"
  []); Fld "attributes" [] (RPath "SsbhArray" [(RPath "A" [])])]))).
(** ssbh_lib/src/formats/mesh.rs:274-280 *)
Definition i_mesh_DepthFlags : decl := DeclItem (Item "mesh::DepthFlags" [] [Attr "ssbhwrite" (Some
  [MNameValue ["pad_after"] (LInt 2)])] (DStruct (FNamed [Fld "disable_depth_write" [] (RPath "u8" []); Fld
  "disable_depth_test" [Attr "br" (Some [MNameValue ["pad_after"] (LInt 2)])] (RPath "u8" [])]))).
(** ssbh_lib/src/formats/mesh.rs:288-293 *)
Definition i_mesh_DrawElementType : decl := DeclItem (Item "mesh::DrawElementType" [] [Attr "br" (Some [MRepr
  "u32"]); Attr "ssbhwrite" (Some [MRepr "u32"])] (DEnum [Variant "UnsignedShort" [] (Some 0) FUnit; Variant
  "UnsignedInt" [] (Some 1) FUnit])).
(** ssbh_lib/src/formats/mesh.rs:302-315 *)
Definition i_mesh_AttributeDataTypeV10 : decl := DeclItem (Item "mesh::AttributeDataTypeV10" [] [Attr "br"
  (Some [MRepr "u32"]); Attr "ssbhwrite" (Some [MRepr "u32"])] (DEnum [Variant "Float3" [] (Some 0) FUnit;
  Variant "Byte4" [] (Some 2) FUnit; Variant "Float4" [] (Some 4) FUnit; Variant "HalfFloat4" [] (Some 5)
  FUnit; Variant "Float2" [] (Some 7) FUnit; Variant "HalfFloat2" [] (Some 8) FUnit])).
(** ssbh_lib/src/formats/mesh.rs:324-335 *)
Definition i_mesh_AttributeDataTypeV8 : decl := DeclItem (Item "mesh::AttributeDataTypeV8" [] [Attr "br" (Some
  [MRepr "u32"]); Attr "ssbhwrite" (Some [MRepr "u32"])] (DEnum [Variant "Float3" [] (Some 820) FUnit; Variant
  "Float4" [] (Some 1076) FUnit; Variant "HalfFloat4" [] (Some 1077) FUnit; Variant "Float2" [] (Some 1079)
  FUnit; Variant "Byte4" [] (Some 1024) FUnit])).
(** ssbh_lib/src/formats/mesh.rs:346-353 *)
Definition i_mesh_AttributeUsageV9 : decl := DeclItem (Item "mesh::AttributeUsageV9" [] [Attr "br" (Some
  [MRepr "u32"]); Attr "ssbhwrite" (Some [MRepr "u32"])] (DEnum [Variant "Position" [] (Some 0) FUnit; Variant
  "Normal" [] (Some 1) FUnit; Variant "Binormal" [] (Some 2) FUnit; Variant "Tangent" [] (Some 3) FUnit;
  Variant "TextureCoordinate" [] (Some 4) FUnit; Variant "ColorSet" [] (Some 5) FUnit])).
(** ssbh_lib/src/formats/mesh.rs:362-368 *)
Definition i_mesh_AttributeUsageV8 : decl := DeclItem (Item "mesh::AttributeUsageV8" [] [Attr "br" (Some
  [MRepr "u32"]); Attr "ssbhwrite" (Some [MRepr "u32"])] (DEnum [Variant "Position" [] (Some 0) FUnit; Variant
  "Normal" [] (Some 1) FUnit; Variant "Tangent" [] (Some 3) FUnit; Variant "TextureCoordinate" [] (Some 4)
  FUnit; Variant "ColorSet" [] (Some 8) FUnit])).
(** ssbh_lib/src/formats/anim.rs:28-72 *)
Definition i_anim_Anim : decl := DeclItem (Item "anim::Anim" [] [Attr "br" (Some [MOther])] (DEnum [Variant
  "V12" [Attr "br" (Some [MVersion 1 2])] None (FNamed [Fld "name" [] (RPath "strings::SsbhString" []); Fld
  "unk1" [] (RPath "f32" []); Fld "final_frame_index" [] (RPath "f32" []); Fld "unk2" [] (RPath "f32" []); Fld
  "unk3" [] (RPath "f32" []); Fld "tracks" [] (RPath "SsbhArray" [(RPath "anim::TrackV1" [])]); Fld "buffers"
  [] (RPath "SsbhArray" [(RPath "SsbhByteBuffer" [])])]); Variant "V20" [Attr "br" (Some [MVersion 2 0])] None
  (FNamed [Fld "final_frame_index" [] (RPath "f32" []); Fld "unk1" [] (RPath "u16" []); Fld "unk2" [] (RPath
  "u16" []); Fld "name" [] (RPath "strings::SsbhString" []); Fld "groups" [] (RPath "SsbhArray" [(RPath
  "anim::Group" [])]); Fld "buffer" [] (RPath "SsbhByteBuffer" [])]); Variant "V21" [Attr "br" (Some [MVersion
  2 1]); Attr "ssbhwrite" (Some [MNameValue ["align_after"] (LInt 8)])] None (FNamed [Fld "final_frame_index"
  [] (RPath "f32" []); Fld "unk1" [] (RPath "u16" []); Fld "unk2" [] (RPath "u16" []); Fld "name" [] (RPath
  "strings::SsbhString" []); Fld "groups" [] (RPath "SsbhArray" [(RPath "anim::Group" [])]); Fld "buffer" []
  (RPath "SsbhByteBuffer" []); Fld "unk_data" [] (RPath "anim::UnkData" [])])])).
(** ssbh_lib/src/formats/anim.rs:77-80 *)
Definition i_anim_Group : decl := DeclItem (Item "anim::Group" [] [] (DStruct (FNamed [Fld "group_type" []
  (RPath "anim::GroupType" []); Fld "nodes" [] (RPath "SsbhArray" [(RPath "anim::Node" [])])]))).
(** ssbh_lib/src/formats/anim.rs:85-88 *)
Definition i_anim_Node : decl := DeclItem (Item "anim::Node" [] [] (DStruct (FNamed [Fld "name" [] (RPath
  "strings::SsbhString" []); Fld "tracks" [] (RPath "SsbhArray" [(RPath "anim::TrackV2" [])])]))).
(** ssbh_lib/src/formats/anim.rs:93-100 *)
Definition i_anim_TrackV2 : decl := DeclItem (Item "anim::TrackV2" [] [] (DStruct (FNamed [Fld "name" []
  (RPath "strings::SsbhString" []); Fld "flags" [] (RPath "anim::TrackFlags" []); Fld "frame_count" [] (RPath
  "u32" []); Fld "transform_flags" [] (RPath "anim::TransformFlags" []); Fld "data_offset" [] (RPath "u32"
  []); Fld "data_size" [] (RPath "u64" [])]))).
(** ssbh_lib/src/formats/anim.rs:115-119 *)
Definition i_anim_TrackV1 : decl := DeclItem (Item "anim::TrackV1" [] [] (DStruct (FNamed [Fld "name" []
  (RPath "strings::SsbhString" []); Fld "track_type" [] (RPath "anim::TrackTypeV1" []); Fld "properties" []
  (RPath "SsbhArray" [(RPath "anim::Property" [])])]))).
(** ssbh_lib/src/formats/anim.rs:124-128 *)
Definition i_anim_Property : decl := DeclItem (Item "anim::Property" [] [] (DStruct (FNamed [Fld "name" []
  (RPath "strings::SsbhString" []); Fld "buffer_index" [] (RPath "u64" [])]))).
(** ssbh_lib/src/formats/anim.rs:134-137 *)
Definition i_anim_UnkData : decl := DeclItem (Item "anim::UnkData" [] [] (DStruct (FNamed [Fld "unk1" []
  (RPath "SsbhArray" [(RPath "anim::UnkItem1" [])]); Fld "unk2" [] (RPath "SsbhArray" [(RPath "anim::UnkItem2"
  [])])]))).
(** ssbh_lib/src/formats/anim.rs:142-145 *)
Definition i_anim_UnkItem1 : decl := DeclItem (Item "anim::UnkItem1" [] [] (DStruct (FNamed [Fld "unk1" []
  (RPath "u64" []); Fld "unk2" [] (RPath "SsbhArray" [(RPath "anim::UnkSubItem" [])])]))).
(** ssbh_lib/src/formats/anim.rs:150-153 *)
Definition i_anim_UnkItem2 : decl := DeclItem (Item "anim::UnkItem2" [] [] (DStruct (FNamed [Fld "unk1" []
  (RPath "strings::SsbhString" []); Fld "unk2" [] (RPath "SsbhArray" [(RPath "anim::UnkSubItem" [])])]))).
(** ssbh_lib/src/formats/anim.rs:159-162 *)
Definition i_anim_UnkSubItem : decl := DeclItem (Item "anim::UnkSubItem" [] [] (DStruct (FNamed [Fld "unk1" []
  (RPath "u32" []); Fld "unk2" [] (RPath "u32" [])]))).
(** ssbh_lib/src/formats/anim.rs:168-172 *)
Definition i_anim_TrackFlags : decl := DeclItem (Item "anim::TrackFlags" [] [Attr "ssbhwrite" (Some
  [MNameValue ["pad_after"] (LInt 2)])] (DStruct (FNamed [Fld "track_type" [] (RPath "anim::TrackTypeV2" []);
  Fld "compression_type" [Attr "br" (Some [MNameValue ["pad_after"] (LInt 2)])] (RPath "anim::CompressionType"
  [])]))).
(** ssbh_lib/src/formats/anim.rs:210-210 *)
Definition i_anim_TransformFlags : decl := DeclBits "anim::TransformFlags" 4.
(** ssbh_lib/src/formats/anim.rs:217-221 *)
Definition i_anim_TrackTypeV1 : decl := DeclItem (Item "anim::TrackTypeV1" [] [Attr "br" (Some [MRepr "u64"]);
  Attr "ssbhwrite" (Some [MRepr "u64"])] (DEnum [Variant "Transform" [] (Some 0) FUnit; Variant "UvTransform"
  [] (Some 2) FUnit; Variant "Visibility" [] (Some 5) FUnit])).
(** ssbh_lib/src/formats/anim.rs:228-235 *)
Definition i_anim_TrackTypeV2 : decl := DeclItem (Item "anim::TrackTypeV2" [] [Attr "br" (Some [MRepr "u8"]);
  Attr "ssbhwrite" (Some [MRepr "u8"])] (DEnum [Variant "Transform" [] (Some 1) FUnit; Variant "UvTransform"
  [] (Some 2) FUnit; Variant "Float" [] (Some 3) FUnit; Variant "PatternIndex" [] (Some 5) FUnit; Variant
  "Boolean" [] (Some 8) FUnit; Variant "Vector4" [] (Some 9) FUnit])).
(** ssbh_lib/src/formats/anim.rs:242-257 *)
Definition i_anim_CompressionType : decl := DeclItem (Item "anim::CompressionType" [] [Attr "br" (Some [MRepr
  "u8"]); Attr "ssbhwrite" (Some [MRepr "u8"])] (DEnum [Variant "Direct" [] (Some 1) FUnit; Variant
  "ConstTransform" [] (Some 2) FUnit; Variant "Compressed" [] (Some 4) FUnit; Variant "Constant" [] (Some 5)
  FUnit])).
(** ssbh_lib/src/formats/anim.rs:268-273 *)
Definition i_anim_GroupType : decl := DeclItem (Item "anim::GroupType" [] [Attr "br" (Some [MRepr "u64"]);
  Attr "ssbhwrite" (Some [MRepr "u64"])] (DEnum [Variant "Transform" [] (Some 1) FUnit; Variant "Visibility"
  [] (Some 2) FUnit; Variant "Material" [] (Some 4) FUnit; Variant "Camera" [] (Some 5) FUnit])).
(** ssbh_lib/src/formats/matl.rs:25-30 *)
Definition i_matl_Matl : decl := DeclItem (Item "matl::Matl" [] [Attr "br" (Some [MOther])] (DEnum [Variant
  "V15" [Attr "br" (Some [MVersion 1 5])] None (FNamed [Fld "entries" [] (RPath "SsbhArray" [(RPath
  "matl::MatlEntryV15" [])])]); Variant "V16" [Attr "br" (Some [MVersion 1 6])] None (FNamed [Fld "entries" []
  (RPath "SsbhArray" [(RPath "matl::MatlEntryV16" [])])])])).
(** ssbh_lib/src/formats/matl.rs:45-57 *)
Definition i_matl_MatlEntryV15 : decl := DeclItem (Item "matl::MatlEntryV15" [] [] (DStruct (FNamed [Fld
  "material_label" [] (RPath "strings::SsbhString" []); Fld "attributes" [] (RPath "SsbhArray" [(RPath
  "matl::AttributeV15" [])]); Fld "shader_label" [] (RPath "strings::SsbhString" [])]))).
(** ssbh_lib/src/formats/matl.rs:64-69 *)
Definition i_matl_AttributeV15 : decl := DeclItem (Item "matl::AttributeV15" [] [] (DStruct (FNamed [Fld
  "param_id" [] (RPath "matl::ParamId" []); Fld "param" [] (RPath "SsbhEnum64" [(RPath "matl::ParamV15"
  [])])]))).
(** ssbh_lib/src/formats/matl.rs:75-87 *)
Definition i_matl_MatlEntryV16 : decl := DeclItem (Item "matl::MatlEntryV16" [] [] (DStruct (FNamed [Fld
  "material_label" [] (RPath "strings::SsbhString" []); Fld "attributes" [] (RPath "SsbhArray" [(RPath
  "matl::AttributeV16" [])]); Fld "shader_label" [] (RPath "strings::SsbhString" [])]))).
(** ssbh_lib/src/formats/matl.rs:93-98 *)
Definition i_matl_AttributeV16 : decl := DeclItem (Item "matl::AttributeV16" [] [] (DStruct (FNamed [Fld
  "param_id" [] (RPath "matl::ParamId" []); Fld "param" [] (RPath "SsbhEnum64" [(RPath "matl::ParamV16"
  [])])]))).
(** ssbh_lib/src/formats/matl.rs:100-116 *)
Definition i_matl_ParamV15 : decl := DeclCase "matl::ParamV15" [(1, ("Float", (RPath "f32" []))); (2,
  ("Boolean", (RPath "u32" []))); (5, ("Vector4", (RPath "vectors::Vector4" []))); (7, ("Unk7", (RPath
  "vectors::Color4f" []))); (11, ("String", (RPath "strings::SsbhString" []))); (14, ("Sampler", (RPath
  "matl::Sampler" []))); (16, ("UvTransform", (RPath "matl::UvTransform" []))); (17, ("BlendState", (RPath
  "matl::BlendStateV15" []))); (18, ("RasterizerState", (RPath "matl::RasterizerStateV15" [])))].
(** ssbh_lib/src/formats/matl.rs:118-134 *)
Definition i_matl_ParamV16 : decl := DeclCase "matl::ParamV16" [(1, ("Float", (RPath "f32" []))); (2,
  ("Boolean", (RPath "u32" []))); (5, ("Vector4", (RPath "vectors::Vector4" []))); (7, ("Unk7", (RPath
  "vectors::Color4f" []))); (11, ("String", (RPath "strings::SsbhString" []))); (14, ("Sampler", (RPath
  "matl::Sampler" []))); (16, ("UvTransform", (RPath "matl::UvTransform" []))); (17, ("BlendState", (RPath
  "matl::BlendStateV16" []))); (18, ("RasterizerState", (RPath "matl::RasterizerStateV16" [])))].
(** ssbh_lib/src/formats/matl.rs:147-516 *)
Definition i_matl_ParamId : decl := DeclItem (Item "matl::ParamId" [] [Attr "br" (Some [MRepr "u64"]); Attr
  "ssbhwrite" (Some [MRepr "u64"])] (DEnum [Variant "BlendState0" [] (Some 280) FUnit; Variant
  "RasterizerState0" [] (Some 291) FUnit; Variant "CustomVector8" [] (Some 160) FUnit; Variant "Texture4" []
  (Some 96) FUnit; Variant "CustomVector0" [] (Some 152) FUnit; Variant "CustomBoolean1" [] (Some 233) FUnit;
  Variant "CustomVector13" [] (Some 165) FUnit; Variant "CustomBoolean3" [] (Some 235) FUnit; Variant
  "CustomBoolean4" [] (Some 236) FUnit; Variant "Texture7" [] (Some 99) FUnit; Variant "CustomVector14" []
  (Some 166) FUnit; Variant "CustomFloat8" [] (Some 200) FUnit; Variant "Texture0" [] (Some 92) FUnit; Variant
  "Texture6" [] (Some 98) FUnit; Variant "CustomVector3" [] (Some 155) FUnit; Variant "Texture5" [] (Some 97)
  FUnit; Variant "CustomVector30" [] (Some 325) FUnit; Variant "CustomBoolean2" [] (Some 234) FUnit; Variant
  "CustomVector31" [] (Some 326) FUnit; Variant "CustomBoolean11" [] (Some 243) FUnit; Variant "Texture14" []
  (Some 106) FUnit; Variant "CustomVector27" [] (Some 322) FUnit; Variant "Texture9" [] (Some 101) FUnit;
  Variant "CustomVector29" [] (Some 324) FUnit; Variant "CustomVector6" [] (Some 158) FUnit; Variant
  "CustomVector11" [] (Some 163) FUnit; Variant "CustomBoolean5" [] (Some 237) FUnit; Variant
  "CustomBoolean12" [] (Some 244) FUnit; Variant "CustomBoolean6" [] (Some 238) FUnit; Variant "Texture2" []
  (Some 94) FUnit; Variant "Texture1" [] (Some 93) FUnit; Variant "CustomVector7" [] (Some 159) FUnit; Variant
  "CustomFloat1" [] (Some 193) FUnit; Variant "Texture3" [] (Some 95) FUnit; Variant "CustomFloat19" [] (Some
  211) FUnit; Variant "CustomVector18" [] (Some 170) FUnit; Variant "CustomBoolean9" [] (Some 241) FUnit;
  Variant "CustomVector42" [] (Some 337) FUnit; Variant "CustomVector32" [] (Some 327) FUnit; Variant
  "CustomBoolean7" [] (Some 239) FUnit; Variant "CustomFloat4" [] (Some 196) FUnit; Variant "CustomFloat10" []
  (Some 202) FUnit; Variant "Texture11" [] (Some 103) FUnit; Variant "Texture16" [] (Some 307) FUnit; Variant
  "CustomVector47" [] (Some 342) FUnit; Variant "Texture10" [] (Some 102) FUnit; Variant "CustomVector34" []
  (Some 329) FUnit; Variant "CustomFloat11" [] (Some 203) FUnit; Variant "CustomFloat12" [] (Some 204) FUnit;
  Variant "CustomVector35" [] (Some 330) FUnit; Variant "CustomFloat6" [] (Some 198) FUnit; Variant
  "CustomFloat18" [] (Some 210) FUnit; Variant "CustomVector37" [] (Some 332) FUnit; Variant "CustomVector38"
  [] (Some 333) FUnit; Variant "CustomVector39" [] (Some 334) FUnit; Variant "CustomVector19" [] (Some 171)
  FUnit; Variant "CustomVector23" [] (Some 318) FUnit; Variant "Texture13" [] (Some 105) FUnit; Variant
  "CustomVector21" [] (Some 316) FUnit; Variant "CustomBoolean0" [] (Some 232) FUnit; Variant "CustomVector20"
  [] (Some 315) FUnit; Variant "CustomBoolean10" [] (Some 242) FUnit; Variant "CustomVector40" [] (Some 335)
  FUnit; Variant "Texture12" [] (Some 104) FUnit; Variant "CustomVector22" [] (Some 317) FUnit; Variant
  "Texture8" [] (Some 100) FUnit; Variant "CustomVector46" [] (Some 341) FUnit; Variant "CustomFloat17" []
  (Some 209) FUnit; Variant "CustomVector24" [] (Some 319) FUnit; Variant "CustomBoolean8" [] (Some 240)
  FUnit; Variant "CustomVector33" [] (Some 328) FUnit; Variant "CustomVector4" [] (Some 156) FUnit; Variant
  "CustomFloat0" [] (Some 192) FUnit; Variant "CustomVector1" [] (Some 153) FUnit; Variant "CustomVector2" []
  (Some 154) FUnit; Variant "CustomVector5" [] (Some 157) FUnit; Variant "CustomVector15" [] (Some 167) FUnit;
  Variant "CustomVector16" [] (Some 168) FUnit; Variant "CustomVector43" [] (Some 338) FUnit; Variant
  "CustomVector44" [] (Some 339) FUnit; Variant "CustomVector45" [] (Some 340) FUnit; Variant "CustomVector9"
  [] (Some 161) FUnit; Variant "CustomVector10" [] (Some 162) FUnit; Variant "Diffuse" [] (Some 0) FUnit;
  Variant "Specular" [] (Some 1) FUnit; Variant "Ambient" [] (Some 2) FUnit; Variant "BlendMap" [] (Some 3)
  FUnit; Variant "Transparency" [] (Some 4) FUnit; Variant "DiffuseMapLayer1" [] (Some 5) FUnit; Variant
  "CosinePower" [] (Some 6) FUnit; Variant "SpecularPower" [] (Some 7) FUnit; Variant "Fresnel" [] (Some 8)
  FUnit; Variant "Roughness" [] (Some 9) FUnit; Variant "EmissiveScale" [] (Some 10) FUnit; Variant
  "EnableDiffuse" [] (Some 11) FUnit; Variant "EnableSpecular" [] (Some 12) FUnit; Variant "EnableAmbient" []
  (Some 13) FUnit; Variant "DiffuseMapLayer2" [] (Some 14) FUnit; Variant "EnableTransparency" [] (Some 15)
  FUnit; Variant "EnableOpacity" [] (Some 16) FUnit; Variant "EnableCosinePower" [] (Some 17) FUnit; Variant
  "EnableSpecularPower" [] (Some 18) FUnit; Variant "EnableFresnel" [] (Some 19) FUnit; Variant
  "EnableRoughness" [] (Some 20) FUnit; Variant "EnableEmissiveScale" [] (Some 21) FUnit; Variant
  "WorldMatrix" [] (Some 22) FUnit; Variant "ViewMatrix" [] (Some 23) FUnit; Variant "ProjectionMatrix" []
  (Some 24) FUnit; Variant "WorldViewMatrix" [] (Some 25) FUnit; Variant "ViewInverseMatrix" [] (Some 26)
  FUnit; Variant "ViewProjectionMatrix" [] (Some 27) FUnit; Variant "WorldViewProjectionMatrix" [] (Some 28)
  FUnit; Variant "WorldInverseTransposeMatrix" [] (Some 29) FUnit; Variant "DiffuseMap" [] (Some 30) FUnit;
  Variant "SpecularMap" [] (Some 31) FUnit; Variant "AmbientMap" [] (Some 32) FUnit; Variant "EmissiveMap" []
  (Some 33) FUnit; Variant "SpecularMapLayer1" [] (Some 34) FUnit; Variant "TransparencyMap" [] (Some 35)
  FUnit; Variant "NormalMap" [] (Some 36) FUnit; Variant "DiffuseCubeMap" [] (Some 37) FUnit; Variant
  "ReflectionMap" [] (Some 38) FUnit; Variant "ReflectionCubeMap" [] (Some 39) FUnit; Variant "RefractionMap"
  [] (Some 40) FUnit; Variant "AmbientOcclusionMap" [] (Some 41) FUnit; Variant "LightMap" [] (Some 42) FUnit;
  Variant "AnisotropicMap" [] (Some 43) FUnit; Variant "RoughnessMap" [] (Some 44) FUnit; Variant
  "ReflectionMask" [] (Some 45) FUnit; Variant "OpacityMask" [] (Some 46) FUnit; Variant "UseDiffuseMap" []
  (Some 47) FUnit; Variant "UseSpecularMap" [] (Some 48) FUnit; Variant "UseAmbientMap" [] (Some 49) FUnit;
  Variant "UseEmissiveMap" [] (Some 50) FUnit; Variant "UseTranslucencyMap" [] (Some 51) FUnit; Variant
  "UseTransparencyMap" [] (Some 52) FUnit; Variant "UseNormalMap" [] (Some 53) FUnit; Variant
  "UseDiffuseCubeMap" [] (Some 54) FUnit; Variant "UseReflectionMap" [] (Some 55) FUnit; Variant
  "UseReflectionCubeMap" [] (Some 56) FUnit; Variant "UseRefractionMap" [] (Some 57) FUnit; Variant
  "UseAmbientOcclusionMap" [] (Some 58) FUnit; Variant "UseLightMap" [] (Some 59) FUnit; Variant
  "UseAnisotropicMap" [] (Some 60) FUnit; Variant "UseRoughnessMap" [] (Some 61) FUnit; Variant
  "UseReflectionMask" [] (Some 62) FUnit; Variant "UseOpacityMask" [] (Some 63) FUnit; Variant
  "DiffuseSampler" [] (Some 64) FUnit; Variant "SpecularSampler" [] (Some 65) FUnit; Variant "NormalSampler"
  [] (Some 66) FUnit; Variant "ReflectionSampler" [] (Some 67) FUnit; Variant "SpecularMapLayer2" [] (Some 68)
  FUnit; Variant "NormalMapLayer1" [] (Some 69) FUnit; Variant "NormalMapBc5" [] (Some 70) FUnit; Variant
  "NormalMapLayer2" [] (Some 71) FUnit; Variant "RoughnessMapLayer1" [] (Some 72) FUnit; Variant
  "RoughnessMapLayer2" [] (Some 73) FUnit; Variant "UseDiffuseUvTransform1" [] (Some 74) FUnit; Variant
  "UseDiffuseUvTransform2" [] (Some 75) FUnit; Variant "UseSpecularUvTransform1" [] (Some 76) FUnit; Variant
  "UseSpecularUvTransform2" [] (Some 77) FUnit; Variant "UseNormalUvTransform1" [] (Some 78) FUnit; Variant
  "UseNormalUvTransform2" [] (Some 79) FUnit; Variant "ShadowDepthBias" [] (Some 80) FUnit; Variant
  "ShadowMap0" [] (Some 81) FUnit; Variant "ShadowMap1" [] (Some 82) FUnit; Variant "ShadowMap2" [] (Some 83)
  FUnit; Variant "ShadowMap3" [] (Some 84) FUnit; Variant "ShadowMap4" [] (Some 85) FUnit; Variant
  "ShadowMap5" [] (Some 86) FUnit; Variant "ShadowMap6" [] (Some 87) FUnit; Variant "ShadowMap7" [] (Some 88)
  FUnit; Variant "CastShadow" [] (Some 89) FUnit; Variant "ReceiveShadow" [] (Some 90) FUnit; Variant
  "ShadowMapSampler" [] (Some 91) FUnit; Variant "Texture15" [] (Some 107) FUnit; Variant "Sampler0" [] (Some
  108) FUnit; Variant "Sampler1" [] (Some 109) FUnit; Variant "Sampler2" [] (Some 110) FUnit; Variant
  "Sampler3" [] (Some 111) FUnit; Variant "Sampler4" [] (Some 112) FUnit; Variant "Sampler5" [] (Some 113)
  FUnit; Variant "Sampler6" [] (Some 114) FUnit; Variant "Sampler7" [] (Some 115) FUnit; Variant "Sampler8" []
  (Some 116) FUnit; Variant "Sampler9" [] (Some 117) FUnit; Variant "Sampler10" [] (Some 118) FUnit; Variant
  "Sampler11" [] (Some 119) FUnit; Variant "Sampler12" [] (Some 120) FUnit; Variant "Sampler13" [] (Some 121)
  FUnit; Variant "Sampler14" [] (Some 122) FUnit; Variant "Sampler15" [] (Some 123) FUnit; Variant
  "CustomBuffer0" [] (Some 124) FUnit; Variant "CustomBuffer1" [] (Some 125) FUnit; Variant "CustomBuffer2" []
  (Some 126) FUnit; Variant "CustomBuffer3" [] (Some 127) FUnit; Variant "CustomBuffer4" [] (Some 128) FUnit;
  Variant "CustomBuffer5" [] (Some 129) FUnit; Variant "CustomBuffer6" [] (Some 130) FUnit; Variant
  "CustomBuffer7" [] (Some 131) FUnit; Variant "CustomMatrix0" [] (Some 132) FUnit; Variant "CustomMatrix1" []
  (Some 133) FUnit; Variant "CustomMatrix2" [] (Some 134) FUnit; Variant "CustomMatrix3" [] (Some 135) FUnit;
  Variant "CustomMatrix4" [] (Some 136) FUnit; Variant "CustomMatrix5" [] (Some 137) FUnit; Variant
  "CustomMatrix6" [] (Some 138) FUnit; Variant "CustomMatrix7" [] (Some 139) FUnit; Variant "CustomMatrix8" []
  (Some 140) FUnit; Variant "CustomMatrix9" [] (Some 141) FUnit; Variant "CustomMatrix10" [] (Some 142) FUnit;
  Variant "CustomMatrix11" [] (Some 143) FUnit; Variant "CustomMatrix12" [] (Some 144) FUnit; Variant
  "CustomMatrix13" [] (Some 145) FUnit; Variant "CustomMatrix14" [] (Some 146) FUnit; Variant "CustomMatrix15"
  [] (Some 147) FUnit; Variant "CustomMatrix16" [] (Some 148) FUnit; Variant "CustomMatrix17" [] (Some 149)
  FUnit; Variant "CustomMatrix18" [] (Some 150) FUnit; Variant "CustomMatrix19" [] (Some 151) FUnit; Variant
  "CustomVector12" [] (Some 164) FUnit; Variant "CustomVector17" [] (Some 169) FUnit; Variant "CustomColor0"
  [] (Some 172) FUnit; Variant "CustomColor1" [] (Some 173) FUnit; Variant "CustomColor2" [] (Some 174) FUnit;
  Variant "CustomColor3" [] (Some 175) FUnit; Variant "CustomColor4" [] (Some 176) FUnit; Variant
  "CustomColor5" [] (Some 177) FUnit; Variant "CustomColor6" [] (Some 178) FUnit; Variant "CustomColor7" []
  (Some 179) FUnit; Variant "CustomColor8" [] (Some 180) FUnit; Variant "CustomColor9" [] (Some 181) FUnit;
  Variant "CustomColor10" [] (Some 182) FUnit; Variant "CustomColor11" [] (Some 183) FUnit; Variant
  "CustomColor12" [] (Some 184) FUnit; Variant "CustomColor13" [] (Some 185) FUnit; Variant "CustomColor14" []
  (Some 186) FUnit; Variant "CustomColor15" [] (Some 187) FUnit; Variant "CustomColor16" [] (Some 188) FUnit;
  Variant "CustomColor17" [] (Some 189) FUnit; Variant "CustomColor18" [] (Some 190) FUnit; Variant
  "CustomColor19" [] (Some 191) FUnit; Variant "CustomFloat2" [] (Some 194) FUnit; Variant "CustomFloat3" []
  (Some 195) FUnit; Variant "CustomFloat5" [] (Some 197) FUnit; Variant "CustomFloat7" [] (Some 199) FUnit;
  Variant "CustomFloat9" [] (Some 201) FUnit; Variant "CustomFloat13" [] (Some 205) FUnit; Variant
  "CustomFloat14" [] (Some 206) FUnit; Variant "CustomFloat15" [] (Some 207) FUnit; Variant "CustomFloat16" []
  (Some 208) FUnit; Variant "CustomInteger0" [] (Some 212) FUnit; Variant "CustomInteger1" [] (Some 213)
  FUnit; Variant "CustomInteger2" [] (Some 214) FUnit; Variant "CustomInteger3" [] (Some 215) FUnit; Variant
  "CustomInteger4" [] (Some 216) FUnit; Variant "CustomInteger5" [] (Some 217) FUnit; Variant "CustomInteger6"
  [] (Some 218) FUnit; Variant "CustomInteger7" [] (Some 219) FUnit; Variant "CustomInteger8" [] (Some 220)
  FUnit; Variant "CustomInteger9" [] (Some 221) FUnit; Variant "CustomInteger10" [] (Some 222) FUnit; Variant
  "CustomInteger11" [] (Some 223) FUnit; Variant "CustomInteger12" [] (Some 224) FUnit; Variant
  "CustomInteger13" [] (Some 225) FUnit; Variant "CustomInteger14" [] (Some 226) FUnit; Variant
  "CustomInteger15" [] (Some 227) FUnit; Variant "CustomInteger16" [] (Some 228) FUnit; Variant
  "CustomInteger17" [] (Some 229) FUnit; Variant "CustomInteger18" [] (Some 230) FUnit; Variant
  "CustomInteger19" [] (Some 231) FUnit; Variant "CustomBoolean13" [] (Some 245) FUnit; Variant
  "CustomBoolean14" [] (Some 246) FUnit; Variant "CustomBoolean15" [] (Some 247) FUnit; Variant
  "CustomBoolean16" [] (Some 248) FUnit; Variant "CustomBoolean17" [] (Some 249) FUnit; Variant
  "CustomBoolean18" [] (Some 250) FUnit; Variant "CustomBoolean19" [] (Some 251) FUnit; Variant "UvTransform0"
  [] (Some 252) FUnit; Variant "UvTransform1" [] (Some 253) FUnit; Variant "UvTransform2" [] (Some 254) FUnit;
  Variant "UvTransform3" [] (Some 255) FUnit; Variant "UvTransform4" [] (Some 256) FUnit; Variant
  "UvTransform5" [] (Some 257) FUnit; Variant "UvTransform6" [] (Some 258) FUnit; Variant "UvTransform7" []
  (Some 259) FUnit; Variant "UvTransform8" [] (Some 260) FUnit; Variant "UvTransform9" [] (Some 261) FUnit;
  Variant "UvTransform10" [] (Some 262) FUnit; Variant "UvTransform11" [] (Some 263) FUnit; Variant
  "UvTransform12" [] (Some 264) FUnit; Variant "UvTransform13" [] (Some 265) FUnit; Variant "UvTransform14" []
  (Some 266) FUnit; Variant "UvTransform15" [] (Some 267) FUnit; Variant "DiffuseUvTransform1" [] (Some 268)
  FUnit; Variant "DiffuseUvTransform2" [] (Some 269) FUnit; Variant "SpecularUvTransform1" [] (Some 270)
  FUnit; Variant "SpecularUvTransform2" [] (Some 271) FUnit; Variant "NormalUvTransform1" [] (Some 272) FUnit;
  Variant "NormalUvTransform2" [] (Some 273) FUnit; Variant "DiffuseUvTransform" [] (Some 274) FUnit; Variant
  "SpecularUvTransform" [] (Some 275) FUnit; Variant "NormalUvTransform" [] (Some 276) FUnit; Variant
  "UseDiffuseUvTransform" [] (Some 277) FUnit; Variant "UseSpecularUvTransform" [] (Some 278) FUnit; Variant
  "UseNormalUvTransform" [] (Some 279) FUnit; Variant "BlendState1" [] (Some 281) FUnit; Variant "BlendState2"
  [] (Some 282) FUnit; Variant "BlendState3" [] (Some 283) FUnit; Variant "BlendState4" [] (Some 284) FUnit;
  Variant "BlendState5" [] (Some 285) FUnit; Variant "BlendState6" [] (Some 286) FUnit; Variant "BlendState7"
  [] (Some 287) FUnit; Variant "BlendState8" [] (Some 288) FUnit; Variant "BlendState9" [] (Some 289) FUnit;
  Variant "BlendState10" [] (Some 290) FUnit; Variant "RasterizerState1" [] (Some 292) FUnit; Variant
  "RasterizerState2" [] (Some 293) FUnit; Variant "RasterizerState3" [] (Some 294) FUnit; Variant
  "RasterizerState4" [] (Some 295) FUnit; Variant "RasterizerState5" [] (Some 296) FUnit; Variant
  "RasterizerState6" [] (Some 297) FUnit; Variant "RasterizerState7" [] (Some 298) FUnit; Variant
  "RasterizerState8" [] (Some 299) FUnit; Variant "RasterizerState9" [] (Some 300) FUnit; Variant
  "RasterizerState10" [] (Some 301) FUnit; Variant "ShadowColor" [] (Some 302) FUnit; Variant
  "EmissiveMapLayer1" [] (Some 303) FUnit; Variant "EmissiveMapLayer2" [] (Some 304) FUnit; Variant
  "AlphaTestFunc" [] (Some 305) FUnit; Variant "AlphaTestRef" [] (Some 306) FUnit; Variant "Texture17" []
  (Some 308) FUnit; Variant "Texture18" [] (Some 309) FUnit; Variant "Texture19" [] (Some 310) FUnit; Variant
  "Sampler16" [] (Some 311) FUnit; Variant "Sampler17" [] (Some 312) FUnit; Variant "Sampler18" [] (Some 313)
  FUnit; Variant "Sampler19" [] (Some 314) FUnit; Variant "CustomVector25" [] (Some 320) FUnit; Variant
  "CustomVector26" [] (Some 321) FUnit; Variant "CustomVector28" [] (Some 323) FUnit; Variant "CustomVector36"
  [] (Some 331) FUnit; Variant "CustomVector41" [] (Some 336) FUnit; Variant "CustomVector48" [] (Some 343)
  FUnit; Variant "CustomVector49" [] (Some 344) FUnit; Variant "CustomVector50" [] (Some 345) FUnit; Variant
  "CustomVector51" [] (Some 346) FUnit; Variant "CustomVector52" [] (Some 347) FUnit; Variant "CustomVector53"
  [] (Some 348) FUnit; Variant "CustomVector54" [] (Some 349) FUnit; Variant "CustomVector55" [] (Some 350)
  FUnit; Variant "CustomVector56" [] (Some 351) FUnit; Variant "CustomVector57" [] (Some 352) FUnit; Variant
  "CustomVector58" [] (Some 353) FUnit; Variant "CustomVector59" [] (Some 354) FUnit; Variant "CustomVector60"
  [] (Some 355) FUnit; Variant "CustomVector61" [] (Some 356) FUnit; Variant "CustomVector62" [] (Some 357)
  FUnit; Variant "CustomVector63" [] (Some 358) FUnit; Variant "UseBaseColorMap" [] (Some 359) FUnit; Variant
  "UseMetallicMap" [] (Some 360) FUnit; Variant "BaseColorMap" [] (Some 361) FUnit; Variant
  "BaseColorMapLayer1" [] (Some 362) FUnit; Variant "MetallicMap" [] (Some 363) FUnit; Variant
  "MetallicMapLayer1" [] (Some 364) FUnit; Variant "DiffuseLightingAoOffset" [] (Some 365) FUnit])).
(** ssbh_lib/src/formats/matl.rs:525-528 *)
Definition i_matl_FillMode : decl := DeclItem (Item "matl::FillMode" [] [Attr "br" (Some [MRepr "u32"]); Attr
  "ssbhwrite" (Some [MRepr "u32"])] (DEnum [Variant "Line" [] (Some 0) FUnit; Variant "Solid" [] (Some 1)
  FUnit])).
(** ssbh_lib/src/formats/matl.rs:537-541 *)
Definition i_matl_CullMode : decl := DeclItem (Item "matl::CullMode" [] [Attr "br" (Some [MRepr "u32"]); Attr
  "ssbhwrite" (Some [MRepr "u32"])] (DEnum [Variant "Back" [] (Some 0) FUnit; Variant "Front" [] (Some 1)
  FUnit; Variant "Disabled" [] (Some 2) FUnit])).
(** ssbh_lib/src/formats/matl.rs:546-548 *)
Definition i_matl_RasterizerStateV15 : decl := DeclItem (Item "matl::RasterizerStateV15" [] [] (DStruct
  (FNamed [Fld "cull_mode" [] (RPath "matl::CullMode" [])]))).
(** ssbh_lib/src/formats/matl.rs:554-561 *)
Definition i_matl_RasterizerStateV16 : decl := DeclItem (Item "matl::RasterizerStateV16" [] [Attr "ssbhwrite"
  (Some [MNameValue ["pad_after"] (LInt 4)])] (DStruct (FNamed [Fld "fill_mode" [] (RPath "matl::FillMode"
  []); Fld "cull_mode" [] (RPath "matl::CullMode" []); Fld "depth_bias" [] (RPath "f32" []); Fld "unk4" []
  (RPath "f32" []); Fld "unk5" [] (RPath "f32" []); Fld "unk6" [] (RPath "u32" [])]))).
(** ssbh_lib/src/formats/matl.rs:571-576 *)
Definition i_matl_WrapMode : decl := DeclItem (Item "matl::WrapMode" [] [Attr "br" (Some [MRepr "u32"]); Attr
  "ssbhwrite" (Some [MRepr "u32"])] (DEnum [Variant "Repeat" [] (Some 0) FUnit; Variant "ClampToEdge" [] (Some
  1) FUnit; Variant "MirroredRepeat" [] (Some 2) FUnit; Variant "ClampToBorder" [] (Some 3) FUnit])).
(** ssbh_lib/src/formats/matl.rs:584-588 *)
Definition i_matl_MinFilter : decl := DeclItem (Item "matl::MinFilter" [] [Attr "br" (Some [MRepr "u32"]);
  Attr "ssbhwrite" (Some [MRepr "u32"])] (DEnum [Variant "Nearest" [] (Some 0) FUnit; Variant
  "LinearMipmapLinear" [] (Some 1) FUnit; Variant "LinearMipmapLinear2" [] (Some 2) FUnit])).
(** ssbh_lib/src/formats/matl.rs:596-600 *)
Definition i_matl_MagFilter : decl := DeclItem (Item "matl::MagFilter" [] [Attr "br" (Some [MRepr "u32"]);
  Attr "ssbhwrite" (Some [MRepr "u32"])] (DEnum [Variant "Nearest" [] (Some 0) FUnit; Variant "Linear" []
  (Some 1) FUnit; Variant "Linear2" [] (Some 2) FUnit])).
(** ssbh_lib/src/formats/matl.rs:608-612 *)
Definition i_matl_FilteringType : decl := DeclItem (Item "matl::FilteringType" [] [Attr "br" (Some [MRepr
  "u32"]); Attr "ssbhwrite" (Some [MRepr "u32"])] (DEnum [Variant "Default" [] (Some 0) FUnit; Variant
  "Default2" [] (Some 1) FUnit; Variant "AnisotropicFiltering" [] (Some 2) FUnit])).
(** ssbh_lib/src/formats/matl.rs:617-629 *)
Definition i_matl_Sampler : decl := DeclItem (Item "matl::Sampler" [] [] (DStruct (FNamed [Fld "wraps" []
  (RPath "matl::WrapMode" []); Fld "wrapt" [] (RPath "matl::WrapMode" []); Fld "wrapr" [] (RPath
  "matl::WrapMode" []); Fld "min_filter" [] (RPath "matl::MinFilter" []); Fld "mag_filter" [] (RPath
  "matl::MagFilter" []); Fld "texture_filtering_type" [] (RPath "matl::FilteringType" []); Fld "border_color"
  [] (RPath "vectors::Color4f" []); Fld "unk11" [] (RPath "u32" []); Fld "unk12" [] (RPath "u32" []); Fld
  "lod_bias" [] (RPath "f32" []); Fld "max_anisotropy" [] (RPath "matl::MaxAnisotropy" [])]))).
(** ssbh_lib/src/formats/matl.rs:640-646 *)
Definition i_matl_MaxAnisotropy : decl := DeclItem (Item "matl::MaxAnisotropy" [] [Attr "br" (Some [MRepr
  "u32"]); Attr "ssbhwrite" (Some [MRepr "u32"])] (DEnum [Variant "One" [] (Some 1) FUnit; Variant "Two" []
  (Some 2) FUnit; Variant "Four" [] (Some 4) FUnit; Variant "Eight" [] (Some 8) FUnit; Variant "Sixteen" []
  (Some 16) FUnit])).
(** ssbh_lib/src/formats/matl.rs:651-657 *)
Definition i_matl_UvTransform : decl := DeclItem (Item "matl::UvTransform" [] [] (DStruct (FNamed [Fld
  "scale_u" [] (RPath "f32" []); Fld "scale_v" [] (RPath "f32" []); Fld "rotation" [] (RPath "f32" []); Fld
  "translate_u" [] (RPath "f32" []); Fld "translate_v" [] (RPath "f32" [])]))).
(** ssbh_lib/src/formats/matl.rs:666-679 *)
Definition i_matl_BlendFactor : decl := DeclItem (Item "matl::BlendFactor" [] [Attr "br" (Some [MRepr "u32"]);
  Attr "ssbhwrite" (Some [MRepr "u32"])] (DEnum [Variant "Zero" [] (Some 0) FUnit; Variant "One" [] (Some 1)
  FUnit; Variant "SourceAlpha" [] (Some 2) FUnit; Variant "DestinationAlpha" [] (Some 3) FUnit; Variant
  "SourceColor" [] (Some 4) FUnit; Variant "DestinationColor" [] (Some 5) FUnit; Variant "OneMinusSourceAlpha"
  [] (Some 6) FUnit; Variant "OneMinusDestinationAlpha" [] (Some 7) FUnit; Variant "OneMinusSourceColor" []
  (Some 8) FUnit; Variant "OneMinusDestinationColor" [] (Some 9) FUnit; Variant "SourceAlphaSaturate" [] (Some
  10) FUnit])).
(** ssbh_lib/src/formats/matl.rs:688-694 *)
Definition i_matl_BlendOperation : decl := DeclItem (Item "matl::BlendOperation" [] [Attr "br" (Some [MRepr
  "u32"]); Attr "ssbhwrite" (Some [MRepr "u32"])] (DEnum [Variant "Add" [] (Some 0) FUnit; Variant "Subtract"
  [] (Some 1) FUnit; Variant "ReverseSubtract" [] (Some 2) FUnit; Variant "Minimum" [] (Some 3) FUnit; Variant
  "Maximum" [] (Some 4) FUnit])).
(** ssbh_lib/src/formats/matl.rs:700-711 *)
Definition i_matl_BlendStateV15 : decl := DeclItem (Item "matl::BlendStateV15" [] [] (DStruct (FNamed [Fld
  "source_color" [] (RPath "matl::BlendFactor" []); Fld "color_operation" [] (RPath "matl::BlendOperation"
  []); Fld "destination_color" [] (RPath "matl::BlendFactor" []); Fld "source_alpha" [] (RPath
  "matl::BlendFactor" []); Fld "alpha_operation" [] (RPath "matl::BlendOperation" []); Fld "destination_alpha"
  [] (RPath "matl::BlendFactor" []); Fld "unk6" [] (RPath "u64" []); Fld "unk7" [] (RPath "u32" []); Fld
  "unk8" [] (RPath "u32" []); Fld "unk9" [] (RPath "u32" [])]))).
(** ssbh_lib/src/formats/matl.rs:718-730 *)
Definition i_matl_BlendStateV16 : decl := DeclItem (Item "matl::BlendStateV16" [] [Attr "ssbhwrite" (Some
  [MNameValue ["pad_after"] (LInt 8)])] (DStruct (FNamed [Fld "source_color" [] (RPath "matl::BlendFactor"
  []); Fld "color_operation" [] (RPath "matl::BlendOperation" []); Fld "destination_color" [] (RPath
  "matl::BlendFactor" []); Fld "source_alpha" [] (RPath "matl::BlendFactor" []); Fld "alpha_operation" []
  (RPath "matl::BlendOperation" []); Fld "destination_alpha" [] (RPath "matl::BlendFactor" []); Fld
  "alpha_sample_to_coverage" [] (RPath "u32" []); Fld "unk8" [] (RPath "u32" []); Fld "unk9" [] (RPath "u32"
  []); Fld "unk10" [] (RPath "u32" [])]))).
(** ssbh_lib/src/formats/nrpd.rs:21-44 *)
Definition i_nrpd_Nrpd : decl := DeclItem (Item "nrpd::Nrpd" [] [Attr "br" (Some [MOther])] (DEnum [Variant
  "V16" [Attr "br" (Some [MVersion 1 6])] None (FNamed [Fld "frame_buffers" [] (RPath "SsbhArray" [(RPath
  "SsbhEnum64" [(RPath "nrpd::FrameBuffer" [])])]); Fld "state_containers" [] (RPath "SsbhArray" [(RPath
  "SsbhEnum64" [(RPath "nrpd::State" [])])]); Fld "render_passes" [] (RPath "SsbhArray" [(RPath
  "nrpd::RenderPassContainer" [])]); Fld "unk_string_list1" [] (RPath "SsbhArray" [(RPath "nrpd::StringPair"
  [])]); Fld "unk_string_list2" [] (RPath "SsbhArray" [(RPath "SsbhEnum64" [(RPath "nrpd::UnkItem2" [])])]);
  Fld "unk_list" [] (RPath "SsbhArray" [(RPath "nrpd::UnkItem1" [])]); Fld "unk_width1" [] (RPath "u32" []);
  Fld "unk_height1" [] (RPath "u32" []); Fld "unk3" [] (RPath "u32" []); Fld "unk4" [] (RPath "u32" []); Fld
  "unk5" [] (RPath "u32" []); Fld "unk6" [] (RPath "u32" []); Fld "unk7" [] (RPath "u32" []); Fld "unk8" []
  (RPath "u32" []); Fld "unk9" [] (RPath "strings::SsbhString" []); Fld "unk_width2" [] (RPath "u32" []); Fld
  "unk_height2" [] (RPath "u32" []); Fld "unk10" [] (RPath "u64" [])])])).
(** ssbh_lib/src/formats/nrpd.rs:57-64 *)
Definition i_nrpd_FrameBuffer : decl := DeclCase "nrpd::FrameBuffer" [(0, ("Framebuffer0", (RPath
  "nrpd::Framebuffer0" []))); (1, ("Framebuffer1", (RPath "nrpd::Framebuffer1" []))); (2, ("UniformBuffer",
  (RPath "nrpd::UniformBuffer" []))); (3, ("Framebuffer3", (RPath "nrpd::Framebuffer3" []))); (4,
  ("Framebuffer4", (RPath "nrpd::Framebuffer4" [])))].
(** ssbh_lib/src/formats/nrpd.rs:74-87 *)
Definition i_nrpd_UnkFormat : decl := DeclItem (Item "nrpd::UnkFormat" [] [Attr "br" (Some [MRepr "u64"]);
  Attr "ssbhwrite" (Some [MRepr "u64"])] (DEnum [Variant "UnkFormat0" [] (Some 256) FUnit; Variant
  "UnkFormat1" [] (Some 308) FUnit; Variant "UnkFormat2" [] (Some 324) FUnit; Variant "UnkFormat3" [] (Some
  528) FUnit; Variant "UnkFormat4" [] (Some 532) FUnit; Variant "UnkFormat5" [] (Some 582) FUnit; Variant
  "UnkFormat6" [] (Some 801) FUnit; Variant "UnkFormat7" [] (Some 836) FUnit; Variant "UnkFormat8" [] (Some
  1024) FUnit; Variant "UnkFormat9" [] (Some 1025) FUnit; Variant "UnkFormat10" [] (Some 1029) FUnit; Variant
  "UnkFormat11" [] (Some 1088) FUnit])).
(** ssbh_lib/src/formats/nrpd.rs:92-99 *)
Definition i_nrpd_Framebuffer0 : decl := DeclItem (Item "nrpd::Framebuffer0" [] [] (DStruct (FNamed [Fld
  "name" [] (RPath "strings::SsbhString" []); Fld "width" [] (RPath "u32" []); Fld "height" [] (RPath "u32"
  []); Fld "unk1" [] (RPath "nrpd::UnkFormat" []); Fld "unk2" [] (RPath "u32" []); Fld "unk3" [] (RPath "u32"
  [])]))).
(** ssbh_lib/src/formats/nrpd.rs:104-111 *)
Definition i_nrpd_Framebuffer1 : decl := DeclItem (Item "nrpd::Framebuffer1" [] [] (DStruct (FNamed [Fld
  "name" [] (RPath "strings::SsbhString" []); Fld "width" [] (RPath "u32" []); Fld "height" [] (RPath "u32"
  []); Fld "unk1" [] (RPath "u64" []); Fld "unk2" [] (RPath "u32" []); Fld "unk3" [] (RPath "u32" [])]))).
(** ssbh_lib/src/formats/nrpd.rs:116-121 *)
Definition i_nrpd_UniformBuffer : decl := DeclItem (Item "nrpd::UniformBuffer" [] [] (DStruct (FNamed [Fld
  "name" [] (RPath "strings::SsbhString" []); Fld "unk1" [] (RPath "u32" []); Fld "unk2" [] (RPath "u32" []);
  Fld "unk3" [] (RPath "u64" [])]))).
(** ssbh_lib/src/formats/nrpd.rs:126-134 *)
Definition i_nrpd_Framebuffer3 : decl := DeclItem (Item "nrpd::Framebuffer3" [] [] (DStruct (FNamed [Fld
  "name" [] (RPath "strings::SsbhString" []); Fld "width" [] (RPath "u32" []); Fld "height" [] (RPath "u32"
  []); Fld "unk1" [] (RPath "u32" []); Fld "unk2" [] (RPath "u32" []); Fld "unk3" [] (RPath "u32" []); Fld
  "unk4" [] (RPath "u32" [])]))).
(** ssbh_lib/src/formats/nrpd.rs:139-144 *)
Definition i_nrpd_Framebuffer4 : decl := DeclItem (Item "nrpd::Framebuffer4" [] [] (DStruct (FNamed [Fld
  "name" [] (RPath "strings::SsbhString" []); Fld "width" [] (RPath "u32" []); Fld "height" [] (RPath "u32"
  []); Fld "unk3" [] (RPath "u64" [])]))).
(** ssbh_lib/src/formats/nrpd.rs:149-153 *)
Definition i_nrpd_NrpdSampler : decl := DeclItem (Item "nrpd::NrpdSampler" [] [] (DStruct (FNamed [Fld "name"
  [] (RPath "strings::SsbhString" []); Fld "data" [] (RPath "matl::Sampler" []); Fld "unk13" [] (RPath "u64"
  [])]))).
(** ssbh_lib/src/formats/nrpd.rs:158-167 *)
Definition i_nrpd_NrpdRasterizerState : decl := DeclItem (Item "nrpd::NrpdRasterizerState" [] [] (DStruct
  (FNamed [Fld "name" [] (RPath "strings::SsbhString" []); Fld "fill_mode" [] (RPath "matl::FillMode" []); Fld
  "cull_mode" [] (RPath "matl::CullMode" []); Fld "depth_bias" [] (RPath "f32" []); Fld "unk4" [] (RPath "f32"
  []); Fld "unk5" [] (RPath "f32" []); Fld "unk6" [] (RPath "u32" [])]))).
(** ssbh_lib/src/formats/nrpd.rs:172-186 *)
Definition i_nrpd_NrpdBlendState : decl := DeclItem (Item "nrpd::NrpdBlendState" [] [] (DStruct (FNamed [Fld
  "name" [] (RPath "strings::SsbhString" []); Fld "source_color" [] (RPath "matl::BlendFactor" []); Fld "unk2"
  [] (RPath "u32" []); Fld "destination_color" [] (RPath "matl::BlendFactor" []); Fld "unk4" [] (RPath "u32"
  []); Fld "unk5" [] (RPath "u32" []); Fld "unk6" [] (RPath "u32" []); Fld "alpha_sample_to_coverage" []
  (RPath "u32" []); Fld "unk8" [] (RPath "u32" []); Fld "unk9" [] (RPath "u32" []); Fld "unk10" [] (RPath
  "u32" [])]))).
(** ssbh_lib/src/formats/nrpd.rs:192-204 *)
Definition i_nrpd_DepthState : decl := DeclItem (Item "nrpd::DepthState" [] [] (DStruct (FNamed [Fld "name" []
  (RPath "strings::SsbhString" []); Fld "unk2" [] (RPath "u32" []); Fld "unk3" [] (RPath "u32" []); Fld "unk4"
  [] (RPath "u32" []); Fld "unk5" [] (RPath "u32" []); Fld "unk6" [] (RPath "u32" []); Fld "unk7" [] (RPath
  "u32" []); Fld "unk8" [] (RPath "u64" []); Fld "unk9" [] (RPath "u64" []); Fld "unk10" [] (RPath "u64" []);
  Fld "unk11" [] (RPath "u64" [])]))).
(** ssbh_lib/src/formats/nrpd.rs:206-212 *)
Definition i_nrpd_State : decl := DeclCase "nrpd::State" [(0, ("Sampler", (RPath "nrpd::NrpdSampler" [])));
  (1, ("RasterizerState", (RPath "nrpd::NrpdRasterizerState" []))); (2, ("DepthState", (RPath
  "nrpd::DepthState" []))); (3, ("BlendState", (RPath "nrpd::NrpdBlendState" [])))].
(** ssbh_lib/src/formats/nrpd.rs:215-232 *)
Definition i_nrpd_RenderPassData : decl := DeclCase "nrpd::RenderPassData" [(0, ("FramebufferRtp", (RPath
  "nrpd::RenderPassData0" []))); (1, ("PassUnk1", (RPath "nrpd::RenderPassData1" []))); (2, ("UnkTexture1",
  (RPath "nrpd::RenderPassData2" []))); (3, ("UnkLight", (RPath "nrpd::RenderPassData3" []))); (8, ("Unk8",
  (RPath "nrpd::RenderPassData8" []))); (9, ("ColorClear", (RPath "nrpd::ColorClear" []))); (10,
  ("DepthStencilClear", (RPath "nrpd::DepthStencilClear" []))); (12, ("Viewport", (RPath "nrpd::Viewport"
  []))); (13, ("Sampler", (RPath "nrpd::RenderPassData13" []))); (14, ("BlendState", (RPath "nrpd::StringPair"
  []))); (15, ("RasterizerState", (RPath "nrpd::StringPair" []))); (16, ("DepthStencilState", (RPath
  "nrpd::StringPair" []))); (17, ("FramebufferRenderTarget", (RPath "strings::SsbhString" []))); (18,
  ("FramebufferDepthStencil", (RPath "strings::SsbhString" []))); (19, ("UnkTexture2", (RPath
  "nrpd::RenderPassData19" [])))].
(** ssbh_lib/src/formats/nrpd.rs:237-241 *)
Definition i_nrpd_RenderPassData0 : decl := DeclItem (Item "nrpd::RenderPassData0" [] [] (DStruct (FNamed [Fld
  "unk1" [] (RPath "strings::SsbhString" []); Fld "unk2" [] (RPath "strings::SsbhString" []); Fld "unk3" []
  (RPath "u64" [])]))).
(** ssbh_lib/src/formats/nrpd.rs:246-249 *)
Definition i_nrpd_RenderPassData1 : decl := DeclItem (Item "nrpd::RenderPassData1" [] [] (DStruct (FNamed [Fld
  "unk1" [] (RPath "strings::SsbhString" []); Fld "unk2" [] (RPath "strings::SsbhString" [])]))).
(** ssbh_lib/src/formats/nrpd.rs:254-262 *)
Definition i_nrpd_RenderPassData2 : decl := DeclItem (Item "nrpd::RenderPassData2" [] [] (DStruct (FNamed [Fld
  "unk1" [] (RPath "strings::SsbhString" []); Fld "unk2" [] (RPath "strings::SsbhString" []); Fld "unk3" []
  (RPath "RelPtr64" [(RPath "u64" [])]); Fld "unk4" [] (RPath "u64" []); Fld "unk5" [] (RPath "RelPtr64"
  [(RPath "u64" [])]); Fld "unk6" [] (RPath "u64" [])]))).
(** ssbh_lib/src/formats/nrpd.rs:267-274 *)
Definition i_nrpd_RenderPassData3 : decl := DeclItem (Item "nrpd::RenderPassData3" [] [] (DStruct (FNamed [Fld
  "unk1" [] (RPath "strings::SsbhString" []); Fld "unk2" [] (RPath "strings::SsbhString" []); Fld "unk3" []
  (RPath "RelPtr64" [(RPath "nrpd::Unk8Data" [])]); Fld "unk4" [] (RPath "u64" []); Fld "unk5" [] (RPath
  "RelPtr64" [(RPath "nrpd::Unk8Data" [])]); Fld "unk6" [] (RPath "u64" [])]))).
(** ssbh_lib/src/formats/nrpd.rs:279-286 *)
Definition i_nrpd_RenderPassData8 : decl := DeclItem (Item "nrpd::RenderPassData8" [] [] (DStruct (FNamed [Fld
  "unk1" [] (RPath "strings::SsbhString" []); Fld "unk2" [] (RPath "strings::SsbhString" []); Fld "unk3" []
  (RPath "RelPtr64" [(RPath "u64" [])]); Fld "unk4" [] (RPath "u64" []); Fld "unk5" [] (RPath "RelPtr64"
  [(RPath "u64" [])]); Fld "unk6" [] (RPath "u64" [])]))).
(** ssbh_lib/src/formats/nrpd.rs:291-294 *)
Definition i_nrpd_RenderPassData19 : decl := DeclItem (Item "nrpd::RenderPassData19" [] [] (DStruct (FNamed
  [Fld "unk1" [] (RPath "strings::SsbhString" []); Fld "unk2" [] (RPath "u64" [])]))).
(** ssbh_lib/src/formats/nrpd.rs:299-302 *)
Definition i_nrpd_Unk8Data : decl := DeclItem (Item "nrpd::Unk8Data" [] [] (DStruct (FNamed [Fld "unk1" []
  (RPath "u32" []); Fld "unk2" [] (RPath "u32" [])]))).
(** ssbh_lib/src/formats/nrpd.rs:307-311 *)
Definition i_nrpd_ColorClear : decl := DeclItem (Item "nrpd::ColorClear" [] [] (DStruct (FNamed [Fld "name" []
  (RPath "strings::SsbhString" []); Fld "color" [] (RPath "vectors::Color4f" []); Fld "unk1" [] (RPath "u64"
  [])]))).
(** ssbh_lib/src/formats/nrpd.rs:316-320 *)
Definition i_nrpd_DepthStencilClear : decl := DeclItem (Item "nrpd::DepthStencilClear" [] [] (DStruct (FNamed
  [Fld "name" [] (RPath "strings::SsbhString" []); Fld "depth" [] (RPath "f32" []); Fld "stencil" [] (RPath
  "u32" [])]))).
(** ssbh_lib/src/formats/nrpd.rs:325-333 *)
Definition i_nrpd_Viewport : decl := DeclItem (Item "nrpd::Viewport" [] [] (DStruct (FNamed [Fld "name" []
  (RPath "strings::SsbhString" []); Fld "unk2" [] (RPath "u64" []); Fld "width" [] (RPath "f32" []); Fld
  "height" [] (RPath "f32" []); Fld "unk_min" [] (RPath "f32" []); Fld "unk_max" [] (RPath "f32" []); Fld
  "unk4" [] (RPath "u64" [])]))).
(** ssbh_lib/src/formats/nrpd.rs:338-346 *)
Definition i_nrpd_RenderPassData13 : decl := DeclItem (Item "nrpd::RenderPassData13" [] [] (DStruct (FNamed
  [Fld "unk1" [] (RPath "strings::SsbhString" []); Fld "unk2" [] (RPath "strings::SsbhString" []); Fld "unk3"
  [] (RPath "RelPtr64" [(RPath "u64" [])]); Fld "unk4" [] (RPath "u64" []); Fld "unk5" [] (RPath "RelPtr64"
  [(RPath "u64" [])]); Fld "unk6" [] (RPath "u64" [])]))).
(** ssbh_lib/src/formats/nrpd.rs:352-358 *)
Definition i_nrpd_RenderPassContainer : decl := DeclItem (Item "nrpd::RenderPassContainer" [] [Attr
  "ssbhwrite" (Some [MNameValue ["pad_after"] (LInt 8)])] (DStruct (FNamed [Fld "name" [] (RPath
  "strings::SsbhString" []); Fld "unk1" [] (RPath "SsbhArray" [(RPath "SsbhEnum64" [(RPath
  "nrpd::RenderPassData" [])])]); Fld "unk2" [] (RPath "SsbhArray" [(RPath "SsbhEnum64" [(RPath
  "nrpd::RenderPassData" [])])]); Fld "unk3" [Attr "br" (Some [MNameValue ["pad_after"] (LInt 8)])] (RPath
  "SsbhEnum64" [(RPath "nrpd::RenderPassUnkData" [])])]))).
(** ssbh_lib/src/formats/nrpd.rs:361-365 *)
Definition i_nrpd_RenderPassUnkData : decl := DeclCase "nrpd::RenderPassUnkData" [(0, ("UnkDataUnk0", RUnit));
  (3, ("UnkDataUnk3", (RPath "nrpd::Unk3Data" [])))].
(** ssbh_lib/src/formats/nrpd.rs:370-377 *)
Definition i_nrpd_Unk3Data : decl := DeclItem (Item "nrpd::Unk3Data" [] [] (DStruct (FNamed [Fld "unk1" []
  (RPath "strings::SsbhString" []); Fld "unk2" [] (RPath "strings::SsbhString" []); Fld "unk3" [] (RPath "f32"
  []); Fld "unk4" [] (RPath "f32" []); Fld "unk5" [] (RPath "f32" []); Fld "unk6" [] (RPath "f32" [])]))).
(** ssbh_lib/src/formats/nrpd.rs:382-385 *)
Definition i_nrpd_StringPair : decl := DeclItem (Item "nrpd::StringPair" [] [] (DStruct (FNamed [Fld "item1"
  [] (RPath "strings::SsbhString" []); Fld "item2" [] (RPath "strings::SsbhString" [])]))).
(** ssbh_lib/src/formats/nrpd.rs:390-393 *)
Definition i_nrpd_UnkItem1 : decl := DeclItem (Item "nrpd::UnkItem1" [] [] (DStruct (FNamed [Fld "unk1" []
  (RPath "strings::SsbhString" []); Fld "unk2" [] (RPath "SsbhArray" [(RPath "nrpd::UnkItem3" [])])]))).
(** ssbh_lib/src/formats/nrpd.rs:398-401 *)
Definition i_nrpd_UnkItem20 : decl := DeclItem (Item "nrpd::UnkItem20" [] [] (DStruct (FNamed [Fld "unk1" []
  (RPath "strings::SsbhString" []); Fld "unk2" [] (RPath "strings::SsbhString" [])]))).
(** ssbh_lib/src/formats/nrpd.rs:406-410 *)
Definition i_nrpd_UnkItem21 : decl := DeclItem (Item "nrpd::UnkItem21" [] [] (DStruct (FNamed [Fld "unk1" []
  (RPath "strings::SsbhString" []); Fld "unk2" [] (RPath "strings::SsbhString" []); Fld "unk3" [] (RFix (RPath
  "u32" []) 2)]))).
(** ssbh_lib/src/formats/nrpd.rs:415-423 *)
Definition i_nrpd_UnkItem22 : decl := DeclItem (Item "nrpd::UnkItem22" [] [] (DStruct (FNamed [Fld "unk1" []
  (RPath "strings::SsbhString" []); Fld "unk2" [] (RPath "strings::SsbhString" []); Fld "unk3" [] (RPath "u32"
  []); Fld "unk4" [] (RPath "u32" []); Fld "unk5" [] (RPath "u32" []); Fld "unk6" [] (RPath "nrpd::UnkFormat"
  []); Fld "unk8" [] (RPath "u32" [])]))).
(** ssbh_lib/src/formats/nrpd.rs:428-432 *)
Definition i_nrpd_UnkItem24 : decl := DeclItem (Item "nrpd::UnkItem24" [] [] (DStruct (FNamed [Fld "unk1" []
  (RPath "strings::SsbhString" []); Fld "unk2" [] (RPath "strings::SsbhString" []); Fld "unk3" [] (RFix (RPath
  "u32" []) 6)]))).
(** ssbh_lib/src/formats/nrpd.rs:434-440 *)
Definition i_nrpd_UnkItem2 : decl := DeclCase "nrpd::UnkItem2" [(0, ("UnkItem20", (RPath "nrpd::UnkItem20"
  []))); (1, ("UnkItem21", (RPath "nrpd::UnkItem21" []))); (2, ("UnkItem22", (RPath "nrpd::UnkItem22" [])));
  (4, ("UnkItem24", (RPath "nrpd::UnkItem24" [])))].
(** ssbh_lib/src/formats/nrpd.rs:445-448 *)
Definition i_nrpd_UnkItem3 : decl := DeclItem (Item "nrpd::UnkItem3" [] [] (DStruct (FNamed [Fld "name" []
  (RPath "strings::SsbhString" []); Fld "value" [] (RPath "strings::SsbhString" [])]))).
(** ssbh_lib/src/formats/meshex.rs:48-54 *)
Definition i_meshex_MeshEntry : decl := DeclItem (Item "meshex::MeshEntry" [] [Attr "ssbhwrite" (Some
  [MNameValue ["alignment"] (LInt 16)])] (DStruct (FNamed [Fld "mesh_object_group_index" [] (RPath "u32" []);
  Fld "unk1" [] (RPath "vectors::Vector3" [])]))).
(** ssbh_lib/src/formats/meshex.rs:60-63 *)
Definition i_meshex_AllData : decl := DeclItem (Item "meshex::AllData" [] [Attr "ssbhwrite" (Some [MNameValue
  ["alignment"] (LInt 16)])] (DStruct (FNamed [Fld "bounding_sphere" [] (RPath "mesh::BoundingSphere" []); Fld
  "name" [] (RPath "lib::Ptr64" [(RPath "CString" [(RConst 16)])])]))).
(** ssbh_lib/src/formats/meshex.rs:69-76 *)
Definition i_meshex_MeshObjectGroup : decl := DeclItem (Item "meshex::MeshObjectGroup" [] [Attr "ssbhwrite"
  (Some [MNameValue ["alignment"] (LInt 16)])] (DStruct (FNamed [Fld "bounding_sphere" [] (RPath
  "mesh::BoundingSphere" []); Fld "mesh_object_full_name" [] (RPath "lib::Ptr64" [(RPath "CString" [(RConst
  4)])]); Fld "mesh_object_name" [] (RPath "lib::Ptr64" [(RPath "CString" [(RConst 4)])])]))).
(** ssbh_lib/src/formats/meshex.rs:98-98 *)
Definition i_meshex_EntryFlag : decl := DeclBits "meshex::EntryFlag" 2.
(** ssbh_lib/src/formats/meshex.rs:105-105 *)
Definition i_meshex_EntryFlags : decl := DeclItem (Item "meshex::EntryFlags" [] [Attr "ssbhwrite" (Some
  [MNameValue ["alignment"] (LInt 16)]); Attr "br" (Some [MOther])] (DStruct (FUnnamed [Fld "0" [Attr "br"
  (Some [MOther])] (RPath "Vec" [(RPath "meshex::EntryFlag" [])])]))).
(** ssbh_lib/src/formats/adj.rs:49-57 *)
Definition i_adj_AdjEntry : decl := DeclItem (Item "adj::AdjEntry" [] [] (DStruct (FNamed [Fld
  "mesh_object_index" [] (RPath "u32" []); Fld "index_buffer_offset" [] (RPath "u32" [])]))).
(** ssbh_data/src/anim_data.rs:672-678 *)
Definition i_anim_data_UvTransform : decl := DeclItem (Item "anim_data::UvTransform" [] [] (DStruct (FNamed
  [Fld "scale_u" [] (RPath "f32" []); Fld "scale_v" [] (RPath "f32" []); Fld "rotation" [] (RPath "f32" []);
  Fld "translate_u" [] (RPath "f32" []); Fld "translate_v" [] (RPath "f32" [])]))).
(** ssbh_data/src/anim_data/compression.rs:23-23 *)
Definition i_compression_CompressedBits : decl := DeclAlias "compression::CompressedBits" [] (RPath "u32" []).
(** ssbh_data/src/anim_data/compression.rs:29-32 *)
Definition i_compression_CompressedTrackData : decl := DeclItem (Item "compression::CompressedTrackData" ["T";
  "T::Compression"] [] (DStruct (FNamed [Fld "header" [] (RPath "compression::CompressedHeader" [(RPath "T"
  [])]); Fld "compression" [] (RPath "T::Compression" [])]))).
(** ssbh_data/src/anim_data/compression.rs:36-43 *)
Definition i_compression_CompressedHeader : decl := DeclItem (Item "compression::CompressedHeader" ["T"] []
  (DStruct (FNamed [Fld "unk_4" [] (RPath "u16" []); Fld "flags" [] (RPath "compression::CompressionFlags"
  []); Fld "default_data" [] (RPath "lib::Ptr16" [(RPath "T" [])]); Fld "bits_per_entry" [] (RPath "u16" []);
  Fld "compressed_data" [] (RPath "lib::Ptr32" [(RPath "compression::CompressedBuffer" [])]); Fld
  "frame_count" [] (RPath "u32" [])]))).
(** ssbh_data/src/anim_data/compression.rs:54-54 *)
Definition i_compression_CompressedBuffer : decl := DeclItem (Item "compression::CompressedBuffer" [] [Attr
  "ssbhwrite" (Some [MNameValue ["alignment"] (LInt 1)])] (DStruct (FUnnamed [Fld "0" [Attr "br" (Some
  [MOther])] (RPath "Vec" [(RPath "u8" [])])]))).
(** ssbh_data/src/anim_data/compression.rs:74-74 *)
Definition i_compression_CompressionFlags : decl := DeclBits "compression::CompressionFlags" 2.
(** ssbh_data/src/anim_data/compression.rs:165-172 *)
Definition i_compression_U32Compression : decl := DeclItem (Item "compression::U32Compression" [] [] (DStruct
  (FNamed [Fld "min" [] (RPath "u32" []); Fld "max" [] (RPath "u32" []); Fld "bit_count" [Attr "br" (Some
  [MOther])] (RPath "u64" [])]))).
(** ssbh_data/src/anim_data/compression.rs:188-195 *)
Definition i_compression_F32Compression : decl := DeclItem (Item "compression::F32Compression" [] [] (DStruct
  (FNamed [Fld "min" [] (RPath "f32" []); Fld "max" [] (RPath "f32" []); Fld "bit_count" [Attr "br" (Some
  [MOther])] (RPath "u64" [])]))).
(** ssbh_data/src/anim_data/compression.rs:221-225 *)
Definition i_compression_Vector3Compression : decl := DeclItem (Item "compression::Vector3Compression" [] []
  (DStruct (FNamed [Fld "x" [] (RPath "compression::F32Compression" []); Fld "y" [] (RPath
  "compression::F32Compression" []); Fld "z" [] (RPath "compression::F32Compression" [])]))).
(** ssbh_data/src/anim_data/compression.rs:244-249 *)
Definition i_compression_Vector4Compression : decl := DeclItem (Item "compression::Vector4Compression" [] []
  (DStruct (FNamed [Fld "x" [] (RPath "compression::F32Compression" []); Fld "y" [] (RPath
  "compression::F32Compression" []); Fld "z" [] (RPath "compression::F32Compression" []); Fld "w" [] (RPath
  "compression::F32Compression" [])]))).
(** ssbh_data/src/anim_data/compression.rs:272-278 *)
Definition i_compression_TransformCompression : decl := DeclItem (Item "compression::TransformCompression" []
  [] (DStruct (FNamed [Fld "scale" [] (RPath "compression::Vector3Compression" []); Fld "rotation" [] (RPath
  "compression::Vector3Compression" []); Fld "translation" [] (RPath "compression::Vector3Compression"
  [])]))).
(** ssbh_data/src/anim_data/compression.rs:283-289 *)
Definition i_compression_UncompressedTransform : decl := DeclItem (Item "compression::UncompressedTransform"
  [] [] (DStruct (FNamed [Fld "scale" [] (RPath "vectors::Vector3" []); Fld "rotation" [] (RPath
  "vectors::Vector4" []); Fld "translation" [] (RPath "vectors::Vector3" []); Fld "compensate_scale" [] (RPath
  "u32" [])]))).
(** ssbh_data/src/anim_data/compression.rs:338-344 *)
Definition i_compression_UvTransformCompression : decl := DeclItem (Item "compression::UvTransformCompression"
  [] [] (DStruct (FNamed [Fld "scale_u" [] (RPath "compression::F32Compression" []); Fld "scale_v" [] (RPath
  "compression::F32Compression" []); Fld "rotation" [] (RPath "compression::F32Compression" []); Fld
  "translate_u" [] (RPath "compression::F32Compression" []); Fld "translate_v" [] (RPath
  "compression::F32Compression" [])]))).
(** ssbh_data/src/anim_data/compression.rs:850-850 *)
Definition i_compression_Boolean : decl := DeclItem (Item "compression::Boolean" [] [] (DStruct (FUnnamed [Fld
  "0" [] (RPath "u8" [])]))).

Definition items : list decl :=
  [i_lib_Ptr16; i_lib_Ptr32; i_lib_Ptr64; i_strings_SsbhStringN; i_strings_SsbhString;
   i_strings_SsbhString8; i_strings_CString1; i_vectors_Vector3; i_vectors_Matrix3x3; i_vectors_Vector4;
   i_vectors_Color4f; i_vectors_Matrix4x4; i_modl_Modl; i_modl_ModlEntry; i_nlst_Nlst; i_hlpb_Hlpb;
   i_hlpb_AimConstraint; i_hlpb_OrientConstraint; i_hlpb_ConstraintType; i_skel_Skel; i_skel_SkelBoneEntry;
   i_skel_SkelEntryFlags; i_skel_BillboardType; i_shdr_Shdr; i_shdr_Shader; i_shdr_ShaderStage; i_nufx_Nufx;
   i_nufx_NufxV0; i_nufx_NufxV1; i_nufx_VertexAttribute; i_nufx_MaterialParameter; i_nufx_ShaderStages;
   i_nufx_ShaderProgramV0; i_nufx_ShaderProgramV1; i_nufx_UnkItem; i_mesh_Mesh; i_mesh_MeshInner;
   i_mesh_AttributeV8; i_mesh_AttributeV9; i_mesh_AttributeV10; i_mesh_BoundingInfo; i_mesh_BoundingSphere;
   i_mesh_BoundingVolume; i_mesh_OrientedBoundingBox; i_mesh_RiggingFlags; i_mesh_BoneBuffer;
   i_mesh_RiggingGroup; i_mesh_Attributes; i_mesh_VertexWeightV8; i_mesh_MeshObject; i_mesh_DepthFlags;
   i_mesh_DrawElementType; i_mesh_AttributeDataTypeV10; i_mesh_AttributeDataTypeV8; i_mesh_AttributeUsageV9;
   i_mesh_AttributeUsageV8; i_anim_Anim; i_anim_Group; i_anim_Node; i_anim_TrackV2; i_anim_TrackV1;
   i_anim_Property; i_anim_UnkData; i_anim_UnkItem1; i_anim_UnkItem2; i_anim_UnkSubItem; i_anim_TrackFlags;
   i_anim_TransformFlags; i_anim_TrackTypeV1; i_anim_TrackTypeV2; i_anim_CompressionType; i_anim_GroupType;
   i_matl_Matl; i_matl_MatlEntryV15; i_matl_AttributeV15; i_matl_MatlEntryV16; i_matl_AttributeV16;
   i_matl_ParamV15; i_matl_ParamV16; i_matl_ParamId; i_matl_FillMode; i_matl_CullMode;
   i_matl_RasterizerStateV15; i_matl_RasterizerStateV16; i_matl_WrapMode; i_matl_MinFilter;
   i_matl_MagFilter; i_matl_FilteringType; i_matl_Sampler; i_matl_MaxAnisotropy; i_matl_UvTransform;
   i_matl_BlendFactor; i_matl_BlendOperation; i_matl_BlendStateV15; i_matl_BlendStateV16; i_nrpd_Nrpd;
   i_nrpd_FrameBuffer; i_nrpd_UnkFormat; i_nrpd_Framebuffer0; i_nrpd_Framebuffer1; i_nrpd_UniformBuffer;
   i_nrpd_Framebuffer3; i_nrpd_Framebuffer4; i_nrpd_NrpdSampler; i_nrpd_NrpdRasterizerState;
   i_nrpd_NrpdBlendState; i_nrpd_DepthState; i_nrpd_State; i_nrpd_RenderPassData; i_nrpd_RenderPassData0;
   i_nrpd_RenderPassData1; i_nrpd_RenderPassData2; i_nrpd_RenderPassData3; i_nrpd_RenderPassData8;
   i_nrpd_RenderPassData19; i_nrpd_Unk8Data; i_nrpd_ColorClear; i_nrpd_DepthStencilClear; i_nrpd_Viewport;
   i_nrpd_RenderPassData13; i_nrpd_RenderPassContainer; i_nrpd_RenderPassUnkData; i_nrpd_Unk3Data;
   i_nrpd_StringPair; i_nrpd_UnkItem1; i_nrpd_UnkItem20; i_nrpd_UnkItem21; i_nrpd_UnkItem22;
   i_nrpd_UnkItem24; i_nrpd_UnkItem2; i_nrpd_UnkItem3; i_meshex_MeshEntry; i_meshex_AllData;
   i_meshex_MeshObjectGroup; i_meshex_EntryFlag; i_meshex_EntryFlags; i_adj_AdjEntry;
   i_anim_data_UvTransform; i_compression_CompressedBits; i_compression_CompressedTrackData;
   i_compression_CompressedHeader; i_compression_CompressedBuffer; i_compression_CompressionFlags;
   i_compression_U32Compression; i_compression_F32Compression; i_compression_Vector3Compression;
   i_compression_Vector4Compression; i_compression_TransformCompression;
   i_compression_UncompressedTransform; i_compression_UvTransformCompression; i_compression_Boolean].
