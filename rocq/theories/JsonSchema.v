(** The schemas of the types in ssbh_lib/src/formats and ssbh_lib/src/vectors.rs: the names of
    fields, variants and versions.  Paths below are relative to /repo/ssbh_lib/src.
    Transcribed by tools/schema.py; the layout of the same types is in Formats.v and is
    checked against these schemas (JsonFacts.v). *)
From Verif Require Import Bytes Ssbh Formats Json.
Open Scope string_scope.
Open Scope Z_scope.

(** strings.rs:9-19: SsbhStringN<N>(RelPtr64<CString<N>>) *)
Definition s_string : schema := SWrap (SRel SCStr).

(** vectors.rs:11-15 *)
Definition s_vectors_Vector3 : schema := SStruct [("x", SF32); ("y", SF32); ("z", SF32)].
(** vectors.rs:216-221 *)
Definition s_vectors_Vector4 : schema := SStruct [("x", SF32); ("y", SF32); ("z", SF32); ("w", SF32)].
(** formats/hlpb.rs:54-77 *)
Definition s_hlpb_AimConstraint : schema := SStruct [("name", s_string); ("aim_bone_name1", s_string);
  ("aim_bone_name2", s_string); ("aim_type1", s_string); ("aim_type2", s_string); ("target_bone_name1",
  s_string); ("target_bone_name2", s_string); ("unk1", (SInt 4 false)); ("unk2", (SInt 4 false)); ("aim",
  s_vectors_Vector3); ("up", s_vectors_Vector3); ("quat1", s_vectors_Vector4); ("quat2", s_vectors_Vector4);
  ("unk17", SF32); ("unk18", SF32); ("unk19", SF32); ("unk20", SF32); ("unk21", SF32); ("unk22", SF32)].
(** formats/hlpb.rs:85-112 *)
Definition s_hlpb_OrientConstraint : schema := SStruct [("name", s_string); ("parent_bone_name1", s_string);
  ("parent_bone_name2", s_string); ("source_bone_name", s_string); ("target_bone_name", s_string);
  ("unk_type", (SInt 4 false)); ("constraint_axes", s_vectors_Vector3); ("quat1", s_vectors_Vector4);
  ("quat2", s_vectors_Vector4); ("range_min", s_vectors_Vector3); ("range_max", s_vectors_Vector3)].
(** formats/hlpb.rs:120-125 *)
Definition s_hlpb_ConstraintType : schema := SName [(0, "Aim"); (1, "Orient")].
(** formats/hlpb.rs:19-36 *)
Definition s_hlpb_Hlpb : list ((Z * Z) * (string * schema)) :=
  [((1, 1), ("V11", SStruct [("aim_constraints", (SArr s_hlpb_AimConstraint)); ("orient_constraints", (SArr
  s_hlpb_OrientConstraint)); ("constraint_indices", (SArr (SInt 4 false))); ("constraint_types", (SArr
  s_hlpb_ConstraintType))]))].
(** formats/matl.rs:147-516 *)
Definition s_matl_ParamId : schema := SName [(280, "BlendState0"); (291, "RasterizerState0"); (160,
  "CustomVector8"); (96, "Texture4"); (152, "CustomVector0"); (233, "CustomBoolean1"); (165,
  "CustomVector13"); (235, "CustomBoolean3"); (236, "CustomBoolean4"); (99, "Texture7"); (166,
  "CustomVector14"); (200, "CustomFloat8"); (92, "Texture0"); (98, "Texture6"); (155, "CustomVector3"); (97,
  "Texture5"); (325, "CustomVector30"); (234, "CustomBoolean2"); (326, "CustomVector31"); (243,
  "CustomBoolean11"); (106, "Texture14"); (322, "CustomVector27"); (101, "Texture9"); (324, "CustomVector29");
  (158, "CustomVector6"); (163, "CustomVector11"); (237, "CustomBoolean5"); (244, "CustomBoolean12"); (238,
  "CustomBoolean6"); (94, "Texture2"); (93, "Texture1"); (159, "CustomVector7"); (193, "CustomFloat1"); (95,
  "Texture3"); (211, "CustomFloat19"); (170, "CustomVector18"); (241, "CustomBoolean9"); (337,
  "CustomVector42"); (327, "CustomVector32"); (239, "CustomBoolean7"); (196, "CustomFloat4"); (202,
  "CustomFloat10"); (103, "Texture11"); (307, "Texture16"); (342, "CustomVector47"); (102, "Texture10"); (329,
  "CustomVector34"); (203, "CustomFloat11"); (204, "CustomFloat12"); (330, "CustomVector35"); (198,
  "CustomFloat6"); (210, "CustomFloat18"); (332, "CustomVector37"); (333, "CustomVector38"); (334,
  "CustomVector39"); (171, "CustomVector19"); (318, "CustomVector23"); (105, "Texture13"); (316,
  "CustomVector21"); (232, "CustomBoolean0"); (315, "CustomVector20"); (242, "CustomBoolean10"); (335,
  "CustomVector40"); (104, "Texture12"); (317, "CustomVector22"); (100, "Texture8"); (341, "CustomVector46");
  (209, "CustomFloat17"); (319, "CustomVector24"); (240, "CustomBoolean8"); (328, "CustomVector33"); (156,
  "CustomVector4"); (192, "CustomFloat0"); (153, "CustomVector1"); (154, "CustomVector2"); (157,
  "CustomVector5"); (167, "CustomVector15"); (168, "CustomVector16"); (338, "CustomVector43"); (339,
  "CustomVector44"); (340, "CustomVector45"); (161, "CustomVector9"); (162, "CustomVector10"); (0, "Diffuse");
  (1, "Specular"); (2, "Ambient"); (3, "BlendMap"); (4, "Transparency"); (5, "DiffuseMapLayer1"); (6,
  "CosinePower"); (7, "SpecularPower"); (8, "Fresnel"); (9, "Roughness"); (10, "EmissiveScale"); (11,
  "EnableDiffuse"); (12, "EnableSpecular"); (13, "EnableAmbient"); (14, "DiffuseMapLayer2"); (15,
  "EnableTransparency"); (16, "EnableOpacity"); (17, "EnableCosinePower"); (18, "EnableSpecularPower"); (19,
  "EnableFresnel"); (20, "EnableRoughness"); (21, "EnableEmissiveScale"); (22, "WorldMatrix"); (23,
  "ViewMatrix"); (24, "ProjectionMatrix"); (25, "WorldViewMatrix"); (26, "ViewInverseMatrix"); (27,
  "ViewProjectionMatrix"); (28, "WorldViewProjectionMatrix"); (29, "WorldInverseTransposeMatrix"); (30,
  "DiffuseMap"); (31, "SpecularMap"); (32, "AmbientMap"); (33, "EmissiveMap"); (34, "SpecularMapLayer1"); (35,
  "TransparencyMap"); (36, "NormalMap"); (37, "DiffuseCubeMap"); (38, "ReflectionMap"); (39,
  "ReflectionCubeMap"); (40, "RefractionMap"); (41, "AmbientOcclusionMap"); (42, "LightMap"); (43,
  "AnisotropicMap"); (44, "RoughnessMap"); (45, "ReflectionMask"); (46, "OpacityMask"); (47, "UseDiffuseMap");
  (48, "UseSpecularMap"); (49, "UseAmbientMap"); (50, "UseEmissiveMap"); (51, "UseTranslucencyMap"); (52,
  "UseTransparencyMap"); (53, "UseNormalMap"); (54, "UseDiffuseCubeMap"); (55, "UseReflectionMap"); (56,
  "UseReflectionCubeMap"); (57, "UseRefractionMap"); (58, "UseAmbientOcclusionMap"); (59, "UseLightMap"); (60,
  "UseAnisotropicMap"); (61, "UseRoughnessMap"); (62, "UseReflectionMask"); (63, "UseOpacityMask"); (64,
  "DiffuseSampler"); (65, "SpecularSampler"); (66, "NormalSampler"); (67, "ReflectionSampler"); (68,
  "SpecularMapLayer2"); (69, "NormalMapLayer1"); (70, "NormalMapBc5"); (71, "NormalMapLayer2"); (72,
  "RoughnessMapLayer1"); (73, "RoughnessMapLayer2"); (74, "UseDiffuseUvTransform1"); (75,
  "UseDiffuseUvTransform2"); (76, "UseSpecularUvTransform1"); (77, "UseSpecularUvTransform2"); (78,
  "UseNormalUvTransform1"); (79, "UseNormalUvTransform2"); (80, "ShadowDepthBias"); (81, "ShadowMap0"); (82,
  "ShadowMap1"); (83, "ShadowMap2"); (84, "ShadowMap3"); (85, "ShadowMap4"); (86, "ShadowMap5"); (87,
  "ShadowMap6"); (88, "ShadowMap7"); (89, "CastShadow"); (90, "ReceiveShadow"); (91, "ShadowMapSampler");
  (107, "Texture15"); (108, "Sampler0"); (109, "Sampler1"); (110, "Sampler2"); (111, "Sampler3"); (112,
  "Sampler4"); (113, "Sampler5"); (114, "Sampler6"); (115, "Sampler7"); (116, "Sampler8"); (117, "Sampler9");
  (118, "Sampler10"); (119, "Sampler11"); (120, "Sampler12"); (121, "Sampler13"); (122, "Sampler14"); (123,
  "Sampler15"); (124, "CustomBuffer0"); (125, "CustomBuffer1"); (126, "CustomBuffer2"); (127,
  "CustomBuffer3"); (128, "CustomBuffer4"); (129, "CustomBuffer5"); (130, "CustomBuffer6"); (131,
  "CustomBuffer7"); (132, "CustomMatrix0"); (133, "CustomMatrix1"); (134, "CustomMatrix2"); (135,
  "CustomMatrix3"); (136, "CustomMatrix4"); (137, "CustomMatrix5"); (138, "CustomMatrix6"); (139,
  "CustomMatrix7"); (140, "CustomMatrix8"); (141, "CustomMatrix9"); (142, "CustomMatrix10"); (143,
  "CustomMatrix11"); (144, "CustomMatrix12"); (145, "CustomMatrix13"); (146, "CustomMatrix14"); (147,
  "CustomMatrix15"); (148, "CustomMatrix16"); (149, "CustomMatrix17"); (150, "CustomMatrix18"); (151,
  "CustomMatrix19"); (164, "CustomVector12"); (169, "CustomVector17"); (172, "CustomColor0"); (173,
  "CustomColor1"); (174, "CustomColor2"); (175, "CustomColor3"); (176, "CustomColor4"); (177, "CustomColor5");
  (178, "CustomColor6"); (179, "CustomColor7"); (180, "CustomColor8"); (181, "CustomColor9"); (182,
  "CustomColor10"); (183, "CustomColor11"); (184, "CustomColor12"); (185, "CustomColor13"); (186,
  "CustomColor14"); (187, "CustomColor15"); (188, "CustomColor16"); (189, "CustomColor17"); (190,
  "CustomColor18"); (191, "CustomColor19"); (194, "CustomFloat2"); (195, "CustomFloat3"); (197,
  "CustomFloat5"); (199, "CustomFloat7"); (201, "CustomFloat9"); (205, "CustomFloat13"); (206,
  "CustomFloat14"); (207, "CustomFloat15"); (208, "CustomFloat16"); (212, "CustomInteger0"); (213,
  "CustomInteger1"); (214, "CustomInteger2"); (215, "CustomInteger3"); (216, "CustomInteger4"); (217,
  "CustomInteger5"); (218, "CustomInteger6"); (219, "CustomInteger7"); (220, "CustomInteger8"); (221,
  "CustomInteger9"); (222, "CustomInteger10"); (223, "CustomInteger11"); (224, "CustomInteger12"); (225,
  "CustomInteger13"); (226, "CustomInteger14"); (227, "CustomInteger15"); (228, "CustomInteger16"); (229,
  "CustomInteger17"); (230, "CustomInteger18"); (231, "CustomInteger19"); (245, "CustomBoolean13"); (246,
  "CustomBoolean14"); (247, "CustomBoolean15"); (248, "CustomBoolean16"); (249, "CustomBoolean17"); (250,
  "CustomBoolean18"); (251, "CustomBoolean19"); (252, "UvTransform0"); (253, "UvTransform1"); (254,
  "UvTransform2"); (255, "UvTransform3"); (256, "UvTransform4"); (257, "UvTransform5"); (258, "UvTransform6");
  (259, "UvTransform7"); (260, "UvTransform8"); (261, "UvTransform9"); (262, "UvTransform10"); (263,
  "UvTransform11"); (264, "UvTransform12"); (265, "UvTransform13"); (266, "UvTransform14"); (267,
  "UvTransform15"); (268, "DiffuseUvTransform1"); (269, "DiffuseUvTransform2"); (270, "SpecularUvTransform1");
  (271, "SpecularUvTransform2"); (272, "NormalUvTransform1"); (273, "NormalUvTransform2"); (274,
  "DiffuseUvTransform"); (275, "SpecularUvTransform"); (276, "NormalUvTransform"); (277,
  "UseDiffuseUvTransform"); (278, "UseSpecularUvTransform"); (279, "UseNormalUvTransform"); (281,
  "BlendState1"); (282, "BlendState2"); (283, "BlendState3"); (284, "BlendState4"); (285, "BlendState5");
  (286, "BlendState6"); (287, "BlendState7"); (288, "BlendState8"); (289, "BlendState9"); (290,
  "BlendState10"); (292, "RasterizerState1"); (293, "RasterizerState2"); (294, "RasterizerState3"); (295,
  "RasterizerState4"); (296, "RasterizerState5"); (297, "RasterizerState6"); (298, "RasterizerState7"); (299,
  "RasterizerState8"); (300, "RasterizerState9"); (301, "RasterizerState10"); (302, "ShadowColor"); (303,
  "EmissiveMapLayer1"); (304, "EmissiveMapLayer2"); (305, "AlphaTestFunc"); (306, "AlphaTestRef"); (308,
  "Texture17"); (309, "Texture18"); (310, "Texture19"); (311, "Sampler16"); (312, "Sampler17"); (313,
  "Sampler18"); (314, "Sampler19"); (320, "CustomVector25"); (321, "CustomVector26"); (323, "CustomVector28");
  (331, "CustomVector36"); (336, "CustomVector41"); (343, "CustomVector48"); (344, "CustomVector49"); (345,
  "CustomVector50"); (346, "CustomVector51"); (347, "CustomVector52"); (348, "CustomVector53"); (349,
  "CustomVector54"); (350, "CustomVector55"); (351, "CustomVector56"); (352, "CustomVector57"); (353,
  "CustomVector58"); (354, "CustomVector59"); (355, "CustomVector60"); (356, "CustomVector61"); (357,
  "CustomVector62"); (358, "CustomVector63"); (359, "UseBaseColorMap"); (360, "UseMetallicMap"); (361,
  "BaseColorMap"); (362, "BaseColorMapLayer1"); (363, "MetallicMap"); (364, "MetallicMapLayer1"); (365,
  "DiffuseLightingAoOffset")].
(** vectors.rs:332-337 *)
Definition s_vectors_Color4f : schema := SStruct [("r", SF32); ("g", SF32); ("b", SF32); ("a", SF32)].
(** formats/matl.rs:571-576 *)
Definition s_matl_WrapMode : schema := SName [(0, "Repeat"); (1, "ClampToEdge"); (2, "MirroredRepeat"); (3,
  "ClampToBorder")].
(** formats/matl.rs:584-588 *)
Definition s_matl_MinFilter : schema := SName [(0, "Nearest"); (1, "LinearMipmapLinear"); (2,
  "LinearMipmapLinear2")].
(** formats/matl.rs:596-600 *)
Definition s_matl_MagFilter : schema := SName [(0, "Nearest"); (1, "Linear"); (2, "Linear2")].
(** formats/matl.rs:608-612 *)
Definition s_matl_FilteringType : schema := SName [(0, "Default"); (1, "Default2"); (2,
  "AnisotropicFiltering")].
(** formats/matl.rs:640-646 *)
Definition s_matl_MaxAnisotropy : schema := SName [(1, "One"); (2, "Two"); (4, "Four"); (8, "Eight"); (16,
  "Sixteen")].
(** formats/matl.rs:617-629 *)
Definition s_matl_Sampler : schema := SStruct [("wraps", s_matl_WrapMode); ("wrapt", s_matl_WrapMode);
  ("wrapr", s_matl_WrapMode); ("min_filter", s_matl_MinFilter); ("mag_filter", s_matl_MagFilter);
  ("texture_filtering_type", s_matl_FilteringType); ("border_color", s_vectors_Color4f); ("unk11", (SInt 4
  false)); ("unk12", (SInt 4 false)); ("lod_bias", SF32); ("max_anisotropy", s_matl_MaxAnisotropy)].
(** formats/matl.rs:651-657 *)
Definition s_matl_UvTransform : schema := SStruct [("scale_u", SF32); ("scale_v", SF32); ("rotation", SF32);
  ("translate_u", SF32); ("translate_v", SF32)].
(** formats/matl.rs:666-679 *)
Definition s_matl_BlendFactor : schema := SName [(0, "Zero"); (1, "One"); (2, "SourceAlpha"); (3,
  "DestinationAlpha"); (4, "SourceColor"); (5, "DestinationColor"); (6, "OneMinusSourceAlpha"); (7,
  "OneMinusDestinationAlpha"); (8, "OneMinusSourceColor"); (9, "OneMinusDestinationColor"); (10,
  "SourceAlphaSaturate")].
(** formats/matl.rs:688-694 *)
Definition s_matl_BlendOperation : schema := SName [(0, "Add"); (1, "Subtract"); (2, "ReverseSubtract"); (3,
  "Minimum"); (4, "Maximum")].
(** formats/matl.rs:700-711 *)
Definition s_matl_BlendStateV15 : schema := SStruct [("source_color", s_matl_BlendFactor); ("color_operation",
  s_matl_BlendOperation); ("destination_color", s_matl_BlendFactor); ("source_alpha", s_matl_BlendFactor);
  ("alpha_operation", s_matl_BlendOperation); ("destination_alpha", s_matl_BlendFactor); ("unk6", (SInt 8
  false)); ("unk7", (SInt 4 false)); ("unk8", (SInt 4 false)); ("unk9", (SInt 4 false))].
(** formats/matl.rs:537-541 *)
Definition s_matl_CullMode : schema := SName [(0, "Back"); (1, "Front"); (2, "Disabled")].
(** formats/matl.rs:546-548 *)
Definition s_matl_RasterizerStateV15 : schema := SStruct [("cull_mode", s_matl_CullMode)].
(** formats/matl.rs:100-116 *)
Definition s_matl_ParamV15 : list (Z * string * schema) := [(1, "Float", SF32); (2, "Boolean", (SInt 4
  false)); (5, "Vector4", s_vectors_Vector4); (7, "Unk7", s_vectors_Color4f); (11, "String", s_string); (14,
  "Sampler", s_matl_Sampler); (16, "UvTransform", s_matl_UvTransform); (17, "BlendState",
  s_matl_BlendStateV15); (18, "RasterizerState", s_matl_RasterizerStateV15)].
(** formats/matl.rs:64-69 *)
Definition s_matl_AttributeV15 : schema := SStruct [("param_id", s_matl_ParamId); ("param", (SCase
  s_matl_ParamV15))].
(** formats/matl.rs:45-57 *)
Definition s_matl_MatlEntryV15 : schema := SStruct [("material_label", s_string); ("attributes", (SArr
  s_matl_AttributeV15)); ("shader_label", s_string)].
(** formats/matl.rs:718-730 *)
Definition s_matl_BlendStateV16 : schema := SStruct [("source_color", s_matl_BlendFactor); ("color_operation",
  s_matl_BlendOperation); ("destination_color", s_matl_BlendFactor); ("source_alpha", s_matl_BlendFactor);
  ("alpha_operation", s_matl_BlendOperation); ("destination_alpha", s_matl_BlendFactor);
  ("alpha_sample_to_coverage", (SInt 4 false)); ("unk8", (SInt 4 false)); ("unk9", (SInt 4 false)); ("unk10",
  (SInt 4 false))].
(** formats/matl.rs:525-528 *)
Definition s_matl_FillMode : schema := SName [(0, "Line"); (1, "Solid")].
(** formats/matl.rs:554-561 *)
Definition s_matl_RasterizerStateV16 : schema := SStruct [("fill_mode", s_matl_FillMode); ("cull_mode",
  s_matl_CullMode); ("depth_bias", SF32); ("unk4", SF32); ("unk5", SF32); ("unk6", (SInt 4 false))].
(** formats/matl.rs:118-134 *)
Definition s_matl_ParamV16 : list (Z * string * schema) := [(1, "Float", SF32); (2, "Boolean", (SInt 4
  false)); (5, "Vector4", s_vectors_Vector4); (7, "Unk7", s_vectors_Color4f); (11, "String", s_string); (14,
  "Sampler", s_matl_Sampler); (16, "UvTransform", s_matl_UvTransform); (17, "BlendState",
  s_matl_BlendStateV16); (18, "RasterizerState", s_matl_RasterizerStateV16)].
(** formats/matl.rs:93-98 *)
Definition s_matl_AttributeV16 : schema := SStruct [("param_id", s_matl_ParamId); ("param", (SCase
  s_matl_ParamV16))].
(** formats/matl.rs:75-87 *)
Definition s_matl_MatlEntryV16 : schema := SStruct [("material_label", s_string); ("attributes", (SArr
  s_matl_AttributeV16)); ("shader_label", s_string)].
(** formats/matl.rs:25-30 *)
Definition s_matl_Matl : list ((Z * Z) * (string * schema)) :=
  [((1, 5), ("V15", SStruct [("entries", (SArr s_matl_MatlEntryV15))]));
   ((1, 6), ("V16", SStruct [("entries", (SArr s_matl_MatlEntryV16))]))].
(** formats/modl.rs:48-57 *)
Definition s_modl_ModlEntry : schema := SStruct [("mesh_object_name", s_string); ("mesh_object_subindex",
  (SInt 8 false)); ("material_label", s_string)].
(** formats/modl.rs:16-34 *)
Definition s_modl_Modl : list ((Z * Z) * (string * schema)) :=
  [((1, 7), ("V17", SStruct [("model_name", s_string); ("skeleton_file_name", s_string);
  ("material_file_names", (SArr s_string)); ("animation_file_name", (SRel s_string)); ("mesh_file_name",
  s_string); ("entries", (SArr s_modl_ModlEntry))]))].
(** formats/mesh.rs:362-368 *)
Definition s_mesh_AttributeUsageV8 : schema := SName [(0, "Position"); (1, "Normal"); (3, "Tangent"); (4,
  "TextureCoordinate"); (8, "ColorSet")].
(** formats/mesh.rs:324-335 *)
Definition s_mesh_AttributeDataTypeV8 : schema := SName [(820, "Float3"); (1076, "Float4"); (1077,
  "HalfFloat4"); (1079, "Float2"); (1024, "Byte4")].
(** formats/mesh.rs:80-87 *)
Definition s_mesh_AttributeV8 : schema := SStruct [("usage", s_mesh_AttributeUsageV8); ("data_type",
  s_mesh_AttributeDataTypeV8); ("buffer_index", (SInt 4 false)); ("buffer_offset", (SInt 4 false));
  ("subindex", (SInt 4 false))].
(** formats/mesh.rs:205-208 *)
Definition s_mesh_VertexWeightV8 : schema := SStruct [("vertex_index", (SInt 4 false)); ("vertex_weight",
  SF32)].
(** formats/mesh.rs:129-132 *)
Definition s_mesh_BoundingSphere : schema := SStruct [("center", s_vectors_Vector3); ("radius", SF32)].
(** formats/mesh.rs:139-142 *)
Definition s_mesh_BoundingVolume : schema := SStruct [("min", s_vectors_Vector3); ("max", s_vectors_Vector3)].
(** vectors.rs:134-138 *)
Definition s_vectors_Matrix3x3 : schema := SStruct [("col1", s_vectors_Vector3); ("col2", s_vectors_Vector3);
  ("col3", s_vectors_Vector3)].
(** formats/mesh.rs:147-151 *)
Definition s_mesh_OrientedBoundingBox : schema := SStruct [("center", s_vectors_Vector3); ("transform",
  s_vectors_Matrix3x3); ("size", s_vectors_Vector3)].
(** formats/mesh.rs:120-124 *)
Definition s_mesh_BoundingInfo : schema := SStruct [("bounding_sphere", s_mesh_BoundingSphere);
  ("bounding_volume", s_mesh_BoundingVolume); ("oriented_bounding_box", s_mesh_OrientedBoundingBox)].
(** formats/mesh.rs:288-293 *)
Definition s_mesh_DrawElementType : schema := SName [(0, "UnsignedShort"); (1, "UnsignedInt")].
(** formats/mesh.rs:274-280 *)
Definition s_mesh_DepthFlags : schema := SStruct [("disable_depth_write", (SInt 1 false));
  ("disable_depth_test", (SInt 1 false))].
(** formats/mesh.rs:222-267 *)
Definition s_mesh_MeshObject (A : schema) : schema := SStruct [("name", s_string); ("subindex", (SInt 8
  false)); ("parent_bone_name", s_string); ("vertex_count", (SInt 4 false)); ("vertex_index_count", (SInt 4
  false)); ("unk2", (SInt 4 false)); ("vertex_buffer0_offset", (SInt 4 false)); ("vertex_buffer1_offset",
  (SInt 4 false)); ("vertex_buffer2_offset", (SInt 4 false)); ("vertex_buffer3_offset", (SInt 4 false));
  ("stride0", (SInt 4 false)); ("stride1", (SInt 4 false)); ("stride2", (SInt 4 false)); ("stride3", (SInt 4
  false)); ("index_buffer_offset", (SInt 4 false)); ("unk8", (SInt 4 false)); ("draw_element_type",
  s_mesh_DrawElementType); ("use_vertex_skinning", (SInt 4 false)); ("sort_bias", (SInt 4 true));
  ("depth_flags", s_mesh_DepthFlags); ("bounding_info", s_mesh_BoundingInfo); ("attributes", (SArr A))].
(** formats/mesh.rs:157-164 *)
Definition s_mesh_RiggingFlags : schema := SStruct [("max_influences", (SInt 1 false)); ("unk1", (SInt 1
  false))].
(** formats/mesh.rs:169-172 *)
Definition s_mesh_BoneBuffer (W2 : schema) : schema := SStruct [("bone_name", s_string); ("data", W2)].
(** formats/mesh.rs:179-184 *)
Definition s_mesh_RiggingGroup (W3 : schema) : schema := SStruct [("mesh_object_name", s_string);
  ("mesh_object_subindex", (SInt 8 false)); ("flags", s_mesh_RiggingFlags); ("buffers", (SArr
  (s_mesh_BoneBuffer W3)))].
(** formats/mesh.rs:56-75 *)
Definition s_mesh_MeshInner (A W1 : schema) : schema := SStruct [("model_name", s_string); ("bounding_info",
  s_mesh_BoundingInfo); ("unk1", (SInt 4 false)); ("objects", (SArr (s_mesh_MeshObject A))); ("buffer_sizes",
  (SArr (SInt 4 false))); ("polygon_index_size", (SInt 8 false)); ("vertex_buffers", (SArr SBuf));
  ("index_buffer", SBuf); ("rigging_buffers", (SArr (s_mesh_RiggingGroup W1)))].
(** formats/mesh.rs:346-353 *)
Definition s_mesh_AttributeUsageV9 : schema := SName [(0, "Position"); (1, "Normal"); (2, "Binormal"); (3,
  "Tangent"); (4, "TextureCoordinate"); (5, "ColorSet")].
(** formats/mesh.rs:92-101 *)
Definition s_mesh_AttributeV9 : schema := SStruct [("usage", s_mesh_AttributeUsageV9); ("data_type",
  s_mesh_AttributeDataTypeV8); ("buffer_index", (SInt 4 false)); ("buffer_offset", (SInt 4 false));
  ("subindex", (SInt 8 false)); ("name", s_string); ("attribute_names", (SArr s_string))].
(** formats/mesh.rs:302-315 *)
Definition s_mesh_AttributeDataTypeV10 : schema := SName [(0, "Float3"); (2, "Byte4"); (4, "Float4"); (5,
  "HalfFloat4"); (7, "Float2"); (8, "HalfFloat2")].
(** formats/mesh.rs:106-115 *)
Definition s_mesh_AttributeV10 : schema := SStruct [("usage", s_mesh_AttributeUsageV9); ("data_type",
  s_mesh_AttributeDataTypeV10); ("buffer_index", (SInt 4 false)); ("buffer_offset", (SInt 4 false));
  ("subindex", (SInt 8 false)); ("name", s_string); ("attribute_names", (SArr s_string))].
(** formats/mesh.rs:26-41 *)
Definition s_mesh_Mesh : list ((Z * Z) * (string * schema)) :=
  [((1, 8), ("V8", SWrap (s_mesh_MeshInner s_mesh_AttributeV8 (SArr s_mesh_VertexWeightV8))));
   ((1, 9), ("V9", SWrap (s_mesh_MeshInner s_mesh_AttributeV9 (SArr s_mesh_VertexWeightV8))));
   ((1, 10), ("V10", SWrap (s_mesh_MeshInner s_mesh_AttributeV10 SBuf)))].
(** formats/skel.rs:97-112 *)
Definition s_skel_BillboardType : schema := SName [(0, "Disabled"); (1, "XAxisViewPointAligned"); (2,
  "YAxisViewPointAligned"); (3, "Unk3"); (4, "XYAxisViewPointAligned"); (6, "YAxisViewPlaneAligned"); (8,
  "XYAxisViewPlaneAligned")].
(** formats/skel.rs:72-76 *)
Definition s_skel_SkelEntryFlags : schema := SStruct [("unk1", (SInt 1 false)); ("billboard_type",
  s_skel_BillboardType)].
(** formats/skel.rs:58-66 *)
Definition s_skel_SkelBoneEntry : schema := SStruct [("name", s_string); ("index", (SInt 2 false));
  ("parent_index", (SInt 2 true)); ("flags", s_skel_SkelEntryFlags)].
(** vectors.rs:343-348 *)
Definition s_vectors_Matrix4x4 : schema := SStruct [("col1", s_vectors_Vector4); ("col2", s_vectors_Vector4);
  ("col3", s_vectors_Vector4); ("col4", s_vectors_Vector4)].
(** formats/skel.rs:25-43 *)
Definition s_skel_Skel : list ((Z * Z) * (string * schema)) :=
  [((1, 0), ("V10", SStruct [("bone_entries", (SArr s_skel_SkelBoneEntry)); ("world_transforms", (SArr
  s_vectors_Matrix4x4)); ("inv_world_transforms", (SArr s_vectors_Matrix4x4)); ("transforms", (SArr
  s_vectors_Matrix4x4)); ("inv_transforms", (SArr s_vectors_Matrix4x4))]))].
(** formats/anim.rs:217-221 *)
Definition s_anim_TrackTypeV1 : schema := SName [(0, "Transform"); (2, "UvTransform"); (5, "Visibility")].
(** formats/anim.rs:124-128 *)
Definition s_anim_Property : schema := SStruct [("name", s_string); ("buffer_index", (SInt 8 false))].
(** formats/anim.rs:115-119 *)
Definition s_anim_TrackV1 : schema := SStruct [("name", s_string); ("track_type", s_anim_TrackTypeV1);
  ("properties", (SArr s_anim_Property))].
(** formats/anim.rs:268-273 *)
Definition s_anim_GroupType : schema := SName [(1, "Transform"); (2, "Visibility"); (4, "Material"); (5,
  "Camera")].
(** formats/anim.rs:228-235 *)
Definition s_anim_TrackTypeV2 : schema := SName [(1, "Transform"); (2, "UvTransform"); (3, "Float"); (5,
  "PatternIndex"); (8, "Boolean"); (9, "Vector4")].
(** formats/anim.rs:242-257 *)
Definition s_anim_CompressionType : schema := SName [(1, "Direct"); (2, "ConstTransform"); (4, "Compressed");
  (5, "Constant")].
(** formats/anim.rs:168-172 *)
Definition s_anim_TrackFlags : schema := SStruct [("track_type", s_anim_TrackTypeV2); ("compression_type",
  s_anim_CompressionType)].
(** formats/anim.rs:196-208 *)
Definition s_anim_TransformFlags : schema := SBits 4.
(** formats/anim.rs:93-100 *)
Definition s_anim_TrackV2 : schema := SStruct [("name", s_string); ("flags", s_anim_TrackFlags);
  ("frame_count", (SInt 4 false)); ("transform_flags", s_anim_TransformFlags); ("data_offset", (SInt 4
  false)); ("data_size", (SInt 8 false))].
(** formats/anim.rs:85-88 *)
Definition s_anim_Node : schema := SStruct [("name", s_string); ("tracks", (SArr s_anim_TrackV2))].
(** formats/anim.rs:77-80 *)
Definition s_anim_Group : schema := SStruct [("group_type", s_anim_GroupType); ("nodes", (SArr s_anim_Node))].
(** formats/anim.rs:159-162 *)
Definition s_anim_UnkSubItem : schema := SStruct [("unk1", (SInt 4 false)); ("unk2", (SInt 4 false))].
(** formats/anim.rs:142-145 *)
Definition s_anim_UnkItem1 : schema := SStruct [("unk1", (SInt 8 false)); ("unk2", (SArr s_anim_UnkSubItem))].
(** formats/anim.rs:150-153 *)
Definition s_anim_UnkItem2 : schema := SStruct [("unk1", s_string); ("unk2", (SArr s_anim_UnkSubItem))].
(** formats/anim.rs:134-137 *)
Definition s_anim_UnkData : schema := SStruct [("unk1", (SArr s_anim_UnkItem1)); ("unk2", (SArr
  s_anim_UnkItem2))].
(** formats/anim.rs:28-72 *)
Definition s_anim_Anim : list ((Z * Z) * (string * schema)) :=
  [((1, 2), ("V12", SStruct [("name", s_string); ("unk1", SF32); ("final_frame_index", SF32); ("unk2", SF32);
  ("unk3", SF32); ("tracks", (SArr s_anim_TrackV1)); ("buffers", (SArr SBuf))]));
   ((2, 0), ("V20", SStruct [("final_frame_index", SF32); ("unk1", (SInt 2 false)); ("unk2", (SInt 2 false));
  ("name", s_string); ("groups", (SArr s_anim_Group)); ("buffer", SBuf)]));
   ((2, 1), ("V21", SStruct [("final_frame_index", SF32); ("unk1", (SInt 2 false)); ("unk2", (SInt 2 false));
  ("name", s_string); ("groups", (SArr s_anim_Group)); ("buffer", SBuf); ("unk_data", s_anim_UnkData)]))].
(** formats/nlst.rs:14-17 *)
Definition s_nlst_Nlst : list ((Z * Z) * (string * schema)) :=
  [((1, 0), ("V10", SStruct [("file_names", (SArr s_string))]))].
(** formats/nrpd.rs:74-87 *)
Definition s_nrpd_UnkFormat : schema := SName [(256, "UnkFormat0"); (308, "UnkFormat1"); (324, "UnkFormat2");
  (528, "UnkFormat3"); (532, "UnkFormat4"); (582, "UnkFormat5"); (801, "UnkFormat6"); (836, "UnkFormat7");
  (1024, "UnkFormat8"); (1025, "UnkFormat9"); (1029, "UnkFormat10"); (1088, "UnkFormat11")].
(** formats/nrpd.rs:92-99 *)
Definition s_nrpd_Framebuffer0 : schema := SStruct [("name", s_string); ("width", (SInt 4 false)); ("height",
  (SInt 4 false)); ("unk1", s_nrpd_UnkFormat); ("unk2", (SInt 4 false)); ("unk3", (SInt 4 false))].
(** formats/nrpd.rs:104-111 *)
Definition s_nrpd_Framebuffer1 : schema := SStruct [("name", s_string); ("width", (SInt 4 false)); ("height",
  (SInt 4 false)); ("unk1", (SInt 8 false)); ("unk2", (SInt 4 false)); ("unk3", (SInt 4 false))].
(** formats/nrpd.rs:116-121 *)
Definition s_nrpd_UniformBuffer : schema := SStruct [("name", s_string); ("unk1", (SInt 4 false)); ("unk2",
  (SInt 4 false)); ("unk3", (SInt 8 false))].
(** formats/nrpd.rs:126-134 *)
Definition s_nrpd_Framebuffer3 : schema := SStruct [("name", s_string); ("width", (SInt 4 false)); ("height",
  (SInt 4 false)); ("unk1", (SInt 4 false)); ("unk2", (SInt 4 false)); ("unk3", (SInt 4 false)); ("unk4",
  (SInt 4 false))].
(** formats/nrpd.rs:139-144 *)
Definition s_nrpd_Framebuffer4 : schema := SStruct [("name", s_string); ("width", (SInt 4 false)); ("height",
  (SInt 4 false)); ("unk3", (SInt 8 false))].
(** formats/nrpd.rs:57-64 *)
Definition s_nrpd_FrameBuffer : list (Z * string * schema) := [(0, "Framebuffer0", s_nrpd_Framebuffer0); (1,
  "Framebuffer1", s_nrpd_Framebuffer1); (2, "UniformBuffer", s_nrpd_UniformBuffer); (3, "Framebuffer3",
  s_nrpd_Framebuffer3); (4, "Framebuffer4", s_nrpd_Framebuffer4)].
(** formats/nrpd.rs:149-153 *)
Definition s_nrpd_NrpdSampler : schema := SStruct [("name", s_string); ("data", s_matl_Sampler); ("unk13",
  (SInt 8 false))].
(** formats/nrpd.rs:158-167 *)
Definition s_nrpd_NrpdRasterizerState : schema := SStruct [("name", s_string); ("fill_mode", s_matl_FillMode);
  ("cull_mode", s_matl_CullMode); ("depth_bias", SF32); ("unk4", SF32); ("unk5", SF32); ("unk6", (SInt 4
  false))].
(** formats/nrpd.rs:192-204 *)
Definition s_nrpd_DepthState : schema := SStruct [("name", s_string); ("unk2", (SInt 4 false)); ("unk3", (SInt
  4 false)); ("unk4", (SInt 4 false)); ("unk5", (SInt 4 false)); ("unk6", (SInt 4 false)); ("unk7", (SInt 4
  false)); ("unk8", (SInt 8 false)); ("unk9", (SInt 8 false)); ("unk10", (SInt 8 false)); ("unk11", (SInt 8
  false))].
(** formats/nrpd.rs:172-186 *)
Definition s_nrpd_NrpdBlendState : schema := SStruct [("name", s_string); ("source_color",
  s_matl_BlendFactor); ("unk2", (SInt 4 false)); ("destination_color", s_matl_BlendFactor); ("unk4", (SInt 4
  false)); ("unk5", (SInt 4 false)); ("unk6", (SInt 4 false)); ("alpha_sample_to_coverage", (SInt 4 false));
  ("unk8", (SInt 4 false)); ("unk9", (SInt 4 false)); ("unk10", (SInt 4 false))].
(** formats/nrpd.rs:206-212 *)
Definition s_nrpd_State : list (Z * string * schema) := [(0, "Sampler", s_nrpd_NrpdSampler); (1,
  "RasterizerState", s_nrpd_NrpdRasterizerState); (2, "DepthState", s_nrpd_DepthState); (3, "BlendState",
  s_nrpd_NrpdBlendState)].
(** formats/nrpd.rs:237-241 *)
Definition s_nrpd_RenderPassData0 : schema := SStruct [("unk1", s_string); ("unk2", s_string); ("unk3", (SInt
  8 false))].
(** formats/nrpd.rs:246-249 *)
Definition s_nrpd_RenderPassData1 : schema := SStruct [("unk1", s_string); ("unk2", s_string)].
(** formats/nrpd.rs:254-262 *)
Definition s_nrpd_RenderPassData2 : schema := SStruct [("unk1", s_string); ("unk2", s_string); ("unk3", (SRel
  (SInt 8 false))); ("unk4", (SInt 8 false)); ("unk5", (SRel (SInt 8 false))); ("unk6", (SInt 8 false))].
(** formats/nrpd.rs:299-302 *)
Definition s_nrpd_Unk8Data : schema := SStruct [("unk1", (SInt 4 false)); ("unk2", (SInt 4 false))].
(** formats/nrpd.rs:267-274 *)
Definition s_nrpd_RenderPassData3 : schema := SStruct [("unk1", s_string); ("unk2", s_string); ("unk3", (SRel
  s_nrpd_Unk8Data)); ("unk4", (SInt 8 false)); ("unk5", (SRel s_nrpd_Unk8Data)); ("unk6", (SInt 8 false))].
(** formats/nrpd.rs:279-286 *)
Definition s_nrpd_RenderPassData8 : schema := SStruct [("unk1", s_string); ("unk2", s_string); ("unk3", (SRel
  (SInt 8 false))); ("unk4", (SInt 8 false)); ("unk5", (SRel (SInt 8 false))); ("unk6", (SInt 8 false))].
(** formats/nrpd.rs:307-311 *)
Definition s_nrpd_ColorClear : schema := SStruct [("name", s_string); ("color", s_vectors_Color4f); ("unk1",
  (SInt 8 false))].
(** formats/nrpd.rs:316-320 *)
Definition s_nrpd_DepthStencilClear : schema := SStruct [("name", s_string); ("depth", SF32); ("stencil",
  (SInt 4 false))].
(** formats/nrpd.rs:325-333 *)
Definition s_nrpd_Viewport : schema := SStruct [("name", s_string); ("unk2", (SInt 8 false)); ("width", SF32);
  ("height", SF32); ("unk_min", SF32); ("unk_max", SF32); ("unk4", (SInt 8 false))].
(** formats/nrpd.rs:338-346 *)
Definition s_nrpd_RenderPassData13 : schema := SStruct [("unk1", s_string); ("unk2", s_string); ("unk3", (SRel
  (SInt 8 false))); ("unk4", (SInt 8 false)); ("unk5", (SRel (SInt 8 false))); ("unk6", (SInt 8 false))].
(** formats/nrpd.rs:382-385 *)
Definition s_nrpd_StringPair : schema := SStruct [("item1", s_string); ("item2", s_string)].
(** formats/nrpd.rs:291-294 *)
Definition s_nrpd_RenderPassData19 : schema := SStruct [("unk1", s_string); ("unk2", (SInt 8 false))].
(** formats/nrpd.rs:215-232 *)
Definition s_nrpd_RenderPassData : list (Z * string * schema) := [(0, "FramebufferRtp",
  s_nrpd_RenderPassData0); (1, "PassUnk1", s_nrpd_RenderPassData1); (2, "UnkTexture1",
  s_nrpd_RenderPassData2); (3, "UnkLight", s_nrpd_RenderPassData3); (8, "Unk8", s_nrpd_RenderPassData8); (9,
  "ColorClear", s_nrpd_ColorClear); (10, "DepthStencilClear", s_nrpd_DepthStencilClear); (12, "Viewport",
  s_nrpd_Viewport); (13, "Sampler", s_nrpd_RenderPassData13); (14, "BlendState", s_nrpd_StringPair); (15,
  "RasterizerState", s_nrpd_StringPair); (16, "DepthStencilState", s_nrpd_StringPair); (17,
  "FramebufferRenderTarget", s_string); (18, "FramebufferDepthStencil", s_string); (19, "UnkTexture2",
  s_nrpd_RenderPassData19)].
(** formats/nrpd.rs:370-377 *)
Definition s_nrpd_Unk3Data : schema := SStruct [("unk1", s_string); ("unk2", s_string); ("unk3", SF32);
  ("unk4", SF32); ("unk5", SF32); ("unk6", SF32)].
(** formats/nrpd.rs:361-365 *)
Definition s_nrpd_RenderPassUnkData : list (Z * string * schema) := [(0, "UnkDataUnk0", SUnit); (3,
  "UnkDataUnk3", s_nrpd_Unk3Data)].
(** formats/nrpd.rs:352-358 *)
Definition s_nrpd_RenderPassContainer : schema := SStruct [("name", s_string); ("unk1", (SArr (SCase
  s_nrpd_RenderPassData))); ("unk2", (SArr (SCase s_nrpd_RenderPassData))); ("unk3", (SCase
  s_nrpd_RenderPassUnkData))].
(** formats/nrpd.rs:398-401 *)
Definition s_nrpd_UnkItem20 : schema := SStruct [("unk1", s_string); ("unk2", s_string)].
(** formats/nrpd.rs:406-410 *)
Definition s_nrpd_UnkItem21 : schema := SStruct [("unk1", s_string); ("unk2", s_string); ("unk3", (SFix 2
  (SInt 4 false)))].
(** formats/nrpd.rs:415-423 *)
Definition s_nrpd_UnkItem22 : schema := SStruct [("unk1", s_string); ("unk2", s_string); ("unk3", (SInt 4
  false)); ("unk4", (SInt 4 false)); ("unk5", (SInt 4 false)); ("unk6", s_nrpd_UnkFormat); ("unk8", (SInt 4
  false))].
(** formats/nrpd.rs:428-432 *)
Definition s_nrpd_UnkItem24 : schema := SStruct [("unk1", s_string); ("unk2", s_string); ("unk3", (SFix 6
  (SInt 4 false)))].
(** formats/nrpd.rs:434-440 *)
Definition s_nrpd_UnkItem2 : list (Z * string * schema) := [(0, "UnkItem20", s_nrpd_UnkItem20); (1,
  "UnkItem21", s_nrpd_UnkItem21); (2, "UnkItem22", s_nrpd_UnkItem22); (4, "UnkItem24", s_nrpd_UnkItem24)].
(** formats/nrpd.rs:445-448 *)
Definition s_nrpd_UnkItem3 : schema := SStruct [("name", s_string); ("value", s_string)].
(** formats/nrpd.rs:390-393 *)
Definition s_nrpd_UnkItem1 : schema := SStruct [("unk1", s_string); ("unk2", (SArr s_nrpd_UnkItem3))].
(** formats/nrpd.rs:21-44 *)
Definition s_nrpd_Nrpd : list ((Z * Z) * (string * schema)) :=
  [((1, 6), ("V16", SStruct [("frame_buffers", (SArr (SCase s_nrpd_FrameBuffer))); ("state_containers", (SArr
  (SCase s_nrpd_State))); ("render_passes", (SArr s_nrpd_RenderPassContainer)); ("unk_string_list1", (SArr
  s_nrpd_StringPair)); ("unk_string_list2", (SArr (SCase s_nrpd_UnkItem2))); ("unk_list", (SArr
  s_nrpd_UnkItem1)); ("unk_width1", (SInt 4 false)); ("unk_height1", (SInt 4 false)); ("unk3", (SInt 4
  false)); ("unk4", (SInt 4 false)); ("unk5", (SInt 4 false)); ("unk6", (SInt 4 false)); ("unk7", (SInt 4
  false)); ("unk8", (SInt 4 false)); ("unk9", s_string); ("unk_width2", (SInt 4 false)); ("unk_height2", (SInt
  4 false)); ("unk10", (SInt 8 false))]))].
(** formats/nufx.rs:79-86 *)
Definition s_nufx_ShaderStages : schema := SStruct [("vertex_shader", s_string); ("unk_shader1", s_string);
  ("unk_shader2", s_string); ("geometry_shader", s_string); ("pixel_shader", s_string); ("compute_shader",
  s_string)].
(** formats/nufx.rs:68-73 *)
Definition s_nufx_MaterialParameter : schema := SStruct [("param_id", (SInt 8 false)); ("parameter_name",
  s_string)].
(** formats/nufx.rs:93-103 *)
Definition s_nufx_ShaderProgramV0 : schema := SStruct [("name", s_string); ("render_pass", s_string);
  ("shaders", s_nufx_ShaderStages); ("material_parameters", (SArr s_nufx_MaterialParameter))].
(** formats/nufx.rs:127-130 *)
Definition s_nufx_UnkItem : schema := SStruct [("name", s_string); ("unk1", (SArr s_string))].
(** formats/nufx.rs:40-43 *)
Definition s_nufx_NufxV0 : schema := SStruct [("programs", (SArr s_nufx_ShaderProgramV0)); ("unk_string_list",
  (SArr s_nufx_UnkItem))].
(** formats/nufx.rs:58-61 *)
Definition s_nufx_VertexAttribute : schema := SStruct [("name", s_string); ("attribute_name", s_string)].
(** formats/nufx.rs:110-122 *)
Definition s_nufx_ShaderProgramV1 : schema := SStruct [("name", s_string); ("render_pass", s_string);
  ("shaders", s_nufx_ShaderStages); ("vertex_attributes", (SArr s_nufx_VertexAttribute));
  ("material_parameters", (SArr s_nufx_MaterialParameter))].
(** formats/nufx.rs:48-51 *)
Definition s_nufx_NufxV1 : schema := SStruct [("programs", (SArr s_nufx_ShaderProgramV1)); ("unk_string_list",
  (SArr s_nufx_UnkItem))].
(** formats/nufx.rs:19-26 *)
Definition s_nufx_Nufx : list ((Z * Z) * (string * schema)) :=
  [((1, 0), ("V0", SWrap s_nufx_NufxV0));
   ((1, 1), ("V1", SWrap s_nufx_NufxV1))].
(** formats/shdr.rs:47-52 *)
Definition s_shdr_ShaderStage : schema := SName [(0, "Vertex"); (3, "Geometry"); (4, "Fragment"); (5,
  "Compute")].
(** formats/shdr.rs:30-39 *)
Definition s_shdr_Shader : schema := SStruct [("name", s_string); ("shader_stage", s_shdr_ShaderStage);
  ("unk3", (SInt 4 false)); ("shader_binary", SBuf); ("binary_size", (SInt 8 false))].
(** formats/shdr.rs:13-16 *)
Definition s_shdr_Shdr : list ((Z * Z) * (string * schema)) :=
  [((1, 2), ("V12", SStruct [("shaders", (SArr s_shdr_Shader))]))].
(** formats/meshex.rs:60-63 *)
Definition s_meshex_AllData : schema := SStruct [("bounding_sphere", s_mesh_BoundingSphere); ("name", (SAbs
  SCStr))].
(** formats/meshex.rs:69-76 *)
Definition s_meshex_MeshObjectGroup : schema := SStruct [("bounding_sphere", s_mesh_BoundingSphere);
  ("mesh_object_full_name", (SAbs SCStr)); ("mesh_object_name", (SAbs SCStr))].
(** formats/meshex.rs:48-54 *)
Definition s_meshex_MeshEntry : schema := SStruct [("mesh_object_group_index", (SInt 4 false)); ("unk1",
  s_vectors_Vector3)].
(** formats/meshex.rs:83-96 *)
Definition s_meshex_EntryFlag : schema := SBits 2.
(** formats/meshex.rs:105-105 *)
Definition s_meshex_EntryFlags : schema := SWrap (SArr s_meshex_EntryFlag).
(** formats/meshex.rs:18-41 *)
Definition s_meshex_MeshEx : schema := SStruct [("all_data", (SAbs s_meshex_AllData)); ("mesh_object_groups",
  (SAbs (SArr s_meshex_MeshObjectGroup))); ("entries", (SAbs (SArr s_meshex_MeshEntry))); ("entry_flags",
  (SAbs s_meshex_EntryFlags)); ("unk1", (SInt 4 false))].
(** formats/adj.rs:49-57 *)
Definition s_adj_AdjEntry : schema := SStruct [("mesh_object_index", (SInt 4 false)); ("index_buffer_offset",
  (SInt 4 false))].
(** formats/adj.rs:17-43 *)
Definition s_adj_Adj : schema := SStruct [("entries", (SArr s_adj_AdjEntry)); ("index_buffer", (SArr (SInt 2
  true)))].
(** The variants of each format enum with their versions (the pre_assert attributes). *)
Definition schemas (k : kind) : list ((Z * Z) * (string * schema)) :=
  match k with
  | Hlpb => s_hlpb_Hlpb
  | Matl => s_matl_Matl
  | Modl => s_modl_Modl
  | Mesh => s_mesh_Mesh
  | Skel => s_skel_Skel
  | Anim => s_anim_Anim
  | Nlst => s_nlst_Nlst
  | Nrpd => s_nrpd_Nrpd
  | Nufx => s_nufx_Nufx
  | Shdr => s_shdr_Shdr
  end.

(** The variants of [Ssbh], lib.rs:507-537 *)
Definition kind_name (k : kind) : string :=
  match k with
  | Hlpb => "Hlpb" | Matl => "Matl" | Modl => "Modl" | Mesh => "Mesh" | Skel => "Skel"
  | Anim => "Anim" | Nlst => "Nlst" | Nrpd => "Nrpd" | Nufx => "Nufx" | Shdr => "Shdr"
  end.
