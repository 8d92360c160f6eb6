(** The concrete file formats of ssbh_lib/src/formats as descriptors.
    Paths below are relative to /repo/ssbh_lib/src.

    For fieldless enums the second argument of [TRepr] is the alignment rustc gives
    the enum: 1 when all discriminants fit a byte, 2 when they need two bytes, or the
    size of an explicit #[repr]. *)
From Verif Require Import Bytes Ssbh.

(** ** Building blocks *)

(** A derived struct without attributes. *)
Definition record (ts : list ty) : ty := TStruct (map (fun t => (t, (0, 0))) ts) 0 0 None.

(** A derived struct with #[ssbhwrite(pad_after = k)] on the struct and
    #[br(pad_after = k)] on its last field [t]. *)
Definition padded (ts : list ty) (t : ty) (k : Z) : ty :=
  TStruct (map (fun t => (t, (0, 0))) ts ++ [(t, (0, k))]) k 0 None.

(** A derived struct with #[ssbhwrite(pad_after = k)] and no padding when reading. *)
Definition wpadded (ts : list ty) (k : Z) : ty := TStruct (map (fun t => (t, (0, 0))) ts) k 0 None.

(** A derived struct with #[ssbhwrite(alignment = a)]. *)
Definition aligned (ts : list ty) (a : Z) : ty := TStruct (map (fun t => (t, (0, 0))) ts) 0 0 (Some a).

Definition u8 := TInt 1.
Definition u16 := TInt 2.
Definition i16 := TInt 2.
Definition u32 := TInt 4.
Definition i32 := TInt 4.
Definition u64 := TInt 8.
Definition f32 := TInt 4.

Definition repr8 (tags : list Z) := TRepr 1 1 tags.
Definition repr32 (tags : list Z) := TRepr 4 1 tags.
Definition repr64 (tags : list Z) := TRepr 8 1 tags.

(** strings.rs:158-235: SsbhStringN<N>(RelPtr64<CString<N>>), SsbhString = N 4, SsbhString8 = N 8 *)
Definition SsbhStringN (n : Z) : ty := record [TRel (TCStr n)].
Definition SsbhString := SsbhStringN 4.
Definition SsbhString8 := SsbhStringN 8.

(** vectors.rs:11-15, 134-138, 216-221, 332-337, 343-348 *)
Definition Vector3 := record [f32; f32; f32].
Definition Vector4 := record [f32; f32; f32; f32].
Definition Color4f := record [f32; f32; f32; f32].
Definition Matrix3x3 := record [Vector3; Vector3; Vector3].
Definition Matrix4x4 := record [Vector4; Vector4; Vector4; Vector4].

(** One variant body of an ssbh_enum! (enums.rs:147-174): a tuple variant. *)
Definition variant (tag : Z) (body : ty) : Z * ty := (tag, record [body]).

(** ** formats/modl.rs:16-57 *)
Definition ModlEntry := record [SsbhString; u64; SsbhString].
Definition Modl_V17 :=
  record [SsbhString; SsbhString; TArr SsbhString; TRel SsbhString; SsbhString8; TArr ModlEntry].

(** ** formats/nlst.rs:14-17 *)
Definition Nlst_V10 := record [TArr SsbhString].

(** ** formats/hlpb.rs:19-125 *)
Definition AimConstraint :=
  record [SsbhString; SsbhString; SsbhString; SsbhString; SsbhString; SsbhString; SsbhString;
          u32; u32; Vector3; Vector3; Vector4; Vector4; f32; f32; f32; f32; f32; f32].
Definition OrientConstraint :=
  record [SsbhString; SsbhString; SsbhString; SsbhString; SsbhString;
          u32; Vector3; Vector4; Vector4; Vector3; Vector3].
Definition ConstraintType := repr32 [0; 1].
Definition Hlpb_V11 :=
  record [TArr AimConstraint; TArr OrientConstraint; TArr u32; TArr ConstraintType].

(** ** formats/skel.rs:25-112 *)
Definition BillboardType := repr8 [0; 1; 2; 3; 4; 6; 8].
Definition SkelEntryFlags := padded [u8] BillboardType 2.
Definition SkelBoneEntry := record [SsbhString; u16; i16; SkelEntryFlags].
Definition Skel_V10 :=
  record [TArr SkelBoneEntry; TArr Matrix4x4; TArr Matrix4x4; TArr Matrix4x4; TArr Matrix4x4].

(** ** formats/shdr.rs:13-52 *)
Definition ShaderStage := TRepr 4 4 [0; 3; 4; 5].
Definition Shader := padded [SsbhString; ShaderStage; u32; TBuf] u64 16.
Definition Shdr_V12 := record [TArr Shader].

(** ** formats/nufx.rs:19-131 *)
Definition VertexAttribute := record [SsbhString; SsbhString].
Definition MaterialParameter := padded [u64] SsbhString8 8.
Definition ShaderStages :=
  record [SsbhString; SsbhString; SsbhString; SsbhString; SsbhString; SsbhString].
Definition ShaderProgramV0 := record [SsbhString; SsbhString; ShaderStages; TArr MaterialParameter].
Definition ShaderProgramV1 :=
  record [SsbhString; SsbhString; ShaderStages; TArr VertexAttribute; TArr MaterialParameter].
Definition Nufx_UnkItem := record [SsbhString; TArr SsbhString].
Definition Nufx_V0 := record [record [TArr ShaderProgramV0; TArr Nufx_UnkItem]].
Definition Nufx_V1 := record [record [TArr ShaderProgramV1; TArr Nufx_UnkItem]].

(** ** formats/mesh.rs:26-368 *)
Definition AttributeUsageV8 := repr32 [0; 1; 3; 4; 8].
Definition AttributeUsageV9 := repr32 [0; 1; 2; 3; 4; 5].
Definition AttributeDataTypeV8 := TRepr 4 2 [820; 1024; 1076; 1077; 1079].
Definition AttributeDataTypeV10 := repr32 [0; 2; 4; 5; 7; 8].
Definition AttributeV8 := record [AttributeUsageV8; AttributeDataTypeV8; u32; u32; u32].
Definition AttributeV9 :=
  record [AttributeUsageV9; AttributeDataTypeV8; u32; u32; u64; SsbhString; TArr SsbhString].
Definition AttributeV10 :=
  record [AttributeUsageV9; AttributeDataTypeV10; u32; u32; u64; SsbhString; TArr SsbhString].
Definition BoundingSphere := record [Vector3; f32].
Definition BoundingVolume := record [Vector3; Vector3].
Definition OrientedBoundingBox := record [Vector3; Matrix3x3; Vector3].
Definition BoundingInfo := record [BoundingSphere; BoundingVolume; OrientedBoundingBox].
Definition RiggingFlags := padded [u8] u8 6.
Definition BoneBuffer (w : ty) := record [SsbhString; w].
Definition RiggingGroup (w : ty) := record [SsbhString; u64; RiggingFlags; TArr (BoneBuffer w)].
Definition VertexWeightV8 := record [u32; f32].
Definition DepthFlags := padded [u8] u8 2.
Definition DrawElementType := repr32 [0; 1].
Definition MeshObject (a : ty) :=
  record [SsbhString; u64; SsbhString; u32; u32; u32; u32; u32; u32; u32; u32; u32; u32; u32;
          u32; u32; DrawElementType; u32; i32; DepthFlags; BoundingInfo; TArr a].
Definition MeshInner (a w : ty) :=
  record [SsbhString; BoundingInfo; u32; TArr (MeshObject a); TArr u32; u64; TArr TBuf; TBuf;
          TArr (RiggingGroup w)].
(** #[ssbhwrite(pad_after = 16, align_after = 8)] on the enum, mesh.rs:25 *)
Definition Mesh_variant (inner : ty) : ty := TStruct [(inner, (0, 0))] 16 8 None.
Definition Mesh_V8 := Mesh_variant (MeshInner AttributeV8 (TArr VertexWeightV8)).
Definition Mesh_V9 := Mesh_variant (MeshInner AttributeV9 (TArr VertexWeightV8)).
Definition Mesh_V10 := Mesh_variant (MeshInner AttributeV10 TBuf).

(** ** formats/anim.rs:28-273 *)
Definition TrackTypeV1 := repr64 [0; 2; 5].
Definition TrackTypeV2 := repr8 [1; 2; 3; 5; 8; 9].
Definition CompressionType := repr8 [1; 2; 4; 5].
Definition GroupType := repr64 [1; 2; 4; 5].
Definition TransformFlags := TBits 4.
Definition TrackFlags := padded [TrackTypeV2] CompressionType 2.
Definition TrackV2 := record [SsbhString; TrackFlags; u32; TransformFlags; u32; u64].
Definition Node := record [SsbhString; TArr TrackV2].
Definition Group := record [GroupType; TArr Node].
Definition Property := record [SsbhString; u64].
Definition TrackV1 := record [SsbhString; TrackTypeV1; TArr Property].
Definition UnkSubItem := record [u32; u32].
Definition Anim_UnkItem1 := record [u64; TArr UnkSubItem].
Definition Anim_UnkItem2 := record [SsbhString; TArr UnkSubItem].
Definition UnkData := record [TArr Anim_UnkItem1; TArr Anim_UnkItem2].
Definition Anim_V12 := record [SsbhString; f32; f32; f32; f32; TArr TrackV1; TArr TBuf].
Definition Anim_V20 := record [f32; u16; u16; SsbhString; TArr Group; TBuf].
(** #[ssbhwrite(align_after = 8)] on the variant, anim.rs:56 *)
Definition Anim_V21 :=
  TStruct (map (fun t => (t, (0, 0))) [f32; u16; u16; SsbhString; TArr Group; TBuf; UnkData]) 0 8 None.

(** ** formats/matl.rs:25-736 *)
Definition ParamId := TRepr 8 2 (map Z.of_nat (seq 0 366)).
Definition FillMode := repr32 [0; 1].
Definition CullMode := repr32 [0; 1; 2].
Definition RasterizerStateV15 := record [CullMode].
(** #[ssbhwrite(pad_after = 4)] without a matching br attribute, matl.rs:553 *)
Definition RasterizerStateV16 := wpadded [FillMode; CullMode; f32; f32; f32; u32] 4.
Definition WrapMode := repr32 [0; 1; 2; 3].
Definition MinFilter := repr32 [0; 1; 2].
Definition MagFilter := repr32 [0; 1; 2].
Definition FilteringType := repr32 [0; 1; 2].
Definition MaxAnisotropy := repr32 [1; 2; 4; 8; 16].
Definition Sampler :=
  record [WrapMode; WrapMode; WrapMode; MinFilter; MagFilter; FilteringType; Color4f; u32; u32; f32;
          MaxAnisotropy].
Definition UvTransform := record [f32; f32; f32; f32; f32].
Definition BlendFactor := repr32 [0; 1; 2; 3; 4; 5; 6; 7; 8; 9; 10].
Definition BlendOperation := repr32 [0; 1; 2; 3; 4].
Definition BlendStateV15 :=
  record [BlendFactor; BlendOperation; BlendFactor; BlendFactor; BlendOperation; BlendFactor;
          u64; u32; u32; u32].
(** #[ssbhwrite(pad_after = 8)] without a matching br attribute, matl.rs:717 *)
Definition BlendStateV16 :=
  wpadded [BlendFactor; BlendOperation; BlendFactor; BlendFactor; BlendOperation; BlendFactor;
           u32; u32; u32; u32] 8.
Definition Param (blend rast : ty) :=
  TEnum [variant 1 f32; variant 2 u32; variant 5 Vector4; variant 7 Color4f; variant 11 SsbhString;
         variant 14 Sampler; variant 16 UvTransform; variant 17 blend; variant 18 rast].
Definition MatlEntry (blend rast : ty) :=
  record [SsbhString; TArr (record [ParamId; Param blend rast]); SsbhString].
Definition Matl_V15 := record [TArr (MatlEntry BlendStateV15 RasterizerStateV15)].
Definition Matl_V16 := record [TArr (MatlEntry BlendStateV16 RasterizerStateV16)].

(** ** formats/nrpd.rs:21-448 *)
Definition UnkFormat :=
  TRepr 8 2 [256; 308; 324; 528; 532; 582; 801; 836; 1024; 1025; 1029; 1088].
Definition Framebuffer0 := record [SsbhString; u32; u32; UnkFormat; u32; u32].
Definition Framebuffer1 := record [SsbhString; u32; u32; u64; u32; u32].
Definition UniformBuffer := record [SsbhString; u32; u32; u64].
Definition Framebuffer3 := record [SsbhString; u32; u32; u32; u32; u32; u32].
Definition Framebuffer4 := record [SsbhString; u32; u32; u64].
Definition FrameBuffer :=
  TEnum [variant 0 Framebuffer0; variant 1 Framebuffer1; variant 2 UniformBuffer;
         variant 3 Framebuffer3; variant 4 Framebuffer4].
Definition NrpdSampler := record [SsbhString; Sampler; u64].
Definition NrpdRasterizerState := record [SsbhString; FillMode; CullMode; f32; f32; f32; u32].
Definition NrpdBlendState :=
  record [SsbhString; BlendFactor; u32; BlendFactor; u32; u32; u32; u32; u32; u32; u32].
Definition DepthState := record [SsbhString; u32; u32; u32; u32; u32; u32; u64; u64; u64; u64].
Definition State :=
  TEnum [variant 0 NrpdSampler; variant 1 NrpdRasterizerState; variant 2 DepthState;
         variant 3 NrpdBlendState].
Definition StringPair := record [SsbhString; SsbhString].
Definition RenderPassData0 := record [SsbhString; SsbhString; u64].
Definition RenderPassData1 := record [SsbhString; SsbhString].
Definition RenderPassData2 := record [SsbhString; SsbhString; TRel u64; u64; TRel u64; u64].
Definition Unk8Data := record [u32; u32].
Definition RenderPassData3 := record [SsbhString; SsbhString; TRel Unk8Data; u64; TRel Unk8Data; u64].
Definition RenderPassData8 := record [SsbhString; SsbhString; TRel u64; u64; TRel u64; u64].
Definition RenderPassData19 := record [SsbhString; u64].
Definition ColorClear := record [SsbhString; Color4f; u64].
Definition DepthStencilClear := record [SsbhString; f32; u32].
Definition Viewport := record [SsbhString; u64; f32; f32; f32; f32; u64].
Definition RenderPassData13 := record [SsbhString; SsbhString; TRel u64; u64; TRel u64; u64].
Definition RenderPassData :=
  TEnum [variant 0 RenderPassData0; variant 1 RenderPassData1; variant 2 RenderPassData2;
         variant 3 RenderPassData3; variant 8 RenderPassData8; variant 9 ColorClear;
         variant 10 DepthStencilClear; variant 12 Viewport; variant 13 RenderPassData13;
         variant 14 StringPair; variant 15 StringPair; variant 16 StringPair;
         variant 17 SsbhString; variant 18 SsbhString; variant 19 RenderPassData19].
Definition Unk3Data := record [SsbhString; SsbhString; f32; f32; f32; f32].
Definition RenderPassUnkData := TEnum [variant 0 TUnit; variant 3 Unk3Data].
Definition RenderPassContainer :=
  padded [SsbhString; TArr RenderPassData; TArr RenderPassData] RenderPassUnkData 8.
Definition UnkItem3 := record [SsbhString; SsbhString].
Definition Nrpd_UnkItem1 := record [SsbhString; TArr UnkItem3].
Definition UnkItem20 := record [SsbhString; SsbhString].
Definition UnkItem21 := record [SsbhString; SsbhString; TFix 2 u32].
Definition UnkItem22 := record [SsbhString; SsbhString; u32; u32; u32; UnkFormat; u32].
Definition UnkItem24 := record [SsbhString; SsbhString; TFix 6 u32].
Definition Nrpd_UnkItem2 :=
  TEnum [variant 0 UnkItem20; variant 1 UnkItem21; variant 2 UnkItem22; variant 4 UnkItem24].
Definition Nrpd_V16 :=
  record [TArr FrameBuffer; TArr State; TArr RenderPassContainer; TArr StringPair;
          TArr Nrpd_UnkItem2; TArr Nrpd_UnkItem1; u32; u32; u32; u32; u32; u32; u32; u32;
          SsbhString; u32; u32; u64].

(** ** File types and versions *)

(** lib.rs:507-537 *)
Inductive kind := Hlpb | Matl | Modl | Mesh | Skel | Anim | Nlst | Nrpd | Nufx | Shdr.

(** The variants of the enum [Ssbh] in declaration order, the order binrw tries them. *)
Definition kinds : list kind := [Hlpb; Matl; Modl; Mesh; Skel; Anim; Nlst; Nrpd; Nufx; Shdr].

(** The variants of each format enum: the pre_assert versions used by BinRead, which
    are also what major_minor_version returns for the variant. *)
Definition versions (k : kind) : list ((Z * Z) * ty) :=
  match k with
  | Hlpb => [((1, 1), Hlpb_V11)]
  | Matl => [((1, 5), Matl_V15); ((1, 6), Matl_V16)]
  | Modl => [((1, 7), Modl_V17)]
  | Mesh => [((1, 8), Mesh_V8); ((1, 9), Mesh_V9); ((1, 10), Mesh_V10)]
  | Skel => [((1, 0), Skel_V10)]
  | Anim => [((1, 2), Anim_V12); ((2, 0), Anim_V20); ((2, 1), Anim_V21)]
  | Nlst => [((1, 0), Nlst_V10)]
  | Nrpd => [((1, 6), Nrpd_V16)]
  | Nufx => [((1, 0), Nufx_V0); ((1, 1), Nufx_V1)]
  | Shdr => [((1, 2), Shdr_V12)]
  end.

Definition ver_eqb (a b : Z * Z) : bool := (fst a =? fst b) && (snd a =? snd b).

Fixpoint lookup_ver (v : Z * Z) (l : list ((Z * Z) * ty)) : option ty :=
  match l with
  | [] => None
  | (v', t) :: r => if ver_eqb v v' then Some t else lookup_ver v r
  end.

(** Descriptor of the variant of format [k] with version [v]. *)
Definition format (k : kind) (v : Z * Z) : option ty := lookup_ver v (versions k).
