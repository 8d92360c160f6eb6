(** MatlData: conversion to and from Matl, saving and loading.  Fieldless enums are their
    numbers, f32 values are bit patterns.
    Paths below are relative to /repo/ssbh_data/src. *)
From Verif Require Import Bytes Ssbh Formats File Strings AnimComp AnimBuf SmallData.

(** ParamData<T>, matl_data.rs:113-118 *)
Record param (A : Type) := Prm { pr_id : Z; pr_data : A }.
Arguments Prm {A}. Arguments pr_id {A}. Arguments pr_data {A}.

(** SamplerData, matl_data.rs:148-162 *)
Record sampler := Smp {
  sm_wraps : Z; sm_wrapt : Z; sm_wrapr : Z; sm_min : Z; sm_mag : Z; sm_border : vec4; sm_lod : Z; sm_aniso : Z
}.
(** BlendStateData, matl_data.rs:255-263 *)
Record blend := Bld {
  bl_src : Z; bl_cop : Z; bl_dst : Z; bl_asrc : Z; bl_aop : Z; bl_adst : Z; bl_coverage : bool
}.
(** RasterizerStateData, matl_data.rs:374-378 *)
Record raster := Rst { rs_fill : Z; rs_cull : Z; rs_bias : Z }.
(** UvTransform, ssbh_lib/src/formats/matl.rs:651-657, has the fields of [uvtransform]. *)

(** MatlEntryData, matl_data.rs:95-107 *)
Record matl_entry := MatE {
  mt_label : text; mt_shader : text; mt_blends : list (param blend); mt_floats : list (param Z);
  mt_bools : list (param bool); mt_vectors : list (param vec4); mt_rasters : list (param raster);
  mt_samplers : list (param sampler); mt_textures : list (param text); mt_uvs : list (param uvtransform)
}.
(** MatlData, matl_data.rs:82-86 *)
Record matl_data := MatD { mt_major : Z; mt_minor : Z; mt_entries : list matl_entry }.

(** ** Parameter values *)
Definition bool32_val (b : bool) : val := VInt (if b then 1 else 0).
Definition un_bool32 (v : val) : res bool := match v with VInt n => Ok (negb (n =? 0)) | _ => Err EType end.
Definition un_text (v : val) : res text := Ok (ssbh_to_string_lossy v).

(** From<&SamplerData> for Sampler, matl_data.rs:228-248.  MaxAnisotropy::One = 1,
    FilteringType::Default = 0, FilteringType::AnisotropicFiltering = 2 *)
Definition sampler_val (s : sampler) : val :=
  VStruct [VInt (sm_wraps s); VInt (sm_wrapt s); VInt (sm_wrapr s); VInt (sm_min s); VInt (sm_mag s);
           VInt (if sm_aniso s =? 1 then 0 else 2); vec4_val (sm_border s); VInt 0; VInt 2139095022;
           VInt (sm_lod s); VInt (sm_aniso s)].
(** From<&Sampler> for SamplerData, matl_data.rs:197-214 *)
Definition un_sampler (v : val) : res sampler :=
  match v with
  | VStruct [VInt a; VInt b; VInt c; VInt d; VInt e; VInt filtering; border; VInt _; VInt _; VInt lod; VInt aniso] =>
      let* border := un_vec4 border in
      Ok (Smp a b c d e border lod (if filtering =? 2 then aniso else 1))
  | _ => Err EType
  end.

(** From<&BlendStateData> for BlendStateV16, matl_data.rs:306-323 *)
Definition blend16_val (b : blend) : val :=
  VStruct [VInt (bl_src b); VInt (bl_cop b); VInt (bl_dst b); VInt (bl_asrc b); VInt (bl_aop b); VInt (bl_adst b);
           bool32_val (bl_coverage b); VInt 0; VInt 0; VInt 5].
(** From<&BlendStateV16> for BlendStateData, matl_data.rs:286-298 *)
Definition un_blend16 (v : val) : res blend :=
  match v with
  | VStruct [VInt a; VInt b; VInt c; VInt d; VInt e; VInt f; VInt g; _; _; _] => Ok (Bld a b c d e f (negb (g =? 0)))
  | _ => Err EType
  end.
(** From<&BlendStateData> for BlendStateV15, matl_data.rs:351-368.  BlendOperation::Add = 0,
    BlendFactor::One = 1, BlendFactor::Zero = 0 *)
Definition blend15_val (b : blend) : val :=
  VStruct [VInt (bl_src b); VInt 0; VInt (bl_dst b); VInt 1; VInt 0; VInt 0; VInt 0; VInt 0; VInt 5; VInt 0].
(** From<&BlendStateV15> for BlendStateData, matl_data.rs:331-343 *)
Definition un_blend15 (v : val) : res blend :=
  match v with
  | VStruct [VInt a; VInt b; VInt c; VInt d; VInt e; VInt f; _; _; _; _] => Ok (Bld a b c d e f false)
  | _ => Err EType
  end.

(** From<&RasterizerStateData> for RasterizerStateV16, matl_data.rs:413-426 *)
Definition raster16_val (r : raster) : val :=
  VStruct [VInt (rs_fill r); VInt (rs_cull r); VInt (rs_bias r); VInt 0; VInt 0; VInt 16777217].
(** From<&RasterizerStateV16> for RasterizerStateData, matl_data.rs:397-405 *)
Definition un_raster16 (v : val) : res raster :=
  match v with
  | VStruct [VInt a; VInt b; VInt c; _; _; _] => Ok (Rst a b c)
  | _ => Err EType
  end.
(** From<&RasterizerStateData> for RasterizerStateV15, matl_data.rs:450-456 *)
Definition raster15_val (r : raster) : val := VStruct [VInt (rs_cull r)].
(** From<&RasterizerStateV15> for RasterizerStateData, matl_data.rs:434-442; FillMode::Solid = 1 *)
Definition un_raster15 (v : val) : res raster :=
  match v with VStruct [VInt c] => Ok (Rst 1 c 0) | _ => Err EType end.

(** ** Attributes *)

(** AttributeV15 and AttributeV16 with [to_param] and [to_param_v15], matl_data.rs:682-864;
    the tags are those of ParamV15 and ParamV16, ssbh_lib/src/formats/matl.rs:100-134 *)
Definition attribute {A} (tag : Z) (f : A -> val) (p : param A) : val :=
  VStruct [VInt (pr_id p); VPtr (Some (VCase tag (VStruct [f (pr_data p)])))].
(** get_attributes!, matl_data.rs:459-469: the attributes of one type, in order.  A null
    pointer is [a.param.data.deref() = None] and is left out. *)
Fixpoint get_attributes {A} (tag : Z) (un : val -> res A) (attrs : list val) : res (list (param A)) :=
  match attrs with
  | [] => Ok []
  | VStruct [VInt id; VPtr (Some (VCase t (VStruct [v])))] :: r =>
      if t =? tag then
        let* d := un v in let* ps := get_attributes tag un r in Ok (Prm id d :: ps)
      else get_attributes tag un r
  | VStruct [VInt _; VPtr None] :: r => get_attributes tag un r
  | _ :: _ => Err EType
  end.

(** From<&MatlEntryData> for MatlEntryV16, matl_data.rs:554-598 *)
Definition entry16_val (e : matl_entry) : val :=
  VStruct [ssbh_string (mt_label e);
           VArr (map (attribute 17 blend16_val) (mt_blends e) ++ map (attribute 2 bool32_val) (mt_bools e) ++
                 map (attribute 1 VInt) (mt_floats e) ++ map (attribute 5 vec4_val) (mt_vectors e) ++
                 map (attribute 18 raster16_val) (mt_rasters e) ++ map (attribute 14 sampler_val) (mt_samplers e) ++
                 map (attribute 11 ssbh_string) (mt_textures e) ++ map (attribute 16 uv_val) (mt_uvs e));
           ssbh_string (mt_shader e)].
(** From<&MatlEntryData> for MatlEntryV15, matl_data.rs:635-679 *)
Definition entry15_val (e : matl_entry) : val :=
  VStruct [ssbh_string (mt_label e);
           VArr (map (attribute 17 blend15_val) (mt_blends e) ++ map (attribute 18 raster15_val) (mt_rasters e) ++
                 map (attribute 11 ssbh_string) (mt_textures e) ++ map (attribute 5 vec4_val) (mt_vectors e) ++
                 map (attribute 14 sampler_val) (mt_samplers e) ++ map (attribute 1 VInt) (mt_floats e) ++
                 map (attribute 16 uv_val) (mt_uvs e) ++ map (attribute 2 bool32_val) (mt_bools e));
           ssbh_string (mt_shader e)].

(** From<&MatlEntryV16> and From<&MatlEntryV15> for MatlEntryData, matl_data.rs:519-552 and 600-633;
    they differ in the types of the blend and rasterizer states. *)
Definition un_matl_entry (un_blend : val -> res blend) (un_raster : val -> res raster) (v : val) : res matl_entry :=
  match v with
  | VStruct [label; VArr attrs; shader] =>
      let* vectors := get_attributes 5 un_vec4 attrs in
      let* floats := get_attributes 1 un_z attrs in
      let* bools := get_attributes 2 un_bool32 attrs in
      let* textures := get_attributes 11 un_text attrs in
      let* samplers := get_attributes 14 un_sampler attrs in
      let* blends := get_attributes 17 un_blend attrs in
      let* rasters := get_attributes 18 un_raster attrs in
      let* uvs := get_attributes 16 un_uv attrs in
      Ok (MatE (ssbh_to_string_lossy label) (ssbh_to_string_lossy shader)
               blends floats bools vectors rasters samplers textures uvs)
  | _ => Err EType
  end.
Definition un_entry16 : val -> res matl_entry := un_matl_entry un_blend16 un_raster16.
Definition un_entry15 : val -> res matl_entry := un_matl_entry un_blend15 un_raster15.

(** TryFrom<&Matl> for MatlData, matl_data.rs:479-493 *)
Definition un_matl (version : Z * Z) (v : val) : res matl_data :=
  match v with
  | VStruct [VArr es] =>
      let* entries := un_list (if ver_eqb version (1, 5) then un_entry15 else un_entry16) es in
      Ok (MatD (fst version) (snd version) entries)
  | _ => Err EType
  end.
(** TryFrom<&MatlData> for Matl, matl_data.rs:503-517 *)
Definition matl_val (d : matl_data) : res val :=
  if (mt_major d =? 1) && (mt_minor d =? 6) then Ok (VStruct [VArr (map entry16_val (mt_entries d))])
  else Err (EData DVersion).

(** MatlData::write and MatlData::read, lib.rs:111-119 *)
Definition matl_data_write (d : matl_data) : res (list Z) :=
  let* v := matl_val d in typed_write Matl (1, 6) v.
Definition matl_data_read (b : list Z) : res matl_data :=
  let* (version, v) := typed_read Matl b in un_matl version v.
