(** Specification for materials. *)
From Verif Require Import Bytes Ssbh Formats Strings AnimComp AnimBuf AnimSpec SmallData DataSpec MatlData.

(** ** Values of the Rust types; enums by the numbers of their variants *)
Definition below (n : Z) (x : Z) : bool := (0 <=? x) && (x <? n).
Definition param_ok {A} (ok : A -> bool) (p : param A) : bool := below 366 (pr_id p) && ok (pr_data p).
Definition sampler_ok (s : sampler) : bool :=
  below 4 (sm_wraps s) && below 4 (sm_wrapt s) && below 4 (sm_wrapr s) && below 3 (sm_min s) && below 3 (sm_mag s) &&
  vec4_ok (sm_border s) && is32 (sm_lod s) && existsb (Z.eqb (sm_aniso s)) [1; 2; 4; 8; 16].
Definition blend_ok (b : blend) : bool :=
  below 11 (bl_src b) && below 5 (bl_cop b) && below 11 (bl_dst b) && below 11 (bl_asrc b) && below 5 (bl_aop b) && below 11 (bl_adst b).
Definition raster_ok (r : raster) : bool := below 2 (rs_fill r) && below 3 (rs_cull r) && is32 (rs_bias r).
Definition uvt_ok (u : uvtransform) : bool := is32 (uv_su u) && is32 (uv_sv u) && is32 (uv_rot u) && is32 (uv_tu u) && is32 (uv_tv u).
Definition param_count (e : matl_entry) : Z :=
  zlen (mt_blends e) + zlen (mt_floats e) + zlen (mt_bools e) + zlen (mt_vectors e) + zlen (mt_rasters e) +
  zlen (mt_samplers e) + zlen (mt_textures e) + zlen (mt_uvs e).
Definition matl_entry_ok (e : matl_entry) : bool :=
  text_ok (mt_label e) && text_ok (mt_shader e) && (param_count e <? 2 ^ 64) &&
  forallb (param_ok blend_ok) (mt_blends e) && forallb (param_ok is32) (mt_floats e) &&
  forallb (param_ok (fun _ => true)) (mt_bools e) && forallb (param_ok vec4_ok) (mt_vectors e) &&
  forallb (param_ok raster_ok) (mt_rasters e) && forallb (param_ok sampler_ok) (mt_samplers e) &&
  forallb (param_ok text_ok) (mt_textures e) && forallb (param_ok uvt_ok) (mt_uvs e).
Definition matl_ok (d : matl_data) : bool := len_ok (mt_entries d) && forallb matl_entry_ok (mt_entries d).

(** ** Attributes of a file: the ids and values of those of one type, in file order *)
Definition of_type (tag : Z) (attrs : list val) : list (Z * val) :=
  flat_map (fun a => match a with
                     | VStruct [VInt id; VPtr (Some (VCase t (VStruct [v])))] => if t =? tag then [(id, v)] else []
                     | _ => []
                     end) attrs.
(** The parameters have these ids and their data is read from these values. *)
Definition read_from {A} (un : val -> res A) (ps : list (param A)) (l : list (Z * val)) : Prop :=
  Forall2 (fun p q => pr_id p = fst q /\ un (snd q) = Ok (pr_data p)) ps l.
Definition entry_read (un_blend : val -> res blend) (un_raster : val -> res raster) (e : matl_entry) (v : val) : Prop :=
  exists label attrs shader, v = VStruct [label; VArr attrs; shader] /\
  mt_label e = ssbh_to_string_lossy label /\ mt_shader e = ssbh_to_string_lossy shader /\
  read_from un_z (mt_floats e) (of_type 1 attrs) /\ read_from un_bool32 (mt_bools e) (of_type 2 attrs) /\
  read_from un_vec4 (mt_vectors e) (of_type 5 attrs) /\ read_from un_text (mt_textures e) (of_type 11 attrs) /\
  read_from un_sampler (mt_samplers e) (of_type 14 attrs) /\ read_from un_uv (mt_uvs e) (of_type 16 attrs) /\
  read_from un_blend (mt_blends e) (of_type 17 attrs) /\ read_from un_raster (mt_rasters e) (of_type 18 attrs).

(** ** What an entry of version 1.5 keeps *)
Definition on_data {A} (f : A -> A) (p : param A) : param A := Prm (pr_id p) (f (pr_data p)).
Definition blend15 (b : blend) : blend := Bld (bl_src b) 0 (bl_dst b) 1 0 0 false.
Definition raster15 (r : raster) : raster := Rst 1 (rs_cull r) 0.
Definition stored_entry15 (e : matl_entry) : matl_entry :=
  MatE (mt_label e) (mt_shader e) (map (on_data blend15) (mt_blends e)) (mt_floats e) (mt_bools e) (mt_vectors e)
       (map (on_data raster15) (mt_rasters e)) (mt_samplers e) (mt_textures e) (mt_uvs e).
