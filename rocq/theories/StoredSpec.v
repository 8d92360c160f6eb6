(** Specification for the fields of saved files that loading ignores. *)
From Verif Require Import Bytes Ssbh Strings AnimComp AnimBuf SkelData SkelSpec MatlData MatlSpec VecData MeshData MeshSpec.

(** ** Skeletons: the entry of the bone at position [i] *)
Definition bone_stored (i : nat) (b : bone) (v : val) : Prop := exists name p,
  v = VStruct [name; VInt (Z.of_nat i mod 65536); VInt p; VStruct [VInt 1; VInt (bn_billboard b)]] /\
  ssbh_to_string_lossy name = bn_name b /\
  match bn_parent b with Some q => p = q | None => p = 65535 end.

(** ** Materials *)

(** The number of the type of an attribute *)
Definition attribute_type (v : val) : Z :=
  match v with VStruct [_; VPtr (Some (VCase t _))] => t | _ => -1 end.
(** Anisotropic filtering (2) is used unless the anisotropy is 1; two unused fields. *)
Definition sampler_stored (s : sampler) (v : val) : Prop := exists ws wt wr mi ma filtering border lod,
  v = VStruct [ws; wt; wr; mi; ma; VInt filtering; border; VInt 0; VInt 2139095022; lod; VInt (sm_aniso s)] /\
  (sm_aniso s = 1 -> filtering = 0) /\ (sm_aniso s <> 1 -> filtering = 2).
Definition blend_stored (b : blend) (v : val) : Prop := exists a c d e f g,
  v = VStruct [a; c; d; e; f; g; VInt (if bl_coverage b then 1 else 0); VInt 0; VInt 0; VInt 5].
Definition raster_stored (r : raster) (v : val) : Prop := exists a c d, v = VStruct [a; c; d; VInt 0; VInt 0; VInt 16777217].
Definition stored_params {A} (P : A -> val -> Prop) (ps : list (param A)) (l : list (Z * val)) : Prop :=
  Forall2 (fun p q => pr_id p = fst q /\ P (pr_data p) (snd q)) ps l.
(** The attributes are ordered by type: blend states, booleans, floats, vectors, rasterizer
    states, samplers, textures, UV transforms. *)
Definition entry_stored (e : matl_entry) (v : val) : Prop := exists label attrs shader,
  v = VStruct [label; VArr attrs; shader] /\ ssbh_to_string_lossy label = mt_label e /\ ssbh_to_string_lossy shader = mt_shader e /\
  map attribute_type attrs =
    repeat 17 (length (mt_blends e)) ++ repeat 2 (length (mt_bools e)) ++ repeat 1 (length (mt_floats e)) ++ repeat 5 (length (mt_vectors e)) ++
    repeat 18 (length (mt_rasters e)) ++ repeat 14 (length (mt_samplers e)) ++ repeat 11 (length (mt_textures e)) ++ repeat 16 (length (mt_uvs e)) /\
  stored_params blend_stored (mt_blends e) (of_type 17 attrs) /\ stored_params raster_stored (mt_rasters e) (of_type 18 attrs) /\
  stored_params sampler_stored (mt_samplers e) (of_type 14 attrs).

(** ** Meshes *)

(** Attributes by the numbers of their usages *)
Definition usage_lists (o : mesh_object) : list (Z * list attribute_data) :=
  [(0, ob_positions o); (1, ob_normals o); (2, ob_binormals o); (3, ob_tangents o); (4, ob_texcoords o); (5, ob_colors o)].
(** The first name of the attribute number [i] of a usage: map1 for the first tangent and the
    first binormal, uvSet for the second binormal *)
Definition first_name (u i : Z) (name : list Z) : list Z :=
  if (u =? 3) && (i =? 0) then [109; 97; 112; 49]
  else if (u =? 2) && (i =? 0) then [109; 97; 112; 49]
  else if (u =? 2) && (i =? 1) then [117; 118; 83; 101; 116]
  else name.
(** The object with the three corners of a triangle, the unused number 4, the rigging type and
    the bounding volume of the first positions *)
Definition object_stored (bounding : list (list Z) -> val) (o : mesh_object) (v : val) (attrs : list val) : Prop :=
  exists name parent c ic o0 o1 o2 o3 s0 s1 s2 io ty rig,
  v = VStruct [name; VInt (ob_subindex o); parent; c; ic; VInt 3; o0; o1; o2; o3; s0; s1; s2; VInt 0; io; VInt 4; ty; VInt rig;
               VInt (ob_bias o); VStruct [VInt (if ob_no_write o then 1 else 0); VInt (if ob_no_test o then 1 else 0)];
               bounding (match ob_positions o with a :: _ => to_vec3 (attr_data a) | [] => [] end); VArr attrs] /\
  (ob_influences o = [] -> rig = 0) /\ (ob_influences o <> [] -> rig = 1).
Definition attributes_stored (o : mesh_object) (attrs : list val) : Prop :=
  forall u l i a, In (u, l) (usage_lists o) -> nth_error l i = Some a -> exists ty buffer offset,
    In (VStruct [VInt u; VInt ty; VInt buffer; VInt offset; VInt (Z.of_nat i);
                 ssbh_string (first_name u (Z.of_nat i) (attr_name a)); VArr [ssbh_string (attr_name a)]]) attrs.
