(** Specification for the two JSON programs: the document ssbh_data_json makes of a file shows
    what the document ssbh_lib_json makes of the same file shows under the same names. *)
From Verif Require Import Bytes Json.
Local Open Scope string_scope.
Local Open Scope Z_scope.

(** ** Documents *)

(** The first member with a name *)
Definition get (x : string) (j : json) : option json :=
  match j with
  | JObj ms => option_map snd (find (fun m => String.eqb x (fst m)) ms)
  | _ => None
  end.
(** The documents of ssbh_lib_json name the type and the version first. *)
Definition content (j : json) : json := match j with JObj [(_, JObj [(_, j')])] => j' | _ => JNull end.
Definition version_name (j : json) : string := match j with JObj [(_, JObj [(x, _)])] => x | _ => "" end.

(** Data on the left, the file on the right: the same, or the empty text for a null pointer, or
    a flag for a number *)
Inductive shown : json -> json -> Prop :=
| shown_same j : shown j j
| shown_null : shown (JStr []) JNull
| shown_flag n : shown (JBool (negb (n =? 0))) (JInt n).

(** A member of both documents, members of both, a member the file may lack *)
Definition agree_at (x : string) (d f : json) : Prop := exists a b, get x d = Some a /\ get x f = Some b /\ shown a b.
Definition agree_on (xs : list string) (d f : json) : Prop := Forall (fun x => agree_at x d f) xs.
Definition agree_or (x : string) (default : json) (d f : json) : Prop :=
  exists a, get x d = Some a /\ match get x f with Some b => shown a b | None => a = default end.
(** Lists of the same length with related elements *)
Definition agree_list (x : string) (R : json -> json -> Prop) (d f : json) : Prop :=
  exists l m, get x d = Some (JArr l) /\ get x f = Some (JArr m) /\ Forall2 R l m.
(** [d] with a part of [f] *)
Definition within_part (x : string) (R : json -> json -> Prop) (d f : json) : Prop := exists p, get x f = Some p /\ R d p.

(** ** Modl and Hlpb *)
Definition modl_agree (d f : json) : Prop :=
  agree_on ["model_name"; "skeleton_file_name"; "animation_file_name"; "mesh_file_name"] d f /\
  agree_list "material_file_names" shown d f /\
  agree_list "entries" (agree_on ["mesh_object_name"; "mesh_object_subindex"; "material_label"]) d f.

Definition hlpb_agree (d f : json) : Prop :=
  agree_list "aim_constraints" (agree_on ["name"; "aim_bone_name1"; "aim_bone_name2"; "aim_type1"; "aim_type2";
    "target_bone_name1"; "target_bone_name2"; "unk1"; "unk2"; "aim"; "up"; "quat1"; "quat2"]) d f /\
  agree_list "orient_constraints" (agree_on ["name"; "parent_bone_name1"; "parent_bone_name2"; "source_bone_name";
    "target_bone_name"; "unk_type"; "constraint_axes"; "quat1"; "quat2"; "range_min"; "range_max"]) d f.

(** ** Skel: bones are made of an entry and a transform *)
Definition members (xs : list string) (j : json) (js : list json) : Prop := Forall2 (fun x j' => get x j = Some j') xs js.
Definition bone_agree (b e t : json) : Prop :=
  agree_at "name" b e /\ within_part "flags" (agree_at "billboard_type") b e /\
  (exists p, get "parent_index" e = Some (JInt p) /\ get "parent_index" b = Some (if p <? 0 then JNull else JInt p)) /\
  (exists columns rows, get "transform" b = Some (JArr (map JArr rows)) /\ members ["col1"; "col2"; "col3"; "col4"] t columns /\
     Forall2 (members ["x"; "y"; "z"; "w"]) columns rows).
Definition skel_agree (d f : json) : Prop := exists bones entries transforms,
  get "bones" d = Some (JArr bones) /\ get "bone_entries" f = Some (JArr entries) /\ get "transforms" f = Some (JArr transforms) /\
  Forall2 (fun b p => bone_agree b (fst p) (snd p)) bones (combine entries transforms).

(** ** Matl: the parameters of each type are the attributes with that variant *)
Definition of_variant (v : string) (attributes : list json) : list (json * json) :=
  flat_map (fun a =>
    match get "param_id" a, get "param" a with
    | Some id, Some p => match get "data" p with Some c => match get v c with Some x => [(id, x)] | None => [] end | None => [] end
    | _, _ => []
    end) attributes.
Definition params_agree (x v : string) (R : json -> json -> Prop) (d : json) (attributes : list json) : Prop :=
  exists ps, get x d = Some (JArr ps) /\
  Forall2 (fun p q => get "param_id" p = Some (fst q) /\ exists a, get "data" p = Some a /\ R a (snd q)) ps (of_variant v attributes).
Definition blend_agree (d f : json) : Prop :=
  agree_on ["source_color"; "color_operation"; "destination_color"; "source_alpha"; "alpha_operation"; "destination_alpha"] d f /\
  agree_or "alpha_sample_to_coverage" (JBool false) d f.
Definition raster_agree (d f : json) : Prop :=
  agree_at "cull_mode" d f /\ agree_or "fill_mode" (JStr (text_of "Solid")) d f /\ agree_or "depth_bias" (JFloat 0) d f.
Definition sampler_agree (d f : json) : Prop :=
  agree_on ["wraps"; "wrapt"; "wrapr"; "min_filter"; "mag_filter"; "border_color"; "lod_bias"] d f /\
  exists filtering aniso, get "texture_filtering_type" f = Some (JStr filtering) /\ get "max_anisotropy" f = Some aniso /\
  (filtering = text_of "AnisotropicFiltering" -> get "max_anisotropy" d = Some aniso) /\
  (filtering <> text_of "AnisotropicFiltering" -> get "max_anisotropy" d = Some (JStr (text_of "One"))).
Definition entry_agree (d f : json) : Prop :=
  agree_on ["material_label"; "shader_label"] d f /\ exists attributes, get "attributes" f = Some (JArr attributes) /\
  params_agree "floats" "Float" shown d attributes /\ params_agree "booleans" "Boolean" shown d attributes /\
  params_agree "vectors" "Vector4" shown d attributes /\ params_agree "textures" "String" shown d attributes /\
  params_agree "uv_transforms" "UvTransform" shown d attributes /\ params_agree "blend_states" "BlendState" blend_agree d attributes /\
  params_agree "rasterizer_states" "RasterizerState" raster_agree d attributes /\
  params_agree "samplers" "Sampler" sampler_agree d attributes.
Definition matl_agree (d f : json) : Prop := agree_list "entries" entry_agree d f.

(** ** MeshEx: the flags of the entries that name a group, by their bits; a null pointer is an
    empty list *)
Definition elements (o : option json) : option (list json) :=
  match o with Some (JArr l) => Some l | Some JNull => Some [] | _ => None end.
Definition names_group (i : nat) (e : json) : bool :=
  match get "mesh_object_group_index" e with Some (JInt g) => g =? Z.of_nat i | _ => false end.
Definition flag_agree (d f : json) : Prop := exists low high, get "bytes" f = Some (JArr [JInt low; JInt high]) /\
  get "draw_model" d = Some (JBool (Z.testbit low 0)) /\ get "cast_shadow" d = Some (JBool (Z.testbit low 1)).
Definition meshex_agree (d f : json) : Prop := exists groups file_groups entries flags,
  get "mesh_object_groups" d = Some (JArr groups) /\ elements (get "mesh_object_groups" f) = Some file_groups /\
  elements (get "entries" f) = Some entries /\ elements (get "entry_flags" f) = Some flags /\
  List.length groups = List.length file_groups /\
  forall i g h, nth_error groups i = Some g -> nth_error file_groups i = Some h ->
  agree_on ["bounding_sphere"; "mesh_object_full_name"; "mesh_object_name"] g h /\
  exists l, get "entry_flags" g = Some (JArr l) /\
  Forall2 flag_agree l (map snd (filter (fun p => names_group i (fst p)) (combine entries flags))).

(** ** Adj: the part of the buffer up to the next offset, or to the end; offsets count bytes, two
    for each number *)
Definition offset_of (e : json) : option Z := match get "index_buffer_offset" e with Some (JInt n) => Some n | _ => None end.
Definition adj_agree (d f : json) : Prop := exists ds es buffer,
  get "entries" d = Some (JArr ds) /\ get "entries" f = Some (JArr es) /\ get "index_buffer" f = Some (JArr buffer) /\
  List.length ds = List.length es /\
  forall i a e, nth_error ds i = Some a -> nth_error es i = Some e -> agree_at "mesh_object_index" a e /\
  exists first before l after, offset_of e = Some first /\ get "vertex_adjacency" a = Some (JArr l) /\
  buffer = (before ++ l ++ after)%list /\ zlen before = first / 2 /\
  match nth_error es (S i) with
  | Some e' => exists next, offset_of e' = Some next /\ zlen before + zlen l = next / 2
  | None => after = []
  end.

(** ** Anim, versions 2.0 and 2.1 *)
Definition transform_flags_agree (d f : json) : Prop := exists b0 rest, get "bytes" f = Some (JArr (JInt b0 :: rest)) /\
  members ["override_translation"; "override_rotation"; "override_scale"; "override_compensate_scale"] d
    [JBool (Z.testbit b0 0); JBool (Z.testbit b0 1); JBool (Z.testbit b0 2); JBool (Z.testbit b0 3)].
(** The values have the type of the track; there is one for each frame, unless all frames of a
    compressed track are the same. *)
Definition track_agree (d f : json) : Prop :=
  agree_at "name" d f /\
  (exists a b, get "transform_flags" d = Some a /\ get "transform_flags" f = Some b /\ transform_flags_agree a b) /\
  exists flags type compression n values, get "flags" f = Some flags /\ get "track_type" flags = Some (JStr (text_of type)) /\
  get "compression_type" flags = Some (JStr compression) /\ get "frame_count" f = Some (JInt n) /\
  get "values" d = Some (JObj [(type, JArr values)]) /\
  (zlen values = n \/ (compression = text_of "Compressed" /\ zlen values = 1 /\ 0 < n)).
Definition node_agree (d f : json) : Prop := agree_at "name" d f /\ agree_list "tracks" track_agree d f.
Definition group_agree (d f : json) : Prop := agree_at "group_type" d f /\ agree_list "nodes" node_agree d f.
Definition anim_agree (d f : json) : Prop := agree_at "final_frame_index" d f /\ agree_list "groups" group_agree d f.

(** ** Mesh *)
(** The number of components of an attribute, from the name of its data type *)
Definition vector_name (data_type : list Z) : string :=
  if text_eqb data_type (text_of "Float2") then "Vector2"
  else if text_eqb data_type (text_of "HalfFloat2") then "Vector2"
  else if text_eqb data_type (text_of "Float3") then "Vector3" else "Vector4".
Definition has_usage (u : string) (a : json) : bool :=
  match get "usage" a with Some (JStr t) => text_eqb t (text_of u) | _ => false end.
(** The name is the first of the names of the attribute, which version 1.8 does not have; there is
    a vector for each vertex. *)
Definition attribute_agree (vertices : Z) (d f : json) : Prop := exists name data_type rows,
  get "name" d = Some (JStr name) /\ get "data_type" f = Some (JStr data_type) /\
  get "data" d = Some (JObj [(vector_name data_type, JArr rows)]) /\ zlen rows = vertices /\
  match get "attribute_names" f with
  | Some (JArr (n :: _)) => shown (JStr name) n
  | Some (JArr []) => name = []
  | Some _ => False
  | None => True
  end.
Definition usages : list (string * string) :=
  [("positions", "Position"); ("normals", "Normal"); ("binormals", "Binormal"); ("tangents", "Tangent");
   ("texture_coordinates", "TextureCoordinate"); ("color_sets", "ColorSet")].
(** The groups of influences with the name and number of an object.  A name that is shown as the
    empty text may be none. *)
Definition rigging_of (name : list Z) (subindex : json) (groups : list json) : list json :=
  flat_map (fun g =>
    match get "mesh_object_name" g, get "mesh_object_subindex" g, get "buffers" g with
    | Some (JStr n), Some (JInt i), Some (JArr l) =>
        if text_eqb n name && match subindex with JInt j => i =? j | _ => false end then l else []
    | _, _, _ => []
    end) groups.
(** Version 1.10 keeps the weights as bytes. *)
Definition influence_agree (d f : json) : Prop :=
  agree_at "bone_name" d f /\
  match get "data" f with
  | Some (JArr ws) => exists l, get "vertex_weights" d = Some (JArr l) /\ Forall2 (agree_on ["vertex_index"; "vertex_weight"]) l ws
  | Some (JStr _) => True
  | _ => False
  end.
Definition object_agree (rigging : list json) (d f : json) : Prop :=
  agree_on ["name"; "subindex"; "parent_bone_name"; "sort_bias"] d f /\
  within_part "depth_flags" (agree_on ["disable_depth_write"; "disable_depth_test"]) d f /\
  (exists l n, get "vertex_indices" d = Some (JArr l) /\ get "vertex_index_count" f = Some (JInt n) /\ zlen l = n) /\
  (exists attributes n, get "attributes" f = Some (JArr attributes) /\ get "vertex_count" f = Some (JInt n) /\
     Forall (fun p => exists l, get (fst p) d = Some (JArr l) /\
                      Forall2 (attribute_agree n) l (filter (has_usage (snd p)) attributes)) usages) /\
  (exists name i l, get "name" d = Some (JStr name) /\ get "subindex" d = Some i /\ get "bone_influences" d = Some (JArr l) /\
     (name <> [] -> Forall2 influence_agree l (rigging_of name i rigging))).
Definition mesh_agree (d f : json) : Prop := exists rigging,
  get "rigging_buffers" f = Some (JArr rigging) /\ agree_list "objects" (object_agree rigging) d f.
