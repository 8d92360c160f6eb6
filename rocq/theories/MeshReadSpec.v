(** Specification for loading mesh files: what an object, its vertices and its influences are,
    by the positions the file gives, whoever wrote it. *)
From Verif Require Import Bytes Ssbh SsbhSpec Formats Strings VecData MeshData MeshSpec.

(** ** Numbers used for usages and types, ssbh_lib/src/formats/mesh.rs:297-368 *)
Definition usages (ver : mesh_version) : list (Z * usage) :=
  match ver with
  | MV8 => [(0, Position); (1, Normal); (3, Tangent); (4, TextureCoordinate); (8, ColorSet)]
  | _ => [(0, Position); (1, Normal); (2, Binormal); (3, Tangent); (4, TextureCoordinate); (5, ColorSet)]
  end.
Definition types (ver : mesh_version) : list (Z * data_type) :=
  match ver with
  | MV10 => [(0, Float3); (2, Byte4); (4, Float4); (5, HalfFloat4); (7, Float2); (8, HalfFloat2)]
  | _ => [(820, Float3); (1024, Byte4); (1076, Float4); (1077, HalfFloat4); (1079, Float2)]
  end.

(** ** Vectors *)

(** Number of components, bytes of one component, and the f32 a stored number stands for *)
Definition layout (t : data_type) : dim * Z * (Z -> Z) :=
  match t with
  | Float2 => (Two, 4, fun n => n)
  | Float3 => (Three, 4, fun n => n)
  | Float4 => (Four, 4, fun n => n)
  | HalfFloat2 => (Two, 2, f16_to_f32)
  | HalfFloat4 => (Four, 2, f16_to_f32)
  | Byte4 => (Four, 1, u8_to_f32)
  end.
Definition components (d : dim) : Z := match d with Two => 2 | Three => 3 | Four => 4 end.

(** [count] vectors of type [t], the first at [start], [stride] bytes from one to the next *)
Definition vectors_at (b : list Z) (start stride count : Z) (t : data_type) (v : vector_data) : Prop :=
  let '(d, w, value) := layout t in
  vec_dim v = d /\ zlen (vec_rows v) = count /\ (0 < count -> stride <> 0) /\
  forall i row, nth_error (vec_rows v) i = Some row -> zlen row = components d /\
    forall j x, nth_error row j = Some x ->
      exists n, uint_at b (start + stride * Z.of_nat i + w * Z.of_nat j) w n /\ x = value n.

(** ** Attributes *)

(** A stored attribute: its name, the number of its vertex buffer, its usage, its type and its
    position in a vertex.  Version 1.8 has no names, they are made from usage and number. *)
Definition attribute_fields (ver : mesh_version) (v : val) (a : attribute) : Prop :=
  exists u t, In (u, a_usage a) (usages ver) /\ In (t, a_type a) (types ver) /\
  match ver with
  | MV8 => v = VStruct [VInt u; VInt t; VInt (a_buffer a); VInt (a_offset a); VInt (a_sub a)] /\
           a_name a = usage_text (a_usage a) ++ decimal (a_sub a)
  | _ => exists name names,
           v = VStruct [VInt u; VInt t; VInt (a_buffer a); VInt (a_offset a); VInt (a_sub a); name; VArr names] /\
           a_name a = match names with [] => [] | n :: _ => ssbh_to_string_lossy n end
  end.

(** A stored object *)
Definition object_fields (v : val) (r : raw_object) : Prop :=
  exists unk1 o0 o1 o2 o3 s0 s1 s2 s3 unk2 rigging bounding,
    r_offsets r = [o0; o1; o2; o3] /\ r_strides r = [s0; s1; s2; s3] /\
    v = VStruct [r_name r; VInt (r_subindex r); r_parent r; VInt (r_count r); VInt (r_index_count r); VInt unk1;
                 VInt o0; VInt o1; VInt o2; VInt o3; VInt s0; VInt s1; VInt s2; VInt s3;
                 VInt (r_index_offset r); VInt unk2; VInt (r_type r); VInt rigging; VInt (r_bias r);
                 VStruct [VInt (r_no_write r); VInt (r_no_test r)]; bounding; VArr (r_attributes r)].

Definition loaded_attribute (bufs : list (list Z)) (r : raw_object) (a : attribute) (d : attribute_data) : Prop :=
  attr_name d = a_name a /\ 0 <= a_buffer a < 4 /\
  exists b, nth_error bufs (Z.to_nat (a_buffer a)) = Some b /\
    vectors_at b (a_offset a + nth (Z.to_nat (a_buffer a)) (r_offsets r) 0)
                 (nth (Z.to_nat (a_buffer a)) (r_strides r) 0) (r_count r) (a_type a) (attr_data d).
(** The attributes with usage [u], in the order of the file *)
Definition loaded_usage (bufs : list (list Z)) (r : raw_object) (l : list attribute) (u : usage) (ds : list attribute_data) : Prop :=
  exists l', Forall2 (loaded_attribute bufs r) l' ds /\ l' = filter (fun a => usage_eqb (a_usage a) u) l.

(** ** Vertex indices, of two or four bytes *)
Definition index_size (r : raw_object) : Z := if r_type r =? 0 then 2 else 4.
Definition indices_at (ib : list Z) (r : raw_object) (l : list Z) : Prop :=
  zlen l = r_index_count r /\
  forall k x, nth_error l k = Some x -> uint_at ib (r_index_offset r + index_size r * Z.of_nat k) (index_size r) x.

(** ** Influences *)
Definition stored_weights (ver : mesh_version) (v : val) (l : list vertex_weight) : Prop :=
  match ver with
  | MV10 => exists bs, v = VBytes bs /\ zlen l = zlen bs / 6 /\
      forall k w, nth_error l k = Some w ->
        uint_at bs (6 * Z.of_nat k) 2 (wt_index w) /\ uint_at bs (6 * Z.of_nat k + 2) 4 (wt_weight w)
  | _ => v = VArr (map (fun w => VStruct [VInt (wt_index w); VInt (wt_weight w)]) l)
  end.
(** The name must be text. *)
Definition loaded_influence (ver : mesh_version) (v : val) (i : bone_influence) : Prop :=
  exists name weights, v = VStruct [name; weights] /\ ssbh_to_str name = Some (inf_bone i) /\
    stored_weights ver weights (inf_weights i).
(** A group belongs to the object with its name and subindex. *)
Definition group_of_object (g : val) (name : list Z) (subindex : Z) (bufs : list val) : Prop :=
  exists n flags, g = VStruct [n; VInt subindex; flags; VArr bufs] /\ ssbh_to_str n = Some name.
Definition loaded_influences (ver : mesh_version) (groups : list val) (name : list Z) (subindex : Z) (l : list bone_influence) : Prop :=
  exists parts, l = concat parts /\
    Forall2 (fun g part => (exists bufs, group_of_object g name subindex bufs /\ Forall2 (loaded_influence ver) bufs part) \/
                           ((forall bufs, ~ group_of_object g name subindex bufs) /\ part = [])) groups parts.

(** ** Objects and files *)
Definition loaded_object (ver : mesh_version) (bufs : list (list Z)) (ib : list Z) (groups : list val) (v : val) (o : mesh_object) : Prop :=
  exists r l, object_fields v r /\ Forall2 (attribute_fields ver) (r_attributes r) l /\
    ob_name o = ssbh_to_string_lossy (r_name r) /\ ob_subindex o = r_subindex r /\
    ob_parent o = ssbh_to_string_lossy (r_parent r) /\ ob_bias o = r_bias r /\
    (ob_no_write o = true <-> r_no_write r <> 0) /\ (ob_no_test o = true <-> r_no_test r <> 0) /\
    indices_at ib r (ob_indices o) /\
    loaded_usage bufs r l Position (ob_positions o) /\ loaded_usage bufs r l Normal (ob_normals o) /\
    loaded_usage bufs r l Binormal (ob_binormals o) /\ loaded_usage bufs r l Tangent (ob_tangents o) /\
    loaded_usage bufs r l TextureCoordinate (ob_texcoords o) /\ loaded_usage bufs r l ColorSet (ob_colors o) /\
    loaded_influences ver groups (ob_name o) (ob_subindex o) (ob_influences o).

(** Objects, vertex buffers, index buffer and rigging groups of a file *)
Definition mesh_fields (v : val) (os : list val) (bufs : list (list Z)) (ib : list Z) (groups : list val) : Prop :=
  exists name bounding unk sizes size,
    v = VStruct [VStruct [name; bounding; unk; VArr os; sizes; size; VArr (map VBytes bufs); VBytes ib; VArr groups]].
Definition layouts : list ((Z * Z) * mesh_version) := [((1, 8), MV8); ((1, 9), MV9); ((1, 10), MV10)].

(** ** Which files can be loaded *)

(** The vertices of an attribute lie inside its buffer. *)
Definition attribute_inside (bufs : list (list Z)) (r : raw_object) (a : attribute) : Prop :=
  0 <= a_buffer a < 4 /\ exists b, nth_error bufs (Z.to_nat (a_buffer a)) = Some b /\
  (0 < r_count r ->
     nth (Z.to_nat (a_buffer a)) (r_strides r) 0 <> 0 /\
     let '(d, w, _) := layout (a_type a) in
     a_offset a + nth (Z.to_nat (a_buffer a)) (r_offsets r) 0 + nth (Z.to_nat (a_buffer a)) (r_strides r) 0 * (r_count r - 1)
       + components d * w <= zlen b).
Definition indices_inside (ib : list Z) (r : raw_object) : Prop :=
  r_index_count r = 0 \/ r_index_offset r + index_size r * r_index_count r <= zlen ib.
Definition bones_named (groups : list val) (name : list Z) (subindex : Z) : Prop :=
  forall g bufs, In g groups -> group_of_object g name subindex bufs ->
  forall bone weights, In (VStruct [bone; weights]) bufs -> ssbh_to_str bone <> None.
Definition object_inside (ver : mesh_version) (bufs : list (list Z)) (ib : list Z) (groups : list val) (v : val) : Prop :=
  exists r l, object_fields v r /\ Forall2 (attribute_fields ver) (r_attributes r) l /\
    Forall (attribute_inside bufs r) l /\ indices_inside ib r /\
    bones_named groups (ssbh_to_string_lossy (r_name r)) (r_subindex r).

(** ** Loaded data that can be saved *)

(** The lists of an object and of its influences are not too long. *)
Definition lists_fit (o : mesh_object) : Prop :=
  zlen (all_attributes o) < 2 ^ 28 /\ zlen (ob_influences o) < 2 ^ 64 /\
  forall i, In i (ob_influences o) -> zlen (inf_weights i) < 2 ^ 61.
(** Names and subindices are not repeated, the indices form triangles, and there is a vertex
    for each index.  The other conditions of saving hold for everything that was loaded. *)
Definition saveable (d : mesh_data) : Prop :=
  NoDup (map object_key (mesh_objects d)) /\
  forall o, In o (mesh_objects d) -> triangles o /\
    forall i, In i (ob_indices o) -> exists a, In a (all_attributes o) /\ i < zlen (vec_rows (attr_data a)).
