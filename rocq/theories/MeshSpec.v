(** Specification for meshes. *)
From Coq Require Import Sorted Permutation.
From Verif Require Import Bytes Ssbh Formats File Strings AnimSpec DataSpec VecData MeshData.

(** ** Stored numbers *)

(** A pattern of 16 bits that stands for a NaN: all exponent bits set and a fraction *)
Definition f16_is_nan (x : Z) : bool := ((x / 2 ^ 10) mod 2 ^ 5 =? 31) && negb (x mod 2 ^ 10 =? 0).

(** [e] has [n] rows, each with the right number of components, each component in range. *)
Definition row_ok (t : data_type) (row : list Z) : bool :=
  (zlen row =? Z.of_nat (dim_count (type_dim t))) &&
  forallb (fun x => (0 <=? x) && (x <? 256 ^ component_size t)) row.
Definition encoded_ok (n : Z) (e : encoded) : bool :=
  (zlen (enc_rows e) =? n) && forallb (row_ok (enc_type e)) (enc_rows e).

(** The bytes of a row: its components in order, little endian *)
Definition row_bytes (t : data_type) (row : list Z) : list Z :=
  flat_map (le_bytes (Z.to_nat (component_size t))) row.
(** What a reader makes of stored rows *)
Definition decoded (e : encoded) : vector_data :=
  MkVec (type_dim (enc_type e)) (map (map (decode (enc_type e))) (enc_rows e)).

(** The size of one vertex: the sum of the sizes of the attributes *)
Definition vertex_size (l : list (list Z * Z * usage * encoded)) : Z :=
  zsum (map (fun i => size_in_bytes (enc_type (snd i))) l).

(** ** Mesh data of the Rust types, with text that can be stored (UTF-8 without NUL) *)
Definition vec_ok (v : vector_data) : bool :=
  forallb (fun row => (zlen row =? Z.of_nat (dim_count (vec_dim v))) && forallb is32 row) (vec_rows v).
Definition attr_ok (a : attribute_data) : bool := text_ok (attr_name a) && vec_ok (attr_data a).
Definition weight_ok (w : vertex_weight) : bool := is32 (wt_index w) && is32 (wt_weight w).
Definition inf_ok (i : bone_influence) : bool :=
  text_ok (inf_bone i) && (zlen (inf_weights i) <? 2 ^ 61) && forallb weight_ok (inf_weights i).
Definition all_attributes (o : mesh_object) : list attribute_data :=
  ob_positions o ++ ob_normals o ++ ob_binormals o ++ ob_tangents o ++ ob_texcoords o ++ ob_colors o.
Definition object_ok (o : mesh_object) : bool :=
  text_ok (ob_name o) && u64_ok (ob_subindex o) && text_ok (ob_parent o) && is32 (ob_bias o) &&
  forallb is32 (ob_indices o) && forallb attr_ok (all_attributes o) && (zlen (all_attributes o) <? 2 ^ 28) &&
  forallb inf_ok (ob_influences o) && len_ok (ob_influences o).
Definition mesh_ok (d : mesh_data) : bool := forallb object_ok (mesh_objects d) && len_ok (mesh_objects d).

(** ** Validity *)

(** Every vertex index is below the common length of the attributes; without attributes
    there are no vertices. *)
Definition has_vertex_count (o : mesh_object) (n : Z) : Prop :=
  (forall a, In a (all_attributes o) -> zlen (vec_rows (attr_data a)) = n) /\ (all_attributes o = [] -> n = 0).
Definition triangles (o : mesh_object) : Prop := exists k, zlen (ob_indices o) = 3 * k.
Definition object_valid (o : mesh_object) : Prop :=
  triangles o /\ exists n, has_vertex_count o n /\ (forall i, In i (ob_indices o) -> i < n).
Definition object_key (o : mesh_object) : list Z * Z := (ob_name o, ob_subindex o).
(** Version 1.10 stores the vertex indices of weights with 16 bits. *)
Definition weights_fit (d : mesh_data) : Prop :=
  mesh_minor d = 10 -> forall o i w, In o (mesh_objects d) -> In i (ob_influences o) -> In w (inf_weights i) -> wt_index w < 65536.
Definition mesh_valid (d : mesh_data) : Prop :=
  mesh_major d = 1 /\ (mesh_minor d = 8 \/ mesh_minor d = 9 \/ mesh_minor d = 10) /\
  NoDup (map object_key (mesh_objects d)) /\ Forall object_valid (mesh_objects d) /\ weights_fit d.

(** ** Sizes *)

(** The bytes of one vector, by the number of its components *)
Definition position_bytes (d : dim) : Z := match d with Two => 8 | Three => 12 | Four => 16 end.
Definition vector_bytes (ver : mesh_version) (d : dim) : Z :=
  match d, ver with Two, MV10 => 4 | Two, _ => 8 | Three, _ => 12 | Four, _ => 8 end.
Definition color_bytes (ver : mesh_version) (d : dim) : Z :=
  match d, ver with Two, MV10 => 4 | Two, _ => 8 | Three, _ => 12 | Four, _ => 4 end.
Definition attribute_bytes (size : dim -> Z) (l : list attribute_data) : Z :=
  zsum (map (fun a => size (vec_dim (attr_data a)) * zlen (vec_rows (attr_data a))) l).
(** The bytes an object takes in the vertex buffers 0 and 1, in buffer 2 (32 for each vertex,
    not used in version 1.10) and in the index buffer *)
Definition bytes0 (ver : mesh_version) (o : mesh_object) : Z :=
  attribute_bytes position_bytes (ob_positions o) + attribute_bytes (vector_bytes ver) (ob_normals o) +
  match ver with MV8 => 0 | _ => attribute_bytes (vector_bytes ver) (ob_binormals o) end +
  attribute_bytes (vector_bytes ver) (ob_tangents o).
Definition bytes1 (ver : mesh_version) (o : mesh_object) : Z :=
  attribute_bytes (vector_bytes ver) (ob_texcoords o) + attribute_bytes (color_bytes ver) (ob_colors o).
Definition bytes2 (ver : mesh_version) (o : mesh_object) : Z :=
  match ver, all_attributes o with
  | MV10, _ | _, [] => 0
  | _, a :: _ => 32 * zlen (vec_rows (attr_data a))
  end.
Definition index_bytes (o : mesh_object) : Z :=
  (if forallb (fun i => i <? 65536) (ob_indices o) then 2 else 4) * zlen (ob_indices o).
(** Every buffer is smaller than 4 GiB. *)
Definition mesh_fits (ver : mesh_version) (os : list mesh_object) : Prop :=
  zsum (map (bytes0 ver) os) < 2 ^ 32 /\ zsum (map (bytes1 ver) os) < 2 ^ 32 /\
  zsum (map (bytes2 ver) os) < 2 ^ 32 /\ zsum (map index_bytes os) < 2 ^ 32.

(** ** Places *)

(** The start and the number of bytes of the data of one MeshObject in the vertex buffers 0,
    1 and 2 and in the index buffer *)
Definition object_ranges (v : val) : list (Z * Z) :=
  match v with
  | VStruct [_; _; _; VInt count; VInt index_count; _; VInt o0; VInt o1; VInt o2; _; VInt s0; VInt s1; VInt s2; _;
             VInt io; _; VInt t; _; _; _; _; _] =>
      [(o0, count * s0); (o1, count * s1); (o2, count * s2); (io, index_count * (if t =? 0 then 2 else 4))]
  | _ => []
  end.
Definition in_range (r : Z * Z) (x : Z) : Prop := fst r <= x < fst r + snd r.
(** Objects, vertex buffers and index buffer of a mesh *)
Definition mesh_parts (v : val) : option (list val * list val * list Z) :=
  match v with
  | VStruct [VStruct [_; _; _; VArr os; _; _; VArr bufs; VBytes ib; _]] => Some (os, bufs, ib)
  | _ => None
  end.

(** ** Influences *)

(** The number of bones with a weight for vertex [v] *)
Definition influences_of (v : Z) (l : list bone_influence) : Z :=
  zlen (filter (fun i => existsb (fun w => wt_index w =? v) (inf_weights i)) l).

(** ** What is stored *)

(** Numbers as 16 bit floats and as colour bytes, read back *)
Definition half_rows (rows : list (list Z)) : list (list Z) := map (map (fun x => f16_to_f32 (f16_from_f32 x))) rows.
Definition colour_rows (rows : list (list Z)) : list (list Z) := map (map (fun x => u8_to_f32 (get_u8_clamped x))) rows.
(** Vectors of three components are kept exactly, those of four components become half
    floats (colours: bytes); those of two components become half floats in version 1.10. *)
Definition stored_vectors (ver : mesh_version) (v : vector_data) : vector_data :=
  match vec_dim v, ver with
  | Two, MV10 => MkVec Two (half_rows (vec_rows v))
  | Four, _ => MkVec Four (half_rows (vec_rows v))
  | _, _ => v
  end.
Definition stored_colors (ver : mesh_version) (v : vector_data) : vector_data :=
  match vec_dim v, ver with
  | Two, MV10 => MkVec Two (half_rows (vec_rows v))
  | Four, _ => MkVec Four (colour_rows (vec_rows v))
  | _, _ => v
  end.
(** Version 1.8 stores no names; they are made from the usage and the number. *)
Fixpoint stored_attributes (ver : mesh_version) (f : vector_data -> vector_data) (u : usage) (i : Z) (l : list attribute_data) :
  list attribute_data :=
  match l with
  | [] => []
  | a :: r =>
      MkAttr (match ver with MV8 => usage_text u ++ decimal i | _ => attr_name a end) (f (attr_data a))
      :: stored_attributes ver f u (i + 1) r
  end.
Definition stored_object (ver : mesh_version) (o : mesh_object) : mesh_object :=
  MkObj (ob_name o) (ob_subindex o) (ob_parent o) (ob_bias o) (ob_no_write o) (ob_no_test o) (ob_indices o)
        (stored_attributes ver (fun v => v) Position 0 (ob_positions o))
        (stored_attributes ver (stored_vectors ver) Normal 0 (ob_normals o))
        (match ver with MV8 => [] | _ => stored_attributes ver (stored_vectors ver) Binormal 0 (ob_binormals o) end)
        (stored_attributes ver (stored_vectors ver) Tangent 0 (ob_tangents o))
        (stored_attributes ver (stored_vectors ver) TextureCoordinate 0 (ob_texcoords o))
        (stored_attributes ver (stored_colors ver) ColorSet 0 (ob_colors o))
        (ob_influences o).

(** An object with other influences *)
Definition with_influences (l : list bone_influence) (o : mesh_object) : mesh_object :=
  MkObj (ob_name o) (ob_subindex o) (ob_parent o) (ob_bias o) (ob_no_write o) (ob_no_test o) (ob_indices o)
        (ob_positions o) (ob_normals o) (ob_binormals o) (ob_tangents o) (ob_texcoords o) (ob_colors o) l.

(** ** The order of rigging groups: by the bytes of the name, then by subindex *)
Definition text_lt (a b : list Z) : Prop :=
  (exists x r, b = a ++ x :: r) \/ (exists p x y r s, a = p ++ x :: r /\ b = p ++ y :: s /\ x < y).
Definition key_lt (a b : list Z * Z) : Prop := text_lt (fst a) (fst b) \/ (fst a = fst b /\ snd a < snd b).
(** A RiggingGroup: object name, subindex, the stored number of influences, the number of bones *)
Definition group_parts (v : val) : option (list Z * Z * Z * Z) :=
  match v with
  | VStruct [n; VInt sub; VStruct [VInt m; VInt 1]; VArr bones] => Some (ssbh_to_string_lossy n, sub, m, zlen bones)
  | _ => None
  end.

(** ** What each error of the conversion means *)
Definition mesh_violation (d : mesh_data) (e : err) : Prop :=
  match e with
  | EData DDuplicate => ~ NoDup (map object_key (mesh_objects d))
  | EData DVersion => ~ (mesh_major d = 1 /\ (mesh_minor d = 8 \/ mesh_minor d = 9 \/ mesh_minor d = 10))
  | EData DNotTriangles => exists o, In o (mesh_objects d) /\ ~ triangles o
  | EData DAttrLength => exists o, In o (mesh_objects d) /\
      exists a b, In a (all_attributes o) /\ In b (all_attributes o) /\ zlen (vec_rows (attr_data a)) <> zlen (vec_rows (attr_data b))
  | EData DIndexRange => exists o n i, In o (mesh_objects d) /\ has_vertex_count o n /\ In i (ob_indices o) /\ n <= i
  | EData DWeightIndex => ~ weights_fit d
  | _ => False
  end.

(** ** Parts used in statements *)

(** The bytes of the [b]-th part: vertex buffers 0, 1 and 2, index buffer *)
Definition part_bytes (bufs : list val) (ib : list Z) (b : nat) : list Z :=
  match b with
  | 3%nat => ib
  | _ => match nth_error bufs b with Some (VBytes bs) => bs | _ => [] end
  end.
(** The value of a bounding function is a BoundingInfo. *)
Definition bounding_ok (bounding : list (list Z) -> val) : Prop := forall l, wt BoundingInfo (bounding l) = true.

(** The layout selected by the version of the data *)
Definition mesh_version_of (d : mesh_data) : mesh_version :=
  if mesh_minor d =? 8 then MV8 else if mesh_minor d =? 9 then MV9 else MV10.
(** What is loaded after saving [d] *)
Definition stored_mesh (d : mesh_data) : mesh_data :=
  MkMesh (mesh_major d) (mesh_minor d) (map (stored_object (mesh_version_of d)) (mesh_objects d)).
(** The attributes that every version stores; version 1.8 does not store binormals. *)
Definition other_attributes (o : mesh_object) : list attribute_data :=
  ob_positions o ++ ob_normals o ++ ob_tangents o ++ ob_texcoords o ++ ob_colors o.
