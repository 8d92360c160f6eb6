(** Specification for converting meshes between versions. *)
From Verif Require Import Bytes Ssbh VecData MeshData MeshSpec.

(** The data with another version, as a program sets the fields major_version and
    minor_version (mesh_data.rs:484-488) *)
Definition in_version (minor : Z) (d : mesh_data) : mesh_data := MkMesh 1 minor (mesh_objects d).

(** [d'] is what is loaded after saving [d] in each of the versions 1.[vs] in turn, each time
    loading the file before saving it in the next version.  Files are smaller than 2^63 bytes. *)
Inductive conversions (bounding : list (list Z) -> val) : list Z -> mesh_data -> mesh_data -> Prop :=
| conv_none d : conversions bounding [] d d
| conv_more vs v d d1 d2 out : conversions bounding vs d d1 ->
    mesh_data_write bounding (in_version v d1) = Ok out -> zlen out < 2 ^ 63 -> mesh_data_read out = Ok d2 ->
    conversions bounding (vs ++ [v]) d d2.

(** What is left of an object depends on two facts only: whether version 1.8 was used and
    whether version 1.10 was used. *)
Definition left_names (vs : list Z) (u : usage) (i : Z) (name : list Z) : list Z :=
  if existsb (Z.eqb 8) vs then usage_text u ++ decimal i else name.
Definition left_pairs (vs : list Z) (rows : list (list Z)) : list (list Z) :=
  if existsb (Z.eqb 10) vs then half_rows rows else rows.
Definition left_vectors (vs : list Z) (v : vector_data) : vector_data :=
  match vec_dim v with
  | Two => MkVec Two (left_pairs vs (vec_rows v)) | Three => v | Four => MkVec Four (half_rows (vec_rows v))
  end.
Definition left_colors (vs : list Z) (v : vector_data) : vector_data :=
  match vec_dim v with
  | Two => MkVec Two (left_pairs vs (vec_rows v)) | Three => v | Four => MkVec Four (colour_rows (vec_rows v))
  end.
Fixpoint left_attributes (vs : list Z) (f : vector_data -> vector_data) (u : usage) (i : Z) (l : list attribute_data) : list attribute_data :=
  match l with
  | [] => []
  | a :: r => MkAttr (left_names vs u i (attr_name a)) (f (attr_data a)) :: left_attributes vs f u (i + 1) r
  end.
Definition left_object (vs : list Z) (o : mesh_object) : mesh_object :=
  MkObj (ob_name o) (ob_subindex o) (ob_parent o) (ob_bias o) (ob_no_write o) (ob_no_test o) (ob_indices o)
        (left_attributes vs (fun v => v) Position 0 (ob_positions o))
        (left_attributes vs (left_vectors vs) Normal 0 (ob_normals o))
        (if existsb (Z.eqb 8) vs then [] else left_attributes vs (left_vectors vs) Binormal 0 (ob_binormals o))
        (left_attributes vs (left_vectors vs) Tangent 0 (ob_tangents o))
        (left_attributes vs (left_vectors vs) TextureCoordinate 0 (ob_texcoords o))
        (left_attributes vs (left_colors vs) ColorSet 0 (ob_colors o))
        (ob_influences o).

(** The version 1.[v] can store a mesh that was converted through the versions 1.[vs]: it is
    known, it has room for the vertex indices of the weights, and there are vertices left for
    the indices. *)
Definition convertible (vs : list Z) (v : Z) (d : mesh_data) : Prop :=
  In v [8; 9; 10] /\
  (v = 10 -> forall o i w, In o (mesh_objects d) -> In i (ob_influences o) -> In w (inf_weights i) -> wt_index w < 65536) /\
  (In 8 vs -> forall o, In o (mesh_objects d) -> ob_indices o = [] \/ other_attributes o <> []).
