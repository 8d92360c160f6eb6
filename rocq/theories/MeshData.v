(** MeshData: validation, vertex and index buffers, rigging, conversion to and from Mesh,
    saving and loading.  f32 and i32 values are bit patterns, text is its UTF-8 bytes.
    Paths below are relative to /repo/ssbh_data/src. *)
From Verif Require Import Bytes Ssbh Formats File Strings AnimBuf VecData.

(** ** Data *)

(** AttributeData, mesh_data.rs:587-590 *)
Record attribute_data := MkAttr { attr_name : list Z; attr_data : vector_data }.
(** VertexWeight, mesh_data.rs:181-184 *)
Record vertex_weight := MkWeight { wt_index : Z; wt_weight : Z }.
(** BoneInfluence, mesh_data.rs:474-477 *)
Record bone_influence := MkInf { inf_bone : list Z; inf_weights : list vertex_weight }.
(** MeshObjectData, mesh_data.rs:558-581 *)
Record mesh_object := MkObj {
  ob_name : list Z; ob_subindex : Z; ob_parent : list Z; ob_bias : Z;
  ob_no_write : bool; ob_no_test : bool; ob_indices : list Z;
  ob_positions : list attribute_data; ob_normals : list attribute_data;
  ob_binormals : list attribute_data; ob_tangents : list attribute_data;
  ob_texcoords : list attribute_data; ob_colors : list attribute_data;
  ob_influences : list bone_influence
}.
(** MeshData, mesh_data.rs:484-488 *)
Record mesh_data := MkMesh { mesh_major : Z; mesh_minor : Z; mesh_objects : list mesh_object }.

(** [VectorData::len], mesh_data/vector_data.rs:38-44 *)
Definition attr_len (a : attribute_data) : Z := zlen (vec_rows (attr_data a)).

(** vertex_count, mesh_data.rs:597-621 *)
Definition vertex_count (o : mesh_object) : res Z :=
  let sizes := map attr_len (ob_positions o) ++ map attr_len (ob_normals o) ++ map attr_len (ob_binormals o)
               ++ map attr_len (ob_tangents o) ++ map attr_len (ob_texcoords o) ++ map attr_len (ob_colors o) in
  match sizes with
  | [] => Ok 0
  | s :: r => if forallb (Z.eqb s) r then Ok s else Err (EData DAttrLength)
  end.

(** validate_mesh_object_subindices, mesh_data.rs:741-757.  The hash map from names to sets of
    subindices is the list of the pairs entered so far. *)
Fixpoint validate_from (seen : list (list Z * Z)) (os : list mesh_object) : res unit :=
  match os with
  | [] => Ok tt
  | o :: r =>
      if existsb (fun p => list_eqb (fst p) (ob_name o) && (snd p =? ob_subindex o)) seen
      then Err (EData DDuplicate)
      else validate_from ((ob_name o, ob_subindex o) :: seen) r
  end.
Definition validate_mesh_object_subindices (os : list mesh_object) : res unit := validate_from [] os.

(** ** Attributes *)

(** AttributeUsage, mesh_data.rs:71-78 *)
Inductive usage := Position | Normal | Binormal | Tangent | TextureCoordinate | ColorSet.
Definition usage_eqb (a b : usage) : bool :=
  match a, b with
  | Position, Position | Normal, Normal | Binormal, Binormal | Tangent, Tangent
  | TextureCoordinate, TextureCoordinate | ColorSet, ColorSet => true
  | _, _ => false
  end.

(** The numbers of AttributeUsageV8 (without binormals) and AttributeUsageV9,
    ssbh_lib/src/formats/mesh.rs:340-368 *)
Definition usage_number (ver : mesh_version) (u : usage) : Z :=
  match ver with
  | MV8 => match u with Position => 0 | Normal => 1 | Binormal => -1 | Tangent => 3 | TextureCoordinate => 4 | ColorSet => 8 end
  | _ => match u with Position => 0 | Normal => 1 | Binormal => 2 | Tangent => 3 | TextureCoordinate => 4 | ColorSet => 5 end
  end.
Definition un_usage (ver : mesh_version) (n : Z) : res usage :=
  match ver with
  | MV8 => if n =? 0 then Ok Position else if n =? 1 then Ok Normal else if n =? 3 then Ok Tangent
           else if n =? 4 then Ok TextureCoordinate else if n =? 8 then Ok ColorSet else Err EType
  | _ => if n =? 0 then Ok Position else if n =? 1 then Ok Normal else if n =? 2 then Ok Binormal
         else if n =? 3 then Ok Tangent else if n =? 4 then Ok TextureCoordinate
         else if n =? 5 then Ok ColorSet else Err EType
  end.
(** The numbers of AttributeDataTypeV8 (used by 1.8 and 1.9, without HalfFloat2) and
    AttributeDataTypeV10, ssbh_lib/src/formats/mesh.rs:297-338 *)
Definition type_number (ver : mesh_version) (t : data_type) : Z :=
  match ver with
  | MV10 => match t with Float3 => 0 | Byte4 => 2 | Float4 => 4 | HalfFloat4 => 5 | Float2 => 7 | HalfFloat2 => 8 end
  | _ => match t with Float3 => 820 | Float4 => 1076 | HalfFloat4 => 1077 | Float2 => 1079 | Byte4 => 1024 | HalfFloat2 => -1 end
  end.
(** From<AttributeDataTypeV10> and From<AttributeDataTypeV8> for DataType, mesh_data.rs:186-209 *)
Definition un_type (ver : mesh_version) (n : Z) : res data_type :=
  match ver with
  | MV10 => if n =? 0 then Ok Float3 else if n =? 2 then Ok Byte4 else if n =? 4 then Ok Float4
            else if n =? 5 then Ok HalfFloat4 else if n =? 7 then Ok Float2 else if n =? 8 then Ok HalfFloat2 else Err EType
  | _ => if n =? 820 then Ok Float3 else if n =? 1076 then Ok Float4 else if n =? 1077 then Ok HalfFloat4
         else if n =? 1079 then Ok Float2 else if n =? 1024 then Ok Byte4 else Err EType
  end.

(** AttributeV8, AttributeV9 and AttributeV10 *)
Record attribute := MkAttribute {
  a_name : list Z; a_sub : Z; a_buffer : Z; a_usage : usage; a_type : data_type; a_offset : Z
}.

(** get_attributes, mesh_data/mesh_attributes.rs:142-153, from number [i] on *)
Fixpoint get_attributes (f : vector_data -> encoded) (u : usage) (i : Z) (l : list attribute_data) :
  list (list Z * Z * usage * encoded) :=
  match l with
  | [] => []
  | a :: r => (attr_name a, i, u, f (attr_data a)) :: get_attributes f u (i + 1) r
  end.
(** buffer0_data and buffer1_data of create_attributes_v8, _v9 and _v10,
    mesh_data/mesh_attributes.rs:65-140 *)
Definition buffer0_data (ver : mesh_version) (o : mesh_object) : list (list Z * Z * usage * encoded) :=
  get_attributes (from_positions ver) Position 0 (ob_positions o)
  ++ get_attributes (from_vectors ver) Normal 0 (ob_normals o)
  ++ match ver with MV8 => [] | _ => get_attributes (from_vectors ver) Binormal 0 (ob_binormals o) end
  ++ get_attributes (from_vectors ver) Tangent 0 (ob_tangents o).
Definition buffer1_data (ver : mesh_version) (o : mesh_object) : list (list Z * Z * usage * encoded) :=
  get_attributes (from_vectors ver) TextureCoordinate 0 (ob_texcoords o)
  ++ get_attributes (from_colors ver) ColorSet 0 (ob_colors o).

(** create_buffer_attributes, mesh_data/mesh_attributes.rs:218-245, with create_attribute_v8,
    _v9 and _v10, 286-339: the offset is the sum of the sizes before *)
Fixpoint create_buffer_attributes (buffer offset : Z) (l : list (list Z * Z * usage * encoded)) :
  list (attribute * encoded) :=
  match l with
  | [] => []
  | (name, i, u, e) :: r =>
      (MkAttribute name i buffer u (enc_type e) (offset mod 2 ^ 32), e)
      :: create_buffer_attributes buffer (offset + size_in_bytes (enc_type e)) r
  end.

Definition zsum (l : list Z) : Z := fold_right Z.add 0 l.
(** [attributes.iter().map(size_in_bytes).sum() as u32], mesh_data/mesh_attributes.rs:44-53 *)
Definition total_stride (l : list (attribute * encoded)) : Z :=
  zsum (map (fun p => size_in_bytes (a_type (fst p))) l) mod 2 ^ 32.

Definition text_map1 : list Z := [109; 97; 112; 49].        (* map1 *)
Definition text_uvset : list Z := [117; 118; 83; 101; 116]. (* uvSet *)
(** calculate_attribute_name, mesh_data/mesh_attributes.rs:341-349 *)
Definition calculate_attribute_name (u : usage) (sub : Z) (name : list Z) : val :=
  match u with
  | Tangent => if sub =? 0 then ssbh_string text_map1 else ssbh_string name
  | Binormal => if sub =? 0 then ssbh_string text_map1
                else if sub =? 1 then ssbh_string text_uvset else ssbh_string name
  | _ => ssbh_string name
  end.
(** create_attribute_v8, _v9 and _v10, mesh_data/mesh_attributes.rs:286-339 *)
Definition attribute_val (ver : mesh_version) (a : attribute) : val :=
  match ver with
  | MV8 => VStruct [VInt (usage_number ver (a_usage a)); VInt (type_number ver (a_type a));
                    VInt (a_buffer a); VInt (a_offset a); VInt (a_sub a mod 2 ^ 32)]
  | _ => VStruct [VInt (usage_number ver (a_usage a)); VInt (type_number ver (a_type a));
                  VInt (a_buffer a); VInt (a_offset a); VInt (a_sub a);
                  calculate_attribute_name (a_usage a) (a_sub a) (a_name a); VArr [ssbh_string (a_name a)]]
  end.

(** ** Vertex indices *)

(** VertexIndices, mesh_data.rs:891-894 *)
Inductive vertex_indices := UnsignedInt (l : list Z) | UnsignedShort (l : list Z).
(** convert_indices, mesh_data.rs:1070-1077 *)
Definition convert_indices (l : list Z) : vertex_indices :=
  if forallb (fun i => i <? 2 ^ 16) l then UnsignedShort l else UnsignedInt l.
(** write_vertex_indices, mesh_data.rs:1050-1068 *)
Definition write_vertex_indices (v : vertex_indices) (c : cursor) : cursor :=
  match v with
  | UnsignedInt l => write_components 4 l c
  | UnsignedShort l => write_components 2 l c
  end.
(** DrawElementType, mesh_data.rs:966-969 and ssbh_lib/src/formats/mesh.rs:288-293 *)
Definition draw_element_type (v : vertex_indices) : Z :=
  match v with UnsignedInt _ => 1 | UnsignedShort _ => 0 end.
(** [vertex_indices.iter().max()] *)
Definition max_index (l : list Z) : option Z :=
  match l with [] => None | x :: r => Some (fold_left Z.max r x) end.

(** ** Rigging *)

(** calculate_max_influences, mesh_data.rs:759-775.  The hash set of the vertices of one bone
    is a list without repetitions, the hash map of counts an association list. *)
Fixpoint count_vertex (v : Z) (counts : list (Z * Z)) : list (Z * Z) :=
  match counts with
  | [] => [(v, 1)]
  | (v', n) :: r => if v' =? v then (v', n + 1) :: r else (v', n) :: count_vertex v r
  end.
Fixpoint insert_all (l seen : list Z) : list Z :=
  match l with
  | [] => seen
  | v :: r => insert_all r (if existsb (Z.eqb v) seen then seen else v :: seen)
  end.
Definition count_influence (counts : list (Z * Z)) (i : bone_influence) : list (Z * Z) :=
  fold_left (fun c v => count_vertex v c) (insert_all (map wt_index (inf_weights i)) []) counts.
Definition calculate_max_influences (l : list bone_influence) : Z :=
  match map snd (fold_left count_influence l []) with
  | [] => 0
  | n :: r => fold_left Z.max r n
  end.

(** create_vertex_weights_v10, mesh_data.rs:819-836 *)
Fixpoint create_vertex_weights_v10 (l : list vertex_weight) : res (list Z) :=
  match l with
  | [] => Ok []
  | w :: r =>
      if wt_index w <? 2 ^ 16 then
        let* bs := create_vertex_weights_v10 r in
        Ok (le_bytes 2 (wt_index w) ++ le_bytes 4 (wt_weight w) ++ bs)
      else Err (EData DWeightIndex)
  end.
(** from_weights, mesh_data.rs:347-366; create_vertex_weights_v8, mesh_data.rs:838-848 *)
Definition from_weights (ver : mesh_version) (l : list vertex_weight) : res val :=
  match ver with
  | MV10 => let* bs := create_vertex_weights_v10 l in Ok (VBytes bs)
  | _ => Ok (VArr (map (fun w => VStruct [VInt (wt_index w); VInt (wt_weight w)]) l))
  end.
(** The loop over the influences, mesh_data.rs:792-799 *)
Fixpoint bone_buffers (ver : mesh_version) (l : list bone_influence) : res (list val) :=
  match l with
  | [] => Ok []
  | i :: r =>
      let* w := from_weights ver (inf_weights i) in
      let* rest := bone_buffers ver r in
      Ok (VStruct [ssbh_string (inf_bone i); w] :: rest)
  end.

(** Lexicographic order of byte strings, and of pairs of a string and a number *)
Fixpoint text_leb (a b : list Z) : bool :=
  match a, b with
  | [], _ => true
  | _ :: _, [] => false
  | x :: a', y :: b' => if x =? y then text_leb a' b' else x <? y
  end.
Definition key_leb (a b : list Z * Z) : bool :=
  if list_eqb (fst a) (fst b) then snd a <=? snd b else text_leb (fst a) (fst b).
(** [sort_by_key], a stable sort, as insertion sort *)
Fixpoint insert_by {A} (leb : A -> A -> bool) (x : A) (l : list A) : list A :=
  match l with
  | [] => [x]
  | y :: r => if leb x y then x :: y :: r else y :: insert_by leb x r
  end.
Definition sort_by {A} (leb : A -> A -> bool) (l : list A) : list A := fold_right (insert_by leb) [] l.

(** RiggingGroup: key and value *)
Definition group_key (v : val) : list Z * Z :=
  match v with
  | VStruct [n; VInt i; _; _] => (ssbh_to_string_lossy n, i)
  | _ => ([], 0)
  end.
(** The groups before sorting, mesh_data.rs:782-809 *)
Fixpoint rigging_groups (ver : mesh_version) (os : list mesh_object) : res (list val) :=
  match os with
  | [] => Ok []
  | o :: r =>
      let* buffers := bone_buffers ver (ob_influences o) in
      let* rest := rigging_groups ver r in
      Ok (VStruct [ssbh_string (ob_name o); VInt (ob_subindex o);
                   VStruct [VInt (calculate_max_influences (ob_influences o) mod 2 ^ 8); VInt 1]; VArr buffers] :: rest)
  end.
(** create_rigging_buffers, mesh_data.rs:777-817 *)
Definition create_rigging_buffers (ver : mesh_version) (os : list mesh_object) : res (list val) :=
  let* groups := rigging_groups ver os in
  Ok (sort_by (fun a b => key_leb (group_key a) (group_key b)) groups).

(** ** Building a mesh *)

(** The cursors of create_mesh_objects, mesh_data.rs:902-912 *)
Record buffers := MkBufs {
  buf0 : cursor; buf1 : cursor; buf2 : cursor; buf3 : cursor; buf2_offset : Z; index_buf : cursor
}.
Definition no_buffers : buffers := MkBufs ([], 0) ([], 0) ([], 0) ([], 0) 0 ([], 0).

Section Bounding.
(** calculate_bounding_info, mesh_data.rs:1198-1222, uses another crate (geometry_tools); the
    BoundingInfo computed from a list of points is an argument. *)
Variable bounding : list (list Z) -> val.

Definition first_positions (o : mesh_object) : list (list Z) :=
  match ob_positions o with a :: _ => to_vec3 (attr_data a) | [] => [] end.

(** create_mesh_object, mesh_data.rs:938-1048 *)
Definition create_mesh_object (ver : mesh_version) (o : mesh_object) (s : buffers) : res (val * buffers) :=
  if negb (zlen (ob_indices o) mod 3 =? 0) then Err (EData DNotTriangles)
  else
    let* count := vertex_count o in
    if match max_index (ob_indices o) with Some m => count <=? m | None => false end then Err (EData DIndexRange)
    else
      let indices := convert_indices (ob_indices o) in
      let attrs0 := create_buffer_attributes 0 0 (buffer0_data ver o) in
      let attrs1 := create_buffer_attributes 1 0 (buffer1_data ver o) in
      let stride0 := total_stride attrs0 in
      let stride1 := total_stride attrs1 in
      let stride2 := 32 in
      let stride3 := 0 in
      let use_buffer2 := match ver with MV10 => false | _ => true end in
      let b0 := write_buffer (map snd attrs0) (snd (buf0 s)) stride0 (buf0 s) in
      let b1 := write_buffer (map snd attrs1) (snd (buf1 s)) stride1 (buf1 s) in
      let b2 := if use_buffer2 then write_all (repeat 0 (Z.to_nat (stride2 * count))) (buf2 s) else buf2 s in
      let v :=
        VStruct [ssbh_string (ob_name o); VInt (ob_subindex o); ssbh_string (ob_parent o);
                 VInt (count mod 2 ^ 32); VInt (zlen (ob_indices o) mod 2 ^ 32); VInt 3;
                 VInt (snd (buf0 s) mod 2 ^ 32); VInt (snd (buf1 s) mod 2 ^ 32);
                 VInt (buf2_offset s mod 2 ^ 32); VInt (snd (buf3 s) mod 2 ^ 32);
                 VInt stride0; VInt stride1; VInt (if use_buffer2 then stride2 else 0); VInt stride3;
                 VInt (snd (index_buf s) mod 2 ^ 32); VInt 4; VInt (draw_element_type indices);
                 VInt (match ob_influences o with [] => 0 | _ => 1 end); VInt (ob_bias o);
                 VStruct [VInt (Z.b2z (ob_no_write o)); VInt (Z.b2z (ob_no_test o))];
                 bounding (first_positions o);
                 VArr (map (fun p => attribute_val ver (fst p)) (attrs0 ++ attrs1))] in
      Ok (v, MkBufs b0 b1 b2 (buf3 s) (buf2_offset s + count * stride2) (write_vertex_indices indices (index_buf s))).

(** create_mesh_objects, mesh_data.rs:896-936 *)
Fixpoint create_mesh_objects (ver : mesh_version) (os : list mesh_object) (s : buffers) : res (list val * buffers) :=
  match os with
  | [] => Ok ([], s)
  | o :: r =>
      let* (v, s) := create_mesh_object ver o s in
      let* (vs, s) := create_mesh_objects ver r s in
      Ok (v :: vs, s)
  end.

(** create_mesh_inner, mesh_data.rs:712-739 *)
Definition create_mesh_inner (ver : mesh_version) (os : list mesh_object) : res val :=
  let* (vs, s) := create_mesh_objects ver os no_buffers in
  let* rigging := create_rigging_buffers ver os in
  let vertex_buffers := [fst (buf0 s); fst (buf1 s); fst (buf2 s); fst (buf3 s)] in
  Ok (VStruct [VStruct [ssbh_string []; bounding (flat_map first_positions os); VInt 0; VArr vs;
                        VArr (map (fun b => VInt (zlen b mod 2 ^ 32)) vertex_buffers);
                        VInt (zlen (fst (index_buf s))); VArr (map VBytes vertex_buffers);
                        VBytes (fst (index_buf s)); VArr rigging]]).

(** create_mesh, mesh_data.rs:676-710 *)
Definition version_of (major minor : Z) : option mesh_version :=
  if (major =? 1) && (minor =? 10) then Some MV10
  else if (major =? 1) && (minor =? 8) then Some MV8
  else if (major =? 1) && (minor =? 9) then Some MV9
  else None.
Definition create_mesh (d : mesh_data) : res val :=
  let* _ := validate_mesh_object_subindices (mesh_objects d) in
  match version_of (mesh_major d) (mesh_minor d) with
  | Some ver => create_mesh_inner ver (mesh_objects d)
  | None => Err (EData DVersion)
  end.

(** MeshData::write, lib.rs:110-122 *)
Definition mesh_data_write (d : mesh_data) : res (list Z) :=
  let* v := create_mesh d in typed_write Mesh (mesh_major d, mesh_minor d) v.
End Bounding.

(** ** Reading a mesh *)

(** Decimal digits of a number, as printed by [format!] *)
Fixpoint digits (fuel : nat) (n : Z) (acc : list Z) : list Z :=
  match fuel with
  | O => acc
  | S fuel => if n <? 10 then (48 + n) :: acc else digits fuel (n / 10) ((48 + n mod 10) :: acc)
  end.
(** A u32 has at most ten digits. *)
Definition decimal (n : Z) : list Z := digits 10 n [].

(** The prefixes of the names generated for version 1.8, mesh_data.rs:269-275 *)
Definition usage_text (u : usage) : list Z :=
  match u with
  | Position => [80; 111; 115; 105; 116; 105; 111; 110]
  | Normal => [78; 111; 114; 109; 97; 108]
  | Binormal => []   (* does not occur in 1.8 *)
  | Tangent => [84; 97; 110; 103; 101; 110; 116]
  | TextureCoordinate => [84; 101; 120; 116; 117; 114; 101; 67; 111; 111; 114; 100; 105; 110; 97; 116; 101]
  | ColorSet => [99; 111; 108; 111; 114; 83; 101; 116]
  end.

(** to_attribute and usage, mesh_data.rs:264-337, with get_attribute_name_v9 and _v10, 1265-1271.
    [a_sub] is not part of MeshAttribute. *)
Definition un_attribute (ver : mesh_version) (v : val) : res attribute :=
  match ver, v with
  | MV8, VStruct [VInt u; VInt t; VInt bi; VInt bo; VInt si] =>
      let* u := un_usage ver u in let* t := un_type ver t in
      Ok (MkAttribute (usage_text u ++ decimal si) si bi u t bo)
  | MV9, VStruct [VInt u; VInt t; VInt bi; VInt bo; VInt si; _; VArr names]
  | MV10, VStruct [VInt u; VInt t; VInt bi; VInt bo; VInt si; _; VArr names] =>
      let* u := un_usage ver u in let* t := un_type ver t in
      Ok (MkAttribute (match names with n :: _ => ssbh_to_string_lossy n | [] => [] end) si bi u t bo)
  | _, _ => Err EType
  end.

(** MeshObject with the fields that are read *)
Record raw_object := MkRaw {
  r_name : val; r_subindex : Z; r_parent : val; r_count : Z; r_index_count : Z;
  r_offsets : list Z; r_strides : list Z; r_index_offset : Z; r_type : Z; r_bias : Z;
  r_no_write : Z; r_no_test : Z; r_attributes : list val
}.
Definition un_raw (v : val) : res raw_object :=
  match v with
  | VStruct [n; VInt si; p; VInt c; VInt ic; VInt _; VInt o0; VInt o1; VInt o2; VInt o3; VInt s0; VInt s1; VInt s2; VInt s3;
             VInt io; VInt _; VInt t; VInt _; VInt bias; VStruct [VInt nw; VInt nt]; _; VArr attrs] =>
      Ok (MkRaw n si p c ic [o0; o1; o2; o3] [s0; s1; s2; s3] io t bias nw nt attrs)
  | _ => Err EType
  end.

(** read_data, mesh_data.rs:1273-1284 *)
Definition read_data (w : Z) (b : list Z) (count offset : Z) : res (list Z) :=
  read_components (Z.to_nat count) w b offset.
(** read_vertex_indices, mesh_data.rs:212-224 *)
Definition read_vertex_indices (index_buffer : list Z) (o : raw_object) : res (list Z) :=
  if r_type o =? 0 then read_data 2 index_buffer (r_index_count o) (r_index_offset o)
  else read_data 4 index_buffer (r_index_count o) (r_index_offset o).

(** calculate_offset_stride, mesh_data.rs:404-428 *)
Definition calculate_offset_stride (a : attribute) (o : raw_object) : res (Z * Z) :=
  match nth_error (r_offsets o) (Z.to_nat (a_buffer a)), nth_error (r_strides o) (Z.to_nat (a_buffer a)) with
  | Some offset, Some stride => Ok (a_offset a + offset, stride)
  | _, _ => Err (EData DNoStride)
  end.
(** read_attribute_data, mesh_data.rs:382-402 *)
Definition read_attribute_data (vertex_buffers : list (list Z)) (o : raw_object) (a : attribute) : res vector_data :=
  match nth_error vertex_buffers (Z.to_nat (a_buffer a)) with
  | None => Err (EData DBufferIndex)
  | Some b =>
      let* (offset, stride) := calculate_offset_stride a o in
      vector_read b (r_count o) offset stride (a_type a)
  end.
(** The loop of read_attributes, mesh_data.rs:430-444, over the attributes of one usage
    (get_attributes, mesh_data.rs:1252-1263) *)
Fixpoint read_each (vertex_buffers : list (list Z)) (o : raw_object) (l : list attribute) : res (list attribute_data) :=
  match l with
  | [] => Ok []
  | a :: r =>
      let* d := read_attribute_data vertex_buffers o a in
      let* rest := read_each vertex_buffers o r in
      Ok (MkAttr (a_name a) d :: rest)
  end.
Definition read_attributes (vertex_buffers : list (list Z)) (o : raw_object) (l : list attribute) (u : usage) :
  res (list attribute_data) :=
  read_each vertex_buffers o (filter (fun a => usage_eqb (a_usage a) u) l).

(** to_weights for SsbhByteBuffer, mesh_data.rs:368-379: until a read fails *)
Fixpoint weights_of_bytes (bs : list Z) : list vertex_weight :=
  match bs with
  | a :: b :: c :: d :: e :: f :: r => MkWeight (le_val [a; b]) (le_val [c; d; e; f]) :: weights_of_bytes r
  | _ => []
  end.
(** to_weights for SsbhArray<VertexWeightV8>, mesh_data.rs:352-360 *)
Definition un_weight (v : val) : res vertex_weight :=
  match v with VStruct [VInt i; VInt w] => Ok (MkWeight i w) | _ => Err EType end.
Definition to_weights (ver : mesh_version) (v : val) : res (list vertex_weight) :=
  match ver, v with
  | MV10, VBytes bs => Ok (weights_of_bytes bs)
  | MV8, VArr l | MV9, VArr l => un_list un_weight l
  | _, _ => Err EType
  end.
(** read_influences, mesh_data.rs:1224-1243 *)
Definition un_influence (ver : mesh_version) (v : val) : res bone_influence :=
  match v with
  | VStruct [n; w] =>
      match ssbh_to_str n with
      | None => Err (EData DBoneName)
      | Some name => let* ws := to_weights ver w in Ok (MkInf name ws)
      end
  | _ => Err EType
  end.
(** read_rigging_data, mesh_data.rs:447-468 *)
Fixpoint read_rigging_data (ver : mesh_version) (groups : list val) (name : list Z) (subindex : Z) : res (list bone_influence) :=
  match groups with
  | [] => Ok []
  | g :: r =>
      match g with
      | VStruct [n; VInt i; _; VArr bufs] =>
          if match ssbh_to_str n with Some s => list_eqb s name | None => false end && (i =? subindex) then
            let* l := un_list (un_influence ver) bufs in
            let* rest := read_rigging_data ver r name subindex in
            Ok (l ++ rest)
          else read_rigging_data ver r name subindex
      | _ => Err EType
      end
  end.

(** One object of read_mesh_objects_inner, mesh_data.rs:636-671 *)
Definition read_mesh_object (ver : mesh_version) (vertex_buffers : list (list Z)) (index_buffer : list Z) (rigging : list val) (v : val) :
  res mesh_object :=
  let* o := un_raw v in
  let* attrs := un_list (un_attribute ver) (r_attributes o) in
  let name := ssbh_to_string_lossy (r_name o) in
  let* indices := read_vertex_indices index_buffer o in
  let* positions := read_attributes vertex_buffers o attrs Position in
  let* normals := read_attributes vertex_buffers o attrs Normal in
  let* tangents := read_attributes vertex_buffers o attrs Tangent in
  let* binormals := read_attributes vertex_buffers o attrs Binormal in
  let* texcoords := read_attributes vertex_buffers o attrs TextureCoordinate in
  let* colors := read_attributes vertex_buffers o attrs ColorSet in
  let* influences := read_rigging_data ver rigging name (r_subindex o) in
  Ok (MkObj name (r_subindex o) (ssbh_to_string_lossy (r_parent o)) (r_bias o)
            (negb (r_no_write o =? 0)) (negb (r_no_test o =? 0)) indices positions normals binormals tangents
            texcoords colors influences).

Definition un_bytes (v : val) : res (list Z) := match v with VBytes bs => Ok bs | _ => Err EType end.
(** TryFrom<&Mesh> for MeshData, mesh_data.rs:514-525, with read_mesh_objects, 624-674 *)
Definition un_mesh (version : Z * Z) (v : val) : res mesh_data :=
  match version_of (fst version) (snd version), v with
  | Some ver, VStruct [VStruct [_; _; _; VArr os; _; _; VArr bufs; VBytes ib; VArr rigging]] =>
      let* bufs := un_list un_bytes bufs in
      let* objects := un_list (read_mesh_object ver bufs ib rigging) os in
      Ok (MkMesh (fst version) (snd version) objects)
  | _, _ => Err EType
  end.

(** MeshData::read, lib.rs:110-122 *)
Definition mesh_data_read (b : list Z) : res mesh_data :=
  let* (version, v) := typed_read Mesh b in un_mesh version v.
