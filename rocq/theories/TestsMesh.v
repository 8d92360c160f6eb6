(** The tests of ssbh_data/src/mesh_data.rs and of mesh_data/{vector_data,mesh_attributes}.rs as
    examples about the model.  Tests, not proofs: no theorem depends on this file. *)
From Verif Require Import Bytes Ssbh Formats File Strings Float32 VecData MeshData TransformData TestTools.

Definition fs : list string -> list Z := map f.
Definition halves (l : list string) : list Z := map f16_from_f32 (fs l).

(** ** vector_data.rs *)

Example read_vector_data_count0 :
  returns (vector_read (hex "01020304") 0 0 0 Byte4) (fun v => v = MkVec Four []).
Proof. reflexivity. Qed.
Example read_vector_data_count1 :
  returns (vector_read (hex "004080FF") 1 0 4 Byte4)
    (fun v => v = MkVec Four [map (fun x => bits_of_f32 (div32 (f32_of (f x)) (f32_of (f "255.0"))))
                                 ["0.0"; "64.0"; "128.0"; "255.0"]%string]).
Proof. vm_compute. reflexivity. Qed.
Example read_vector_data_zero_stride : fails (vector_read (hex "01020304") (2 ^ 64 - 1) 0 0 Byte4).
Proof. exact I. Qed.
(** [lazy]: a count of that size cannot be written in unary *)
Example read_vector_data_count_exceeds_buffer : fails (vector_read (hex "01020304") (2 ^ 64 - 1) 0 1 Byte4).
Proof. lazy. exact I. Qed.

(** read_vector_data::<_, u8, 2>; the values are the bytes converted to f32 *)
Definition bytes2 (b : string) (count : nat) (offset stride : Z) : res (list (list Z)) :=
  read_rows count 2 1 (hex b) 0 offset stride.
Example read_vector_data_stride_equals_size :
  bytes2 "00010203 04050607" 3 0 2 = Ok [[0; 1]; [2; 3]; [4; 5]].
Proof. reflexivity. Qed.
Example read_vector_data_stride_equals_size_offset :
  bytes2 "00010203 04050607" 3 2 2 = Ok [[2; 3]; [4; 5]; [6; 7]].
Proof. reflexivity. Qed.
Example read_vector_data_stride_exceeds_size : bytes2 "00010203 04050607" 2 0 4 = Ok [[0; 1]; [4; 5]].
Proof. reflexivity. Qed.
Example read_vector_data_stride_exceeds_size_offset : bytes2 "00010203 04050607" 2 2 4 = Ok [[2; 3]; [6; 7]].
Proof. reflexivity. Qed.

Example write_vector_data_count0 : fst (write_vector_data 4 [] 0 0 4 ([], 0)) = [].
Proof. reflexivity. Qed.
Example write_vector_data_count1 :
  fst (write_vector_data 4 [fs ["1"; "2"]%string] 0 0 8 ([], 0)) = hex "0000803F 00000040".
Proof. vm_compute. reflexivity. Qed.
Example write_vector_stride_offset :
  fst (write_vector_data 4 [fs ["1"; "2"; "3"]; fs ["1"; "0"; "0"]]%string 0 4 16 ([], 0)) =
  hex "00000000 0000803F 00000040 00004040 00000000 0000803F 00000000 00000000".
Proof. vm_compute. reflexivity. Qed.
Example u8_clamped :
  get_u8_clamped (f "-1.0") = 0 /\ get_u8_clamped (f "2.0") = 255 /\
  forallb (fun u => get_u8_clamped (bits_of_f32 (div32 (int_to_f32 u) (int_to_f32 255))) =? u)
    (map Z.of_nat (seq 0 256)) = true.
Proof. vm_compute. repeat split. Qed.

(** ** mesh_attributes.rs *)

Definition v2 : vector_data := MkVec Two [fs ["0.0"; "1.0"]%string].
Definition v3 : vector_data := MkVec Three [fs ["0.0"; "1.0"; "2.0"]%string].
Definition v4 : vector_data := MkVec Four [fs ["0.0"; "1.0"; "2.0"; "3.0"]%string].
Definition c4 : vector_data := MkVec Four [fs ["0.0"; "0.5"; "1.0"; "2.0"]%string].
Example position_data_type_v10 :
  map (from_positions MV10) [v2; v3; v4] =
  [MkEnc Float2 (vec_rows v2); MkEnc Float3 (vec_rows v3); MkEnc Float4 (vec_rows v4)].
Proof. reflexivity. Qed.
Example vector_data_type_v10 :
  map (from_vectors MV10) [v2; v3; v4] =
  [MkEnc HalfFloat2 [halves ["0.0"; "1.0"]%string]; MkEnc Float3 (vec_rows v3);
   MkEnc HalfFloat4 [halves ["0.0"; "1.0"; "2.0"; "3.0"]%string]].
Proof. vm_compute. reflexivity. Qed.
Example color_data_type_v10 :
  map (from_colors MV10) [v2; v3; c4] =
  [MkEnc HalfFloat2 [halves ["0.0"; "1.0"]%string]; MkEnc Float3 (vec_rows v3); MkEnc Byte4 [[0; 128; 255; 255]]].
Proof. vm_compute. reflexivity. Qed.
(** VectorDataV8 serves the versions 1.8 and 1.9 *)
Example position_data_type_v8_v9 :
  forall ver, ver <> MV10 ->
  map (from_positions ver) [v2; v3; v4] =
  [MkEnc Float2 (vec_rows v2); MkEnc Float3 (vec_rows v3); MkEnc Float4 (vec_rows v4)].
Proof. intros [] H; (reflexivity || congruence). Qed.
Example vector_data_type_v8_v9 :
  forall ver, ver <> MV10 ->
  map (from_vectors ver) [v2; v3; v4] =
  [MkEnc Float2 (vec_rows v2); MkEnc Float3 (vec_rows v3); MkEnc HalfFloat4 [halves ["0.0"; "1.0"; "2.0"; "3.0"]%string]].
Proof. intros [] H; (vm_compute; reflexivity) || congruence. Qed.
Example color_data_type_v8_v9 :
  forall ver, ver <> MV10 ->
  map (from_colors ver) [v2; v3; c4] =
  [MkEnc Float2 (vec_rows v2); MkEnc Float3 (vec_rows v3); MkEnc Byte4 [[0; 128; 255; 255]]].
Proof. intros [] H; (vm_compute; reflexivity) || congruence. Qed.

(** create_attributes_v8, _v9 and _v10 as used by create_mesh_object: the strides and the
    attributes of the object *)
Definition created (ver : mesh_version) (o : mesh_object) : (Z * Z) * list val :=
  let attrs0 := create_buffer_attributes 0 0 (buffer0_data ver o) in
  let attrs1 := create_buffer_attributes 1 0 (buffer1_data ver o) in
  ((total_stride attrs0, total_stride attrs1), map (fun p => attribute_val ver (fst p)) (attrs0 ++ attrs1)).
Definition empty (d : dim) (name : string) : attribute_data := MkAttr (text name) (MkVec d []).
Definition attributes_object (binormals : list attribute_data) : mesh_object :=
  MkObj (text "name") 0 [] 0 false false [] [empty Three "p0"] [empty Three "n0"] binormals [empty Four "t0"]
    [empty Two "firstUv"; empty Two "secondUv"] [empty Four "color1"; empty Four "color2"] [].

(** AttributeV8 with the numbers of AttributeUsageV8 and AttributeDataTypeV8,
    ssbh_lib/src/formats/mesh.rs *)
Definition a8 (usage type buffer offset sub : Z) : val :=
  VStruct [VInt usage; VInt type; VInt buffer; VInt offset; VInt sub].
Example create_attributes_mesh_v1_8 :
  created MV8 (attributes_object []) =
  ((32, 24), [a8 0 820 0 0 0; a8 1 820 0 12 0; a8 3 1077 0 24 0; a8 4 1079 1 0 0; a8 4 1079 1 8 1; a8 8 1024 1 16 0; a8 8 1024 1 20 1]).
Proof. vm_compute. reflexivity. Qed.

(** AttributeV9 and AttributeV10 *)
Definition a9 (usage type buffer offset sub : Z) (name attribute : string) : val :=
  VStruct [VInt usage; VInt type; VInt buffer; VInt offset; VInt sub;
           ssbh_string (text name); VArr [ssbh_string (text attribute)]].
Example create_attributes_mesh_v1_9 :
  created MV9 (attributes_object [empty Three "b1"; empty Three "b2"]) =
  ((56, 24), [a9 0 820 0 0 0 "p0" "p0"; a9 1 820 0 12 0 "n0" "n0"; a9 2 820 0 24 0 "map1" "b1"; a9 2 820 0 36 1 "uvSet" "b2";
              a9 3 1077 0 48 0 "map1" "t0"; a9 4 1079 1 0 0 "firstUv" "firstUv"; a9 4 1079 1 8 1 "secondUv" "secondUv";
              a9 5 1024 1 16 0 "color1" "color1"; a9 5 1024 1 20 1 "color2" "color2"]).
Proof. vm_compute. reflexivity. Qed.
Example create_attributes_mesh_v1_10 :
  created MV10 (attributes_object [empty Three "b1"; empty Three "b2"]) =
  ((56, 16), [a9 0 0 0 0 0 "p0" "p0"; a9 1 0 0 12 0 "n0" "n0"; a9 2 0 0 24 0 "map1" "b1"; a9 2 0 0 36 1 "uvSet" "b2";
              a9 3 5 0 48 0 "map1" "t0"; a9 4 8 1 0 0 "firstUv" "firstUv"; a9 4 8 1 4 1 "secondUv" "secondUv";
              a9 5 2 1 8 0 "color1" "color1"; a9 5 2 1 12 1 "color2" "color2"]).
Proof. vm_compute. reflexivity. Qed.

(** write_attributes into one buffer that starts at an offset *)
Definition write_one (es : list encoded) (offset stride : Z) : list Z := fst (write_buffer es offset stride ([], 0)).
Example write_attributes_single_buffer_single_attribute :
  write_one [MkEnc Float3 [fs ["1.0"; "2.0"; "3.0"]%string]] 0 12 = hex "0000803F 00000040 00004040".
Proof. vm_compute. reflexivity. Qed.
Definition floats (n : nat) (x : string) : list Z := repeat (f x) n.
Example write_multiple_buffers_multiple_attributes_v8 :
  write_one [MkEnc Float3 [floats 3 "1.0"; floats 3 "0.0"]; MkEnc Float2 [floats 2 "2.0"; floats 2 "2.0"];
             MkEnc Float4 [floats 4 "3.0"; floats 4 "3.0"]] 4 36 =
  hex "00000000
       0000803F 0000803F 0000803F 00000040 00000040 00004040 00004040 00004040 00004040
       00000000 00000000 00000000 00000040 00000040 00004040 00004040 00004040 00004040" /\
  write_one [MkEnc HalfFloat4 [repeat 1 4; repeat 2 4]; MkEnc Byte4 [repeat 3 4; repeat 4 4]] 8 16 =
  hex "00000000 00000000 01000100 01000100 03030303 00000000 02000200 02000200 04040404".
Proof. vm_compute. split; reflexivity. Qed.
Example write_multiple_buffers_multiple_attributes_v10 :
  write_one [MkEnc Float3 [floats 3 "1.0"; floats 3 "0.0"];
             MkEnc HalfFloat2 (repeat (halves ["2.0"; "2.0"]%string) 2);
             MkEnc Float4 [floats 4 "3.0"; floats 4 "3.0"]] 4 32 =
  hex "00000000
       0000803F 0000803F 0000803F 00400040 00004040 00004040 00004040 00004040
       00000000 00000000 00000000 00400040 00004040 00004040 00004040 00004040".
Proof. vm_compute. reflexivity. Qed.

(** ** mesh_data.rs *)

Example read_data_count0 : read_data 1 (hex "01020304") 0 0 = Ok [].
Proof. reflexivity. Qed.
Example read_data_count4 : read_data 1 (hex "01020304") 4 0 = Ok [1; 2; 3; 4].
Proof. reflexivity. Qed.
Example read_data_offset : read_data 1 (hex "01020304") 2 1 = Ok [2; 3].
Proof. reflexivity. Qed.
Example read_half :
  returns (read_components 3 2 (hex "003C00B4 00000000") 0) (fun l => map f16_to_f32 l = fs ["1.0"; "-0.25"; "0.0"]%string).
Proof. vm_compute. reflexivity. Qed.
(** The usage 1 is Normal; the types are HalfFloat2 of version 1.10 and Float2 of version 1.8 *)
Example attribute_from_attribute_v10 :
  returns (un_attribute MV10 (VStruct [VInt 1; VInt (type_number MV10 HalfFloat2); VInt 2; VInt 10; VInt 3;
                                       ssbh_string (text "custom_name"); VArr [ssbh_string (text "name1")]]))
    (fun a => a_name a = text "name1" /\ a_type a = HalfFloat2 /\ a_buffer a = 2 /\ a_offset a = 10).
Proof. vm_compute. repeat split. Qed.
Example attribute_from_attribute_v8 :
  returns (un_attribute MV8 (a8 1 (type_number MV8 Float2) 1 8 3))
    (fun a => a_name a = text "Normal3" /\ a_type a = Float2 /\ a_buffer a = 1 /\ a_offset a = 8).
Proof. vm_compute. repeat split. Qed.
Definition two_weights : list vertex_weight := [MkWeight 0 (f "0.0"); MkWeight 1 (f "1.0")].
Example create_vertex_weights_mesh_v1_8 :
  from_weights MV8 two_weights = Ok (VArr [VStruct [VInt 0; VInt (f "0.0")]; VStruct [VInt 1; VInt (f "1.0")]]).
Proof. reflexivity. Qed.
Example create_vertex_weights_mesh_v1_10 :
  create_vertex_weights_v10 two_weights = Ok (hex "0000 00000000 01000 000803f").
Proof. vm_compute. reflexivity. Qed.
(** draw_element_type_{u16, empty, u32} *)
Example draw_element_types :
  map convert_indices [[0; 1; 65535]; []; [0; 1; 65536]] =
  [UnsignedShort [0; 1; 65535]; UnsignedShort []; UnsignedInt [0; 1; 65536]].
Proof. reflexivity. Qed.
(** size_in_bytes_attributes_v10 and _v8 *)
Example size_in_bytes_attributes :
  map size_in_bytes [Byte4; Float2; Float3; Float4; HalfFloat2; HalfFloat4] = [4; 8; 12; 16; 4; 8].
Proof. reflexivity. Qed.

Definition inf (name : string) (vertices : list Z) : bone_influence :=
  MkInf (text name) (map (fun i => MkWeight i (f "0")) vertices).
(** max_influences_{no_bones, one_bone_no_weights, one_bone, three_bones}; the second argument of
    the function is the capacity of the map *)
Example max_influences :
  map calculate_max_influences
    [[]; [inf "a" []]; [inf "a" [0; 0]]; [inf "a" [0; 0; 0; 3]; inf "b" [2; 1; 3]; inf "c" [0; 3]]] = [0; 0; 1; 3].
Proof. reflexivity. Qed.

(** Any bounding information will do *)
Definition no_bounding (l : list (list Z)) : val := VStruct [].
Definition make := create_mesh no_bounding.
Definition mesh_lists (v : val) : option (list val * list val * list Z * list val) :=
  match v with
  | VStruct [VStruct [_; _; _; VArr objects; _; _; VArr buffers; VBytes indices; VArr rigging]] =>
      Some (objects, buffers, indices, rigging)
  | _ => None
  end.
(** create_empty_mesh_1_8, _1_9 and _1_10 *)
Example create_empty_meshes :
  forall minor, In minor [8; 9; 10] ->
  returns (make (MkMesh 1 minor []))
    (fun v => mesh_lists v = Some ([], [VBytes []; VBytes []; VBytes []; VBytes []], [], [])).
Proof. intros minor [<-|[<-|[<-|[]]]]; reflexivity. Qed.
Example create_empty_mesh_invalid_version : make (MkMesh 2 301 []) = Err (EData DVersion).
Proof. reflexivity. Qed.

Definition plain (name : string) (subindex : Z) (positions : list attribute_data) (infs : list bone_influence) : mesh_object :=
  MkObj (text name) subindex [] 0 false false [] positions [] [] [] [] [] infs.
Definition zeros (d : dim) (n : nat) : attribute_data :=
  MkAttr [] (MkVec d (repeat (repeat (f "0.0") (dim_count d)) n)).
Definition weighted (bone : string) (i : Z) : bone_influence := MkInf (text bone) [MkWeight i (f "1.0")].
Definition two_objects (second : string) (sub i : Z) : list mesh_object :=
  [plain "a" 0 [zeros Three 12] [weighted "a" i]; plain second sub [zeros Three 12] [weighted "b" i]].
(** The offsets and strides of an object *)
Definition places (v : val) : list Z :=
  match un_raw v with Ok r => r_offsets r ++ r_strides r | _ => [] end.
Definition made (d : mesh_data) (buffers : list (list Z)) (objects : list (list Z)) : Prop :=
  returns (make d) (fun v => match mesh_lists v with
                             | Some (os, bs, _, _) => bs = map VBytes buffers /\ map places os = objects
                             | None => False
                             end).
Example create_mesh_1_10 :
  made (MkMesh 1 10 (two_objects "a" 1 65535)) [repeat 0 (4 * 3 * 12 * 2); []; []; []]
    [[0; 0; 0; 0; 12; 0; 0; 0]; [12 * 12; 0; 32 * 12; 0; 12; 0; 0; 0]].
Proof. vm_compute. split; reflexivity. Qed.
Example create_mesh_1_10_too_many_vertices :
  make (MkMesh 1 10 [plain "" 0 [zeros Three 3] [weighted "a" 65536]]) = Err (EData DWeightIndex).
Proof. vm_compute. reflexivity. Qed.
Example create_mesh_1_10_duplicate_subindices :
  make (MkMesh 1 10 [plain "a" 1 [] []; plain "b" 0 [] []; plain "a" 1 [] []]) = Err (EData DDuplicate).
Proof. vm_compute. reflexivity. Qed.
Example create_mesh_1_8 :
  made (MkMesh 1 8 (two_objects "b" 0 (2 ^ 32 - 1))) [repeat 0 (4 * 3 * 12 * 2); []; repeat 0 (32 * 12 * 2); []]
    [[0; 0; 0; 0; 12; 0; 32; 0]; [12 * 12; 0; 32 * 12; 0; 12; 0; 32; 0]].
Proof. vm_compute. split; reflexivity. Qed.
Example create_mesh_v_1_9 :
  made (MkMesh 1 9 (two_objects "a" 1 (2 ^ 32 - 1))) [repeat 0 (4 * 3 * 12 * 2); []; repeat 0 (32 * 12 * 2); []]
    [[0; 0; 0; 0; 12; 0; 32; 0]; [12 * 12; 0; 32 * 12; 0; 12; 0; 32; 0]].
Proof. vm_compute. split; reflexivity. Qed.

Definition matrix (z : string) : list (list Z) :=
  [fs ["2.0"; "0.0"; "0.0"; "0.0"]; fs ["0.0"; "3.0"; "0.0"; "0.0"]; fs ["0.0"; "0.0"; z; "0.0"];
   fs ["0.0"; "0.0"; "4.0"; "5.0"]]%string.
Example transform_points_vec2 :
  transform_points (MkVec Two [fs ["0.0"; "1.0"]; fs ["2.0"; "3.0"]]%string) (matrix "6.0") =
  MkVec Two [fs ["0.0"; "3.0"]; fs ["4.0"; "9.0"]]%string.
Proof. vm_compute. reflexivity. Qed.
Example transform_points_vec4 :
  transform_points (MkVec Four [fs ["0.0"; "1.0"; "0.0"; "-1.0"]; fs ["2.0"; "3.0"; "0.0"; "5.0"]]%string) (matrix "1.0") =
  MkVec Four [fs ["0.0"; "3.0"; "4.0"; "-1.0"]; fs ["4.0"; "9.0"; "4.0"; "5.0"]]%string.
Proof. vm_compute. reflexivity. Qed.
Example transform_vectors_vec2 :
  transform_vectors (MkVec Two [fs ["0.0"; "1.0"]; fs ["2.0"; "3.0"]]%string) (matrix "6.0") =
  MkVec Two [fs ["0.0"; "3.0"]; fs ["4.0"; "9.0"]]%string.
Proof. vm_compute. reflexivity. Qed.
Example transform_vectors_vec4 :
  transform_vectors (MkVec Four [fs ["0.0"; "1.0"; "0.0"; "-1.0"]; fs ["2.0"; "3.0"; "0.0"; "5.0"]]%string) (matrix "1.0") =
  MkVec Four [fs ["0.0"; "3.0"; "0.0"; "-1.0"]; fs ["4.0"; "9.0"; "0.0"; "5.0"]]%string.
Proof. vm_compute. reflexivity. Qed.

Example calculate_offset_stride_buffer_indices :
  let o := MkRaw (ssbh_string []) 0 (ssbh_string []) 0 0 [1; 2; 3; 4] [11; 22; 33; 44] 0 1 0 0 0 [] in
  map (fun i => calculate_offset_stride (MkAttribute [] 0 i Position Byte4 1) o) [0; 1; 2; 3; 4] =
  [Ok (2, 11); Ok (3, 22); Ok (4, 33); Ok (5, 44); Err (EData DNoStride)].
Proof. reflexivity. Qed.

Definition make_object (o : mesh_object) : res val :=
  let* (v, _) := create_mesh_object no_bounding MV10 o no_buffers in Ok v.
(** -5 as an i32 is the pattern 2^32 - 5 *)
Example create_empty_mesh_object :
  returns (let* v := make_object (MkObj [] 1 [] (2 ^ 32 - 5) false true [] [] [] [] [] [] [] []) in un_raw v)
    (fun r => r_subindex r = 1 /\ r_bias r = 2 ^ 32 - 5 /\ r_no_write r = 0 /\ r_no_test r = 1).
Proof. vm_compute. repeat split. Qed.
Definition indexed (indices : list Z) (tangents : nat) : mesh_object :=
  MkObj [] 0 [] 0 false false indices [zeros Two 2] [] [] [zeros Two tangents] [] [] [].
Example create_mesh_object_vertex_count_mismatch : make_object (indexed [] 1) = Err (EData DAttrLength).
Proof. vm_compute. reflexivity. Qed.
Example create_mesh_object_valid_indices : returns (make_object (indexed [0; 1; 1] 2)) (fun _ => True).
Proof. vm_compute. exact I. Qed.
Example create_mesh_object_quad_faces : make_object (indexed [0; 2; 1; 0; 2; 1; 0; 0] 2) = Err (EData DNotTriangles).
Proof. vm_compute. reflexivity. Qed.
Example create_mesh_object_invalid_indices : make_object (indexed [0; 2; 1] 2) = Err (EData DIndexRange).
Proof. vm_compute. reflexivity. Qed.
Example create_empty_mesh_object_invalid_indices :
  make_object (MkObj [] 0 [] 0 false false [0; 0; 0] [] [] [] [] [] [] []) = Err (EData DIndexRange).
Proof. vm_compute. reflexivity. Qed.
