(** Properties of meshes. *)
From Coq Require Import Sorted Permutation.
From Verif Require Import Bytes Ssbh Formats File Strings AnimSpec DataSpec VecData MeshData MeshSpec FloatFacts MeshFacts RigFacts MeshLemmas ResaveFacts.

(** ** C31: attributes in one vertex buffer.  [items] lists name, number, usage and encoded rows
    of the attributes; all have [n] rows.  The buffer may hold anything before, the data starts
    at [base]. *)
Theorem C31_interleaved : forall n base k items b p, 0 <= n -> 0 <= base ->
  (forall it, In it items -> encoded_ok n (snd it) = true) -> vertex_size items < 2 ^ 32 ->
  let attrs := create_buffer_attributes k 0 items in
  let stride := total_stride attrs in
  let b' := fst (write_buffer (map snd attrs) base stride (b, p)) in
  map snd attrs = map snd items /\ stride = vertex_size items /\
  (forall a e, In (a, e) attrs -> a_buffer a = k /\ vector_read b' n (base + a_offset a) stride (a_type a) = Ok (decoded e) /\
     forall i row, nth_error (enc_rows e) i = Some row ->
       get_bytes (Z.to_nat (size_in_bytes (a_type a))) b' (base + a_offset a + Z.of_nat i * stride) = Some (row_bytes (a_type a) row)) /\
  (forall x y, x < base \/ base + n * stride <= x -> byte_at b x = Some y -> byte_at b' x = Some y).
Proof. exact interleaved. Qed.
Print Assumptions C31_interleaved.

Definition ex_items : list (list Z * Z * usage * encoded) :=
  [([110], 0, Normal, MkEnc HalfFloat4 [[1; 2; 3; 4]; [5; 6; 7; 8]]); ([99], 0, ColorSet, MkEnc Byte4 [[9; 10; 11; 12]; [13; 14; 15; 255]]);
   ([112], 1, Position, MkEnc Float3 [[1065353216; 0; 7]; [8; 9; 1]])].
Example C31_example :
  forallb (fun it => encoded_ok 2 (snd it)) ex_items = true /\ vertex_size ex_items = 24 /\
  let b := fst (write_buffer (map snd (create_buffer_attributes 0 0 ex_items)) 3 24 ([255; 255; 255; 255], 3)) in
  zlen b = 51 /\ firstn 3 b = [255; 255; 255] /\ firstn 4 (skipn 11 b) = [9; 10; 11; 12] /\ firstn 4 (skipn 35 b) = [13; 14; 15; 255].
Proof. vm_compute. repeat split; reflexivity. Qed.

(** Two objects of three and four vertices, rigged. *)
Definition ex_object1 : mesh_object :=
  MkObj [111; 98] 1 [112] 3212836864 false true [0; 1; 2; 2; 1; 0]
    [MkAttr [80; 48] (MkVec Three [[0; 0; 0]; [1065353216; 0; 0]; [0; 1065353216; 0]])]
    [MkAttr [78; 48] (MkVec Four [[1065353216; 0; 0; 0]; [0; 1065353217; 0; 0]; [1; 2; 3; 4]])] []
    [MkAttr [84; 48] (MkVec Four [[1065353216; 0; 0; 0]; [0; 0; 0; 0]; [0; 0; 0; 1065353216]])]
    [MkAttr [109; 97; 112; 49] (MkVec Two [[0; 0]; [1056964608; 1065353216]; [1; 1051372203]]); MkAttr [117; 118] (MkVec Two [[0; 0]; [0; 0]; [0; 0]])]
    [MkAttr [99; 49] (MkVec Four [[1065353216; 1056964608; 0; 1073741824]; [0; 0; 0; 0]; [1051372203; 0; 0; 0]])]
    [MkInf [98; 49] [MkWeight 0 1065353216; MkWeight 1 1056964608; MkWeight 0 1]; MkInf [98; 48] [MkWeight 1 1056964608]].
Definition ex_object2 : mesh_object :=
  MkObj [111; 98] 0 [] 0 true false [3; 1; 2]
    [MkAttr [80; 48] (MkVec Three [[0; 0; 0]; [1065353216; 0; 0]; [0; 1065353216; 0]; [0; 0; 1065353216]])]
    [] [] [] [] [] [MkInf [98; 48] []].
Definition ex_mesh (minor : Z) : mesh_data := MkMesh 1 minor [ex_object1; ex_object2].
Definition ex_mesh_val (minor : Z) : val := match create_mesh simple_bounding (ex_mesh minor) with Ok v => v | _ => VInt 0 end.
Definition ex_mesh_out (minor : Z) : list Z := match mesh_data_write simple_bounding (ex_mesh minor) with Ok out => out | _ => [] end.

(** ** C32: the bytes of different objects in the vertex buffers 0, 1, 2 and in the index buffer
    (number 3) are apart and inside the buffers; [mesh_fits]: every buffer is below 4 GiB. *)
Theorem C32_ranges : forall bounding d v, mesh_ok d = true -> mesh_fits (mesh_version_of d) (mesh_objects d) -> create_mesh bounding d = Ok v ->
  exists vs bufs ib, mesh_parts v = Some (vs, bufs, ib) /\ length vs = length (mesh_objects d) /\
  (forall i o w, nth_error vs i = Some w -> nth_error (mesh_objects d) i = Some o ->
     map snd (object_ranges w) = [bytes0 (mesh_version_of d) o; bytes1 (mesh_version_of d) o; bytes2 (mesh_version_of d) o; index_bytes o] /\
     forall b r, nth_error (object_ranges w) b = Some r -> forall x, in_range r x -> 0 <= x < zlen (part_bytes bufs ib b)) /\
  (forall i j w1 w2 b r1 r2, i <> j -> nth_error vs i = Some w1 -> nth_error vs j = Some w2 ->
     nth_error (object_ranges w1) b = Some r1 -> nth_error (object_ranges w2) b = Some r2 -> forall x, ~ (in_range r1 x /\ in_range r2 x)).
Proof. exact mesh_ranges. Qed.
Print Assumptions C32_ranges.
(** Reading the indices of an object gives its indices. *)
Theorem C32_indices : forall bounding d v, mesh_ok d = true -> mesh_fits (mesh_version_of d) (mesh_objects d) -> create_mesh bounding d = Ok v ->
  exists vs bufs ib, mesh_parts v = Some (vs, bufs, ib) /\
  forall i o w, nth_error (mesh_objects d) i = Some o -> nth_error vs i = Some w ->
  exists r, un_raw w = Ok r /\ read_vertex_indices ib r = Ok (ob_indices o) /\
    r_index_count r = zlen (ob_indices o) /\ (r_type r = 0 <-> forall x, In x (ob_indices o) -> x < 65536).
Proof. exact mesh_indices. Qed.
Print Assumptions C32_indices.

Example C32_example : mesh_ok (ex_mesh 8) = true /\ mesh_fits (mesh_version_of (ex_mesh 8)) (mesh_objects (ex_mesh 8)) /\
  create_mesh simple_bounding (ex_mesh 8) = Ok (ex_mesh_val 8) /\
  exists v1 v2 bufs ib, mesh_parts (ex_mesh_val 8) = Some ([v1; v2], bufs, ib) /\
    object_ranges v1 = [(0, 84); (0, 60); (0, 96); (0, 12)] /\ object_ranges v2 = [(84, 48); (60, 0); (96, 128); (12, 6)] /\
    map (fun b => zlen (part_bytes bufs ib b)) (seq 0 4) = [132; 60; 224; 18].
Proof.
  split; [vm_compute; reflexivity|]. split; [unfold mesh_fits; vm_compute; auto|]. split; [vm_compute; reflexivity|].
  do 4 eexists. vm_compute. repeat split; reflexivity.
Qed.

(** ** C33: a mesh is built exactly when the data is valid, and an error says what is wrong.
    [mesh_ok]: numbers in their ranges, text without NUL. *)
Theorem C33_valid_iff : forall bounding d, mesh_ok d = true -> ((exists v, create_mesh bounding d = Ok v) <-> mesh_valid d).
Proof. exact create_mesh_iff. Qed.
Print Assumptions C33_valid_iff.
Theorem C33_errors : forall bounding d, mesh_ok d = true ->
  match create_mesh bounding d with Ok _ => mesh_valid d | Err e => mesh_violation d e | Panic => False end.
Proof. exact create_mesh_result. Qed.
Print Assumptions C33_errors.

Definition ex_change (indices : list Z) (positions : list attribute_data) : mesh_object :=
  MkObj [120] 0 [] 0 true true indices positions [MkAttr [] (MkVec Two [[0; 0]; [0; 0]])] [] [] [] [] [].
Definition ex_two : list attribute_data := [MkAttr [] (MkVec Two [[0; 0]; [0; 0]])].
Definition ex_three : list attribute_data := [MkAttr [] (MkVec Two [[0; 0]; [0; 0]; [0; 0]])].
Example C33_example : exists v, create_mesh simple_bounding (ex_mesh 10) = Ok v /\
  create_mesh simple_bounding (MkMesh 1 10 [ex_change [0; 1; 0; 1] ex_two]) = Err (EData DNotTriangles) /\
  create_mesh simple_bounding (MkMesh 1 10 [ex_change [0; 1; 0] ex_three]) = Err (EData DAttrLength) /\
  create_mesh simple_bounding (MkMesh 1 10 [ex_change [0; 2; 0] ex_two]) = Err (EData DIndexRange) /\
  create_mesh simple_bounding (MkMesh 1 10 [ex_change [] ex_two; ex_object1; ex_change [] ex_two]) = Err (EData DDuplicate) /\
  create_mesh simple_bounding (MkMesh 1 7 []) = Err (EData DVersion).
Proof. exists (ex_mesh_val 10). vm_compute. repeat split; reflexivity. Qed.

(** ** C34: the width of vertex indices; [b] and [rest] are what the index buffer holds before
    and after. *)
Theorem C34_index_width : forall l b rest, forallb is32 l = true ->
  let b' := fst (write_vertex_indices (convert_indices l) (b, zlen b)) in
  (draw_element_type (convert_indices l) = 0 <-> forall i, In i l -> i < 65536) /\
  zlen b' = zlen b + (if draw_element_type (convert_indices l) =? 0 then 2 else 4) * zlen l /\
  (forall o, r_type o = draw_element_type (convert_indices l) -> r_index_count o = zlen l -> r_index_offset o = zlen b ->
     read_vertex_indices (b' ++ rest) o = Ok l).
Proof. exact index_width_spec. Qed.
Print Assumptions C34_index_width.
Example C34_example :
  fst (write_vertex_indices (convert_indices [65535; 1]) ([7], 1)) = [7; 255; 255; 1; 0] /\
  fst (write_vertex_indices (convert_indices [65536; 1]) ([7], 1)) = [7; 0; 0; 1; 0; 1; 0; 0; 0].
Proof. vm_compute. auto. Qed.

(** ** C35: weights in version 1.10 *)
Theorem C35_weights : forall l, forallb weight_ok l = true ->
  ((forall w, In w l -> wt_index w < 65536) -> exists bs, create_vertex_weights_v10 l = Ok bs /\ weights_of_bytes bs = l /\ zlen bs = 6 * zlen l) /\
  (forall w, In w l -> 65536 <= wt_index w -> create_vertex_weights_v10 l = Err (EData DWeightIndex)).
Proof. exact weights_v10_spec. Qed.
Print Assumptions C35_weights.
Example C35_weights_example :
  create_vertex_weights_v10 [MkWeight 65535 1065353216; MkWeight 2 3] = Ok [255; 255; 0; 0; 128; 63; 2; 0; 3; 0; 0; 0] /\
  create_vertex_weights_v10 [MkWeight 1 1; MkWeight 65536 1] = Err (EData DWeightIndex).
Proof. vm_compute. auto. Qed.

(** The computed number is the largest number of bones of one vertex. *)
Theorem C35_max_influences : forall l,
  (forall v, influences_of v l <= calculate_max_influences l) /\
  ((exists v, influences_of v l = calculate_max_influences l) \/ calculate_max_influences l = 0).
Proof. exact max_influences_spec. Qed.
Print Assumptions C35_max_influences.

(** Groups are in the order of name and subindex, one for each object, with the number above
    stored in a byte. *)
Theorem C35_groups_sorted : forall ver os rig, forallb object_ok os = true -> NoDup (map object_key os) -> create_rigging_buffers ver os = Ok rig ->
  exists os', Permutation os os' /\ StronglySorted key_lt (map object_key os') /\
    map group_parts rig = map (fun o => Some (ob_name o, ob_subindex o, calculate_max_influences (ob_influences o) mod 256, zlen (ob_influences o))) os'.
Proof. exact groups_sorted. Qed.
Print Assumptions C35_groups_sorted.

(** Each object finds its own influences. *)
Theorem C35_lookup : forall ver os rig o, forallb object_ok os = true -> NoDup (map object_key os) -> create_rigging_buffers ver os = Ok rig ->
  In o os -> read_rigging_data ver rig (ob_name o) (ob_subindex o) = Ok (ob_influences o).
Proof. exact rigging_lookup_ok. Qed.
Print Assumptions C35_lookup.

Definition ex_rig : list val := match create_rigging_buffers MV10 [ex_object1; ex_object2] with Ok r => r | _ => [] end.
Example C35_example : forallb object_ok [ex_object1; ex_object2] = true /\ create_rigging_buffers MV10 [ex_object1; ex_object2] = Ok ex_rig /\
  map group_parts ex_rig = [Some ([111; 98], 0, 0, 1); Some ([111; 98], 1, 2, 2)] /\
  influences_of 1 (ob_influences ex_object1) = 2 /\ influences_of 0 (ob_influences ex_object1) = 1 /\
  read_rigging_data MV10 ex_rig [111; 98] 1 = Ok (ob_influences ex_object1).
Proof. vm_compute. repeat split; reflexivity. Qed.

(** The stored number is that largest number only below 256 bones: with 256 bones on one vertex
    the file says 0. *)
Theorem C35_stored_count_refuted : exists o g v, object_ok o = true /\ create_rigging_buffers MV10 [o] = Ok [g] /\
  influences_of v (ob_influences o) = 256 /\ group_parts g = Some (ob_name o, ob_subindex o, 0, 256).
Proof. exact count_refuted. Qed.
Print Assumptions C35_stored_count_refuted.

(** ** C44: colours *)
Theorem C44_colour_roundtrip : forall x, 0 <= x < 256 -> get_u8_clamped (u8_to_f32 x) = x.
Proof. exact u8_roundtrip. Qed.
Print Assumptions C44_colour_roundtrip.
Example C44_example : u8_to_f32 51 = 1045220557 /\ get_u8_clamped 1045220557 = 51.
Proof. vm_compute. auto. Qed.

(** ** C45: half floats *)
Theorem C45_half_roundtrip : forall x, 0 <= x < 2 ^ 16 -> f16_is_nan x = false -> f16_from_f32 (f16_to_f32 x) = x.
Proof. exact f16_roundtrip. Qed.
Print Assumptions C45_half_roundtrip.
(** The smallest subnormal number, one, and infinity *)
Example C45_example : f16_to_f32 1 = 864026624 /\ f16_from_f32 864026624 = 1 /\ f16_to_f32 15360 = 1065353216 /\
  f16_to_f32 31744 = 2139095040 /\ f16_is_nan 31744 = false /\ f16_is_nan 31745 = true.
Proof. vm_compute. repeat split; reflexivity. Qed.

(** ** C53: saving and loading.  [bounding] computes a BoundingInfo from points. *)
Theorem C53_mesh_save_load : forall bounding d out, bounding_ok bounding -> mesh_ok d = true -> mesh_fits (mesh_version_of d) (mesh_objects d) ->
  mesh_data_write bounding d = Ok out -> zlen out < 2 ^ 63 -> mesh_data_read out = Ok (stored_mesh d).
Proof. exact mesh_save_load. Qed.
Print Assumptions C53_mesh_save_load.
Theorem C53_write_result : forall bounding d, bounding_ok bounding -> mesh_ok d = true -> mesh_fits (mesh_version_of d) (mesh_objects d) ->
  (mesh_valid d -> exists out, mesh_data_write bounding d = Ok out) /\
  (~ mesh_valid d -> exists e, mesh_data_write bounding d = Err e /\ mesh_violation d e).
Proof. exact mesh_write_result. Qed.
Print Assumptions C53_write_result.

Example C53_example : bounding_ok simple_bounding /\
  (mesh_data_write simple_bounding (ex_mesh 8) = Ok (ex_mesh_out 8) /\ mesh_data_read (ex_mesh_out 8) = Ok (stored_mesh (ex_mesh 8))) /\
  (mesh_data_write simple_bounding (ex_mesh 9) = Ok (ex_mesh_out 9) /\ mesh_data_read (ex_mesh_out 9) = Ok (stored_mesh (ex_mesh 9))) /\
  mesh_data_write simple_bounding (ex_mesh 10) = Ok (ex_mesh_out 10) /\ mesh_data_read (ex_mesh_out 10) = Ok (stored_mesh (ex_mesh 10)) /\
  stored_mesh (ex_mesh 9) <> ex_mesh 9.
Proof. split; [exact simple_bounding_ok|]. vm_compute. repeat split; congruence. Qed.

(** ** C54: saving what was loaded gives the same bytes. *)
Theorem C54_resave : forall bounding d out, bounding_ok bounding -> mesh_ok d = true -> mesh_fits (mesh_version_of d) (mesh_objects d) ->
  (mesh_minor d = 8 -> forall o, In o (mesh_objects d) -> ob_binormals o = [] \/ other_attributes o <> []) ->
  mesh_data_write bounding d = Ok out -> zlen out < 2 ^ 63 ->
  exists d1, mesh_data_read out = Ok d1 /\ mesh_data_write bounding d1 = Ok out.
Proof. exact mesh_resave. Qed.
Print Assumptions C54_resave.
Example C54_example : mesh_ok (ex_mesh 8) = true /\ mesh_data_write simple_bounding (stored_mesh (ex_mesh 8)) = Ok (ex_mesh_out 8) /\
  stored_mesh (ex_mesh 8) <> ex_mesh 8 /\ Forall (fun o => ob_binormals o = []) (mesh_objects (ex_mesh 8)).
Proof. vm_compute. repeat split; try congruence. repeat constructor. Qed.

(** The condition on version 1.8 is needed: binormals count as vertices but are not stored. *)
Theorem C54_v8_refuted : exists d out d1, mesh_ok d = true /\ mesh_data_write simple_bounding d = Ok out /\ mesh_data_read out = Ok d1 /\
  mesh_data_write simple_bounding d1 = Err (EData DIndexRange).
Proof. exact resave_v8_refuted. Qed.
Print Assumptions C54_v8_refuted.
