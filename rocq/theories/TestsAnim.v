(** The tests of ssbh_data/src/anim_data.rs and of anim_data/{bitutils,compression}.rs, with the
    one test of buffers.rs that tools/tests.py leaves out, as examples about the model.
    Tests, not proofs: no theorem depends on this file. *)
From Verif Require Import Bytes Ssbh Formats File Strings Float32 Bits AnimComp AnimBuf TestTools.

(** ** bitutils.rs *)

(** bitutils.rs:96 *)
Example read_bits :
  returns (let* (a, r) := read_bit (br_from_slice [11]) in
           let* (b, r) := read_bit r in
           let* (c, r) := read_bit r in
           let* (d, r) := read_bit r in Ok [a; b; c; d])
    (fun l => l = [true; true; false; true]).
Proof. reflexivity. Qed.
(** bitutils.rs:105 *)
Example read_u32 : returns (read_u32_bits 16 (br_from_slice [3; 0])) (fun r => fst r = 3).
Proof. reflexivity. Qed.
(** bitutils.rs:111 *)
Example read_bit_past_end :
  returns (read_u32_bits 8 (br_from_slice [0])) (fun r => read_bit (snd r) = Err (EData DBitStream)).
Proof. reflexivity. Qed.
(** bitutils.rs:121 *)
Example read_u32_past_end :
  returns (read_bit (br_from_slice [0])) (fun r => read_u32_bits 8 (snd r) = Err (EData DBitStream)).
Proof. reflexivity. Qed.
(** bitutils.rs:131 *)
Example write_bits :
  returns (let* w := bw_write_bit true (bw_new (repeat false 4)) in
           let* w := bw_write_bit true w in
           let* w := bw_write_bit false w in
           bw_write_bit true w)
    (fun w => bw_into_bytes w = [11]).
Proof. reflexivity. Qed.
(** bitutils.rs:145 *)
Example write_u32 : returns (bw_write 25 5 (bw_new (repeat false 5))) (fun w => bw_into_bytes w = [25]).
Proof. reflexivity. Qed.

(** ** compression.rs *)

(** compression.rs, bit_masks *)
Example bit_masks : [bit_mask 1; bit_mask 2; bit_mask 9] = [1; 3; 511].
Proof. reflexivity. Qed.

(** compress_decompress_float_8bit: the loop over all 256 values *)
Definition float_8bit (i : Z) : bool :=
  let value := bits_of_f32 (div32 (int_to_f32 i) (int_to_f32 255)) in
  let compressed := compress_f32 value (f "0.0") (f "1.0") 8 in
  (i =? compressed) && f32_eqb value (decompress_f32 compressed (f "0.0") (f "1.0") 8).
Example compress_decompress_float_8bit : forallb float_8bit (map Z.of_nat (seq 0 256)) = true.
Proof. vm_compute. reflexivity. Qed.

(** decompress_float_24bit_reference: values observed in the game *)
Example decompress_float_24bit_reference :
  [decompress_f32 0x808080 (f "0.0") (f "1.0") 24; decompress_f32 0x808080 (f "-1.0") (f "1.0") 24;
   decompress_f32 0x808080 (f "-0.75") (f "-0.5") 24; decompress_f32 0x808080 (f "-0.5") (f "0.75") 24;
   decompress_f32 0xFFFFFF (f "0.0") (f "1.0") 24; decompress_f32 0xFFFFFF (f "-2.0") (f "-1.0") 24] =
  [0x3F008081; 0x3B808081; 0xBF1FDFE0; 0x3E028283; 0x3F800000; 0xBF800000].
Proof. vm_compute. reflexivity. Qed.
Example decompress_float_14bit :
  [decompress_f32 2350 (f "0.0") (f "8.74227") 14; decompress_f32 2654 (f "0.0") (f "7.32") 14;
   decompress_f32 2428 (f "0.0") (f "20.0") 14; decompress_f32 2284 (f "0.0") (f "8.74227") 14] =
  [f "1.254_003_3"; f "1.185_819_5"; f "2.964_048_1"; f "1.218_784_5"].
Proof. vm_compute. reflexivity. Qed.
Example compress_float_14bit :
  [compress_f32 (f "1.254_003_3") (f "0.0") (f "8.74227") 14; compress_f32 (f "1.185_819_5") (f "0.0") (f "7.32") 14;
   compress_f32 (f "2.964_048_1") (f "0.0") (f "20.0") 14; compress_f32 (f "1.218_784_5") (f "0.0") (f "8.74227") 14] =
  [2350; 2654; 2428; 2284].
Proof. vm_compute. reflexivity. Qed.
Example compress_decompress_float_24bit :
  compress_f32 (f "1.0") (f "-1.0") (f "1.0") 24 = bit_mask 24 /\
  decompress_f32 (bit_mask 24) (f "-1.0") (f "1.0") 24 = f "1.0".
Proof. vm_compute. split; reflexivity. Qed.

(** calculate_rotation_w_{unit,non_unit}_quaternion_{true,false}; assert_eq! compares floats,
    for which the two zeros are equal. *)
Definition zero_w (bit : Z) (v : vec3) : Prop :=
  returns (calculate_rotation_w v (br_from_slice [bit])) (fun r => f32_eqb (f "0.0") (fst r) = true).
Example calculate_rotation_w_tests :
  zero_w 1 (V3 (f "1.0") (f "0.0") (f "0.0")) /\ zero_w 1 (V3 (f "1.0") (f "1.0") (f "1.0")) /\
  zero_w 0 (V3 (f "1.0") (f "0.0") (f "0.0")) /\ zero_w 0 (V3 (f "1.0") (f "1.0") (f "1.0")).
Proof. vm_compute. repeat split. Qed.

(** compression_flags_*: [..Default::default()] gives the identity *)
Definition scaled (x y z : string) : transform :=
  Tr (V3 (f x) (f y) (f z)) (V4 0 0 0 (f "1.0")) (V3 0 0 0).
Example compression_flags_const_scale :
  flags_from_track (TvTransform [scaled "1.0" "2.0" "3.0"; scaled "1.0" "2.0" "3.0"]) =
  flags_of true false true true.
Proof. vm_compute. reflexivity. Qed.
Example compression_flags_scale :
  flags_from_track (TvTransform [scaled "1.0" "2.0" "3.0"; scaled "4.0" "5.0" "6.0"]) =
  flags_of true false true true.
Proof. vm_compute. reflexivity. Qed.
Example compression_flags_uniform_scale :
  flags_from_track (TvTransform [scaled "2.0" "2.0" "2.0"; scaled "2.0" "2.0" "2.0"]) =
  flags_of true true true true.
Proof. vm_compute. reflexivity. Qed.
Example compression_flags_const_uniform_scale :
  flags_from_track (TvTransform [scaled "1.0" "1.0" "1.0"; scaled "2.0" "2.0" "2.0"]) =
  flags_of true true true true.
Proof. vm_compute. reflexivity. Qed.
Example compression_flags_non_transform :
  map flags_from_track [TvFloat []; TvBool []; TvVec4 []; TvPattern []] =
  repeat (flags_of false false false false) 4.
Proof. reflexivity. Qed.

Definition rc (mn mx : string) (n : Z) : rangec := Rc (f mn) (f mx) n.
Example f32_bit_count_min_equals_max : f32c_bits (rc "0.0" "0.0" 16) = 0.
Proof. reflexivity. Qed.
Example vector3_bit_count : vec3c_bits (V3c (rc "0.0" "0.1" 8) (rc "0.0" "0.0" 5) (rc "-1.0" "2.0" 16)) = 24.
Proof. reflexivity. Qed.
Example vector4_bit_count :
  vec4c_bits (V4c (rc "0.0" "0.1" 8) (rc "0.0" "0.0" 5) (rc "-1.0" "2.0" 16) (rc "-1.2" "-1.0" 2)) = 26.
Proof. reflexivity. Qed.
Example uv_transform_bit_count :
  uvc_bits (Uvc (rc "0.0" "0.1" 8) (rc "0.0" "0.0" 5) (rc "-1.0" "2.0" 16) (rc "-1.0" "-1.0" 2)
                (rc "-1.2" "-1.0" 3)) (flags_of true true false false) = 27.
Proof. reflexivity. Qed.
Example uv_transform_bit_count_const_uniform_scale :
  uvc_bits (Uvc (rc "0.1" "0.1" 8) (rc "0.1" "0.1" 5) (rc "-1.0" "2.0" 16) (rc "-1.0" "-1.0" 2)
                (rc "-1.2" "-1.0" 3)) (flags_of true true false false) = 19.
Proof. reflexivity. Qed.

(** transform_bit_count_{default_flags, uniform_scale, scale, scale_rotation,
    uniform_scale_rotation} *)
Example transform_bit_counts :
  let c := rc "0.0" "1.0" 2 in
  let v := V3c c c c in
  map (transformc_bits (Tc v v v))
    [flags_of false false false false; flags_of true true false false; flags_of true false false false;
     flags_of true false true false; flags_of true true true false] = [0; 2; 6; 13; 9].
Proof. reflexivity. Qed.

(** ** buffers.rs: read_scale_data_flags.  Only the scale has a range; [unwrap] succeeds. *)
Definition scale_only (flags : Z) (data : string) : Prop :=
  let c := rc "0.0" "1.0" 8 in
  let z := rc "0.0" "0.0" 0 in
  returns (transform_decompress (Tc (V3c c c c) (V3c z z z) (V3c z z z))
             (UT (V3 (f "4.0") (f "4.0") (f "4.0")) (V4 (f "2.0") (f "2.0") (f "2.0") (f "2.0"))
                 (V3 (f "3.0") (f "3.0") (f "3.0")) 0) flags (br_from_slice (hex data)))
    (fun _ => True).
Example read_scale_data_flags :
  scale_only (flags_of true false false false) "FFFFFF" /\ scale_only (flags_of true true false false) "FF" /\
  scale_only (flags_of false true false false) "FF" /\ scale_only (flags_of false false false false) "FFFFFF".
Proof. vm_compute. repeat split. Qed.

(** ** anim_data.rs *)

Example create_empty_anim_v_2_0 :
  returns (create_anim (AD 2 0 (f "1.5") [])) (fun a => an_minor a = 0 /\ an_final a = f "1.5").
Proof. vm_compute. split; reflexivity. Qed.
Example create_empty_anim_v_2_1 :
  returns (create_anim (AD 2 1 (f "2.5") [])) (fun a => an_minor a = 1 /\ an_final a = f "2.5").
Proof. vm_compute. split; reflexivity. Qed.
Example create_anim_negative_frame_index : create_anim (AD 2 1 (f "-1.0") []) = Err (EData DFinalFrame).
Proof. vm_compute. reflexivity. Qed.
Definition no_flags : tflags := TF false false false false.
Example create_anim_insufficient_frame_index :
  create_anim (AD 2 1 (f "2.0") [GD 2 [ND [] [TD [] false no_flags (TvBool (repeat true 4))]]]) =
  Err (EData DFinalFrame).
Proof. vm_compute. reflexivity. Qed.
Example create_anim_zero_frame_index :
  returns (create_anim (AD 2 1 (f "0.0") [])) (fun a => an_minor a = 1 /\ an_final a = f "0.0").
Proof. vm_compute. split; reflexivity. Qed.
Example create_empty_anim_invalid_version : create_anim (AD 1 2 (f "0.0") []) = Err (EData DVersion).
Proof. vm_compute. reflexivity. Qed.
Example create_node_no_tracks :
  returns (create_node (ND (text "empty") []) [])
    (fun r => ssbh_to_string_lossy (nd_nm (fst r)) = text "empty" /\ nd_tks (fst r) = []).
Proof. vm_compute. split; reflexivity. Qed.
Example create_node_multiple_tracks :
  returns (create_node (ND (text "empty")
             [TD (text "t1") false no_flags (TvFloat [f "1.0"; f "2.0"; f "3.0"]);
              TD (text "t2") false no_flags (TvPattern [4; 5])]) [])
    (fun r => ssbh_to_string_lossy (nd_nm (fst r)) = text "empty" /\
       map (fun t => (ssbh_to_string_lossy (tk_name t), (tk_type t, tk_comp t),
                      (tk_frames t, tk_offset t, tk_size t))) (nd_tks (fst r)) =
       [(text "t1", (3, Direct), (3, 0, 12)); (text "t2", (5, Direct), (2, 12, 8))]).
Proof. vm_compute. split; reflexivity. Qed.

Example compression_type_empty :
  map infer_compression [TvTransform []; TvUv []; TvFloat []; TvPattern []; TvBool []; TvVec4 []] =
  [ConstTransform; Constant; Constant; Constant; Constant; Constant].
Proof. reflexivity. Qed.
(** compression_type_{boolean, float, pattern_index, uv_transform, vector4, transform}_multiple_frames *)
Example compression_type_multiple_frames :
  map infer_compression (map (fun n => TvBool (repeat true n)) [8; 34; 35; 100]%nat ++
                         map (fun n => TvFloat (repeat 0 n)) [8; 10; 11; 100]%nat ++
                         map (fun n => TvPattern (repeat 0 n)) [8; 10; 11; 100]%nat ++
                         map (fun n => TvUv (repeat (Uv 0 0 0 0 0) n)) [3; 6; 7; 100]%nat ++
                         map (fun n => TvVec4 (repeat (V4 0 0 0 0) n)) [3; 7; 8; 100]%nat ++
                         map (fun n => TvTransform (repeat (scaled "1.0" "1.0" "1.0") n)) [3; 5; 6; 100]%nat) =
  List.concat (repeat [Direct; Direct; Compressed; Compressed] 6).
Proof. vm_compute. reflexivity. Qed.

Definition bad_track (offset size : Z) : track := Tk (ssbh_string (text "abc")) 1 Compressed 2 0 offset size.
(** read_v20_track_{invalid_offset, offset_overflow, invalid_size} *)
Example read_v20_track_invalid :
  [create_track_data (bad_track 5 1) (repeat 0 4); create_track_data (bad_track (2 ^ 32 - 1) 1) (repeat 0 4);
   create_track_data (bad_track 0 5) (repeat 0 3)] = repeat (Err (EData DTrackRange)) 3.
Proof. vm_compute. reflexivity. Qed.
