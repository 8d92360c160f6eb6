(** The tests of ssbh_lib/src/{lib,arrays,strings,enums,vectors}.rs and formats/anim.rs, of
    ssbh_write/src/lib.rs, of ssbh_write/tests and of ssbh_lib_json as examples about the model.
    Tests, not proofs: no theorem depends on this file. *)
From Verif Require Import Bytes Ssbh Formats File Strings Derive Elab Json TestTools.

(** [reader.read_le::<T>()] at [p], then [reader.read_le::<uN>()] *)
Definition read_then (t : ty) (w : Z) (b : string) (p : Z) : res (val * Z) :=
  let* (v, p) := read t (hex b) p in
  let* (n, _) := read_int w (hex b) p in Ok (v, n).
(** [value.ssbh_write(&mut writer, &mut data_ptr)]: the bytes and the data pointer *)
Definition written (t : ty) (v : val) (data_ptr : Z) : res (list Z * Z) :=
  let* s := write t v (mkW [] 0 data_ptr) in Ok (wbuf s, wdp s).

(** ** arrays.rs *)

Example read_ssbh_array :
  read_then (TArr u16) 2 "12000000 00000000 03000000 00000000 01000200 03000400" 0 = Ok (VArr [VInt 2; VInt 3; VInt 4], 1).
Proof. vm_compute. reflexivity. Qed.
Example read_ssbh_array_empty :
  read_then (TArr u16) 2 "12000000 00000000 00000000 00000000 01000200 03000400" 0 = Ok (VArr [], 1).
Proof. vm_compute. reflexivity. Qed.
Example read_ssbh_array_null :
  read_then (TArr u16) 2 "00000000 00000000 00000000 00000000 01000200 03000400" 0 = Ok (VArr [], 1).
Proof. vm_compute. reflexivity. Qed.
Example read_ssbh_array_offset_overflow :
  read (TArr u16) (hex "00000000 FFFFFFFF FFFFFFFF 03000000 00000000 01000200 03000400") 4 = Err EOverflow.
Proof. vm_compute. reflexivity. Qed.
Example read_ssbh_array_extreme_allocation_size :
  fails (read (TArr u16) (hex "10000000 00000000 FFFFFFFF FFFFFFFF 01000200 03000400") 0).
Proof. vm_compute. exact I. Qed.
Example read_ssbh_byte_buffer :
  read_then TBuf 1 "11000000 00000000 03000000 00000000 01020304" 0 = Ok (VBytes [2; 3; 4], 1).
Proof. vm_compute. reflexivity. Qed.
Example read_ssbh_byte_buffer_offset_overflow :
  read TBuf (hex "00000000 FFFFFFFF FFFFFFFF 03000000 00000000 01000200 03000400") 4 = Err EOverflow.
Proof. vm_compute. reflexivity. Qed.
Example read_ssbh_byte_buffer_not_enough_bytes :
  read TBuf (hex "10000000 00000000 05000000 00000000 01020304") 0 = Err EShortBuffer.
Proof. vm_compute. reflexivity. Qed.
Example read_ssbh_byte_buffer_extreme_allocation_size :
  read TBuf (hex "10000000 00000000 FFFFFFFF FFFFFFFF 01000200 03000400") 0 = Err EShortBuffer.
Proof. vm_compute. reflexivity. Qed.
Example ssbh_write_array_ssbh_string :
  returns (written (TArr SsbhString)
             (VArr [ssbh_string (text "leyes_eye_mario_l_col"); ssbh_string (text "eye_mario_w_nor")]) 0)
    (fun r => fst r = hex "10000000 00000000 02000000 00000000
                           10000000 00000000 20000000 00000000
                           6C657965 735F6579 655F6D61 72696F5F
                           6C5F636F 6C000000 6579655F 6D617269
                           6F5F775F 6E6F7200").
Proof. vm_compute. reflexivity. Qed.
Example write_empty_array : written (TArr u32) (VArr []) 0 = Ok (hex "00000000 00000000 00000000 00000000", 16).
Proof. vm_compute. reflexivity. Qed.
Example write_byte_buffer :
  written TBuf (VBytes [1; 2; 3; 4; 5]) 0 = Ok (hex "10000000 00000000 05000000 00000000 01020304 05", 21).
Proof. vm_compute. reflexivity. Qed.
Example arrays_write_vec :
  written (TVec 5 u8) (VArr (map VInt [1; 2; 3; 4; 5])) 0 = Ok (hex "01020304 05", 5).
Proof. vm_compute. reflexivity. Qed.
Example write_empty_byte_buffer : written TBuf (VBytes []) 0 = Ok (hex "00000000 00000000 00000000 00000000", 16).
Proof. vm_compute. reflexivity. Qed.

(** ** strings.rs *)

Definition str (r : res (val * Z)) : res (option (list Z) * Z) := let* (v, n) := r in Ok (ssbh_to_str v, n).
Example read_ssbh_string :
  str (read_then SsbhString 1 "08000000 00000000 616C705F 6D617269 6F5F3030 325F636F 6C000000" 0) =
  Ok (Some (text "alp_mario_002_col"), 97).
Proof. vm_compute. reflexivity. Qed.
Example read_ssbh_string_empty :
  str (read_then SsbhString 1 "08000000 00000000 00000000" 0) = Ok (Some [], 0).
Proof. vm_compute. reflexivity. Qed.
Example read_ssbh_string_missing_null : fails (read SsbhString (hex "08000000 FFFFFFFF") 0).
Proof. exact I. Qed.
Example cstring_to_string_conversion : cstring_to_str (cstring_from_bytes (text "abc" ++ [0])) = Some (text "abc").
Proof. vm_compute. reflexivity. Qed.
Example ssbh_string_to_string_conversion :
  ssbh_to_str (ssbh_string (text "abc")) = Some (text "abc") /\ ssbh_to_string_lossy (ssbh_string (text "abc")) = text "abc".
Proof. split; reflexivity. Qed.
Example ssbh_write_string :
  written SsbhString (ssbh_string (text "scouter1Shape")) 0 =
  Ok (hex "08000000 00000000 73636F75 74657231 53686170 6500", 24).
Proof. vm_compute. reflexivity. Qed.
Example ssbh_write_string_empty :
  written SsbhString (ssbh_string []) 0 = Ok (hex "08000000 00000000 00000000", 12).
Proof. vm_compute. reflexivity. Qed.
Example ssbh_write_string_non_zero_data_ptr :
  written SsbhString (ssbh_string (text "scouter1Shape")) 5 =
  Ok (hex "08000000 00000000 73636F75 74657231 53686170 6500", 24).
Proof. vm_compute. reflexivity. Qed.
Example ssbh_write_string_tuple :
  returns (written (record [SsbhString; SsbhString])
             (VStruct [ssbh_string (text "RTV_FRAME_BUFFER_COPY"); ssbh_string (text "FB_FRAME_BUFFER_COPY")]) 0)
    (fun r => fst r = hex "10000000 00000000 20000000 00000000
                           5254565F 4652414D 455F4255 46464552
                           5F434F50 59000000 46425F46 52414D45
                           5F425546 4645525F 434F5059 00").
Proof. vm_compute. reflexivity. Qed.
Example ssbh_write_string8 :
  written SsbhString8 (ssbh_string (text "BlendState0")) 0 = Ok (hex "08000000 00000000 426C656E 64537461 74653000", 24).
Proof. vm_compute. reflexivity. Qed.
Example ssbh_write_string8_empty :
  written SsbhString8 (ssbh_string []) 0 = Ok (hex "08000000 00000000 00000000 00000000", 16).
Proof. vm_compute. reflexivity. Qed.
Example ssbh_write_string8_non_zero_data_ptr :
  written SsbhString8 (ssbh_string (text "BlendState0")) 5 = Ok (hex "08000000 00000000 426C656E 64537461 74653000", 24).
Proof. vm_compute. reflexivity. Qed.

(** ** lib.rs *)

Example read_relptr : read_then (TRel u8) 1 "09000000 00000000 05070000" 0 = Ok (VPtr (Some (VInt 7)), 5).
Proof. vm_compute. reflexivity. Qed.
Example read_relptr_null : read_then (TRel u8) 1 "00000000 00000000 05070000" 0 = Ok (VPtr None, 5).
Proof. vm_compute. reflexivity. Qed.
Example read_relptr_offset_overflow : read (TRel u8) (hex "00000000 FFFFFFFF FFFFFFFF 05070000") 4 = Err EOverflow.
Proof. vm_compute. reflexivity. Qed.
Example read_ptr8 : read_then (TAbs 1 u8) 1 "04050000 07" 0 = Ok (VPtr (Some (VInt 7)), 5).
Proof. vm_compute. reflexivity. Qed.
Example read_ptr64 : read_then (TAbs 8 u8) 1 "09000000 00000000 05070000" 0 = Ok (VPtr (Some (VInt 7)), 5).
Proof. vm_compute. reflexivity. Qed.
Example read_ptr_null : read_then (TAbs 8 u8) 1 "00000000 00000000 05070000" 0 = Ok (VPtr None, 5).
Proof. vm_compute. reflexivity. Qed.
Example write_ptr16 : written (TAbs 2 u8) (VPtr (Some (VInt 5))) 0 = Ok (hex "0200 05", 3).
Proof. vm_compute. reflexivity. Qed.
Example write_ptr32 : written (TAbs 4 u8) (VPtr (Some (VInt 5))) 0 = Ok (hex "04000000 05", 5).
Proof. vm_compute. reflexivity. Qed.
Example write_null_ptr32 : written (TAbs 4 u8) (VPtr None) 0 = Ok (hex "00000000", 4).
Proof. vm_compute. reflexivity. Qed.
Example write_ptr64 : written (TAbs 8 u8) (VPtr (Some (VInt 5))) 0 = Ok (hex "08000000 00000000 05", 9).
Proof. vm_compute. reflexivity. Qed.
Example write_ptr64_vec_u8 :
  written (TAbs 8 (TVec 1 u8)) (VPtr (Some (VArr [VInt 5]))) 0 = Ok (hex "08000000 00000000 05", 9).
Proof. vm_compute. reflexivity. Qed.
Example write_ptr64_vec_u32 :
  written (TAbs 8 (TVec 1 u32)) (VPtr (Some (VArr [VInt 5]))) 0 = Ok (hex "08000000 00000000 05000000", 12).
Proof. vm_compute. reflexivity. Qed.
Example write_null_rel_ptr : written (TRel u32) (VPtr None) 0 = Ok (hex "00000000 00000000", 8).
Proof. vm_compute. reflexivity. Qed.
Example write_nested_rel_ptr_depth2 :
  written (TRel (TRel u32)) (VPtr (Some (VPtr (Some (VInt 7))))) 0 =
  Ok (hex "08000000 00000000 08000000 00000000 07000000", 20).
Proof. vm_compute. reflexivity. Qed.

(** ** enums.rs *)

Definition TestData : ty := TEnum [(1, record [f32]); (2, record [u32])].
Definition case (tag n : Z) : val := VPtr (Some (VCase tag (VStruct [VInt n]))).
Example read_ssbh_enum_float :
  read_then TestData 4 "10000000 00000000 01000000 00000000 0000803F" 0 = Ok (case 1 (f "1.0"), f "1.0").
Proof. vm_compute. reflexivity. Qed.
Example read_ssbh_enum_unsigned :
  returns (read TestData (hex "10000000 00000000 02000000 00000000 04000000") 0) (fun r => fst r = case 2 4).
Proof. vm_compute. reflexivity. Qed.
Example read_ssbh_enum_offset_overflow :
  read TestData (hex "00000000 FFFFFFFF FFFFFFFF 02000000 00000000 04000000") 4 = Err EOverflow.
Proof. vm_compute. reflexivity. Qed.
Example ssbh_write_enum_float :
  returns (written TestData (case 1 (f "1.0")) 0) (fun r => fst r = hex "10000000 00000000 01000000 00000000 0000803F").
Proof. vm_compute. reflexivity. Qed.
Example ssbh_write_enum_unsigned :
  returns (written TestData (case 2 5) 0) (fun r => fst r = hex "10000000 00000000 02000000 00000000 05000000").
Proof. vm_compute. reflexivity. Qed.

(** ** vectors.rs *)

Definition floats (l : list string) : val := VStruct (map (fun x => VInt (f x)) l).
Definition value (r : res (val * Z)) : res val := let* (v, _) := r in Ok v.
Example read_vector3 :
  value (read Vector3 (hex "0000803F 000000C0 0000003F") 0) = Ok (floats ["1.0"; "-2.0"; "0.5"]%string).
Proof. vm_compute. reflexivity. Qed.
Example read_vector4 :
  value (read Vector4 (hex "0000803F 000000C0 0000003F 0000803F") 0) = Ok (floats ["1.0"; "-2.0"; "0.5"; "1.0"]%string).
Proof. vm_compute. reflexivity. Qed.
Example read_color4f :
  value (read Vector4 (hex "0000803E 0000003F 0000003E 0000803F") 0) = Ok (floats ["0.25"; "0.5"; "0.125"; "1.0"]%string).
Proof. vm_compute. reflexivity. Qed.
Example read_matrix4x4_identity :
  value (read Matrix4x4 (hex "0000803F 00000000 00000000 00000000
                              00000000 0000803F 00000000 00000000
                              00000000 00000000 0000803F 00000000
                              00000000 00000000 00000000 0000803F") 0) =
  Ok (VStruct (map floats [["1.0"; "0.0"; "0.0"; "0.0"]; ["0.0"; "1.0"; "0.0"; "0.0"];
                           ["0.0"; "0.0"; "1.0"; "0.0"]; ["0.0"; "0.0"; "0.0"; "1.0"]]%string)).
Proof. vm_compute. reflexivity. Qed.
Example read_matrix3x3_identity :
  value (read Matrix3x3 (hex "0000803F 00000000 00000000
                              00000000 0000803F 00000000
                              00000000 00000000 0000803F") 0) =
  Ok (VStruct (map floats [["1.0"; "0.0"; "0.0"]; ["0.0"; "1.0"; "0.0"]; ["0.0"; "0.0"; "1.0"]]%string)).
Proof. vm_compute. reflexivity. Qed.

(** ** formats/anim.rs *)

Definition anim_len (version : Z * Z) (last : list val) : res Z :=
  let* b := typed_write Anim version
    (VStruct ([VInt 0; VInt 0; VInt 0; ssbh_string (text "a"); VArr []; VBytes []] ++ last)) in
  Ok (zlen b mod 8).
Example align_v20 : anim_len (2, 0) [] = Ok 2.
Proof. vm_compute. reflexivity. Qed.
Example align_v21 : anim_len (2, 1) [VStruct [VArr []; VArr []]] = Ok 0.
Proof. vm_compute. reflexivity. Qed.

(** ** ssbh_write/src/lib.rs *)

Example write_vec_empty : written (TVec 0 u8) (VArr []) 0 = Ok ([], 0) /\ size (TVec 0 u8) (VArr []) = 0.
Proof. split; reflexivity. Qed.
Example write_vec :
  written (TVec 2 u8) (VArr [VInt 1; VInt 2]) 0 = Ok ([1; 2], 2) /\ size (TVec 2 u8) (VArr [VInt 1; VInt 2]) = 2.
Proof. split; reflexivity. Qed.
Example write_unit :
  written TUnit (VStruct []) 0 = Ok ([], 0) /\ size TUnit (VStruct []) = 0 /\ ssbh_align TUnit = 1.
Proof. repeat split. Qed.

(** ** ssbh_write/tests: the macro is run on the items declared in the tests *)

Definition ssbhwrite (key : string) (n : Z) : list Derive.attr := [Attr "ssbhwrite" (Some [MNameValue [key] (LInt n)])].
Definition fu8 (x : string) (l : list Derive.attr) : fld := Fld x l (RPath "u8" []).
(** enum TestEnum { A(u8) } and enum TestEnum { A { x: u8 } } with attributes on the enum, the
    variant and the field *)
Definition test_enum (e v d : list Derive.attr) : item := Item "TestEnum" [] e (DEnum [Variant "A" v None (FUnnamed [fu8 "0" d])]).
Definition test_enum_named (e v d : list Derive.attr) : item := Item "TestEnum" [] e (DEnum [Variant "A" v None (FNamed [fu8 "x" d])]).
Definition struct_x (l : list Derive.attr) : item := Item "TestStruct" [] l (DStruct (FNamed [fu8 "x" []])).
Definition struct_xyz (l : list Derive.attr) : item :=
  Item "TestStruct" [] [] (DStruct (FNamed [fu8 "x" []; fu8 "y" l; fu8 "z" []])).
Definition obj_of (t : ty) (v : val) : obj := Obj (write t v) (Ok (size t v)).
Definition u8_objs : list Z -> list obj := map (fun n => obj_of u8 (VInt n)).
Definition item_written (it : item) (v : string) (l : list Z) : res (list Z) :=
  let* s := item_write it (self_of it v 0 (u8_objs l)) (mkW [] 0 0) in Ok (wbuf s).
Definition item_sized (it : item) (v : string) (l : list Z) : res Z := item_size it (self_of it v 0 (u8_objs l)).

Definition pads (it : item) : Prop := item_written it "A" [1] = Ok [1; 0; 0; 0] /\ item_sized it "A" [1] = Ok 4.
Example pad_enum : pads (test_enum (ssbhwrite "pad_after" 3) [] []).
Proof. split; reflexivity. Qed.
Example pad_enum_field : pads (test_enum [] [] (ssbhwrite "pad_after" 3)).
Proof. split; reflexivity. Qed.
Example pad_enum_variant : pads (test_enum [] (ssbhwrite "pad_after" 3) []).
Proof. split; reflexivity. Qed.
Example pad_enum_variant_named_fields : pads (test_enum_named [] (ssbhwrite "pad_after" 3) []).
Proof. split; reflexivity. Qed.
Example pad_enum_named_field : pads (test_enum_named [] [] (ssbhwrite "pad_after" 3)).
Proof. split; reflexivity. Qed.
Example pad_struct : pads (struct_x (ssbhwrite "pad_after" 3)).
Proof. split; reflexivity. Qed.
Example pad_struct_field :
  item_written (struct_xyz (ssbhwrite "pad_after" 2)) "" [1; 2; 3] = Ok [1; 2; 0; 0; 3] /\
  item_sized (struct_xyz (ssbhwrite "pad_after" 2)) "" [1; 2; 3] = Ok 5.
Proof. split; reflexivity. Qed.

Example align_enum : item_written (test_enum (ssbhwrite "align_after" 3) [] []) "A" [1] = Ok [1; 0; 0].
Proof. vm_compute. reflexivity. Qed.
Example align_enum_field : item_written (test_enum [] [] (ssbhwrite "align_after" 4)) "A" [1] = Ok [1; 0; 0; 0].
Proof. vm_compute. reflexivity. Qed.
Example align_enum_variant : item_written (test_enum [] (ssbhwrite "align_after" 3) []) "A" [1] = Ok [1; 0; 0].
Proof. vm_compute. reflexivity. Qed.
Example align_enum_variant_named_fields :
  item_written (test_enum_named [] (ssbhwrite "align_after" 4) []) "A" [1] = Ok [1; 0; 0; 0].
Proof. vm_compute. reflexivity. Qed.
Example align_enum_named_field : item_written (test_enum_named [] [] (ssbhwrite "align_after" 3)) "A" [1] = Ok [1; 0; 0].
Proof. vm_compute. reflexivity. Qed.
Example align_struct : item_written (struct_x (ssbhwrite "align_after" 3)) "" [1] = Ok [1; 0; 0].
Proof. vm_compute. reflexivity. Qed.
Example align_struct_field : item_written (struct_xyz (ssbhwrite "align_after" 4)) "" [1; 2; 3] = Ok [1; 2; 0; 0; 3].
Proof. vm_compute. reflexivity. Qed.

Example magic_attribute :
  let it := struct_x [Attr "ssbhwrite" (Some [MNameValue ["magic"%string] (LByteStr [97; 98; 99])])] in
  item_written it "" [0] = Ok [97; 98; 99; 0] /\ item_sized it "" [0] = Ok 4.
Proof. split; reflexivity. Qed.
Example no_magic_attribute : item_written (struct_x []) "" [0] = Ok [0] /\ item_sized (struct_x []) "" [0] = Ok 1.
Proof. split; reflexivity. Qed.

(** struct TestStruct { x: u8, y: u16 } *)
Definition struct_xy (l : list Derive.attr) : item :=
  Item "TestStruct" [] l (DStruct (FNamed [fu8 "x" []; Fld "y" [] (RPath "u16" [])])).
Definition c_xy (l : list Derive.attr) : cty := CItem (struct_xy l) [CLib u8; CLib u16].
Definition xy : val := VStruct [VInt 0; VInt 0].
Example alignment_attribute : gen_align (c_xy (ssbhwrite "alignment" 7)) = Ok 7.
Proof. vm_compute. reflexivity. Qed.
Example struct_derive_uses_align_of : gen_align (c_xy []) = Ok (layout (c_xy [])) /\ layout (c_xy []) = 2.
Proof. split; reflexivity. Qed.
Example vec_and_slice_use_element_alignment : gen_align (CVec 5 (c_xy [])) = Ok (layout (c_xy [])).
Proof. vm_compute. reflexivity. Qed.
Example arrays_use_element_alignment : gen_align (CFix 7 (c_xy [])) = Ok (layout (c_xy [])).
Proof. vm_compute. reflexivity. Qed.
Example struct_size : gen_size (c_xy []) xy = Ok 3.
Proof. vm_compute. reflexivity. Qed.
Example vec_and_slice_size : gen_size (CVec 5 (c_xy [])) (VArr (repeat xy 5)) = Ok (3 * 5).
Proof. vm_compute. reflexivity. Qed.
Example array_size : gen_size (CFix 7 (c_xy [])) (VArr (repeat xy 7)) = Ok (3 * 7).
Proof. vm_compute. reflexivity. Qed.

Definition repr_enum : item :=
  Item "TestEnum" [] [Attr "ssbhwrite" (Some [MRepr "u32"])] (DEnum [Variant "A" [] (Some 1) FUnit; Variant "B" [] (Some 2) FUnit]).
Example repr_u32 :
  returns (let* s := gen_write (CItem repr_enum []) (VInt 1) (mkW [] 0 0) in gen_write (CItem repr_enum []) (VInt 2) s)
    (fun s => wbuf s = [1; 0; 0; 0; 2; 0; 0; 0] /\ wdp s = 8) /\
  gen_align (CItem repr_enum []) = Ok 4.
Proof. repeat split. Qed.

(** ** ssbh_lib_json *)

(** A value and the JSON document it becomes; the document is read back as the value. *)
Definition json_pair (s : schema) (v : val) (j : json) : Prop := to_json s v = j /\ from_json s j = Some v.
Definition s_string : schema := SWrap (SRel SCStr).
Example serialize_deserialize_ssbh_array_empty : json_pair (SArr (SInt 1 false)) (VArr []) (JArr []).
Proof. split; reflexivity. Qed.
Example serialize_deserialize_ssbh_array :
  json_pair (SArr (SInt 1 false)) (VArr [VInt 1; VInt 2; VInt 3]) (JArr [JInt 1; JInt 2; JInt 3]).
Proof. split; reflexivity. Qed.
Example serialize_deserialize_ssbh_byte_buffer_empty : json_pair SBuf (VBytes []) (JStr []).
Proof. split; reflexivity. Qed.
Example serialize_deserialize_ssbh_byte_buffer : json_pair SBuf (VBytes [1; 2; 3]) (JStr (text "010203")).
Proof. split; reflexivity. Qed.
Example serialize_deserialize_relptr64_none : json_pair (SRel (SInt 1 false)) (VPtr None) JNull.
Proof. split; reflexivity. Qed.
Example serialize_deserialize_relptr64_some : json_pair (SRel (SInt 1 false)) (VPtr (Some (VInt 5))) (JInt 5).
Proof. split; reflexivity. Qed.
Example serialize_deserialize_ptr64_some : json_pair (SAbs (SInt 1 false)) (VPtr (Some (VInt 5))) (JInt 5).
Proof. split; reflexivity. Qed.
Example serialize_deserialize_ptr64_none : json_pair (SAbs (SInt 1 false)) (VPtr None) JNull.
Proof. split; reflexivity. Qed.
Example serializer_deserialize_cstring : json_pair SCStr (VBytes (text "abc")) (JStr (text "abc")).
Proof. split; reflexivity. Qed.
Example serialize_deserialize_ssbh_string : json_pair s_string (ssbh_string (text "abc")) (JStr (text "abc")).
Proof. split; reflexivity. Qed.
Example serialize_deserialize_ssbh_string_null : json_pair s_string (VStruct [VPtr None]) JNull.
Proof. split; reflexivity. Qed.
Example serialize_deserialize_ssbh_string_empty : json_pair s_string (ssbh_string []) (JStr []).
Proof. split; reflexivity. Qed.
