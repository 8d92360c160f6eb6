(** The tests of ssbh_data/src/{adj,skel,matl,modl,meshex,hlpb}_data.rs as examples about the
    model.  Tests, not proofs: no theorem depends on this file. *)
From Verif Require Import Bytes Ssbh Formats File Strings Float32 MeshEx AnimComp AnimBuf SmallData AdjData
  SkelData MatlData VecData TransformData TestTools.

(** ** adj_data.rs *)

Definition converts (a : adj) (d : list adj_entry) : Prop := un_adj a = Ok d /\ adj_of d = a.
Example convert_adj_empty : converts (mkAdj [] []) [].
Proof. split; reflexivity. Qed.
Example convert_adj_single_entry : converts (mkAdj [(12, 0)] [2; 3; 4; 5]) [AE 12 [2; 3; 4; 5]].
Proof. split; reflexivity. Qed.
Example convert_adj_multiple_entries :
  converts (mkAdj [(0, 0); (3, 2); (2, 8)] [0; 1; 1; 1; 2; 2]) [AE 0 [0]; AE 3 [1; 1; 1]; AE 2 [2; 2]].
Proof. split; reflexivity. Qed.
Example create_adj_data_invalid_offset_first_entry : un_adj (mkAdj [(0, 4); (1, 10)] [2; 3; 4; 5]) = Err (EData DAdjRange).
Proof. reflexivity. Qed.
Example create_adj_data_invalid_offset_last_entry : un_adj (mkAdj [(0, 12)] [2; 3; 4; 5]) = Err (EData DAdjRange).
Proof. reflexivity. Qed.

(** -1 as a 16 bit pattern *)
Definition none : Z := 65535.
Definition adjacency (indices : list Z) (positions : list string) (padding : nat) : res (list Z) :=
  triangle_adjacency f32_eqb indices (map f positions) padding.
Example triangle_adjacency_empty : adjacency [] [] 18 = Ok [].
Proof. reflexivity. Qed.
Example triangle_adjacency_single_vertex_none_adjacent : adjacency [] ["0.0"%string] 18 = Ok (repeat none 18).
Proof. vm_compute. reflexivity. Qed.
Example triangle_adjacency_single_face :
  adjacency [0; 1; 2] ["0.0"; "0.5"; "1.0"]%string 3 = Ok (List.concat [[1; 2; none]; [2; 0; none]; [0; 1; none]]).
Proof. vm_compute. reflexivity. Qed.
Example triangle_adjacency_three_adjacent_faces :
  adjacency [0; 1; 2; 2; 0; 1; 1; 0; 2] ["0.0"; "0.5"; "1.0"]%string 7 =
  Ok (List.concat [[1; 2; 1; 2; 2; 1; none]; [2; 0; 2; 0; 0; 2; none]; [0; 1; 0; 1; 1; 0; none]]).
Proof. vm_compute. reflexivity. Qed.
Example triangle_adjacency_two_adjacent_faces_split_vertex :
  adjacency [0; 1; 2; 3; 4; 5] ["0.0"; "0.5"; "1.0"; "0.0"; "1.5"; "2.0"]%string 5 =
  Ok (List.concat [[1; 2; 4; 5; none]; [2; 0; none; none; none]; [0; 1; none; none; none];
                   [1; 2; 4; 5; none]; [5; 3; none; none; none]; [3; 4; none; none; none]]).
Proof. vm_compute. reflexivity. Qed.

(** ** skel_data.rs *)

Definition column (l : list Z) : vec4 := V4 (nth 0 l 0) (nth 1 l 0) (nth 2 l 0) (nth 3 l 0).
Definition row (v : vec4) : list Z := [v4x v; v4y v; v4z v; v4w v].
Definition columns (m : mat) : list (list Z) := [row (col1 m); row (col2 m); row (col3 m); row (col4 m)].
Definition matrix (l : list (list string)) : mat :=
  let c := map (fun r => column (map f r)) l in
  let d := V4 0 0 0 0 in Mat (nth 0 c d) (nth 1 c d) (nth 2 c d) (nth 3 c d).
(** Mat4 * Mat4 of glam: the columns of the right factor, each multiplied by the left one *)
Definition mat_mul (a b : mat) : mat :=
  let by_column v := column (mul_vec4 (columns a) (row v)) in
  Mat (by_column (col1 b)) (by_column (col2 b)) (by_column (col3 b)) (by_column (col4 b)).
(** approx::relative_eq! with the default [max_relative], f32::EPSILON = 2^-23 *)
Definition f32_abs (x : Z) : Z := x mod 2 ^ 31.
Definition relative_eq (a b : Z) : bool :=
  let d := f32_abs (bits_of_f32 (sub32 (f32_of a) (f32_of b))) in
  f32_leb d (f "0.0001") ||
  f32_leb d (mul_bits (if f32_ltb (f32_abs a) (f32_abs b) then f32_abs b else f32_abs a) 0x34000000).
Definition assert_matrix_relative_eq (a b : mat) : bool :=
  forallb (fun p => relative_eq (fst p) (snd p)) (combine (List.concat (columns a)) (List.concat (columns b))).
Definition all_eq (a b : list mat) : bool :=
  (Nat.eqb (List.length a) (List.length b)) && forallb (fun p => assert_matrix_relative_eq (fst p) (snd p)) (combine a b).
Definition mat_eqb (a b : mat) : bool :=
  forallb (fun p => f32_eqb (fst p) (snd p)) (combine (List.concat (columns a)) (List.concat (columns b))).

Definition m_identity := matrix [["1.0"; "0.0"; "0.0"; "0.0"]; ["0.0"; "1.0"; "0.0"; "0.0"];
                                 ["0.0"; "0.0"; "1.0"; "0.0"]; ["0.0"; "0.0"; "0.0"; "1.0"]]%string.
Definition m_zero : mat := let z := V4 0 0 0 0 in Mat z z z z.
Definition m_count := matrix [["0.0"; "1.0"; "2.0"; "3.0"]; ["4.0"; "5.0"; "6.0"; "7.0"];
                              ["8.0"; "9.0"; "10.0"; "11.0"]; ["12.0"; "13.0"; "14.0"; "15.0"]]%string.

Example create_skel_no_bones :
  skel_val mat_mul (fun m => m) [] = Ok (VStruct [VArr []; VArr []; VArr []; VArr []; VArr []]).
Proof. reflexivity. Qed.

Definition m_rot := matrix [["1.0"; "0.0"; "0.0"; "0.0"]; ["0.0"; "1.0"; "0.0"; "0.0"];
                            ["0.0"; "0.0"; "1.0"; "0.0"]; ["0.0"; "6.23395"; "0.0"; "1.0"]]%string.
Definition m_hip := matrix [["0.0"; "0.999626"; "0.0273582"; "0.0"]; ["0.0"; "-0.0273582"; "0.999626"; "0.0"];
                            ["1.0"; "0.0"; "0.0"; "0.0"]; ["0.0"; "-0.742259"; "0.0"; "1.0"]]%string.
Definition m_world := matrix [["0.0"; "0.999626"; "0.0273582"; "0.0"]; ["0.0"; "-0.0273582"; "0.999626"; "0.0"];
                              ["1.0"; "0.0"; "0.0"; "0.0"]; ["0.0"; "5.49169"; "0.0"; "1.0"]]%string.
Definition inv_rot := matrix [["1.0"; "0.0"; "0.0"; "0.0"]; ["0.0"; "1.0"; "0.0"; "0.0"];
                              ["0.0"; "0.0"; "1.0"; "0.0"]; ["0.0"; "-6.23395"; "0.0"; "1.0"]]%string.
Definition inv_hip := matrix [["-0.0"; "0.0"; "1.0"; "-0.0"]; ["0.9996254"; "-0.027358184"; "0.0"; "0.0"];
                              ["0.027358184"; "0.9996254"; "0.0"; "0.0"]; ["0.74198097"; "-0.02030686"; "0.0"; "1.0"]]%string.
Definition inv_world := matrix [["0.0"; "0.0"; "1.0"; "-0.0"]; ["0.9996254"; "-0.02735818"; "0.0"; "0.0"];
                                ["0.027358184"; "0.9996254"; "0.0"; "0.0"]; ["-5.4896326"; "0.15024267"; "0.0"; "1.0"]]%string.
(** The inverse is code of another crate; it is looked up among the matrices of the test, and
    [inverses] checks what is looked up. *)
Definition lookup_inverse (m : mat) : mat :=
  if assert_matrix_relative_eq m m_rot then inv_rot
  else if assert_matrix_relative_eq m m_hip then inv_hip
  else if assert_matrix_relative_eq m m_world then inv_world else m_identity.
Example inverses :
  forallb (fun m => assert_matrix_relative_eq (mat_mul m (lookup_inverse m)) m_identity) [m_identity; m_rot; m_hip; m_world] = true.
Proof. vm_compute. reflexivity. Qed.
Definition mario : list bone :=
  [Bone (text "Trans") m_identity None 0; Bone (text "Rot") m_rot (Some 0) 0; Bone (text "Hip") m_hip (Some 1) 0].
Example create_skel_mario_three_bone_chain :
  returns (skel_val mat_mul lookup_inverse mario)
    (fun v => match v with
              | VStruct [VArr es; VArr ws; VArr iws; VArr ts; VArr its] =>
                  es = [VStruct [ssbh_string (text "Trans"); VInt 0; VInt 65535; VStruct [VInt 1; VInt 0]];
                        VStruct [ssbh_string (text "Rot"); VInt 1; VInt 0; VStruct [VInt 1; VInt 0]];
                        VStruct [ssbh_string (text "Hip"); VInt 2; VInt 1; VStruct [VInt 1; VInt 0]]] /\
                  ts = map mat_val [m_identity; m_rot; m_hip] /\
                  returns (un_list un_mat ws) (fun l => all_eq l [m_identity; m_rot; m_world] = true) /\
                  returns (un_list un_mat iws) (fun l => all_eq l [m_identity; inv_rot; inv_world] = true) /\
                  returns (un_list un_mat its) (fun l => all_eq l [m_identity; inv_rot; inv_hip] = true)
              | _ => False
              end).
Proof. vm_compute. repeat split. Qed.

Example create_bone_data_no_parent :
  un_bone (VStruct [ssbh_string (text "abc"); VInt 2; VInt (2 ^ 16 - 1); VStruct [VInt 1; VInt 4]]) (mat_val m_identity) =
  Ok (Bone (text "abc") m_identity None 4).
Proof. vm_compute. reflexivity. Qed.
Example create_bone_data_negative_parent :
  un_bone (VStruct [ssbh_string (text "abc"); VInt 2; VInt (2 ^ 16 - 5); VStruct [VInt 1; VInt 0]]) (mat_val m_identity) =
  Ok (Bone (text "abc") m_identity None 0).
Proof. vm_compute. reflexivity. Qed.

Definition translation := matrix [["1.0"; "0.0"; "0.0"; "0.0"]; ["0.0"; "1.0"; "0.0"; "0.0"];
                                  ["0.0"; "0.0"; "1.0"; "0.0"]; ["1.0"; "2.0"; "3.0"; "1.0"]]%string.
Definition inv_translation := matrix [["1.0"; "0.0"; "0.0"; "0.0"]; ["0.0"; "1.0"; "0.0"; "0.0"];
                                      ["0.0"; "0.0"; "1.0"; "0.0"]; ["-1.0"; "-2.0"; "-3.0"; "1.0"]]%string.
Example calculate_relative_transform_with_parent :
  mat_eqb (calculate_relative_transform mat_mul (fun _ => inv_translation)
             (matrix [["2.0"; "0.0"; "0.0"; "0.0"]; ["0.0"; "4.0"; "0.0"; "0.0"];
                      ["0.0"; "0.0"; "8.0"; "0.0"]; ["0.0"; "0.0"; "0.0"; "1.0"]]%string) (Some translation))
          (matrix [["2.0"; "0.0"; "0.0"; "0.0"]; ["0.0"; "4.0"; "0.0"; "0.0"];
                   ["0.0"; "0.0"; "8.0"; "0.0"]; ["-2.0"; "-8.0"; "-24.0"; "1.0"]]%string) = true /\
  mat_eqb (mat_mul translation inv_translation) m_identity = true.
Proof. vm_compute. split; reflexivity. Qed.
Example calculate_relative_transform_no_parent :
  calculate_relative_transform mat_mul (fun m => m) m_count None = m_count.
Proof. reflexivity. Qed.

Example world_transform_no_parent :
  let data := [Bone (text "root") m_count None 0] in
  map (calculate_world_transform mat_mul data) data = [Ok m_count].
Proof. reflexivity. Qed.
Example world_transform_self_referential_bone :
  let data := [Bone (text "root") m_zero (Some 0) 0] in
  map (calculate_world_transform mat_mul data) data = [Err (EData DCycle)].
Proof. vm_compute. reflexivity. Qed.
Example world_transform_bone_cycle :
  let c := Bone (text "c") m_zero (Some 1) 0 in
  let data := [Bone (text "a") m_zero None 0; Bone (text "b") m_zero (Some 2) 0; c; Bone (text "d") m_zero (Some 2) 0] in
  calculate_world_transform mat_mul data c = Err (EData DCycle).
Proof. vm_compute. reflexivity. Qed.
Example world_transform_multi_parent_chain :
  let waist :=
    Bone (text "Waist") (matrix [["0.999954"; "-0.00959458"; "0.0"; "0.0"]; ["0.00959458"; "0.999954"; "0.0"; "0.0"];
                                 ["0.0"; "0.0"; "1.0"; "0.0"]; ["1.38263"; "0.0"; "0.0"; "1.0"]]%string) (Some 2) 0 in
  let data :=
    [Bone (text "Trans") m_identity None 0;
     Bone (text "Rot") (matrix [["1.0"; "0.0"; "0.0"; "0.0"]; ["0.0"; "1.0"; "0.0"; "0.0"];
                                ["0.0"; "0.0"; "1.0"; "0.0"]; ["0.0"; "11.241"; "0.268775"; "1.0"]]%string) (Some 0) 0;
     Bone (text "Hip") (matrix [["0.0"; "1.0"; "0.0"; "0.0"]; ["0.0"; "0.0"; "1.0"; "0.0"];
                                ["1.0"; "0.0"; "0.0"; "0.0"]; ["0.0"; "0.0"; "0.0"; "1.0"]]%string) (Some 1) 0;
     waist] in
  returns (calculate_world_transform mat_mul data waist)
    (fun m => assert_matrix_relative_eq
       (matrix [["0.0"; "0.999954"; "-0.00959458"; "0.0"]; ["0.0"; "0.00959458"; "0.999954"; "0.0"];
                ["1.0"; "0.0"; "0.0"; "0.0"]; ["0.0"; "12.6236"; "0.268775"; "1.0"]]%string) m = true).
Proof. vm_compute. reflexivity. Qed.

(** ** matl_data.rs *)

(** [x.to_param()] and [x.to_param_v15()] in an attribute with the given id *)
Definition attr (id tag : Z) (v : val) : val := VStruct [VInt id; VPtr (Some (VCase tag (VStruct [v])))].
Definition ints (l : list Z) : val := VStruct (map VInt l).
Definition vector (l : list string) : val := ints (map f l).
Definition v4_of (l : list string) : vec4 := column (map f l).

Example create_empty_matl_data_1_5 : un_matl (1, 5) (VStruct [VArr []]) = Ok (MatD 1 5 []).
Proof. reflexivity. Qed.
Example create_empty_matl_data_1_6 : un_matl (1, 6) (VStruct [VArr []]) = Ok (MatD 1 6 []).
Proof. reflexivity. Qed.

Example create_matl_data_single_entry :
  un_matl (1, 6)
    (VStruct [VArr [VStruct [ssbh_string (text "a");
       VArr [attr 165 5 (vector ["1.0"; "2.0"; "3.0"; "4.0"]%string);
             attr 197 1 (VInt (f "0.5"));
             attr 232 2 (VInt 1);
             attr 233 2 (VInt 0);
             attr 93 11 (ssbh_string (text "abc"));
             attr 108 14 (VStruct [VInt 3; VInt 1; VInt 2; VInt 1; VInt 0; VInt 2;
                                   vector ["1.0"; "1.0"; "3.0"; "4.0"]%string; VInt 0; VInt 0; VInt (f "-1.0"); VInt 4]);
             attr 280 17 (ints [5; 0; 1; 0; 0; 0; 1; 0; 0; 0]);
             attr 291 18 (VStruct [VInt 1; VInt 1; VInt (f "-5.0"); VInt 0; VInt 0; VInt 0])];
       ssbh_string (text "b")]]]) =
  Ok (MatD 1 6 [MatE (text "a") (text "b")
                  [Prm 280 (Bld 5 0 1 0 0 0 true)]
                  [Prm 197 (f "0.5")]
                  [Prm 232 true; Prm 233 false]
                  [Prm 165 (v4_of ["1.0"; "2.0"; "3.0"; "4.0"]%string)]
                  [Prm 291 (Rst 1 1 (f "-5.0"))]
                  [Prm 108 (Smp 3 1 2 1 0 (v4_of ["1.0"; "1.0"; "3.0"; "4.0"]%string) (f "-1.0") 4)]
                  [Prm 93 (text "abc")]
                  []]).
Proof. vm_compute. reflexivity. Qed.

Definition attributes (v : val) : list val := match v with VStruct [_; VArr l; _] => l | _ => [] end.
(** param_id and discriminant of an attribute *)
Definition shape (v : val) : Z * Z := match v with VStruct [VInt id; VPtr (Some (VCase t _))] => (id, t) | _ => (-1, -1) end.
Definition labels (v : val) : list (list Z) :=
  match v with VStruct [a; _; b] => [ssbh_to_string_lossy a; ssbh_to_string_lossy b] | _ => [] end.

Definition mario_sampler (wrap : Z) : val :=
  VStruct [VInt wrap; VInt wrap; VInt wrap; VInt 1; VInt 1; VInt 1; ints [0; 0; 0; 0]; VInt 0; VInt 2139095022; VInt 0; VInt 2].
Definition mario_sampler_data (wrap : Z) : sampler := Smp wrap wrap wrap 1 1 (V4 0 0 0 0) 0 1.
Definition ones : list string := ["1.0"; "1.0"; "1.0"; "1.0"]%string.
Definition unit_x : list string := ["1.0"; "0.0"; "0.0"; "0.0"]%string.
Definition mario_entry : val :=
  VStruct [ssbh_string (text "alp_mario_002");
    VArr [attr 280 17 (ints [1; 0; 0; 1; 0; 0; 0; 0; 0; 5]);
          attr 233 2 (VInt 1); attr 235 2 (VInt 1); attr 236 2 (VInt 1);
          attr 200 1 (VInt (f "0.7"));
          attr 152 5 (vector unit_x); attr 165 5 (vector ones); attr 166 5 (vector ones); attr 160 5 (vector ones);
          attr 291 18 (VStruct [VInt 1; VInt 0; VInt 0; VInt 0; VInt 0; VInt 16777217]);
          attr 108 14 (mario_sampler 0); attr 112 14 (mario_sampler 0); attr 114 14 (mario_sampler 0); attr 115 14 (mario_sampler 1);
          attr 92 11 (ssbh_string (text "alp_mario_002_col")); attr 96 11 (ssbh_string (text "alp_mario_002_nor"));
          attr 98 11 (ssbh_string (text "alp_mario_002_prm")); attr 99 11 (ssbh_string (text "#replace_cubemap"))];
    ssbh_string (text "SFX_PBS_0100000008008269_opaque")].
Definition mario_data : matl_entry :=
  MatE (text "alp_mario_002") (text "SFX_PBS_0100000008008269_opaque")
    [Prm 280 (Bld 1 0 0 1 0 0 false)]
    [Prm 200 (f "0.7")]
    [Prm 233 true; Prm 235 true; Prm 236 true]
    [Prm 152 (v4_of unit_x); Prm 165 (v4_of ones); Prm 166 (v4_of ones); Prm 160 (v4_of ones)]
    [Prm 291 (Rst 1 0 0)]
    [Prm 108 (mario_sampler_data 0); Prm 112 (mario_sampler_data 0); Prm 114 (mario_sampler_data 0); Prm 115 (mario_sampler_data 1)]
    [Prm 92 (text "alp_mario_002_col"); Prm 96 (text "alp_mario_002_nor"); Prm 98 (text "alp_mario_002_prm");
     Prm 99 (text "#replace_cubemap")]
    [].
Example ultimate_matl_entry_conversions :
  un_entry16 mario_entry = Ok mario_data /\
  labels (entry16_val mario_data) = [text "alp_mario_002"; text "SFX_PBS_0100000008008269_opaque"] /\
  map shape (attributes (entry16_val mario_data)) = map shape (attributes mario_entry).
Proof. vm_compute. repeat split. Qed.

Definition taiko_label : list Z := text "cos_227000_color_S_CUS_0x10000000__AT_ZERO___CULLNONE".
Definition taiko_entry : val :=
  VStruct [ssbh_string taiko_label;
    VArr [attr 280 17 (ints [1; 0; 0; 1; 0; 0; 0; 0; 5; 0]);
          attr 291 18 (VStruct [VInt 0]);
          attr 30 11 (ssbh_string (text "../../textures/cos_149000_02"));
          attr 0 5 (vector ones);
          attr 64 14 (VStruct [VInt 0; VInt 0; VInt 1; VInt 1; VInt 1; VInt 1; vector ["0.5"; "0.5"; "0.5"; "1.0"]%string;
                               VInt 0; VInt 2139095022; VInt 0; VInt 1]);
          attr 274 16 (vector ["1.0"; "1.0"; "0.0"; "0.0"; "0.0"]%string);
          attr 277 2 (VInt 1)];
    ssbh_string (text "")].
Definition taiko_data : matl_entry :=
  MatE taiko_label (text "")
    [Prm 280 (Bld 1 0 0 1 0 0 false)]
    []
    [Prm 277 true]
    [Prm 0 (v4_of ones)]
    [Prm 291 (Rst 1 0 0)]
    [Prm 64 (Smp 0 0 1 1 1 (v4_of ["0.5"; "0.5"; "0.5"; "1.0"]%string) 0 1)]
    [Prm 30 (text "../../textures/cos_149000_02")]
    [Prm 274 (Uv (f "1.0") (f "1.0") 0 0 0)].
Example taiko_matl_entry_conversions :
  un_entry15 taiko_entry = Ok taiko_data /\
  labels (entry15_val taiko_data) = [taiko_label; []] /\
  map shape (attributes (entry15_val taiko_data)) = map shape (attributes taiko_entry).
Proof. vm_compute. repeat split. Qed.

(** ** modl_data.rs *)

Definition abc_modl : val :=
  VStruct [ssbh_string (text "a"); ssbh_string (text "b"); VArr [ssbh_string (text "f1"); ssbh_string (text "f2")];
           VPtr (Some (ssbh_string (text "c"))); ssbh_string (text "d");
           VArr [VStruct [ssbh_string (text "a"); VInt 2; ssbh_string (text "b")]]].
Definition abc_modl_data (minor : Z) : modl_data :=
  MD 1 minor (text "a") (text "b") [text "f1"; text "f2"] (Some (text "c")) (text "d") [ME (text "a") 2 (text "b")].
Example create_modl : modl_val (abc_modl_data 2) = abc_modl.
Proof. reflexivity. Qed.
Example create_modl_data : un_modl (1, 7) abc_modl = Ok (abc_modl_data 7).
Proof. vm_compute. reflexivity. Qed.
Example create_modl_entry_data :
  un_modl_entry (VStruct [ssbh_string (text "a"); VInt 2; ssbh_string (text "b")]) = Ok (ME (text "a") 2 (text "b")).
Proof. vm_compute. reflexivity. Qed.
Example create_modl_entry :
  modl_entry_val (ME (text "a") 2 (text "b")) = VStruct [ssbh_string (text "a"); VInt 2; ssbh_string (text "b")].
Proof. reflexivity. Qed.

(** ** meshex_data.rs *)

Definition cube (x : string) : vec3 := V3 (f x) (f x) (f x).
Definition ab_group (full name x : string) : val :=
  VStruct [VStruct [vec3_val (cube x); VInt (f x)]; cstr_ptr (text full); cstr_ptr (text name)].
Definition ab_entry (i : Z) : val := VStruct [VInt i; vector ["0.0"; "1.0"; "0.0"]%string].
(** EntryFlag::new().with_draw_model(d).with_cast_shadow(s) *)
Definition entry_flag (d s : bool) : val := VInt ((if d then 1 else 0) + (if s then 2 else 0)).
Definition ab_meshex (all : sphere) : meshex :=
  mkMeshEx (Some (VStruct [sphere_val all; cstr_ptr (text "All")]))
    (Some [ab_group "a_VIS" "a" "1.0"; ab_group "b_VIS" "b" "2.0"])
    (Some [ab_entry 0; ab_entry 0; ab_entry 1])
    (Some [entry_flag false true; entry_flag true false; entry_flag true true]) 0.
Definition ab_data : list mesh_group :=
  [MG (Sph (cube "1.0") (f "1.0")) (text "a_VIS") (text "a") [EF false true; EF true false];
   MG (Sph (cube "2.0") (f "2.0")) (text "b_VIS") (text "b") [EF true true]].
Example convert_meshex_data :
  let all := Sph (cube "1.5") (f "4.0") in un_meshex (ab_meshex all) = Ok ab_data /\ meshex_of all ab_data = ab_meshex all.
Proof. vm_compute. split; reflexivity. Qed.

Example meshex_data_from_mesh_objects :
  forall bounds : list (list vec3) -> sphere,
  from_mesh_objects bounds [(text "a_VIS", repeat (cube "-1.0") 3); (text "a_VIS", repeat (cube "1.0") 3);
                            (text "b_VIS", repeat (cube "0.0") 3)] =
  [MG (bounds [repeat (cube "-1.0") 3; repeat (cube "1.0") 3]) (text "a_VIS") (text "a") [EF true true; EF true true];
   MG (bounds [repeat (cube "0.0") 3]) (text "b_VIS") (text "b") [EF true true]].
Proof. intros. vm_compute. reflexivity. Qed.

Example strip_meshex_names :
  forallb (fun p => text_eqb (text (fst p)) (strip_mesh_name_tags (text (snd p))))
  [("sampleRing", "sampleRingShape");
   ("CityWorldFlag01_pCylinderShape1", "CityWorldFlag01_pCylinderShape1");
   ("Face_patternA", "Face_patternA_VIS_O_OBJShape");
   ("FaceBaseM", "FaceBaseM_O_OBJ_NSCShape");
   ("guile_base", "guile_base_VIS_OBJShape");
   ("gel", "gel_O_OBJ_O_SORTEACHNODEShape");
   ("FilmM3", "FilmM3_O_OBJShape");
   ("BodyM_Red", "BodyM_Red_VIS_O_OBJ_NSCShape");
   ("OrbM", "OrbM_VIS_O_OBJ_O_OBJ_NSCShape");
   ("SheriffM", "SheriffM_O_OBJ_NSC1Shape");
   ("face_default", "face_default_O_V_VISShape");
   ("a", "a_O_OBJ_O_SORTEACHNODEShape");
   ("shotM", "shotM_VIS_O_OBJ1Shape");
   ("peach_flame_RT", "peach_flame_RT_O_OBJ_O_HIR_O_SORTBIAS800_Shape");
   ("ref", "ref_O_OBJ_O_HIR_O_SORTBIAS900_Shape");
   ("peach_00_hair2", "peach_00_hair2_O_OBJ_O_HIR_O_SORTBIAS1000_Shape");
   ("peach_00_skirt3", "peach_00_skirt3_O_OBJ_O_HIR_O_SORTBIAS1100_Shape");
   ("peach_00_main2", "peach_00_main2_O_OBJ_O_HIR_O_SORTBIAS1200_Shape");
   ("peach_00_shose", "peach_00_shose_O_OBJ_O_HIR_O_SORTBIAS1300_Shape");
   ("peach_00_skirt", "peach_00_skirt_O_OBJ_O_HIR_O_SORTBIAS1400_Shape");
   ("peach_00_hand", "peach_00_hand_O_OBJ_O_HIR_O_SORTBIAS1500_Shape");
   ("peach_01L_hair03", "peach_01L_hair03_O_OBJ_O_HIR_O_SORTBIAS1600_Shape");
   ("peach_00_hair4", "peach_00_hair4_O_OBJ_O_HIR_O_SORTBIAS1800_Shape");
   ("peach_01R_ring_R", "peach_01R_ring_R_O_OBJ_O_HIR_O_SORTBIAS1700_Shape");
   ("eye1", "eye1_O_OBJ_O_HIRShape");
   ("renz", "renz_O_OBJ_NSC_O_SORTBIASm10_Shape");
   ("Bayonetta_FaceN", "Bayonetta_FaceN_VIS_O_OBJ_O_NOSORT_FAR_O_SORTEACHNODEShape");
   ("armA", "armA_VIS_O_OBJ_O_SORTEACHNODEShape");
   ("brave_Eye_Ouch", "brave_Eye_Ouch_VIS_O_OBJShape_t_t");
   ("brave_Mouth_Bound", "brave_Mouth_Bound_VIS_O_OBJShape1");
   ("falsh", "falsh_O_OBJ_O_NOSORT_FARShape");
   ("Cloud_Openblink", "Cloud_Openblink_VIS_O_OBJ_O_NOSORT_FARShape");
   ("L_ARMura", "L_ARMura_O_OBJ_O_SORTBIASm1__O_SORTEACHNODEShape");
   ("L_ARMomote", "L_ARMomote_O_OBJ_O_SORTBIAS1__O_SORTEACHNODEShape");
   ("diddy_Mouth_Capture", "diddy_Mouth_Capture_VIS_O_OBJ_SORTEACHNODEShape");
   ("Head_normalLF_Shadow", "Head_normalLF_Shadow_VIS_O_OBJ_O_SORTBIAS5__O_SORTEACHNODEShape");
   ("donkey_Rarm", "donkey_Rarm_O_OBJ_O_SORTEACHNODEShape1");
   ("bird", "bird_VIS_O_OBJ_O_OBJ_O_NOSORT_NEARShape");
   ("gun_A_board", "gun_A_board_VIS_O_OBJShapeShape");
   ("LightM", "LightM_O_OBJ_2Shape");
   ("LhandMove", "LhandMove_VIS_O_OBJ_O_NOSORT_AS_OPAQUEShape");
   ("renz", "renz_O_OBJ_NSC_O_SORTBIASm10_Shape1");
   ("pasted__polySurface287", "pasted__polySurface287_O_OBJ1Shape");
   ("szerosuits_heir_Tail", "szerosuits_heir_Tail_O_OBJ__O_SORTEACHNODEShape");
   ("pPlane1", "pPlane1_O_OBJ_NSC_O_SORTEACHNODEShape");
   ("hairmid_rev", "hairmid_rev_O_OBJ_O_SORTEACHNODEShape_rev")]%string = true.
Proof. vm_compute. reflexivity. Qed.

(** ** hlpb_data.rs *)

Definition unit_w : list string := ["0.0"; "0.0"; "0.0"; "1.0"]%string.
Definition orient_value (name arm hand wrist : string) : val :=
  VStruct [ssbh_string (text name); ssbh_string (text arm); ssbh_string (text arm); ssbh_string (text hand);
           ssbh_string (text wrist); VInt 2; vec3_val (cube "0.5"); vector unit_w; vector unit_w;
           vec3_val (cube "-180.0"); vec3_val (cube "180.0")].
Definition orient_data (name arm hand wrist : string) : orient :=
  Orient (text name) (text arm) (text arm) (text hand) (text wrist) 2 (cube "0.5") (v4_of unit_w) (v4_of unit_w)
         (cube "-180.0") (cube "180.0").
Definition test_hlpb : val :=
  VStruct [VArr [VStruct ([ssbh_string (text "aim1"); ssbh_string (text "root"); ssbh_string (text "root");
                           ssbh_string (text "DEFAULT"); ssbh_string (text "DEFAULT"); ssbh_string (text "a"); ssbh_string (text "a");
                           VInt 0; VInt 1; vector ["1.0"; "0.0"; "0.0"]%string; vector ["0.0"; "1.0"; "0.0"]%string;
                           vector unit_w; vector unit_w] ++ repeat (VInt (f "0.0")) 6)];
           VArr [orient_value "orient1" "ArmL" "HandL" "H_WristL"; orient_value "orient2" "ArmR" "HandR" "H_WristR"];
           VArr [VInt 0; VInt 0; VInt 1]; VArr [VInt 0; VInt 1; VInt 1]].
Definition test_hlpb_data : hlpb_data :=
  HD 1 1 [Aim (text "aim1") (text "root") (text "root") (text "DEFAULT") (text "DEFAULT") (text "a") (text "a") 0 1
              (V3 (f "1.0") 0 0) (V3 0 (f "1.0") 0) (v4_of unit_w) (v4_of unit_w)]
         [orient_data "orient1" "ArmL" "HandL" "H_WristL"; orient_data "orient2" "ArmR" "HandR" "H_WristR"].
Example create_hlpb_hlpb_data : un_hlpb test_hlpb = Ok test_hlpb_data /\ hlpb_val test_hlpb_data = test_hlpb.
Proof. vm_compute. split; reflexivity. Qed.
