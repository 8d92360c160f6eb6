(** The tests of ssbh_data/src/anim_data/buffers.rs as examples about the model, written by
    tools/tests.py from the source.  [unwrap] succeeds and the values are the recorded ones.
    Tests, not proofs: no theorem depends on this file. *)
From Verif Require Import Bytes Ssbh Formats Float32 AnimComp AnimBuf TestTools.

(** [read_compressed(...).unwrap()], seen as the values of a track *)
Definition reads (b : list Z) (v : track_values) (count : Z) : Prop :=
  returns (read_track_values b (track_type v) Compressed count) (fun r => fst r = v).

(** buffers.rs:340 *)
Example read_constant_vector4_single_frame :
  returns (read_track_values (hex "cdcccc3e 0000c03f 0000803f 0000803f")
             9 Constant 1)
    (fun r => snd r = false /\ fst r = TvVec4
      [V4 (f "0.4") (f "1.5") (f "1.0") (f "1.0")]).
Proof. vm_compute. repeat split. Qed.
(** buffers.rs:363 *)
Example write_constant_vector4_single_frame :
  tv_write (TvVec4
      [V4 (f "0.4") (f "1.5") (f "1.0") (f "1.0")])
    Constant false =
  Ok (hex "cdcccc3e 0000c03f 0000803f 0000803f").
Proof. vm_compute. repeat split. Qed.
(** buffers.rs:378 *)
Example read_constant_texture_single_frame :
  returns (read_track_values (hex "0000803f 0000803f 00000000 00000000 00000000")
             2 Constant 1)
    (fun r => snd r = false /\ fst r = TvUv
      [Uv (f "1.0") (f "1.0") (f "0.0") (f "0.0") (f "0.0")]).
Proof. vm_compute. repeat split. Qed.
(** buffers.rs:409 *)
Example write_constant_texture_single_frame :
  tv_write (TvUv
      [Uv (f "1.0") (f "1.0") (f "0.0") (f "0.0") (f "0.0")])
    Constant false =
  Ok (hex "0000803f 0000803f 00000000 00000000 00000000").
Proof. vm_compute. repeat split. Qed.
(** buffers.rs:433 *)
Example read_compressed_uv_transform_multiple_frames :
  returns (read_track_values (hex "04000900 60002600 74000000 14000000 2a8e633e 34a13d3f 0a000000 00000000 cdcc4c3e
        7a8c623f 0a000000 00000000 00000000 00000000 10000000 00000000 ec51b8be bc7413bd
        09000000 00000000 a24536be e17a943e 09000000 00000000 34a13d3f 7a8c623f 00000000
        bc7413bd a24536be ffffff1f 80b4931a cfc12071 8de500e6 535555")
             2 Compressed 4)
    (fun r => snd r = false /\ fst r = TvUv
      [Uv (f "0.740741") (f "0.884956") (f "0.0") (f "-0.036") (f "-0.178");
      Uv (f "0.5881758") (f "0.64123756") (f "0.0") (f "-0.0721409") (f "-0.12579648");
      Uv (f "0.48781726") (f "0.5026394") (f "0.0") (f "-0.1082818") (f "-0.07359296");
      Uv (f "0.4168567") (f "0.41291887") (f "0.0") (f "-0.14378865") (f "-0.02230529")]).
Proof. vm_compute. repeat split. Qed.
(** buffers.rs:502 *)
Example read_compressed_uv_transform_multiple_frames_uniform_scale :
  returns (read_track_values (hex "04000B00 60001600 74000000 25000000 3333333F 9A99593F 08000000 00000000 3333333F
        9A99593F 10000000 00000000 00000000 00000000 10000000 00000000 9A9919BE 9A9999BD
        07000000 00000000 9A99993D 9A99193E 07000000 00000000 9A99593F 9A99593F 00000000
        9A9999BD 9A99993D FF7FC0FF 1FF0FF07 FCFF01FF 7FC0FF1F F0FF07FC FF01FF7F C0FF1FF0
        FF07FCFF 01FF7FC0 FF1F108F 3F309B33 9B4D1999 AC399331 3B1CF000 803F00E0 0F00F803
        00FE0080 3F00E00F 00F80300 FE00803F 00E00F00 F80300FE 00803F00 E00F00F8 0300FE00
        803F")
             2 Compressed 37)
    (fun r => snd r = false /\ fst r = TvUv
      [Uv (f "0.85") (f "0.85") (f "0.0") (f "-0.075") (f "0.075");
      Uv (f "0.85") (f "0.85") (f "0.0") (f "-0.075") (f "0.075");
      Uv (f "0.85") (f "0.85") (f "0.0") (f "-0.075") (f "0.075");
      Uv (f "0.85") (f "0.85") (f "0.0") (f "-0.075") (f "0.075");
      Uv (f "0.85") (f "0.85") (f "0.0") (f "-0.075") (f "0.075");
      Uv (f "0.85") (f "0.85") (f "0.0") (f "-0.075") (f "0.075");
      Uv (f "0.85") (f "0.85") (f "0.0") (f "-0.075") (f "0.075");
      Uv (f "0.85") (f "0.85") (f "0.0") (f "-0.075") (f "0.075");
      Uv (f "0.85") (f "0.85") (f "0.0") (f "-0.075") (f "0.075");
      Uv (f "0.85") (f "0.85") (f "0.0") (f "-0.075") (f "0.075");
      Uv (f "0.85") (f "0.85") (f "0.0") (f "-0.075") (f "0.075");
      Uv (f "0.85") (f "0.85") (f "0.0") (f "-0.075") (f "0.075");
      Uv (f "0.85") (f "0.85") (f "0.0") (f "-0.075") (f "0.075");
      Uv (f "0.85") (f "0.85") (f "0.0") (f "-0.075") (f "0.075");
      Uv (f "0.84176475") (f "0.84176475") (f "0.0") (f "-0.07913386") (f "0.07913386");
      Uv (f "0.82") (f "0.82") (f "0.0") (f "-0.08976378") (f "0.08976378");
      Uv (f "0.7911765") (f "0.7911765") (f "0.0") (f "-0.10452756") (f "0.10452756");
      Uv (f "0.7588235") (f "0.7588235") (f "0.0") (f "-0.120472446") (f "0.120472446");
      Uv (f "0.73") (f "0.73") (f "0.0") (f "-0.13523622") (f "0.13523622");
      Uv (f "0.70823526") (f "0.70823526") (f "0.0") (f "-0.14586614") (f "0.14586614");
      Uv (f "0.7") (f "0.7") (f "0.0") (f "-0.15") (f "0.15");
      Uv (f "0.7") (f "0.7") (f "0.0") (f "-0.15") (f "0.15");
      Uv (f "0.7") (f "0.7") (f "0.0") (f "-0.15") (f "0.15");
      Uv (f "0.7") (f "0.7") (f "0.0") (f "-0.15") (f "0.15");
      Uv (f "0.7") (f "0.7") (f "0.0") (f "-0.15") (f "0.15");
      Uv (f "0.7") (f "0.7") (f "0.0") (f "-0.15") (f "0.15");
      Uv (f "0.7") (f "0.7") (f "0.0") (f "-0.15") (f "0.15");
      Uv (f "0.7") (f "0.7") (f "0.0") (f "-0.15") (f "0.15");
      Uv (f "0.7") (f "0.7") (f "0.0") (f "-0.15") (f "0.15");
      Uv (f "0.7") (f "0.7") (f "0.0") (f "-0.15") (f "0.15");
      Uv (f "0.7") (f "0.7") (f "0.0") (f "-0.15") (f "0.15");
      Uv (f "0.7") (f "0.7") (f "0.0") (f "-0.15") (f "0.15");
      Uv (f "0.7") (f "0.7") (f "0.0") (f "-0.15") (f "0.15");
      Uv (f "0.7") (f "0.7") (f "0.0") (f "-0.15") (f "0.15");
      Uv (f "0.7") (f "0.7") (f "0.0") (f "-0.15") (f "0.15");
      Uv (f "0.7") (f "0.7") (f "0.0") (f "-0.15") (f "0.15");
      Uv (f "0.7") (f "0.7") (f "0.0") (f "-0.15") (f "0.15")]).
Proof. vm_compute. repeat split. Qed.
(** buffers.rs:805 *)
Example write_compressed_uv_transform_multiple_frames :
  tv_write (TvUv
      [Uv (f "-1.0") (f "-2.0") (f "-3.0") (f "-4.0") (f "-5.0");
      Uv (f "1.0") (f "2.0") (f "3.0") (f "4.0") (f "5.0")])
    Compressed false =
  Ok (hex "04000d00 60007800 74000000 02000000 000080BF 0000803F 18000000 00000000 000000C0
        00000040 18000000 00000000 000040C0 00004040 18000000 00000000 000080C0 00008040
        18000000 00000000 0000A0C0 0000A040 18000000 00000000 000080BF 000000C0 000040C0
        000080C0 0000A0C0 000000 000000 000000 000000 000000 FFFFFF FFFFFF
        FFFFFF FFFFFF FFFFFF") /\
  reads (hex "04000d00 60007800 74000000 02000000 000080BF 0000803F 18000000 00000000 000000C0
        00000040 18000000 00000000 000040C0 00004040 18000000 00000000 000080C0 00008040
        18000000 00000000 0000A0C0 0000A040 18000000 00000000 000080BF 000000C0 000040C0
        000080C0 0000A0C0 000000 000000 000000 000000 000000 FFFFFF FFFFFF
        FFFFFF FFFFFF FFFFFF")
    (TvUv
      [Uv (f "-1.0") (f "-2.0") (f "-3.0") (f "-4.0") (f "-5.0");
      Uv (f "1.0") (f "2.0") (f "3.0") (f "4.0") (f "5.0")])
    2.
Proof. vm_compute. repeat split. Qed.
(** buffers.rs:861 *)
Example write_compressed_uv_transform_multiple_frames_uniform_scale :
  tv_write (TvUv
      [Uv (f "-1.0") (f "-1.0") (f "-3.0") (f "-4.0") (f "-5.0");
      Uv (f "2.0") (f "2.0") (f "3.0") (f "4.0") (f "5.0")])
    Compressed false =
  Ok (hex "04000f00 60006000 74000000 02000000 000080BF 00000040 18000000 00000000 000080BF
        00000040 18000000 00000000 000040C0 00004040 18000000 00000000 000080C0 00008040
        18000000 00000000 0000A0C0 0000A040 18000000 00000000 000080BF 000080BF 000040C0
        000080C0 0000A0C0 000000 000000 000000 000000 FFFFFF FFFFFF FFFFFF
        FFFFFF") /\
  reads (hex "04000f00 60006000 74000000 02000000 000080BF 00000040 18000000 00000000 000080BF
        00000040 18000000 00000000 000040C0 00004040 18000000 00000000 000080C0 00008040
        18000000 00000000 0000A0C0 0000A040 18000000 00000000 000080BF 000080BF 000040C0
        000080C0 0000A0C0 000000 000000 000000 000000 FFFFFF FFFFFF FFFFFF
        FFFFFF")
    (TvUv
      [Uv (f "-1.0") (f "-1.0") (f "-3.0") (f "-4.0") (f "-5.0");
      Uv (f "2.0") (f "2.0") (f "3.0") (f "4.0") (f "5.0")])
    2.
Proof. vm_compute. repeat split. Qed.
(** buffers.rs:917 *)
Example read_constant_pattern_index_single_frame :
  returns (read_track_values (hex "01000000")
             5 Constant 1)
    (fun r => snd r = false /\ fst r = TvPattern
      [1]).
Proof. vm_compute. repeat split. Qed.
(** buffers.rs:936 *)
Example write_constant_pattern_index_single_frame :
  tv_write (TvPattern
      [1])
    Constant false =
  Ok (hex "01000000").
Proof. vm_compute. repeat split. Qed.
(** buffers.rs:951 *)
Example read_compressed_pattern_index_multiple_frames :
  returns (read_track_values (hex "04000000 20000100 24000000 8a020000 01000000 02000000 01000000 00000000 01000000
        fe")
             5 Compressed 8)
    (fun r => snd r = false /\ fst r = TvPattern
      [1; 2; 2; 2; 2; 2; 2; 2]).
Proof. vm_compute. repeat split. Qed.
(** buffers.rs:981 *)
Example read_compressed_pattern_index_zero_bit_count :
  returns (read_track_values (hex "00000000 22000000 00000004 00000000 00000000 00000000 00000000 00000000 00000004
        00000000 000000000080000010000000000000ffffff")
             5 Compressed 8)
    (fun r => True).
Proof. vm_compute. repeat split. Qed.
(** buffers.rs:1000 *)
Example read_constant_float_single_frame :
  returns (read_track_values (hex "cdcccc3e")
             3 Constant 1)
    (fun r => snd r = false /\ fst r = TvFloat
      [f "0.4"]).
Proof. vm_compute. repeat split. Qed.
(** buffers.rs:1019 *)
Example write_constant_float_single_frame :
  tv_write (TvFloat
      [f "0.4"])
    Constant false =
  Ok (hex "cdcccc3e").
Proof. vm_compute. repeat split. Qed.
(** buffers.rs:1034 *)
Example read_compressed_float_all_equal :
  returns (read_track_values (hex "04000000 20000000 24000000 FFFFFFFF cdcccc3e cdcccc3e 10000000 00000000 cdcccc3e")
             3 Compressed 4294967295)
    (fun r => snd r = false /\ fst r = TvFloat
      [f "0.4"]).
Proof. vm_compute. repeat split. Qed.
(** buffers.rs:1061 *)
Example read_compressed_float_multiple_frames :
  returns (read_track_values (hex "04000000 20000200 24000000 05000000 00000000 00004040 02000000 00000000 00000000
        e403")
             3 Compressed 5)
    (fun r => snd r = false /\ fst r = TvFloat
      [f "0.0"; f "1.0"; f "2.0"; f "3.0"; f "3.0"]).
Proof. vm_compute. repeat split. Qed.
(** buffers.rs:1087 *)
Example write_compressed_floats_multiple_frame :
  tv_write (TvFloat
      [f "0.5"; f "2.0"])
    Compressed false =
  Ok (hex "04000000 20001800 24000000 02000000 0000003F 00000040 18000000 00000000 0000003F
        000000 FFFFFF") /\
  reads (hex "04000000 20001800 24000000 02000000 0000003F 00000040 18000000 00000000 0000003F
        000000 FFFFFF")
    (TvFloat
      [f "0.5"; f "2.0"])
    2.
Proof. vm_compute. repeat split. Qed.
(** buffers.rs:1116 *)
Example read_constant_boolean_single_frame_true :
  returns (read_track_values (hex "01")
             8 Constant 1)
    (fun r => snd r = false /\ fst r = TvBool
      [true]).
Proof. vm_compute. repeat split. Qed.
(** buffers.rs:1135 *)
Example write_constant_boolean_single_frame_true :
  tv_write (TvBool
      [true])
    Constant false =
  Ok (hex "01").
Proof. vm_compute. repeat split. Qed.
(** buffers.rs:1150 *)
Example read_constant_boolean_single_frame_false :
  returns (read_track_values (hex "00")
             8 Constant 1)
    (fun r => snd r = false /\ fst r = TvBool
      [false]).
Proof. vm_compute. repeat split. Qed.
(** buffers.rs:1169 *)
Example read_compressed_boolean_multiple_frames :
  returns (read_track_values (hex "04000000 20000100 21000000 03000000 00000000 00000000 00000000 00000000 0006")
             8 Compressed 3)
    (fun r => snd r = false /\ fst r = TvBool
      [false; true; true]).
Proof. vm_compute. repeat split. Qed.
(** buffers.rs:1196 *)
Example write_compressed_boolean_single_frame :
  tv_write (TvBool
      [true])
    Compressed false =
  Ok (hex "04000000 20000100 21000000 01000000 00000000 00000000 00000000 00000000 0001") /\
  reads (hex "04000000 20000100 21000000 01000000 00000000 00000000 00000000 00000000 0001")
    (TvBool
      [true])
    1.
Proof. vm_compute. repeat split. Qed.
(** buffers.rs:1223 *)
Example write_compressed_boolean_three_frames :
  tv_write (TvBool
      [false; true; true])
    Compressed false =
  Ok (hex "04000000 20000100 21000000 03000000 00000000 00000000 00000000 00000000 0006") /\
  reads (hex "04000000 20000100 21000000 03000000 00000000 00000000 00000000 00000000 0006")
    (TvBool
      [false; true; true])
    3.
Proof. vm_compute. repeat split. Qed.
(** buffers.rs:1250 *)
Example write_compressed_boolean_multiple_frames :
  tv_write (TvBool
      [true; true; true; true; true; true; true; true; true; true; true])
    Compressed false =
  Ok (hex "04000000 20000100 21000000 0B000000 00000000 00000000 00000000 00000000 00FF07") /\
  reads (hex "04000000 20000100 21000000 0B000000 00000000 00000000 00000000 00000000 00FF07")
    (TvBool
      [true; true; true; true; true; true; true; true; true; true; true])
    11.
Proof. vm_compute. repeat split. Qed.
(** buffers.rs:1278 *)
Example read_compressed_vector4_multiple_frames :
  returns (read_track_values (hex "04000000 50000300 60000000 08000000 0000803f 0000803f 00000000 00000000 0000803f
        0000803f 00000000 00000000 3108ac3d bc74133e 03000000 00000000 00000000 00000000
        00000000 00000000 0000803f 0000803f 3108ac3d 00000000 88c6fa")
             9 Compressed 8)
    (fun r => snd r = false /\ fst r = TvVec4
      [V4 (f "1.0") (f "1.0") (f "0.084") (f "0.0");
      V4 (f "1.0") (f "1.0") (f "0.09257143") (f "0.0");
      V4 (f "1.0") (f "1.0") (f "0.10114285") (f "0.0");
      V4 (f "1.0") (f "1.0") (f "0.109714285") (f "0.0");
      V4 (f "1.0") (f "1.0") (f "0.11828571") (f "0.0");
      V4 (f "1.0") (f "1.0") (f "0.12685713") (f "0.0");
      V4 (f "1.0") (f "1.0") (f "0.13542856") (f "0.0");
      V4 (f "1.0") (f "1.0") (f "0.144") (f "0.0")]).
Proof. vm_compute. repeat split. Qed.
(** buffers.rs:1365 *)
Example write_compressed_vector4_multiple_frames :
  tv_write (TvVec4
      [V4 (f "-1.0") (f "-2.0") (f "-3.0") (f "-4.0"); V4 (f "1.0") (f "2.0") (f "3.0") (f "4.0")])
    Compressed false =
  Ok (hex "04000000 50006000 60000000 02000000 000080BF 0000803F 18000000 00000000 000000C0
        00000040 18000000 00000000 000040C0 00004040 18000000 00000000 000080C0 00008040
        18000000 00000000 000080BF 000000C0 000040C0 000080C0 000000 000000 000000
        000000 FFFFFF FFFFFF FFFFFF FFFFFF") /\
  reads (hex "04000000 50006000 60000000 02000000 000080BF 0000803F 18000000 00000000 000000C0
        00000040 18000000 00000000 000040C0 00004040 18000000 00000000 000080C0 00008040
        18000000 00000000 000080BF 000000C0 000040C0 000080C0 000000 000000 000000
        000000 FFFFFF FFFFFF FFFFFF FFFFFF")
    (TvVec4
      [V4 (f "-1.0") (f "-2.0") (f "-3.0") (f "-4.0"); V4 (f "1.0") (f "2.0") (f "3.0") (f "4.0")])
    2.
Proof. vm_compute. repeat split. Qed.
(** buffers.rs:1403 *)
Example write_compressed_vector4_multiple_frames_defaults :
  tv_write (TvVec4
      [V4 (f "1.0") (f "2.0") (f "3.0") (f "-4.0"); V4 (f "1.0") (f "2.0") (f "3.0") (f "4.0")])
    Compressed false =
  Ok (hex "04000000 50001800 60000000 02000000 0000803F 0000803F 00000000 00000000 00000040
        00000040 00000000 00000000 00004040 00004040 00000000 00000000 000080C0 00008040
        18000000 00000000 0000803F 00000040 00004040 000080C0 000000 FFFFFF") /\
  reads (hex "04000000 50001800 60000000 02000000 0000803F 0000803F 00000000 00000000 00000040
        00000040 00000000 00000000 00004040 00004040 00000000 00000000 000080C0 00008040
        18000000 00000000 0000803F 00000040 00004040 000080C0 000000 FFFFFF")
    (TvVec4
      [V4 (f "1.0") (f "2.0") (f "3.0") (f "-4.0"); V4 (f "1.0") (f "2.0") (f "3.0") (f "4.0")])
    2.
Proof. vm_compute. repeat split. Qed.
(** buffers.rs:1441 *)
Example read_constant_transform_single_frame :
  returns (read_track_values (hex "0000803f 0000803f 0000803f 00000000 00000000 00000000 0000803f bea4c13f_79906ebe f641bebe
        01000000")
             1 ConstTransform 1)
    (fun r => snd r = true /\ fst r = TvTransform
      [Tr (V3 (f "1.0") (f "1.0") (f "1.0")) (V4 (f "0.0") (f "0.0") (f "0.0") (f "1.0")) (V3 (f "1.51284") (f "-0.232973") (f "-0.371597"))]).
Proof. vm_compute. repeat split. Qed.
(** buffers.rs:1475 *)
Example write_constant_transform_single_frame :
  tv_write (TvTransform
      [Tr (V3 (f "1.0") (f "1.0") (f "1.0")) (V4 (f "0.0") (f "0.0") (f "0.0") (f "1.0")) (V3 (f "1.51284") (f "-0.232973") (f "-0.371597"))])
    Constant true =
  Ok (hex "0000803f 0000803f 0000803f 00000000 00000000 00000000 0000803f bea4c13f_79906ebe f641bebe
        01000000").
Proof. vm_compute. repeat split. Qed.
(** buffers.rs:1599 *)
Example read_compressed_transform_multiple_frames_flags_0x6_null_default :
  read_track_values (hex "04000600 00002b00 cc000000 02000000 0000803f 0000803f 10000000 00000000 0000803f
        0000803f 10000000 00000000 0000803f 0000803f 10000000 00000000 00000000 b9bc433d
        0d000000 00000000 e27186bd 00000000 0d000000 00000000 00000000 ada2273f 10000000
        00000000 16a41d40 16a41d40 10000000 00000000 00000000 00000000 10000000 00000000
        00000000 00000000 10000000 00000000 0000803f 0000803f 0000803f 00000000 00000000
        00000000 0000803f 16a41d40 00000000 00000000 00000000 00e0ff03 00f8ff00 e0ff1f")
             1 Compressed 2 = Err (EData DMalformed).
Proof. vm_compute. repeat split. Qed.
(** buffers.rs:1638 *)
Example read_compressed_transform_multiple_frames_flags_0x6 :
  returns (read_track_values (hex "04000600 a0002b00 cc000000 02000000 0000803f 0000803f 10000000 00000000 0000803f
        0000803f 10000000 00000000 0000803f 0000803f 10000000 00000000 00000000 b9bc433d
        0d000000 00000000 e27186bd 00000000 0d000000 00000000 00000000 ada2273f 10000000
        00000000 16a41d40 16a41d40 10000000 00000000 00000000 00000000 10000000 00000000
        00000000 00000000 10000000 00000000 0000803f 0000803f 0000803f 00000000 00000000
        00000000 0000803f 16a41d40 00000000 00000000 00000000 00e0ff03 00f8ff00 e0ff1f")
             1 Compressed 2)
    (fun r => snd r = false /\ fst r = TvTransform
      [Tr (V3 (f "1.0") (f "1.0") (f "1.0")) (V4 (f "0.0") (f "0.0") (f "0.0") (f "1.0")) (V3 (f "2.46314") (f "0.0") (f "0.0"));
      Tr (V3 (f "1.0") (f "1.0") (f "1.0")) (V4 (f "0.0477874") (f "-0.0656469") (f "0.654826") (f "0.7514052")) (V3 (f "2.46314") (f "0.0") (f "0.0"))]).
Proof. vm_compute. repeat split. Qed.
(** buffers.rs:1694 *)
Example write_compressed_transform_multiple_frames :
  tv_write (TvTransform
      [Tr (V3 (f "-8.0") (f "-9.0") (f "-10.0")) (V4 (f "-4.0") (f "-5.0") (f "-6.0") (f "0.0")) (V3 (f "-1.0") (f "-2.0") (f "-3.0"));
      Tr (V3 (f "8.0") (f "9.0") (f "10.0")) (V4 (f "4.0") (f "5.0") (f "6.0") (f "0.0")) (V3 (f "1.0") (f "2.0") (f "3.0"))])
    Compressed false =
  Ok (hex "04000d00 a000d900 cc000000 02000000 000000C1 00000041 18000000 00000000 000010C1
        00001041 18000000 00000000 000020C1 00002041 18000000 00000000 000080C0 00008040
        18000000 00000000 0000A0C0 0000A040 18000000 00000000 0000C0C0 0000C040 18000000
        00000000 000080BF 0000803F 18000000 00000000 000000C0 00000040 18000000 00000000
        000040C0 00004040 18000000 00000000 000000C1 000010C1 000020C1 000080C0 0000A0C0
        0000C0C0 00000000 000080BF 000000C0 000040C0 00000000 000000 000000 000000
        000000 000000 000000 000000 000000 000000 FEFFFF FFFFFF FFFFFF
        FFFFFF FFFFFF FFFFFF FFFFFF FFFFFF FFFFFF 01") /\
  reads (hex "04000d00 a000d900 cc000000 02000000 000000C1 00000041 18000000 00000000 000010C1
        00001041 18000000 00000000 000020C1 00002041 18000000 00000000 000080C0 00008040
        18000000 00000000 0000A0C0 0000A040 18000000 00000000 0000C0C0 0000C040 18000000
        00000000 000080BF 0000803F 18000000 00000000 000000C0 00000040 18000000 00000000
        000040C0 00004040 18000000 00000000 000000C1 000010C1 000020C1 000080C0 0000A0C0
        0000C0C0 00000000 000080BF 000000C0 000040C0 00000000 000000 000000 000000
        000000 000000 000000 000000 000000 000000 FEFFFF FFFFFF FFFFFF
        FFFFFF FFFFFF FFFFFF FFFFFF FFFFFF FFFFFF 01")
    (TvTransform
      [Tr (V3 (f "-8.0") (f "-9.0") (f "-10.0")) (V4 (f "-4.0") (f "-5.0") (f "-6.0") (f "0.0")) (V3 (f "-1.0") (f "-2.0") (f "-3.0"));
      Tr (V3 (f "8.0") (f "9.0") (f "10.0")) (V4 (f "4.0") (f "5.0") (f "6.0") (f "0.0")) (V3 (f "1.0") (f "2.0") (f "3.0"))])
    2.
Proof. vm_compute. repeat split. Qed.
(** buffers.rs:1758 *)
Example read_compressed_transform_multiple_frames_flags_0x3 :
  returns (read_track_values (hex "04000300 A0000900 CC000000 09000000 0000003F 0000803F 09000000 00000000 0000003F
        0000803F 10000000 00000000 0000003F 0000803F 10000000 00000000 1D13533D 1D13533D
        10000000 00000000 03BA8ABD 03BA8ABD 10000000 00000000 16139BBE 16139BBE 10000000
        00000000 CDCCEC3F CDCCEC3F 10000000 00000000 00000000 00000000 10000000 00000000
        00000000 00000000 10000000 00000000 0000803F 0000803F 0000803F 1D13533D 03BA8ABD
        16139BBE 1500733F CDCCEC3F 00000000 00000000 00000000 FFFFFF37 0F7A2600 003301")
             1 Compressed 9)
    (fun r => snd r = false /\ fst r = TvTransform
      [Tr (V3 (f "1.0") (f "1.0") (f "1.0")) (V4 (f "0.0515319") (f "-0.0677376") (f "-0.30288") (f "0.94922")) (V3 (f "1.85") (f "0.0") (f "0.0"));
      Tr (V3 (f "1.0") (f "1.0") (f "1.0")) (V4 (f "0.0515319") (f "-0.0677376") (f "-0.30288") (f "0.94922")) (V3 (f "1.85") (f "0.0") (f "0.0"));
      Tr (V3 (f "1.0") (f "1.0") (f "1.0")) (V4 (f "0.0515319") (f "-0.0677376") (f "-0.30288") (f "0.94922")) (V3 (f "1.85") (f "0.0") (f "0.0"));
      Tr (V3 (f "0.97553813") (f "0.97553813") (f "0.97553813")) (V4 (f "0.0515319") (f "-0.0677376") (f "-0.30288") (f "0.94922")) (V3 (f "1.85") (f "0.0") (f "0.0"));
      Tr (V3 (f "0.907045") (f "0.907045") (f "0.907045")) (V4 (f "0.0515319") (f "-0.0677376") (f "-0.30288") (f "0.94922")) (V3 (f "1.85") (f "0.0") (f "0.0"));
      Tr (V3 (f "0.8003914") (f "0.8003914") (f "0.8003914")) (V4 (f "0.0515319") (f "-0.0677376") (f "-0.30288") (f "0.94922")) (V3 (f "1.85") (f "0.0") (f "0.0"));
      Tr (V3 (f "0.5") (f "0.5") (f "0.5")) (V4 (f "0.0515319") (f "-0.0677376") (f "-0.30288") (f "0.94922")) (V3 (f "1.85") (f "0.0") (f "0.0"));
      Tr (V3 (f "0.5") (f "0.5") (f "0.5")) (V4 (f "0.0515319") (f "-0.0677376") (f "-0.30288") (f "0.94922")) (V3 (f "1.85") (f "0.0") (f "0.0"));
      Tr (V3 (f "0.8003914") (f "0.8003914") (f "0.8003914")) (V4 (f "0.0515319") (f "-0.0677376") (f "-0.30288") (f "0.94922")) (V3 (f "1.85") (f "0.0") (f "0.0"))]).
Proof. vm_compute. repeat split. Qed.
(** buffers.rs:1966 *)
Example read_compressed_transform_multiple_frames_flags_0xc :
  returns (read_track_values (hex "04000C00 A0001C00 CC000000 08000000 0000803F 0000803F 10000000 00000000 24D3453F
        24D3453F 10000000 00000000 0000803F 0000803F 10000000 00000000 EB8C53BF 809D4BBF
        03000000 00000000 0DDF82BE 1C9761BE 03000000 00000000 6762D2BE 61A4C7BE 03000000
        00000000 B8C81D3F 03438E3F 07000000 00000000 FBCB863F CEC28A3F 04000000 00000000
        A1BA713F 0F62AB3F 07000000 00000000 0000803F 24D3453F 0000803F EB8C53BF 1C9761BE
        6762D2BE D9B1A13E B8C81D3F 85B6883F A1BA713F 00000000 38000710 878213DB 80DBE378
        ED67C7FF AF77DCBF 7BC7F9E4 777C0F7F")
             1 Compressed 8)
    (fun r => snd r = false /\ fst r = TvTransform
      [Tr (V3 (f "1.0") (f "0.772753") (f "1.0")) (V4 (f "-0.826369") (f "-0.220303") (f "-0.410907") (f "0.3158106")) (V3 (f "0.616344") (f "1.0675527") (f "0.944254"));
      Tr (V3 (f "1.0") (f "0.772753") (f "1.0")) (V4 (f "-0.82194084") (f "-0.22534657") (f "-0.40790972") (f "0.32747796")) (V3 (f "0.6943087") (f "1.0696173") (f "1.0033"));
      Tr (V3 (f "1.0") (f "0.772753") (f "1.0")) (V4 (f "-0.81308454") (f "-0.24047728") (f "-0.40191513") (f "0.3457288")) (V3 (f "0.86583114") (f "1.0758113") (f "1.1338228"));
      Tr (V3 (f "1.0") (f "0.772753") (f "1.0")) (V4 (f "-0.79980016") (f "-0.25056443") (f "-0.39292327") (f "0.37834975")) (V3 (f "1.0334553") (f "1.0820053") (f "1.2643455"));
      Tr (V3 (f "1.0") (f "0.772753") (f "1.0")) (V4 (f "-0.795372") (f "-0.255608") (f "-0.389926") (f "0.38730562")) (V3 (f "1.11142") (f "1.08407") (f "1.3233916"));
      Tr (V3 (f "1.0") (f "0.772753") (f "1.0")) (V4 (f "-0.795372") (f "-0.255608") (f "-0.389926") (f "0.38730562")) (V3 (f "1.1075218") (f "1.0758113") (f "1.3264992"));
      Tr (V3 (f "1.0") (f "0.772753") (f "1.0")) (V4 (f "-0.795372") (f "-0.255608") (f "-0.389926") (f "0.38730562")) (V3 (f "1.0997254") (f "1.0613587") (f "1.3358223"));
      Tr (V3 (f "1.0") (f "0.772753") (f "1.0")) (V4 (f "-0.795372") (f "-0.255608") (f "-0.389926") (f "0.38730562")) (V3 (f "1.0958271") (f "1.0531") (f "1.33893"))]).
Proof. vm_compute. repeat split. Qed.
(** buffers.rs:2156 *)
Example read_compressed_transform_multiple_frames_flags_0xd :
  returns (read_track_values (hex "04000D00 A0007100 CC000000 08000000 CDCCCC3D 5EA2D63F 12000000 00000000 CDCCCC3D
        BE9F8A3F 11000000 00000000 CDCCCC3D 06D8A73F 11000000 00000000 20B2F0BE 7BA3EEBE
        09000000 00000000 D52008BF 503807BF 09000000 00000000 20B2F0BE 7BA3EEBE 09000000
        00000000 2AA73DBD 7120B43F 12000000 00000000 E73A79C0 C02665C0 0F000000 00000000
        00000000 00000000 00000000 00000000 CDCCCC3D CDCCCC3D CDCCCC3D 20B2F0BE 503807BF
        20B2F0BE 5038073F 7DD0933F C02665C0 00000000 00000000 00000000 000000E0 3F0014A7
        FFFF0000 1017A0F7 C0486E23 E54B33BA 71DA86B8 C05548A6 B2990000 F01CF9FF 1FE2C230
        A8790BE7 B94FC168 B10A3787 4B71984B 672D25BB 16DE8569 B0FFFFFF FF3793D9 FCFFBF0E
        4CA8643E 355FC567 3791BDD2 74140C3B 2489A9B3 F1FD0FE0 FF6CCF00 00")
             1 Compressed 8)
    (fun r => snd r = false /\ fst r = TvTransform
      [Tr (V3 (f "0.1") (f "0.1") (f "0.1")) (V4 (f "-0.470109") (f "-0.528203") (f "-0.470109") (f "0.52820134")) (V3 (f "1.1547999") (f "-3.58049") (f "0.0"));
      Tr (V3 (f "0.1") (f "0.10553482") (f "0.13661444")) (V4 (f "-0.46955857") (f "-0.528689") (f "-0.46955857") (f "0.52869403")) (V3 (f "1.1515895") (f "-3.6232598") (f "0.0"));
      Tr (V3 (f "0.77540535") (f "0.12213927") (f "0.25775075")) (V4 (f "-0.46890596") (f "-0.52927226") (f "-0.46890596") (f "0.5292686")) (V3 (f "-0.046302") (f "-3.806919") (f "0.0"));
      Tr (V3 (f "1.67683") (f "0.14427854") (f "0.48032996")) (V4 (f "-0.46819827") (f "-0.52989715") (f "-0.46819827") (f "0.529896")) (V3 (f "0.07283452") (f "-3.8389556") (f "0.0"));
      Tr (V3 (f "1.456122") (f "0.68003076") (f "0.82129157")) (V4 (f "-0.46750635") (f "-0.53050816") (f "-0.46750635") (f "0.53050613")) (V3 (f "0.98621446") (f "-3.779172") (f "0.0"));
      Tr (V3 (f "0.69639033") (f "1.083") (f "1.31128")) (V4 (f "-0.4668773") (f "-0.53105664") (f "-0.4668773") (f "0.5310649")) (V3 (f "1.40724") (f "-3.7760124") (f "0.0"));
      Tr (V3 (f "0.7199998") (f "0.69372535") (f "1.2419325")) (V4 (f "-0.4663898") (f "-0.5314871") (f "-0.4663898") (f "0.53149086")) (V3 (f "1.2803185") (f "-3.835011") (f "0.0"));
      Tr (V3 (f "0.9999991") (f "1.0000002") (f "1.0000018")) (V4 (f "-0.466091") (f "-0.531751") (f "-0.466091") (f "0.5317511")) (V3 (f "1.1314394") (f "-3.89422") (f "0.0"))]).
Proof. vm_compute. repeat split. Qed.
(** buffers.rs:2346 *)
Example read_compressed_transform_multiple_frames_flags_0x0 :
  returns (read_track_values (hex "04000000 a0000000 cc000000 02000000 00000000 0000803f 10000000 00000000 00000000
        0000803f 10000000 00000000 00000000 0000803f 10000000 00000000 00000000 0000803f
        10000000 00000000 00000000 0000803f 10000000 00000000 00000000 0000803f 10000000
        00000000 00000000 0000803f 10000000 00000000 00000000 0000803f 10000000 00000000
        00000000 0000803f 10000000 00000000 00000040 00000040 00000040 00000040 00000040
        00000040 00000040 00000040 00000040 00000040 00000000 ffffffff")
             1 Compressed 2)
    (fun r => fst r = TvTransform
      [Tr (V3 (f "2.0") (f "2.0") (f "2.0")) (V4 (f "2.0") (f "2.0") (f "2.0") (f "2.0")) (V3 (f "2.0") (f "2.0") (f "2.0"))]).
Proof. vm_compute. repeat split. Qed.
(** buffers.rs:2408 *)
Example write_compressed_transform_multiple_frames_uniform_scale :
  tv_write (TvTransform
      [Tr (V3 (f "-8.0") (f "-8.0") (f "-8.0")) (V4 (f "-4.0") (f "-5.0") (f "-6.0") (f "0.0")) (V3 (f "-1.0") (f "-2.0") (f "-3.0"));
      Tr (V3 (f "9.0") (f "9.0") (f "9.0")) (V4 (f "4.0") (f "5.0") (f "6.0") (f "0.0")) (V3 (f "1.0") (f "2.0") (f "3.0"))])
    Compressed false =
  Ok (hex "04000f00 a000a900 cc000000 02000000 000000C1 00001041 18000000 00000000 000000C1
        00001041 18000000 00000000 000000C1 00001041 18000000 00000000 000080C0 00008040
        18000000 00000000 0000A0C0 0000A040 18000000 00000000 0000C0C0 0000C040 18000000
        00000000 000080BF 0000803F 18000000 00000000 000000C0 00000040 18000000 00000000
        000040C0 00004040 18000000 00000000 000000C1 000000C1 000000C1 000080C0 0000A0C0
        0000C0C0 00000000 000080BF 000000C0 000040C0 00000000 000000 000000 000000
        000000 000000 000000 000000 FEFFFF FFFFFF FFFFFF FFFFFF FFFFFF
        FFFFFF FFFFFF 01") /\
  reads (hex "04000f00 a000a900 cc000000 02000000 000000C1 00001041 18000000 00000000 000000C1
        00001041 18000000 00000000 000000C1 00001041 18000000 00000000 000080C0 00008040
        18000000 00000000 0000A0C0 0000A040 18000000 00000000 0000C0C0 0000C040 18000000
        00000000 000080BF 0000803F 18000000 00000000 000000C0 00000040 18000000 00000000
        000040C0 00004040 18000000 00000000 000000C1 000000C1 000000C1 000080C0 0000A0C0
        0000C0C0 00000000 000080BF 000000C0 000040C0 00000000 000000 000000 000000
        000000 000000 000000 000000 FEFFFF FFFFFF FFFFFF FFFFFF FFFFFF
        FFFFFF FFFFFF 01")
    (TvTransform
      [Tr (V3 (f "-8.0") (f "-8.0") (f "-8.0")) (V4 (f "-4.0") (f "-5.0") (f "-6.0") (f "0.0")) (V3 (f "-1.0") (f "-2.0") (f "-3.0"));
      Tr (V3 (f "9.0") (f "9.0") (f "9.0")) (V4 (f "4.0") (f "5.0") (f "6.0") (f "0.0")) (V3 (f "1.0") (f "2.0") (f "3.0"))])
    2.
Proof. vm_compute. repeat split. Qed.
(** buffers.rs:2470 *)
Example read_direct_transform_multiple_frames :
  returns (read_track_values (hex "0000803f 0000803f 0000803f 1dca203e 437216bf a002cbbd 5699493f 9790e5c1 1f68a040
        f7affa40 00000000 0000803f 0000803f 0000803f c7d8093e 336b19bf 5513e4bd e3fe473f
        6da703c2 dfc3a840 b8120b41 00000000")
             1 Direct 2)
    (fun r => snd r = false /\ fst r = TvTransform
      [Tr (V3 (f "1.0") (f "1.0") (f "1.0")) (V4 (f "0.157021") (f "-0.587681") (f "-0.0991261") (f "0.787496")) (V3 (f "-28.6956") (f "5.01271") (f "7.83398"));
      Tr (V3 (f "1.0") (f "1.0") (f "1.0")) (V4 (f "0.134616") (f "-0.599292") (f "-0.111365") (f "0.781233")) (V3 (f "-32.9135") (f "5.27391") (f "8.69207"))]).
Proof. vm_compute. repeat split. Qed.
