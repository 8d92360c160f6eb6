(** Properties C22 to C28, C30, C48 to C50 and C66 of properties.jsonl: bit streams and
    animations.

    f32 values are their bit patterns.  [values_ok] and [anim_ok] say that a value is one
    Rust's types admit and that names are UTF-8 without NUL.  [anim_size] is the size of the
    track data, defined in AnimSpec.v from the number of frames and components. *)
From Verif Require Import Bytes Ssbh SsbhSpec Formats File Strings Bits Float32 AnimComp AnimBuf AnimFile AnimSpec.
From Verif Require Import AnimFacts AnimDataFacts AnimLemmas ResaveSpec AnimAgain.
From Coq Require Import List.

(** Example animation: a compressed float track with two values, a compressed boolean track,
    a short transform track and an empty group. *)
Definition f0 := 0.
Definition f1 := 0x3f800000.
Definition f2 := 0x40000000.
Definition no_flags := TF false false false false.
Definition ex_transform := Tr (V3 f1 f1 f1) (V4 f0 f0 f0 f1) (V3 f1 f2 f0).
Definition ex_float_track := TD [118] false no_flags (TvFloat (f0 :: repeat f1 11)).
Definition ex_bool_track := TD [118; 105; 115] false no_flags (TvBool (repeat true 20 ++ repeat false 20)).
Definition ex_transform_track := TD [116] true (TF true false false true) (TvTransform [ex_transform]).
Definition ex_anim : anim_data :=
  AD 2 1 0x42200000
    [GD 4 [ND [97] [ex_float_track; ex_bool_track]; ND [98] []]; GD 1 [ND [99] [ex_transform_track]]; GD 2 []].
Definition ex_anim_bytes : list Z := match anim_data_write ex_anim with Ok b => b | _ => [] end.

(** ** C22 *)
Theorem C22_bit_stream_roundtrip : forall l, Forall item_ok l ->
  exists w, write_items l (bw_new (repeat false (Z.to_nat (total_width l)))) = Ok w /\
    zlen (bw_into_bytes w) = (total_width l + 7) / 8 /\ bytes_ok (bw_into_bytes w) = true /\
    read_items l (br_from_slice (bw_into_bytes w)) = Ok (map stored_item l) /\
    forall before i after j, l = before ++ i :: after -> 0 <= j < item_width i ->
      stream_bit (bw_into_bytes w) (total_width before + j) = Some (item_bit i j).
Proof. exact bit_stream. Qed.
Print Assumptions C22_bit_stream_roundtrip.

Example C22_example :
  let l := [AnimSpec.Bits 5 3; Bit true; AnimSpec.Bits (2 ^ 24 + 77) 24; AnimSpec.Bits 1023 10] in
  Forall item_ok l /\ map stored_item l = [AnimSpec.Bits 5 3; Bit true; AnimSpec.Bits 77 24; AnimSpec.Bits 1023 10].
Proof.
  cbv zeta. split; [|reflexivity]. repeat constructor; unfold item_ok; cbn; discriminate.
Qed.

(** ** C23 *)
Theorem C23_bit_reads_bounded : forall bs i n, bytes_ok bs = true -> 0 <= i -> 1 <= n <= 32 ->
  (8 * zlen bs < i + n -> read_u32_bits n (mkBR (bits_of_bytes bs) i) = Err (EData DBitStream)) /\
  (i + n <= 8 * zlen bs -> exists v,
     read_u32_bits n (mkBR (bits_of_bytes bs) i) = Ok (v, mkBR (bits_of_bytes bs) (i + n)) /\
     0 <= v < 2 ^ n /\ forall j, 0 <= j < n -> stream_bit bs (i + j) = Some (Z.testbit v j)).
Proof. exact bit_read. Qed.
Print Assumptions C23_bit_reads_bounded.

Example C23_example :
  read_u32_bits 12 (mkBR (bits_of_bytes [0x12; 0x34]) 4) = Ok (0x341, mkBR (bits_of_bytes [0x12; 0x34]) 16) /\
  read_u32_bits 13 (mkBR (bits_of_bytes [0x12; 0x34]) 4) = Err (EData DBitStream).
Proof. vm_compute. auto. Qed.

(** ** C24 *)
Theorem C24_track_layout : forall d a,
  anim_ok d = true -> anim_size d < 2 ^ 32 -> create_anim d = Ok a ->
  let ts := all_tracks (an_groups a) in
  zlen (an_buffer a) = anim_size d /\
  map tk_size ts = map (fun t => track_size (td_values t)) (tracks_of d) /\
  tiles 0 (zlen (an_buffer a)) ts /\
  Forall (fun t => 0 <= tk_offset t /\ 0 <= tk_size t /\ tk_offset t + tk_size t <= zlen (an_buffer a)) ts /\
  ForallOrdPairs (fun t u => tk_offset t + tk_size t <= tk_offset u) ts /\
  (forall i, 0 <= i < zlen (an_buffer a) -> Exists (fun t => tk_offset t <= i < tk_offset t + tk_size t) ts).
Proof. exact track_ranges. Qed.
Print Assumptions C24_track_layout.

(** Beyond 4 GiB of track data the offsets wrap around: two tracks share bytes. *)
Theorem C24_large_buffer_refuted :
  exists d a t u, anim_ok d = true /\ create_anim d = Ok a /\ all_tracks (an_groups a) = [t; u] /\
    ~ (tk_offset t + tk_size t <= tk_offset u \/ tk_offset u + tk_size u <= tk_offset t).
Proof. exact offsets_overlap. Qed.
Print Assumptions C24_large_buffer_refuted.

Example C24_example :
  anim_ok ex_anim = true /\ anim_size ex_anim = 154 /\
  match create_anim ex_anim with
  | Ok a => map (fun t => (tk_offset t, tk_size t)) (all_tracks (an_groups a)) = [(0, 72); (72, 38); (110, 44)]
  | _ => False
  end.
Proof. vm_compute. auto. Qed.

(** ** C25 *)
Theorem C25_track_range_checked : forall t buffer,
  0 <= tk_offset t -> 0 <= tk_size t -> zlen buffer < 2 ^ 64 ->
  zlen buffer < tk_offset t + tk_size t -> create_track_data t buffer = Err (EData DTrackRange).
Proof. exact track_range. Qed.
Print Assumptions C25_track_range_checked.

Theorem C25_only_own_bytes : forall t b1 b2,
  tk_offset t + tk_size t <= zlen b1 -> tk_offset t + tk_size t <= zlen b2 -> 0 <= tk_offset t -> 0 <= tk_size t ->
  (forall i, tk_offset t <= i < tk_offset t + tk_size t -> byte_at b1 i = byte_at b2 i) ->
  create_track_data t b1 = create_track_data t b2.
Proof. exact track_local. Qed.
Print Assumptions C25_only_own_bytes.

Example C25_example :
  let t := Tk (ssbh_string [97]) 8 Constant 1 0 2 1 in
  create_track_data t [0; 0; 1] = Ok (TD [97] false no_flags (TvBool [true])) /\
  create_track_data t [7; 8; 1; 9] = create_track_data t [0; 0; 1] /\
  create_track_data t [0; 0] = Err (EData DTrackRange).
Proof. vm_compute. auto. Qed.

(** ** C26 *)
Theorem C26_uncompressed_roundtrip : forall v compression cs,
  values_ok v = true -> compression <> Compressed ->
  exists b, tv_write v compression cs = Ok b /\ bytes_ok b = true /\ zlen b = tv_len v * value_size v /\
    read_track_values b (track_type v) compression (tv_len v) = Ok (v, stored_compensation v cs).
Proof. exact uncompressed_track. Qed.
Print Assumptions C26_uncompressed_roundtrip.

Example C26_example :
  values_ok (TvFloat [0x7fc00001; 0x80000000; f1]) = true /\
  tv_write (TvFloat [0x7fc00001; 0x80000000; f1]) Direct false = Ok [1; 0; 192; 127; 0; 0; 0; 128; 0; 0; 128; 63].
Proof. vm_compute. auto. Qed.

(** ** C27 *)
Theorem C27_booleans_and_indices_lossless : forall v cs, values_ok v = true ->
  match v with
  | TvBool _ => True
  | TvPattern l => forall x y, In x l -> In y l -> x - y < 2 ^ 24
  | _ => False
  end ->
  exists b, tv_write v Compressed cs = Ok b /\
    read_track_values b (track_type v) Compressed (tv_len v) = Ok (v, false).
Proof. exact lossless. Qed.
Print Assumptions C27_booleans_and_indices_lossless.

(** The condition on the range is needed: the range is not checked when writing. *)
Theorem C27_wide_range_refuted : exists l b,
  values_ok (TvPattern l) = true /\ tv_write (TvPattern l) Compressed false = Ok b /\
  exists l', read_track_values b 5 Compressed (zlen l) = Ok (TvPattern l', false) /\ l' <> l.
Proof.
  exists [0; 2 ^ 24]. eexists. split; [reflexivity|]. split; [vm_compute; reflexivity|].
  exists [0; 0]. split; [vm_compute; reflexivity|discriminate].
Qed.
Print Assumptions C27_wide_range_refuted.

Example C27_example :
  match tv_write (TvPattern [2 ^ 32 - 1; 2 ^ 32 - 2 ^ 24; 2 ^ 32 - 5]) Compressed false with
  | Ok b => zlen b = 45 /\ read_track_values b 5 Compressed 3 = Ok (TvPattern [2 ^ 32 - 1; 2 ^ 32 - 2 ^ 24; 2 ^ 32 - 5], false)
  | _ => False
  end.
Proof. vm_compute. auto. Qed.

(** ** C28 *)
Theorem C28_bit_accounting : forall v cs b, values_ok v = true -> tv_write v Compressed cs = Ok b ->
  uint_at b 0 2 4 /\ uint_at b 4 2 (16 + params_size v) /\ uint_at b 6 2 (frame_bits v) /\
  uint_at b 8 4 (16 + params_size v + value_size v) /\ uint_at b 12 4 (tv_len v mod 2 ^ 32) /\
  zlen b = 16 + params_size v + value_size v + (tv_len v * frame_bits v + 7) / 8.
Proof. exact compressed_layout. Qed.
Print Assumptions C28_bit_accounting.

Theorem C28_other_bit_counts_rejected : forall v cs b other n,
  values_ok v = true -> tv_write v Compressed cs = Ok b -> 0 <= other < 2 ^ 16 -> other <> frame_bits v ->
  read_track_values (firstn 6 b ++ le_bytes 2 other ++ skipn 8 b) (track_type v) Compressed n = Err (EData DBitCount).
Proof. exact other_bits. Qed.
Print Assumptions C28_other_bit_counts_rejected.

Example C28_example :
  frame_bits (TvTransform [ex_transform; Tr (V3 f2 f2 f2) (V4 f0 f0 f0 f1) (V3 f1 f1 f0)]) = 24 + 24 + 1 /\
  match tv_write (TvTransform [ex_transform; Tr (V3 f2 f2 f2) (V4 f0 f0 f0 f1) (V3 f1 f1 f0)]) Compressed true with
  | Ok b => zlen b = 16 + 144 + 44 + 13
  | _ => False
  end.
Proof. vm_compute. auto. Qed.

(** ** C30

    True of tracks with at least one bit per frame, false of the others. *)
Theorem C30_frame_count_partial : forall v cs b w c,
  values_ok v = true -> frame_bits v <> 0 -> tv_write v Compressed cs = Ok b ->
  read_track_values b (track_type v) Compressed (tv_len v) = Ok (w, c) -> tv_len w = tv_len v.
Proof. exact frame_count. Qed.
Print Assumptions C30_frame_count_partial.

Theorem C30_constant_tracks : forall v cs b w c,
  values_ok v = true -> frame_bits v = 0 -> tv_write v Compressed cs = Ok b ->
  read_track_values b (track_type v) Compressed (tv_len v) = Ok (w, c) -> tv_len w = Z.min 1 (tv_len v).
Proof. exact frame_count_constant. Qed.
Print Assumptions C30_constant_tracks.

(** Saving and loading an animation with a constant float track of 12 frames *)
Theorem C30_frame_count_refuted : exists d out d',
  anim_ok d = true /\ anim_data_write d = Ok out /\ anim_data_read (fun l => l) out = Ok d' /\
  map (fun t => tv_len (td_values t)) (tracks_of d) = [12] /\ map (fun t => tv_len (td_values t)) (tracks_of d') = [1].
Proof.
  exists (AD 2 0 0x42200000 [GD 4 [ND [97] [TD [98] false no_flags (TvFloat (repeat f1 12))]]]).
  eexists. eexists. split; [reflexivity|]. split; [vm_compute; reflexivity|]. split; [vm_compute; reflexivity|].
  split; reflexivity.
Qed.
Print Assumptions C30_frame_count_refuted.

Example C30_example :
  frame_bits (td_values ex_float_track) = 24 /\ frame_bits (TvUv (repeat (Uv f1 f1 f0 f0 f0) 3)) = 0.
Proof. vm_compute. auto. Qed.

(** ** C48: saving and loading an animation *)
Theorem C48_anim_save_load : forall order d out,
  anim_ok d = true -> anim_size d < 2 ^ 32 -> anim_data_write d = Ok out -> zlen out < 2 ^ 63 ->
  anim_data_read order out = Ok (stored_anim d).
Proof. exact anim_save_load. Qed.
Print Assumptions C48_anim_save_load.

Example C48_example :
  anim_ok ex_anim = true /\ anim_data_write ex_anim = Ok ex_anim_bytes /\ zlen ex_anim_bytes = 552 /\
  anim_data_read (fun l => l) ex_anim_bytes = Ok ex_anim.
Proof. vm_compute. auto. Qed.

(** ** C49: which animations can be saved *)
Theorem C49_anim_write_errors : forall d, anim_ok d = true -> anim_size d < 2 ^ 32 ->
  (ad_major d <> 2 \/ (ad_minor d <> 0 /\ ad_minor d <> 1) -> anim_data_write d = Err (EData DVersion)) /\
  (ad_major d = 2 -> ad_minor d = 0 \/ ad_minor d = 1 ->
     (final_ok d = true -> exists out, anim_data_write d = Ok out) /\
     (final_ok d = false -> anim_data_write d = Err (EData DFinalFrame))).
Proof. exact anim_errors. Qed.
Print Assumptions C49_anim_write_errors.

Example C49_example :
  final_ok ex_anim = true /\
  final_ok (AD 2 0 f1 [GD 4 [ND [97] [ex_float_track]]]) = false /\
  final_ok (AD 2 0 0x7fc00000 []) = false.
Proof. vm_compute. auto. Qed.

(** ** C50: panics while reading track data; the exact condition is in PropsTrack.v *)
(** A transform track without its last byte, and a pattern index track whose smallest index
    is too large, both in otherwise valid files. *)
Definition ex_truncated : list Z :=
  match tv_write (TvTransform (repeat ex_transform 8)) Compressed false with Ok b => firstn 204 b | _ => [] end.
Theorem C50_truncated_transform_refuted :
  exists v b, values_ok v = true /\ tv_write v Compressed false = Ok (b ++ [0]) /\
    read_track_values b 1 Compressed (tv_len v) = Panic.
Proof.
  exists (TvTransform (repeat ex_transform 8)), ex_truncated. vm_compute. auto.
Qed.
Print Assumptions C50_truncated_transform_refuted.

Theorem C50_index_overflow_refuted : exists b, bytes_ok b = true /\ read_track_values b 5 Compressed 1 = Panic.
Proof.
  exists (compressed_track 0 24 1 (le_bytes 4 (2 ^ 32 - 1) ++ le_bytes 4 0 ++ le_bytes 8 24) (le_bytes 4 0) [1; 0; 0]).
  vm_compute. auto.
Qed.
Print Assumptions C50_index_overflow_refuted.

Example C50_example :
  read_track_values (firstn 38 (match tv_write (TvFloat [f1; f2]) Compressed false with Ok b => b | _ => [] end)) 3 Compressed 2
    = Err (EData DBitStream).
Proof. vm_compute. auto. Qed.

(** ** C66: saving what was loaded gives the same file, if nothing is lost.  For other tracks see
    PropsQuant.v. *)
Theorem C66_lossless : forall order d out d', anim_ok d = true -> anim_size d < 2 ^ 32 ->
  (forall t, In t (tracks_of d) -> kept (td_values t)) ->
  anim_data_write d = Ok out -> zlen out < 2 ^ 63 -> anim_data_read order out = Ok d' ->
  anim_data_write d' = Ok out /\ map td_values (tracks_of d') = map td_values (tracks_of d).
Proof. exact anim_again. Qed.
Print Assumptions C66_lossless.

(** A compressed boolean track, compressed indices, a short float track, and a short transform
    track whose loaded scale compensation is that of the original; the float track loses its own. *)
Definition ex_lossless : anim_data :=
  let track v := TD [97] true (TF false true false true) v in
  AD 2 1 0x42480000 [GD 2 [ND [98] [track (TvBool (repeat true 49)); track (TvPattern (7 :: repeat 9 20)); track (TvFloat [f1; f2])]];
                     GD 1 [ND [99] [track (TvTransform [ex_transform; ex_transform])]]].
Example C66_lossless_example :
  anim_ok ex_lossless = true /\ anim_size ex_lossless = 40 + 99 + 8 + 88 /\
  map (fun t => compressed (td_values t)) (tracks_of ex_lossless) = [true; true; false; false] /\
  (forall t, In t (tracks_of ex_lossless) -> kept (td_values t)) /\
  (let* out := anim_data_write ex_lossless in let* d := anim_data_read (fun l => l) out in Ok (map td_comp (tracks_of d))) = Ok [false; false; false; true].
Proof.
  split; [vm_compute; reflexivity|]. split; [vm_compute; reflexivity|]. split; [vm_compute; reflexivity|]. split; [|vm_compute; reflexivity].
  intros t I. cbn in I. destruct I as [<-|[<-|[<-|[<-|[]]]]]; cbn [td_values].
  - right. exact I.
  - right. intros x y Hx Hy.
    assert (K : forall z, In z (7 :: repeat 9 20) -> z = 7 \/ z = 9) by (intros z [<-|Hz]; [now left|right; apply repeat_spec in Hz; exact Hz]).
    apply K in Hx, Hy. destruct Hx as [->| ->], Hy as [->| ->]; reflexivity.
  - left. reflexivity.
  - left. reflexivity.
Qed.
