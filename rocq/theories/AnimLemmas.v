(** Lemmas behind the properties of bit streams and animations. *)
From Coq Require Import Lia ZifyBool ZifyNat ZifyN.
From Verif Require Import Bytes BytesFacts Ssbh File SsbhSpec SsbhFacts Formats Strings Bits BitsFacts Float32 AnimComp AnimBuf AnimFile AnimSpec.
From Verif Require Import PlainFacts TrackFacts CodecFacts AnimFacts AnimDataFacts SsbhLemmas DecFacts.
Ltac Zify.zify_post_hook ::= ZifyBool.elim_bool_cstr; Z.to_euclidean_division_equations.

(** ** Bit streams *)
Lemma testbit_val l : forall j, 0 <= j < zlen l -> nth_error l (Z.to_nat j) = Some (Z.testbit (bits_val l) j).
Proof.
  induction l as [|b l IH]; intros j H; [cbn in H; lia|]. rewrite zlen_cons in H. cbn [bits_val].
  destruct (Z.eq_dec j 0) as [->|N].
  - cbn [Z.to_nat nth_error]. f_equal. rewrite Z.add_comm, Z.testbit_0_r. reflexivity.
  - replace (Z.to_nat j) with (S (Z.to_nat (j - 1))) by lia. cbn [nth_error]. rewrite IH by lia. f_equal.
    replace j with (Z.succ (j - 1)) at 2 by lia. rewrite Z.add_comm, Z.testbit_succ_r by lia. reflexivity.
Qed.

Lemma bits_of_bytes_len bs : zlen (bits_of_bytes bs) = 8 * zlen bs.
Proof.
  unfold bits_of_bytes. rewrite (flat_len (bits_of 8) 8 bs) by (intros; apply zlen_bits_of). lia.
Qed.

Lemma nth_flat8 bs : forall i j, 0 <= i < zlen bs -> 0 <= j < 8 ->
  nth_error (bits_of_bytes bs) (Z.to_nat (8 * i + j)) = option_map (fun x => Z.testbit (x mod 256) j) (nth_error bs (Z.to_nat i)).
Proof.
  induction bs as [|x bs IH]; intros i j Hi Hj; [cbn in Hi; lia|]. rewrite zlen_cons in Hi.
  change (bits_of_bytes (x :: bs)) with (bits_of 8 x ++ bits_of_bytes bs).
  destruct (Z.eq_dec i 0) as [->|N].
  - rewrite nth_error_app1 by (rewrite bits_of_length; lia).
    replace (8 * 0 + j) with j by lia. rewrite testbit_val by (rewrite zlen_bits_of; lia).
    rewrite bits_val_of. reflexivity.
  - rewrite nth_error_app2 by (rewrite bits_of_length; lia). rewrite bits_of_length.
    replace (Z.to_nat (8 * i + j) - 8)%nat with (Z.to_nat (8 * (i - 1) + j)) by lia. rewrite IH by lia.
    replace (Z.to_nat i) with (S (Z.to_nat (i - 1))) by lia. reflexivity.
Qed.

Lemma stream_bit_nth bs k : bytes_ok bs = true -> 0 <= k < 8 * zlen bs ->
  stream_bit bs k = nth_error (bits_of_bytes bs) (Z.to_nat k).
Proof.
  intros B H. rewrite (Z.div_mod k 8) at 2 by lia. rewrite nth_flat8 by lia.
  unfold stream_bit, byte_at. replace ((0 <=? k / 8) && (k / 8 <? zlen bs)) with true by lia.
  destruct (nth_error bs (Z.to_nat (k / 8))) as [x|] eqn:E; [|reflexivity]. cbn [option_map].
  unfold bytes_ok in B. rewrite forallb_forall in B. apply nth_error_In, B in E. unfold is_byte in E.
  assert (0 <= x < 256) by lia. rewrite (Z.mod_small x 256) by lia. reflexivity.
Qed.

Theorem bit_read bs i n : bytes_ok bs = true -> 0 <= i -> 1 <= n <= 32 ->
  (8 * zlen bs < i + n -> read_u32_bits n (mkBR (bits_of_bytes bs) i) = Err (EData DBitStream)) /\
  (i + n <= 8 * zlen bs -> exists v,
     read_u32_bits n (mkBR (bits_of_bytes bs) i) = Ok (v, mkBR (bits_of_bytes bs) (i + n)) /\
     0 <= v < 2 ^ n /\ forall j, 0 <= j < n -> stream_bit bs (i + j) = Some (Z.testbit v j)).
Proof.
  intros B Hi Hn. unfold read_u32_bits, br_read, slice. cbn [br_bits br_index]. rewrite bits_of_bytes_len.
  replace ((1 <=? n) && (n <=? 32)) with true by lia. split; intros H.
  - now replace (i + n <=? 8 * zlen bs) with false by lia.
  - replace (i + n <=? 8 * zlen bs) with true by lia.
    set (s := firstn (Z.to_nat n) (skipn (Z.to_nat i) (bits_of_bytes bs))).
    assert (L : zlen s = n).
    { unfold s. pose proof (bits_of_bytes_len bs). unfold zlen in *. rewrite firstn_length, skipn_length. lia. }
    exists (bits_val s). split; [reflexivity|]. split; [rewrite <- L; apply bits_val_range|].
    intros j Hj. rewrite stream_bit_nth by (auto; lia). rewrite <- testbit_val by lia. unfold s.
    rewrite nth_error_firstn by lia. rewrite nth_error_skipn. f_equal. lia.
Qed.

Definition item_bits (i : item) : list bool :=
  match i with Bits v n => bits_of (Z.to_nat n) v | Bit b => [b] end.

Lemma item_bits_len i : item_ok i -> zlen (item_bits i) = item_width i.
Proof. unfold item_ok. destruct i; cbn [item_bits item_width]; intros; [rewrite zlen_bits_of; lia|reflexivity]. Qed.

Lemma items_len l : Forall item_ok l -> zlen (flat_map item_bits l) = total_width l.
Proof.
  induction 1 as [|i l Hi Hl IH]; [reflexivity|]. cbn [flat_map total_width fold_right].
  rewrite zlen_app, item_bits_len by auto. unfold total_width in IH. lia.
Qed.

Lemma write_items_ok l : Forall item_ok l -> forall d total w, writing d total w -> zlen d + total_width l <= total ->
  exists w', write_items l w = Ok w' /\ writing (d ++ flat_map item_bits l) total w'.
Proof.
  induction 1 as [|i l Hi Hl IH]; intros d total w W Ht; cbn [write_items flat_map total_width fold_right] in *.
  - exists w. rewrite app_nil_r. auto.
  - pose proof (items_len l Hl) as LL. pose proof (zlen_nonneg (flat_map item_bits l)). unfold total_width in *.
    assert (S : exists w1, (match i with Bits v n => bw_write v n w | Bit b => bw_write_bit b w end) = Ok w1 /\
      writing (d ++ item_bits i) total w1).
    { unfold item_ok in Hi. destruct i; cbn [item_width item_bits] in *; [apply bw_write_ok|apply bw_write_bit_ok]; auto; lia. }
    destruct S as (w1 & -> & W1). cbn [bind].
    destruct (IH (d ++ item_bits i) total w1 W1) as (w2 & -> & W2).
    { rewrite zlen_app, item_bits_len by auto. lia. }
    exists w2. rewrite app_assoc. auto.
Qed.

Lemma read_items_ok l : Forall item_ok l -> forall rest r, reading (flat_map item_bits l ++ rest) r ->
  read_items l r = Ok (map stored_item l).
Proof.
  induction 1 as [|i l Hi Hl IH]; intros rest r R; cbn [read_items map flat_map] in *; [reflexivity|].
  rewrite <- app_assoc in R. unfold item_ok in Hi. destruct i as [v n|b]; cbn [item_width item_bits stored_item] in *.
  - assert (LB : zlen (bits_of (Z.to_nat n) v) = n) by (rewrite zlen_bits_of; lia).
    destruct (br_read_ok 32 n _ _ _ LB R) as (r1 & E & R1); [lia|].
    unfold read_u32_bits. rewrite E. cbn [bind]. rewrite (IH _ _ R1). cbn [bind]. rewrite bits_val_of.
    rewrite Z2Nat.id by lia. reflexivity.
  - cbn [app] in R. destruct (read_bit_ok _ _ _ R) as (r1 & -> & R1). cbn [bind]. now rewrite (IH _ _ R1).
Qed.

Lemma nth_bits_of n : forall v j, 0 <= j < Z.of_nat n -> nth_error (bits_of n v) (Z.to_nat j) = Some (Z.testbit v j).
Proof.
  intros v j H. rewrite testbit_val by (rewrite zlen_bits_of; lia). rewrite bits_val_of.
  f_equal. apply Z.mod_pow2_bits_low. lia.
Qed.

Theorem bit_stream l : Forall item_ok l ->
  exists w, write_items l (bw_new (repeat false (Z.to_nat (total_width l)))) = Ok w /\
    zlen (bw_into_bytes w) = (total_width l + 7) / 8 /\ bytes_ok (bw_into_bytes w) = true /\
    read_items l (br_from_slice (bw_into_bytes w)) = Ok (map stored_item l) /\
    forall before i after j, l = before ++ i :: after -> 0 <= j < item_width i ->
      stream_bit (bw_into_bytes w) (total_width before + j) = Some (item_bit i j).
Proof.
  intros H. pose proof (items_len l H) as L.
  assert (N : 0 <= total_width l) by (rewrite <- L; apply zlen_nonneg).
  destruct (write_items_ok l H [] (total_width l) _ (writing_new _ N)) as (w & E & W); [cbn; lia|].
  exists w. split; [exact E|]. cbn [app] in W. rewrite <- L in W. pose proof (writing_done _ _ W) as D. rewrite D.
  destruct (bytes_of_bits_spec (flat_map item_bits l)) as (k & Hk & Hb & Hl & Ho). rewrite Hl, L.
  split; [auto|]. split; [auto|]. destruct (reading_start (flat_map item_bits l)) as (k' & R).
  split; [eapply read_items_ok; eauto|].
  intros before i after j -> Hj.
  apply Forall_app in H as [H1 H2]. inversion H2 as [|? ? Hi H3]; subst. clear H2.
  pose proof (items_len before H1) as L1. pose proof (items_len after H3) as L3.
  pose proof (zlen_nonneg (flat_map item_bits before)). pose proof (zlen_nonneg (flat_map item_bits after)).
  rewrite flat_map_app in *. cbn [flat_map] in *. rewrite !zlen_app, item_bits_len in * by auto.
  rewrite stream_bit_nth by (auto; lia). rewrite Hb.
  rewrite <- app_assoc, nth_error_app2 by (unfold zlen in *; lia).
  replace (Z.to_nat (total_width before + j) - length (flat_map item_bits before))%nat with (Z.to_nat j)
    by (unfold zlen in *; lia).
  rewrite <- app_assoc, nth_error_app1 by (pose proof (item_bits_len i Hi); unfold zlen in *; lia).
  unfold item_ok in Hi. destruct i as [v n|b]; cbn [item_bits item_bit item_width] in *.
  - apply nth_bits_of. lia.
  - replace j with 0 by lia. reflexivity.
Qed.

(** ** Track ranges *)
Lemma tiles_inside l : forall a b, tiles a b l -> a <= b /\
  Forall (fun t => a <= tk_offset t /\ 0 <= tk_size t /\ tk_offset t + tk_size t <= b) l.
Proof.
  induction l as [|t l IH]; intros a b H; cbn [tiles] in H; [split; [lia|constructor]|].
  destruct H as (E & S & T). destruct (IH _ _ T) as [L F]. split; [lia|]. constructor; [lia|].
  eapply Forall_impl; [|exact F]. cbn. intros u. lia.
Qed.

Lemma tiles_ordered l : forall a b, tiles a b l ->
  ForallOrdPairs (fun t u => tk_offset t + tk_size t <= tk_offset u) l.
Proof.
  induction l as [|t l IH]; intros a b H; cbn [tiles] in H; constructor.
  - destruct H as (E & S & T). destruct (tiles_inside l _ _ T) as [L F].
    eapply Forall_impl; [|exact F]. cbn. intros u. lia.
  - destruct H as (E & S & T). eauto.
Qed.

Lemma tiles_cover l : forall a b, tiles a b l -> forall i, a <= i < b ->
  Exists (fun t => tk_offset t <= i < tk_offset t + tk_size t) l.
Proof.
  induction l as [|t l IH]; intros a b H i Hi; cbn [tiles] in H; [lia|]. destruct H as (E & S & T).
  destruct (Z_lt_ge_dec i (a + tk_size t)) as [L|L]; [left; lia|right; eapply IH; [exact T|lia]].
Qed.

Lemma track_local t b1 b2 :
  tk_offset t + tk_size t <= zlen b1 -> tk_offset t + tk_size t <= zlen b2 -> 0 <= tk_offset t -> 0 <= tk_size t ->
  (forall i, tk_offset t <= i < tk_offset t + tk_size t -> byte_at b1 i = byte_at b2 i) ->
  create_track_data t b1 = create_track_data t b2.
Proof.
  intros H1 H2 O HS E. unfold create_track_data. destruct (two64 <=? _); [reflexivity|].
  replace (zlen b1 <? _) with false by lia. replace (zlen b2 <? _) with false by lia.
  replace (firstn (Z.to_nat (tk_size t)) (skipn (Z.to_nat (tk_offset t)) b1))
    with (firstn (Z.to_nat (tk_size t)) (skipn (Z.to_nat (tk_offset t)) b2)); [reflexivity|].
  assert (G : forall n l1 l2, (forall k, (k < n)%nat -> nth_error l1 k = nth_error l2 k) -> @firstn Z n l1 = firstn n l2).
  { induction n as [|n IH]; intros l1 l2 H; [reflexivity|]. pose proof (H 0%nat ltac:(lia)) as H0.
    destruct l1, l2; try discriminate H0; [reflexivity|]. injection H0 as <-. cbn [firstn]. f_equal. apply IH.
    intros k Hk. exact (H (S k) ltac:(lia)). }
  symmetry. apply G. intros k Hk. rewrite !nth_error_skipn.
  specialize (E (tk_offset t + Z.of_nat k) ltac:(lia)). unfold byte_at in E.
  replace ((0 <=? _) && _) with true in E by lia. replace ((0 <=? _) && _) with true in E by lia.
  replace (Z.to_nat (tk_offset t) + k)%nat with (Z.to_nat (tk_offset t + Z.of_nat k)) by lia. exact E.
Qed.

(** ** What compression preserves *)
Definition same_frames (v : track_values) : Prop :=
  match v with TvBool _ => True | TvPattern l => forall x y, In x l -> In y l -> x - y < 2 ^ 24 | _ => False end.

Lemma stored_index_id l : forallb is32 l = true -> (forall x y, In x l -> In y l -> x - y < 2 ^ 24) ->
  map (stored_index l) l = l.
Proof.
  intros W H. rewrite <- (map_id l) at 3. apply map_ext_forall. intros x Hx. unfold stored_index.
  pose proof (lowest_le l x Hx).
  assert (In (lowest l) l) by (apply reduce_in; [apply Zmin_or|intros ->; destruct Hx]).
  specialize (H x (lowest l) Hx H1). rewrite Z.mod_small by lia. lia.
Qed.

Theorem lossless v cs : values_ok v = true -> same_frames v ->
  exists b, tv_write v Compressed cs = Ok b /\
    read_track_values b (track_type v) Compressed (tv_len v) = Ok (v, false).
Proof.
  intros W S. destruct (compressed_values v cs W) as (b & E & _ & _ & R). exists b. split; [exact E|]. rewrite R.
  destruct v; try contradiction.
  - cbn [frame_bits Z.eqb stored_values stored_compensation]. cbn [same_frames values_ok] in *.
    now rewrite stored_index_id.
  - reflexivity.
Qed.

Lemma stored_len v : tv_len (stored_values v) = tv_len v.
Proof. destruct v; cbn [tv_len stored_values]; unfold zlen; now rewrite ?map_length. Qed.

Theorem frame_count v cs b w c : values_ok v = true -> frame_bits v <> 0 -> tv_write v Compressed cs = Ok b ->
  read_track_values b (track_type v) Compressed (tv_len v) = Ok (w, c) -> tv_len w = tv_len v.
Proof.
  intros W N E R. destruct (compressed_values v cs W) as (b' & E' & _ & _ & R').
  assert (b' = b) by congruence. subst. rewrite R' in R. apply Z.eqb_neq in N. rewrite N in R. injection R as <- _.
  apply stored_len.
Qed.

Theorem frame_count_constant v cs b w c : values_ok v = true -> frame_bits v = 0 -> tv_write v Compressed cs = Ok b ->
  read_track_values b (track_type v) Compressed (tv_len v) = Ok (w, c) -> tv_len w = Z.min 1 (tv_len v).
Proof.
  intros W N E R. destruct (compressed_values v cs W) as (b' & E' & _ & _ & R').
  assert (b' = b) by congruence. subst. rewrite R' in R. rewrite N in R. cbn [Z.eqb] in R. injection R as <- _.
  rewrite <- (stored_len v). destruct (stored_values v) as [l|l|l|l|l|l]; cbn [first_frame tv_len]; unfold zlen;
    rewrite firstn_length; lia.
Qed.

(** A track header can be changed to announce another number of bits. *)
Theorem other_bits v cs b other n : values_ok v = true -> tv_write v Compressed cs = Ok b ->
  0 <= other < 2 ^ 16 -> other <> frame_bits v ->
  read_track_values (firstn 6 b ++ le_bytes 2 other ++ skipn 8 b) (track_type v) Compressed n = Err (EData DBitCount).
Proof.
  intros W E Ho No. destruct (compressed_values v cs W) as (b' & E' & _ & (pr & df & dt & Hb & _ & _ & _ & R) & _).
  assert (b' = b) by congruence. subst b'. rewrite <- (R other n Ho No). f_equal. subst b. unfold compressed_track.
  reflexivity.
Qed.

Lemma frame_bits_range v : 0 <= frame_bits v < 2 ^ 16.
Proof.
  assert (C : forall mn mx, 0 <= comp_bits mn mx <= 24) by (intros; unfold comp_bits; destruct (f32_eqb _ _); lia).
  assert (D : forall T (f : T -> Z) l, 0 <= cbits f l <= 24) by (intros; apply C).
  destruct v as [l|l|l|l|l|l]; cbn [frame_bits].
  - pose proof (D _ sx l). pose proof (D _ sy l). pose proof (D _ sz l). pose proof (D _ rx l). pose proof (D _ ry l).
    pose proof (D _ rz l). pose proof (D _ tx l). pose proof (D _ ty_ l). pose proof (D _ tz l).
    destruct (tr_uniform l); lia.
  - pose proof (D _ uv_su l). pose proof (D _ uv_sv l). pose proof (D _ uv_rot l). pose proof (D _ uv_tu l).
    pose proof (D _ uv_tv l). destruct (uv_uniform l); lia.
  - pose proof (D _ (fun x => x) l). lia.
  - lia.
  - lia.
  - pose proof (D _ v4x l). pose proof (D _ v4y l). pose proof (D _ v4z l). pose proof (D _ v4w l). lia.
Qed.

Lemma uint_le a w x r : 0 <= x < 256 ^ Z.of_nat w -> uint_at (a ++ le_bytes w x ++ r) (zlen a) (Z.of_nat w) x.
Proof.
  intros H. rewrite <- (le_val_mid w x H) at 2. apply uint_at_mid. unfold zlen. now rewrite le_bytes_length.
Qed.

Lemma zlen_le w x : zlen (le_bytes w x) = Z.of_nat w.
Proof. unfold zlen. now rewrite le_bytes_length. Qed.

Lemma track_layout flags bits count pr df dt : 0 <= flags < 2 ^ 16 -> 0 <= bits < 2 ^ 16 -> 0 <= count < 2 ^ 32 ->
  zlen pr + zlen df < 2 ^ 15 ->
  let b := compressed_track flags bits count pr df dt in
  uint_at b 0 2 4 /\ uint_at b 2 2 flags /\ uint_at b 4 2 (16 + zlen pr) /\ uint_at b 6 2 bits /\
  uint_at b 8 4 (16 + zlen pr + zlen df) /\ uint_at b 12 4 count /\
  zlen b = 16 + zlen pr + zlen df + zlen dt.
Proof.
  intros Hf Hb Hc Hs b. unfold b, compressed_track. pose proof (zlen_nonneg pr). pose proof (zlen_nonneg df).
  set (h0 := le_bytes 2 4). set (h1 := le_bytes 2 flags). set (h2 := le_bytes 2 (16 + zlen pr)).
  set (h3 := le_bytes 2 bits). set (h4 := le_bytes 4 (16 + zlen pr + zlen df)). set (h5 := le_bytes 4 count).
  assert (L0 : zlen h0 = 2) by apply zlen_le. assert (L1 : zlen h1 = 2) by apply zlen_le.
  assert (L2 : zlen h2 = 2) by apply zlen_le. assert (L3 : zlen h3 = 2) by apply zlen_le.
  assert (L4 : zlen h4 = 4) by apply zlen_le. assert (L5 : zlen h5 = 4) by apply zlen_le.
  repeat split.
  - apply (uint_le [] 2 4); lia.
  - rewrite <- L0 at 1. apply (uint_le h0 2 flags). lia.
  - replace 4 with (zlen (h0 ++ h1)) at 1 by (rewrite zlen_app; lia). rewrite (app_assoc h0).
    apply (uint_le (h0 ++ h1) 2). lia.
  - replace 6 with (zlen ((h0 ++ h1) ++ h2)) at 1 by (rewrite !zlen_app; lia). rewrite (app_assoc h0), (app_assoc (h0 ++ h1)).
    apply (uint_le _ 2). lia.
  - replace 8 with (zlen (((h0 ++ h1) ++ h2) ++ h3)) at 1 by (rewrite !zlen_app; lia).
    rewrite (app_assoc h0), (app_assoc (h0 ++ h1)), (app_assoc ((h0 ++ h1) ++ h2)).
    apply (uint_le _ 4). lia.
  - replace 12 with (zlen ((((h0 ++ h1) ++ h2) ++ h3) ++ h4)) at 1 by (rewrite !zlen_app; lia).
    rewrite (app_assoc h0), (app_assoc (h0 ++ h1)), (app_assoc ((h0 ++ h1) ++ h2)), (app_assoc (((h0 ++ h1) ++ h2) ++ h3)).
    apply (uint_le _ 4). lia.
  - rewrite !zlen_app. lia.
Qed.

Lemma flags_range v : 0 <= flags_from_track v < 2 ^ 16.
Proof.
  destruct v as [l|l|l|l|l|l]; cbn [flags_from_track]; try lia;
    destruct (forallb _ l); cbn; lia.
Qed.

Theorem compressed_layout v cs b : values_ok v = true -> tv_write v Compressed cs = Ok b ->
  uint_at b 0 2 4 /\ uint_at b 4 2 (16 + params_size v) /\ uint_at b 6 2 (frame_bits v) /\
  uint_at b 8 4 (16 + params_size v + value_size v) /\ uint_at b 12 4 (tv_len v mod 2 ^ 32) /\
  zlen b = 16 + params_size v + value_size v + (tv_len v * frame_bits v + 7) / 8.
Proof.
  intros W E. destruct (compressed_values v cs W) as (b' & E' & _ & (pr & df & dt & Hb & Lp & L & Ld & R) & _).
  assert (Eb : b' = b) by congruence. rewrite Eb in Hb.
  rewrite compressed_overhead_size in L.
  pose proof (frame_bits_range v) as Fb. pose proof (flags_range v) as Ff.
  assert (Hs : 0 < value_size v <= 44 /\ 16 <= params_size v <= 144) by (clear; destruct v; cbn; lia).
  rewrite <- Ld.
  destruct (track_layout (flags_from_track v) (frame_bits v) (tv_len v mod 2 ^ 32) pr df dt) as (H0 & H1 & H2 & H3 & H4 & H5 & H6);
    try lia.
  rewrite <- Hb in H0, H1, H2, H3, H4, H5, H6. rewrite Lp in H2, H4, H6. replace (value_size v) with (zlen df) by lia.
  repeat split; auto; lia.
Qed.

(** ** Panics while reading tracks *)
Definition range_ok (c : rangec) : Prop := 0 <= rc_bits c <= 32.

Lemma br_read_np w n r : 1 <= n <= w -> br_read w n r <> Panic.
Proof.
  intros H. unfold br_read. destruct (slice _ _ _); [|discriminate].
  replace ((1 <=? n) && (n <=? w)) with true by lia. discriminate.
Qed.

Lemma f32_decompress_np c d r : range_ok c -> f32_decompress c d r <> Panic.
Proof.
  unfold range_ok, f32_decompress. intros H. destruct (Z.eqb_spec (rc_bits c) 0); [discriminate|].
  destruct (f32_eqb _ _); [discriminate|]. apply bind_np; [apply br_read_np; lia|]. intros []; discriminate.
Qed.

Lemma un_range_np v : wt F32Compression v = true -> un_range v <> Panic /\ forall c, un_range v = Ok c -> range_ok c.
Proof.
  intros W. unfold un_range. destruct v as [| |l| | |]; try (split; intros; discriminate).
  destruct l as [|[a| | | | |] [|[b| | | | |] [|[n| | | | |] [|? ?]]]]; try (split; intros; discriminate).
  destruct (Z.leb_spec n 32); split; intros; try discriminate. injection H0 as <-. unfold range_ok. cbn [rc_bits].
  unfold F32Compression in W. rewrite !wt_record_cons in W. cbn [wt f32 u64] in W. clear - W H. lia.
Qed.

Lemma un_list_np {T} (un : val -> res T) vs : (forall v, un v <> Panic) -> un_list un vs <> Panic.
Proof.
  intros H. induction vs as [|v vs IH]; cbn [un_list]; [discriminate|]. apply bind_np; [apply H|]. intros x.
  apply bind_np; [apply IH|]. discriminate.
Qed.

Lemma read_uncompressed_np {T} t (un : val -> res T) b n : (forall v, un v <> Panic) -> read_uncompressed t un b n <> Panic.
Proof.
  intros H. unfold read_uncompressed. apply bind_np; [apply read_elements_np, read_no_panic|]. intros [vs ?].
  now apply un_list_np.
Qed.

Lemma decompress_all_np {T C} (cd : codec T C) c d flags bpe n : (forall d r, cd_decompress cd c d flags bpe r <> Panic) ->
  forall r, decompress_all cd c d flags bpe n r <> Panic.
Proof.
  intros H. induction n as [|n IH]; intros r; cbn [decompress_all]; [discriminate|]. destruct d; [|discriminate].
  apply bind_np; [apply H|]. intros []. apply bind_np; [apply IH|]. discriminate.
Qed.

Lemma bind_np' {A B} (r : res A) (f : A -> res B) :
  r <> Panic -> (forall a, r = Ok a -> f a <> Panic) -> bind r f <> Panic.
Proof. destruct r; cbn; auto; discriminate. Qed.

Lemma read_compressed_np {T C} (cd : codec T C) (ok : C -> Prop) b n :
  bytes_ok b = true -> inl false (cd_cty cd) = true ->
  (forall v, cd_un cd v <> Panic) ->
  (forall v, wt (cd_cty cd) v = true -> cd_cun cd v <> Panic /\ forall c, cd_cun cd v = Ok c -> ok c) ->
  (forall c d flags r, ok c -> cd_decompress cd c d flags (cd_bits cd c flags) r <> Panic) ->
  read_compressed cd b n <> Panic.
Proof.
  intros Hb Hi Hu Hc Hd. unfold read_compressed.
  apply bind_np; [apply read_no_panic|]. intros [? ?]. apply bind_np; [apply read_int_np|]. intros [flags ?].
  apply bind_np; [apply read_no_panic|]. intros [df ?].
  apply bind_np.
  { destruct df as [| | | |o|]; try discriminate. destruct o; [|discriminate].
    apply bind_np; [apply Hu|]. discriminate. }
  intros df'. apply bind_np; [apply read_int_np|]. intros [bits ?].
  apply bind_np.
  { unfold read_buffer_ptr. apply bind_np; [apply read_int_np|]. intros [? ?]. destruct (_ =? _); discriminate. }
  intros [buffer ?]. apply bind_np; [apply read_int_np|]. intros [? ?].
  apply bind_np'; [apply read_no_panic|]. intros [c ?] Rc.
  assert (W : wt (cd_cty cd) c = true).
  { eapply Dec_wt; [exact Hi|exact Hb|]. eapply read_Dec in Rc as [D _]; eauto. }
  apply bind_np'; [now apply Hc|]. intros comp Ec. apply Hc in Ec; [|exact W].
  destruct (Z.eqb_spec bits (cd_bits cd comp flags)) as [->|]; cbn [negb]; [|discriminate].
  destruct buffer; [|discriminate]. apply decompress_all_np. intros. now apply Hd.
Qed.

Ltac np := repeat (match goal with
  | |- bind _ _ <> Panic => apply bind_np'; [|intros ? ?]
  | |- (match ?x with (_, _) => _ end) <> Panic => destruct x
  | |- f32_decompress _ _ _ <> Panic => apply f32_decompress_np; cbn; tauto
  | |- (if ?b then _ else _) <> Panic => destruct b
  | |- Ok _ <> Panic => discriminate
  | |- Err _ <> Panic => discriminate
  end).

Theorem track_panic b t c n : bytes_ok b = true -> read_track_values b t c n = Panic ->
  c = Compressed /\ (t = 1 \/ t = 5).
Proof.
  intros Hb H. unfold read_track_values in H.
  assert (Z : forall v, un_z v <> Panic) by (intros []; discriminate).
  assert (V3' : forall v, un_vec3 v <> Panic).
  { intros v. unfold un_vec3. destruct v as [| |l| | |]; try discriminate.
    destruct l as [|[] [|[] [|[] [|? ?]]]]; discriminate. }
  assert (V4' : forall v, un_vec4 v <> Panic).
  { intros v. unfold un_vec4. destruct v as [| |l| | |]; try discriminate.
    destruct l as [|[] [|[] [|[] [|[] [|? ?]]]]]; discriminate. }
  assert (B : forall v, un_bool v <> Panic).
  { intros v. unfold un_bool. destruct v as [| |l| | |]; try discriminate. destruct l as [|[] [|? ?]]; discriminate. }
  assert (U : forall v, un_uv v <> Panic).
  { intros v. unfold un_uv. destruct v as [| |l| | |]; try discriminate.
    destruct l as [|[] [|[] [|[] [|[] [|[] [|? ?]]]]]]; discriminate. }
  assert (T : forall v, un_utransform v <> Panic).
  { intros v. unfold un_utransform. destruct v as [| |l| | |]; try discriminate.
    destruct l as [|a [|b' [|c' [|[] [|? ?]]]]]; try discriminate. np; auto. }
  assert (NP : forall A B (r : res A) (f : A -> res B), bind r f = Panic -> (forall a, f a <> Panic) -> r = Panic).
  { intros A' B' r f E F. destruct r; cbn in E; auto; [now apply F in E|discriminate]. }
  destruct (Z.eqb_spec c Compressed) as [->|Nc].
  - split; [reflexivity|].
    destruct t as [|p|p]; try discriminate H.
    do 4 (try (destruct p as [p|p|]; try discriminate H)); auto.
    all: exfalso; apply NP in H; [revert H|intros ?; discriminate].
    + apply (read_compressed_np _ (fun c => range_ok (c4x c) /\ range_ok (c4y c) /\ range_ok (c4z c) /\ range_ok (c4w c))); auto.
      * intros v W. cbn [cd_cun vec4_codec]. unfold un_vec4c. destruct v as [| |l| | |]; try (split; intros; discriminate).
        destruct l as [|x [|y [|z [|w [|? ?]]]]]; try (split; intros; discriminate).
        cbn [cd_cty vec4_codec] in W. unfold Vector4Compression in W. rewrite !wt_record_cons, !andb_true_iff in W.
        destruct W as (Wx & Wy & Wz & Ww & _).
        destruct (un_range_np x Wx) as [P1 Q1], (un_range_np y Wy) as [P2 Q2], (un_range_np z Wz) as [P3 Q3], (un_range_np w Ww) as [P4 Q4].
        split; [np; auto|]. intros c0 E.
        destruct (un_range x), (un_range y), (un_range z), (un_range w); try discriminate E. injection E as <-. cbn. auto.
      * intros c0 d flags r (R1 & R2 & R3 & R4). cbn. unfold vec4_decompress. np.
    + apply (read_compressed_np _ range_ok); auto.
      * exact un_range_np.
      * intros. cbn. now apply f32_decompress_np.
    + apply (read_compressed_np _ (fun _ => True)); auto.
      intros. cbn. apply br_read_np. lia.
    + apply (read_compressed_np _ (fun c => range_ok (uc_su c) /\ range_ok (uc_sv c) /\ range_ok (uc_rot c) /\ range_ok (uc_tu c) /\ range_ok (uc_tv c))); auto.
      * intros v W. cbn [cd_cun uv_codec]. unfold un_uvc. destruct v as [| |l| | |]; try (split; intros; discriminate).
        destruct l as [|x [|y [|z [|w [|u [|? ?]]]]]]; try (split; intros; discriminate).
        cbn [cd_cty uv_codec] in W. unfold UvTransformCompression in W. rewrite !wt_record_cons, !andb_true_iff in W.
        destruct W as (Wx & Wy & Wz & Ww & Wu & _).
        destruct (un_range_np x Wx) as [P1 Q1], (un_range_np y Wy) as [P2 Q2], (un_range_np z Wz) as [P3 Q3], (un_range_np w Ww) as [P4 Q4], (un_range_np u Wu) as [P5 Q5].
        split; [np; auto|]. intros c0 E.
        destruct (un_range x), (un_range y), (un_range z), (un_range w), (un_range u); try discriminate E. injection E as <-. cbn. auto 6.
      * intros c0 d flags r (R1 & R2 & R3 & R4 & R5). cbn. unfold uv_decompress. np.
  - exfalso.
    destruct t as [|p|p]; try discriminate H.
    do 4 (try (destruct p as [p|p|]; try discriminate H)); auto.
    all: apply NP in H; [revert H|intros ?; discriminate]; now apply read_uncompressed_np.
Qed.

(** ** Track offsets are truncated to 32 bits *)
Lemma zlen_repeat {A} (x : A) n : 0 <= n -> zlen (repeat x (Z.to_nat n)) = n.
Proof. intros H. unfold zlen. rewrite repeat_length. lia. Qed.

Definition tracks_anim (ts : list track_data) : anim_data := AD 2 0 (0x7f800000) [GD 4 [ND [] ts]].

Lemma overlap n : 1431655766 <= n < 2 ^ 32 - 100 ->
  SFleb (sub32 (int_to_f32 n) (int_to_f32 1)) (S754_infinity false) = true ->
  exists d a t u, anim_ok d = true /\ create_anim d = Ok a /\ all_tracks (an_groups a) = [t; u] /\
    ~ (tk_offset t + tk_size t <= tk_offset u \/ tk_offset u + tk_size u <= tk_offset t).
Proof.
  intros Hn Hf. set (v := TvPattern (repeat 0 (Z.to_nat n))).
  assert (Ln : tv_len v = n) by (apply zlen_repeat; lia).
  assert (Wv : values_ok v = true).
  { unfold v, values_ok. clear. generalize (Z.to_nat n) as k. induction k as [|k IH]; [reflexivity|]. cbn [repeat forallb].
    rewrite IH. reflexivity. }
  assert (Cv : infer_compression v = Compressed).
  { change (infer_compression v) with
      (if tv_len v <=? 1 then Constant else if 36 / 4 + 1 <? tv_len v then Compressed else Direct).
    rewrite Ln. change (36 / 4 + 1) with 10. clear - Hn. replace (n <=? 1) with false by lia.
    now replace (10 <? n) with true by lia. }
  destruct (track_data_ok (TD [] false (TF false false false false) v)) as (b & Eb & Bo & Lb & R).
  { unfold track_ok. cbn [td_name td_values]. rewrite Wv, Ln. change (text_ok []) with true. cbn [andb]. lia. }
  cbn [td_values td_comp] in Eb, Lb.
  assert (Sz : track_size v = 36 + 3 * n).
  { unfold track_size. rewrite compressed_infer, Cv, Ln. change (params_size v) with 16. change (value_size v) with 4.
    change (frame_bits v) with 24. change (Compressed =? Compressed) with true. cbv iota. clear. lia. }
  set (t1 := TD [] false (TF false false false false) v) in *.
  set (t2 := TD [] false (TF false false false false) (TvBool [true])).
  set (d := tracks_anim [t1; t2]).
  assert (C1 : create_track t1 [] = Ok (Tk (ssbh_string []) 5 Compressed n 0 0 (36 + 3 * n), b)).
  { unfold create_track, t1. cbn [td_values td_comp td_name td_flags]. rewrite Eb. cbn [bind app].
    rewrite Ln, Lb, Sz. rewrite (Z.mod_small n) by lia. change (track_type v) with 5. rewrite Cv.
    change (zlen (@nil Z)) with 0. change (0 mod 2 ^ 32) with 0. now rewrite Z.sub_0_r. }
  assert (Hb : tv_write (TvBool [true]) Constant false = Ok [1]) by reflexivity.
  assert (C2 : create_track t2 b = Ok (Tk (ssbh_string []) 8 Constant 1 0 ((36 + 3 * n) mod 2 ^ 32) 1, b ++ [1])).
  { unfold create_track, t2. cbn [td_values td_comp td_name td_flags].
    change (infer_compression (TvBool [true])) with Constant. rewrite Hb. cbn [bind].
    rewrite zlen_app, Lb, Sz. change (zlen [1]) with 1. replace (36 + 3 * n + 1 - (36 + 3 * n)) with 1 by lia. reflexivity. }
  eexists d, _, _, _. split; [|split; [|split]].
  - unfold anim_ok, d, tracks_anim. cbn [ad_final ad_groups forallb]. unfold group_ok. cbn [gd_type gd_nodes forallb].
    unfold node_ok. cbn [nd_name nd_tracks forallb].
    assert (O1 : track_ok t1 = true).
    { unfold track_ok, t1. cbn [td_name td_values]. rewrite Wv, Ln. clear - Hn. replace (n <? 2 ^ 32) with true by lia. reflexivity. }
    rewrite O1. change (zlen [t1; t2]) with 2. reflexivity.
  - unfold create_anim, d, tracks_anim. cbn [ad_major ad_minor ad_groups map_buffer]. unfold create_group. cbn [gd_nodes map_buffer].
    unfold create_node. cbn [nd_tracks map_buffer]. rewrite C1. cbn [bind]. rewrite C2. cbn [bind].
    cbn [ad_final]. set (gs := [_]).
    change (f32_of 2139095040) with (S754_infinity false).
    assert (E : max_frame_count gs = n).
    { unfold max_frame_count, gs, all_tracks. cbn [flat_map gr_nodes nd_tks app map tk_frames reduce fold_left or_default]. lia. }
    rewrite E. replace (SFleb (S754_zero false) (S754_infinity false)) with true by reflexivity.
    rewrite Hf. reflexivity.
  - reflexivity.
  - cbn [tk_offset tk_size]. clear - Hn. lia.
Qed.

Theorem offsets_overlap :
  exists d a t u, anim_ok d = true /\ create_anim d = Ok a /\ all_tracks (an_groups a) = [t; u] /\
    ~ (tk_offset t + tk_size t <= tk_offset u \/ tk_offset u + tk_size u <= tk_offset t).
Proof. apply (overlap (2 ^ 31)); [lia|]. vm_compute. reflexivity. Qed.

(** ** Statements for whole animations *)
Theorem uncompressed_track v compression cs : values_ok v = true -> compression <> Compressed ->
  exists b, tv_write v compression cs = Ok b /\ bytes_ok b = true /\ zlen b = tv_len v * value_size v /\
    read_track_values b (track_type v) compression (tv_len v) = Ok (v, stored_compensation v cs).
Proof.
  intros W C. destruct (uncompressed_values v compression cs W C) as (b & H). exists b. now rewrite <- data_size_value.
Qed.

Theorem anim_errors d : anim_ok d = true -> anim_size d < 2 ^ 32 ->
  (ad_major d <> 2 \/ (ad_minor d <> 0 /\ ad_minor d <> 1) -> anim_data_write d = Err (EData DVersion)) /\
  (ad_major d = 2 -> ad_minor d = 0 \/ ad_minor d = 1 ->
     (final_ok d = true -> exists out, anim_data_write d = Ok out) /\
     (final_ok d = false -> anim_data_write d = Err (EData DFinalFrame))).
Proof.
  intros W L. split; intros H.
  - unfold anim_data_write. now rewrite anim_version.
  - intros M. now apply anim_write_total.
Qed.

Theorem track_ranges d a : anim_ok d = true -> anim_size d < 2 ^ 32 -> create_anim d = Ok a ->
  let ts := all_tracks (an_groups a) in
  zlen (an_buffer a) = anim_size d /\
  map tk_size ts = map (fun t => track_size (td_values t)) (tracks_of d) /\
  tiles 0 (zlen (an_buffer a)) ts /\
  Forall (fun t => 0 <= tk_offset t /\ 0 <= tk_size t /\ tk_offset t + tk_size t <= zlen (an_buffer a)) ts /\
  ForallOrdPairs (fun t u => tk_offset t + tk_size t <= tk_offset u) ts /\
  (forall i, 0 <= i < zlen (an_buffer a) -> Exists (fun t => tk_offset t <= i < tk_offset t + tk_size t) ts).
Proof.
  intros W L E ts.
  assert (V : ad_major d = 2 /\ (ad_minor d = 0 \/ ad_minor d = 1)).
  { unfold create_anim in E. destruct ((ad_major d =? 2) && _) eqn:C; [|discriminate E]. clear - C. lia. }
  destruct V as [V1 V2]. pose proof (convert_anim d W V1 V2 L) as C.
  destruct (final_ok d); [|congruence]. destruct C as (a' & Ea & _ & _ & Lb & T & F & _).
  assert (a' = a) by congruence. subst a'. rewrite Lb. split; [auto|]. split; [|split; [exact T|]].
  2:{ split; [now apply tiles_inside|]. split; [eapply tiles_ordered|eapply tiles_cover]; eauto. }
  apply (f_equal (map snd)) in F. rewrite !map_map in F. exact F.
Qed.
