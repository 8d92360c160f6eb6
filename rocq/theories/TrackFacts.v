(** Compressed and uncompressed tracks. *)
From Coq Require Import Lia ZifyBool ZifyNat ZifyN.
From Verif Require Import Bytes BytesFacts Ssbh Described SsbhFacts Roundtrip SsbhSpec Formats File FileFacts.
From Verif Require Import Bits BitsFacts Float32 AnimComp AnimBuf AnimSpec PlainFacts.
Ltac Zify.zify_post_hook ::= ZifyBool.elim_bool_cstr; Z.to_euclidean_division_equations.

(** ** A pointer to data without pointers *)
Lemma abs_plain w t v s : plain t = true -> wt t v = true -> 0 <= wpos s -> 0 < w ->
  0 < ssbh_align t -> inline_size t mod ssbh_align t = 0 ->
  let q := round_up (Z.max (wdp s) (wpos s + w)) (ssbh_align t) in
  q < 256 ^ w ->
  exists s', write (TAbs w t) (VPtr (Some v)) s = Ok s' /\
    wbuf s' = put (put (wbuf s) (wpos s) (le_bytes (Z.to_nat w) q)) q (enc t v) /\
    wpos s' = wpos s + w /\ wdp s' = q + inline_size t.
Proof.
  intros P W Hp Hw Ha Hs q Hq. cbn [write option_map]. unfold write_absptr.
  destruct (bump_bound w s) as (d & -> & Hd). destruct (bump_bound w (mkW (wbuf s) (wpos s) d)) as (d2 & -> & Hd2).
  cbn [wbuf wpos wdp set_dp] in *. replace d2 with (Z.max (wdp s) (wpos s + w)) by lia. fold q.
  replace (q <? 256 ^ w) with true by lia.
  unfold emit. cbn [wbuf wpos wdp seek].
  assert (Hq0 : 0 <= q) by (unfold q; pose proof (round_up_ge (Z.max (wdp s) (wpos s + w)) (ssbh_align t) Ha); lia).
  destruct (plain_write t P v (mkW (put (wbuf s) (wpos s) (le_bytes (Z.to_nat w) q)) q q) W Hq0)
    as (s3 & E & B & P3 & D3). unfold seek, set_dp. cbn [wbuf wpos wdp] in *. rewrite E. cbn [bind].
  eexists. split; [reflexivity|]. rewrite (enc_len t P v W) in *. rewrite zlen_le_bytes. rewrite P3.
  assert (M : (q + inline_size t) mod ssbh_align t = 0).
  { rewrite Z.add_mod, Hs by lia. unfold q. rewrite round_up_mod by lia. reflexivity. }
  pose proof (plain_size_nonneg t P). destruct (Z.ltb_spec (wdp s3) (q + inline_size t)); cbn [set_dp wbuf wpos wdp];
    rewrite ?round_up_id by auto; (split; [auto|]); split; lia.
Qed.

Lemma put_mid a x c y : length x = length y -> put (a ++ x ++ c) (zlen a) y = a ++ y ++ c.
Proof.
  intros L. destruct y as [|y0 y]; [destruct x; [reflexivity|discriminate L]|].
  cbn [put]. set (Y := y0 :: y) in *. unfold zlen. rewrite Nat2Z.id.
  rewrite firstn_app, firstn_all, Nat.sub_diag. cbn [firstn]. rewrite app_nil_r.
  replace (length a - length (a ++ x ++ c))%nat with 0%nat by (rewrite app_length; lia). cbn [repeat app].
  do 2 f_equal. rewrite app_assoc, skipn_app, skipn_all2 by (rewrite app_length; lia).
  cbn [app]. rewrite app_length. replace (_ - _)%nat with 0%nat by lia. reflexivity.
Qed.

Lemma put_gap a p y : zlen a <= p -> y <> [] -> put a p y = a ++ zeros (p - zlen a) ++ y.
Proof.
  intros L H. destruct y as [|y0 y]; [congruence|]. cbn [put]. unfold zeros, zlen in *.
  rewrite firstn_all2 by lia. rewrite skipn_all2 by lia. rewrite app_nil_r.
  do 2 f_equal. f_equal. lia.
Qed.

Lemma zeros_app n m : 0 <= n -> 0 <= m -> zeros (n + m) = zeros n ++ zeros m.
Proof. intros. unfold zeros. rewrite Z2Nat.inj_add by lia. apply repeat_app. Qed.

Lemma zeros_len n : 0 <= n -> zlen (zeros n) = n.
Proof. intros. unfold zeros, zlen. rewrite repeat_length. lia. Qed.

(** ** The bytes of a compressed track *)
Record plain_codec {T C} (cd : codec T C) : Prop := {
  pc_ty : plain (cd_ty cd) = true;
  pc_cty : plain (cd_cty cd) = true;
  pc_align : 0 < ssbh_align (cd_ty cd);
  pc_size : inline_size (cd_ty cd) mod ssbh_align (cd_ty cd) = 0;
  pc_pos : (16 + inline_size (cd_cty cd)) mod ssbh_align (cd_ty cd) = 0;
  pc_csize : 0 < inline_size (cd_ty cd) <= 256;
  pc_dsize : 0 < inline_size (cd_cty cd) <= 256
}.

Lemma buffer_plain n : 0 <= n -> plain (CompressedBuffer n) = true.
Proof. intros H. unfold CompressedBuffer, aligned. cbn. lia. Qed.

Lemma buffer_size n : inline_size (CompressedBuffer n) = n.
Proof. unfold CompressedBuffer, aligned. cbn. lia. Qed.

Lemma buffer_enc n data : bytes_ok data = true -> enc (CompressedBuffer n) (VStruct [VArr (map VInt data)]) = data.
Proof.
  intros H. unfold CompressedBuffer, aligned. cbn [map enc]. rewrite app_nil_r.
  induction data as [|x data IH]; [reflexivity|]. cbn [bytes_ok forallb] in H. unfold bytes_ok in IH.
  apply andb_true_iff in H as [H1 H2]. cbn [map flat_map]. rewrite IH by auto.
  unfold is_byte in H1. change (enc u8 (VInt x)) with [x mod 256].
  rewrite Z.mod_small by lia. reflexivity.
Qed.

Lemma buffer_wt data : bytes_ok data = true ->
  wt (CompressedBuffer (zlen data)) (VStruct [VArr (map VInt data)]) = true.
Proof.
  intros H. unfold CompressedBuffer, aligned. cbn [map wt]. rewrite andb_true_r.
  apply andb_true_iff. split; [unfold zlen; rewrite map_length; lia|].
  unfold bytes_ok in H. rewrite forallb_forall in *. intros v Hv. apply in_map_iff in Hv as (x & <- & Hx).
  specialize (H x Hx). unfold is_byte in H. unfold u8. cbn [wt]. change (256 ^ 1) with 256. exact H.
Qed.

Lemma write_fields_cons t v fs vs s : write_fields ((t, (0, 0)) :: fs) (v :: vs) s =
  let* s1 := write t v s in write_fields fs vs s1.
Proof. cbn [write_fields]. destruct (write t v s); cbn [bind]; auto. now rewrite emit_zeros0. Qed.

Lemma write_fields_nil s : write_fields [] [] s = Ok s.
Proof. reflexivity. Qed.

Lemma write_int w n s : write (TInt w) (VInt n) s = Ok (emit (le_bytes (Z.to_nat w) n) s).
Proof. reflexivity. Qed.

Lemma write_bits w n s : write (TBits w) (VInt n) s = Ok (emit (le_bytes (Z.to_nat w) n) (bump w s)).
Proof. reflexivity. Qed.

Lemma bump_none n s : wpos s + n <= wdp s -> bump n s = s.
Proof. intros. unfold bump. replace (_ <? _) with false by lia. reflexivity. Qed.

Lemma align_after0 s : align_after 0 s = s.
Proof. reflexivity. Qed.

Theorem write_compressed_bytes {T C} (cd : codec T C) values flags cs d c data :
  plain_codec cd -> cd_default cd values cs = (d, c) ->
  create_compressed_buffer cd values c flags = Ok data -> bytes_ok data = true ->
  wt (cd_ty cd) (cd_val cd d) = true -> wt (cd_cty cd) (cd_cval cd c) = true ->
  write_compressed cd values flags cs =
    Ok (compressed_track flags (cd_bits cd c flags mod 2 ^ 16) (zlen values mod 2 ^ 32)
          (enc (cd_cty cd) (cd_cval cd c)) (enc (cd_ty cd) (cd_val cd d)) data).
Proof.
  intros [Pt Pc Pa Ps Pp Pd Pcs] Ed Eb Hb Wd Wc. unfold write_compressed. rewrite Ed, Eb. cbn [bind].
  set (bits := cd_bits cd c flags mod 2 ^ 16). set (count := zlen values mod 2 ^ 32). clearbody bits count.
  set (buf := VStruct [VArr (map VInt data)]).
  assert (Wb : wt (CompressedBuffer (zlen data)) buf = true) by now apply buffer_wt.
  pose proof (zlen_nonneg data) as Hn.
  assert (Pb : plain (CompressedBuffer (zlen data)) = true) by now apply buffer_plain.
  pose proof (enc_len _ Pt _ Wd) as Ld. pose proof (enc_len _ Pc _ Wc) as Lc.
  set (ed := enc (cd_ty cd) (cd_val cd d)) in *. set (ec := enc (cd_cty cd) (cd_cval cd c)) in *.
  set (D := 16 + inline_size (cd_cty cd)) in *. set (B := D + inline_size (cd_ty cd)).
  unfold CompressedTrackData, record at 1. rewrite write_struct. cbn [map].
  set (hty := record [u16; TBits 2; TAbs 2 (cd_ty cd); u16; TAbs 4 (CompressedBuffer (zlen data)); u32]) in *.
  set (hv := VStruct [VInt 4; VInt flags; VPtr (Some (cd_val cd d)); VInt bits; VPtr (Some buf); VInt count]) in *.
  assert (Sz : size_fields [(hty, (0, 0)); (cd_cty cd, (0, 0))] [hv; cd_cval cd c] + 0 = D).
  { cbn [size_fields]. rewrite (size_plain _ Pc _ Wc). change (size hty hv) with 16. unfold D. lia. }
  rewrite Sz. rewrite write_fields_cons.
  replace (bump D fresh) with (mkW [] 0 D) by (unfold bump, fresh; cbn [wbuf wpos wdp]; replace (0 <? 0 + D) with true by (unfold D; lia); f_equal; lia).
  (* the header *)
  unfold hty at 1, hv at 1. unfold record. rewrite write_struct. cbn [map].
  match goal with |- context [bump ?n (mkW [] 0 D)] => replace n with 16 by reflexivity end.
  rewrite bump_none by (cbn [emit wpos wdp]; rewrite ?zlen_le_bytes; unfold D; lia).
  rewrite write_fields_cons. unfold u16 at 1. rewrite write_int. cbn [bind].
  rewrite write_fields_cons, write_bits. cbn [bind].
  rewrite (bump_none 2) by (cbn [emit wpos wdp]; rewrite ?zlen_le_bytes; unfold D; lia).
  change (Z.to_nat 2) with 2%nat.
  replace (emit (le_bytes 2 flags) (emit (le_bytes 2 4) (mkW [] 0 D)))
    with (mkW (le_bytes 2 4 ++ le_bytes 2 flags) 4 D) by reflexivity.
  rewrite write_fields_cons.
  destruct (abs_plain 2 (cd_ty cd) (cd_val cd d) (mkW (le_bytes 2 4 ++ le_bytes 2 flags) 4 D) Pt Wd)
    as (s1 & E1 & B1 & P1 & D1); cbn [wbuf wpos wdp]; try lia; try assumption.
  { replace (Z.max D (4 + 2)) with D by (unfold D; lia). rewrite round_up_id by assumption.
    change (256 ^ 2) with 65536. unfold D; lia. }
  cbn [wbuf wpos wdp] in *. replace (Z.max D (4 + 2)) with D in * by (unfold D; lia).
  rewrite (round_up_id D) in * by assumption.
  rewrite E1. cbn [bind]. rewrite write_fields_cons. unfold u16 at 1. rewrite write_int. cbn [bind].
  fold B in D1. rewrite write_fields_cons.
  destruct (abs_plain 4 (CompressedBuffer (zlen data)) buf (emit (le_bytes (Z.to_nat 2) bits) s1) Pb Wb)
    as (s2 & E2 & B2 & P2 & D2); cbn [emit wbuf wpos wdp]; try rewrite zlen_le_bytes; try lia.
  { cbn. lia. }
  { cbn. apply Z.mod_1_r. }
  { rewrite P1, D1. cbn [Z.to_nat Pos.to_nat Pos.iter_op]. replace (Z.max _ _) with B by (unfold B, D; lia).
    change (ssbh_align (CompressedBuffer (zlen data))) with 1. rewrite round_up_id by (try lia; apply Z.mod_1_r).
    change (256 ^ 4) with 4294967296. unfold B, D. lia. }
  rewrite E2. cbn [bind]. rewrite write_fields_cons. unfold u32 at 1. rewrite write_int. cbn [bind].
  rewrite write_fields_nil. cbn [bind]. rewrite emit_zeros0, align_after0. cbn [bind].
  rewrite write_fields_cons.
  cbn [emit wbuf wpos wdp] in P2, D2, B2. rewrite zlen_le_bytes in *. cbn [Z.to_nat Pos.to_nat Pos.iter_op Z.of_nat] in P2, D2, B2.
  rewrite P1 in P2. rewrite P1, D1 in B2, D2.
  change (ssbh_align (CompressedBuffer (zlen data))) with 1 in B2, D2.
  rewrite round_up_id in B2, D2 by (try lia; apply Z.mod_1_r).
  destruct (plain_write _ Pc (cd_cval cd c) (emit (le_bytes (Z.to_nat 4) count) s2) Wc)
    as (s3 & E3 & B3 & P3 & D3); [cbn [emit wpos]; rewrite zlen_le_bytes; lia|].
  rewrite E3. cbn [bind]. rewrite write_fields_nil. cbn [bind]. rewrite emit_zeros0, align_after0. cbn [bind]. f_equal.
  rewrite B3. cbn [emit wbuf wpos]. rewrite zlen_le_bytes, P2. fold ec.
  rewrite B2, B1. fold ed. unfold buf. rewrite buffer_enc by assumption.
  cbn [wbuf wpos].
  change (Z.of_nat (Pos.to_nat 2)) with 2. change (Pos.to_nat 4) with 4%nat. change (Pos.to_nat 2) with 2%nat.
  replace (Z.max B (4 + 2 + 2 + 4)) with B by (unfold B, D; lia).
  change (Z.to_nat 4) with 4%nat. change (Z.to_nat 2) with 2%nat.
  assert (Hed : ed <> []) by (intros X; rewrite X in Ld; cbn in Ld; lia).
  set (h1 := (le_bytes 2 4 ++ le_bytes 2 flags) ++ le_bytes 2 D).
  replace (put (le_bytes 2 4 ++ le_bytes 2 flags) 4 (le_bytes 2 D)) with h1
    by (symmetry; exact (zlen_put_end (le_bytes 2 4 ++ le_bytes 2 flags) (le_bytes 2 D))).
  assert (L1 : zlen h1 = 6) by reflexivity.
  rewrite (put_gap h1) by (auto; rewrite L1; unfold D; lia). rewrite L1.
  replace (D - 6) with (2 + (4 + (4 + inline_size (cd_cty cd)))) by (unfold D; lia).
  rewrite !zeros_app by lia. rewrite <- !app_assoc.
  replace (4 + 2) with (zlen h1) by (rewrite L1; reflexivity).
  rewrite put_mid by (rewrite le_bytes_length; reflexivity).
  replace (zlen h1 + 2) with (zlen (h1 ++ le_bytes 2 bits)) by reflexivity.
  rewrite (app_assoc h1), put_mid by (rewrite le_bytes_length; reflexivity).
  set (h2 := (h1 ++ le_bytes 2 bits) ++ le_bytes 4 B).
  assert (L2 : zlen h2 = 12) by reflexivity.
  rewrite (app_assoc (h1 ++ le_bytes 2 bits)). fold h2.
  replace B with (zlen (h2 ++ zeros 4 ++ zeros (inline_size (cd_cty cd)) ++ ed)) at 1
    by (rewrite !zlen_app, L2, Ld, !zeros_len by lia; unfold B, D; lia).
  rewrite zlen_put_end. rewrite <- !app_assoc.
  replace (zlen (h1 ++ le_bytes 2 bits) + 4) with (zlen h2) by reflexivity.
  rewrite put_mid by (rewrite le_bytes_length; reflexivity).
  replace (zlen h2 + Z.of_nat 4) with (zlen (h2 ++ le_bytes 4 count)) by reflexivity.
  rewrite (app_assoc h2), put_mid.
  2:{ unfold zeros, zlen in *. rewrite repeat_length. lia. }
  unfold compressed_track, h2, h1. rewrite Lc, Ld, <- !app_assoc. reflexivity.
Qed.

(** ** Reading the bytes of a compressed track *)
Lemma read_abs w t b p : read (TAbs w t) b p =
  let* (offset, saved_pos) := read_int w b p in
  if offset =? 0 then Ok (VPtr None, saved_pos)
  else let* (v, _) := read t b offset in Ok (VPtr (Some v), saved_pos).
Proof. reflexivity. Qed.

Lemma read_tint w b p : read (TInt w) b p = let* (n, p') := read_int w b p in Ok (VInt n, p').
Proof. reflexivity. Qed.

Lemma skipn_app_exact {A} (a b : list A) n : n = zlen a -> skipn (Z.to_nat n) (a ++ b) = b.
Proof. intros ->. unfold zlen. rewrite Nat2Z.id, skipn_app, skipn_all, Nat.sub_diag. reflexivity. Qed.

Theorem read_compressed_bytes {T C} (cd : codec T C) flags bits count d c data n :
  plain_codec cd -> wt (cd_ty cd) (cd_val cd d) = true -> wt (cd_cty cd) (cd_cval cd c) = true ->
  cd_un cd (cd_val cd d) = Ok d -> cd_cun cd (cd_cval cd c) = Ok c ->
  0 <= flags < 2 ^ 16 -> 0 <= bits < 2 ^ 16 -> 0 <= count < 2 ^ 32 ->
  read_compressed cd (compressed_track flags bits count (enc (cd_cty cd) (cd_cval cd c))
                        (enc (cd_ty cd) (cd_val cd d)) data) n =
  if negb (bits =? cd_bits cd c flags) then Err (EData DBitCount)
  else decompress_all cd c (Some d) flags bits
         (Z.to_nat (if (cd_bits cd c flags =? 0) && (0 <? n) then 1 else n)) (br_from_slice data).
Proof.
  intros [Pt Pc Pa Ps Pp Pd Pcs] Wd Wc Ud Uc Hf Hbits Hc.
  pose proof (enc_len _ Pt _ Wd) as Ld. pose proof (enc_len _ Pc _ Wc) as Lc.
  set (ed := enc (cd_ty cd) (cd_val cd d)) in *. set (ec := enc (cd_cty cd) (cd_cval cd c)) in *.
  unfold compressed_track. rewrite Lc, Ld.
  set (D := 16 + inline_size (cd_cty cd)). set (B := D + inline_size (cd_ty cd)).
  assert (HD : 0 < D < 65536) by (unfold D; lia). assert (HB : 0 < B < 4294967296) by (unfold B; lia).
  change (2 ^ 16) with 65536 in *. change (2 ^ 32) with 4294967296 in *.
  set (h1 := le_bytes 2 4). set (h2 := le_bytes 2 flags). set (h3 := le_bytes 2 D). set (h4 := le_bytes 2 bits).
  set (h5 := le_bytes 4 B). set (h6 := le_bytes 4 count).
  set (b := h1 ++ h2 ++ h3 ++ h4 ++ h5 ++ h6 ++ ec ++ ed ++ data).
  unfold read_compressed.
  assert (R1 : read_int 2 b 0 = Ok (4, 2)).
  { exact (read_int_mid 2 [] 4 (h2 ++ h3 ++ h4 ++ h5 ++ h6 ++ ec ++ ed ++ data) ltac:(lia) ltac:(lia)). }
  assert (R2 : read_int 2 b 2 = Ok (flags, 4)).
  { exact (read_int_mid 2 h1 flags (h3 ++ h4 ++ h5 ++ h6 ++ ec ++ ed ++ data) ltac:(lia) ltac:(lia)). }
  assert (R3 : read_int 2 b 4 = Ok (D, 6)).
  { replace b with ((h1 ++ h2) ++ h3 ++ h4 ++ h5 ++ h6 ++ ec ++ ed ++ data)
      by (unfold b; now rewrite <- !app_assoc).
    exact (read_int_mid 2 (h1 ++ h2) D (h4 ++ h5 ++ h6 ++ ec ++ ed ++ data) ltac:(lia) ltac:(lia)). }
  assert (R4 : read_int 2 b 6 = Ok (bits, 8)).
  { replace b with ((h1 ++ h2 ++ h3) ++ h4 ++ h5 ++ h6 ++ ec ++ ed ++ data)
      by (unfold b; now rewrite <- !app_assoc).
    exact (read_int_mid 2 (h1 ++ h2 ++ h3) bits (h5 ++ h6 ++ ec ++ ed ++ data) ltac:(lia) ltac:(lia)). }
  assert (R5 : read_int 4 b 8 = Ok (B, 12)).
  { replace b with ((h1 ++ h2 ++ h3 ++ h4) ++ h5 ++ h6 ++ ec ++ ed ++ data)
      by (unfold b; now rewrite <- !app_assoc).
    exact (read_int_mid 4 (h1 ++ h2 ++ h3 ++ h4) B (h6 ++ ec ++ ed ++ data) ltac:(lia) ltac:(lia)). }
  assert (R6 : read_int 4 b 12 = Ok (count, 16)).
  { replace b with ((h1 ++ h2 ++ h3 ++ h4 ++ h5) ++ h6 ++ ec ++ ed ++ data)
      by (unfold b; now rewrite <- !app_assoc).
    exact (read_int_mid 4 (h1 ++ h2 ++ h3 ++ h4 ++ h5) count (ec ++ ed ++ data) ltac:(lia) ltac:(lia)). }
  assert (Lh : zlen (h1 ++ h2 ++ h3 ++ h4 ++ h5 ++ h6) = 16) by reflexivity.
  assert (R7 : read (cd_cty cd) b 16 = Ok (cd_cval cd c, D)).
  { replace b with ((h1 ++ h2 ++ h3 ++ h4 ++ h5 ++ h6) ++ ec ++ ed ++ data)
      by (unfold b; now rewrite <- !app_assoc).
    rewrite <- Lh. unfold ec. rewrite (plain_read _ Pc) by assumption. rewrite Lh. reflexivity. }
  assert (R8 : read (cd_ty cd) b D = Ok (cd_val cd d, B)).
  { replace b with (((h1 ++ h2 ++ h3 ++ h4 ++ h5 ++ h6) ++ ec) ++ ed ++ data)
      by (unfold b; now rewrite <- !app_assoc).
    replace D with (zlen ((h1 ++ h2 ++ h3 ++ h4 ++ h5 ++ h6) ++ ec)) at 1
      by (rewrite zlen_app, Lh, Lc; reflexivity).
    unfold ed. rewrite (plain_read _ Pt) by assumption. do 2 f_equal.
    rewrite zlen_app, Lh, Lc. reflexivity. }
  assert (R9 : skipn (Z.to_nat B) b = data).
  { replace b with (((h1 ++ h2 ++ h3 ++ h4 ++ h5 ++ h6) ++ ec ++ ed) ++ data)
      by (unfold b; now rewrite <- !app_assoc).
    apply skipn_app_exact. rewrite !zlen_app, Lc, Ld. rewrite !zlen_app in Lh. unfold B, D. lia. }
  unfold u16 at 1. rewrite read_tint, R1. cbn [bind]. rewrite R2. cbn [bind]. rewrite read_abs, R3. cbn [bind].
  replace (D =? 0) with false by lia. rewrite R8. cbn [bind]. rewrite Ud. cbn [bind]. rewrite R4. cbn [bind].
  unfold read_buffer_ptr. rewrite R5. cbn [bind]. replace (B =? 0) with false by lia. cbn [bind].
  rewrite R6. cbn [bind]. rewrite R7. cbn [bind]. rewrite Uc. cbn [bind]. rewrite R9. reflexivity.
Qed.

(** ** Frames: [e v] are the bits of the frame [v], [q v] is what they are read as *)
Record frames_ok {T C} (cd : codec T C) (flags : Z) (c : C) (d : T) (ok : T -> Prop)
    (e : T -> list bool) (q : T -> T) : Prop := {
  fr_len : forall v, zlen (e v) = cd_bits cd c flags;
  fr_write : forall v done total w, ok v -> writing done total w -> zlen done + zlen (e v) <= total ->
    exists w', cd_compress cd v c flags w = Ok w' /\ writing (done ++ e v) total w';
  fr_read : forall v rest r, ok v -> reading (e v ++ rest) r ->
    exists r', cd_decompress cd c d flags (cd_bits cd c flags) r = Ok (q v, r') /\ reading rest r'
}.

Lemma flat_len {T} (e : T -> list bool) n l : (forall v, zlen (e v) = n) -> zlen (flat_map e l) = zlen l * n.
Proof.
  intros H. induction l as [|v l IH]; [reflexivity|]. cbn [flat_map]. rewrite zlen_app, zlen_cons, H, IH. lia.
Qed.

Lemma compress_all_ok {T C} (cd : codec T C) flags c d ok e q : frames_ok cd flags c d ok e q ->
  forall l done total w, Forall ok l -> writing done total w -> zlen done + zlen (flat_map e l) <= total ->
  exists w', compress_all cd c flags l w = Ok w' /\ writing (done ++ flat_map e l) total w'.
Proof.
  intros [FL FW _] l. induction l as [|v l IH]; intros done total w A H Ht; cbn [compress_all flat_map] in *.
  - exists w. rewrite app_nil_r. auto.
  - rewrite zlen_app in Ht. pose proof (zlen_nonneg (flat_map e l)). inversion A as [|? ? A1 A2]; subst.
    destruct (FW v done total w A1 H) as (w1 & -> & H1); [lia|]. cbn [bind].
    destruct (IH (done ++ e v) total w1 A2 H1) as (w2 & -> & H2); [rewrite zlen_app; lia|].
    exists w2. rewrite app_assoc. auto.
Qed.

Lemma create_buffer_ok {T C} (cd : codec T C) flags c d ok e q l : frames_ok cd flags c d ok e q -> Forall ok l ->
  0 <= cd_bits cd c flags ->
  create_compressed_buffer cd l c flags = Ok (bytes_of_bits (flat_map e l)).
Proof.
  intros F A Hb. unfold create_compressed_buffer.
  pose proof (flat_len e (cd_bits cd c flags) l (fr_len _ _ _ _ _ _ _ F)) as L.
  pose proof (zlen_nonneg l). rewrite <- L.
  destruct (compress_all_ok cd flags c d ok e q F l [] _ _ A (writing_new (zlen (flat_map e l)) (zlen_nonneg _)))
    as (w & -> & W); [cbn; lia|].
  cbn [bind app] in *. now rewrite (writing_done _ _ W).
Qed.

Lemma decompress_all_ok {T C} (cd : codec T C) flags c d ok e q : frames_ok cd flags c d ok e q ->
  forall l rest r, Forall ok l -> reading (flat_map e l ++ rest) r ->
  decompress_all cd c (Some d) flags (cd_bits cd c flags) (length l) r = Ok (map q l).
Proof.
  intros [_ _ FR] l. induction l as [|v l IH]; intros rest r A H; cbn [decompress_all length map flat_map] in *; auto.
  inversion A as [|? ? A1 A2]; subst.
  rewrite <- app_assoc in H. destruct (FR v _ r A1 H) as (r1 & -> & H1). cbn [bind].
  rewrite (IH rest r1 A2 H1). reflexivity.
Qed.

(** When a frame takes no bits only one frame is read. *)
Definition kept {T} (bits : Z) (l : list T) : list T := if bits =? 0 then firstn 1 l else l.

Theorem compressed_roundtrip {T C} (cd : codec T C) values flags cs d c ok e q :
  plain_codec cd -> cd_default cd values cs = (d, c) -> frames_ok cd flags c d ok e q -> Forall ok values ->
  wt (cd_ty cd) (cd_val cd d) = true -> wt (cd_cty cd) (cd_cval cd c) = true ->
  cd_un cd (cd_val cd d) = Ok d -> cd_cun cd (cd_cval cd c) = Ok c ->
  0 <= flags < 2 ^ 16 -> 0 <= cd_bits cd c flags < 2 ^ 16 ->
  let b := compressed_track flags (cd_bits cd c flags) (zlen values mod 2 ^ 32)
             (enc (cd_cty cd) (cd_cval cd c)) (enc (cd_ty cd) (cd_val cd d)) (bytes_of_bits (flat_map e values)) in
  write_compressed cd values flags cs = Ok b /\
  read_compressed cd b (zlen values) = Ok (map q (kept (cd_bits cd c flags) values)).
Proof.
  intros PC Ed F A Wd Wc Ud Uc Hf Hb b.
  destruct (bytes_of_bits_spec (flat_map e values)) as (k & _ & _ & _ & BO).
  split.
  - rewrite (write_compressed_bytes cd values flags cs d c (bytes_of_bits (flat_map e values))); auto.
    + rewrite (Z.mod_small (cd_bits cd c flags)) by lia. reflexivity.
    + eapply create_buffer_ok; [exact F|exact A|lia].
  - unfold b. rewrite read_compressed_bytes; auto.
    2:{ apply Z.mod_pos_bound. lia. }
    rewrite Z.eqb_refl. cbn [negb]. unfold kept.
    destruct (reading_start (flat_map e values)) as (k' & Hr).
    destruct (Z.eqb_spec (cd_bits cd c flags) 0) as [Z0|NZ].
    + destruct values as [|v values]; [reflexivity|].
      replace (0 <? zlen (v :: values)) with true by (rewrite zlen_cons; pose proof (zlen_nonneg values); lia).
      cbn [andb firstn]. change (Z.to_nat 1) with (length [v]).
      apply (decompress_all_ok cd flags c d ok e q F [v] (flat_map e values ++ repeat false k')); [inversion A; auto|].
      cbn [flat_map] in *. rewrite app_nil_r, app_assoc. exact Hr.
    + cbn [andb]. unfold zlen. rewrite Nat2Z.id.
      eapply decompress_all_ok; eauto.
Qed.
