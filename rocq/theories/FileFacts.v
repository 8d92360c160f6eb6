(** Facts about whole SSBH files. *)
From Coq Require Import Lia ZifyBool ZifyNat ZifyN.
From Verif Require Import Bytes BytesFacts Ssbh Described SsbhFacts Roundtrip RoundtripMain WriteFacts
  SsbhSpec DecFacts Formats File.
Ltac Zify.zify_post_hook ::= ZifyBool.elim_bool_cstr; Z.to_euclidean_division_equations.

(** ** Checks on the format descriptors *)
Definition root_ok (t : ty) : bool :=
  match t with
  | TStruct fs spad aa al =>
      twf MTail (TStruct fs spad 0 al) && noabs t && al16 t && inl false t && (0 <=? aa)
  | _ => false
  end.

Lemma root_inv fs spad aa al : root_ok (TStruct fs spad aa al) = true ->
  twf MTail (TStruct fs spad 0 al) = true /\ noabs (TStruct fs spad aa al) = true /\
  al16 (TStruct fs spad aa al) = true /\ inl false (TStruct fs spad aa al) = true /\ 0 <= aa.
Proof. unfold root_ok. rewrite !andb_true_iff, Z.leb_le. tauto. Qed.

Definition ver_ok (v : Z * Z) : bool :=
  (0 <=? fst v) && (fst v <? 65536) && (0 <=? snd v) && (snd v <? 65536).

Lemma lookup_in v l t : lookup_ver v l = Some t -> In (v, t) l.
Proof.
  induction l as [|[v' t'] r IH]; cbn; [discriminate|].
  destruct (ver_eqb v v') eqn:E; [|auto]. intros [= <-]. left. f_equal.
  unfold ver_eqb in E. destruct v, v'; cbn in *. f_equal; lia.
Qed.

Lemma versions_ok k : forallb (fun x => root_ok (snd x) && ver_ok (fst x)) (versions k) = true.
Proof. destruct k; vm_compute; reflexivity. Qed.

Lemma format_ok k v t : format k v = Some t -> root_ok t = true /\ ver_ok v = true.
Proof.
  intros H. apply lookup_in in H. pose proof (versions_ok k) as E. rewrite forallb_forall in E.
  apply E in H. cbn in H. now apply andb_true_iff in H.
Qed.

(** ** align_after on the root *)
Lemma write_root fs spad aa al v s :
  write (TStruct fs spad aa al) v s =
  let* s1 := write (TStruct fs spad 0 al) v s in Ok (align_after aa s1).
Proof.
  destruct v; try reflexivity. rewrite !write_struct.
  destruct (write_fields fs vs (bump (size_fields fs vs + spad) s)); reflexivity.
Qed.

Lemma read_root fs spad aa al b p :
  read (TStruct fs spad aa al) b p = read (TStruct fs spad 0 al) b p.
Proof. reflexivity. Qed.

Lemma zlen_put_end (b bs : list Z) : put b (zlen b) bs = b ++ bs.
Proof.
  unfold put. destruct bs as [|x r]; [now rewrite app_nil_r|].
  unfold zlen. rewrite Nat2Z.id, firstn_all, Nat.sub_diag. cbn [repeat app].
  rewrite skipn_all2 by (cbn; lia). now rewrite app_nil_r.
Qed.

Lemma align_after_spec aa s :
  0 <= aa -> exists n, wbuf (align_after aa s) = wbuf s ++ zeros n /\
    (0 < aa -> zlen (wbuf (align_after aa s)) mod aa = 0).
Proof.
  intros Ha. unfold align_after. destruct (Z.ltb_spec 0 aa).
  - exists (round_up (zlen (wbuf s)) aa - zlen (wbuf s)). cbn [emit wbuf wpos seek].
    rewrite zlen_put_end. split; auto. intros _.
    pose proof (round_up_ge (zlen (wbuf s)) aa H).
    rewrite zlen_app, zlen_zeros by lia.
    replace (zlen (wbuf s) + (round_up (zlen (wbuf s)) aa - zlen (wbuf s)))
      with (round_up (zlen (wbuf s)) aa) by lia.
    apply round_up_mod; auto.
  - exists 0. split; [|lia]. cbn. now rewrite app_nil_r.
Qed.

(** ** The document *)
Definition header (magic : list Z) (v : Z * Z) : list Z :=
  hbss ++ le_bytes 8 64 ++ le_bytes 4 0 ++ magic ++ le_bytes 2 (fst v) ++ le_bytes 2 (snd v).

Lemma emit_end bs b d : emit bs (mkW b (zlen b) d) = mkW (b ++ bs) (zlen (b ++ bs)) d.
Proof. unfold emit. cbn [wbuf wpos wdp]. now rewrite zlen_put_end, zlen_app. Qed.

Lemma header_state magic v n :
  zlen magic = 4 ->
  emit (le_bytes 2 (snd v)) (emit (le_bytes 2 (fst v))
    (set_dp (wpos (write_ssbh_header magic fresh) + (n + 4)) (write_ssbh_header magic fresh)))
  = mkW (header magic v) 24 (24 + n).
Proof.
  intros Hm. unfold write_ssbh_header, fresh. change (mkW [] 0 0) with (mkW [] (zlen (@nil Z)) 0).
  rewrite !emit_end. unfold set_dp. cbn [wbuf wpos wdp]. rewrite !emit_end.
  assert (E : (((([] ++ hbss) ++ le_bytes 8 64) ++ le_bytes 4 0) ++ magic) ++ le_bytes 2 (fst v)
              ++ le_bytes 2 (snd v) = header magic v).
  { unfold header. cbn [app]. rewrite <- !app_assoc. reflexivity. }
  rewrite app_assoc in E. rewrite E.
  rewrite !zlen_app, !zlen_le_bytes, Hm. f_equal.
  - unfold header. rewrite !zlen_app, !zlen_le_bytes, Hm. reflexivity.
  - change (zlen (@nil Z)) with 0. change (zlen hbss) with 4. lia.
Qed.

Lemma header_len magic v : zlen magic = 4 -> zlen (header magic v) = 24.
Proof. intros H. unfold header. rewrite !zlen_app, !zlen_le_bytes, H. reflexivity. Qed.

Lemma agree_firstn h b : agree (fun i => i < zlen h) h b -> exists r, b = h ++ r.
Proof.
  intros H. exists (skipn (length h) b).
  rewrite <- (firstn_skipn (length h) b) at 1. f_equal.
  assert (forall k x, nth_error h k = Some x -> nth_error b k = Some x) as HN.
  { intros k x Hx. assert (k < length h)%nat by (apply nth_error_Some; congruence).
    specialize (H (Z.of_nat k) x). unfold zlen in H.
    rewrite !byte_at_nth, !Nat2Z.id in H by lia. apply H; auto. lia. }
  clear H. revert b HN. induction h as [|x h IH]; intros b HN; cbn [length firstn]; auto.
  destruct b as [|y b]; [discriminate (HN O x eq_refl)|].
  cbn [firstn]. f_equal.
  - specialize (HN O x eq_refl). cbn in HN. congruence.
  - apply IH. intros k z Hz. apply (HN (S k) z Hz).
Qed.

Lemma write_document magic v t body :
  zlen magic = 4 -> root_ok t = true -> wt t body = true ->
  exists s1 s', write_ssbh_file magic v t body fresh = Ok s' /\
    write (match t with TStruct fs spad _ al => TStruct fs spad 0 al | _ => t end) body
      (mkW (header magic v) 24 (24 + csize t)) = Ok s1 /\
    s' = align_after (match t with TStruct _ _ aa _ => aa | _ => 0 end) s1.
Proof.
  intros Hm Hr W. destruct t; try discriminate Hr. apply root_inv in Hr as (Hr & HN & HA & HI & Haa).
  assert (W0 : wt (TStruct fs spad 0 al) body = true) by exact W.
  unfold write_ssbh_file. cbv zeta. rewrite header_state by auto.
  assert (size (TStruct fs spad aa al) body = csize (TStruct fs spad aa al)) as ->.
  { change (size (TStruct fs spad 0 al) body = csize (TStruct fs spad 0 al)).
    apply (size_csize MTail); auto; discriminate. }
  assert (N0 : noabs (TStruct fs spad 0 al) = true) by auto.
  rewrite write_root.
  destruct (write_total MTail _ _ (mkW (header magic v) 24 (24 + csize (TStruct fs spad aa al))) Hr N0 W0)
    as (s1 & E1).
  rewrite E1. cbn [bind]. eauto.
Qed.

Lemma file_spec magic v t body :
  zlen magic = 4 -> root_ok t = true -> wt t body = true ->
  exists s', write_ssbh_file magic v t body fresh = Ok s' /\
    (exists rest, wbuf s' = header magic v ++ rest) /\
    (zlen (wbuf s') < 2 ^ 63 -> exists q, read t (wbuf s') 24 = Ok (body, q)) /\
    match t with TStruct _ _ aa _ => 0 < aa -> zlen (wbuf s') mod aa = 0 | _ => True end.
Proof.
  intros Hm Hr W. destruct (write_document magic v t body Hm Hr W) as (s1 & s' & E & E1 & ->).
  eexists. split; [exact E|]. destruct t; try discriminate Hr.
  apply root_inv in Hr as (Hr & HN & HA & HI & Haa).
  assert (W0 : wt (TStruct fs spad 0 al) body = true) by exact W.
  destruct (align_after_spec aa s1) as (n & B & M); [lia|].
  pose proof (csize_nonneg _ _ Hr) as Hc.
  change (csize (TStruct fs spad aa al)) with (csize (TStruct fs spad 0 al)) in E1.
  assert (HH : zlen (header magic v) = 24) by (apply header_len; auto).
  set (c := csize (TStruct fs spad 0 al)) in *.
  assert (Hp : 0 <= wpos (mkW (header magic v) 24 (24 + c))) by (cbn [wpos]; lia).
  assert (Hd : 0 <= wdp (mkW (header magic v) 24 (24 + c))) by (cbn [wdp]; lia).
  destruct (wok_all _ MTail ltac:(discriminate) Hr _ _ _ W0 Hp Hd E1) as [P1 P2 P3 P4].
  pose proof (dp_all _ MTail _ _ _ ltac:(discriminate) Hr HA W0 Hp Hd E1) as (D1 & D2 & D3).
  fold c in P1, P3, P4, D1, D2, D3.
  cbn [wbuf wpos wdp] in *. unfold wreg, reg in *. cbn [wbuf wpos wdp] in *.
  assert (X : extends (wbuf s1) (wbuf (align_after aa s1))) by (rewrite B; apply extends_app).
  repeat split; auto.
  - apply agree_firstn. rewrite HH. intros i x Hi Hx. apply X. apply P3; auto. lia.
  - intros HL. rewrite read_root. destruct (P4 (wbuf (align_after aa s1))) as (q & Hq & _); [| |eauto].
    + assert (zlen (wbuf s1) <= zlen (wbuf (align_after aa s1))).
      { rewrite B, zlen_app. pose proof (zlen_nonneg (zeros n)). lia. }
      specialize (D3 (24 + c) ltac:(lia)).
      assert (le16 (wdp s1) (Z.max (zlen (wbuf s1)) (24 + c))) as D4
        by (apply D3, le16_le; lia).
      unfold le16 in D4.
      assert (24 + c <= zlen (wbuf s1)) by lia.
      rewrite Z.max_l in D4 by lia.
      pose proof (round_up_lt (zlen (wbuf s1)) 16 ltac:(lia)).
      change (2 ^ 63) with 9223372036854775808 in HL. change two64 with 18446744073709551616. lia.
    + intros i x _ Hx. apply X; auto.
Qed.

(** ** Reading the header back *)
Lemma get_bytes_app_l bs r : get_bytes (length bs) (bs ++ r) 0 = Some bs.
Proof.
  apply get_bytes_at. split; auto. intros i x Hx. apply extends_app.
  rewrite byte_at_nth by lia. now replace (Z.to_nat (0 + Z.of_nat i)) with i by lia.
Qed.

Lemma get_bytes_app_r n a r p : 0 <= p -> get_bytes n (a ++ r) (zlen a + p) = get_bytes n r p.
Proof.
  revert p. induction n as [|n IH]; intros p Hp; cbn [get_bytes]; auto.
  replace (byte_at (a ++ r) (zlen a + p)) with (byte_at r p).
  2:{ rewrite !byte_at_nth by (pose proof (zlen_nonneg a); lia). rewrite nth_error_app2 by (unfold zlen; lia).
      f_equal. unfold zlen. lia. }
  replace (zlen a + p + 1) with (zlen a + (p + 1)) by lia. rewrite IH by lia. auto.
Qed.

Lemma get_app a bs r n : n = length bs -> get_bytes n (a ++ bs ++ r) (zlen a) = Some bs.
Proof.
  intros ->. rewrite <- (Z.add_0_r (zlen a)). rewrite get_bytes_app_r by lia. apply get_bytes_app_l.
Qed.

Lemma list_eqb_eq a b : list_eqb a b = true <-> a = b.
Proof.
  revert b; induction a as [|x a IH]; intros [|y b]; cbn; split; intros H; try discriminate; auto.
  - apply andb_true_iff in H as [H1 H2]. apply IH in H2. f_equal; auto; lia.
  - injection H as -> ->. rewrite Z.eqb_refl. cbn. now apply IH.
Qed.

Lemma find_kind_magic k : find_kind (read_magic k) kinds = Some k.
Proof. destruct k; reflexivity. Qed.

Lemma find_kind_inv m ks k : find_kind m ks = Some k -> m = read_magic k.
Proof.
  induction ks as [|k' r IH]; cbn; [discriminate|].
  destruct (list_eqb m (read_magic k')) eqn:E; auto.
  intros [= <-]. now apply list_eqb_eq.
Qed.

Lemma magic_len k : zlen (read_magic k) = 4.
Proof. destruct k; reflexivity. Qed.

Lemma read_document k v t rest : forall body q,
  format k v = Some t ->
  let b := header (read_magic k) v ++ rest in
  read t b 24 = Ok (body, q) ->
  file_read b = Ok (mkFile k v body).
Proof.
  intros body q F b R. unfold file_read, read_file.
  destruct (format_ok _ _ _ F) as [_ HV]. unfold ver_ok in HV.
  assert (G : forall a bs r n, b = a ++ bs ++ r -> n = length bs -> get_bytes n b (zlen a) = Some bs).
  { intros a bs r n -> ->. now apply get_app. }
  set (hb := hbss ++ le_bytes 8 64 ++ le_bytes 4 0).
  assert (B0 : b = [] ++ hbss ++ (le_bytes 8 64 ++ le_bytes 4 0 ++ read_magic k ++ le_bytes 2 (fst v) ++ le_bytes 2 (snd v) ++ rest)).
  { unfold b, header. cbn [app]. rewrite <- !app_assoc. reflexivity. }
  assert (B1 : b = hb ++ read_magic k ++ (le_bytes 2 (fst v) ++ le_bytes 2 (snd v) ++ rest)).
  { rewrite B0. unfold hb. cbn [app]. rewrite <- !app_assoc. reflexivity. }
  assert (B2 : b = (hb ++ read_magic k) ++ le_bytes 2 (fst v) ++ (le_bytes 2 (snd v) ++ rest)).
  { rewrite B1. rewrite <- !app_assoc. reflexivity. }
  assert (B3 : b = (hb ++ read_magic k ++ le_bytes 2 (fst v)) ++ le_bytes 2 (snd v) ++ rest).
  { rewrite B1. rewrite <- !app_assoc. reflexivity. }
  pose proof (magic_len k) as ML.
  pose proof (G [] hbss _ 4%nat B0 eq_refl) as G0. change (zlen (@nil Z)) with 0 in G0.
  pose proof (G _ _ _ 4%nat B1) as G1. change (zlen hb) with 16 in G1.
  pose proof (G _ _ _ 2%nat B2 ltac:(now rewrite le_bytes_length)) as G2.
  rewrite zlen_app, ML in G2. change (zlen hb + 4) with 20 in G2.
  pose proof (G _ _ _ 2%nat B3 ltac:(now rewrite le_bytes_length)) as G3.
  rewrite !zlen_app, ML, zlen_le_bytes in G3. change (zlen hb + (4 + Z.of_nat 2)) with 22 in G3.
  rewrite G0. assert (list_eqb hbss hbss = true) as -> by reflexivity.
  change (round_up (0 + 4) 16) with 16. cbv zeta.
  rewrite G1 by (unfold zlen in ML; lia). rewrite find_kind_magic.
  unfold read_int. change (16 + 4) with 20. change (Z.to_nat 2) with 2%nat. rewrite G2. cbn [bind].
  change (20 + 2) with 22. rewrite G3. cbn [bind].
  rewrite !le_val_le_bytes by (change (256 ^ Z.of_nat 2) with 65536; lia).
  rewrite <- surjective_pairing, F. change (22 + 2) with 24. rewrite R. reflexivity.
Qed.

(** ** Files *)
Theorem file_write_total f : file_ok f -> exists out, file_write f = Ok out.
Proof.
  intros (t & F & W). unfold file_write. rewrite F.
  destruct (format_ok _ _ _ F) as [R _].
  destruct (file_spec (file_write_magic (fkind f)) (fver f) t (fbody f)) as (s' & -> & _); auto.
  { destruct (fkind f); reflexivity. }
  cbn. eauto.
Qed.

Theorem file_roundtrip f out :
  file_ok f -> file_write f = Ok out -> zlen out < 2 ^ 63 -> file_read out = Ok f.
Proof.
  intros (t & F & W) E L. unfold file_write in E. rewrite F in E.
  destruct (format_ok _ _ _ F) as [R _].
  destruct (file_spec (file_write_magic (fkind f)) (fver f) t (fbody f)) as (s' & E' & (rest & B) & HR & _); auto.
  { destruct (fkind f); reflexivity. }
  rewrite E' in E. cbn in E. injection E as <-.
  destruct (HR L) as (q & HQ).
  replace (file_write_magic (fkind f)) with (read_magic (fkind f)) in B by (destruct (fkind f); reflexivity).
  rewrite B in *. erewrite read_document; eauto. destruct f; reflexivity.
Qed.

Theorem typed_write_file k v body : typed_write k v body = file_write (mkFile k v body).
Proof. unfold typed_write, file_write. cbn. destruct k; reflexivity. Qed.

Theorem file_read_ok b f : bytes_ok b = true -> file_read b = Ok f -> file_ok f.
Proof.
  intros Hb H. unfold file_read in H. apply bind_ok in H as ([f' q] & H & E). injection E as ->.
  unfold read_file in H. destruct (get_bytes 4 b 0); [|discriminate].
  destruct (list_eqb l hbss); [|discriminate]. cbv zeta in H.
  destruct (get_bytes 4 b (round_up (0 + 4) 16)); [|discriminate].
  destruct (find_kind l0 kinds); [|discriminate].
  apply bind_ok in H as ([major p2] & E1 & H). apply bind_ok in H as ([minor p3] & E2 & H).
  destruct (format k (major, minor)) as [t|] eqn:F; [|discriminate].
  apply bind_ok in H as ([v q'] & E3 & H). injection H as <- <-.
  exists t. cbn. split; auto. destruct (format_ok _ _ _ F) as [R _].
  destruct t; try discriminate R. apply root_inv in R as (R & HN & HA & HI & Haa).
  destruct (read_Dec _ false _ _ _ _ HI Hb E3) as [D _].
  eapply Dec_wt; eauto.
Qed.

Theorem file_length_aligned f out fs spad aa al :
  file_ok f -> format (fkind f) (fver f) = Some (TStruct fs spad aa al) -> 0 < aa ->
  file_write f = Ok out -> zlen out mod aa = 0.
Proof.
  intros (t & F & W) F' Ha E. unfold file_write in E. rewrite F in E. rewrite F in F'. injection F' as ->.
  destruct (format_ok _ _ _ F) as [R _].
  assert (ML : zlen (file_write_magic (fkind f)) = 4) by (destruct (fkind f); reflexivity).
  destruct (file_spec (file_write_magic (fkind f)) (fver f) (TStruct fs spad aa al) (fbody f) ML R W)
    as (s' & E' & _ & _ & M).
  rewrite E' in E. cbn in E. injection E as <-. auto.
Qed.
