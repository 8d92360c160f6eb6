(** Writing and reading data without pointers. *)
From Coq Require Import Lia ZifyBool ZifyNat ZifyN.
From Verif Require Import Bytes BytesFacts Ssbh Described SsbhFacts Roundtrip SsbhSpec FileFacts AnimSpec.
Ltac Zify.zify_post_hook ::= ZifyBool.elim_bool_cstr; Z.to_euclidean_division_equations.

Fixpoint plain_fields (fs : list field) : bool :=
  match fs with
  | [] => true
  | (t', (wp, rp)) :: r => plain t' && (wp =? 0) && (rp =? 0) && plain_fields r
  end.
Fixpoint enc_fields (fs : list field) (vs : list val) : list Z :=
  match fs, vs with
  | (t', _) :: fr, v' :: vr => enc t' v' ++ enc_fields fr vr
  | _, _ => []
  end.
Fixpoint isize_fields (fs : list field) : Z :=
  match fs with [] => 0 | (t', (_, pad)) :: r => inline_size t' + pad + isize_fields r end.

Lemma plain_struct fs spad aa al :
  plain (TStruct fs spad aa al) = (spad =? 0) && (aa =? 0) && plain_fields fs.
Proof. reflexivity. Qed.
Lemma enc_struct fs spad aa al vs : enc (TStruct fs spad aa al) (VStruct vs) = enc_fields fs vs.
Proof. reflexivity. Qed.
Lemma isize_struct fs spad aa al : inline_size (TStruct fs spad aa al) = isize_fields fs.
Proof. reflexivity. Qed.

Lemma plain_size_nonneg t : plain t = true -> 0 <= inline_size t.
Proof.
  induction t using ty_ind'; intros E; try discriminate E.
  - cbn in *; lia.
  - cbn in *; lia.
  - rewrite plain_struct in E. rewrite isize_struct. apply andb_true_iff in E as [_ E].
    induction H as [|[t' [wp rp]] fs H _ IH]; cbn [isize_fields plain_fields fst] in *; [lia|].
    apply andb_true_iff in E as [E1 E2]. apply andb_true_iff in E1 as [E1 E3].
    apply andb_true_iff in E1 as [E1 E4]. specialize (H E1). specialize (IH E2). lia.
  - cbn [plain inline_size] in *. apply andb_true_iff in E as [E1 E2]. specialize (IHt E2). nia.
  - cbn [plain inline_size] in *. apply andb_true_iff in E as [E1 E2]. specialize (IHt E2). nia.
Qed.

Lemma flat_enc_len t vs : (forall v, wt t v = true -> zlen (enc t v) = inline_size t) ->
  forallb (wt t) vs = true -> zlen (flat_map (enc t) vs) = zlen vs * inline_size t.
Proof.
  intros H. induction vs as [|v vs IH]; intros W; [reflexivity|]. cbn [flat_map forallb] in *.
  apply andb_true_iff in W as [W1 W2]. rewrite zlen_app, zlen_cons, H, IH by auto. lia.
Qed.

Lemma enc_len t : plain t = true -> forall v, wt t v = true -> zlen (enc t v) = inline_size t.
Proof.
  induction t using ty_ind'; intros E v W; try discriminate E; destruct v; try discriminate W.
  - cbn [enc inline_size plain] in *. rewrite zlen_le_bytes. lia.
  - cbn [enc inline_size plain] in *. rewrite zlen_le_bytes. lia.
  - rewrite plain_struct in E. rewrite wt_struct in W. rewrite isize_struct, enc_struct.
    apply andb_true_iff in E as [_ E].
    revert vs W. induction H as [|[t' [wp rp]] fs H _ IH]; intros [|v vs] W;
      cbn [isize_fields plain_fields fst enc_fields wt_fields] in *; try discriminate W; [reflexivity|].
    apply andb_true_iff in E as [E1 E2]. apply andb_true_iff in E1 as [E1 E3].
    apply andb_true_iff in E1 as [E1 E4]. apply andb_true_iff in W as [W1 W2].
    rewrite zlen_app, H, IH by auto. lia.
  - cbn [plain enc inline_size wt] in *. apply andb_true_iff in E as [_ E]. apply andb_true_iff in W as [W1 W2].
    rewrite (flat_enc_len t vs) by auto. f_equal. lia.
  - cbn [plain enc inline_size wt] in *. apply andb_true_iff in E as [_ E]. apply andb_true_iff in W as [W1 W2].
    rewrite (flat_enc_len t vs) by auto. f_equal. lia.
Qed.

Lemma flat_enc_ok t vs : (forall v, bytes_ok (enc t v) = true) -> bytes_ok (flat_map (enc t) vs) = true.
Proof. intros H. induction vs; [reflexivity|]. cbn [flat_map]. now rewrite bytes_ok_app, H, IHvs. Qed.

Lemma enc_ok t : forall v, bytes_ok (enc t v) = true.
Proof.
  induction t using ty_ind'; intros []; try reflexivity; try (cbn [enc]; apply le_bytes_ok).
  - rewrite enc_struct. revert vs.
    induction H as [|[t' [wp rp]] fs H _ IH]; intros [|v vs]; cbn [enc_fields fst] in *; try reflexivity.
    now rewrite bytes_ok_app, H, IH.
  - cbn [enc]. now apply flat_enc_ok.
  - cbn [enc]. now apply flat_enc_ok.
Qed.

Lemma size_plain t : plain t = true -> forall v, wt t v = true -> size t v = inline_size t.
Proof.
  induction t using ty_ind'; intros E v W; try discriminate E; destruct v; try discriminate W; try reflexivity.
  - rewrite plain_struct in E. rewrite wt_struct in W. rewrite isize_struct, size_struct.
    apply andb_true_iff in E as [E0 E]. replace spad with 0 by lia. rewrite Z.add_0_r.
    revert vs W. induction H as [|[t' [wp rp]] fs H _ IH]; intros [|v vs] W;
      cbn [isize_fields plain_fields fst size_fields wt_fields] in *; try discriminate W; [reflexivity|].
    apply andb_true_iff in E as [E1 E2]. apply andb_true_iff in E1 as [E1 E3].
    apply andb_true_iff in E1 as [E1 E4]. apply andb_true_iff in W as [W1 W2].
    rewrite H, IH by auto. lia.
  - cbn [plain size inline_size wt] in *. apply andb_true_iff in E as [_ E]. apply andb_true_iff in W as [W1 W2].
    destruct vs as [|v vs]; [rewrite zlen_nil in W1; replace n with 0 by lia; reflexivity|]. cbn [forallb] in W2. apply andb_true_iff in W2 as [W2 _].
    rewrite IHt by auto. f_equal. lia.
  - cbn [plain size inline_size wt] in *. apply andb_true_iff in E as [_ E]. apply andb_true_iff in W as [W1 W2].
    destruct vs as [|v vs]; [rewrite zlen_nil in W1; replace n with 0 by lia; reflexivity|]. cbn [forallb] in W2. apply andb_true_iff in W2 as [W2 _].
    rewrite IHt by auto. f_equal. lia.
Qed.

(** ** Writing *)
Lemma skipn_add {A} (x : nat) : forall (l : list A) y, skipn x (skipn y l) = skipn (y + x) l.
Proof.
  intros l y. revert l. induction y as [|y IH]; intros l; [reflexivity|].
  destruct l; [now rewrite !skipn_nil|]. apply IH.
Qed.

Lemma put_put b p x y : 0 <= p -> put (put b p x) (p + zlen x) y = put b p (x ++ y).
Proof.
  intros Hp. destruct x as [|x0 x]; [cbn [app]; rewrite zlen_nil, Z.add_0_r; reflexivity|].
  destruct y as [|y0 y]; [rewrite app_nil_r; reflexivity|].
  set (X := x0 :: x) in *. set (Y := y0 :: y) in *.
  assert (P : forall b p z, z <> [] -> put b p z =
    (firstn (Z.to_nat p) b ++ repeat 0 (Z.to_nat p - length b)) ++ z ++ skipn (Z.to_nat p + length z) b).
  { intros b' p' [|z0 z] Hz; [congruence|]. cbn [put]. now rewrite <- app_assoc. }
  rewrite !P by discriminate.
  set (pre := firstn (Z.to_nat p) b ++ repeat 0 (Z.to_nat p - length b)).
  assert (L : length pre = Z.to_nat p) by (unfold pre; rewrite app_length, firstn_length, repeat_length; lia).
  assert (LX : Z.to_nat (p + zlen X) = (length pre + length X)%nat) by (unfold zlen; lia).
  rewrite LX. set (tl := skipn (Z.to_nat p + length X) b).
  replace (length pre + length X - length (pre ++ X ++ tl))%nat with 0%nat by (rewrite !app_length; lia).
  cbn [repeat]. rewrite app_nil_r.
  rewrite <- (app_length pre X), (app_assoc pre X tl), (app_assoc pre (X ++ Y)), (app_assoc pre X Y).
  rewrite (firstn_app (length (pre ++ X))), firstn_all, Nat.sub_diag. cbn [firstn]. rewrite app_nil_r, <- !app_assoc.
  do 3 f_equal. rewrite app_assoc, skipn_app, skipn_all2 by lia. cbn [app].
  replace (length (pre ++ X) + length Y - length (pre ++ X))%nat with (length Y) by lia.
  unfold tl. rewrite skipn_add. f_equal. rewrite app_length. lia.
Qed.

Lemma zeros0 : zeros 0 = [].
Proof. reflexivity. Qed.

Lemma emit_zeros0 s : emit (zeros 0) s = s.
Proof. rewrite zeros0. unfold emit. cbn. rewrite Z.add_0_r. now destruct s. Qed.

Lemma bump_bound n s : exists d, bump n s = mkW (wbuf s) (wpos s) d /\ d = Z.max (wdp s) (wpos s + n).
Proof.
  unfold bump. destruct (Z.ltb_spec (wdp s) (wpos s + n)); eexists; (split; [|reflexivity]).
  - f_equal. lia.
  - destruct s; cbn in *. f_equal. lia.
Qed.

Definition wrote (bs : list Z) (s s' : wst) : Prop :=
  wbuf s' = put (wbuf s) (wpos s) bs /\ wpos s' = wpos s + zlen bs /\
  wdp s <= wdp s' <= Z.max (wdp s) (wpos s + zlen bs).

Lemma wrote_trans x y s s1 s2 : 0 <= wpos s -> wrote x s s1 -> wrote y s1 s2 -> wrote (x ++ y) s s2.
Proof.
  intros Hp (B1 & P1 & D1) (B2 & P2 & D2). unfold wrote. rewrite zlen_app.
  pose proof (zlen_nonneg x). pose proof (zlen_nonneg y).
  split; [rewrite B2, B1, P1; now apply put_put|]. lia.
Qed.

Lemma wrote_bump n bs s s1 s' : bump n s = s1 -> n <= zlen bs -> wrote bs s1 s' -> wrote bs s s'.
Proof.
  intros <- Hn (B & P & D). destruct (bump_bound n s) as (d & E & Hd). rewrite E in *. cbn [wbuf wpos wdp] in *.
  unfold wrote. split; [exact B|lia].
Qed.

Lemma wrote_nil s : wrote [] s s.
Proof. unfold wrote. rewrite zlen_nil. split; [reflexivity|lia]. Qed.

Lemma plain_write_list t vs : (forall v s, wt t v = true -> 0 <= wpos s ->
    exists s', write t v s = Ok s' /\ wrote (enc t v) s s') ->
  forallb (wt t) vs = true -> forall s, 0 <= wpos s ->
  exists s', write_list (write t) vs s = Ok s' /\ wrote (flat_map (enc t) vs) s s'.
Proof.
  intros H. induction vs as [|v vs IH]; intros W s Hs; cbn [write_list flat_map forallb] in *.
  - exists s. split; [auto|apply wrote_nil].
  - apply andb_true_iff in W as [W1 W2]. destruct (H v s W1 Hs) as (s1 & -> & H1). cbn [bind].
    destruct (IH W2 s1) as (s2 & -> & H2); [destruct H1 as (_ & -> & _); pose proof (zlen_nonneg (enc t v)); lia|].
    exists s2. split; [auto|]. now apply (wrote_trans _ _ s s1).
Qed.

Lemma plain_write t : plain t = true -> forall v s, wt t v = true -> 0 <= wpos s ->
  exists s', write t v s = Ok s' /\ wrote (enc t v) s s'.
Proof.
  induction t using ty_ind'; intros E v s W Hs; try discriminate E; destruct v; try discriminate W.
  - cbn [write enc]. eexists. split; [reflexivity|]. unfold wrote, emit. cbn. split; [auto|].
    pose proof (zlen_nonneg (le_bytes (Z.to_nat w) n)). lia.
  - cbn [write enc plain] in *. eexists. split; [reflexivity|].
    apply (wrote_bump w _ s _ _ eq_refl); [rewrite zlen_le_bytes; lia|].
    unfold wrote, emit. cbn. split; [auto|].
    pose proof (zlen_nonneg (le_bytes (Z.to_nat w) n)). lia.
  - pose proof (size_plain (TStruct fs spad aa al) E (VStruct vs) W) as SZ.
    pose proof (enc_len (TStruct fs spad aa al) E (VStruct vs) W) as EL.
    rewrite plain_struct in E. rewrite wt_struct in W. rewrite write_struct, enc_struct in *.
    apply andb_true_iff in E as [E0 E]. replace spad with 0 in * by lia. replace aa with 0 in * by lia.
    rewrite size_struct in SZ.
    assert (F : forall s, 0 <= wpos s -> exists s', write_fields fs vs s = Ok s' /\ wrote (enc_fields fs vs) s s').
    { clear SZ EL s Hs. revert vs W. induction H as [|[t' [wp rp]] fs H _ IH]; intros [|v vs] W s Hs;
        cbn [plain_fields fst write_fields wt_fields enc_fields] in *; try discriminate W.
      - exists s. split; [auto|apply wrote_nil].
      - apply andb_true_iff in E as [E1 E2]. apply andb_true_iff in E1 as [E1 E3].
        apply andb_true_iff in E1 as [E1 E4]. apply andb_true_iff in W as [W1 W2].
        destruct (H E1 v s W1 Hs) as (s1 & -> & H1). cbn [bind]. replace wp with 0 by lia. rewrite emit_zeros0.
        destruct (IH E2 vs W2 s1) as (s2 & -> & H2); [destruct H1 as (_ & -> & _); pose proof (zlen_nonneg (enc t' v)); lia|].
        exists s2. split; [auto|]. now apply (wrote_trans _ _ s s1). }
    destruct (bump_bound (size_fields fs vs + 0) s) as (d & Eb & Hd).
    destruct (F (bump (size_fields fs vs + 0) s)) as (s' & Ef & Hf); [now rewrite Eb|].
    rewrite Ef. cbn [bind]. rewrite emit_zeros0. unfold align_after. cbn [Z.ltb].
    eexists. split; [reflexivity|]. eapply wrote_bump; [reflexivity| |exact Hf]. rewrite EL, SZ. lia.
  - pose proof (size_plain (TFix n t) E (VArr vs) W) as SZ. pose proof (enc_len (TFix n t) E (VArr vs) W) as EL.
    cbn [write enc wt plain] in *. apply andb_true_iff in E as [E0 E]. apply andb_true_iff in W as [W1 W2].
    rewrite W1. destruct (bump_bound (slice_size t vs) s) as (d & Eb & Hd).
    destruct (plain_write_list t vs (IHt E) W2 (bump (slice_size t vs) s)) as (s' & Ef & Hf); [now rewrite Eb|].
    exists s'. split; [exact Ef|]. eapply wrote_bump; [reflexivity| |exact Hf]. rewrite EL, <- SZ. unfold slice_size. cbn. lia.
  - pose proof (size_plain (TVec n t) E (VArr vs) W) as SZ. pose proof (enc_len (TVec n t) E (VArr vs) W) as EL.
    cbn [write enc wt plain] in *. apply andb_true_iff in E as [E0 E]. apply andb_true_iff in W as [W1 W2].
    rewrite W1. destruct (bump_bound (slice_size t vs) s) as (d & Eb & Hd).
    destruct (plain_write_list t vs (IHt E) W2 (bump (slice_size t vs) s)) as (s' & Ef & Hf); [now rewrite Eb|].
    exists s'. split; [exact Ef|]. eapply wrote_bump; [reflexivity| |exact Hf]. rewrite EL, <- SZ. unfold slice_size. cbn. lia.
Qed.

(** ** Reading *)
Lemma read_int_mid w a x r : 0 < w -> 0 <= x < 256 ^ w ->
  read_int w (a ++ le_bytes (Z.to_nat w) x ++ r) (zlen a) = Ok (x, zlen a + w).
Proof.
  intros Hw Hx. unfold read_int. rewrite (get_app a (le_bytes (Z.to_nat w) x) r) by (now rewrite le_bytes_length).
  rewrite le_val_le_bytes by (rewrite Z2Nat.id by lia; lia). reflexivity.
Qed.

Lemma plain_read_n t vs : plain t = true ->
  (forall v a r, wt t v = true -> read t (a ++ enc t v ++ r) (zlen a) = Ok (v, zlen a + inline_size t)) ->
  forallb (wt t) vs = true -> forall a r,
  read_n (length vs) (read t (a ++ flat_map (enc t) vs ++ r)) (zlen a) =
    Ok (vs, zlen a + zlen vs * inline_size t).
Proof.
  intros P H. induction vs as [|v vs IH]; intros W a r; cbn [length read_n flat_map forallb app] in *.
  - replace (zlen (@nil val) * inline_size t) with 0 by reflexivity. rewrite Z.add_0_r. reflexivity.
  - apply andb_true_iff in W as [W1 W2]. rewrite <- app_assoc, H by auto. cbn [bind].
    rewrite app_assoc. rewrite <- (enc_len t P v W1), <- zlen_app.
    rewrite (IH W2 (a ++ enc t v) r). cbn [bind]. do 2 f_equal.
    rewrite zlen_app, zlen_cons, (enc_len t P v W1). lia.
Qed.

Lemma plain_read t : plain t = true -> forall v a r, wt t v = true ->
  read t (a ++ enc t v ++ r) (zlen a) = Ok (v, zlen a + inline_size t).
Proof.
  induction t using ty_ind'; intros E v a r W; try discriminate E; destruct v; try discriminate W.
  - cbn [read enc wt plain inline_size] in *. rewrite read_int_mid by lia. reflexivity.
  - cbn [read enc wt plain inline_size] in *. rewrite read_int_mid by lia. reflexivity.
  - rewrite plain_struct in E. rewrite wt_struct in W. rewrite read_struct, enc_struct, isize_struct.
    apply andb_true_iff in E as [_ E].
    assert (F : read_fields fs (a ++ enc_fields fs vs ++ r) (zlen a) = Ok (vs, zlen a + isize_fields fs)).
    { revert vs a W. induction H as [|[t' [wp rp]] fs H _ IH]; intros [|v vs] a W;
        cbn [plain_fields fst read_fields wt_fields enc_fields isize_fields] in *; try discriminate W.
      - now rewrite Z.add_0_r.
      - apply andb_true_iff in E as [E1 E2]. apply andb_true_iff in E1 as [E1 E3].
        apply andb_true_iff in E1 as [E1 E4]. apply andb_true_iff in W as [W1 W2].
        rewrite <- app_assoc. rewrite (H E1 v a _ W1). cbn [bind]. replace rp with 0 by lia. rewrite !Z.add_0_r.
        rewrite <- (enc_len t' E1 v W1), <- zlen_app, app_assoc.
        rewrite (IH E2 vs (a ++ enc t' v) W2). cbn [bind]. do 2 f_equal. rewrite zlen_app. lia. }
    rewrite F. reflexivity.
  - cbn [read enc wt plain inline_size] in *. apply andb_true_iff in E as [E0 E]. apply andb_true_iff in W as [W1 W2].
    rewrite read_elements_n. replace (Z.to_nat n) with (length vs) by (unfold zlen in W1; lia).
    rewrite (plain_read_n t vs E (IHt E) W2 a r). cbn [bind]. do 3 f_equal. lia.
  - cbn [read enc wt plain inline_size] in *. apply andb_true_iff in E as [E0 E]. apply andb_true_iff in W as [W1 W2].
    rewrite read_elements_n. replace (Z.to_nat n) with (length vs) by (unfold zlen in W1; lia).
    rewrite (plain_read_n t vs E (IHt E) W2 a r). cbn [bind]. do 3 f_equal. lia.
Qed.
