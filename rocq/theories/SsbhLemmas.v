(** Lemmas behind the property theorems about SSBH files. *)
From Coq Require Import String Lia ZifyBool ZifyNat ZifyN.
From Verif Require Import Bytes BytesFacts Ssbh Described SsbhFacts Roundtrip RoundtripMain WriteFacts
  SsbhSpec DecFacts ExtFacts Formats File FileFacts RefFacts Strings FileSpec Examples.
Ltac Zify.zify_post_hook ::= ZifyBool.elim_bool_cstr; Z.to_euclidean_division_equations.

Local Opaque two64 le_bytes put Z.max Z.sub Z.add round_up.

(** ** The writer only writes bytes *)
Lemma emit_ok bs s : bytes_ok (wbuf s) = true -> bytes_ok bs = true -> bytes_ok (wbuf (emit bs s)) = true.
Proof. intros. cbn. apply put_bytes_ok; auto. Qed.

Lemma zeros_ok n : bytes_ok (zeros n) = true.
Proof. apply bytes_ok_repeat0. Qed.

Definition wbytes (wr : wst -> res wst) : Prop :=
  forall s s', bytes_ok (wbuf s) = true -> wr s = Ok s' -> bytes_ok (wbuf s') = true.

Lemma bump_buf_ok n s : bytes_ok (wbuf (bump n s)) = bytes_ok (wbuf s).
Proof. now rewrite bump_buf. Qed.

Lemma relptr_bytes a o : (forall w, o = Some w -> wbytes w) -> wbytes (write_relptr a o).
Proof.
  intros HW s s' B H. unfold write_relptr, write_rel_ptr_aligned in H.
  rewrite bump_eq in H. destruct o as [w|].
  - apply bind_ok in H as (s2 & E2 & H). unfold write_relative_offset in E2. ws.
    destruct (_ <? _); [discriminate|]. injection E2 as <-.
    apply bind_ok in H as (s3 & E3 & H). injection H as <-.
    apply (HW w eq_refl) in E3; [destruct (_ <? _); exact E3|]. cbn. apply put_bytes_ok; [auto|apply le_bytes_ok].
  - injection H as <-. cbn. apply put_bytes_ok; [auto|apply le_bytes_ok].
Qed.

Lemma absptr_bytes w a o : (forall wr, o = Some wr -> wbytes wr) -> wbytes (write_absptr w a o).
Proof.
  intros HW s s' B H. unfold write_absptr in H. rewrite !bump_eq in H. destruct o as [wr|].
  - ws. destruct (_ <? _); [|discriminate].
    apply bind_ok in H as (s3 & E3 & H). injection H as <-.
    apply (HW wr eq_refl) in E3; [destruct (_ <? _); exact E3|]. cbn. apply put_bytes_ok; [auto|apply le_bytes_ok].
  - injection H as <-. cbn. apply put_bytes_ok; [auto|apply le_bytes_ok].
Qed.

Lemma header_bytes c : wbytes (write_array_header c).
Proof.
  intros s s' B H. unfold write_array_header in H. apply bind_ok in H as (s2 & E2 & H). injection H as <-.
  apply emit_ok; [|apply le_bytes_ok]. destruct (c =? 0).
  - injection E2 as <-. apply emit_ok; [auto|apply le_bytes_ok].
  - unfold write_relative_offset in E2. destruct (_ <? _); [discriminate|]. injection E2 as <-.
    apply emit_ok; [auto|apply le_bytes_ok].
Qed.

Lemma list_bytes w vs : (forall v, In v vs -> wbytes (w v)) -> wbytes (write_list w vs).
Proof.
  induction vs as [|v r IH]; intros HW s s' B H; cbn in H; [injection H as <-; auto|].
  apply bind_ok in H as (s1 & E1 & H). apply HW in E1; [|now left|auto].
  eapply IH; eauto. intros v' Hv. apply HW. now right.
Qed.

Lemma cstr_wt_bytes bs : forallb (fun x => (0 <? x) && (x <? 256)) bs = true -> bytes_ok bs = true.
Proof.
  intros H. unfold bytes_ok. rewrite forallb_forall in *. intros x Hx. apply H in Hx.
  unfold is_byte. lia.
Qed.

Theorem write_bytes_ok t : forall v, wt t v = true -> wbytes (write t v).
Proof.
  induction t as [w|w ra tags|w| |fs spad aa al HF|t IHt|w t IHt|t IHt| |n|vs HF|n t IHt|n t IHt]
    using ty_ind'; intros v W s s' B H; destruct v; try discriminate W.
  - injection H as <-. apply emit_ok; [auto|apply le_bytes_ok].
  - cbn [write] in H. injection H as <-. apply emit_ok; [now rewrite bump_buf|apply le_bytes_ok].
  - cbn [write] in H. injection H as <-. apply emit_ok; [now rewrite bump_buf|apply le_bytes_ok].
  - destruct vs; [|discriminate W]. injection H as <-. auto.
  - rewrite wt_struct in W. rewrite write_struct in H. apply bind_ok in H as (s1 & E1 & H). injection H as <-.
    assert (B1 : bytes_ok (wbuf s1) = true).
    { rewrite <- (bump_buf (size_fields fs vs + spad)) in B.
      revert B E1. generalize (bump (size_fields fs vs + spad) s). clear s. revert vs W.
      induction fs as [|[t' [wp rp]] r IH]; intros [|v vr] W s B E1; cbn in W; try discriminate W.
      - cbn in E1. injection E1 as <-. auto.
      - apply andb_true_iff in W as [W1 W2]. fold (wt_fields r vr) in W2.
        inversion HF as [|? ? Ht Hr]; subst. cbn [fst] in Ht. cbn [write_fields] in E1.
        apply bind_ok in E1 as (s2 & E2 & E1). apply Ht in E2; auto.
        refine (IH Hr vr W2 _ _ E1). apply emit_ok; auto. apply zeros_ok. }
    unfold align_after. destruct (0 <? aa).
    + apply emit_ok; [|apply zeros_ok]. change (bytes_ok (wbuf (emit (zeros spad) s1)) = true). apply emit_ok; auto using zeros_ok.
    + apply emit_ok; auto using zeros_ok.
  - cbn [write wt] in *. eapply relptr_bytes; [|exact B|exact H].
    destruct o as [v|]; cbn; [|discriminate]. intros w [= <-]. apply IHt; auto.
  - cbn [write wt] in *. eapply absptr_bytes; [|exact B|exact H].
    destruct o as [v|]; cbn; [|discriminate]. intros wr [= <-]. apply IHt; auto.
  - cbn [write wt] in *. apply andb_true_iff in W as [_ W].
    apply bind_ok in H as (s1 & E1 & H). apply bind_ok in H as (s3 & E3 & H). injection H as <-.
    apply header_bytes in E1; [|now rewrite bump_buf].
    eapply list_bytes in E3; [exact E3| |rewrite bump_buf; exact E1].
    intros v Hv. rewrite forallb_forall in W. apply IHt; auto.
  - cbn [write wt] in *. apply andb_true_iff in W as [_ W].
    apply bind_ok in H as (s1 & E1 & H). injection H as <-.
    apply header_bytes in E1; [|now rewrite bump_buf]. cbn. apply put_bytes_ok; auto.
  - cbn [write wt] in *. injection H as <-. apply cstr_wt_bytes in W. unfold write_cstring.
    destruct bs; repeat apply emit_ok; auto using zeros_ok.
  - destruct o as [v|]; [destruct v; try discriminate W|].
    + rewrite wt_enum in W. rewrite write_enum in H.
      destruct (find_case tag vs) as [t|] eqn:Ef; [|discriminate].
      apply bind_ok in H as (s1 & E1 & H). injection H as <-. apply emit_ok; [|apply le_bytes_ok].
      eapply relptr_bytes in E1; [exact E1| |now rewrite bump_buf].
      intros w [= <-]. apply find_case_in in Ef. rewrite Forall_forall in HF.
      pose proof (HF _ Ef) as HX. apply HX; auto.
    + cbn [write] in H. apply bind_ok in H as (s1 & E1 & H). injection H as <-. apply emit_ok; [|apply le_bytes_ok].
      eapply relptr_bytes in E1; [exact E1|discriminate|now rewrite bump_buf].
  - cbn [write wt] in *. apply andb_true_iff in W as [Wl W]. rewrite Wl in H.
    eapply list_bytes in H; [exact H| |now rewrite bump_buf].
    intros v Hv. rewrite forallb_forall in W. apply IHt; auto.
  - cbn [write wt] in *. apply andb_true_iff in W as [Wl W]. rewrite Wl in H.
    eapply list_bytes in H; [exact H| |now rewrite bump_buf].
    intros v Hv. rewrite forallb_forall in W. apply IHt; auto.
Qed.

(** ** What is written decodes, by the layout specification, to the value *)
Theorem write_dec t v s s' :
  twf MTail t = true -> inl false t = true -> wt t v = true -> bytes_ok (wbuf s) = true ->
  0 <= wpos s -> 0 <= wdp s -> write t v s = Ok s' -> wdp s' < 2 ^ 64 ->
  Dec (wbuf s') t (wpos s) v.
Proof.
  intros E HI W B Hp Hd H HL.
  destruct (wok_all t MTail ltac:(discriminate) E v s s' W Hp Hd H) as [_ _ _ P].
  destruct (P (wbuf s')) as (q & Hq & _); [now rewrite two64_pow|apply agree_refl|].
  apply (write_bytes_ok t v W) in H; auto.
  eapply read_Dec; eauto.
Qed.

(** ** The reader never panics *)
Lemma bind_np {A B} (r : res A) (f : A -> res B) :
  r <> Panic -> (forall a, f a <> Panic) -> bind r f <> Panic.
Proof. destruct r; cbn; auto; discriminate. Qed.

Lemma read_int_np w b p : read_int w b p <> Panic.
Proof. unfold read_int. destruct (get_bytes _ _ _); discriminate. Qed.

Lemma abs_np p o : absolute_offset_checked p o <> Panic.
Proof. unfold absolute_offset_checked. destruct (_ <? _); discriminate. Qed.

Lemma read_cstr_np n b p : read_cstr n b p <> Panic.
Proof.
  revert p; induction n; intros p; cbn; [discriminate|]. destruct (byte_at b p); [|discriminate].
  destruct (_ =? _); [discriminate|]. apply bind_np; auto. intros []; discriminate.
Qed.

Lemma read_elements_np rd count p : (forall p, rd p <> Panic) -> read_elements rd count p <> Panic.
Proof.
  intros H. rewrite read_elements_n.
  revert p. generalize (Z.to_nat count) as n. induction n as [|n IH]; intros p; cbn; [discriminate|].
  apply bind_np; auto. intros [v q]. apply bind_np; auto. intros []; discriminate.
Qed.

Theorem read_no_panic t : forall b p, read t b p <> Panic.
Proof.
  induction t as [w|w ra tags|w| |fs spad aa al HF|t IHt|w t IHt|t IHt| |n|vs HF|n t IHt|n t IHt]
    using ty_ind'; intros b p; try (cbn [read]).
  - apply bind_np; [apply read_int_np|]. intros []; discriminate.
  - apply bind_np; [apply read_int_np|]. intros []. destruct (existsb _ _); discriminate.
  - apply bind_np; [apply read_int_np|]. intros []; discriminate.
  - discriminate.
  - change (read (TStruct fs spad aa al) b p <> Panic). rewrite read_struct. apply bind_np; [|intros []; discriminate].
    revert p; induction fs as [|[t' [wp rp]] r IH]; intros p; cbn [read_fields]; [discriminate|].
    inversion HF as [|? ? Ht Hr]; subst. apply bind_np; [apply Ht|]. intros []. apply bind_np; [apply IH; auto|].
    intros []; discriminate.
  - apply bind_np; [apply read_int_np|]. intros []. destruct (_ =? _); [discriminate|].
    apply bind_np; [apply abs_np|]. intros. apply bind_np; auto. intros []; discriminate.
  - apply bind_np; [apply read_int_np|]. intros []. destruct (_ =? _); [discriminate|].
    apply bind_np; auto. intros []; discriminate.
  - apply bind_np; [apply read_int_np|]. intros []. apply bind_np; [apply read_int_np|]. intros [].
    apply bind_np; [apply abs_np|]. intros. apply bind_np; [apply read_elements_np; auto|]. intros []; discriminate.
  - apply bind_np; [apply read_int_np|]. intros []. apply bind_np; [apply read_int_np|]. intros [].
    apply bind_np; [apply abs_np|]. intros. apply bind_np; [|intros; discriminate].
    unfold read_buffer. destruct (_ <=? _); [destruct (get_bytes _ _ _)|]; discriminate.
  - apply bind_np; [apply read_cstr_np|]. intros []; discriminate.
  - change (read (TEnum vs) b p <> Panic). rewrite read_enum.
    apply bind_np; [apply read_int_np|]. intros []. apply bind_np; [apply read_int_np|]. intros [].
    destruct (_ =? _); [discriminate|]. apply bind_np; [apply abs_np|]. intros q.
    apply bind_np; [|intros []; discriminate].
    destruct (find_case z1 vs) eqn:Ef; [|discriminate]. apply find_case_in in Ef.
    rewrite Forall_forall in HF. apply (HF _ Ef).
  - apply bind_np; [apply read_elements_np; auto|]. intros []; discriminate.
  - apply bind_np; [apply read_elements_np; auto|]. intros []; discriminate.
Qed.

Theorem file_read_no_panic b : file_read b <> Panic.
Proof.
  unfold file_read. apply bind_np; [|intros []; discriminate]. unfold read_file.
  destruct (get_bytes 4 b 0); [|discriminate]. destruct (list_eqb _ _); [|discriminate]. cbv zeta.
  destruct (get_bytes _ _ _); [|discriminate]. destruct (find_kind _ _); [|discriminate].
  apply bind_np; [apply read_int_np|]. intros []. apply bind_np; [apply read_int_np|]. intros [].
  destruct (format _ _); [|discriminate]. apply bind_np; [apply read_no_panic|]. intros []; discriminate.
Qed.

(** ** C09: files *)
Lemma magic_name k : read_magic k = stored_name (type_name k).
Proof. destruct k; reflexivity. Qed.

Lemma hbss_name : hbss = stored_name "SSBH"%string.
Proof. reflexivity. Qed.

Lemma find_kind_some m : (exists k, m = read_magic k) <-> find_kind m kinds <> None.
Proof.
  split.
  - intros (k & ->). rewrite find_kind_magic. discriminate.
  - destruct (find_kind m kinds) eqn:E; [|congruence]. intros _. apply find_kind_inv in E. eauto.
Qed.

Lemma file_read_dec b f : bytes_ok b = true -> (file_read b = Ok f <-> DecFile b f).
Proof.
  intros Hb. unfold file_read, read_file. change (round_up (0 + 4) 16) with 16.
  split.
  - intros H. apply bind_ok in H as ([f' q] & H & E). injection E as ->.
    destruct (get_bytes 4 b 0) as [m|] eqn:E0; [|discriminate].
    destruct (list_eqb m hbss) eqn:E1; [|discriminate]. cbv zeta in H.
    destruct (get_bytes 4 b 16) as [m'|] eqn:E2; [|discriminate].
    destruct (find_kind m' kinds) as [k|] eqn:E3; [|discriminate].
    apply bind_ok in H as ([major p2] & E4 & H). apply bind_ok in H as ([minor p3] & E5 & H).
    destruct (format k (major, minor)) as [t|] eqn:F; [|discriminate].
    apply bind_ok in H as ([v q'] & E6 & H). injection H as <- <-.
    apply list_eqb_eq in E1 as ->. apply find_kind_inv in E3 as ->.
    apply get_bytes_at in E0 as [_ E0]. apply get_bytes_at in E2 as [_ E2].
    apply read_int_at in E4 as [E4 ->]; [|lia]. apply read_int_at in E5 as [E5 ->]; [|lia].
    destruct (format_ok _ _ _ F) as [R _]. destruct t; try discriminate R. apply root_inv in R as (_ & _ & _ & HI & _).
    unfold DecFile, DecHeader. cbn [fkind fver fbody fst snd]. rewrite <- magic_name, <- hbss_name.
    repeat split; auto. exists (TStruct fs spad aa al). split; auto. eapply read_Dec in E6 as [D _]; eauto.
  - destruct f as [k [major minor] body]. intros ((H0 & H1 & H2 & H3) & t & F & D). cbn [fkind fver fbody fst snd] in *.
    rewrite <- magic_name in H1. rewrite <- hbss_name in H0.
    assert (get_bytes 4 b 0 = Some hbss) as -> by (apply get_bytes_at; split; auto).
    rewrite (proj2 (list_eqb_eq hbss hbss) eq_refl). cbv zeta.
    assert (get_bytes 4 b 16 = Some (read_magic k)) as ->.
    { apply get_bytes_at; split; auto. destruct k; reflexivity. }
    rewrite find_kind_magic.
    assert (read_int 2 b (16 + 4) = Ok (major, 22)) as -> by (apply read_int_at; [lia|split; auto]). cbn [bind].
    assert (read_int 2 b 22 = Ok (minor, 24)) as -> by (apply read_int_at; [lia|split; auto]). cbn [bind].
    rewrite F. destruct (format_ok _ _ _ F) as [R _]. destruct t; try discriminate R. apply root_inv in R as (_ & _ & _ & HI & _).
    destruct (Dec_read _ false _ _ _ HI Hb D) as (q & ->). reflexivity.
Qed.

Lemma DecFile_ext b b' f : extends b b' -> DecFile b f -> DecFile b' f.
Proof.
  intros X ((H0 & H1 & H2 & H3) & t & F & D).
  split; [repeat split; eauto using bytes_at_ext, uint_at_ext|]. exists t. split; auto.
  eapply Dec_ext; eauto.
Qed.

Lemma bytes_ok_app' a b : bytes_ok (a ++ b) = true -> bytes_ok a = true.
Proof. rewrite bytes_ok_app, andb_true_iff. tauto. Qed.

Theorem file_trailing b c f :
  bytes_ok (b ++ c) = true -> file_read b = Ok f -> file_read (b ++ c) = Ok f.
Proof.
  intros Hb H. pose proof (bytes_ok_app' _ _ Hb) as Hb'. apply file_read_dec; auto.
  apply file_read_dec in H; auto. eapply DecFile_ext; [apply extends_app|auto].
Qed.

Theorem file_prefix b c f : bytes_ok (b ++ c) = true -> file_read (b ++ c) = Ok f ->
  file_read b = Ok f \/ exists e, file_read b = Err e.
Proof.
  intros Hb H. destruct (file_read b) as [f'|e|] eqn:E; eauto.
  - left. apply (file_trailing b c) in E; auto. congruence.
  - destruct (file_read_no_panic b E).
Qed.

(** ** C15 *)
Lemma supported_iff k v : (exists t, format k v = Some t) <-> In v (supported k).
Proof.
  unfold format. split.
  - intros (t & H). apply lookup_in in H. destruct k; cbn in *; intuition congruence.
  - destruct k; cbn; intros H; repeat (destruct H as [<-|H]; [eexists; reflexivity|]); destruct H.
Qed.

Lemma uint_at_mid a bs r w : zlen bs = w -> uint_at (a ++ bs ++ r) (zlen a) w (le_val bs).
Proof.
  intros H. exists bs. repeat split; auto. apply (get_bytes_at (length bs)). apply get_app. auto.
Qed.

Lemma bytes_at_mid a bs r : bytes_at (a ++ bs ++ r) (zlen a) bs.
Proof. apply (get_bytes_at (length bs)). apply get_app. auto. Qed.

Lemma le_val_mid w x : 0 <= x < 256 ^ Z.of_nat w -> le_val (le_bytes w x) = x.
Proof. apply le_val_le_bytes. Qed.

Lemma header_dec magic v rest : zlen magic = 4 -> ver_ok v = true ->
  let b := header magic v ++ rest in
  bytes_at b 0 (stored_name "SSBH"%string) /\ uint_at b 4 8 64 /\ uint_at b 12 4 0 /\ bytes_at b 16 magic /\
  uint_at b 20 2 (fst v) /\ uint_at b 22 2 (snd v).
Proof.
  intros Hm HV b. unfold ver_ok in HV. unfold b, header. rewrite <- ?app_assoc.
  set (h := hbss). set (l8 := le_bytes 8 64). set (l4 := le_bytes 4 0).
  set (l2 := le_bytes 2 (fst v)). set (l2' := le_bytes 2 (snd v)).
  assert (Z8 : zlen l8 = 8) by apply zlen_le_bytes. assert (Z4 : zlen l4 = 4) by apply zlen_le_bytes.
  assert (Z2 : zlen l2 = 2) by apply zlen_le_bytes. assert (Z2' : zlen l2' = 2) by apply zlen_le_bytes.
  assert (ZH : zlen h = 4) by reflexivity.
  assert (V8 : le_val l8 = 64) by (apply le_val_le_bytes; lia).
  assert (V4 : le_val l4 = 0) by (apply le_val_le_bytes; lia).
  assert (V2 : le_val l2 = fst v) by (apply le_val_le_bytes; lia).
  assert (V2' : le_val l2' = snd v) by (apply le_val_le_bytes; lia).
  assert (HH : stored_name "SSBH"%string = h) by reflexivity. rewrite HH.
  clearbody h l8 l4 l2 l2'. clear HH.
  split; [apply (bytes_at_mid [] h)|].
  split; [rewrite <- V8, <- ZH; apply (uint_at_mid h l8); auto|].
  split.
  { rewrite <- V4. replace 12 with (zlen (h ++ l8)) by (rewrite zlen_app; lia).
    rewrite (app_assoc h l8). apply uint_at_mid; auto. }
  split.
  { replace 16 with (zlen (h ++ l8 ++ l4)) by (rewrite !zlen_app; lia).
    rewrite (app_assoc l8 l4), (app_assoc h). apply bytes_at_mid. }
  split.
  { rewrite <- V2. replace 20 with (zlen (h ++ l8 ++ l4 ++ magic)) by (rewrite !zlen_app; lia).
    rewrite (app_assoc l4 magic), (app_assoc l8), (app_assoc h). apply uint_at_mid; auto. }
  rewrite <- V2'. replace 22 with (zlen (h ++ l8 ++ l4 ++ magic ++ l2)) by (rewrite !zlen_app; lia).
  rewrite (app_assoc magic l2), (app_assoc l4), (app_assoc l8), (app_assoc h). apply uint_at_mid; auto.
Qed.

Theorem file_header f out : file_ok f -> file_write f = Ok out ->
  DecHeader out (stored_name (type_name (fkind f))) (fver f) /\ uint_at out 4 8 64 /\ uint_at out 12 4 0.
Proof.
  intros (t & F & W) E. unfold file_write in E. rewrite F in E.
  destruct (format_ok _ _ _ F) as [R HV].
  assert (HM : file_write_magic (fkind f) = stored_name (type_name (fkind f)))
    by (destruct (fkind f); reflexivity).
  rewrite HM in E.
  assert (ML : zlen (stored_name (type_name (fkind f))) = 4) by (destruct (fkind f); reflexivity).
  destruct (file_spec _ (fver f) t (fbody f) ML R W) as (s' & E' & (rest & B) & _).
  rewrite E' in E. cbn in E. injection E as <-. rewrite B.
  pose proof (header_dec _ (fver f) rest ML HV) as (H0 & H1 & H2 & H3 & H4 & H5).
  unfold DecHeader. tauto.
Qed.

Theorem typed_read_spec k b :
  typed_read k b =
  match file_read b with
  | Ok f => if match fkind f, k with
               | Hlpb, Hlpb | Matl, Matl | Modl, Modl | Mesh, Mesh | Skel, Skel
               | Anim, Anim | Nlst, Nlst | Nrpd, Nrpd | Nufx, Nufx | Shdr, Shdr => true
               | _, _ => false end then Ok (fver f, fbody f) else Err EInvalidType
  | Err e => Err e
  | Panic => Panic
  end.
Proof.
  unfold typed_read. destruct (file_read b) as [[k' v body]| |]; auto. cbn.
  destruct k', k; reflexivity.
Qed.

Theorem typed_read_type k b f : file_read b = Ok f ->
  (fkind f = k -> typed_read k b = Ok (fver f, fbody f)) /\
  (fkind f <> k -> typed_read k b = Err EInvalidType).
Proof.
  intros H. rewrite typed_read_spec, H. destruct f as [k' v body]; cbn.
  split; intros E; destruct k', k; try reflexivity; try discriminate E; congruence.
Qed.

Lemma read_err_kind t : forall b p, read t b p <> Err EInvalidType.
Proof.
  assert (HB : forall A B (r : res A) (f : A -> res B),
    r <> Err EInvalidType -> (forall a, f a <> Err EInvalidType) -> bind r f <> Err EInvalidType).
  { intros A B r f H1 H2. destruct r; cbn; auto; congruence. }
  assert (HI : forall w b p, read_int w b p <> Err EInvalidType).
  { intros. unfold read_int. destruct (get_bytes _ _ _); discriminate. }
  assert (HA : forall p o, absolute_offset_checked p o <> Err EInvalidType).
  { intros. unfold absolute_offset_checked. destruct (_ <? _); discriminate. }
  assert (HC : forall n b p, read_cstr n b p <> Err EInvalidType).
  { induction n; intros b p; cbn; [discriminate|]. destruct (byte_at b p); [|discriminate].
    destruct (_ =? _); [discriminate|]. apply HB; auto. intros []; discriminate. }
  assert (HE : forall rd count p, (forall p, rd p <> Err EInvalidType) -> read_elements rd count p <> Err EInvalidType).
  { intros rd count p H. rewrite read_elements_n.
    revert p. generalize (Z.to_nat count) as n. induction n as [|n IH]; intros p; cbn; [discriminate|].
    apply HB; auto. intros [v q]. apply HB; auto. intros []; discriminate. }
  induction t as [w|w ra tags|w| |fs spad aa al HF|t IHt|w t IHt|t IHt| |n|vs HF|n t IHt|n t IHt]
    using ty_ind'; intros b p; try (cbn [read]).
  - apply HB; auto. intros []; discriminate.
  - apply HB; auto. intros []. destruct (existsb _ _); discriminate.
  - apply HB; auto. intros []; discriminate.
  - discriminate.
  - change (read (TStruct fs spad aa al) b p <> Err EInvalidType). rewrite read_struct. apply HB; [|intros []; discriminate].
    revert p; induction fs as [|[t' [wp rp]] r IH]; intros p; cbn [read_fields]; [discriminate|].
    inversion HF as [|? ? Ht Hr]; subst. apply HB; [apply Ht|]. intros []. apply HB; [apply IH; auto|].
    intros []; discriminate.
  - apply HB; auto. intros []. destruct (_ =? _); [discriminate|].
    apply HB; auto. intros. apply HB; auto. intros []; discriminate.
  - apply HB; auto. intros []. destruct (_ =? _); [discriminate|].
    apply HB; auto. intros []; discriminate.
  - apply HB; auto. intros []. apply HB; auto. intros [].
    apply HB; auto. intros. apply HB; auto. intros []; discriminate.
  - apply HB; auto. intros []. apply HB; auto. intros [].
    apply HB; auto. intros. apply HB; [|intros; discriminate].
    unfold read_buffer. destruct (_ <=? _); [destruct (get_bytes _ _ _)|]; discriminate.
  - apply HB; auto. intros []; discriminate.
  - change (read (TEnum vs) b p <> Err EInvalidType). rewrite read_enum.
    apply HB; auto. intros []. apply HB; auto. intros [].
    destruct (_ =? _); [discriminate|]. apply HB; auto. intros q.
    apply HB; [|intros []; discriminate].
    destruct (find_case z1 vs) eqn:Ef; [|discriminate]. apply find_case_in in Ef.
    rewrite Forall_forall in HF. apply (HF _ Ef).
  - apply HB; auto. intros []; discriminate.
  - apply HB; auto. intros []; discriminate.
Qed.

Lemma file_read_err_kind b : file_read b <> Err EInvalidType.
Proof.
  assert (HB : forall A B (r : res A) (f : A -> res B),
    r <> Err EInvalidType -> (forall a, f a <> Err EInvalidType) -> bind r f <> Err EInvalidType).
  { intros A B r f H1 H2. destruct r; cbn; auto; congruence. }
  assert (HI : forall w b p, read_int w b p <> Err EInvalidType).
  { intros. unfold read_int. destruct (get_bytes _ _ _); discriminate. }
  unfold file_read. apply HB; [|intros []; discriminate]. unfold read_file.
  destruct (get_bytes 4 b 0); [|discriminate]. destruct (list_eqb _ _); [|discriminate]. cbv zeta.
  destruct (get_bytes _ _ _); [|discriminate]. destruct (find_kind _ _); [|discriminate].
  apply HB; auto. intros []. apply HB; auto. intros [].
  destruct (format _ _); [|discriminate]. apply HB; [apply read_err_kind|]. intros []; discriminate.
Qed.

(** A file that is not of a supported type and version cannot be loaded as any type. *)
Theorem unsupported_error b k : bytes_ok b = true ->
  (forall f, ~ DecFile b f) -> exists e, typed_read k b = Err e /\ e <> EInvalidType.
Proof.
  intros Hb H. rewrite typed_read_spec.
  destruct (file_read b) as [f|e|] eqn:E.
  - apply file_read_dec in E; auto. destruct (H f E).
  - exists e. split; auto. intros ->. destruct (file_read_err_kind b E).
  - destruct (file_read_no_panic b E).
Qed.

Lemma bytes_at_fun b p x y : length x = length y -> bytes_at b p x -> bytes_at b p y -> x = y.
Proof.
  intros L H1 H2. assert (get_bytes (length x) b p = Some x) by (apply get_bytes_at; auto).
  assert (get_bytes (length y) b p = Some y) by (apply get_bytes_at; auto). rewrite L in H. congruence.
Qed.

Theorem unknown_type_error b k m : bytes_ok b = true -> length m = 4%nat -> bytes_at b 16 m ->
  (forall k', m <> stored_name (type_name k')) -> exists e, typed_read k b = Err e /\ e <> EInvalidType.
Proof.
  intros Hb Hm H HN. apply unsupported_error; auto. intros f ((_ & H1 & _) & _).
  apply (HN (fkind f)). eapply bytes_at_fun; eauto. rewrite Hm. destruct (fkind f); reflexivity.
Qed.

Lemma stored_name_inj k k' : stored_name (type_name k) = stored_name (type_name k') -> k = k'.
Proof. destruct k, k'; intros H; try reflexivity; discriminate H. Qed.

Theorem unknown_version_error b k k' v : bytes_ok b = true -> DecHeader b (stored_name (type_name k')) v ->
  ~ In v (supported k') -> exists e, typed_read k b = Err e /\ e <> EInvalidType.
Proof.
  intros Hb (H0 & H1 & H2 & H3) HN. apply unsupported_error; auto.
  intros f ((_ & G1 & G2 & G3) & t & F & _).
  assert (fkind f = k').
  { apply stored_name_inj. eapply bytes_at_fun; eauto. destruct k', (fkind f); reflexivity. }
  assert (fver f = v).
  { destruct (fver f), v. cbn in *. f_equal; eapply uint_fun; eauto. }
  apply HN. apply supported_iff. exists t. congruence.
Qed.

(** ** C07 *)
Lemma u64_at_uint b p : u64_at b p <> 0 -> uint_at b p 8 (u64_at b p).
Proof.
  unfold u64_at. destruct (get_bytes 8 b p) as [bs|] eqn:E; [|congruence]. intros _.
  apply get_bytes_at in E as [E1 E2]. exists bs. unfold zlen. rewrite E1. auto.
Qed.

Lemma uint_of_uint b p w : 0 <= w -> uint_of b p w <> 0 -> uint_at b p w (uint_of b p w).
Proof.
  intros Hw. unfold uint_of. destruct (get_bytes (Z.to_nat w) b p) as [bs|] eqn:E; [|congruence]. intros _.
  apply get_bytes_at in E as [E1 E2]. exists bs. unfold zlen. rewrite E1. split; [lia|]. auto.
Qed.

(** The first object listed for a value. *)
Lemma first_ref A t v s s' x l :
  0 < A -> A mod 8 = 0 -> twf MTail t = true -> aln A t = true -> al16 t = true -> wt t v = true ->
  0 <= wpos s -> 0 <= wdp s -> write t v s = Ok s' -> wdp s' < 2 ^ 64 ->
  refs (wbuf s') (wpos s + csize t) t (wpos s) v = x :: l -> wpos s + csize t <= r_start x.
Proof.
  intros HA HA8 E HAl H16 W Hp Hd H HL HR.
  destruct (write_placed A t v s s') as (_ & _ & _ & _ & HB & _); auto.
  rewrite HR in HB. apply Forall_inv in HB. lia.
Qed.

Lemma put_changes b p bs : 0 <= p -> bs <> [] -> changes_only b (put b p bs) p (zlen bs).
Proof.
  intros Hp Hn. split.
  - pose proof (put_len b p bs Hp) as L. destruct bs as [|x r]; [congruence|]. unfold zlen in *. lia.
  - intros i Hi Ho. destruct (byte_at_ex b i) as [x Hx]; [unfold zlen; lia|].
    rewrite Hx. apply put_out; auto.
Qed.

Lemma put_bytes_at b p bs : 0 <= p -> bytes_at (put b p bs) p bs.
Proof. intros Hp. apply (get_bytes_at (length bs)). now apply get_put. Qed.

Lemma le_bytes_zero w : le_bytes w 0 = repeat 0 w.
Proof. induction w; [reflexivity|]. cbn [le_bytes repeat]. f_equal. exact IHw. Qed.

Theorem null_write t v n s s' :
  twf MTail t = true -> null_value t = Some (v, n) -> 0 <= wpos s -> write t v s = Ok s' ->
  bytes_at (wbuf s') (wpos s) (repeat 0 (Z.to_nat n)) /\ changes_only (wbuf s) (wbuf s') (wpos s) n /\
  wpos s' = wpos s + n.
Proof.
  intros E HN Hp H.
  assert (T16 : forall s, 0 <= wpos s ->
    let s' := emit (le_bytes 8 0) (emit (le_bytes 8 0) s) in
    bytes_at (wbuf s') (wpos s) (repeat 0 16) /\ changes_only (wbuf s) (wbuf s') (wpos s) 16 /\
    wpos s' = wpos s + 16).
  { clear. intros s Hp. cbv zeta. cbn [emit wbuf wpos wdp].
    set (z := le_bytes 8 0). assert (Hz : zlen z = 8) by apply zlen_le_bytes.
    assert (HZ : z = repeat 0 8) by apply le_bytes_zero.
    rewrite Hz.
    assert (Hn : z <> []) by (rewrite HZ; discriminate).
    destruct (put_changes (wbuf s) (wpos s) z Hp Hn) as [A1 A2].
    destruct (put_changes (put (wbuf s) (wpos s) z) (wpos s + 8) z ltac:(lia) Hn) as [B1 B2].
    rewrite Hz in *. split; [|split; [split|]].
    - change (repeat 0 16) with (repeat 0 8 ++ repeat 0 8). rewrite <- HZ.
      intros i x Hx.
      destruct (Nat.lt_ge_cases i 8) as [Hi|Hi].
      + rewrite nth_error_app1 in Hx by (unfold zlen in Hz; lia).
        apply put_out; [lia|lia|]. now apply put_bytes_at.
      + rewrite nth_error_app2 in Hx by (unfold zlen in Hz; lia).
        replace (length z) with 8%nat in Hx by (unfold zlen in Hz; lia).
        replace (wpos s + Z.of_nat i) with (wpos s + 8 + Z.of_nat (i - 8)) by lia.
        apply put_bytes_at; [lia|auto].
    - rewrite B1, A1. lia.
    - intros i Hi Ho. rewrite B2 by (rewrite ?A1; lia). apply A2; lia.
    - lia. }
  assert (T1 : forall w s, 0 <= wpos s -> 0 < w ->
    let s' := emit (le_bytes (Z.to_nat w) 0) s in
    bytes_at (wbuf s') (wpos s) (repeat 0 (Z.to_nat w)) /\ changes_only (wbuf s) (wbuf s') (wpos s) w /\
    wpos s' = wpos s + w).
  { clear. intros w s Hp Hw. cbv zeta. cbn [emit wbuf wpos wdp].
    assert (Hz : zlen (le_bytes (Z.to_nat w) 0) = w) by (rewrite zlen_le_bytes; lia).
    split; [|split].
    - rewrite <- le_bytes_zero. now apply put_bytes_at.
    - rewrite <- Hz at 2. apply put_changes; auto. intros X. rewrite X in Hz. change (zlen (@nil Z)) with 0 in Hz. lia.
    - lia. }
  destruct t; try discriminate HN; injection HN as <- <-.
  - cbn [write option_map] in H. unfold write_relptr, write_rel_ptr_aligned in H. injection H as <-.
    specialize (T1 8 (bump 8 s)). rewrite bump_pos, bump_buf in T1. apply T1; auto. lia.
  - cbn [write option_map] in H. unfold write_absptr in H. injection H as <-. cbn [twf] in E.
    specialize (T1 w (bump w s)). rewrite bump_pos, bump_buf in T1. apply T1; auto. lia.
  - cbn [write] in H. unfold write_array_header in H. cbn [zlen length] in H.
    change (Z.of_nat 0) with 0 in H. cbn [Z.eqb bind write_list] in H. injection H as <-.
    rewrite bump_eq. cbn [wbuf wpos seek]. rewrite ?bump_eq.
    specialize (T16 (set_dp (round_up (wdp (mkW (wbuf s) (wpos s) (Z.max (wdp s) (wpos s + 16)))) 8)
       (mkW (wbuf s) (wpos s) (Z.max (wdp s) (wpos s + 16))))).
    apply T16. auto.
  - cbn [write] in H. unfold write_array_header in H. cbn [zlen length] in H.
    change (Z.of_nat 0) with 0 in H. cbn [Z.eqb bind] in H. injection H as <-.
    rewrite bump_eq.
    specialize (T16 (set_dp (round_up (wdp (mkW (wbuf s) (wpos s) (Z.max (wdp s) (wpos s + 16)))) 8)
       (mkW (wbuf s) (wpos s) (Z.max (wdp s) (wpos s + 16))))).
    apply T16. auto.
  - cbn [write] in H. unfold write_relptr, write_rel_ptr_aligned in H. cbn [bind] in H. injection H as <-.
    specialize (T16 (bump 8 (bump 16 s))). rewrite !bump_pos, !bump_buf in T16. apply T16; auto.
Qed.

Theorem nonnull_write A t v s s' :
  0 < A -> A mod 8 = 0 -> twf MTail t = true -> aln A t = true -> al16 t = true ->
  nonnull_value t v -> wt t v = true ->
  0 <= wpos s -> 0 <= wdp s -> write t v s = Ok s' -> wdp s' < 2 ^ 64 ->
  exists o, uint_at (wbuf s') (wpos s) (offset_width t) o /\ o <> 0.
Proof.
  intros HA HA8 E HAl H16 HN W Hp Hd H HL.
  pose proof (first_ref A t v s s') as HF. pose proof (csize_nonneg _ _ E) as HC.
  assert (X : forall x l, refs (wbuf s') (wpos s + csize t) t (wpos s) v = x :: l ->
    wpos s + csize t <= r_start x) by (intros; eapply HF; eauto). clear HF.
  destruct t; try destruct HN; destruct v; try destruct HN; cbn [offset_width csize] in *.
  - destruct o as [v|]; [|destruct HN]. specialize (X _ _ eq_refl). cbn [r_start] in X.
    exists (u64_at (wbuf s') (wpos s)). split; [apply u64_at_uint|]; lia.
  - destruct o as [v|]; [|destruct HN]. specialize (X _ _ eq_refl). cbn [r_start] in X. cbn [twf] in E.
    exists (uint_of (wbuf s') (wpos s) w). split; [apply uint_of_uint|]; lia.
  - destruct vs as [|v0 vr]; [destruct HN|]. specialize (X _ _ eq_refl). cbn [r_start] in X.
    exists (u64_at (wbuf s') (wpos s)). split; [apply u64_at_uint|]; lia.
  - destruct bs as [|v0 vr]; [destruct HN|]. specialize (X _ _ eq_refl). cbn [r_start] in X.
    exists (u64_at (wbuf s') (wpos s)). split; [apply u64_at_uint|]; lia.
  - destruct o as [v|]; [|destruct HN]. destruct v; try discriminate W. rewrite wt_enum in W.
    rewrite ref_enum in X. destruct (find_case tag vs); [|discriminate].
    specialize (X _ _ eq_refl). cbn [r_start] in X.
    exists (u64_at (wbuf s') (wpos s)). split; [apply u64_at_uint|]; lia.
Qed.

(** ** C10 *)
Theorem overflow_rejected t b p o :
  uint_at b p 8 o -> 2 ^ 64 <= p + o ->
  (o <> 0 -> read (TRel t) b p = Err EOverflow) /\
  (forall n, uint_at b (p + 8) 8 n -> read (TArr t) b p = Err EOverflow) /\
  (forall n, uint_at b (p + 8) 8 n -> read TBuf b p = Err EOverflow) /\
  (forall n vs, uint_at b (p + 8) 8 n -> o <> 0 -> read (TEnum vs) b p = Err EOverflow).
Proof.
  intros H HL.
  assert (R : read_int 8 b p = Ok (o, p + 8)) by (apply read_int_at; [lia|auto]).
  assert (R8 : forall n, uint_at b (p + 8) 8 n -> read_int 8 b (p + 8) = Ok (n, p + 8 + 8))
    by (intros; apply read_int_at; [lia|auto]).
  assert (HO : absolute_offset_checked p o = Err EOverflow).
  { unfold absolute_offset_checked. rewrite two64_pow. destruct (Z.ltb_spec (p + o) (2 ^ 64)); auto; lia. }
  repeat split.
  - intros Hn. cbn [read]. rewrite R. cbn [bind]. replace (o =? 0) with false by lia. rewrite HO. reflexivity.
  - intros n Hn. cbn [read]. rewrite R. cbn [bind]. rewrite (R8 n Hn). cbn [bind]. rewrite HO. reflexivity.
  - intros n Hn. cbn [read]. rewrite R. cbn [bind]. rewrite (R8 n Hn). cbn [bind]. rewrite HO. reflexivity.
  - intros n vs Hn Ho. rewrite read_enum. rewrite R. cbn [bind]. rewrite (R8 n Hn). cbn [bind].
    replace (o =? 0) with false by lia. rewrite HO. reflexivity.
Qed.

(** ** C12 *)
Lemma from_bytes_spec bs : exists rest,
  bs = cstring_from_bytes bs ++ rest /\ ~ In 0 (cstring_from_bytes bs) /\
  (rest = [] \/ exists r, rest = 0 :: r).
Proof.
  induction bs as [|x r (rest & IH1 & IH2 & IH3)]; cbn.
  - exists []. auto.
  - destruct (Z.eqb_spec x 0) as [->|Hx].
    + exists (0 :: r). cbn. split; [auto|]. split; [tauto|]. eauto.
    + exists rest. cbn. split; [congruence|]. split; [intuition|auto].
Qed.

Lemma from_bytes_wt bs n : bytes_ok bs = true -> wt (SsbhStringN n) (ssbh_string bs) = true.
Proof.
  intros H. cbn. rewrite andb_true_r. induction bs as [|x r IH]; cbn; auto.
  cbn in H. apply andb_true_iff in H as [H1 H2]. unfold is_byte in H1.
  destruct (Z.eqb_spec x 0); auto. cbn. rewrite IH by auto.
  replace (0 <? x) with true by lia. replace (x <? 256) with true by lia. reflexivity.
Qed.

Theorem string_roundtrip n bs s s' :
  0 < n -> bytes_ok bs = true -> bytes_ok (wbuf s) = true -> 0 <= wpos s -> 0 <= wdp s ->
  write (SsbhStringN n) (ssbh_string bs) s = Ok s' -> wdp s' < 2 ^ 64 ->
  read (SsbhStringN n) (wbuf s') (wpos s) = Ok (ssbh_string bs, wpos s + 8).
Proof.
  intros Hn Hb B Hp Hd H HL. pose proof (from_bytes_wt bs n Hb) as W.
  assert (E : twf MTail (SsbhStringN n) = true) by (cbn; lia).
  assert (HD : Dec (wbuf s') (SsbhStringN n) (wpos s) (ssbh_string bs)) by (eapply write_dec; eauto).
  apply (write_bytes_ok _ _ W) in H; auto.
  destruct (Dec_read (SsbhStringN n) false _ _ _ eq_refl H HD) as (q & R).
  rewrite R. f_equal. f_equal. apply (read_Dec _ false) in R as [_ Q]; auto.
Qed.

Theorem unterminated n b p : (forall i, p <= i -> byte_at b i <> Some 0) ->
  read (TCStr n) b p = Err EEof.
Proof.
  intros H. cbn [read].
  assert (X : forall k p, (forall i, p <= i -> byte_at b i <> Some 0) -> read_cstr k b p = Err EEof).
  { clear p H. induction k as [|k IH]; intros p H; cbn; [auto|].
    destruct (byte_at b p) as [x|] eqn:E; auto.
    destruct (Z.eqb_spec x 0) as [->|_]; [destruct (H p ltac:(lia) E)|].
    rewrite IH; auto. intros i Hi. apply H. lia. }
  rewrite X; auto.
Qed.

Theorem string_size n bs s s' : 0 < n -> write (TCStr n) (VBytes bs) s = Ok s' ->
  wpos s' = wpos s + (if zlen bs =? 0 then n else zlen bs + 1).
Proof.
  intros Hn H. cbn [write] in H. injection H as <-. unfold write_cstring.
  destruct bs as [|x r].
  - cbn. rewrite zlen_zeros; lia.
  - cbn [emit wpos]. rewrite zlen_cons. pose proof (zlen_nonneg r). change (zlen [0]) with 1.
    destruct (Z.eqb_spec (1 + zlen r) 0); lia.
Qed.

(** ** C13 *)
Theorem union_read vs b p v q : inl false (TEnum vs) = true -> bytes_ok b = true ->
  read (TEnum vs) b p = Ok (v, q) ->
  (uint_at b p 8 0 /\ v = VPtr None) \/
  exists tag t v', uint_at b (p + 8) 8 tag /\ In (tag, t) vs /\ v = VPtr (Some (VCase tag v')) /\
    (forall t', In (tag, t') vs -> t' = t) /\ exists o, uint_at b p 8 o /\ o <> 0 /\ Dec b t (p + o) v'.
Proof.
  intros E Hb H. apply (read_Dec _ false) in H as [D _]; auto.
  inversion D; subst; [now left|right].
  exists tag, t, v0. repeat split; auto; [|eauto].
  intros t' Ht. rewrite inl_enum in E. match goal with HX : In (tag, t) vs |- _ => apply (inl_case_iff vs tag t) in HX; auto end.
  apply (inl_case_iff vs tag t') in Ht; auto. congruence.
Qed.

Theorem union_unknown vs b p o tag :
  uint_at b p 8 o -> o <> 0 -> p + o < 2 ^ 64 -> uint_at b (p + 8) 8 tag ->
  (forall t, ~ In (tag, t) vs) -> read (TEnum vs) b p = Err ENoVariant.
Proof.
  intros H Hn HL Ht HI.
  assert (R : read_int 8 b p = Ok (o, p + 8)) by (apply read_int_at; [lia|auto]).
  assert (R8 : read_int 8 b (p + 8) = Ok (tag, p + 8 + 8)) by (apply read_int_at; [lia|auto]).
  assert (HO : absolute_offset_checked p o = Ok (p + o)) by (apply absolute_at; auto).
  rewrite read_enum. rewrite R. cbn [bind]. rewrite R8. cbn [bind].
  replace (o =? 0) with false by lia. rewrite HO. cbn [bind].
  destruct (find_case tag vs) eqn:Ef; [|reflexivity]. apply find_case_in in Ef. destruct (HI _ Ef).
Qed.

Theorem union_write vs tag v s s' :
  twf MTail (TEnum vs) = true -> inl false (TEnum vs) = true ->
  wt (TEnum vs) (VPtr (Some (VCase tag v))) = true -> bytes_ok (wbuf s) = true ->
  0 <= wpos s -> 0 <= wdp s -> write (TEnum vs) (VPtr (Some (VCase tag v))) s = Ok s' -> wdp s' < 2 ^ 64 ->
  uint_at (wbuf s') (wpos s + 8) 8 tag.
Proof.
  intros E HI W B Hp Hd H HL.
  assert (D : Dec (wbuf s') (TEnum vs) (wpos s) (VPtr (Some (VCase tag v)))) by (eapply write_dec; eauto).
  now inversion D.
Qed.

(** ** C14 *)
Theorem repr_read w ra tags b p : 0 <= w ->
  (forall v q, read (TRepr w ra tags) b p = Ok (v, q) <->
     exists n, uint_at b p w n /\ In n tags /\ v = VInt n /\ q = p + w) /\
  (forall n, uint_at b p w n -> ~ In n tags -> read (TRepr w ra tags) b p = Err ENoVariant).
Proof.
  intros Hw. cbn [read].
  assert (X : forall n, existsb (Z.eqb n) tags = true <-> In n tags).
  { intros n. rewrite existsb_exists. split.
    - intros (x & Hx & Ex). apply Z.eqb_eq in Ex. now subst.
    - intros Hn. exists n. split; auto. apply Z.eqb_refl. }
  split.
  - intros v q. split.
    + intros H. apply bind_ok in H as ([n p'] & R & H). apply read_int_at in R as [R ->]; auto.
      destruct (existsb (Z.eqb n) tags) eqn:Ex; [|discriminate]. injection H as <- <-.
      exists n. rewrite <- X. auto.
    + intros (n & R & Hn & -> & ->). assert (read_int w b p = Ok (n, p + w)) as -> by (apply read_int_at; auto).
      cbn [bind]. apply X in Hn. now rewrite Hn.
  - intros n R Hn. assert (read_int w b p = Ok (n, p + w)) as -> by (apply read_int_at; auto).
    cbn [bind]. destruct (existsb (Z.eqb n) tags) eqn:Ex; auto. apply X in Ex. contradiction.
Qed.

Theorem repr_write w ra tags n s s' :
  twf MInline (TRepr w ra tags) = true -> In n tags -> bytes_ok (wbuf s) = true ->
  0 <= wpos s -> write (TRepr w ra tags) (VInt n) s = Ok s' ->
  uint_at (wbuf s') (wpos s) w n.
Proof.
  intros E Hn B Hp H. cbn [write] in H. injection H as <-. cbn [twf] in E. bsplit E.
  rewrite forallb_forall in H. pose proof (H n Hn) as HR. rewrite bump_eq. cbn [emit wbuf wpos].
  exists (le_bytes (Z.to_nat w) n). split; [rewrite zlen_le_bytes; lia|]. split; [now apply put_bytes_at|].
  symmetry. apply le_val_le_bytes. rewrite Z2Nat.id by lia. lia.
Qed.

(** ** C19 *)
Theorem size_exact t v s s' :
  twf MInline t = true -> wt t v = true -> 0 <= wpos s -> 0 <= wdp s -> write t v s = Ok s' ->
  wpos s' = wpos s + size t v /\ forall v', wt t v' = true -> size t v' = size t v.
Proof.
  intros E W Hp Hd H.
  destruct (wok_all t MInline ltac:(discriminate) E v s s' W Hp Hd H) as [P _ _ _].
  rewrite (size_csize MInline) by (auto; discriminate). split; auto.
  intros v' W'. apply (size_csize MInline); auto; discriminate.
Qed.

Theorem size_inline t v : twf MInline t = true -> wt t v = true -> size t v = inline_size t.
Proof.
  intros E W. rewrite (size_csize MInline) by (auto; discriminate). symmetry. now apply isize_csize.
Qed.

(** ** C20 *)
Theorem absptr_exact w t v s :
  twf MTail (TAbs w t) = true -> inl false (TAbs w t) = true -> wt t v = true -> bytes_ok (wbuf s) = true ->
  0 <= wpos s -> 0 <= wdp s ->
  let q := round_up (Z.max (wdp s) (wpos s + w)) (ssbh_align t) in
  match write (TAbs w t) (VPtr (Some v)) s with
  | Ok s' => q < 256 ^ w /\ (wdp s' < 2 ^ 64 -> uint_at (wbuf s') (wpos s) w q /\ Dec (wbuf s') t q v)
  | Err e => e = EPtrRange
  | Panic => False
  end /\ (256 ^ w <= q -> write (TAbs w t) (VPtr (Some v)) s = Err EPtrRange).
Proof.
  intros E HI W B Hp Hd q.
  assert (W' : wt (TAbs w t) (VPtr (Some v)) = true) by exact W.
  assert (Hw : 0 < w) by (cbn [twf] in E; lia).
  assert (QE : write (TAbs w t) (VPtr (Some v)) s =
    if q <? 256 ^ w then
      let* s3 := write t v (mkW (put (wbuf s) (wpos s) (le_bytes (Z.to_nat w) q)) q q) in
      Ok (seek (wpos s + zlen (le_bytes (Z.to_nat w) q))
            (if wdp s3 <? wpos s3 then set_dp (round_up (wpos s3) (ssbh_align t)) s3 else s3))
    else Err EPtrRange).
  { cbn [write option_map]. unfold write_absptr. rewrite !bump_eq. cbn [set_dp wdp wpos wbuf emit seek].
    replace (Z.max (Z.max (wdp s) (wpos s + w)) (wpos s + w)) with (Z.max (wdp s) (wpos s + w)) by lia.
    reflexivity. }
  split.
  2:{ intros Hq. rewrite QE. replace (q <? 256 ^ w) with false by lia. reflexivity. }
  destruct (write_wres (TAbs w t) MTail (VPtr (Some v)) s E W') as [(s' & H)|[_ H]]; rewrite H; [|auto].
  split; [rewrite QE in H; destruct (Z.ltb_spec q (256 ^ w)); [auto|discriminate]|].
  intros HL.
  pose proof H as H0. cbn [write option_map] in H0.
  apply (absptr_some _ _ _ (read t) v) in H0; auto.
  - destruct H0 as (_ & _ & _ & _ & D).
    destruct (D (wbuf s')) as (off & q' & R1 & _ & R3 & ->); [now rewrite two64_pow|apply agree_refl|].
    fold q in R1, R3. apply read_int_at in R1 as [R1 _]; [|lia]. split; auto.
    apply (write_bytes_ok _ _ W') in H; auto.
    cbn [inl] in HI. apply andb_true_iff in HI as [_ HI]. eapply read_Dec in R3 as [D3 _]; eauto.
  - cbn [twf] in E. apply andb_true_iff in E as [_ E]. eapply ssbh_align_pos; eauto.
  - cbn [twf] in E. apply andb_true_iff in E as [_ E].
    apply target_of; auto. intros; apply wok_all; auto; discriminate.
Qed.

(** ** C21 *)
Lemma fs_set_same p c d : fs_set p c d p = Some c.
Proof. unfold fs_set. now rewrite Z.eqb_refl. Qed.

Lemma fs_set_other p c d q : q <> p -> fs_set p c d q = d q.
Proof. intros H. unfold fs_set. destruct (Z.eqb_spec q p); congruence. Qed.

Theorem save_path ser path e d r d' :
  write_to_file ser path e d = (r, d') ->
  (forall q, q <> path -> d' q = d q) /\
  (r = IoOk -> exists out, ser = Ok out /\ d' path = Some out) /\
  (forall err, ser = Err err -> r = IoErr /\ (d' path = d path \/ d' path = Some [])) /\
  (forall out, ser = Ok out -> create_ok e = true -> write_limit e = None -> r = IoOk).
Proof.
  unfold write_to_file. destruct (create_ok e).
  - destruct ser as [out|err|].
    + destruct (write_limit e) as [n|].
      * destruct (n <? zlen out); intros [= <- <-];
          (split; [intros; rewrite !fs_set_other by auto; auto|]);
          (split; [intros X; try discriminate X; exists out; split; auto; apply fs_set_same|]);
          split; discriminate.
      * intros [= <- <-]. split; [intros; rewrite !fs_set_other by auto; auto|].
        split; [exists out; split; auto; apply fs_set_same|]. split; [discriminate|auto].
    + intros [= <- <-]. split; [intros; rewrite !fs_set_other by auto; auto|].
      split; [discriminate|]. split; [|discriminate]. intros _ _. split; auto. right. apply fs_set_same.
    + intros [= <- <-]. split; [intros; rewrite !fs_set_other by auto; auto|].
      split; [discriminate|]. split; discriminate.
  - intros [= <- <-]. split; auto. split; [discriminate|]. split; [auto|]. congruence.
Qed.

(** ** Corollaries in the form of the properties *)
Theorem typed_roundtrip k v body out :
  file_ok (mkFile k v body) -> typed_write k v body = Ok out -> zlen out < 2 ^ 63 ->
  typed_read k out = Ok (v, body).
Proof.
  intros H E HL. rewrite typed_write_file in E. apply file_roundtrip in E; auto.
  now apply (typed_read_type k out (mkFile k v body)).
Qed.

Theorem save_fixpoint b f :
  bytes_ok b = true -> file_read b = Ok f ->
  exists out, file_write f = Ok out /\
    (zlen out < 2 ^ 63 -> exists f2, file_read out = Ok f2 /\ f2 = f /\ file_write f2 = Ok out).
Proof.
  intros Hb H. pose proof (file_read_ok _ _ Hb H) as HO.
  destruct (file_write_total f HO) as (out & E). exists out. split; auto. intros HL.
  exists f. split; [now apply file_roundtrip|]. auto.
Qed.

Theorem typed_write_total k v body : file_ok (mkFile k v body) -> exists out, typed_write k v body = Ok out.
Proof. intros H. rewrite typed_write_file. now apply file_write_total. Qed.

(** All objects of a file: the header together with the root struct, and everything the
    stored offsets lead to. *)
Theorem file_objects f t out :
  file_ok f -> format (fkind f) (fver f) = Some t -> file_write f = Ok out -> zlen out < 2 ^ 63 ->
  let e := 24 + csize t in
  let objects := mkRef 0 0 e 1 :: refs out e t 24 (fbody f) in
  ForallOrdPairs before objects /\ ForallOrdPairs disjoint objects /\ Forall (in_file (zlen out)) objects /\
  Forall (fun x => r_start x mod r_align x = 0) objects /\ Forall (fun x => r_owner_end x <= r_start x) objects /\
  gaps_below 8 0 objects.
Proof.
  intros HO F E HL e objects.
  destruct (file_placed f t out HO F E HL) as (H1 & H2 & P1 & P2 & P3 & P4 & P5 & P6).
  fold e in H1, H2, P1, P2, P3, P4, P5, P6.
  assert (B : ForallOrdPairs before objects).
  { constructor; auto. eapply Forall_impl; [|exact P5]. unfold before. cbn. intros; lia. }
  split; auto. split.
  { clear - B. induction B as [|x l H B IH]; constructor; auto.
    eapply Forall_impl; [|exact H]. unfold before, disjoint. intros; lia. }
  split; [constructor; auto; unfold in_file; cbn; lia|].
  split; [constructor; auto|]. split; [constructor; auto; cbn; lia|].
  cbn [objects gaps_below r_start r_len]. split; [lia|]. rewrite Z.add_0_l. exact P6.
Qed.

Theorem file_align_8 f out : file_ok f -> file_write f = Ok out ->
  fkind f = Mesh \/ (fkind f = Anim /\ fver f = (2, 1)) -> zlen out mod 8 = 0.
Proof.
  intros HO E HK. destruct HO as (t & F & W).
  assert (exists fs spad al, t = TStruct fs spad 8 al) as (fs & spad & al & ->).
  { destruct HK as [HK|[HK HV]]; rewrite HK in F.
    - apply lookup_in in F. cbn in F. destruct F as [F|[F|[F|[]]]]; injection F as _ <-;
        unfold Mesh_V8, Mesh_V9, Mesh_V10, Mesh_variant; eauto.
    - rewrite HV in F. injection F as <-. unfold Anim_V21. eauto. }
  eapply file_length_aligned; eauto; [exists (TStruct fs spad 8 al); auto|lia].
Qed.

Theorem file_objects_disjoint f t out :
  file_ok f -> format (fkind f) (fver f) = Some t -> file_write f = Ok out -> zlen out < 2 ^ 63 ->
  let e := 24 + csize t in
  let objects := mkRef 0 0 e 1 :: refs out e t 24 (fbody f) in
  ForallOrdPairs disjoint objects /\ Forall (in_file (zlen out)) objects.
Proof. intros HO F E HL. destruct (file_objects f t out HO F E HL) as (_ & H1 & H2 & _). auto. Qed.

Theorem file_objects_aligned f t out :
  file_ok f -> format (fkind f) (fver f) = Some t -> file_write f = Ok out -> zlen out < 2 ^ 63 ->
  Forall (fun x => r_owner_end x <= r_start x /\ r_start x mod r_align x = 0)
    (refs out (24 + csize t) t 24 (fbody f)).
Proof.
  intros HO F E HL. destruct (file_objects f t out HO F E HL) as (_ & _ & _ & H1 & H2 & _).
  apply Forall_inv_tail in H1, H2. apply Forall_and; auto.
Qed.

Theorem file_objects_ordered f t out :
  file_ok f -> format (fkind f) (fver f) = Some t -> file_write f = Ok out -> zlen out < 2 ^ 63 ->
  let e := 24 + csize t in
  let objects := mkRef 0 0 e 1 :: refs out e t 24 (fbody f) in
  ForallOrdPairs before objects /\ gaps_below 8 0 objects.
Proof. intros HO F E HL. destruct (file_objects f t out HO F E HL) as (H1 & _ & _ & _ & _ & H2). auto. Qed.

Theorem tight_refuted : exists f t out,
  file_ok f /\ format (fkind f) (fver f) = Some t /\ file_write f = Ok out /\ zlen out < 2 ^ 63 /\
  ~ tight (24 + csize t) (refs out (24 + csize t) t 24 (fbody f)).
Proof.
  exists ex_nufx, Nufx_V0, (written ex_nufx).
  split; [exists Nufx_V0; vm_compute; auto|]. split; [reflexivity|]. split; [vm_compute; reflexivity|].
  split; [vm_compute; reflexivity|].
  replace (refs (written ex_nufx) (24 + csize Nufx_V0) Nufx_V0 24 (fbody ex_nufx))
    with [mkRef 56 56 48 8; mkRef 104 104 4 4; mkRef 104 112 2 4] by (vm_compute; reflexivity).
  cbn [tight r_start r_len r_align]. intros (_ & _ & H & _). specialize (H 108 ltac:(lia) eq_refl). lia.
Qed.

Theorem write_objects A t v s s' :
  0 < A -> A mod 8 = 0 -> twf MTail t = true -> aln A t = true -> al16 t = true -> wt t v = true ->
  0 <= wpos s -> 0 <= wdp s -> write t v s = Ok s' -> wdp s' < 2 ^ 64 ->
  let e := wpos s + csize t in
  let objects := mkRef (wpos s) (wpos s) (csize t) 1 :: refs (wbuf s') e t (wpos s) v in
  ForallOrdPairs before objects /\ ForallOrdPairs disjoint objects /\
  Forall (in_file (zlen (wbuf s'))) (refs (wbuf s') e t (wpos s) v) /\
  Forall (fun x => r_owner_end x <= r_start x /\ r_start x mod r_align x = 0) (refs (wbuf s') e t (wpos s) v).
Proof.
  intros HA HA8 E HAl H16 W Hp Hd H HL e objects.
  destruct (write_placed A t v s s') as (P1 & P2 & P3 & P4 & P5 & P6); auto.
  fold e in P1, P2, P3, P4, P5.
  assert (B : ForallOrdPairs before objects).
  { constructor; auto. eapply Forall_impl; [|exact P5]. unfold before. cbn. intros; lia. }
  split; auto. split.
  { clear - B. induction B as [|x l H B IH]; constructor; auto.
    eapply Forall_impl; [|exact H]. unfold before, disjoint. intros; lia. }
  split; auto. apply Forall_and; auto.
Qed.

Theorem read_consumes t b p v q :
  inl false t = true -> bytes_ok b = true -> read t b p = Ok (v, q) -> q = p + inline_size t.
Proof. intros E Hb H. apply (read_Dec t false) in H as [_ H]; auto. Qed.

Theorem read_iff_Dec t b p v : inl false t = true -> bytes_ok b = true ->
  (read t b p = Ok (v, p + inline_size t) <-> Dec b t p v).
Proof.
  intros E Hb. split; intros H.
  - now apply (read_Dec t false) in H as [H _].
  - apply (Dec_read t false) in H; auto. now apply Dec_read_adv.
Qed.

Theorem format_inl k v t : format k v = Some t -> inl false t = true.
Proof.
  intros H. apply format_ok in H as [H _]. destruct t; try discriminate H.
  apply root_inv in H. tauto.
Qed.
