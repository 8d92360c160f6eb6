(** Lemmas about MeshEx and Adj files. *)
From Coq Require Import Lia ZifyBool ZifyNat ZifyN.
From Verif Require Import Bytes BytesFacts Ssbh Described SsbhFacts Roundtrip RoundtripMain WriteFacts
  SsbhSpec DecFacts ExtFacts Formats File FileFacts RefFacts FileSpec SsbhLemmas MeshEx.
Ltac Zify.zify_post_hook ::= ZifyBool.elim_bool_cstr; Z.to_euclidean_division_equations.

Lemma round_52 n : 52 <= n -> 0 + 64 <= round_up n 16.
Proof. unfold round_up. lia. Qed.

Local Opaque two64 le_bytes put Z.max Z.sub Z.add round_up.

Lemma emit_nil s : emit (zeros 0) s = s.
Proof. destruct s. unfold emit. cbn. f_equal. lia. Qed.

(** The fields after the file length as one struct. *)
Definition mx_tys (x : meshex) : list ty :=
  [u32; u32; TAbs 8 AllData; groups_ty (opt_len (mx_groups x)); entries_ty (opt_len (mx_entries x));
   flags_ty (opt_len (mx_flags x)); u32].
Definition mx_ty (x : meshex) : ty := record (mx_tys x).
Definition mx_vals (x : meshex) : list val :=
  [VInt (count32 (mx_entries x)); VInt (count32 (mx_groups x)); VPtr (mx_all x); vec_ptr (mx_groups x);
   vec_ptr (mx_entries x); flags_ptr (mx_flags x); VInt (mx_unk1 x)].

Lemma opt_len_nonneg o : 0 <= opt_len o.
Proof. destruct o; cbn; [apply zlen_nonneg|lia]. Qed.

Lemma mx_twf x m : twf m (mx_ty x) = true.
Proof.
  pose proof (opt_len_nonneg (mx_groups x)). pose proof (opt_len_nonneg (mx_entries x)).
  pose proof (opt_len_nonneg (mx_flags x)).
  unfold mx_ty, mx_tys, record. cbn. 
  rewrite !(proj2 (Z.leb_le _ _)) by auto. destruct m; reflexivity.
Qed.

Lemma mx_al16 x : al16 (mx_ty x) = true.
Proof. reflexivity. Qed.
Lemma mx_aln x : aln 16 (mx_ty x) = true.
Proof. reflexivity. Qed.
Lemma mx_csize x : csize (mx_ty x) = 44.
Proof. reflexivity. Qed.

Lemma mx_wt x : meshex_ok x = true -> wt (mx_ty x) (VStruct (mx_vals x)) = true.
Proof.
  unfold meshex_ok. rewrite !andb_true_iff. intros ((((H1 & H2) & H3) & H4) & H5).
  unfold mx_ty, record. rewrite wt_struct. cbn [mx_tys mx_vals map wt_fields].
  rewrite H1, H2, H3, H4, H5. cbn [wt u32].
  assert (X : forall o, (0 <=? count32 o) && (count32 o <? 256 ^ 4) = true).
  { intros o. unfold count32. change (256 ^ 4) with (2 ^ 32).
    pose proof (Z.mod_pos_bound (opt_len o) (2 ^ 32) ltac:(lia)). lia. }
  rewrite !X. reflexivity.
Qed.

Definition mx_start : wst := mkW (le_bytes 8 0) 8 64.

Lemma mx_size x : size (mx_ty x) (VStruct (mx_vals x)) = 44.
Proof. reflexivity. Qed.

Lemma mx_chain x :
  (let* s2 := write u32 (VInt (count32 (mx_entries x))) mx_start in
   let* s3 := write u32 (VInt (count32 (mx_groups x))) s2 in
   let* s4 := write (TAbs 8 AllData) (VPtr (mx_all x)) s3 in
   let* s5 := write (groups_ty (opt_len (mx_groups x))) (vec_ptr (mx_groups x)) s4 in
   let* s6 := write (entries_ty (opt_len (mx_entries x))) (vec_ptr (mx_entries x)) s5 in
   let* s7 := write (flags_ty (opt_len (mx_flags x))) (flags_ptr (mx_flags x)) s6 in
   write u32 (VInt (mx_unk1 x)) s7) = write (mx_ty x) (VStruct (mx_vals x)) mx_start.
Proof.
  unfold mx_ty, record. rewrite write_struct.
  change (bump (size_fields (map (fun t => (t, (0, 0))) (mx_tys x)) (mx_vals x) + 0) mx_start) with mx_start.
  cbn [mx_tys mx_vals map write_fields].
  destruct (write u32 _ mx_start) as [s2| |]; cbn [bind]; auto. rewrite emit_nil.
  destruct (write u32 _ s2) as [s3| |]; cbn [bind]; auto. rewrite emit_nil.
  destruct (write (TAbs 8 AllData) _ s3) as [s4| |]; cbn [bind]; auto. rewrite emit_nil.
  destruct (write (groups_ty _) _ s4) as [s5| |]; cbn [bind]; auto. rewrite emit_nil.
  destruct (write (entries_ty _) _ s5) as [s6| |]; cbn [bind]; auto. rewrite emit_nil.
  destruct (write (flags_ty _) _ s6) as [s7| |]; cbn [bind]; auto. rewrite emit_nil.
  destruct (write u32 _ s7) as [s8| |]; cbn [bind]; auto. rewrite !emit_nil. reflexivity.
Qed.

Lemma meshex_inv x out : meshex_write x = Ok out ->
  count32 (mx_entries x) = count32 (mx_flags x) /\
  exists s8, write (mx_ty x) (VStruct (mx_vals x)) mx_start = Ok s8 /\
    let n := round_up (zlen (wbuf s8)) 16 in
    out = put (wbuf s8 ++ zeros (n - zlen (wbuf s8))) 0 (le_bytes 8 n).
Proof.
  intros H. unfold meshex_write in H.
  destruct (Z.eqb_spec (count32 (mx_entries x)) (count32 (mx_flags x))) as [E|]; [|discriminate].
  split; auto. cbn [negb] in H. change (write u64 (VInt 0) (bump 64 fresh)) with (Ok mx_start) in H.
  cbn [bind] in H. rewrite <- mx_chain.
  do 7 (apply bind_ok in H as (? & -> & H); cbn [bind]).
  eexists. split; [reflexivity|]. cbn [write u64 emit seek wbuf wpos] in H.
  cbn [bind emit seek wbuf wpos] in H. rewrite zlen_put_end in H. injection H as <-. reflexivity.
Qed.

(** What is left unchanged by padding the file and storing its length. *)
Lemma finish_agree b n : agree (fun i => 8 <= i) b (put (b ++ zeros n) 0 (le_bytes 8 (round_up (zlen b) 16))).
Proof.
  intros i x Hi H. apply put_out; [lia|rewrite zlen_le_bytes; lia|].
  now apply (extends_app b).
Qed.

Lemma mx_write_facts x out : meshex_ok x = true -> meshex_write x = Ok out -> zlen out < 2 ^ 63 ->
  exists s8, write (mx_ty x) (VStruct (mx_vals x)) mx_start = Ok s8 /\ wdp s8 < two64 /\ 64 <= wdp s8 /\
    agree (fun i => 8 <= i) (wbuf s8) out /\ zlen (wbuf s8) <= zlen out /\ 52 <= zlen (wbuf s8) /\
    zlen out = round_up (zlen (wbuf s8)) 16 /\ bytes_at out 0 (le_bytes 8 (zlen out)).
Proof.
  intros W H HL. apply meshex_inv in H as (_ & s8 & E & HO). cbv zeta in HO.
  set (n := round_up (zlen (wbuf s8)) 16) in *.
  pose proof (zlen_nonneg (wbuf s8)) as Hz. pose proof (round_up_ge (zlen (wbuf s8)) 16 ltac:(lia)) as Hn.
  fold n in Hn.
  assert (Hp : 0 <= wpos mx_start) by (cbn; lia). assert (Hd : 0 <= wdp mx_start) by (cbn; lia).
  pose proof (mx_wt x W) as W'.
  destruct (wok_all (mx_ty x) MInline ltac:(discriminate) (mx_twf x MInline) _ _ _ W' Hp Hd E) as [A B C D].
  destruct (dp_all (mx_ty x) MInline _ _ _ ltac:(discriminate) (mx_twf x MInline) (mx_al16 x) W' Hp Hd E)
    as (Q1 & Q2 & Q3).
  rewrite mx_csize in *. cbn [mx_start wpos wdp wbuf] in *.
  assert (L8 : 52 <= zlen (wbuf s8)) by lia.
  assert (LO : zlen out = n).
  { rewrite HO, put_len by lia. pose proof (zlen_le_bytes 8 n) as Hl.
    destruct (le_bytes 8 n) eqn:El; [discriminate Hl|]. rewrite Hl, zlen_app, zlen_zeros by lia. lia. }
  specialize (Q3 64 ltac:(lia)).
  assert (QL : le16 (wdp s8) (Z.max (zlen (wbuf s8)) 64)) by (apply Q3, le16_le; lia).
  exists s8. split; auto. split.
  { unfold le16 in QL.
    pose proof (round_up_lt (Z.max (zlen (wbuf s8)) 64) 16 ltac:(lia)).
    change (2 ^ 63) with 9223372036854775808 in HL. change two64 with 18446744073709551616. lia. }
  split; [lia|]. split; [rewrite HO; apply finish_agree|].
  split; [lia|]. split; auto. split; auto. rewrite LO, HO. apply put_bytes_at. lia.
Qed.

Lemma un_vec_ptr o : un_vec (vec_ptr o) = Ok o.
Proof. destruct o; reflexivity. Qed.
Lemma un_flags_ptr o : un_flags (flags_ptr o) = Ok o.
Proof. destruct o; reflexivity. Qed.

Lemma count32_small o : opt_len o < 2 ^ 32 -> count32 o = opt_len o.
Proof. intros H. unfold count32. apply Z.mod_small. pose proof (opt_len_nonneg o). lia. Qed.

Lemma bytes_at_read w b p n : 0 <= w -> uint_at b p w n -> read_int w b p = Ok (n, p + w).
Proof. intros Hw H. apply read_int_at; auto. Qed.

Lemma read_fields_cons t wp fs b p v vs q :
  read_fields ((t, (wp, 0)) :: fs) b p = Ok (v :: vs, q) ->
  exists p1, read t b p = Ok (v, p1) /\ read_fields fs b p1 = Ok (vs, q).
Proof.
  cbn [read_fields]. intros H. apply bind_ok in H as ([v' p1] & E & H).
  apply bind_ok in H as ([vs' p2] & E' & H). injection H as <- <- <-.
  rewrite Z.add_0_r in E'. eauto.
Qed.

Theorem meshex_roundtrip x out :
  meshex_ok x = true -> opt_len (mx_groups x) < 2 ^ 32 -> opt_len (mx_entries x) < 2 ^ 32 ->
  opt_len (mx_flags x) < 2 ^ 32 -> meshex_write x = Ok out -> zlen out < 2 ^ 63 ->
  meshex_read out = Ok x /\ zlen out mod 16 = 0 /\ uint_at out 0 8 (zlen out).
Proof.
  intros W Lg Le Lf H HL.
  destruct (mx_write_facts x out W H HL) as (s8 & E & D1 & D2 & HA & _ & L8 & LO & HB).
  apply meshex_inv in H as (HC & _).
  rewrite !count32_small in HC by auto.
  assert (U : uint_at out 0 8 (zlen out)).
  { exists (le_bytes 8 (zlen out)). split; [apply zlen_le_bytes|]. split; auto.
    rewrite le_val_le_bytes; auto. pose proof (zlen_nonneg out). change (256 ^ Z.of_nat 8) with (2 ^ 64). lia. }
  split; [|split; [rewrite LO; apply round_up_mod; lia|auto]].
  assert (Hp : 0 <= wpos mx_start) by (cbn; lia). assert (Hd : 0 <= wdp mx_start) by (cbn; lia).
  destruct (wok_all (mx_ty x) MInline ltac:(discriminate) (mx_twf x MInline) _ _ _ (mx_wt x W) Hp Hd E)
    as [_ _ _ R].
  destruct (R out D1) as (q & Hq & _).
  { eapply agree_mono; [|exact HA]. cbv beta. unfold wreg, reg. rewrite mx_csize. cbn. lia. }
  clear R. unfold mx_ty, record in Hq. rewrite read_struct in Hq.
  apply bind_ok in Hq as ([vs p'] & Hq & Hv). injection Hv as -> ->.
  unfold mx_vals in Hq. cbn [mx_tys map] in Hq. change (wpos mx_start) with 8 in Hq.
  rewrite !count32_small in Hq by auto.
  apply read_fields_cons in Hq as (p2 & R2 & Hq). apply read_fields_cons in Hq as (p3 & R3 & Hq).
  apply read_fields_cons in Hq as (p4 & R4 & Hq). apply read_fields_cons in Hq as (p5 & R5 & Hq).
  apply read_fields_cons in Hq as (p6 & R6 & Hq). apply read_fields_cons in Hq as (p7 & R7 & Hq).
  apply read_fields_cons in Hq as (p8 & R8 & _).
  unfold meshex_read. rewrite (bytes_at_read 8 out 0 (zlen out)) by (auto; lia). cbn [bind].
  change (0 + 8) with 8.
  cbn [read u32] in R2, R3. apply bind_ok in R2 as ([n2 q2] & R2 & X). injection X as -> ->.
  apply bind_ok in R3 as ([n3 q3] & R3 & X). injection X as -> ->.
  rewrite R2. cbn [bind]. rewrite R3. cbn [bind]. rewrite R4. cbn [bind]. rewrite R5. cbn [bind].
  rewrite R6. cbn [bind]. rewrite HC. rewrite R7. cbn [bind]. rewrite R8. cbn [bind].
  rewrite !un_vec_ptr, un_flags_ptr. cbn [bind un_ptr un_int]. destruct x; reflexivity.
Qed.

Theorem meshex_errors x : meshex_ok x = true ->
  opt_len (mx_groups x) < 2 ^ 32 -> opt_len (mx_entries x) < 2 ^ 32 -> opt_len (mx_flags x) < 2 ^ 32 ->
  (opt_len (mx_entries x) <> opt_len (mx_flags x) -> meshex_write x = Err ECount) /\
  (opt_len (mx_entries x) = opt_len (mx_flags x) ->
     (exists out, meshex_write x = Ok out) \/ meshex_write x = Err EPtrRange).
Proof.
  intros W Lg Le Lf. unfold meshex_write. rewrite !count32_small by auto. split; intros HE.
  - destruct (Z.eqb_spec (opt_len (mx_entries x)) (opt_len (mx_flags x))); [congruence|reflexivity].
  - rewrite HE, Z.eqb_refl. cbn [negb].
    change (write u64 (VInt 0) (bump 64 fresh)) with (Ok mx_start). cbn [bind].
    pose proof (write_wres (mx_ty x) MInline (VStruct (mx_vals x)) mx_start (mx_twf x MInline) (mx_wt x W)) as R.
    rewrite <- mx_chain in R. rewrite !count32_small in R by auto. rewrite HE in R.
    unfold wres in R. 
    repeat match goal with
    | |- context [bind (write ?t ?v ?s) _] => destruct (write t v s) as [?| |] eqn:?E; cbn [bind] in *
    end; eauto; destruct R as [(s' & R)|(_ & R)]; try discriminate R; try (right; congruence).
    all: cbn [write u64] in E6; discriminate E6.
Qed.

(** ** Layout *)
Lemma uint_iff w b p v : 0 <= w -> (Dec b (TInt w) p v <-> exists n, v = VInt n /\ uint_at b p w n).
Proof.
  intros Hw. split.
  - intros D. inversion D; subst. eauto.
  - intros (n & -> & H). constructor; auto.
Qed.

Lemma read_step t b p v q : inl false t = true -> bytes_ok b = true ->
  (read t b p = Ok (v, q) <-> Dec b t p v /\ q = p + inline_size t).
Proof.
  intros E Hb. split.
  - intros H. apply (read_Dec t false) in H as [H1 H2]; auto.
  - intros (H & ->). now apply read_iff_Dec.
Qed.

Lemma un_vec_iff v o : un_vec v = Ok o <-> v = vec_ptr o.
Proof.
  split; [|intros ->; apply un_vec_ptr].
  intros H. destruct v as [| | | |[[]|]|]; cbn in H; try discriminate H; injection H as <-; reflexivity.
Qed.

Lemma un_flags_iff v o : un_flags v = Ok o <-> v = flags_ptr o.
Proof.
  split; [|intros ->; apply un_flags_ptr].
  intros H. destruct v as [| | | |[[| |[|[| | |l| |] [|]]| | |]|]|]; cbn in H; try discriminate H;
    injection H as <-; reflexivity.
Qed.

Lemma uint_nonneg b p w n : bytes_ok b = true -> uint_at b p w n -> 0 <= n.
Proof.
  intros Hb (bs & H1 & H2 & ->).
  assert (bytes_ok bs = true).
  { eapply get_bytes_ok; [exact Hb|]. apply (get_bytes_at (length bs)). eauto. }
  pose proof (le_val_range bs). lia.
Qed.

Theorem meshex_read_dec b x : bytes_ok b = true -> (meshex_read b = Ok x <-> DecMeshEx b x).
Proof.
  intros Hb. unfold meshex_read, DecMeshEx.
  assert (I1 : inl false (TAbs 8 AllData) = true) by reflexivity.
  assert (I2 : forall n, 0 <= n -> inl false (groups_ty n) = true) by (intros; cbn; lia).
  assert (I3 : forall n, 0 <= n -> inl false (entries_ty n) = true) by (intros; cbn; lia).
  assert (I4 : forall n, 0 <= n -> inl false (flags_ty n) = true) by (intros; cbn; lia).
  assert (I5 : inl false u32 = true) by reflexivity.
  split.
  - intros H. apply bind_ok in H as ([len p1] & R1 & H). apply bind_ok in H as ([ne p2] & R2 & H).
    apply bind_ok in H as ([ng p3] & R3 & H).
    apply read_int_at in R1 as [R1 ->]; [|lia]. apply read_int_at in R2 as [R2 ->]; [|lia].
    apply read_int_at in R3 as [R3 ->]; [|lia].
    pose proof (uint_nonneg _ _ _ _ Hb R2) as N2. pose proof (uint_nonneg _ _ _ _ Hb R3) as N3.
    apply bind_ok in H as ([v4 p4] & R4 & H). apply read_step in R4 as [R4 ->]; auto.
    apply bind_ok in H as ([v5 p5] & R5 & H). apply read_step in R5 as [R5 ->]; auto.
    apply bind_ok in H as ([v6 p6] & R6 & H). apply read_step in R6 as [R6 ->]; auto.
    apply bind_ok in H as ([v7 p7] & R7 & H). apply read_step in R7 as [R7 ->]; auto.
    apply bind_ok in H as ([v8 p8] & R8 & H). apply read_step in R8 as [R8 ->]; auto.
    apply bind_ok in H as (a & U1 & H). apply bind_ok in H as (g & U2 & H).
    apply bind_ok in H as (e & U3 & H). apply bind_ok in H as (f & U4 & H).
    apply bind_ok in H as (u & U5 & H). injection H as <-.
    apply un_vec_iff in U2, U3. apply un_flags_iff in U4. subst.
    apply uint_iff in R8 as (n & -> & R8); [|lia]. injection U5 as ->.
    assert (v4 = VPtr a) as -> by (destruct v4; try discriminate U1; injection U1 as ->; reflexivity).
    exists len, ne, ng. cbn [mx_all mx_groups mx_entries mx_flags mx_unk1]. auto 10.
  - intros (len & ne & ng & R1 & R2 & R3 & R4 & R5 & R6 & R7 & R8).
    pose proof (uint_nonneg _ _ _ _ Hb R2) as N2. pose proof (uint_nonneg _ _ _ _ Hb R3) as N3.
    assert (forall w p n, 0 <= w -> uint_at b p w n -> read_int w b p = Ok (n, p + w)) as RI
      by (intros; apply read_int_at; auto).
    rewrite (RI 8 0 len) by (auto; lia). cbn [bind]. change (0 + 8) with 8.
    rewrite (RI 4 8 ne) by (auto; lia). cbn [bind]. change (8 + 4) with 12.
    rewrite (RI 4 12 ng) by (auto; lia). cbn [bind]. change (12 + 4) with 16.
    apply read_iff_Dec in R4; auto. rewrite R4. cbn [bind]. change (16 + inline_size _) with 24.
    apply (read_iff_Dec (groups_ty ng)) in R5; auto. rewrite R5. cbn [bind]. change (24 + inline_size _) with 32.
    apply (read_iff_Dec (entries_ty ne)) in R6; auto. rewrite R6. cbn [bind]. change (32 + inline_size _) with 40.
    apply (read_iff_Dec (flags_ty ne)) in R7; auto. rewrite R7. cbn [bind]. change (40 + inline_size _) with 48.
    assert (R8' : Dec b u32 48 (VInt (mx_unk1 x))) by (constructor; auto).
    apply read_iff_Dec in R8'; auto. rewrite R8'. cbn [bind].
    rewrite !un_vec_ptr, un_flags_ptr. cbn [bind un_ptr un_int]. destruct x; reflexivity.
Qed.

Theorem meshex_placed x out :
  meshex_ok x = true -> meshex_write x = Ok out -> zlen out < 2 ^ 63 ->
  ForallOrdPairs before (meshex_objects out x) /\ ForallOrdPairs disjoint (meshex_objects out x) /\
  Forall (in_file (zlen out)) (meshex_objects out x) /\
  Forall (fun r => r_owner_end r <= r_start r /\ r_start r mod r_align r = 0) (tl (meshex_objects out x)).
Proof.
  intros W H HL.
  destruct (mx_write_facts x out W H HL) as (s8 & E & D1 & D2 & HA & _ & L8 & LO & _). clear H.
  assert (Hp : 0 <= wpos mx_start) by (cbn; lia). assert (Hd : 0 <= wdp mx_start) by (cbn; lia).
  pose proof (x_all 16 ltac:(lia) eq_refl (mx_ty x) MInline _ _ _ ltac:(discriminate) (mx_twf x MInline)
    (mx_aln x) (mx_al16 x) (mx_wt x W) Hp Hd E) as HX.
  rewrite mx_csize in HX. unfold xspec in HX. change (wpos mx_start) with 8 in HX.
  change (wdp mx_start) with 64 in HX.
  destruct (HX 64 out) as (L1 & _ & _); auto; try lia.
  { pose proof (round_up_ge 64 16 ltac:(lia)). lia. }
  { eapply agree_mono; [|exact HA]. cbv beta. unfold wreg, reg. cbn. lia. }
  clear HX.
  assert (T : tl (meshex_objects out x) = refs out 64 (mx_ty x) 8 (VStruct (mx_vals x))).
  { unfold mx_ty, record. rewrite ref_struct. unfold mx_vals, meshex_objects.
    cbn [mx_tys map ref_fields tl refs inline_size u32 app].
    change (8 + 4 + 0) with 12. change (12 + 4 + 0) with 16. change (16 + 8 + 0) with 24.
    change (24 + inline_size (groups_ty (opt_len (mx_groups x))) + 0) with 32.
    change (32 + inline_size (entries_ty (opt_len (mx_entries x))) + 0) with 40.
    rewrite app_nil_r. reflexivity. }
  rewrite <- (strip_refs (mx_ty x) out 64) in L1.
  pose proof L1 as L1'. rewrite (strip_refs (mx_ty x) out 64) in L1'.
  apply owner_refs with (c := 64) in L1' as HO; [|lia].
  apply laid_placed in L1 as (P1 & P2 & P3 & P4 & P5 & P6); [|lia|auto].
  rewrite <- T in *.
  assert (B : ForallOrdPairs before (meshex_objects out x)).
  { change (meshex_objects out x) with (mkRef 0 0 64 1 :: tl (meshex_objects out x)).
    constructor; auto. eapply Forall_impl; [|exact P5]. unfold before. cbn. intros; lia. }
  split; auto. split.
  { clear - B. induction B as [|y l H B IH]; constructor; auto.
    eapply Forall_impl; [|exact H]. unfold before, disjoint. intros; lia. }
  split; [|apply Forall_and; auto].
  change (meshex_objects out x) with (mkRef 0 0 64 1 :: tl (meshex_objects out x)).
  constructor; auto. unfold in_file. cbn. intros _. split; [lia|].
  rewrite LO. apply round_52; lia.
Qed.

(** ** Adj *)
Definition entry_bytes (e : Z * Z) : list Z := le_bytes 4 (fst e) ++ le_bytes 4 (snd e).

Lemma bump_eq k b p d : exists d', bump k (mkW b p d) = mkW b p d'.
Proof. unfold bump. cbn [wbuf wpos wdp]. destruct (_ <? _); eauto. Qed.

Lemma write_entry e b d : exists d',
  write AdjEntry (entry_val e) (mkW b (zlen b) d) =
    Ok (mkW (b ++ entry_bytes e) (zlen (b ++ entry_bytes e)) d').
Proof.
  unfold AdjEntry, entry_val, record. rewrite write_struct.
  destruct (bump_eq (size_fields (map (fun t => (t, (0, 0))) [u32; u32]) [VInt (fst e); VInt (snd e)] + 0)
    b (zlen b) d) as [d' ->].
  exists d'. cbn [map write_fields write u32 bind]. rewrite emit_end. cbn [bind].
  rewrite !emit_nil, emit_end. cbn [bind]. unfold align_after. cbn [Z.ltb].
  unfold entry_bytes. rewrite <- app_assoc. reflexivity.
Qed.

Lemma write_list_end {A} (w : val -> wst -> res wst) (f : A -> val) (g : A -> list Z) :
  (forall e b d, exists d', w (f e) (mkW b (zlen b) d) = Ok (mkW (b ++ g e) (zlen (b ++ g e)) d')) ->
  forall l b d, exists d', write_list w (map f l) (mkW b (zlen b) d) =
    Ok (mkW (b ++ flat_map g l) (zlen (b ++ flat_map g l)) d').
Proof.
  intros H l. induction l as [|e l IH]; intros b d; cbn [map write_list flat_map].
  - rewrite app_nil_r. eauto.
  - destruct (H e b d) as [d1 ->]. cbn [bind]. destruct (IH (b ++ g e) d1) as [d2 ->].
    rewrite <- app_assoc. eauto.
Qed.

Lemma write_u32 n s : write u32 (VInt n) s = Ok (emit (le_bytes 4 n) s).
Proof. reflexivity. Qed.

Lemma write_vec n t vs s : write (TVec n t) (VArr vs) s =
  if zlen vs =? n then write_list (write t) vs (bump (slice_size t vs) s) else Err EType.
Proof. reflexivity. Qed.

Theorem adj_write_bytes x : zlen (ad_entries x) < 2 ^ 32 -> adj_write x = Ok (adj_bytes x).
Proof.
  intros H. unfold adj_write. pose proof (zlen_nonneg (ad_entries x)).
  rewrite Z.mod_small by lia. unfold fresh.
  rewrite write_u32. change (mkW [] 0 0) with (mkW [] (zlen (@nil Z)) 0). rewrite emit_end. cbn [bind app].
  assert (Z1 : (zlen (map entry_val (ad_entries x)) =? zlen (ad_entries x)) = true)
    by (unfold zlen; rewrite map_length; lia).
  assert (Z2 : (zlen (map VInt (ad_indices x)) =? zlen (ad_indices x)) = true)
    by (unfold zlen; rewrite map_length; lia).
  rewrite write_vec, Z1.
  match goal with |- context [bump ?k (mkW ?b ?p ?d)] => destruct (bump_eq k b p d) as [d1 ->] end.
  destruct (write_list_end (write AdjEntry) entry_val entry_bytes write_entry (ad_entries x)
    (le_bytes 4 (zlen (ad_entries x))) d1) as [d2 ->].
  cbn [bind].
  rewrite write_vec, Z2.
  match goal with |- context [bump ?k (mkW ?b ?p ?d)] => destruct (bump_eq k b p d) as [d3 ->] end.
  edestruct (write_list_end (write i16) VInt (le_bytes 2)) as [d4 ->].
  { intros e b d. exists d. cbn [write i16]. rewrite emit_end. reflexivity. }
  cbn [bind wbuf]. unfold adj_bytes. rewrite <- app_assoc. reflexivity.
Qed.

Lemma read_int_app w a x r : (0 < w)%nat -> 0 <= x < 256 ^ Z.of_nat w ->
  read_int (Z.of_nat w) (a ++ le_bytes w x ++ r) (zlen a) = Ok (x, zlen a + Z.of_nat w).
Proof.
  intros Hw Hx. unfold read_int. rewrite Nat2Z.id, get_app by now rewrite le_bytes_length.
  now rewrite le_val_le_bytes.
Qed.

Lemma read_entries l : forallb (fun e => u32_ok (fst e) && u32_ok (snd e)) l = true ->
  forall a r, read_n (length l) (read AdjEntry (a ++ flat_map entry_bytes l ++ r)) (zlen a) =
    Ok (map entry_val l, zlen (a ++ flat_map entry_bytes l)).
Proof.
  induction l as [|e l IH]; intros H a r; cbn [length read_n flat_map map].
  - now rewrite app_nil_r.
  - cbn [forallb] in H. apply andb_true_iff in H as [He Hl]. unfold u32_ok in He.
    assert (R : read AdjEntry (a ++ (entry_bytes e ++ flat_map entry_bytes l) ++ r) (zlen a) =
      Ok (entry_val e, zlen (a ++ entry_bytes e))).
    { unfold AdjEntry, record. rewrite read_struct. cbn [map read_fields read u32].
      unfold entry_bytes. rewrite <- !app_assoc.
      rewrite (read_int_app 4 a) by (cbn; lia). cbn [bind].
      replace (zlen a + 0 + Z.of_nat 4 + 0) with (zlen (a ++ le_bytes 4 (fst e)))
        by (rewrite zlen_app; unfold zlen; rewrite le_bytes_length; lia).
      replace (zlen a + Z.of_nat 4 + 0) with (zlen (a ++ le_bytes 4 (fst e)))
        by (rewrite zlen_app; unfold zlen; rewrite le_bytes_length; lia).
      rewrite (app_assoc a). rewrite (read_int_app 4 (a ++ le_bytes 4 (fst e))) by (cbn; lia).
      cbn [bind]. unfold entry_val. do 2 f_equal.
      rewrite !zlen_app. unfold zlen. rewrite !le_bytes_length. lia. }
    rewrite R. cbn [bind].
    replace (a ++ (entry_bytes e ++ flat_map entry_bytes l) ++ r)
      with ((a ++ entry_bytes e) ++ flat_map entry_bytes l ++ r) by now rewrite <- !app_assoc.
    rewrite IH by auto. cbn [bind]. now rewrite <- app_assoc.
Qed.

Lemma un_entries_map l : un_entries (map entry_val l) = Ok l.
Proof. induction l as [|[a b] l IH]; cbn; [auto|]. now rewrite IH. Qed.

Lemma read_int_end w a r : zlen r < w -> read_int w (a ++ r) (zlen a) = Err EEof.
Proof.
  intros Hw. unfold read_int. pose proof (zlen_nonneg r).
  destruct (get_bytes (Z.to_nat w) (a ++ r) (zlen a)) as [bs|] eqn:E; auto.
  apply get_bytes_bound in E; [|lia]. rewrite zlen_app in E. lia.
Qed.

Lemma until_eof_app l r : forallb u16_ok l = true -> zlen r < 2 -> forall n a, (length l <= n)%nat ->
  until_eof n (a ++ flat_map (le_bytes 2) l ++ r) (zlen a) = l.
Proof.
  intros H Hr. induction l as [|x l IH]; intros n a Hn.
  - cbn [flat_map app]. destruct n; cbn [until_eof]; auto. now rewrite read_int_end by lia.
  - cbn [forallb] in H. apply andb_true_iff in H as [Hx Hl]. unfold u16_ok in Hx.
    cbn [length] in Hn. destruct n as [|n]; [lia|]. cbn [until_eof flat_map].
    rewrite <- app_assoc. rewrite (read_int_app 2 a) by (cbn; lia).
    replace (zlen a + Z.of_nat 2) with (zlen (a ++ le_bytes 2 x))
      by (rewrite zlen_app; unfold zlen; rewrite le_bytes_length; lia).
    rewrite app_assoc, IH by (auto; lia). reflexivity.
Qed.

Theorem adj_read_bytes x r : adj_ok x = true -> zlen (ad_entries x) < 2 ^ 32 -> zlen r < 2 ->
  adj_read (adj_bytes x ++ r) = Ok x.
Proof.
  intros H HL Hr. unfold adj_ok in H. apply andb_true_iff in H as [H1 H2].
  unfold adj_read, adj_bytes. pose proof (zlen_nonneg (ad_entries x)). rewrite <- !app_assoc.
  match goal with |- context [read_int 4 (le_bytes 4 ?n ++ ?r) 0] =>
    assert (R : read_int 4 (le_bytes 4 n ++ r) 0 = Ok (n, zlen (@nil Z) + Z.of_nat 4))
      by (apply (read_int_app 4 []); cbn; lia) end.
  rewrite R. cbn [bind]. clear R.
  rewrite read_elements_n. replace (Z.to_nat (zlen (ad_entries x))) with (length (ad_entries x))
    by (unfold zlen; lia).
  replace (zlen (@nil Z) + Z.of_nat 4) with (zlen (le_bytes 4 (zlen (ad_entries x))))
    by (unfold zlen at 1; rewrite le_bytes_length; cbn; lia).
  change (fun e : Z * Z => le_bytes 4 (fst e) ++ le_bytes 4 (snd e)) with entry_bytes.
  rewrite read_entries by auto. cbn [bind]. rewrite un_entries_map. cbn [bind].
  rewrite app_assoc, until_eof_app; auto.
  - destruct x; reflexivity.
  - rewrite !app_length. apply Nat.le_trans with (length (flat_map (le_bytes 2) (ad_indices x))); [|lia].
    clear. induction (ad_indices x) as [|i l IH]; cbn [flat_map length]; [lia|].
    rewrite app_length, le_bytes_length. lia.
Qed.

Lemma get_split n : forall a c bs, get_bytes n (a ++ c) (zlen a) = Some bs -> exists r, c = bs ++ r.
Proof.
  induction n as [|n IH]; intros a c bs H; cbn [get_bytes] in H.
  - injection H as <-. now exists c.
  - destruct (byte_at (a ++ c) (zlen a)) as [x|] eqn:E; [|discriminate].
    destruct (get_bytes n (a ++ c) (zlen a + 1)) as [bs'|] eqn:E2; [|discriminate]. injection H as <-.
    destruct c as [|y c].
    + assert (get_bytes 1 (a ++ []) (zlen a) = Some [x]) as G by (cbn [get_bytes]; now rewrite E).
      apply get_bytes_bound in G; [|lia]. rewrite app_nil_r in G. lia.
    + pose proof (get_app a [y] c 1 eq_refl) as G. cbn [get_bytes app] in G. rewrite E in G. injection G as ->.
      replace (a ++ y :: c) with ((a ++ [y]) ++ c) in E2 by now rewrite <- app_assoc.
      replace (zlen a + 1) with (zlen (a ++ [y])) in E2 by (rewrite zlen_app; reflexivity).
      apply IH in E2 as [r ->]. now exists r.
Qed.

Lemma read_int_split w a c n q : bytes_ok (a ++ c) = true -> read_int (Z.of_nat w) (a ++ c) (zlen a) = Ok (n, q) ->
  0 <= n < 256 ^ Z.of_nat w /\ q = zlen (a ++ le_bytes w n) /\ exists r, c = le_bytes w n ++ r.
Proof.
  intros Hb H. unfold read_int in H. rewrite Nat2Z.id in H.
  destruct (get_bytes w (a ++ c) (zlen a)) as [bs|] eqn:E; [|discriminate]. injection H as <- <-.
  pose proof (get_bytes_length _ _ _ _ E) as B3. pose proof (get_bytes_ok _ _ _ _ Hb E) as B4.
  pose proof (le_val_range _ B4) as B5. unfold zlen in B5. rewrite B3 in B5. split; auto.
  apply get_split in E. rewrite <- B3, le_bytes_le_val by auto. split; auto.
  rewrite zlen_app. reflexivity.
Qed.

Lemma read_entries_split n : forall a c vs q, bytes_ok (a ++ c) = true ->
  read_n n (read AdjEntry (a ++ c)) (zlen a) = Ok (vs, q) ->
  exists l r, vs = map entry_val l /\ length l = n /\ c = flat_map entry_bytes l ++ r /\
    q = zlen (a ++ flat_map entry_bytes l) /\
    forallb (fun e => u32_ok (fst e) && u32_ok (snd e)) l = true.
Proof.
  induction n as [|n IH]; intros a c vs q Hb H; cbn [read_n] in H.
  - injection H as <- <-. exists [], c. cbn. rewrite app_nil_r. auto.
  - apply bind_ok in H as ([v p1] & R & H). apply bind_ok in H as ([vs' p2] & R2 & H).
    injection H as <- <-. unfold AdjEntry at 1, record in R. rewrite read_struct in R.
    cbn [map read_fields read u32] in R.
    apply bind_ok in R as ([us p3] & R & H). injection H as <- <-.
    apply bind_ok in R as ([v1 p4] & R & H). apply bind_ok in R as ([x p5] & R & H1). injection H1 as <- <-.
    apply (read_int_split 4) in R as (X1 & -> & c1 & ->); auto.
    apply bind_ok in H as ([vs1 p6] & H & H1). injection H1 as <- <-.
    apply bind_ok in H as ([v2 p7] & H & H1). apply bind_ok in H as ([y p8] & R & H2). injection H2 as <- <-.
    cbn [bind] in H1. injection H1 as <- <-.
    replace (zlen (a ++ le_bytes 4 x) + 0) with (zlen (a ++ le_bytes 4 x)) in R by lia.
    rewrite app_assoc in Hb, R, R2.
    apply (read_int_split 4) in R as (Y1 & -> & c2 & ->); auto.
    replace (zlen ((a ++ le_bytes 4 x) ++ le_bytes 4 y) + 0) with (zlen ((a ++ le_bytes 4 x) ++ le_bytes 4 y))
      in R2 by lia.
    rewrite app_assoc in Hb, R2. apply IH in R2 as (l & r & -> & L & -> & -> & F); auto.
    exists ((x, y) :: l), r. cbn [map length flat_map forallb fst snd].
    change (256 ^ Z.of_nat 4) with (2 ^ 32) in *.
    unfold entry_val at 2, u32_ok at 1 2. unfold entry_bytes at 2 4. cbn [fst snd].
    rewrite F, <- !app_assoc. repeat split; auto; lia.
Qed.

Lemma until_eof_split n : forall a c, bytes_ok (a ++ c) = true -> (length c < n + n)%nat \/ (length c <= n)%nat ->
  let l := until_eof n (a ++ c) (zlen a) in
  forallb u16_ok l = true /\ exists r, c = flat_map (le_bytes 2) l ++ r /\ zlen r < 2.
Proof.
  induction n as [|n IH]; intros a c Hb Hn; cbn [until_eof].
  - split; auto. exists c. split; auto. unfold zlen. lia.
  - destruct (read_int 2 (a ++ c) (zlen a)) as [[x q]|e|] eqn:R.
    + apply (read_int_split 2) in R as (X1 & -> & r & ->); auto.
      rewrite app_assoc in *. destruct (IH (a ++ le_bytes 2 x) r Hb) as [F (r' & E & L)].
      { rewrite app_length, le_bytes_length in Hn. lia. }
      cbv zeta. cbn [forallb flat_map]. rewrite F. unfold u16_ok at 1.
      change (256 ^ Z.of_nat 2) with (2 ^ 16) in X1. split; [lia|].
      exists r'. rewrite <- app_assoc, <- E. auto.
    + split; auto. exists c. split; auto. unfold read_int in R.
      destruct (Z_lt_ge_dec (zlen c) 2); auto.
      destruct (get_bytes_some (Z.to_nat 2) (a ++ c) (zlen a)) as [bs E].
      { apply zlen_nonneg. } { rewrite zlen_app. lia. }
      rewrite E in R. discriminate.
    + unfold read_int in R. destruct (get_bytes _ _ _); discriminate.
Qed.

Theorem adj_read_iff b x : bytes_ok b = true ->
  (adj_read b = Ok x <->
   adj_ok x = true /\ zlen (ad_entries x) < 2 ^ 32 /\ exists r, b = adj_bytes x ++ r /\ zlen r < 2).
Proof.
  intros Hb. split.
  - intros H. unfold adj_read in H. apply bind_ok in H as ([n p] & R & H).
    apply (read_int_split 4 [] b) in R as (N & -> & c & ->); auto. cbn [app] in *.
    apply bind_ok in H as ([vs q] & R & H). rewrite read_elements_n in R.
    apply read_entries_split in R as (l & r & -> & L & -> & -> & F); auto.
    rewrite un_entries_map in H. cbn [bind] in H. injection H as <-.
    rewrite app_assoc in Hb. 
    destruct (until_eof_split (length ((le_bytes 4 n ++ flat_map entry_bytes l) ++ r))
      (le_bytes 4 n ++ flat_map entry_bytes l) r Hb) as (F2 & r' & E & L2).
    { rewrite app_length. lia. }
    rewrite app_assoc. cbn [ad_entries ad_indices]. unfold adj_ok, adj_bytes. cbn [ad_entries ad_indices].
    rewrite F, F2. assert (zlen l = n) as -> by (unfold zlen; lia).
    change (256 ^ Z.of_nat 4) with (2 ^ 32) in N. split; [auto|]. split; [lia|].
    exists r'. rewrite <- !app_assoc in *. rewrite <- E. auto.
  - intros (W & L & r & -> & Lr). now apply adj_read_bytes.
Qed.

Theorem adj_roundtrip x : adj_ok x = true -> zlen (ad_entries x) < 2 ^ 32 ->
  exists out, adj_write x = Ok out /\ adj_read out = Ok x.
Proof.
  intros H L. exists (adj_bytes x). split; [now apply adj_write_bytes|].
  rewrite <- (app_nil_r (adj_bytes x)). now apply adj_read_bytes.
Qed.

Theorem failed_save_empties : exists x path e d old,
  meshex_ok x = true /\ d path = Some old /\ old <> [] /\
  exists d', write_to_file (meshex_write x) path e d = (IoErr, d') /\ d' path = Some [].
Proof.
  exists (mkMeshEx None None None (Some [VInt 3]) 0), 1, (mkEnv true None), (fun _ => Some [1; 2; 3]), [1; 2; 3].
  split; [vm_compute; auto|]. split; [auto|]. split; [discriminate|].
  eexists. split; [vm_compute; reflexivity|]. reflexivity.
Qed.
