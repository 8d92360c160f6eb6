(** Every well-formed descriptor satisfies the writer/reader correspondence. *)
From Coq Require Import Lia ZifyBool ZifyNat ZifyN.
From Verif Require Import Bytes BytesFacts Ssbh Described SsbhFacts Roundtrip.
Ltac Zify.zify_post_hook ::= ZifyBool.elim_bool_cstr; Z.to_euclidean_division_equations.

Local Opaque two64 le_bytes put Z.max Z.sub Z.add.

(** A plain little endian field. *)
Lemma int_spec m t w n s :
  csize t = w -> 0 < w -> 0 <= n < 256 ^ w -> 0 <= wpos s ->
  (forall b, read_int w b (wpos s) = Ok (n, wpos s + w) ->
     exists q, read t b (wpos s) = Ok (VInt n, q) /\ (m = MInline -> q = wpos s + w)) ->
  forall d, wdp s <= d ->
  wspec m t (VInt n) s (mkW (wbuf (emit (le_bytes (Z.to_nat w) n) s)) (wpos s + w) d).
Proof.
  intros Hc Hw Hn Hp HR d Hd. constructor; unfold wreg, reg; rewrite ?Hc; ws; try lia.
  - apply (emit_frame (le_bytes (Z.to_nat w) n) s); [lia|].
    intros i. rewrite zlen_le_bytes. lia.
  - intros b Hb HA. apply HR.
    apply (read_int_agree w n s (fun i => wpos s <= i < wpos s + w)); try lia.
    eapply agree_mono; [|exact HA]. cbv beta. lia.
Qed.

Lemma emit_int_eq w n s : 0 < w ->
  emit (le_bytes (Z.to_nat w) n) s = mkW (wbuf (emit (le_bytes (Z.to_nat w) n) s)) (wpos s + w) (wdp s).
Proof. intros. unfold emit. rewrite zlen_le_bytes. cbn. f_equal. lia. Qed.

Lemma wspec_bump m t v n s s' :
  0 <= n <= csize t -> wspec m t v (bump n s) s' -> wspec m t v s s'.
Proof.
  intros Hn [A B C D]. rewrite bump_eq in *. unfold wreg, reg in *. ws. constructor; unfold wreg, reg.
  - lia.
  - lia.
  - eapply agree_mono; [|exact C]. cbv beta. lia.
  - intros b Hb HA. apply D; auto. eapply agree_mono; [|exact HA]. cbv beta. lia.
Qed.

Lemma array_header count s s1 :
  0 <= count < two64 -> 0 <= wpos s -> 0 <= wdp s -> wpos s + 16 <= wdp s ->
  write_array_header count s = Ok s1 ->
  wpos s1 = wpos s + 16 /\ wdp s1 = round_up (wdp s) 8 /\ wdp s <= wdp s1 /\
  agree (fun i => ~ (wpos s <= i < wpos s + 16)) (wbuf s) (wbuf s1) /\
  forall b, wdp s1 < two64 -> agree (fun i => wpos s <= i < wpos s + 16) (wbuf s1) b ->
    let off := if count =? 0 then 0 else wdp s1 - wpos s in
    read_int 8 b (wpos s) = Ok (off, wpos s + 8) /\
    read_int 8 b (wpos s + 8) = Ok (count, wpos s + 16) /\
    absolute_offset_checked (wpos s) off = Ok (wpos s + off).
Proof.
  intros Hc Hp Hd Hle H. unfold write_array_header in H. apply bind_ok in H as (s2 & E2 & H).
  injection H as <-. set (du := round_up (wdp s) 8) in *.
  assert (Hdu : wdp s <= du) by (apply round_up_ge; lia).
  set (off := if count =? 0 then 0 else du - wpos s).
  assert (Ho : 0 <= off) by (unfold off; destruct (count =? 0); lia).
  assert (E : s2 = mkW (put (wbuf s) (wpos s) (le_bytes 8 off)) (wpos s + 8) du).
  { unfold off. destruct (count =? 0).
    - injection E2 as <-. unfold emit, set_dp. rewrite zlen_le_bytes. reflexivity.
    - unfold write_relative_offset in E2. cbn [wdp wpos set_dp] in E2.
      destruct (Z.ltb_spec du (wpos s)); [discriminate|]. injection E2 as <-.
      unfold emit, set_dp. cbn. rewrite zlen_le_bytes. reflexivity. }
  subst s2. ws. rewrite zlen_le_bytes in *. change (Z.of_nat 8) with 8 in *.
  assert (F1 : agree (fun i => ~ (wpos s <= i < wpos s + 8)) (wbuf s) (put (wbuf s) (wpos s) (le_bytes 8 off))).
  { apply (emit_frame (le_bytes 8 off) s); [lia|]. rewrite zlen_le_bytes. lia. }
  set (s2 := mkW (put (wbuf s) (wpos s) (le_bytes 8 off)) (wpos s + 8) du).
  assert (F2 : agree (fun i => ~ (wpos s + 8 <= i < wpos s + 16)) (wbuf s2) (wbuf (emit (le_bytes 8 count) s2))).
  { apply (emit_frame (le_bytes 8 count) s2); cbn; [lia|]. rewrite zlen_le_bytes. lia. }
  cbn in F2. repeat split; try lia.
  - eapply agree_trans; [eapply agree_mono; [|exact F1]|eapply agree_mono; [|exact F2]]; cbv beta; lia.
  - apply (read_int_agree 8 off s (fun i => wpos s <= i < wpos s + 8)); try lia.
    + rewrite pow256_8. unfold off. destruct (count =? 0); lia.
    + eapply agree_trans; [eapply agree_mono; [|exact F2]|eapply agree_mono; [|exact H0]]; cbv beta; lia.
  - replace (wpos s + 16) with (wpos s2 + 8) by (cbn; lia).
    apply (read_int_agree 8 count s2 (fun i => wpos s + 8 <= i < wpos s + 16)); cbn [wpos s2]; try lia.
    { rewrite pow256_8. lia. }
    eapply agree_mono; [|exact H0]; cbv beta; lia.
  - unfold absolute_offset_checked.
    match goal with |- (if ?c then _ else _) = _ => replace c with true end; [reflexivity|].
    unfold off. destruct (count =? 0); lia.
Qed.

Theorem wok_all t : forall m, m <> MPtr -> twf m t = true -> wok m t.
Proof.
  induction t as [w|w ra tags|w| |fs spad aa al HF|t IHt|w t IHt|t IHt| |n|vs HF|n t IHt|n t IHt]
    using ty_ind'; intros m Hm E v s s' W Hp Hd H.
  - (* TInt *)
    destruct v; try discriminate W. cbn in W, E, H. bsplit W. injection H as <-.
    rewrite emit_int_eq by lia. apply int_spec; try lia; auto.
    intros b R. cbn [read]. rewrite R. cbn. eauto.
  - (* TRepr *)
    destruct v; try discriminate W. cbn [wt write] in *. injection H as <-.
    cbn [twf] in E. bsplit E.
    assert (0 <= n < 256 ^ w).
    { apply existsb_exists in W as (x & Hx & ?). rewrite forallb_forall in H. apply H in Hx. lia. }
    apply (wspec_bump _ _ _ w); [cbn; lia|].
    rewrite emit_int_eq by lia. apply int_spec; try lia; auto.
    + rewrite bump_pos. lia.
    + intros b R. cbn [read]. rewrite R. cbn. rewrite W. eauto.
  - (* TBits *)
    destruct v; try discriminate W. cbn in W, E. bsplit W. injection H as <-.
    apply (wspec_bump _ _ _ w); [cbn; lia|].
    rewrite emit_int_eq by lia. apply int_spec; try lia; auto.
    + rewrite bump_pos. lia.
    + intros b R. cbn [read]. rewrite R. cbn. eauto.
  - (* TUnit *)
    destruct v; try discriminate W. destruct vs; try discriminate W. cbn in H. injection H as <-.
    constructor; cbn [csize]; try lia.
    + apply agree_refl.
    + intros. cbn. eexists. split; [reflexivity|]. lia.
  - (* TStruct *)
    destruct v; try discriminate W. rewrite wt_struct in W. rewrite write_struct in H.
    pose proof (csize_nonneg _ _ E) as HC. rewrite csize_struct in HC.
    rewrite twf_struct in E. apply andb_true_iff in E as [E HTF]. bsplit E.
    assert (aa = 0) as -> by lia.
    rewrite (size_fields_csize m spad) in H; auto.
    apply bind_ok in H as (s1 & E1 & H). injection H as <-. change (align_after 0 (emit (zeros spad) s1)) with (emit (zeros spad) s1).
    apply (wspec_bump _ _ _ (csize_fields fs + spad)); [rewrite csize_struct; lia|].
    set (s0 := bump (csize_fields fs + spad) s) in *.
    assert (P0 : wpos s0 = wpos s) by apply bump_pos.
    assert (D0 : wdp s0 = Z.max (wdp s) (wpos s + (csize_fields fs + spad))) by apply bump_dp.
    destruct (write_fields_spec m spad fs Hm ltac:(lia) HF HTF vs s0 s1) as (A & B & C & D); auto; try lia.
    assert (HCF : 0 <= csize_fields fs).
    { pose proof (csize_nonneg m (TStruct fs 0 0 None)) as X. rewrite csize_struct in X.
        clear - HTF Hm. rename HTF into H1. induction fs as [|[t [wp rp]] r IH]; [cbn; lia|].
        cbn [twf_fields csize_fields] in *. bsplit H1. destruct r.
        - cbn. assert (0 <= csize t); [|lia]. destruct m; bsplit H; eapply csize_nonneg; eauto.
        - bsplit H. specialize (IH H0). pose proof (csize_nonneg _ _ H). lia. }
    assert (F : agree (fun i => ~ (wpos s1 <= i < wpos s1 + spad)) (wbuf s1) (wbuf (emit (zeros spad) s1))).
    { apply emit_frame; [lia|]. rewrite zlen_zeros; lia. }
    constructor; rewrite ?csize_struct; unfold wreg, reg in *; cbn [wpos emit wdp].
    + rewrite zlen_zeros by lia. lia.
    + lia.
    + eapply agree_trans; [eapply agree_mono; [|exact C]|eapply agree_mono; [|exact F]]; cbv beta; lia.
    + intros b Hb HA. destruct (D b) as (q & Hq & Hq'); [lia| |].
      { eapply agree_trans; [eapply agree_mono; [|exact F]|eapply agree_mono; [|exact HA]]; cbv beta; lia. }
      rewrite read_struct, Hq. cbn. eexists. split; [reflexivity|]. intros Hmi. rewrite Hq' by auto. lia.
  - (* TRel *)
    destruct v; try discriminate W. cbn [wt] in W. cbn [write] in H. cbn [twf] in E.
    destruct o as [v|]; cbn [option_map] in H.
    + apply (relptr_some _ _ (read t) v) in H; auto.
      2:{ eapply ssbh_align_pos; eauto. }
      2:{ apply target_of; auto. intros; apply IHt; auto; discriminate. }
      destruct H as (A & B & B' & C & D). constructor; cbn [csize]; auto.
      intros b Hb HA. destruct (D b Hb HA) as (off & q & R1 & R2 & R3 & R4).
      cbn [read]. rewrite R1. cbn [bind]. replace (off =? 0) with false by lia.
      rewrite R3. cbn [bind]. rewrite R4. cbn. eauto.
    + unfold write_relptr, write_rel_ptr_aligned in H. injection H as <-.
      apply (wspec_bump _ _ _ 8); [cbn; lia|].
      change (le_bytes 8 0) with (le_bytes (Z.to_nat 8) 0). rewrite emit_int_eq by lia.
      constructor; unfold wreg, reg; ws; cbn [csize]; try lia.
      * apply (emit_frame (le_bytes (Z.to_nat 8) 0) (bump 8 s)); [rewrite bump_pos; lia|].
        rewrite zlen_le_bytes. lia.
      * intros b Hb HA. cbn [read].
        rewrite (read_int_agree 8 0 (bump 8 s) (fun i => wpos (bump 8 s) <= i < wpos (bump 8 s) + 8));
          rewrite ?bump_pos; try lia.
        -- cbn. eauto.
        -- eapply agree_mono; [|exact HA]. rewrite bump_pos. cbv beta. lia.
  - (* TAbs *)
    destruct v; try discriminate W. cbn [wt] in W. cbn [write] in H. cbn [twf] in E. bsplit E.
    destruct o as [v|]; cbn [option_map] in H.
    + apply (absptr_some _ _ _ (read t) v) in H; auto; try lia.
      2:{ eapply ssbh_align_pos; eauto. }
      2:{ apply target_of; auto. intros; apply IHt; auto; discriminate. }
      destruct H as (A & B & B' & C & D). constructor; cbn [csize]; auto.
      intros b Hb HA. destruct (D b Hb HA) as (off & q & R1 & R2 & R3 & _).
      cbn [read]. rewrite R1. cbn [bind]. replace (off =? 0) with false by lia.
      rewrite R3. cbn. eauto.
    + unfold write_absptr in H. injection H as <-.
      apply (wspec_bump _ _ _ w); [cbn; lia|].
      rewrite emit_int_eq by lia.
      constructor; unfold wreg, reg; ws; cbn [csize]; try lia.
      * apply (emit_frame (le_bytes (Z.to_nat w) 0) (bump w s)); [rewrite bump_pos; lia|].
        rewrite zlen_le_bytes. lia.
      * intros b Hb HA. cbn [read].
        assert (0 < 256 ^ w) by (apply Z.pow_pos_nonneg; lia).
        rewrite (read_int_agree w 0 (bump w s) (fun i => wpos (bump w s) <= i < wpos (bump w s) + w));
          rewrite ?bump_pos; try lia.
        -- cbn. eauto.
        -- eapply agree_mono; [|exact HA]. rewrite bump_pos. cbv beta. lia.
  - (* TArr *)
    destruct v; try discriminate W. cbn [wt] in W. bsplit W. cbn [write] in H. cbn [twf] in E.
    apply bind_ok in H as (s1 & E1 & H). apply bind_ok in H as (s3 & E3 & H). injection H as <-.
    pose proof (csize_nonneg _ _ E) as HC. pose proof (zlen_nonneg vs) as HL.
    apply (wspec_bump _ _ _ 16); [cbn; lia|].
    assert (P0 : wpos (bump 16 s) = wpos s) by apply bump_pos.
    assert (D0 : wdp (bump 16 s) = Z.max (wdp s) (wpos s + 16)) by apply bump_dp.
    set (s0 := bump 16 s) in *. clearbody s0.
    apply array_header in E1 as (A & B & B' & C & D); try lia.
    rewrite slice_size_csize in E3 by auto.
    assert (0 <= zlen vs * csize t) by nia.
    set (sz := zlen vs * csize t) in *.
    assert (IHW : wok MInline t) by (apply IHt; auto; discriminate).
    destruct (write_list_spec t vs E IHW (bump sz (seek (wdp s1) s1)) s3)
      as (LA & LB & LC & LD); rewrite ?bump_pos, ?bump_dp; ws; fold sz; auto; try lia.
    fold sz in LC, LD. unfold wreg, reg in *. rewrite ?bump_pos, ?bump_dp, ?bump_buf in *. ws.
    constructor; unfold wreg, reg; ws; cbn [csize]; try lia.
    + eapply agree_trans; [eapply agree_mono; [|exact C]|eapply agree_mono; [|exact LC]]; cbv beta; lia.
    + intros b Hb HA. cbn [read].
      destruct (D b) as (R1 & R2 & R3); [lia| |].
      { eapply agree_trans; [eapply agree_mono; [|exact LC]|eapply agree_mono; [|exact HA]]; cbv beta; lia. }
      rewrite R1. cbn [bind]. rewrite R2. cbn [bind]. rewrite R3. cbn [bind].
      rewrite read_elements_n. unfold zlen at 1. rewrite Nat2Z.id.
      assert (exists q, read_n (length vs) (read t b) (wpos s0 + (if zlen vs =? 0 then 0 else wdp s1 - wpos s0)) = Ok (vs, q)) as (q & ->).
      { destruct vs as [|v0 vr].
        - cbn. eauto.
        - replace (zlen (v0 :: vr) =? 0) with false by (rewrite zlen_cons; pose proof (zlen_nonneg vr); lia).
          replace (wpos s0 + (wdp s1 - wpos s0)) with (wdp s1) by lia.
          eexists. apply LD; [lia|]. eapply agree_mono; [|exact HA]. cbv beta. lia. }
      cbn [bind]. eauto.
  - (* TBuf *)
    destruct v; try discriminate W. cbn [wt] in W. bsplit W. cbn [write] in H.
    apply bind_ok in H as (s1 & E1 & H). injection H as <-.
    pose proof (zlen_nonneg bs) as HL.
    apply (wspec_bump _ _ _ 16); [cbn; lia|].
    assert (P0 : wpos (bump 16 s) = wpos s) by apply bump_pos.
    assert (D0 : wdp (bump 16 s) = Z.max (wdp s) (wpos s + 16)) by apply bump_dp.
    set (s0 := bump 16 s) in *. clearbody s0.
    apply array_header in E1 as (A & B & B' & C & D); try lia.
    assert (F : agree (fun i => ~ (wdp s1 <= i < wdp s1 + zlen bs)) (wbuf s1) (put (wbuf s1) (wdp s1) bs)).
    { apply (emit_frame bs (seek (wdp s1) s1)); cbn; [lia|]. lia. }
    constructor; unfold wreg, reg; ws; cbn [csize]; try lia.
    + eapply agree_trans; [eapply agree_mono; [|exact C]|eapply agree_mono; [|exact F]]; cbv beta; lia.
    + intros b Hb HA. cbn [read].
      destruct (D b) as (R1 & R2 & R3); [lia| |].
      { eapply agree_trans; [eapply agree_mono; [|exact F]|eapply agree_mono; [|exact HA]]; cbv beta; lia. }
      rewrite R1. cbn [bind]. rewrite R2. cbn [bind]. rewrite R3. cbn [bind].
      assert (read_buffer (zlen bs) b (wpos s0 + (if zlen bs =? 0 then 0 else wdp s1 - wpos s0)) = Ok bs) as ->.
      { unfold read_buffer. destruct bs as [|x r].
        - cbn. replace (0 <=? Z.max 0 _) with true by lia. auto.
        - set (bs := x :: r) in *.
          assert (0 < zlen bs) by (unfold bs; rewrite zlen_cons; pose proof (zlen_nonneg r); lia).
          replace (zlen bs =? 0) with false by lia.
          replace (wpos s0 + (wdp s1 - wpos s0)) with (wdp s1) by lia.
          assert (G : get_bytes (length bs) b (wdp s1) = Some bs).
          { eapply get_bytes_agree; [|exact HA|apply (get_put (wbuf s1) (wdp s1) bs); lia].
            unfold zlen in *. cbv beta. lia. }
          pose proof (get_bytes_bound _ _ _ _ G ltac:(discriminate)).
          replace (zlen bs <=? Z.max 0 (zlen b - wdp s1)) with true by (unfold zlen in *; lia).
          unfold zlen at 1. rewrite Nat2Z.id, G. auto. }
      cbn [bind]. eauto.
  - (* TCStr *)
    cbn in E. destruct m; try discriminate. congruence.
  - (* TEnum *)
    destruct v; try discriminate W. destruct o as [v|].
    + destruct v; try discriminate W. rewrite wt_enum in W. rewrite write_enum in H.
      destruct (find_case tag vs) as [t|] eqn:Ef; [|discriminate].
      assert (E' : twf MInline (TEnum vs) = true) by exact E.
      destruct (find_case_twf _ _ _ E' Ef) as [Htag Et].
      apply bind_ok in H as (s1 & E1 & H). injection H as <-.
      apply (wspec_bump _ _ _ 16); [cbn; lia|].
      assert (P0 : wpos (bump 16 s) = wpos s) by apply bump_pos.
      assert (D0 : wdp (bump 16 s) = Z.max (wdp s) (wpos s + 16)) by apply bump_dp.
      set (s0 := bump 16 s) in *. clearbody s0.
      apply (relptr_some _ _ (read t) v) in E1; try lia.
      2:{ apply enum_align_pos; auto. }
      2:{ apply (wok_target MTail); auto; [eapply csize_nonneg; eauto|].
          rewrite Forall_forall in HF. apply find_case_in in Ef. apply (HF _ Ef); auto. discriminate. }
      destruct E1 as (A & B & B' & C & D).
      assert (F : agree (fun i => ~ (wpos s1 <= i < wpos s1 + 8)) (wbuf s1) (wbuf (emit (le_bytes 8 tag) s1))).
      { apply emit_frame; [lia|]. rewrite zlen_le_bytes. lia. }
      unfold wreg, reg in *. constructor; unfold wreg, reg; ws; rewrite ?zlen_le_bytes; cbn [csize]; try lia.
      * eapply agree_trans; [eapply agree_mono; [|exact C]|eapply agree_mono; [|exact F]]; cbv beta; lia.
      * intros b Hb HA. destruct (D b) as (off & q & R1 & R2 & R3 & R4); [lia| |].
        { eapply agree_trans; [eapply agree_mono; [|exact F]|eapply agree_mono; [|exact HA]]; cbv beta; lia. }
        rewrite read_enum, R1. cbn [bind]. rewrite <- A.
        rewrite (read_int_agree 8 tag s1 (fun i => wpos s1 <= i < wpos s1 + 8));
          [|lia|rewrite pow256_8; lia|lia|lia|].
        2:{ eapply agree_mono; [|exact HA]. cbv beta. lia. }
        cbn [bind]. replace (off =? 0) with false by lia. rewrite R3. cbn [bind].
        rewrite Ef, R4. cbn [bind]. eexists. split; [reflexivity|]. lia.
    + cbn [write] in H. apply bind_ok in H as (s1 & E1 & H). injection H as <-.
      unfold write_relptr, write_rel_ptr_aligned in E1. injection E1 as <-.
      apply (wspec_bump _ _ _ 16); [cbn; lia|].
      assert (P0 : wpos (bump 16 s) = wpos s) by apply bump_pos.
      assert (D0 : wdp (bump 16 s) = Z.max (wdp s) (wpos s + 16)) by apply bump_dp.
      set (s0 := bump 16 s) in *. clearbody s0.
      rewrite bump_eq. replace (Z.max (wdp s0) (wpos s0 + 8)) with (wdp s0) by lia.
      assert (F1 : agree (fun i => ~ (wpos s0 <= i < wpos s0 + 8)) (wbuf s0) (put (wbuf s0) (wpos s0) (le_bytes 8 0))).
      { apply (emit_frame (le_bytes 8 0) s0); [lia|]. rewrite zlen_le_bytes. lia. }
      set (s1 := mkW (put (wbuf s0) (wpos s0) (le_bytes 8 0)) (wpos s0 + 8) (wdp s0)).
      replace (emit (le_bytes 8 0) (mkW (wbuf s0) (wpos s0) (wdp s0))) with s1
        by (unfold s1, emit; rewrite zlen_le_bytes; reflexivity).
      assert (F2 : agree (fun i => ~ (wpos s1 <= i < wpos s1 + 8)) (wbuf s1) (wbuf (emit (le_bytes 8 0) s1))).
      { apply emit_frame; cbn; [lia|]. rewrite zlen_le_bytes. lia. }
      constructor; unfold wreg, reg; cbn [csize].
      * cbn. rewrite zlen_le_bytes. lia.
      * cbn. lia.
      * cbn in F2. eapply agree_trans; [eapply agree_mono; [|exact F1]|eapply agree_mono; [|exact F2]]; cbn; lia.
      * intros b Hb HA. rewrite read_enum.
        assert (0 <= 0 < 256 ^ 8) by (rewrite pow256_8; cbn in Hb; lia).
        rewrite (read_int_agree 8 0 s0 (fun i => wpos s0 <= i < wpos s0 + 8)); try lia.
        2:{ cbn in F2. eapply agree_trans; [eapply agree_mono; [|exact F2]|eapply agree_mono; [|exact HA]]; cbn; lia. }
        cbn [bind]. change (wpos s0 + 8) with (wpos s1).
        rewrite (read_int_agree 8 0 s1 (fun i => wpos s1 <= i < wpos s1 + 8)); cbn [wpos s1]; try lia.
        2:{ eapply agree_mono; [|exact HA]. cbn. lia. }
        cbn. eexists. split; [reflexivity|]. lia.
  - (* TFix *)
    destruct v; try discriminate W. cbn [wt] in W. bsplit W. cbn [write] in H. cbn [twf] in E. bsplit E.
    rewrite W in H. assert (n = zlen vs) as -> by lia.
    rewrite slice_size_csize in H by auto.
    pose proof (csize_nonneg _ _ H1) as HC.
    assert (0 <= zlen vs * csize t) by nia.
    apply (wspec_bump _ _ _ (zlen vs * csize t)); [cbn [csize]; lia|].
    assert (IHW : wok MInline t) by (apply IHt; auto; discriminate).
    destruct (write_list_spec t vs H1 IHW (bump (zlen vs * csize t) s) s')
      as (LA & LB & LC & LD); rewrite ?bump_pos, ?bump_dp; auto; try lia.
    constructor; cbn [csize]; auto.
    intros b Hb HA. cbn [read]. rewrite read_elements_n. unfold zlen at 1. rewrite Nat2Z.id.
    rewrite LD by auto. cbn [bind]. eauto.
  - (* TVec *)
    destruct v; try discriminate W. cbn [wt] in W. bsplit W. cbn [write] in H. cbn [twf] in E. bsplit E.
    rewrite W in H. assert (n = zlen vs) as -> by lia.
    rewrite slice_size_csize in H by auto.
    pose proof (csize_nonneg _ _ H1) as HC.
    assert (0 <= zlen vs * csize t) by nia.
    apply (wspec_bump _ _ _ (zlen vs * csize t)); [cbn [csize]; lia|].
    assert (IHW : wok MInline t) by (apply IHt; auto; discriminate).
    destruct (write_list_spec t vs H1 IHW (bump (zlen vs * csize t) s) s')
      as (LA & LB & LC & LD); rewrite ?bump_pos, ?bump_dp; auto; try lia.
    constructor; cbn [csize]; auto.
    intros b Hb HA. cbn [read]. rewrite read_elements_n. unfold zlen at 1. rewrite Nat2Z.id.
    rewrite LD by auto. cbn [bind]. eauto.
Qed.
