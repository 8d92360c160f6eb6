(** Mesh data loaded from any file can be saved again. *)
From Coq Require Import Lia ZifyBool ZifyNat ZifyN.
From Verif Require Import Bytes BytesFacts Ssbh File SsbhSpec SsbhFacts Formats FileFacts Strings AnimComp AnimBuf SsbhLemmas FileSpec AnimSpec DataSpec.
From Verif Require Import ReloadFacts ShdrFacts DecFacts TrackRead AnimRead VecData MeshData MeshSpec FloatFacts VecFacts RigFacts MeshFacts MeshLemmas MeshReadSpec MeshRead.
Ltac Zify.zify_post_hook ::= ZifyBool.elim_bool_cstr; Z.to_euclidean_division_equations.

#[local] Strategy opaque [typed_write typed_read].

(** ** Names *)
Definition ascii (s : list Z) : bool := forallb (fun x => (1 <=? x) && (x <=? 127)) s.
Lemma ascii_text s : ascii s = true -> text_ok s = true.
Proof.
  unfold text_ok. induction s as [|x s IH]; [reflexivity|]. cbn [ascii forallb utf8_valid]. intros H. apply andb_prop in H as [H1 H2].
  apply IH in H2. apply andb_prop in H2 as [H2 H3]. assert (x <=? 127 = true) as -> by lia. rewrite H2, H3. lia.
Qed.
Lemma digits_ascii fuel : forall n acc, 0 <= n -> ascii acc = true -> ascii (digits fuel n acc) = true.
Proof.
  induction fuel as [|fuel IH]; intros n acc H A; cbn [digits]; [exact A|]. destruct (n <? 10) eqn:E.
  - unfold ascii in *. cbn [forallb]. rewrite A. lia.
  - apply IH; [lia|]. unfold ascii in *. cbn [forallb]. rewrite A. lia.
Qed.
Lemma made_name u n : 0 <= n -> text_ok (usage_text u ++ decimal n) = true.
Proof.
  intros H. apply ascii_text. unfold ascii. rewrite forallb_app. apply andb_true_intro. split; [now destruct u|].
  now apply digits_ascii.
Qed.
Lemma name_any n v s : wt (SsbhStringN n) v = true -> ssbh_to_str v = Some s -> text_ok s = true.
Proof. intros W E. apply text_any in W. unfold ssbh_to_string_lossy in W. now rewrite E in W. Qed.

(** ** Numbers *)
Lemma int_wt w n : wt (TInt w) (VInt n) = true -> 0 <= n < 256 ^ w.
Proof. cbn [wt]. lia. Qed.
Lemma nth_forallb {A} (f : A -> bool) l : (forall k x, nth_error l k = Some x -> f x = true) -> forallb f l = true.
Proof. intros H. apply forallb_forall. intros x I. apply In_nth_error in I as [k I]. eauto. Qed.
Lemma is32_bound x : 0 <= x < 2 ^ 32 -> is32 x = true.
Proof. unfold is32. lia. Qed.

Lemma layout_value t d w f : layout t = (d, w, f) -> dim_count d = Z.to_nat (components d) /\
  forall n, 0 <= n < 256 ^ w -> is32 (f n) = true.
Proof.
  destruct t; cbn [layout]; intros [= <- <- <-]; (split; [reflexivity|]); intros n H; apply is32_bound; try exact H;
    first [apply f16_to_f32_bound|now apply u8_to_f32_bound].
Qed.
Lemma vectors_ok b start stride count t v : bytes_ok b = true -> vectors_at b start stride count t v -> vec_ok v = true.
Proof.
  intros Hb. unfold vectors_at. destruct (layout t) as [[d w] f] eqn:E. intros (D & _ & _ & H). destruct (layout_value _ _ _ _ E) as [C V].
  unfold vec_ok. rewrite D. apply nth_forallb. intros i row N. destruct (H i row N) as [L X]. rewrite L, C, Z2Nat.id by (destruct d; cbn; lia).
  rewrite Z.eqb_refl. cbn [andb]. apply nth_forallb. intros j x Nx. destruct (X j x Nx) as (n & U & ->). apply V.
  eapply uint_nonneg; eauto.
Qed.

  Lemma attribute_name ver v a : wt (attribute_ty ver) v = true -> attribute_fields ver v a -> text_ok (a_name a) = true.
  Proof.
    intros W (u & t & _ & _ & H). destruct ver; cbn [attribute_ty] in W.
    - destruct H as [-> ->]. apply struct_inv in W as (vs & [= <-] & F). inv2. apply made_name.
      match goal with H : wt _ (VInt (a_sub a)) = true |- _ => exact (proj1 (int_wt 8 _ H)) || exact (proj1 (int_wt 4 _ H)) end.
    - destruct H as (n & ns & -> & ->). apply struct_inv in W as (vs & [= <-] & F). inv2. destruct ns as [|x ns]; [reflexivity|].
      match goal with H : wt (TArr _) _ = true |- _ => apply arr_inv in H as (? & [= <-] & _ & H); cbn [forallb] in H; apply andb_prop in H as [H _];
        exact (text_any _ _ H) end.
    - destruct H as (n & ns & -> & ->). apply struct_inv in W as (vs & [= <-] & F). inv2. destruct ns as [|x ns]; [reflexivity|].
      match goal with H : wt (TArr _) _ = true |- _ => apply arr_inv in H as (? & [= <-] & _ & H); cbn [forallb] in H; apply andb_prop in H as [H _];
        exact (text_any _ _ H) end.
  Qed.

  Lemma weights_ok ver v l : wt (weight_ty ver) v = true -> stored_weights ver v l ->
    forallb weight_ok l = true /\ (ver = MV10 -> forall w, In w l -> wt_index w < 65536).
  Proof.
    assert (A : forall l, wt (TArr VertexWeightV8) (VArr (map (fun w => VStruct [VInt (wt_index w); VInt (wt_weight w)]) l)) = true -> forallb weight_ok l = true).
    { clear. intros l W. apply arr_inv in W as (m & [= <-] & _ & W). apply forallb_forall. intros w I. rewrite forallb_forall in W.
      specialize (W _ (in_map (fun w => VStruct [VInt (wt_index w); VInt (wt_weight w)]) _ _ I)). apply struct_inv in W as (vs & [= <-] & F). inv2.
      repeat match goal with H : wt _ (VInt _) = true |- _ => apply (int_wt 4) in H end. unfold weight_ok. apply andb_true_intro. split; apply is32_bound; assumption. }
    destruct ver; cbn [weight_ty stored_weights]; intros W S.
    1, 2: subst v; split; [now apply A|discriminate].
    destruct S as (bs & -> & _ & S). apply bytes_any in W as (bs' & [= <-] & B & _). split.
    - apply nth_forallb. intros k w N. destruct (S k w N) as [U1 U2]. apply uint_nonneg in U1, U2; auto. unfold weight_ok.
      apply andb_true_intro. split; apply is32_bound; lia.
    - intros _ w I. apply In_nth_error in I as [k N]. destruct (S k w N) as [U1 _]. apply uint_nonneg in U1; auto. lia.
  Qed.

Section Loaded.
  Variables (ver : mesh_version) (bufs : list (list Z)) (ib : list Z) (groups : list val).
  Hypothesis Hbufs : Forall (fun b => bytes_ok b = true) bufs.
  Hypothesis Hib : bytes_ok ib = true.
  Hypothesis Hgroups : Forall (fun g => wt (RiggingGroup (weight_ty ver)) g = true) groups.

  Lemma influences_ok name si l : loaded_influences ver groups name si l -> forall i, In i l ->
    text_ok (inf_bone i) = true /\ forallb weight_ok (inf_weights i) = true /\ (ver = MV10 -> forall w, In w (inf_weights i) -> wt_index w < 65536).
  Proof.
    intros (parts & -> & F) i I. apply in_concat in I as (part & Ip & I). revert Hgroups Ip. clear - F I. induction F as [|g p gs ps H F IH]; [intros _ []|].
    intros Hg. inversion Hg as [|? ? W Hgs]; subst. intros [->|Ip]; [clear IH|now apply IH].
    destruct H as [(bs & G & P)|[_ ->]]; [|destruct I]. destruct G as (n & fl & -> & _). apply struct_inv in W as (vs & [= <-] & X). inv2.
    match goal with H : wt (TArr _) _ = true |- _ => apply arr_inv in H as (? & [= <-] & _ & H); rename H into W end. rewrite forallb_forall in W.
    clear - P W I. induction P as [|v j bs p H P IH]; [destruct I|]. destruct I as [->|I]; [|apply IH; auto; intros x Hx; apply W; now right].
    destruct H as (nm & ws & -> & E & S). specialize (W _ (or_introl eq_refl)). apply struct_inv in W as (vs & [= <-] & X). inv2.
    match goal with H : wt SsbhString _ = true |- _ => pose proof (name_any 4 _ _ H E) end.
    match goal with H : wt (weight_ty ver) _ = true |- _ => destruct (weights_ok ver _ _ H S) end. auto.
  Qed.

  Lemma usage_facts r l u ds : Forall (fun a => text_ok (a_name a) = true) l -> loaded_usage bufs r l u ds ->
    forall d, In d ds -> attr_ok d = true /\ zlen (vec_rows (attr_data d)) = r_count r.
  Proof.
    intros T (l' & F & E) d I. assert (T' : Forall (fun a => text_ok (a_name a) = true) l').
    { rewrite E. rewrite Forall_forall in *. intros x Hx. apply filter_In in Hx as [Hx _]. auto. }
    clear E. revert I T'. clear T. induction F as [|a d' l' ds H F IH]; [intros []|]. intros I T'. inversion T' as [|? ? Ta Tl]; subst.
    destruct I as [->|I]; [|auto]. destruct H as (N & _ & b & B & V). unfold attr_ok. rewrite N, Ta. cbn [andb].
    rewrite Forall_forall in Hbufs. split; [eapply vectors_ok; [|exact V]; apply Hbufs; eapply nth_error_In; eauto|].
    unfold vectors_at in V. destruct (layout (a_type a)) as [[dd w] f]. apply V.
  Qed.

  (** [object_ok] without the lengths of lists *)
  Definition object_parts (o : mesh_object) : bool :=
    text_ok (ob_name o) && u64_ok (ob_subindex o) && text_ok (ob_parent o) && is32 (ob_bias o) &&
    forallb is32 (ob_indices o) && forallb attr_ok (all_attributes o) &&
    forallb (fun i => text_ok (inf_bone i) && forallb weight_ok (inf_weights i)) (ob_influences o).
  Lemma loaded_ok v o : wt (MeshObject (attribute_ty ver)) v = true -> loaded_object ver bufs ib groups v o ->
    (lists_fit o -> object_ok o = true) /\ (exists n, has_vertex_count o n) /\
    (ver = MV10 -> forall i w, In i (ob_influences o) -> In w (inf_weights i) -> wt_index w < 65536) /\
    object_parts o = true.
  Proof.
    intros W (r & l & Fr & Fl & N & Si & P & Bi & _ & _ & In' & U1 & U2 & U3 & U4 & U5 & U6 & L).
    destruct Fr as (k1 & o0 & o1 & o2 & o3 & s0 & s1 & s2 & s3 & k2 & rg & bd & _ & _ & ->).
    apply struct_inv in W as (vs & [= <-] & X). inv2.
    match goal with H : wt (TArr (attribute_ty ver)) _ = true |- _ => apply arr_inv in H as (? & [= <-] & _ & H); rename H into Wa end.
    assert (T : Forall (fun a => text_ok (a_name a) = true) l).
    { rewrite forallb_forall in Wa. clear - Fl Wa. induction Fl as [|v a vs l H F IH]; constructor.
      - eapply attribute_name; [|exact H]. apply Wa. now left.
      - apply IH. intros x Hx. apply Wa. now right. }
    assert (A : forall d, In d (all_attributes o) -> attr_ok d = true /\ zlen (vec_rows (attr_data d)) = r_count r).
    { intros d I. unfold all_attributes in I. do 5 (apply in_app_or in I as [I|I]; [match goal with U : loaded_usage _ _ _ _ _ |- _ => exact (usage_facts _ _ _ _ T U d I) end|]).
      exact (usage_facts _ _ _ _ T U6 d I). }
    pose proof (influences_ok _ _ _ L) as Q.
    assert (O : object_parts o = true).
    { unfold object_parts. rewrite N, Si, P, Bi.
      repeat match goal with |- (_ && _) = true => apply andb_true_intro; split end.
      + match goal with H : wt SsbhString (r_name r) = true |- _ => exact (text_any 4 _ H) end.
      + match goal with H : wt u64 (VInt (r_subindex r)) = true |- _ => apply (int_wt 8) in H; clear - H; unfold u64_ok; lia end.
      + match goal with H : wt SsbhString (r_parent r) = true |- _ => exact (text_any 4 _ H) end.
      + match goal with H : wt i32 (VInt (r_bias r)) = true |- _ => apply (int_wt 4) in H; apply is32_bound; exact H end.
      + apply nth_forallb. intros k x K. destruct In' as [_ In']. apply In' in K. apply uint_nonneg in K; auto. apply is32_bound.
        clear - K. unfold index_size in K. destruct (r_type r =? 0); lia.
      + apply forallb_forall. intros d I. now apply A.
      + apply forallb_forall. intros i I. destruct (Q i I) as (Q1 & Q2 & _). now rewrite Q1, Q2. }
    split; [|split; [|split; [|exact O]]].
    - intros (F1 & F2 & F3). unfold object_parts in O. unfold object_ok. apply andb_true_iff in O as [-> _]. cbn [andb].
      repeat match goal with |- (_ && _) = true => apply andb_true_intro; split end.
      + clear - F1. lia.
      + apply forallb_forall. intros i I. destruct (Q i I) as (Q1 & Q2 & _). specialize (F3 i I). unfold inf_ok. rewrite Q1, Q2. clear - F3. lia.
      + clear - F2. unfold len_ok. lia.
    - exists (match all_attributes o with [] => 0 | _ => r_count r end). split; [|now intros ->].
      intros a I. destruct (A a I) as [_ ->]. now destruct (all_attributes o).
    - intros V i w I Iw. destruct (Q i I) as (_ & _ & Q3). auto.
  Qed.
End Loaded.

(** ** Files *)
Lemma mesh_wt b version v : bytes_ok b = true -> typed_read Mesh b = Ok (version, v) ->
  exists ver os bufs ib groups, In (version, ver) layouts /\ mesh_fields v os bufs ib groups /\
    zlen os < 2 ^ 64 /\ Forall (fun o => wt (MeshObject (attribute_ty ver)) o = true) os /\
    Forall (fun b => bytes_ok b = true) bufs /\ bytes_ok ib = true /\ Forall (fun g => wt (RiggingGroup (weight_ty ver)) g = true) groups.
Proof.
  intros Hb E. apply typed_read_ok in E as (t & F & W); [|exact Hb]. cbn [fkind fver fbody] in *.
  assert (X : exists ver, In (version, ver) layouts /\ t = Mesh_variant (MeshInner (attribute_ty ver) (weight_ty ver))).
  { destruct version as [ma mi]. cbn in F. unfold ver_eqb in F. cbn [fst snd] in F.
    destruct ((ma =? 1) && (mi =? 8)) eqn:E1; [injection F as <-; exists MV8; assert (ma = 1 /\ mi = 8) as [-> ->] by lia; cbn; auto|].
    destruct ((ma =? 1) && (mi =? 9)) eqn:E2; [injection F as <-; exists MV9; assert (ma = 1 /\ mi = 9) as [-> ->] by lia; cbn; auto|].
    destruct ((ma =? 1) && (mi =? 10)) eqn:E3; [injection F as <-; exists MV10; assert (ma = 1 /\ mi = 10) as [-> ->] by lia; cbn; auto|discriminate F]. }
  destruct X as (ver & L & ->). apply (struct_inv [MeshInner (attribute_ty ver) (weight_ty ver)] 16 8 None) in W as (vs & -> & G). inv2.
  match goal with H : wt (MeshInner _ _) _ = true |- _ => apply struct_inv in H as (vs & -> & G) end. inv2.
  match goal with H : wt (TArr (MeshObject _)) _ = true |- _ => apply arr_inv in H as (os & -> & Lo & Ho) end.
  match goal with H : wt (TArr (RiggingGroup _)) _ = true |- _ => apply arr_inv in H as (gs & -> & _ & Hg) end.
  match goal with H : wt (TArr TBuf) _ = true |- _ => apply arr_inv in H as (bl & -> & _ & Hbl) end.
  match goal with H : wt TBuf _ = true |- _ => apply bytes_any in H as (ib & -> & Hib & _) end.
  apply (forallb_ex _ (fun v b => v = VBytes b /\ bytes_ok b = true)) in Hbl as (bufs & Hbl); [|intros x Hx; apply bytes_any in Hx as (bb & -> & Hx & _); exists bb; auto].
  apply forall2_map in Hbl as [-> Hbl].
  exists ver, os, bufs, ib, gs. split; auto. split; [unfold mesh_fields; do 5 eexists; reflexivity|].
  rewrite forallb_forall in Ho, Hg. split; auto. split; [now apply Forall_forall|]. split; auto. split; auto. now apply Forall_forall.
Qed.

Lemma mesh_loaded b d : bytes_ok b = true -> mesh_data_read b = Ok d ->
  (Forall lists_fit (mesh_objects d) -> mesh_ok d = true) /\ (forall o i, In o (mesh_objects d) -> In i (ob_indices o) -> 0 <= i) /\
  (mesh_major d = 1 /\ (mesh_minor d = 8 \/ mesh_minor d = 9 \/ mesh_minor d = 10)) /\
  (forall o, In o (mesh_objects d) -> exists n, has_vertex_count o n) /\ weights_fit d /\
  forallb object_parts (mesh_objects d) = true.
Proof.
  intros Hb R. unfold mesh_data_read in R. destruct (typed_read Mesh b) as [[version v]|e|] eqn:E; try discriminate R.
  destruct (mesh_wt _ _ _ Hb E) as (ver & os & bufs & ib & groups & L & M & Lo & Wo & Bb & Bi & Wg).
  destruct (mesh_file _ _ _ Hb E) as (ver' & os' & bufs' & ib' & groups' & L' & M' & I & _).
  destruct M as (? & ? & ? & ? & ? & ->). destruct M' as (? & ? & ? & ? & ? & M'). injection M' as _ _ _ Eo _ _ Eb Ei Eg. subst os' ib' groups'.
  assert (bufs' = bufs) as ->. { clear - Eb. revert bufs' Eb. induction bufs as [|x l IH]; intros [|y m] H; try discriminate H; auto. injection H as -> H. f_equal. auto. }
  assert (ver' = ver) as ->.
  { clear - L L'. cbn in L, L'. repeat match goal with H : _ \/ _ |- _ => destruct H | H : (_, _) = _ |- _ => inversion H; subst; clear H | H : False |- _ => destruct H end; auto; discriminate. }
  assert (R' : mesh_data_read b = Ok d) by (unfold mesh_data_read; now rewrite E). apply I in R' as [Ev F].
  assert (K : forall o, In o (mesh_objects d) -> exists v, wt (MeshObject (attribute_ty ver)) v = true /\ loaded_object ver bufs ib groups v o).
  { intros o Io. apply (SkelFacts.forall2_in_r _ _ _ F) in Io as (v & Iv & H). rewrite Forall_forall in Wo. eauto. }
  split; [|split; [|split; [|split; [|split]]]].
  - intros Lf. unfold mesh_ok. apply andb_true_intro. split.
    + apply forallb_forall. intros o Io. destruct (K o Io) as (v & Wv & H). rewrite Forall_forall in Lf.
      destruct (loaded_ok ver bufs ib groups Bb Bi Wg v o Wv H) as [G _]. auto.
    + unfold len_ok. apply forall2_length in F. clear - F Lo. unfold zlen in *. lia.
  - intros o i Io Ii. destruct (K o Io) as (v & _ & H). destruct H as (r & l & _ & _ & _ & _ & _ & _ & _ & _ & [_ X] & _).
    apply In_nth_error in Ii as [k Ii]. apply X in Ii. apply uint_nonneg in Ii; auto. lia.
  - clear - L Ev. cbn in L. rewrite <- Ev in L. intuition congruence.
  - intros o Io. destruct (K o Io) as (v & Wv & H). destruct (loaded_ok ver bufs ib groups Bb Bi Wg v o Wv H) as (_ & G & _). auto.
  - intros V o i w Io Ii Iw. destruct (K o Io) as (v & Wv & H). destruct (loaded_ok ver bufs ib groups Bb Bi Wg v o Wv H) as (_ & _ & G & _).
    apply (G ltac:(clear - L Ev V; cbn in L; rewrite <- Ev in L; intuition congruence) i w Ii Iw).
  - apply forallb_forall. intros o Io. destruct (K o Io) as (v & Wv & H). apply (loaded_ok ver bufs ib groups Bb Bi Wg v o Wv H).
Qed.

Theorem mesh_reload bounding b d : bounding_ok bounding -> bytes_ok b = true -> mesh_data_read b = Ok d ->
  Forall lists_fit (mesh_objects d) -> mesh_fits (mesh_version_of d) (mesh_objects d) ->
  (saveable d -> exists out, mesh_data_write bounding d = Ok out /\ (zlen out < 2 ^ 63 -> mesh_data_read out = Ok (stored_mesh d))) /\
  (~ saveable d -> exists e, mesh_data_write bounding d = Err (EData e) /\ mesh_violation d (EData e) /\ In e [DDuplicate; DNotTriangles; DIndexRange]).
Proof.
  intros B Hb R Lf M. destruct (mesh_loaded _ _ Hb R) as (K & P & V & C & W & _). specialize (K Lf).
  assert (S : mesh_valid d <-> saveable d).
  { unfold mesh_valid, saveable. rewrite Forall_forall. split.
    - intros (_ & _ & N & O & _). split; auto. intros o Io. destruct (O o Io) as [T (n & [H1 H2] & H3)]. split; auto.
      intros i Ii. destruct (all_attributes o) as [|a l] eqn:E; [specialize (H3 i Ii); rewrite (H2 eq_refl) in H3; specialize (P o i Io Ii); lia|].
      exists a. split; [now left|]. rewrite H1 by now left. auto.
    - intros [N O]. split; [apply V|]. split; [apply V|]. split; auto. split; auto. intros o Io. destruct (O o Io) as [T H]. split; auto.
      destruct (C o Io) as [n Hn]. exists n. split; auto. intros i Ii. destruct (H i Ii) as (a & Ia & La). destruct Hn as [Hn _]. rewrite <- (Hn a Ia). exact La. }
  destruct (mesh_write_result bounding d B K M) as [W1 W2]. split.
  - intros Sd. apply S in Sd. destruct (W1 Sd) as [out Eo]. exists out. split; auto. intros L. eapply mesh_save_load; eauto.
  - intros Sd. assert (Vd : ~ mesh_valid d) by (rewrite S; exact Sd). destruct (W2 Vd) as (e & Ee & Xe).
    clear - Ee Xe V W C. destruct e as [| | | | | | | |x|]; try (exfalso; exact Xe). exists x. split; [exact Ee|]. split; [exact Xe|].
    destruct x; try (exfalso; exact Xe); cbn [In]; try tauto; exfalso.
    all: match goal with
      | _ => exact (Xe V)
      | _ => exact (Xe W)
      | _ => destruct Xe as (o & Io & a & c & Ia & Ic & D); destruct (C o Io) as [n [Hn _]]; apply D; rewrite (Hn a Ia), (Hn c Ic); reflexivity
      end.
Qed.
