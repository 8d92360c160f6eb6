(** Converting meshes between versions. *)
From Coq Require Import Lia ZifyBool ZifyNat ZifyN.
From Verif Require Import Bytes BytesFacts Ssbh Formats File FileFacts Strings AnimSpec DataSpec VecData MeshData MeshSpec
  FloatFacts VecFacts MeshFacts RigFacts MeshLemmas ResaveFacts MeshReadSpec MeshReload AgainFacts ConvSpec.
Ltac Zify.zify_post_hook ::= ZifyBool.elim_bool_cstr; Z.to_euclidean_division_equations.
#[local] Strategy opaque [typed_write typed_read].

(** ** What a version does to data that went through other versions *)
Lemma half_again rows : half_rows (half_rows rows) = half_rows rows.
Proof. unfold half_rows. rewrite map_map_rows. apply map_rows_ext. intros x. now rewrite f16_idem. Qed.
Lemma colour_again rows : colour_rows (colour_rows rows) = colour_rows rows.
Proof. unfold colour_rows. rewrite map_map_rows. apply map_rows_ext. intros x. rewrite u8_roundtrip; auto. apply get_u8_clamped_bound. Qed.

Definition minor_of (ver : mesh_version) : Z := match ver with MV8 => 8 | MV9 => 9 | MV10 => 10 end.
Lemma existsb_snoc x vs v : existsb (Z.eqb x) (vs ++ [v]) = existsb (Z.eqb x) vs || (x =? v).
Proof. rewrite existsb_app. cbn [existsb]. now rewrite orb_false_r. Qed.

Lemma vectors_more vs ver v : stored_vectors ver (left_vectors vs v) = left_vectors (vs ++ [minor_of ver]) v.
Proof.
  destruct v as [d rows]. unfold stored_vectors, left_vectors, left_pairs. rewrite existsb_snoc.
  destruct d, ver, (existsb (Z.eqb 10) vs); cbn [vec_dim vec_rows minor_of orb Z.eqb Pos.eqb]; rewrite ?half_again; reflexivity.
Qed.
Lemma colors_more vs ver v : stored_colors ver (left_colors vs v) = left_colors (vs ++ [minor_of ver]) v.
Proof.
  destruct v as [d rows]. unfold stored_colors, left_colors, left_pairs. rewrite existsb_snoc.
  destruct d, ver, (existsb (Z.eqb 10) vs); cbn [vec_dim vec_rows minor_of orb Z.eqb Pos.eqb]; rewrite ?half_again, ?colour_again; reflexivity.
Qed.
Lemma vectors_first ver v : stored_vectors ver v = left_vectors [minor_of ver] v.
Proof. destruct v as [d rows]. now destruct d, ver. Qed.
Lemma colors_first ver v : stored_colors ver v = left_colors [minor_of ver] v.
Proof. destruct v as [d rows]. now destruct d, ver. Qed.

Lemma attributes_more vs ver f g h u l : (forall v, f (g v) = h v) -> forall i,
  stored_attributes ver f u i (left_attributes vs g u i l) = left_attributes (vs ++ [minor_of ver]) h u i l.
Proof.
  intros H. induction l as [|a l IH]; intros i; cbn [stored_attributes left_attributes]; [reflexivity|].
  rewrite IH. cbn [attr_data attr_name]. rewrite H. do 2 f_equal. unfold left_names. rewrite existsb_snoc.
  destruct ver, (existsb (Z.eqb 8) vs); reflexivity.
Qed.
Lemma attributes_first ver f h u l : (forall v, f v = h v) -> forall i, stored_attributes ver f u i l = left_attributes [minor_of ver] h u i l.
Proof.
  intros H. induction l as [|a l IH]; intros i; cbn [stored_attributes left_attributes]; [reflexivity|].
  rewrite IH, H. do 2 f_equal. now destruct ver.
Qed.
Lemma object_more vs ver o : stored_object ver (left_object vs o) = left_object (vs ++ [minor_of ver]) o.
Proof.
  unfold stored_object, left_object.
  cbn [ob_name ob_subindex ob_parent ob_bias ob_no_write ob_no_test ob_indices ob_positions ob_normals ob_binormals ob_tangents ob_texcoords ob_colors ob_influences].
  rewrite !(attributes_more vs ver _ (left_vectors vs) (left_vectors (vs ++ [minor_of ver]))) by apply vectors_more.
  rewrite (attributes_more vs ver _ (left_colors vs) (left_colors (vs ++ [minor_of ver]))) by apply colors_more.
  rewrite (attributes_more vs ver _ (fun v => v) (fun v => v)) by reflexivity. f_equal. rewrite existsb_snoc.
  destruct ver; cbn [minor_of Z.eqb Pos.eqb]; rewrite ?orb_true_r, ?orb_false_r; [reflexivity|destruct (existsb (Z.eqb 8) vs); [reflexivity|]..].
  - rewrite (attributes_more vs MV9 _ (left_vectors vs) (left_vectors (vs ++ [minor_of MV9]))) by apply vectors_more. reflexivity.
  - rewrite (attributes_more vs MV10 _ (left_vectors vs) (left_vectors (vs ++ [minor_of MV10]))) by apply vectors_more. reflexivity.
Qed.
Lemma object_first ver o : stored_object ver o = left_object [minor_of ver] o.
Proof.
  unfold stored_object, left_object.
  rewrite !(attributes_first ver (stored_vectors ver) (left_vectors [minor_of ver])) by apply vectors_first.
  rewrite !(attributes_first ver (stored_colors ver) (left_colors [minor_of ver])) by apply colors_first.
  rewrite !(attributes_first ver (fun v => v) (fun v => v)) by reflexivity. now destruct ver.
Qed.

(** Only the set of versions matters. *)
Lemma existsb_in x vs : existsb (Z.eqb x) vs = true <-> In x vs.
Proof. rewrite existsb_exists. split; [intros (y & I & E); assert (y = x) as -> by lia; exact I|intros I; exists x; split; [exact I|lia]]. Qed.
Lemma existsb_iff x vs ws : (In x vs <-> In x ws) -> existsb (Z.eqb x) vs = existsb (Z.eqb x) ws.
Proof. intros H. rewrite <- !existsb_in in H. destruct (existsb (Z.eqb x) vs), (existsb (Z.eqb x) ws); intuition congruence. Qed.
Lemma left_ext vs ws o : (In 8 vs <-> In 8 ws) -> (In 10 vs <-> In 10 ws) -> left_object vs o = left_object ws o.
Proof.
  intros H8 H10. apply existsb_iff in H8, H10.
  assert (A : forall f g u l, (forall v, f v = g v) -> forall i, left_attributes vs f u i l = left_attributes ws g u i l).
  { intros f g u l F. induction l as [|a l IH]; intros i; cbn [left_attributes]; [reflexivity|]. rewrite IH, F. unfold left_names. now rewrite H8. }
  assert (V : forall v, left_vectors vs v = left_vectors ws v) by (intros v; unfold left_vectors, left_pairs; now rewrite H10).
  assert (C : forall v, left_colors vs v = left_colors ws v) by (intros v; unfold left_colors, left_pairs; now rewrite H10).
  unfold left_object. rewrite H8. rewrite !(A (left_vectors vs) (left_vectors ws)) by apply V. rewrite (A (left_colors vs) (left_colors ws)) by apply C.
  rewrite (A (fun v => v) (fun v => v)) by reflexivity. reflexivity.
Qed.

(** ** Sizes *)
Lemma attribute_bytes_stored size ver f u l : (forall v, vec_dim (f v) = vec_dim v /\ zlen (vec_rows (f v)) = zlen (vec_rows v)) -> forall i,
  attribute_bytes size (stored_attributes ver f u i l) = attribute_bytes size l.
Proof.
  intros H. unfold attribute_bytes. induction l as [|a l IH]; intros i; cbn [stored_attributes map]; [reflexivity|].
  cbn [zsum fold_right attr_data] in *. destruct (H (attr_data a)) as [-> ->].
  change (zsum (?x :: ?y)) with (x + zsum y). now rewrite IH.
Qed.
Lemma stored_vectors_dim ver v : vec_dim (stored_vectors ver v) = vec_dim v /\ zlen (vec_rows (stored_vectors ver v)) = zlen (vec_rows v).
Proof. split; [destruct v as [d rows]; now destruct ver, d|apply stored_vectors_len]. Qed.
Lemma stored_colors_dim ver v : vec_dim (stored_colors ver v) = vec_dim v /\ zlen (vec_rows (stored_colors ver v)) = zlen (vec_rows v).
Proof. split; [destruct v as [d rows]; now destruct ver, d|apply stored_colors_len]. Qed.
Lemma attribute_bytes_nonneg size l : (forall d, 0 <= size d) -> 0 <= attribute_bytes size l.
Proof.
  intros H. unfold attribute_bytes. induction l as [|a l IH]; cbn [map]; [cbn; lia|]. change (zsum (?x :: ?y)) with (x + zsum y).
  specialize (H (vec_dim (attr_data a))). pose proof (zlen_nonneg (vec_rows (attr_data a))). clear - H IH H0. nia.
Qed.
Lemma vector_bytes_nonneg ver d : 0 <= vector_bytes ver d.
Proof. destruct ver, d; cbn; lia. Qed.

Lemma stored_lens ver o x : In x (map attr_len (all_attributes (stored_object ver o))) -> In x (map attr_len (all_attributes o)).
Proof.
  unfold all_attributes, stored_object. cbn [ob_positions ob_normals ob_binormals ob_tangents ob_texcoords ob_colors].
  rewrite !map_app, !in_app_iff. rewrite !stored_attributes_len by (auto using stored_vectors_len, stored_colors_len).
  destruct ver; [cbn [map In]; tauto|rewrite stored_attributes_len by apply stored_vectors_len; tauto..].
Qed.
Lemma bytes0_stored w ver o : bytes0 w (stored_object ver o) <= bytes0 w o.
Proof.
  unfold bytes0, stored_object. cbn [ob_positions ob_normals ob_binormals ob_tangents].
  rewrite !attribute_bytes_stored by (auto using stored_vectors_dim).
  pose proof (attribute_bytes_nonneg (vector_bytes w) (ob_binormals o) (vector_bytes_nonneg w)) as N.
  destruct w; [lia| |]; destruct ver; rewrite ?attribute_bytes_stored by apply stored_vectors_dim; try lia.
  all: change (attribute_bytes ?s []) with 0; lia.
Qed.
Lemma bytes1_stored w ver o : bytes1 w (stored_object ver o) = bytes1 w o.
Proof.
  unfold bytes1, stored_object. cbn [ob_texcoords ob_colors].
  now rewrite !attribute_bytes_stored by (auto using stored_vectors_dim, stored_colors_dim).
Qed.
Lemma bytes2_stored w ver o n : has_vertex_count o n -> bytes2 w (stored_object ver o) <= bytes2 w o.
Proof.
  intros [H _]. unfold bytes2. destruct w; [| |lia].
  all: destruct (all_attributes (stored_object ver o)) as [|a l] eqn:E;
    [destruct (all_attributes o) as [|b m]; [lia|pose proof (zlen_nonneg (vec_rows (attr_data b))); lia]|].
  all: assert (I : In (attr_len a) (map attr_len (all_attributes o))) by (apply (stored_lens ver); rewrite E; now left).
  all: apply in_map_iff in I as (c & Ec & Ic); destruct (all_attributes o) as [|b m]; [destruct Ic|];
    unfold attr_len in Ec; rewrite <- Ec, (H c Ic), (H b (or_introl eq_refl)); lia.
Qed.
Lemma zsum_map_le {A B} (f : A -> Z) (g : B -> Z) (h : B -> A) l : (forall x, In x l -> f (h x) <= g x) ->
  zsum (map f (map h l)) <= zsum (map g l).
Proof.
  induction l as [|x l IH]; intros H; [reflexivity|]. cbn [map]. change (zsum (?x :: ?y)) with (x + zsum y).
  specialize (IH (fun y Hy => H y (or_intror Hy))). pose proof (H x (or_introl eq_refl)). lia.
Qed.
Lemma fits_stored w ver os : (forall o, In o os -> exists n, has_vertex_count o n) -> mesh_fits w os -> mesh_fits w (map (stored_object ver) os).
Proof.
  intros C (F0 & F1 & F2 & F3). unfold mesh_fits.
  pose proof (zsum_map_le (bytes0 w) (bytes0 w) (stored_object ver) os (fun o _ => bytes0_stored w ver o)) as G0.
  pose proof (zsum_map_le (bytes1 w) (bytes1 w) (stored_object ver) os (fun o _ => Z.eq_le_incl _ _ (bytes1_stored w ver o))) as G1.
  assert (G2 : zsum (map (bytes2 w) (map (stored_object ver) os)) <= zsum (map (bytes2 w) os)).
  { apply zsum_map_le. intros o I. destruct (C o I) as [n Hn]. eapply bytes2_stored; eauto. }
  pose proof (zsum_map_le index_bytes index_bytes (stored_object ver) os (fun o _ => Z.le_refl _)) as G3.
  clear - F0 F1 F2 F3 G0 G1 G2 G3. repeat split; eapply Z.le_lt_trans; eauto.
Qed.

(** ** One conversion *)
Lemma stored_count ver f u i l : zlen (stored_attributes ver f u i l) = zlen l.
Proof. revert i; induction l as [|a l IH]; intros i; [reflexivity|]. cbn [stored_attributes]. rewrite !zlen_cons, IH. reflexivity. Qed.
Lemma stored_fit ver o : object_ok o = true -> lists_fit (stored_object ver o).
Proof.
  intros K. destruct (object_ok_facts o K). unfold lists_fit. split; [|split].
  - eapply Z.le_lt_trans; [|exact of_count]. unfold all_attributes, stored_object.
    cbn [ob_positions ob_normals ob_binormals ob_tangents ob_texcoords ob_colors]. rewrite !zlen_app, !stored_count.
    pose proof (zlen_nonneg (ob_binormals o)). destruct ver; rewrite ?stored_count; try lia. change (zlen (@nil attribute_data)) with 0. lia.
  - unfold len_ok in of_inf_len. cbn [stored_object ob_influences]. change two64 with (2 ^ 64) in *. lia.
  - cbn [stored_object ob_influences]. intros i Hi. rewrite forallb_forall in of_infs. specialize (of_infs i Hi). unfold inf_ok in of_infs. lia.
Qed.

Lemma written_minor bounding v d out : mesh_data_write bounding (in_version v d) = Ok out ->
  exists ver, v = minor_of ver /\ mesh_version_of (in_version v d) = ver.
Proof.
  intros E. unfold mesh_data_write in E. apply bind_ok in E as (x & Ex & _).
  destruct (create_mesh_inner_of bounding _ x Ex) as (ver & V & P & _). exists ver. split; [|now apply mesh_version_eq].
  cbn [in_version mesh_major mesh_minor] in P. destruct ver; injection P; auto.
Qed.
Lemma one_conversion bounding v d out : bounding_ok bounding -> mesh_ok d = true -> (forall w, mesh_fits w (mesh_objects d)) ->
  mesh_data_write bounding (in_version v d) = Ok out -> zlen out < 2 ^ 63 ->
  exists ver, v = minor_of ver /\ mesh_valid (in_version v d) /\
    mesh_data_read out = Ok (MkMesh 1 v (map (stored_object ver) (mesh_objects d))) /\
    mesh_ok (MkMesh 1 v (map (stored_object ver) (mesh_objects d))) = true /\
    (forall w, mesh_fits w (map (stored_object ver) (mesh_objects d))).
Proof.
  intros B K M E L. destruct (written_minor bounding v d out E) as (ver & Ev & Vv). exists ver. split; [exact Ev|].
  assert (K' : mesh_ok (in_version v d) = true) by exact K.
  assert (M' : mesh_fits (mesh_version_of (in_version v d)) (mesh_objects (in_version v d))) by apply M.
  assert (V : mesh_valid (in_version v d)).
  { unfold mesh_data_write in E. apply bind_ok in E as (x & Ex & _). apply (create_mesh_iff bounding _ K'). eauto. }
  split; [exact V|].
  pose proof (mesh_save_load bounding _ out B K' M' E L) as R. unfold stored_mesh in R. rewrite Vv in R.
  cbn [in_version mesh_objects mesh_major mesh_minor] in R. split; [exact R|].
  assert (Hb : bytes_ok out = true).
  { unfold mesh_data_write in E. apply bind_ok in E as (x & Ex & E). destruct (mesh_file_ok bounding _ x B K' M' Ex) as (t & F & W).
    exact (file_bytes _ _ _ _ _ F W E). }
  split.
  - apply (mesh_loaded _ _ Hb R). cbn [mesh_objects]. apply Forall_forall. intros o Io. apply in_map_iff in Io as (o' & <- & Io).
    apply stored_fit. unfold mesh_ok in K. apply andb_prop in K as [K _]. rewrite forallb_forall in K. auto.
  - intros w. apply fits_stored; [|apply M]. intros o Io. destruct V as (_ & _ & _ & O & _). rewrite Forall_forall in O.
    destruct (O o Io) as [_ (n & Hn & _)]. eauto.
Qed.

(** ** Any number of conversions *)
Theorem conversions_result bounding vs d d' : bounding_ok bounding -> mesh_ok d = true -> (forall w, mesh_fits w (mesh_objects d)) ->
  conversions bounding vs d d' ->
  mesh_ok d' = true /\ (forall w, mesh_fits w (mesh_objects d')) /\
  (vs = [] /\ d' = d \/ vs <> [] /\ d' = MkMesh 1 (last vs 0) (map (left_object vs) (mesh_objects d)) /\ (forall v, In v vs -> In v [8; 9; 10])).
Proof.
  intros B K M C. induction C as [d|vs v d d1 d2 out C IH E L R]; [auto|]. destruct (IH K M) as (K1 & M1 & S).
  destruct (one_conversion bounding v d1 out B K1 M1 E L) as (ver & -> & V & R' & K2 & M2).
  assert (d2 = MkMesh 1 (minor_of ver) (map (stored_object ver) (mesh_objects d1))) as -> by congruence.
  split; [exact K2|]. split; [exact M2|]. right. split; [destruct vs; discriminate|]. rewrite last_last.
  assert (Iv : In (minor_of ver) [8; 9; 10]) by (destruct ver; cbn; auto).
  destruct S as [[-> ->]|(N & -> & I)].
  - split; [|intros x [<-|[]]; exact Iv]. f_equal. apply map_ext. apply object_first.
  - split; [|intros x Hx; apply in_app_iff in Hx as [Hx|[<-|[]]]; auto].
    cbn [mesh_objects]. f_equal. rewrite map_map. apply map_ext. intros o. apply object_more.
Qed.

Theorem conversions_data bounding vs d d' : bounding_ok bounding -> mesh_ok d = true -> (forall w, mesh_fits w (mesh_objects d)) ->
  conversions bounding vs d d' -> vs <> [] -> d' = MkMesh 1 (last vs 0) (map (left_object vs) (mesh_objects d)).
Proof.
  intros B K M C N. destruct (conversions_result bounding vs d d' B K M C) as (_ & _ & [[E _]|(_ & E & _)]); [contradiction|exact E].
Qed.

Theorem conversions_order bounding vs ws d d1 d2 : bounding_ok bounding -> mesh_ok d = true -> (forall w, mesh_fits w (mesh_objects d)) ->
  conversions bounding vs d d1 -> conversions bounding ws d d2 -> vs <> [] -> ws <> [] ->
  (In 8 vs <-> In 8 ws) -> (In 10 vs <-> In 10 ws) -> mesh_objects d1 = mesh_objects d2.
Proof.
  intros B K M C1 C2 N1 N2 H8 H10. rewrite (conversions_data bounding vs d d1), (conversions_data bounding ws d d2) by assumption.
  cbn [mesh_objects]. apply map_ext. intros o. now apply left_ext.
Qed.

Lemma conversions_head bounding v vs d d' : conversions bounding (v :: vs) d d' ->
  exists out d1, mesh_data_write bounding (in_version v d) = Ok out /\ zlen out < 2 ^ 63 /\ mesh_data_read out = Ok d1 /\ conversions bounding vs d1 d'.
Proof.
  revert d'. induction vs as [|w vs IH] using rev_ind; intros d' C.
  - inversion C as [|us u x x1 x2 out C' E L R Eq]. subst. destruct us as [|? [|? ?]]; try discriminate Eq. injection Eq as ->.
    inversion C' as [|us ? ? ? ? ? ? ? ? ? Eq]; [subst|destruct us; discriminate Eq]. exists out, d'. split; auto. split; auto. split; auto. constructor.
  - inversion C as [|us u x x1 x2 out C' E L R Eq]. subst. change (v :: vs ++ [w]) with ((v :: vs) ++ [w]) in Eq. apply app_inj_tail in Eq as [-> ->].
    destruct (IH x1 C') as (out1 & y & E1 & L1 & R1 & C1). exists out1, y. split; auto. split; auto. split; auto. econstructor; eauto.
Qed.

Theorem conversions_back bounding v vs d d' out : bounding_ok bounding -> mesh_ok d = true -> (forall w, mesh_fits w (mesh_objects d)) ->
  mesh_data_write bounding (in_version v d) = Ok out -> conversions bounding (v :: vs) d d' ->
  (In 8 vs -> v = 8) -> (In 10 vs -> v = 10) ->
  (v = 8 -> forall o, In o (mesh_objects d) -> ob_binormals o = [] \/ other_attributes o <> []) ->
  mesh_data_write bounding (in_version v d') = Ok out.
Proof.
  intros B K M E C H8 H10 HB.
  rewrite (conversions_data bounding (v :: vs) d d') by (auto; discriminate).
  destruct (written_minor bounding v d out E) as (ver & Ev & Vv).
  assert (X : in_version v (MkMesh 1 (last (v :: vs) 0) (map (left_object (v :: vs)) (mesh_objects d))) = stored_mesh (in_version v d)).
  { unfold in_version, stored_mesh. cbn [mesh_objects mesh_major mesh_minor]. unfold in_version in Vv. rewrite Vv. f_equal. apply map_ext. intros o. rewrite object_first.
    apply left_ext; cbn [In]; rewrite <- Ev; intuition congruence. }
  rewrite X. unfold mesh_data_write in *. apply bind_ok in E as (x & Ex & E).
  rewrite (create_mesh_again bounding (in_version v d) x HB Ex). exact E.
Qed.

(** ** Which conversions succeed *)
Lemma left_lens vs o : map attr_len (all_attributes (left_object vs o)) =
  map attr_len (if existsb (Z.eqb 8) vs then other_attributes o else all_attributes o).
Proof.
  assert (A : forall f u l, (forall v, zlen (vec_rows (f v)) = zlen (vec_rows v)) -> forall i, map attr_len (left_attributes vs f u i l) = map attr_len l).
  { intros f u l F. induction l as [|a l IH]; intros i; cbn [left_attributes map]; [reflexivity|]. rewrite IH. unfold attr_len at 1 3. cbn [attr_data]. now rewrite F. }
  assert (P : forall rows, zlen (left_pairs vs rows) = zlen rows) by (intros rows; unfold left_pairs, half_rows; destruct (existsb _ _); rewrite ?zlen_map; reflexivity).
  assert (V : forall v, zlen (vec_rows (left_vectors vs v)) = zlen (vec_rows v)).
  { intros [d rows]. unfold left_vectors. destruct d; cbn [vec_dim vec_rows]; auto. unfold half_rows. now rewrite zlen_map. }
  assert (W : forall v, zlen (vec_rows (left_colors vs v)) = zlen (vec_rows v)).
  { intros [d rows]. unfold left_colors. destruct d; cbn [vec_dim vec_rows]; auto. unfold colour_rows. now rewrite zlen_map. }
  unfold all_attributes, other_attributes, left_object. cbn [ob_positions ob_normals ob_binormals ob_tangents ob_texcoords ob_colors].
  rewrite !map_app. rewrite !A by auto. destruct (existsb (Z.eqb 8) vs); rewrite !map_app, ?A by auto; reflexivity.
Qed.
Lemma count_lens o n : has_vertex_count o n <-> (forall x, In x (map attr_len (all_attributes o)) -> x = n) /\ (map attr_len (all_attributes o) = [] -> n = 0).
Proof.
  unfold has_vertex_count. split; intros [H H0]; split.
  - intros x Hx. apply in_map_iff in Hx as (a & <- & Ha). now apply H.
  - intros E. apply map_eq_nil in E. auto.
  - intros a Ha. apply (H (attr_len a)). now apply in_map.
  - intros E. apply H0. now rewrite E.
Qed.
Lemma other_incl o a : In a (other_attributes o) -> In a (all_attributes o).
Proof. unfold other_attributes, all_attributes. rewrite !in_app_iff. tauto. Qed.

Lemma left_valid vs o : object_ok o = true -> object_valid o ->
  (object_valid (left_object vs o) <-> (In 8 vs -> ob_indices o = [] \/ other_attributes o <> [])).
Proof.
  intros K [T (n & [H H0] & I)]. unfold object_valid, triangles. change (ob_indices (left_object vs o)) with (ob_indices o).
  rewrite <- existsb_in. split.
  - intros [_ (m & Hm & Im)] E8. apply count_lens in Hm. rewrite left_lens, E8 in Hm. destruct Hm as [_ Hm].
    destruct (other_attributes o) as [|a l]; [left|right; discriminate]. specialize (Hm eq_refl). subst m.
    destruct (ob_indices o) as [|i r] eqn:Ei; [reflexivity|exfalso]. specialize (Im i (or_introl eq_refl)).
    destruct (object_ok_facts o K). rewrite Ei in of_indices. cbn [forallb] in of_indices. clear - Im of_indices. unfold is32 in of_indices. lia.
  - intros X. split; [exact T|]. destruct (existsb (Z.eqb 8) vs) eqn:E8.
    + destruct (X eq_refl) as [Y|Y].
      * exists (match other_attributes o with [] => 0 | _ => n end). split; [|rewrite Y; intros i []]. apply count_lens. rewrite left_lens, E8. split.
        -- intros x Hx. apply in_map_iff in Hx as (a & <- & Ha). destruct (other_attributes o) eqn:Eo; [destruct Ha|]. rewrite <- Eo in Ha. apply H. now apply other_incl.
        -- intros Z0. apply map_eq_nil in Z0. now rewrite Z0.
      * exists n. split; [|exact I]. apply count_lens. rewrite left_lens, E8. split.
        -- intros x Hx. apply in_map_iff in Hx as (a & <- & Ha). apply H. now apply other_incl.
        -- intros Z0. apply map_eq_nil in Z0. contradiction.
    + exists n. split; [|exact I]. apply count_lens. rewrite left_lens, E8. apply count_lens. split; auto.
Qed.

Theorem conversions_next bounding vs v d d' : bounding_ok bounding -> mesh_ok d = true -> (forall w, mesh_fits w (mesh_objects d)) ->
  conversions bounding vs d d' -> vs <> [] ->
  ((exists out, mesh_data_write bounding (in_version v d') = Ok out) <-> convertible vs v d) /\
  (~ convertible vs v d -> exists e, mesh_data_write bounding (in_version v d') = Err (EData e) /\ In e [DVersion; DWeightIndex; DIndexRange]).
Proof.
  intros B K M C N. destruct (conversions_result bounding vs d d' B K M C) as (K1 & M1 & [[E _]|(_ & E & _)]); [contradiction|].
  assert (V0 : NoDup (map object_key (mesh_objects d)) /\ Forall object_valid (mesh_objects d)).
  { destruct vs as [|u vs]; [contradiction|]. destruct (conversions_head _ _ _ _ _ C) as (out & d1 & E1 & L1 & R1 & _).
    destruct (one_conversion bounding u d out B K M E1 L1) as (ver & _ & (_ & _ & X & Y & _) & _). split; assumption. }
  destruct V0 as [V1 V2].
  assert (D : forall o, In o (mesh_objects d) -> object_ok o = true) by (unfold mesh_ok in K; apply andb_prop in K as [K _]; now apply forallb_forall).
  rewrite Forall_forall in V2.
  assert (Q : mesh_valid (in_version v d') <-> convertible vs v d).
  { subst d'. unfold mesh_valid, convertible, weights_fit. cbn [in_version mesh_major mesh_minor mesh_objects In]. split.
    - intros (_ & Vv & _ & O & W). split; [intuition congruence|]. split.
      + intros -> o i w Io Ii Iw. apply (W eq_refl (left_object vs o) i w); auto. now apply in_map.
      + intros I8 o Io. rewrite Forall_forall in O. revert I8. apply (left_valid vs o); auto. apply O. now apply in_map.
    - intros (Vv & W & O). split; [reflexivity|]. split; [intuition congruence|]. split; [|split].
      + rewrite map_map. exact V1.
      + apply Forall_forall. intros o Io. apply in_map_iff in Io as (o' & <- & Io). apply left_valid; auto.
      + intros Ev o i w Io Ii Iw. apply in_map_iff in Io as (o' & <- & Io). eauto. }
  destruct (mesh_write_result bounding (in_version v d') B K1 (M1 _)) as [W1 W2]. split.
  - rewrite <- Q. split; [|apply W1]. intros [out Eo]. unfold mesh_data_write in Eo. apply bind_ok in Eo as (x & Ex & _).
    apply (create_mesh_iff bounding (in_version v d') K1). eauto.
  - rewrite <- Q. intros X. destruct (W2 X) as (e & Ee & Ve).
    destruct e as [| | | | | | | |x|]; try (exfalso; exact Ve). exists x. split; [exact Ee|].
    subst d'. destruct x; try (exfalso; exact Ve); cbn [In]; try tauto; exfalso; cbn [mesh_violation in_version mesh_objects] in Ve.
    + destruct Ve as (o & Io & a & b & Ia & Ib & Nab). apply in_map_iff in Io as (o' & <- & Io). apply Nab.
      destruct (V2 o' Io) as [_ (n & [Hn _] & _)].
      assert (G : forall a, In a (all_attributes (left_object vs o')) -> attr_len a = n).
      { intros c Hc. apply (in_map attr_len) in Hc. rewrite left_lens in Hc. apply in_map_iff in Hc as (c' & <- & Hc).
        apply Hn. destruct (existsb (Z.eqb 8) vs); [now apply other_incl|exact Hc]. }
      transitivity n; [apply (G a Ia)|symmetry; apply (G b Ib)].
    + destruct Ve as (o & Io & T). apply in_map_iff in Io as (o' & <- & Io). apply T. exact (proj1 (V2 o' Io)).
    + apply Ve. rewrite map_map. exact V1.
Qed.
