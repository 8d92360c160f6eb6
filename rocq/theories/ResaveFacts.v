(** Saving a loaded mesh again. *)
From Coq Require Import Lia ZifyBool ZifyNat ZifyN.
From Verif Require Import Bytes BytesFacts Ssbh Formats File FileFacts Strings AnimBuf AnimSpec AnimFacts DataSpec VecData MeshData MeshSpec
  FloatFacts VecFacts MeshFacts RigFacts MeshLemmas.
Ltac Zify.zify_post_hook ::= ZifyBool.elim_bool_cstr; Z.to_euclidean_division_equations.

Lemma map_rows_ext (f g : Z -> Z) rows : (forall x, f x = g x) -> map (map f) rows = map (map g) rows.
Proof. intros H. apply map_ext. intros r. apply map_ext. exact H. Qed.
Lemma map_map_rows (f g : Z -> Z) rows : map (map f) (map (map g) rows) = map (map (fun x => f (g x))) rows.
Proof. rewrite map_map. apply map_ext. intros r. apply map_map. Qed.

Lemma from_vectors_again ver v : from_vectors ver (stored_vectors ver v) = from_vectors ver v.
Proof.
  destruct v as [d rows]. destruct ver, d; try reflexivity; unfold from_vectors, stored_vectors, get_f16_vectors, half_rows; cbn [vec_dim vec_rows];
    f_equal; rewrite map_map_rows; apply map_rows_ext; intros x; apply f16_idem.
Qed.
Lemma from_colors_again ver v : from_colors ver (stored_colors ver v) = from_colors ver v.
Proof.
  destruct v as [d rows]. destruct ver, d; try reflexivity;
    unfold from_colors, stored_colors, get_f16_vectors, get_clamped_u8_vectors, half_rows, colour_rows; cbn [vec_dim vec_rows];
    f_equal; rewrite map_map_rows; apply map_rows_ext; intros x; (apply f16_idem || apply u8_roundtrip, get_u8_clamped_bound).
Qed.
Lemma stored_vectors_len ver v : zlen (vec_rows (stored_vectors ver v)) = zlen (vec_rows v).
Proof. destruct v as [d rows]. destruct ver, d; cbn [stored_vectors vec_dim vec_rows]; unfold half_rows; rewrite ?zlen_map; reflexivity. Qed.
Lemma stored_colors_len ver v : zlen (vec_rows (stored_colors ver v)) = zlen (vec_rows v).
Proof. destruct v as [d rows]. destruct ver, d; cbn [stored_colors vec_dim vec_rows]; unfold half_rows, colour_rows; rewrite ?zlen_map; reflexivity. Qed.
Lemma stored_attributes_len ver f u i l : (forall v, zlen (vec_rows (f v)) = zlen (vec_rows v)) ->
  map attr_len (stored_attributes ver f u i l) = map attr_len l.
Proof.
  intros H. revert i; induction l as [|a l IH]; intros i; [reflexivity|]. cbn [stored_attributes map]. rewrite IH. unfold attr_len at 1 3.
  cbn [attr_data]. now rewrite H.
Qed.

(** Items that are written alike: version 1.8 stores no names. *)
Definition same_item (ver : mesh_version) (a b : list Z * Z * usage * encoded) : Prop :=
  let '(n1, i1, u1, e1) := a in let '(n2, i2, u2, e2) := b in (ver <> MV8 -> n1 = n2) /\ i1 = i2 /\ u1 = u2 /\ e1 = e2.

Lemma same_attributes ver f g u l : (forall v, f (g v) = f v) -> forall i,
  Forall2 (same_item ver) (get_attributes f u i (stored_attributes ver g u i l)) (get_attributes f u i l).
Proof.
  intros H. induction l as [|a l IH]; intros i; cbn [stored_attributes get_attributes]; constructor; [|apply IH].
  cbn [attr_name attr_data same_item]. rewrite H. repeat split. destruct ver; congruence.
Qed.
Lemma same_enc ver l1 l2 : Forall2 (same_item ver) l1 l2 -> map item_enc l1 = map item_enc l2.
Proof.
  induction 1 as [|[[[n1 i1] u1] e1] [[[n2 i2] u2] e2] l1 l2 (_ & _ & _ & ->) _ IH]; [reflexivity|]. cbn [map]. rewrite IH. reflexivity.
Qed.
Lemma same_vals ver l1 l2 : Forall2 (same_item ver) l1 l2 -> forall k off,
  map (fun p => attribute_val ver (fst p)) (create_buffer_attributes k off l1) =
  map (fun p => attribute_val ver (fst p)) (create_buffer_attributes k off l2) /\
  total_stride (create_buffer_attributes k off l1) = total_stride (create_buffer_attributes k off l2).
Proof.
  intros H k off. split.
  - revert off. induction H as [|[[[n1 i1] u1] e1] [[[n2 i2] u2] e2] l1 l2 (Hn & -> & -> & ->) _ IH]; intros off; [reflexivity|].
    cbn [create_buffer_attributes map fst]. rewrite IH. f_equal. destruct ver; [reflexivity|rewrite Hn by discriminate; reflexivity..].
  - unfold total_stride. rewrite !cba_types. now rewrite (same_enc ver l1 l2 H).
Qed.

Lemma same_buffer0 ver o : Forall2 (same_item ver) (buffer0_data ver (stored_object ver o)) (buffer0_data ver o).
Proof.
  unfold buffer0_data, stored_object. cbn [ob_positions ob_normals ob_binormals ob_tangents].
  repeat apply Forall2_app; try apply same_attributes; auto using from_vectors_again.
  destruct ver; [constructor|apply same_attributes; apply from_vectors_again..].
Qed.
Lemma same_buffer1 ver o : Forall2 (same_item ver) (buffer1_data ver (stored_object ver o)) (buffer1_data ver o).
Proof.
  unfold buffer1_data, stored_object. cbn [ob_texcoords ob_colors].
  repeat apply Forall2_app; apply same_attributes; auto using from_vectors_again, from_colors_again.
Qed.
Lemma same_positions ver o : first_positions (stored_object ver o) = first_positions o.
Proof. unfold first_positions, stored_object. cbn [ob_positions]. now destruct (ob_positions o). Qed.

Lemma same_count ver o n : (ver = MV8 -> ob_binormals o = [] \/ other_attributes o <> []) -> vertex_count o = Ok n ->
  vertex_count (stored_object ver o) = Ok n.
Proof.
  intros HB H. apply vertex_count_ok in H. destruct H as [H H0].
  assert (EN : forall x, In x (map attr_len (all_attributes o)) -> x = n).
  { intros x Hx. apply in_map_iff in Hx as (a & <- & Ha). unfold attr_len. auto. }
  assert (ES : forall x, In x (map attr_len (all_attributes (stored_object ver o))) -> In x (map attr_len (all_attributes o))).
  { intros x. unfold all_attributes, stored_object. cbn [ob_positions ob_normals ob_binormals ob_tangents ob_texcoords ob_colors].
    rewrite !map_app, !in_app_iff. rewrite !stored_attributes_len by (auto using stored_vectors_len, stored_colors_len).
    destruct ver; [cbn [map In]; tauto|rewrite stored_attributes_len by apply stored_vectors_len; tauto..]. }
  apply vertex_count_ok. split.
  - intros a Ha. apply EN, ES. change (zlen (vec_rows (attr_data a))) with (attr_len a). now apply in_map.
  - intros E. apply (f_equal (map attr_len)) in E. cbn [map] in E.
    unfold all_attributes, stored_object in E. cbn [ob_positions ob_normals ob_binormals ob_tangents ob_texcoords ob_colors] in E.
    rewrite !map_app in E. rewrite !stored_attributes_len in E by (auto using stored_vectors_len, stored_colors_len).
    apply H0. assert (E2 : map attr_len (all_attributes o) = []).
    { unfold all_attributes. rewrite !map_app. destruct ver; [|rewrite stored_attributes_len in E by apply stored_vectors_len; exact E..].
      cbn [map app] in E. destruct (HB eq_refl) as [B|B]; [rewrite B; exact E|].
      exfalso. apply B. unfold other_attributes. apply map_eq_nil with (f := attr_len). rewrite !map_app. exact E. }
    now apply map_eq_nil in E2.
Qed.

Lemma create_object_again bounding ver o s r : (ver = MV8 -> ob_binormals o = [] \/ other_attributes o <> []) ->
  create_mesh_object bounding ver o s = Ok r -> create_mesh_object bounding ver (stored_object ver o) s = Ok r.
Proof.
  intros HB E. unfold create_mesh_object in *. destruct (vertex_count o) as [n| |] eqn:V.
  2:{ destruct (negb _); discriminate. } 2:{ destruct (negb _); discriminate. }
  rewrite (same_count ver o n HB V). rewrite same_positions.
  change (ob_indices (stored_object ver o)) with (ob_indices o). change (ob_name (stored_object ver o)) with (ob_name o).
  change (ob_subindex (stored_object ver o)) with (ob_subindex o). change (ob_parent (stored_object ver o)) with (ob_parent o).
  change (ob_bias (stored_object ver o)) with (ob_bias o). change (ob_no_write (stored_object ver o)) with (ob_no_write o).
  change (ob_no_test (stored_object ver o)) with (ob_no_test o). change (ob_influences (stored_object ver o)) with (ob_influences o).
  cbn [bind] in *. cbv zeta in *. rewrite !map_app, !cba_encoded in *.
  destruct (same_vals ver _ _ (same_buffer0 ver o) 0 0) as [-> ->]. destruct (same_vals ver _ _ (same_buffer1 ver o) 1 0) as [-> ->].
  rewrite (same_enc ver _ _ (same_buffer0 ver o)), (same_enc ver _ _ (same_buffer1 ver o)). exact E.
Qed.
Lemma create_objects_again bounding ver os : (ver = MV8 -> forall o, In o os -> ob_binormals o = [] \/ other_attributes o <> []) ->
  forall s r, create_mesh_objects bounding ver os s = Ok r -> create_mesh_objects bounding ver (map (stored_object ver) os) s = Ok r.
Proof.
  induction os as [|o os IH]; intros HB s r E; cbn [create_mesh_objects map] in *; auto.
  apply bind_ok in E as ([v s1] & E1 & E). apply bind_ok in E as ([vs s2] & E2 & E).
  rewrite (create_object_again bounding ver o s _ (fun V => HB V o (or_introl eq_refl)) E1). cbn [bind].
  rewrite (IH (fun V x Hx => HB V x (or_intror Hx)) s1 _ E2). exact E.
Qed.

Lemma rigging_again ver os : create_rigging_buffers ver (map (stored_object ver) os) = create_rigging_buffers ver os.
Proof.
  unfold create_rigging_buffers. f_equal. induction os as [|o os IH]; [reflexivity|]. cbn [map rigging_groups]. rewrite IH. reflexivity.
Qed.
Lemma validate_again ver os seen : validate_from seen (map (stored_object ver) os) = validate_from seen os.
Proof. revert seen; induction os as [|o os IH]; intros seen; [reflexivity|]. cbn [map validate_from]. rewrite IH. reflexivity. Qed.
Lemma positions_again ver os : flat_map first_positions (map (stored_object ver) os) = flat_map first_positions os.
Proof. induction os as [|o os IH]; [reflexivity|]. cbn [map flat_map]. now rewrite IH, same_positions. Qed.

Theorem create_mesh_again bounding d v : (mesh_minor d = 8 -> forall o, In o (mesh_objects d) -> ob_binormals o = [] \/ other_attributes o <> []) ->
  create_mesh bounding d = Ok v -> create_mesh bounding (stored_mesh d) = Ok v.
Proof.
  intros HB E. unfold create_mesh, stored_mesh in *. cbn [mesh_objects mesh_major mesh_minor].
  unfold validate_mesh_object_subindices in *. rewrite validate_again. apply bind_ok in E as ([] & -> & E). cbn [bind].
  pose proof (version_of_spec (mesh_major d) (mesh_minor d)) as VS.
  destruct (version_of (mesh_major d) (mesh_minor d)) as [ver|] eqn:EV; [|discriminate]. rewrite (mesh_version_eq d ver EV).
  unfold create_mesh_inner in *. apply bind_ok in E as ([vs s] & E1 & E). rewrite rigging_again, positions_again.
  rewrite (create_objects_again bounding ver (mesh_objects d)) with (r := (vs, s)); auto.
  intros ->. apply HB. tauto.
Qed.

Theorem mesh_resave bounding d out : bounding_ok bounding -> mesh_ok d = true -> mesh_fits (mesh_version_of d) (mesh_objects d) ->
  (mesh_minor d = 8 -> forall o, In o (mesh_objects d) -> ob_binormals o = [] \/ other_attributes o <> []) ->
  mesh_data_write bounding d = Ok out -> zlen out < 2 ^ 63 ->
  exists d1, mesh_data_read out = Ok d1 /\ mesh_data_write bounding d1 = Ok out.
Proof.
  intros B K M H8 E L. exists (stored_mesh d). split; [eapply mesh_save_load; eauto|].
  unfold mesh_data_write in *. apply bind_ok in E as (v & Ev & E). rewrite (create_mesh_again bounding d v H8 Ev). exact E.
Qed.

(** ** Rigging *)
Lemma weights_v10_spec l : forallb weight_ok l = true ->
  ((forall w, In w l -> wt_index w < 65536) -> exists bs, create_vertex_weights_v10 l = Ok bs /\ weights_of_bytes bs = l /\ zlen bs = 6 * zlen l) /\
  (forall w, In w l -> 65536 <= wt_index w -> create_vertex_weights_v10 l = Err (EData DWeightIndex)).
Proof.
  intros H. split.
  - intros F. destruct (proj2 (weights_v10_iff l) F) as [bs E]. exists bs. split; [exact E|]. now apply weights_v10_read.
  - intros w Hw L. destruct (weights_v10_err l) as [E|E]; [exact E|]. pose proof (proj1 (weights_v10_iff l) E w Hw). lia.
Qed.
Lemma rigging_lookup_ok ver os rig o : forallb object_ok os = true -> NoDup (map object_key os) -> create_rigging_buffers ver os = Ok rig ->
  In o os -> read_rigging_data ver rig (ob_name o) (ob_subindex o) = Ok (ob_influences o).
Proof.
  intros K N E. apply rigging_lookup; auto. apply Forall_forall. intros x Hx. rewrite forallb_forall in K. apply object_ok_facts. auto.
Qed.

(** ** Witnesses *)

(** 256 bones on vertex 0 *)
Definition many_bones : mesh_object := MkObj [] 0 [] 0 false false [] [] [] [] [] [] [] (repeat (MkInf [98] [MkWeight 0 0]) 256).
Lemma count_refuted : exists o g v, object_ok o = true /\ create_rigging_buffers MV10 [o] = Ok [g] /\
  influences_of v (ob_influences o) = 256 /\ group_parts g = Some (ob_name o, ob_subindex o, 0, 256).
Proof.
  exists many_bones, (match create_rigging_buffers MV10 [many_bones] with Ok (g :: _) => g | _ => VInt 0 end), 0.
  vm_compute. auto.
Qed.

(** The number of points as the radius of the sphere; everything else zero *)
Definition zero3 : val := VStruct [VInt 0; VInt 0; VInt 0].
Definition simple_bounding (l : list (list Z)) : val :=
  VStruct [VStruct [zero3; VInt (zlen l mod 2 ^ 32)]; VStruct [zero3; zero3]; VStruct [zero3; VStruct [zero3; zero3; zero3]; zero3]].
Lemma simple_bounding_ok : bounding_ok simple_bounding.
Proof.
  intros l. unfold simple_bounding. assert (B : 0 <= zlen l mod 2 ^ 32 < 2 ^ 32) by (apply Z.mod_pos_bound; lia).
  generalize dependent (zlen l mod 2 ^ 32). intros r B.
  assert (W : wt f32 (VInt r) = true) by (apply wt_f32; unfold is32; lia).
  unfold BoundingInfo, BoundingSphere. rewrite !wt_record_cons, W. vm_compute. reflexivity.
Qed.
(** Three binormals and one triangle *)
Definition only_binormals : mesh_data :=
  MkMesh 1 8 [MkObj [] 0 [] 0 false false [0; 1; 2] [] [] [MkAttr [] (MkVec Three [[0; 0; 0]; [0; 0; 0]; [0; 0; 0]])] [] [] [] []].
Definition only_binormals_out : list Z := match mesh_data_write simple_bounding only_binormals with Ok out => out | _ => [] end.
Lemma resave_v8_refuted : exists d out d1, mesh_ok d = true /\ mesh_data_write simple_bounding d = Ok out /\ mesh_data_read out = Ok d1 /\
  mesh_data_write simple_bounding d1 = Err (EData DIndexRange).
Proof. exists only_binormals, only_binormals_out, (stored_mesh only_binormals). vm_compute. auto. Qed.
