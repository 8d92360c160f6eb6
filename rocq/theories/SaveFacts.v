(** Lemmas about which data can be saved. *)
From Coq Require Import Lia ZifyBool ZifyNat ZifyN.
From Verif Require Import Bytes BytesFacts Ssbh File SsbhSpec SsbhFacts Formats Strings Bits Float32 AnimComp AnimBuf AnimSpec MeshEx.
From Verif Require Import SsbhLemmas FileSpec FileFacts AnimFacts AnimDataFacts AnimLemmas SmallData DataSpec SmallDataFacts SkelData SkelSpec SkelFacts.
From Verif Require Import SizeSpec SizeFacts SizeFileFacts.
From Verif Require Import AnimFile MatlData MatlSpec MatlFacts AdjData AdjSpec AdjDataFacts VecData MeshData MeshSpec MeshReadSpec MeshFacts RigFacts MeshLemmas.
From Verif Require Import Json JsonSpec DataJson DataJsonSpec DataJsonFacts DataJsonLoad DataJsonTool CutSpec CutFacts SaveSpec.
Ltac Zify.zify_post_hook ::= ZifyBool.elim_bool_cstr; Z.to_euclidean_division_equations.

(** ** Models and helper bones *)
Lemma modl_saved d : typed_modl d = true -> counts_fit (DtModl d) -> exists out, modl_data_write d = Ok out.
Proof. intros T C. rewrite <- modl_write_cut. apply modl_write_total. now apply modl_ok_cut. Qed.
Lemma hlpb_saved d : typed_hlpb d = true -> counts_fit (DtHlpb d) -> exists out, hlpb_data_write d = Ok out.
Proof. intros T C. rewrite <- hlpb_write_cut. apply hlpb_write_total. now apply hlpb_ok_cut. Qed.

(** ** Extra mesh data *)
Lemma cut_length t : zlen (cut t) <= zlen t.
Proof. destruct (cut_spec t) as (r & E & _). rewrite E at 2. rewrite zlen_app. pose proof (zlen_nonneg r). lia. Qed.
Lemma cstr_ptr_space a t : 0 < a <= 16 -> space 16 (TAbs 8 (TCStr a)) (cstr_ptr t) <= zlen t + 32.
Proof.
  intros A. unfold cstr_ptr. rewrite cut_stored. pose proof (cut_length t) as L. pose proof (zlen_nonneg t).
  change (space 16 (TAbs 8 (TCStr a)) (VPtr (Some (VBytes (cut t))))) with (round_up (object_size (TCStr a) (VBytes (cut t))) 16 + 0).
  assert (B : object_size (TCStr a) (VBytes (cut t)) <= zlen t + 16).
  { destruct (cut t) as [|y r]; cbn [object_size]; [lia|]. lia. }
  pose proof (round_up_lt (object_size (TCStr a) (VBytes (cut t))) 16 ltac:(lia)). lia.
Qed.
Lemma sphere_space s : space 16 BoundingSphere (sphere_val s) = 0.
Proof. reflexivity. Qed.
Lemma group_value_space g : space 16 MeshObjectGroup (group_value g) <= zlen (mg_full g) + zlen (mg_name g) + 64.
Proof.
  unfold MeshObjectGroup, aligned, group_value. rewrite space_struct. cbn [map space_fields]. rewrite sphere_space.
  pose proof (cstr_ptr_space 4 (mg_full g) ltac:(lia)). pose proof (cstr_ptr_space 4 (mg_name g) ltac:(lia)). lia.
Qed.
Lemma groups_space gs :
  space_list 16 MeshObjectGroup (map group_value gs) <= zsum (map (fun g => zlen (mg_full g) + zlen (mg_name g)) gs) + 64 * zlen gs.
Proof.
  induction gs as [|g gs IH]; [reflexivity|]. cbn [map space_list fold_right zsum]. rewrite zlen_cons.
  fold (space_list 16 MeshObjectGroup (map group_value gs)). fold (zsum (map (fun g => zlen (mg_full g) + zlen (mg_name g)) gs)).
  pose proof (group_value_space g). lia.
Qed.
Lemma entries_space gs : forall i, space_list 16 MeshEntry (entries_from i gs) = 0.
Proof.
  induction gs as [|g gs IH]; intros i; [reflexivity|]. cbn [entries_from]. unfold space_list. rewrite fold_right_app.
  fold (space_list 16 MeshEntry (entries_from (i + 1) gs)). rewrite IH.
  induction (mg_flags g) as [|f fs IHf]; [reflexivity|]. cbn [map fold_right]. rewrite IHf. reflexivity.
Qed.
Lemma flags_list_space l : space_list 16 EntryFlag (map flag_val l) = 0.
Proof. induction l as [|f l IH]; [reflexivity|]. cbn [map space_list fold_right]. fold (space_list 16 EntryFlag (map flag_val l)). now rewrite IH. Qed.
Lemma flat_map_map {A B C} (f : B -> C) (g : A -> list B) l : flat_map (fun a => map f (g a)) l = map f (flat_map g l).
Proof. induction l as [|a l IH]; [reflexivity|]. cbn [flat_map]. now rewrite map_app, IH. Qed.

Lemma meshex_of_space all gs : groups_ok gs = true ->
  meshex_space (meshex_of all gs) <= zsum (map (fun g => zlen (mg_full g) + zlen (mg_name g)) gs) + 2 ^ 40.
Proof.
  intros G. destruct (meshex_of_lens all gs G) as (L1 & L2 & L3 & _). unfold meshex_space.
  cbn [meshex_of mx_all mx_groups mx_entries mx_flags opt_len] in *.
  rewrite zlen_map in L1.
  assert (A : space 16 (TAbs 8 AllData) (VPtr (Some (VStruct [sphere_val all; cstr_ptr [65; 108; 108]]))) <= 128).
  { change (space 16 (TAbs 8 AllData) (VPtr (Some (VStruct [sphere_val all; cstr_ptr [65; 108; 108]]))))
      with (round_up 24 16 + space 16 AllData (VStruct [sphere_val all; cstr_ptr [65; 108; 108]])).
    change (round_up 24 16) with 32. unfold AllData, aligned. rewrite space_struct. cbn [map space_fields]. rewrite sphere_space.
    pose proof (cstr_ptr_space 16 [65; 108; 108] ltac:(lia)) as X. change (zlen [65; 108; 108]) with 3 in X. lia. }
  assert (B : space 16 (groups_ty (zlen (map group_value gs))) (vec_ptr (Some (map group_value gs))) <=
    zlen gs * 32 + 16 + (zsum (map (fun g => zlen (mg_full g) + zlen (mg_name g)) gs) + 64 * zlen gs)).
  { unfold groups_ty, vec_ptr. cbn [option_map space object_size]. fold (space_list 16 MeshObjectGroup (map group_value gs)).
    rewrite zlen_map. change (Described.csize (TVec (zlen gs) MeshObjectGroup)) with (zlen gs * 32). pose proof (groups_space gs).
    pose proof (round_up_lt (zlen gs * 32) 16 ltac:(lia)). lia. }
  assert (C : space 16 (entries_ty (zlen (entries_from 0 gs))) (vec_ptr (Some (entries_from 0 gs))) <= zlen (entries_from 0 gs) * 16 + 16).
  { unfold entries_ty, vec_ptr. cbn [option_map space object_size]. fold (space_list 16 MeshEntry (entries_from 0 gs)).
    rewrite entries_space. change (Described.csize (TVec (zlen (entries_from 0 gs)) MeshEntry)) with (zlen (entries_from 0 gs) * 16). pose proof (round_up_lt (zlen (entries_from 0 gs) * 16) 16 ltac:(lia)). lia. }
  rewrite flat_map_map in *. set (fs := flat_map mg_flags gs) in *.
  assert (D : space 16 (flags_ty (zlen (map flag_val fs))) (flags_ptr (Some (map flag_val fs))) <= zlen (map flag_val fs) * 2 + 16).
  { unfold flags_ty, flags_ptr. cbn [option_map space].
    change (object_size (EntryFlags (zlen (map flag_val fs))) (VStruct [VArr (map flag_val fs)])) with (zlen (map flag_val fs) * 2 + 0 + 0 + 0).
    unfold EntryFlags, aligned. rewrite space_struct. cbn [map space_fields space]. fold (space_list 16 EntryFlag (map flag_val fs)).
    rewrite flags_list_space. pose proof (round_up_lt (zlen (map flag_val fs) * 2 + 0 + 0 + 0) 16 ltac:(lia)). lia. }
  pose proof (zlen_nonneg gs). revert A B C D L1 L2 L3. clear.
  generalize (space 16 (TAbs 8 AllData) (VPtr (Some (VStruct [sphere_val all; cstr_ptr [65; 108; 108]])))).
  generalize (space 16 (groups_ty (zlen (map group_value gs))) (vec_ptr (Some (map group_value gs)))).
  generalize (space 16 (entries_ty (zlen (entries_from 0 gs))) (vec_ptr (Some (entries_from 0 gs)))).
  generalize (space 16 (flags_ty (zlen (map flag_val fs))) (flags_ptr (Some (map flag_val fs)))). intros. lia.
Qed.
Lemma cut_texts gs :
  zsum (map (fun g => zlen (mg_full g) + zlen (mg_name g)) (map cut_mesh_group gs)) <= zsum (map (fun g => zlen (mg_full g) + zlen (mg_name g)) gs).
Proof.
  induction gs as [|g gs IH]; [reflexivity|]. cbn [map zsum fold_right cut_mesh_group mg_full mg_name].
  fold (zsum (map (fun g => zlen (mg_full g) + zlen (mg_name g)) (map cut_mesh_group gs))).
  fold (zsum (map (fun g => zlen (mg_full g) + zlen (mg_name g)) gs)).
  pose proof (cut_length (mg_full g)). pose proof (cut_length (mg_name g)). lia.
Qed.
Lemma meshex_saved all gs : sphere_ok all = true -> forallb typed_mesh_group gs = true -> counts_fit (DtMeshEx gs) ->
  texts_fit (DtMeshEx gs) -> exists out, meshex_data_write all gs = Ok out.
Proof.
  intros A T C L. cbn [texts_fit] in L. rewrite <- meshex_write_cut. pose proof (groups_ok_cut gs T C) as G. unfold meshex_data_write.
  destruct (meshex_of_lens all _ G) as (L1 & L2 & L3 & L4). apply (meshex_fits _ (meshex_of_ok all _ A G) L1 L2 L3 L4).
  pose proof (meshex_of_space all _ G) as S. pose proof (cut_texts gs) as X. clear - S X L.
  revert S X L. generalize (zsum (map (fun g => zlen (mg_full g) + zlen (mg_name g)) (map cut_mesh_group gs))).
  generalize (zsum (map (fun g => zlen (mg_full g) + zlen (mg_name g)) gs)).
  generalize (meshex_space (meshex_of all (map cut_mesh_group gs))). intros. lia.
Qed.

(** ** Meshes *)
Lemma rows_cut o a : In a (all_attributes o) -> In (cut_attribute a) (all_attributes (cut_object o)).
Proof. rewrite all_attributes_cut. apply in_map. Qed.
Lemma rows_uncut o a : In a (all_attributes (cut_object o)) -> exists a0, In a0 (all_attributes o) /\ attr_data a = attr_data a0.
Proof. rewrite all_attributes_cut. intros H. apply in_map_iff in H as (a0 & <- & H). exists a0. auto. Qed.
Lemma vertices_cut o n : has_vertex_count (cut_object o) n <-> has_vertex_count o n.
Proof.
  unfold has_vertex_count. rewrite all_attributes_cut. split; intros [H1 H2]; split.
  - intros a Ha. exact (H1 _ (in_map cut_attribute _ _ Ha)).
  - intros E. apply H2. now rewrite E.
  - intros a Ha. apply in_map_iff in Ha as (a0 & <- & Ha). exact (H1 a0 Ha).
  - intros E. apply H2. now apply map_eq_nil in E.
Qed.
Lemma valid_cut o : object_valid (cut_object o) <-> object_valid o.
Proof.
  unfold object_valid. change (triangles (cut_object o)) with (triangles o). change (ob_indices (cut_object o)) with (ob_indices o).
  split; intros (H & n & V & I); (split; [exact H|]); exists n; (split; [now apply vertices_cut|exact I]).
Qed.
Lemma violation_cut o e : object_violation (cut_object o) e -> object_violation o e.
Proof.
  unfold object_violation. intros [H|[(E & a & b & Ha & Hb & N)|(E & n & i & V & H)]].
  - left. exact H.
  - right; left. split; [exact E|]. apply rows_uncut in Ha as (a0 & Ha & Ea). apply rows_uncut in Hb as (b0 & Hb & Eb).
    exists a0, b0. rewrite <- Ea, <- Eb. auto.
  - right; right. split; [exact E|]. exists n, i. split; [now apply vertices_cut|exact H].
Qed.
Lemma infs_cut ver l : infs_fit ver (map cut_influence l) <-> infs_fit ver l.
Proof.
  unfold infs_fit. split; intros H M i w Hi Hw.
  - exact (H M (cut_influence i) w (in_map _ _ _ Hi) Hw).
  - apply in_map_iff in Hi as (i0 & <- & Hi). exact (H M i0 w Hi Hw).
Qed.
Lemma all_infs_cut ver os : (forall o, In o (map cut_object os) -> infs_fit ver (ob_influences o)) <-> (forall o, In o os -> infs_fit ver (ob_influences o)).
Proof.
  split; intros H o Ho.
  - apply infs_cut. exact (H _ (in_map cut_object _ _ Ho)).
  - apply in_map_iff in Ho as (o0 & <- & Ho). apply infs_cut. exact (H o0 Ho).
Qed.

Lemma mesh_saved bounding d : bounding_ok bounding -> typed_mesh d = true -> counts_fit (DtMesh d) ->
  match mesh_data_write bounding d with Ok _ => mesh_valid d | Err e => mesh_violation d e | Panic => False end.
Proof.
  intros B T C. pose proof (mesh_ok_cut d T C) as K. destruct C as (_ & _ & M). destruct (mesh_ok_facts _ K) as [F _].
  unfold mesh_data_write, create_mesh. pose proof (validate_spec (mesh_objects d)) as VS.
  destruct (validate_mesh_object_subindices (mesh_objects d)) as [[]|e|]; cbn [bind]; [|destruct VS as [-> VS]; exact VS|destruct VS].
  pose proof (version_of_spec (mesh_major d) (mesh_minor d)) as V.
  destruct (version_of (mesh_major d) (mesh_minor d)) as [ver|] eqn:EV; [|exact V].
  rewrite <- create_inner_cut. pose proof (create_inner_spec bounding ver (mesh_objects (cut_mesh d)) F) as R.
  change (mesh_objects (cut_mesh d)) with (map cut_object (mesh_objects d)) in R.
  destruct (create_mesh_inner bounding ver (map cut_object (mesh_objects d))) as [v|e|] eqn:I; cbn [bind]; [| |exact R].
  - assert (P : (mesh_major (cut_mesh d), mesh_minor (cut_mesh d)) = version_pair ver).
    { cbn [cut_mesh mesh_major mesh_minor]. clear - V. destruct ver; destruct V as [-> ->]; reflexivity. }
    rewrite (mesh_version_eq d ver EV) in M. apply mesh_fits_cut in M.
    destruct (typed_write_total _ _ _ (mesh_inner_file_ok bounding ver (cut_mesh d) v B K M P I)) as (out & W).
    change (mesh_major (cut_mesh d)) with (mesh_major d) in W. change (mesh_minor (cut_mesh d)) with (mesh_minor d) in W. rewrite W.
    destruct R as (vs & s & rig & R1 & R2 & _). pose proof (proj1 (infs_fit_weights d ver EV) (proj1 (all_infs_cut ver (mesh_objects d)) R2)) as R4. clear R2.
    assert (R3 : Forall object_valid (mesh_objects d)).
    { rewrite Forall_forall in *. intros o Ho. apply valid_cut. exact (R1 _ (in_map cut_object _ _ Ho)). }
    unfold mesh_valid. clear - V VS R3 R4. repeat split; auto; destruct ver; lia.
  - destruct R as [(o & Ho & R)|(-> & R)].
    + apply in_map_iff in Ho as (o0 & <- & Ho). apply violation_cut in R.
      destruct R as [(-> & R)|[(-> & R)|(-> & n & i & R)]]; cbn [mesh_violation]; eauto.
    + cbn [mesh_violation]. intros Wf. apply R. apply (proj2 (all_infs_cut ver (mesh_objects d))), (proj2 (infs_fit_weights d ver EV)), Wf.
Qed.

(** ** Skeletons *)
Lemma skel_saved mul inv bones : (forall a c, mat_ok (mul a c) = true) -> (forall a, mat_ok (inv a) = true) ->
  forallb typed_bone bones = true -> zlen bones < 2 ^ 64 ->
  ((forall b, In b bones -> exists l, ancestors bones b l) /\ exists out, skel_data_write mul inv bones = Ok out) \/
  ((exists b, In b bones /\ forall l, ~ ancestors bones b l) /\ skel_data_write mul inv bones = Err (EData DCycle)).
Proof.
  intros Mo Io T L. pose proof (typed_parents _ T) as P. destruct (worlds_spec mul inv bones bones P P) as [S1 S2].
  destruct (worlds_dec mul inv bones bones P P) as [A|A].
  - left. split; [exact A|]. destruct (S1 A) as (ws & E & _). unfold skel_data_write. destruct (skel_val mul inv bones) as [v| |] eqn:V.
    + cbn [bind]. destruct (skel_val_cut mul inv Mo Io bones v T L V) as [F _]. exact (typed_write_total _ _ _ F).
    + unfold skel_val in V. rewrite E in V. discriminate V.
    + unfold skel_val in V. rewrite E in V. discriminate V.
  - right. split; [exact A|]. unfold skel_data_write, skel_val. now rewrite (S2 A).
Qed.

(** Saved again, a skeleton whose parents fit gives the same file. *)
Lemma kept_same p : (forall i, p = Some i -> 0 <= i < 2 ^ 15) -> kept_parent p = p.
Proof.
  intros H. destruct p as [i|]; [|reflexivity]. specialize (H i eq_refl). unfold kept_parent.
  rewrite Z.mod_small by (clear - H; lia). now replace (i <? 2 ^ 15) with true by (clear - H; lia).
Qed.
Lemma loop_cut mul bones : parents_fit bones -> forall fuel b m visited, In b bones ->
  world_loop mul fuel (map cut_bone bones) (cut_bone b) m visited = world_loop mul fuel bones b m visited.
Proof.
  intros P. induction fuel as [|fuel IH]; intros b m visited Hb; [reflexivity|]. cbn [world_loop cut_bone bn_parent].
  rewrite kept_same by (intros i; apply (P b i Hb)). destruct (bn_parent b) as [i|]; [|reflexivity].
  destruct (existsb (Z.eqb i) visited); [reflexivity|]. rewrite nth_error_map.
  destruct (nth_error bones (Z.to_nat i)) as [p|] eqn:N; cbn [option_map]; [|reflexivity].
  apply (IH p). eapply nth_error_In; eauto.
Qed.
Lemma worlds_cut mul bones bs : parents_fit bones -> incl bs bones ->
  world_transforms mul (map cut_bone bones) (map cut_bone bs) = world_transforms mul bones bs.
Proof.
  intros P. induction bs as [|b bs IH]; intros S; [reflexivity|]. cbn [map world_transforms].
  unfold calculate_world_transform, world_fuel. rewrite map_length. change (bn_transform (cut_bone b)) with (bn_transform b).
  rewrite (loop_cut mul bones P) by (apply S; now left). rewrite IH; [reflexivity|]. intros x Hx. apply S. now right.
Qed.
Lemma bone_entry_cut i b : (forall p, bn_parent b = Some p -> 0 <= p < 2 ^ 15) -> bone_entry i (cut_bone b) = bone_entry i b.
Proof.
  intros P. unfold bone_entry. cbn [cut_bone bn_name bn_parent bn_billboard]. now rewrite string_cut, kept_same.
Qed.
Lemma bone_entries_cut bs : (forall b p, In b bs -> bn_parent b = Some p -> 0 <= p < 2 ^ 15) -> forall i,
  bone_entries i (map cut_bone bs) = bone_entries i bs.
Proof.
  induction bs as [|b bs IH]; intros P i; [reflexivity|]. cbn [map bone_entries].
  rewrite bone_entry_cut by (intros p; apply (P b p (or_introl eq_refl))). f_equal. apply IH. intros x p Hx. apply P. now right.
Qed.
Theorem skel_write_cut mul inv bones : parents_fit bones -> skel_data_write mul inv (map cut_bone bones) = skel_data_write mul inv bones.
Proof.
  intros P. unfold skel_data_write, skel_val. rewrite (worlds_cut mul bones bones P (incl_refl _)), (bone_entries_cut bones P), !map_map.
  reflexivity.
Qed.

(** ** Animations and materials *)
Lemma max_frames_cut d : max_frames (cut_anim d) = max_frames d.
Proof. unfold max_frames. rewrite tracks_cut, map_map. reflexivity. Qed.
Lemma final_cut d : final_ok (cut_anim d) = final_ok d.
Proof. unfold final_ok. now rewrite max_frames_cut. Qed.
Lemma anim_saved d : typed_anim d = true -> counts_fit (DtAnim d) ->
  match anim_data_write d with Ok _ => savable (DtAnim d) | Err e => save_fault (DtAnim d) e | Panic => False end.
Proof.
  intros T C. assert (L : anim_size (cut_anim d) < 2 ^ 32) by (rewrite anim_size_cut; destruct C as (_ & _ & _ & C); exact C).
  destruct (anim_errors (cut_anim d) (anim_ok_cut d T C) L) as [E1 E2]. rewrite final_cut, anim_write_cut in E2. rewrite anim_write_cut in E1.
  change (ad_major (cut_anim d)) with (ad_major d) in *. change (ad_minor (cut_anim d)) with (ad_minor d) in *.
  assert (D : (ad_major d <> 2 \/ (ad_minor d <> 0 /\ ad_minor d <> 1)) \/ (ad_major d = 2 /\ (ad_minor d = 0 \/ ad_minor d = 1))) by (clear; lia).
  destruct D as [D|[D1 D2]].
  - rewrite (E1 D). left. split; [reflexivity|]. clear - D. lia.
  - destruct (E2 D1 D2) as [F1 F2]. destruct (final_ok d) eqn:Ff.
    + destruct (F1 eq_refl) as (out & ->). cbn [savable]. auto.
    + rewrite (F2 eq_refl). right. auto.
Qed.
Lemma matl_saved d : typed_matl d = true -> counts_fit (DtMatl d) ->
  match matl_data_write d with Ok _ => savable (DtMatl d) | Err e => save_fault (DtMatl d) e | Panic => False end.
Proof.
  intros T C. destruct (matl_write_result (cut_matl d) (matl_ok_cut d T C)) as [E1 E2]. rewrite matl_write_cut in *.
  change (mt_major (cut_matl d)) with (mt_major d) in *. change (mt_minor (cut_matl d)) with (mt_minor d) in *.
  assert (D : (mt_major d = 1 /\ mt_minor d = 6) \/ ~ (mt_major d = 1 /\ mt_minor d = 6)) by (clear; lia). destruct D as [[D1 D2]|D].
  - destruct E1 as (out & ->); [congruence|]. split; assumption.
  - rewrite E2; [split; [reflexivity|exact D]|]. intros X. apply D. injection X as -> ->. auto.
Qed.

(** ** All types *)
Lemma mesh_write_same bounding d1 d2 out1 out2 : cut_mesh d1 = cut_mesh d2 ->
  mesh_data_write bounding d1 = Ok out1 -> mesh_data_write bounding d2 = Ok out2 -> out1 = out2.
Proof.
  intros E W1 W2. unfold mesh_data_write in *. apply bind_ok in W1 as (v1 & C1 & W1). apply bind_ok in W2 as (v2 & C2 & W2).
  destruct (create_mesh_inner_of bounding d1 v1 C1) as (r1 & V1 & _ & _ & I1).
  destruct (create_mesh_inner_of bounding d2 v2 C2) as (r2 & V2 & _ & _ & I2).
  rewrite <- create_inner_cut in I1, I2. unfold cut_mesh in E. injection E as Ea Ei Eo.
  rewrite Ea, Ei in *. rewrite V1 in V2. injection V2 as <-. rewrite Eo, I2 in I1. injection I1 as <-. rewrite W1 in W2. now injection W2.
Qed.
Lemma typed_kind k1 k2 b r1 r2 : typed_read k1 b = Ok r1 -> typed_read k2 b = Ok r2 -> k1 = k2.
Proof.
  unfold typed_read. intros H1 H2. apply bind_ok in H1 as (f & E & H1). rewrite E in H2. cbn [bind] in H2.
  destruct (fkind f), k1; try discriminate H1; destruct k2; try discriminate H2; reflexivity.
Qed.
Lemma adj_write_cut d1 d2 : map cut_adj_entry d1 = map cut_adj_entry d2 -> adj_data_write d1 = adj_data_write d2.
Proof.
  intros E. unfold adj_data_write, adj_of.
  rewrite <- (adj_entries_cut d1), <- (adjacency_cut d1), <- (adj_entries_cut d2), <- (adjacency_cut d2). now rewrite E.
Qed.

#[local] Strategy opaque [typed_read typed_write modl_data_write matl_data_write hlpb_data_write meshex_data_write adj_data_write anim_data_write skel_data_write mesh_data_write].
Section Save.
Variable mul : mat -> mat -> mat.
Variable inv : mat -> mat.
Variable bounding : list (list Z) -> val.
Variable sphere_of : list mesh_group -> sphere.
Hypothesis mul_ok : forall a c, mat_ok (mul a c) = true.
Hypothesis inv_ok : forall a, mat_ok (inv a) = true.
Hypothesis bounds : bounding_ok bounding.
Hypothesis spheres : forall gs, sphere_ok (sphere_of gs) = true.

Theorem save_outcome d : typed_data d = true -> counts_fit d -> texts_fit d ->
  match save_data mul inv bounding sphere_of d with Ok _ => savable d | Err e => save_fault d e | Panic => False end.
Proof.
  intros T C X. destruct d as [d|major minor bones|d|d|d|d|d|d].
  - exact (mesh_saved bounding d bounds T C).
  - assert (T' : forallb typed_bone bones = true) by (clear - T; cbn [typed_data] in T; now apply andb_true_iff in T as [_ T]).
    cbn [save_data savable save_fault]. destruct (skel_saved mul inv bones mul_ok inv_ok T' C) as [[A (out & ->)]|[A ->]]; auto.
  - exact (anim_saved d T C).
  - cbn [save_data savable save_fault]. destruct (modl_saved d T C) as (out & ->). exact I.
  - exact (matl_saved d T C).
  - cbn [save_data savable save_fault]. destruct (hlpb_saved d T C) as (out & ->). exact I.
  - cbn [save_data savable save_fault]. destruct (meshex_saved (sphere_of d) d (spheres d) T C X) as (out & ->). exact I.
  - cbn [save_data savable save_fault]. destruct (adj_cut_saved d T C) as (out & -> & _). exact I.
Qed.
Lemma fault_unsavable d e : save_fault d e -> ~ savable d.
Proof.
  destruct d as [d|major minor bones|d|d|d|d|d|d]; cbn [save_fault savable]; try tauto.
  - apply violation_invalid.
  - intros (_ & b & Hb & N) H. destruct (H b Hb) as (l & A). exact (N l A).
  - intros [(_ & N)|(_ & _ & _ & N)] (H1 & H2 & H3); [tauto|congruence].
Qed.
Theorem save_iff d : typed_data d = true -> counts_fit d -> texts_fit d ->
  ((exists out, save_data mul inv bounding sphere_of d = Ok out) <-> savable d).
Proof.
  intros T C X. pose proof (save_outcome d T C X) as R.
  destruct (save_data mul inv bounding sphere_of d) as [o|e|]; split; eauto; try contradiction.
  - intros [o E]. discriminate E.
  - intros S. destruct (fault_unsavable d e R S).
Qed.
Theorem program_outcome j : wellformed j = true -> (forall d, read_first attempts j = Some d -> counts_fit d /\ texts_fit d) ->
  match json_to_data_file mul inv bounding sphere_of j with
  | Ok (ext, _) => exists d, read_first attempts j = Some d /\ savable d /\ ext = data_ext (data_kind_of d)
  | Err _ => False
  | Panic => forall d, read_first attempts j = Some d -> ~ savable d
  end.
Proof.
  intros W F. unfold json_to_data_file. destruct (read_first attempts j) as [d|] eqn:R; [|discriminate].
  pose proof (accepted_typed j d W R) as T. destruct (F d eq_refl) as [C X]. pose proof (save_outcome d T C X) as S.
  destruct (save_data mul inv bounding sphere_of d) as [o|e|]; cbn [unwrap bind].
  - exists d. auto.
  - intros d' [= <-]. exact (fault_unsavable d e S).
  - destruct S.
Qed.

(** ** Files and data determine each other *)
Lemma ssbh_kind order k b d : load_as order k b = Ok d -> k <> DkMeshEx -> k <> DkAdj ->
  exists r, typed_read (match k with DkMesh => Mesh | DkSkel => Skel | DkAnim => Anim | DkModl => Modl | DkMatl => Matl | _ => Hlpb end) b = Ok r.
Proof.
  intros E N1 N2. destruct k; try contradiction; cbn [load_as] in E; apply bind_ok in E as (x & E & _);
    cbv [mesh_data_read skel_data_read anim_data_read modl_data_read matl_data_read hlpb_data_read] in E; apply bind_ok in E as (r & E & _); eauto.
Qed.
Theorem file_data d1 d2 out : typed_data d1 = true -> typed_data d2 = true -> counts_fit d1 -> counts_fit d2 ->
  (data_kind_of d1 = data_kind_of d2 \/ (ssbh_data d1 = true /\ ssbh_data d2 = true)) ->
  save_data mul inv bounding sphere_of d1 = Ok out -> save_data mul inv bounding sphere_of d2 = Ok out -> zlen out < 2 ^ 63 ->
  data_kind_of d1 = data_kind_of d2 /\ stored_data (merged_data (cut_data d1)) = stored_data (merged_data (cut_data d2)).
Proof.
  intros T1 T2 C1 C2 K S1 S2 L.
  pose proof (data_cut mul inv bounding sphere_of (fun l => l) d1 out mul_ok inv_ok bounds spheres T1 C1 S1 L) as R1.
  pose proof (data_cut mul inv bounding sphere_of (fun l => l) d2 out mul_ok inv_ok bounds spheres T2 C2 S2 L) as R2.
  assert (E : data_kind_of d1 = data_kind_of d2).
  { destruct K as [K|[K1 K2]]; [exact K|].
    destruct (ssbh_kind (fun l => l) _ _ _ R1) as (r1 & Q1); [destruct d1; discriminate K1 || discriminate|destruct d1; discriminate K1 || discriminate|].
    destruct (ssbh_kind (fun l => l) _ _ _ R2) as (r2 & Q2); [destruct d2; discriminate K2 || discriminate|destruct d2; discriminate K2 || discriminate|].
    pose proof (typed_kind _ _ _ _ _ Q1 Q2) as Q. destruct d1; try discriminate K1; destruct d2; try discriminate K2; try discriminate Q; reflexivity. }
  split; [exact E|]. rewrite E in R1. rewrite R1 in R2. now injection R2.
Qed.
Hypothesis by_spheres : forall gs gs', map mg_sphere gs = map mg_sphere gs' -> sphere_of gs = sphere_of gs'.
Lemma spheres_cut gs : map mg_sphere (map cut_mesh_group gs) = map mg_sphere gs.
Proof. rewrite map_map. reflexivity. Qed.
Theorem data_file d1 d2 out1 out2 : cut_data d1 = cut_data d2 -> data_parents_fit d1 -> data_parents_fit d2 ->
  save_data mul inv bounding sphere_of d1 = Ok out1 -> save_data mul inv bounding sphere_of d2 = Ok out2 -> out1 = out2.
Proof.
  intros E P1 P2 S1 S2.
  destruct d1 as [d1|ma1 mi1 b1|d1|d1|d1|d1|d1|d1]; destruct d2 as [d2|ma2 mi2 b2|d2|d2|d2|d2|d2|d2]; try discriminate E;
    cbn [save_data data_parents_fit] in S1, S2, P1, P2; cbn [cut_data] in E.
  - assert (E' : cut_mesh d1 = cut_mesh d2) by congruence. clear E. rename E' into E.
    exact (mesh_write_same bounding d1 d2 out1 out2 E S1 S2).
  - assert (E' : map cut_bone b1 = map cut_bone b2) by congruence. clear E. rename E' into E.
    rewrite <- skel_write_cut in S1, S2 by assumption. rewrite E, S2 in S1. now injection S1.
  - assert (E' : cut_anim d1 = cut_anim d2) by congruence. clear E. rename E' into E.
    rewrite <- anim_write_cut in S1, S2. rewrite E, S2 in S1. now injection S1.
  - assert (E' : cut_modl d1 = cut_modl d2) by congruence. clear E. rename E' into E.
    rewrite <- modl_write_cut in S1, S2. rewrite E, S2 in S1. now injection S1.
  - assert (E' : cut_matl d1 = cut_matl d2) by congruence. clear E. rename E' into E.
    rewrite <- matl_write_cut in S1, S2. rewrite E, S2 in S1. now injection S1.
  - assert (E' : cut_hlpb d1 = cut_hlpb d2) by congruence. clear E. rename E' into E.
    rewrite <- hlpb_write_cut in S1, S2. rewrite E, S2 in S1. now injection S1.
  - assert (E' : map cut_mesh_group d1 = map cut_mesh_group d2) by congruence. clear E. rename E' into E.
    rewrite <- meshex_write_cut in S1, S2. rewrite (by_spheres d1 d2) in S1 by (rewrite <- (spheres_cut d1), <- (spheres_cut d2); now rewrite E).
    rewrite E, S2 in S1. now injection S1.
  - assert (E' : map cut_adj_entry d1 = map cut_adj_entry d2) by congruence. clear E. rename E' into E.
    rewrite (adj_write_cut d1 d2 E), S2 in S1. now injection S1.
Qed.
Theorem file_iff d1 d2 out1 out2 : typed_data d1 = true -> typed_data d2 = true -> counts_fit d1 -> counts_fit d2 ->
  data_kind_of d1 = data_kind_of d2 -> lossless d1 = true -> data_parents_fit d1 -> data_parents_fit d2 ->
  save_data mul inv bounding sphere_of d1 = Ok out1 -> save_data mul inv bounding sphere_of d2 = Ok out2 -> zlen out1 < 2 ^ 63 ->
  (out1 = out2 <-> cut_data d1 = cut_data d2).
Proof.
  intros T1 T2 C1 C2 K L P1 P2 S1 S2 Len. split; intros E.
  - subst out2. destruct (file_data d1 d2 out1 T1 T2 C1 C2 (or_introl K) S1 S2 Len) as [_ Q].
    destruct d1; try discriminate L; destruct d2; try discriminate K; exact Q.
  - exact (data_file d1 d2 out1 out2 E P1 P2 S1 S2).
Qed.
End Save.
