(** Lemmas about saving what was loaded from a saved file. *)
From Coq Require Import Lia ZifyBool ZifyNat ZifyN Permutation.
From Verif Require Import Bytes BytesFacts Ssbh File SsbhSpec SsbhFacts Formats Strings Bits Float32 AnimComp AnimBuf AnimSpec MeshEx.
From Verif Require Import SsbhLemmas FileSpec FileFacts AnimFacts AnimDataFacts AnimLemmas SmallData DataSpec SmallDataFacts SkelData SkelSpec SkelFacts.
From Verif Require Import AnimFile MatlData MatlSpec MatlFacts AdjData AdjSpec AdjDataFacts VecData MeshData MeshSpec MeshReadSpec MeshFacts RigFacts MeshLemmas.
From Verif Require Import Json JsonSpec DataJson DataJsonSpec DataJsonFacts DataJsonLoad DataJsonTool ResaveSpec AnimAgain ResaveFacts CutSpec CutFacts SaveSpec SaveFacts AgainSpec.
Ltac Zify.zify_post_hook ::= ZifyBool.elim_bool_cstr; Z.to_euclidean_division_equations.

(** ** Written files consist of bytes *)
Theorem file_bytes k v t body out : format k v = Some t -> wt t body = true -> typed_write k v body = Ok out -> bytes_ok out = true.
Proof.
  intros F W E. unfold typed_write in E. rewrite F in E. apply bind_ok in E as (s & E & [= <-]).
  unfold write_ssbh_file in E. revert E. apply (write_bytes_ok t body W).
  unfold write_ssbh_header. repeat apply emit_ok; try apply le_bytes_ok; try (destruct k; reflexivity); try reflexivity.
Qed.

(** ** What is kept of texts and numbers is admitted again *)
Lemma utf8_cut t : utf8_valid t = true -> utf8_valid (cut t) = true.
Proof. apply (cut_valid (List.length t)). apply le_n. Qed.
Ltac cut8 := repeat match goal with |- context [utf8_valid (cut ?t)] => rewrite (utf8_cut t) by assumption end.
Lemma typed_modl_cut d : typed_modl d = true -> typed_modl (cut_modl d) = true.
Proof.
  intros T. unfold typed_modl in *. split_true. cbn [cut_modl md_major md_minor md_model md_skel md_materials md_anim md_mesh md_entries].
  cut8. rewrite (forallb_cut cut utf8_valid utf8_valid) by auto using utf8_cut.
  rewrite (forallb_cut cut_modl_entry typed_modl_entry typed_modl_entry); auto.
  - destruct (md_anim d) as [a|]; cbn [option_map typed_opt] in *; cut8; reflexivity.
  - intros e Te. unfold typed_modl_entry in *. split_true. cbn [cut_modl_entry me_name me_subindex me_material]. cut8. knowns. reflexivity.
Qed.
Lemma typed_hlpb_cut d : typed_hlpb d = true -> typed_hlpb (cut_hlpb d) = true.
Proof.
  intros T. unfold typed_hlpb in *. split_true. cbn [cut_hlpb hd_major hd_minor hd_aims hd_orients].
  rewrite (forallb_cut cut_aim typed_aim typed_aim), (forallb_cut cut_orient typed_orient typed_orient); auto.
  - intros o To. unfold typed_orient in *. split_true. cbn [cut_orient or_name or_parent1 or_parent2 or_source or_target or_type or_axes or_quat1 or_quat2 or_min or_max].
    cut8. knowns. reflexivity.
  - intros a Ta. unfold typed_aim in *. split_true.
    cbn [cut_aim am_name am_bone1 am_bone2 am_type1 am_type2 am_target1 am_target2 am_unk1 am_unk2 am_aim am_up am_quat1 am_quat2].
    cut8. knowns. reflexivity.
Qed.
Lemma typed_groups_cut gs : forallb typed_mesh_group gs = true -> forallb typed_mesh_group (map cut_mesh_group gs) = true.
Proof.
  apply forallb_cut. intros g Tg. unfold typed_mesh_group in *. split_true. cbn [cut_mesh_group mg_sphere mg_full mg_name]. cut8. knowns. reflexivity.
Qed.
Lemma typed_adj_cut d : forallb typed_adj_entry d = true -> forallb typed_adj_entry (map cut_adj_entry d) = true.
Proof.
  apply forallb_cut. intros e Te. unfold typed_adj_entry in *. split_true. cbn [cut_adj_entry ae_object ae_adjacency]. knowns.
  rewrite andb_true_r. clear. unfold u64_ok. lia.
Qed.
Lemma typed_bones_cut bs : forallb typed_bone bs = true -> forallb typed_bone (map cut_bone bs) = true.
Proof.
  apply forallb_cut. intros b Tb. unfold typed_bone in *. split_true. cbn [cut_bone bn_name bn_transform bn_parent bn_billboard]. cut8. knowns.
  rewrite andb_true_r. cbn [andb]. destruct (bn_parent b) as [i|]; [|reflexivity]. cbn [kept_parent].
  destruct (i mod 2 ^ 16 <? 2 ^ 15); [|reflexivity]. cbn [typed_opt]. clear. unfold u64_ok. lia.
Qed.
Lemma typed_matl_cut d : typed_matl d = true -> typed_matl (cut_matl d) = true.
Proof.
  intros T. unfold typed_matl in *. split_true. cbn [cut_matl mt_major mt_minor mt_entries]. knowns. cbn [andb].
  apply (forallb_cut cut_matl_entry typed_matl_entry typed_matl_entry); auto. intros e Te. unfold typed_matl_entry in *. split_true.
  cbn [cut_matl_entry mt_label mt_shader mt_blends mt_floats mt_bools mt_vectors mt_rasters mt_samplers mt_textures mt_uvs].
  cut8. rewrite (forallb_cut cut_param (param_ok utf8_valid) (param_ok utf8_valid)); auto.
  - knowns. reflexivity.
  - intros p Tp. unfold param_ok in *. split_true. cbn [cut_param pr_id pr_data]. cut8. knowns. reflexivity.
Qed.
Lemma typed_cut d : lossless d = true -> typed_data d = true -> typed_data (cut_data d) = true.
Proof.
  destruct d as [d|major minor bones|d|d|d|d|d|d]; intros L T; try discriminate L; cbn [cut_data typed_data] in *.
  - apply andb_true_iff in T as [_ T]. now rewrite (typed_bones_cut bones T).
  - now apply typed_modl_cut.
  - now apply typed_matl_cut.
  - now apply typed_hlpb_cut.
  - now apply typed_groups_cut.
  - now apply typed_adj_cut.
Qed.

(** ** Floats are kept *)
Lemma flat_map_map {A B C} (f : A -> B) (g : B -> list C) l : flat_map g (map f l) = flat_map (fun a => g (f a)) l.
Proof. induction l as [|a l IH]; [reflexivity|]. cbn [map flat_map]. now rewrite IH. Qed.
Lemma floats_cut d : lossless d = true -> data_floats (cut_data d) = data_floats d.
Proof.
  destruct d as [d|major minor bones|d|d|d|d|d|d]; intros L; try discriminate L; cbn [cut_data data_floats]; try reflexivity.
  - now rewrite flat_map_map.
  - cbn [cut_matl mt_entries]. now rewrite flat_map_map.
  - unfold hlpb_floats. cbn [cut_hlpb hd_aims hd_orients]. now rewrite !flat_map_map.
  - now rewrite flat_map_map.
Qed.

(** ** Meshes *)
Lemma mesh_bytes bounding d out : bounding_ok bounding -> typed_mesh d = true -> counts_fit (DtMesh d) ->
  mesh_data_write bounding d = Ok out -> bytes_ok out = true.
Proof.
  intros B T C E. pose proof (mesh_ok_cut d T C) as K. destruct C as (_ & _ & M).
  unfold mesh_data_write in E. apply bind_ok in E as (v & Ev & E).
  destruct (create_mesh_inner_of bounding d v Ev) as (ver & V & P & _ & I).
  rewrite (mesh_version_eq d ver V) in M. apply mesh_fits_cut in M. rewrite <- create_inner_cut in I.
  destruct (mesh_inner_file_ok bounding ver (cut_mesh d) v B K M P I) as (t & F & W).
  exact (file_bytes _ _ _ _ _ F W E).
Qed.
Lemma mesh_again bounding d out : again_fits (DtMesh d) -> mesh_data_write bounding d = Ok out ->
  mesh_data_write bounding (stored_mesh (cut_mesh d)) = Ok out.
Proof.
  intros [N HB] E. unfold mesh_data_write in *. apply bind_ok in E as (v & Ev & E).
  destruct (create_mesh_inner_of bounding d v Ev) as (ver & V & P & _ & I). rewrite <- create_inner_cut in I.
  assert (Ec : create_mesh bounding (cut_mesh d) = Ok v).
  { unfold create_mesh. cbn [cut_mesh mesh_objects mesh_major mesh_minor].
    pose proof (validate_spec (map cut_object (mesh_objects d))) as VS.
    destruct (validate_mesh_object_subindices (map cut_object (mesh_objects d))) as [[]|e|]; [|destruct VS as [_ VS]; exfalso; apply VS|destruct VS].
    - cbn [bind]. rewrite V. exact I.
    - rewrite map_map. exact N. }
  rewrite (create_mesh_again bounding (cut_mesh d) v).
  - cbn [bind]. exact E.
  - intros M o Ho. cbn [cut_mesh mesh_objects] in Ho. apply in_map_iff in Ho as (o' & <- & Ho). destruct (HB M o' Ho) as [Q|Q].
    + left. cbn [cut_object ob_binormals]. now rewrite Q.
    + right. intros Z. apply Q. unfold other_attributes in *. cbn [cut_object ob_positions ob_normals ob_tangents ob_texcoords ob_colors] in Z.
      rewrite <- !map_app in Z. now apply map_eq_nil in Z.
  - exact Ec.
Qed.

(** ** Animations *)
Lemma kept_cut d : again_fits (DtAnim d) -> forall t, In t (tracks_of (cut_anim d)) -> ResaveSpec.kept (td_values t).
Proof. intros A t Ht. rewrite tracks_cut in Ht. apply in_map_iff in Ht as (t' & <- & Ht). exact (A t' Ht). Qed.
Lemma forallb_map_in {A} (f : A -> A) (p : A -> bool) l : (forall a, In a l -> p a = true -> p (f a) = true) ->
  forallb p l = true -> forallb p (map f l) = true.
Proof.
  intros H P. rewrite forallb_forall in P. apply forallb_forall. intros b Hb. apply in_map_iff in Hb as (a & <- & Ha). auto.
Qed.
Lemma typed_anim_cut d : typed_anim d = true -> typed_anim (cut_anim d) = true.
Proof.
  intros T. unfold typed_anim in *. split_true. cbn [cut_anim ad_major ad_minor ad_final ad_groups]. knowns. cbn [andb].
  apply (forallb_cut cut_group typed_group typed_group); auto. intros g Tg. unfold typed_group in *. split_true.
  cbn [cut_group gd_type gd_nodes]. knowns. cbn [andb]. apply (forallb_cut cut_node typed_node typed_node); auto. intros n Tn.
  unfold typed_node in *. split_true. cbn [cut_node nd_name nd_tracks]. cut8. cbn [andb].
  apply (forallb_cut cut_track typed_track typed_track); auto. intros t Tt. unfold typed_track in *. split_true.
  cbn [cut_track td_name td_values]. cut8. knowns. reflexivity.
Qed.
Lemma typed_anim_stored d : (forall t, In t (tracks_of d) -> ResaveSpec.kept (td_values t)) -> typed_anim d = true -> typed_anim (stored_anim d) = true.
Proof.
  intros K T. unfold typed_anim in *. split_true. cbn [stored_anim ad_major ad_minor ad_final ad_groups]. knowns. cbn [andb].
  apply forallb_map_in; auto. intros g Hg Tg. unfold typed_group in *. split_true. cbn [stored_group gd_type gd_nodes]. knowns. cbn [andb].
  apply forallb_map_in; auto. intros n Hn Tn. unfold typed_node in *. split_true. cbn [stored_node nd_name nd_tracks]. knowns. cbn [andb].
  apply forallb_map_in; auto. intros t Ht Tt. unfold typed_track in *. cbn [stored_track td_name td_values].
  rewrite lossless_values; [exact Tt|]. apply K. unfold tracks_of. apply in_flat_map. exists g. split; auto. apply in_flat_map. eauto.
Qed.
Lemma anim_floats_kept d : again_fits (DtAnim d) -> anim_floats (stored_anim (cut_anim d)) = anim_floats d.
Proof.
  intros A. unfold anim_floats. rewrite stored_tracks, tracks_cut. cbn [stored_anim cut_anim ad_final]. f_equal.
  cbn [again_fits] in A. revert A. generalize (tracks_of d). induction l as [|t l IH]; intros A; [reflexivity|].
  cbn [map flat_map]. rewrite IH by (intros; apply A; now right). f_equal. cbn [stored_track cut_track td_values].
  rewrite lossless_values; [reflexivity|]. apply A. now left.
Qed.
Lemma anim_saved_again d : again_fits (DtAnim d) -> anim_data_write (stored_anim (cut_anim d)) = anim_data_write d.
Proof.
  intros A. rewrite <- (anim_write_cut d). unfold anim_data_write. now rewrite (again_anim (cut_anim d) (kept_cut d A)).
Qed.

(** ** All types *)
#[local] Strategy opaque [typed_read typed_write modl_data_write matl_data_write hlpb_data_write meshex_data_write adj_data_write anim_data_write skel_data_write mesh_data_write].
Section Again.
Variable mul : mat -> mat -> mat.
Variable inv : mat -> mat.
Variable bounding : list (list Z) -> val.
Variable sphere_of : list mesh_group -> sphere.
Hypothesis mul_ok : forall a c, mat_ok (mul a c) = true.
Hypothesis inv_ok : forall a, mat_ok (inv a) = true.
Hypothesis bounds : bounding_ok bounding.
Hypothesis spheres : forall gs, sphere_ok (sphere_of gs) = true.
Hypothesis by_spheres : forall gs gs', map mg_sphere gs = map mg_sphere gs' -> sphere_of gs = sphere_of gs'.

Lemma kept_again d : again_fits d -> merged_data (cut_data d) = cut_data d.
Proof.
  intros A. apply merged_cut. destruct d; try exact I. exact (proj1 A).
Qed.
Theorem saved_again d out : again_fits d -> save_data mul inv bounding sphere_of d = Ok out ->
  save_data mul inv bounding sphere_of (stored_data (merged_data (cut_data d))) = Ok out.
Proof.
  intros A S. rewrite (kept_again d A).
  destruct d as [d|major minor bones|d|d|d|d|d|d]; cbn [save_data cut_data stored_data] in *.
  - exact (mesh_again bounding d out A S).
  - rewrite skel_write_cut by exact A. exact S.
  - rewrite anim_saved_again by exact A. exact S.
  - rewrite modl_write_cut. exact S.
  - rewrite matl_write_cut. exact S.
  - rewrite hlpb_write_cut. exact S.
  - rewrite meshex_write_cut, (by_spheres _ d) by apply spheres_cut. exact S.
  - rewrite (adj_write_cut (map cut_adj_entry d) d); [exact S|]. rewrite map_map. apply map_ext. intros e.
    unfold cut_adj_entry. cbn [ae_object ae_adjacency]. now rewrite Z.mod_mod.
Qed.
Lemma again_typed d out : typed_data d = true -> counts_fit d -> again_fits d ->
  save_data mul inv bounding sphere_of d = Ok out -> zlen out < 2 ^ 63 -> typed_data (stored_data (merged_data (cut_data d))) = true.
Proof.
  intros T C A S L. destruct (lossless d) eqn:Q.
  - rewrite (kept_again d A). pose proof (typed_cut d Q T) as R. destruct d; try discriminate Q; exact R.
  - destruct d as [d|major minor bones|d|d|d|d|d|d]; try discriminate Q;
      [|rewrite (kept_again (DtAnim d) A); apply typed_anim_stored; [exact (kept_cut d A)|now apply typed_anim_cut]].
    pose proof (data_cut mul inv bounding sphere_of (fun l => l) (DtMesh d) out mul_ok inv_ok bounds spheres T C S L) as R.
    refine (proj2 (load_typed (fun l => l) _ out _ (fun l => Permutation_refl l) _ R)).
    exact (mesh_bytes bounding d out bounds T C S).
Qed.
Theorem document_again order j d ext out : wellformed j = true -> read_first attempts j = Some d -> counts_fit d -> again_fits d ->
  json_to_data_file mul inv bounding sphere_of j = Ok (ext, out) -> zlen out < 2 ^ 63 ->
  exists j', data_to_json order ext out = Some (Ok j') /\
    (finite_data (stored_data (cut_data d)) -> json_to_data_file mul inv bounding sphere_of j' = Ok (ext, out)) /\
    (~ finite_data (stored_data (cut_data d)) -> json_to_data_file mul inv bounding sphere_of j' = Panic).
Proof.
  intros W R C A E L. pose proof (accepted_typed j d W R) as T.
  exists (data_json (stored_data (merged_data (cut_data d)))).
  split; [exact (document_cut mul inv bounding sphere_of order j d ext out mul_ok inv_ok bounds spheres W R C E L)|].
  unfold json_to_data_file in E. rewrite R in E. destruct (save_data mul inv bounding sphere_of d) as [o| |] eqn:Sv; [|discriminate E|discriminate E].
  cbn [unwrap bind] in E. injection E as <- <-.
  pose proof (saved_again d o A Sv) as S'. pose proof (again_typed d o T C A Sv L) as T'.
  assert (K : data_kind_of (stored_data (merged_data (cut_data d))) = data_kind_of d) by (destruct d; reflexivity).
  rewrite (kept_again d A) in *. revert S' T' K. generalize (stored_data (cut_data d)). intros d' S' T' K.
  split; intros Fi; unfold json_to_data_file.
  - rewrite (proj2 (data_iff d' T') Fi), S'. cbn [unwrap bind]. now rewrite K.
  - now rewrite (data_not_finite d' T' Fi).
Qed.
Theorem document_same order j d ext out : wellformed j = true -> read_first attempts j = Some d -> counts_fit d -> again_fits d ->
  not_mesh d = true -> finite_data d -> json_to_data_file mul inv bounding sphere_of j = Ok (ext, out) -> zlen out < 2 ^ 63 ->
  exists j', data_to_json order ext out = Some (Ok j') /\ json_to_data_file mul inv bounding sphere_of j' = Ok (ext, out).
Proof.
  intros W R C A Q Fi E L. destruct (document_again order j d ext out W R C A E L) as (j' & D & H & _). exists j'. split; [exact D|].
  apply H. unfold finite_data in *. destruct (lossless d) eqn:X.
  - replace (stored_data (cut_data d)) with (cut_data d) by (destruct d; try discriminate X; reflexivity). rewrite (floats_cut d X). exact Fi.
  - destruct d; try discriminate X; try discriminate Q. cbn [cut_data stored_data data_floats]. rewrite anim_floats_kept by exact A. exact Fi.
Qed.
End Again.
