(** Lemmas about saving and loading data with texts and numbers of any size. *)
From Coq Require Import Lia ZifyBool ZifyNat ZifyN Permutation.
From Verif Require Import Bytes BytesFacts Ssbh File SsbhSpec SsbhFacts Formats Strings Bits Float32 AnimComp AnimBuf AnimSpec MeshEx.
From Verif Require Import SsbhLemmas FileSpec FileFacts AnimFacts AnimDataFacts SmallData DataSpec SmallDataFacts SkelData SkelSpec SkelFacts.
From Verif Require Import AnimFile MatlData MatlSpec MatlFacts AdjData AdjSpec AdjDataFacts VecData MeshData MeshSpec MeshReadSpec MeshFacts RigFacts MeshLemmas.
From Verif Require Import Json JsonSpec DataJson DataJsonSpec DataJsonFacts DataJsonLoad DataJsonTool CutSpec.
Ltac Zify.zify_post_hook ::= ZifyBool.elim_bool_cstr; Z.to_euclidean_division_equations.

(** ** Texts *)
Lemma cut_stored t : cstring_from_bytes t = cut t.
Proof. induction t as [|x t IH]; [reflexivity|]. cbn [cstring_from_bytes cut]. now rewrite IH. Qed.
Lemma cut_idem t : cut (cut t) = cut t.
Proof.
  induction t as [|x t IH]; [reflexivity|]. cbn [cut]. destruct (x =? 0) eqn:E; [reflexivity|]. cbn [cut]. now rewrite E, IH.
Qed.
Lemma string_cut t : ssbh_string (cut t) = ssbh_string t.
Proof. unfold ssbh_string. now rewrite !cut_stored, cut_idem. Qed.
Lemma cstr_cut t : cstr_ptr (cut t) = cstr_ptr t.
Proof. unfold cstr_ptr. now rewrite !cut_stored, cut_idem. Qed.
Lemma cut_spec t : exists rest, t = cut t ++ rest /\ ~ In 0 (cut t) /\ (rest = [] \/ exists r, rest = 0 :: r).
Proof. rewrite <- cut_stored. apply from_bytes_spec. Qed.

Lemma cut_valid n : forall t, (List.length t <= n)%nat -> utf8_valid t = true -> utf8_valid (cut t) = true.
Proof.
  induction n as [|n IH]; intros [|a t] L V; cbn [List.length] in L; try reflexivity; [lia|].
  cbn [cut]. destruct (a =? 0) eqn:A; [reflexivity|]. cbn [utf8_valid] in V |- *.
  destruct (a <=? 127) eqn:E1.
  { apply andb_true_iff in V as [-> V]. cbn [andb]. apply IH; [lia|exact V]. }
  destruct ((194 <=? a) && (a <=? 223)) eqn:E2.
  { destruct t as [|b t]; [discriminate V|]. cbn [List.length] in L. apply andb_true_iff in V as [C V]. cbn [cut].
    replace (b =? 0) with false by (unfold cont in C; lia). rewrite C. cbn [andb]. apply IH; [lia|exact V]. }
  destruct ((224 <=? a) && (a <=? 239)) eqn:E3.
  { destruct t as [|b [|c t]]; try discriminate V. cbn [List.length] in L. apply andb_true_iff in V as [C V].
    apply andb_true_iff in C as [B C]. cbn [cut].
    replace (b =? 0) with false by (clear - B; unfold cont in B; destruct (a =? 224); [lia|]; destruct (a =? 237); lia).
    replace (c =? 0) with false by (unfold cont in C; lia). rewrite B, C. cbn [andb]. apply IH; [lia|exact V]. }
  destruct ((240 <=? a) && (a <=? 244)) eqn:E4; [|discriminate V].
  destruct t as [|b [|c [|d t]]]; try discriminate V. cbn [List.length] in L. apply andb_true_iff in V as [C V].
  apply andb_true_iff in C as [C D]. apply andb_true_iff in C as [B C]. cbn [cut].
  replace (b =? 0) with false by (clear - B; unfold cont in B; destruct (a =? 240); [lia|]; destruct (a =? 244); lia).
  replace (c =? 0) with false by (unfold cont in C; lia). replace (d =? 0) with false by (unfold cont in D; lia).
  rewrite B, C, D. cbn [andb]. apply IH; [lia|exact V].
Qed.
Lemma cut_text t : utf8_valid t = true -> text_ok (cut t) = true.
Proof.
  intros V. unfold text_ok. rewrite (cut_valid _ t (le_n _) V). cbn [andb]. clear V.
  induction t as [|x t IH]; [reflexivity|]. cbn [cut]. destruct (x =? 0) eqn:E; [reflexivity|]. cbn [forallb]. now rewrite E, IH.
Qed.

Ltac split_true := repeat match goal with H : _ && _ = true |- _ => let A := fresh in let B := fresh in apply andb_true_iff in H as [A B] end.
Ltac cuts := repeat match goal with |- context [text_ok (cut ?t)] => rewrite (cut_text t) by assumption end.
Ltac knowns := repeat match goal with H : ?x = true |- context [?x] => rewrite H end.
Lemma forallb_cut {A} (f : A -> A) (p q : A -> bool) l : (forall a, p a = true -> q (f a) = true) ->
  forallb p l = true -> forallb q (map f l) = true.
Proof.
  intros H. induction l as [|a l IH]; [reflexivity|]. cbn [forallb map]. intros P. apply andb_true_iff in P as [P1 P2].
  now rewrite (H a P1), (IH P2).
Qed.
Lemma zlen_map {A B} (f : A -> B) l : zlen (map f l) = zlen l.
Proof. unfold zlen. now rewrite map_length. Qed.
Lemma map_strings l : map ssbh_string (map cut l) = map ssbh_string l.
Proof. rewrite map_map. apply map_ext. exact string_cut. Qed.

(** ** Models *)
Lemma modl_write_cut d : modl_data_write (cut_modl d) = modl_data_write d.
Proof.
  unfold modl_data_write, modl_val. cbn [cut_modl md_model md_skel md_materials md_anim md_mesh md_entries].
  rewrite !string_cut, map_strings, map_map.
  replace (option_map ssbh_string (option_map cut (md_anim d))) with (option_map ssbh_string (md_anim d))
    by (destruct (md_anim d) as [a|]; [cbn [option_map]; now rewrite string_cut|reflexivity]).
  rewrite (map_ext (fun x => modl_entry_val (cut_modl_entry x)) modl_entry_val); [reflexivity|].
  intros e. unfold modl_entry_val. cbn [cut_modl_entry me_name me_subindex me_material]. now rewrite !string_cut.
Qed.
Lemma modl_ok_cut d : typed_modl d = true -> counts_fit (DtModl d) -> modl_ok (cut_modl d) = true.
Proof.
  intros T (L1 & L2). unfold typed_modl in T. split_true. unfold modl_ok. cbn [cut_modl md_model md_skel md_materials md_anim md_mesh md_entries].
  cuts. unfold len_ok. rewrite !zlen_map. replace (zlen (md_materials d) <? 2 ^ 64) with true by (clear - L1; lia).
  replace (zlen (md_entries d) <? 2 ^ 64) with true by (clear - L2; lia).
  rewrite (forallb_cut cut utf8_valid text_ok) by (auto using cut_text).
  rewrite (forallb_cut cut_modl_entry typed_modl_entry modl_entry_ok); auto.
  - destruct (md_anim d) as [a|]; cbn [option_map typed_opt] in *; cuts; reflexivity.
  - intros e Te. unfold typed_modl_entry in Te. split_true. unfold modl_entry_ok.
    cbn [cut_modl_entry me_name me_subindex me_material]. cuts. knowns. reflexivity.
Qed.
Theorem modl_cut d out : typed_modl d = true -> counts_fit (DtModl d) -> modl_data_write d = Ok out -> zlen out < 2 ^ 63 ->
  modl_data_read out = Ok (cut_modl d).
Proof.
  intros T C E L. rewrite <- modl_write_cut in E. rewrite (modl_save_load (cut_modl d) out (modl_ok_cut d T C) E L). reflexivity.
Qed.

(** ** Helper bones *)
Lemma hlpb_write_cut d : hlpb_data_write (cut_hlpb d) = hlpb_data_write d.
Proof.
  unfold hlpb_data_write, hlpb_val. cbn [cut_hlpb hd_aims hd_orients]. rewrite !map_map.
  rewrite (map_ext (fun x => aim_val (cut_aim x)) aim_val), (map_ext (fun x => orient_val (cut_orient x)) orient_val);
    [now rewrite ?zlen_map, ?map_length| |].
  - intros o. unfold orient_val. cbn. now rewrite !string_cut.
  - intros a. unfold aim_val. cbn [cut_aim am_name am_bone1 am_bone2 am_type1 am_type2 am_target1 am_target2 am_unk1 am_unk2 am_aim am_up am_quat1 am_quat2].
    now rewrite !string_cut.
Qed.
Lemma hlpb_ok_cut d : typed_hlpb d = true -> counts_fit (DtHlpb d) -> hlpb_ok (cut_hlpb d) = true.
Proof.
  intros T (L1 & L2). unfold typed_hlpb in T. split_true. unfold hlpb_ok. cbn [cut_hlpb hd_aims hd_orients]. rewrite !zlen_map.
  replace (zlen (hd_aims d) <? 2 ^ 32) with true by (clear - L1; lia). replace (zlen (hd_orients d) <? 2 ^ 32) with true by (clear - L2; lia).
  rewrite (forallb_cut cut_aim typed_aim aim_ok), (forallb_cut cut_orient typed_orient orient_ok); auto.
  - intros o To. unfold typed_orient in To. split_true. unfold orient_ok.
    cbn [cut_orient or_name or_parent1 or_parent2 or_source or_target or_type or_axes or_quat1 or_quat2 or_min or_max forallb].
    cuts. knowns. reflexivity.
  - intros a Ta. unfold typed_aim in Ta. split_true. unfold aim_ok.
    cbn [cut_aim am_name am_bone1 am_bone2 am_type1 am_type2 am_target1 am_target2 am_unk1 am_unk2 am_aim am_up am_quat1 am_quat2 forallb].
    cuts. knowns. reflexivity.
Qed.
Theorem hlpb_cut d out : typed_hlpb d = true -> counts_fit (DtHlpb d) -> hlpb_data_write d = Ok out -> zlen out < 2 ^ 63 ->
  hlpb_data_read out = Ok (cut_hlpb d).
Proof.
  intros T C E L. rewrite <- hlpb_write_cut in E. rewrite (hlpb_save_load (cut_hlpb d) out (hlpb_ok_cut d T C) E L). reflexivity.
Qed.

(** ** Extra mesh data *)
Lemma flags_cut gs : flat_map mg_flags (map cut_mesh_group gs) = flat_map mg_flags gs.
Proof. induction gs as [|g gs IH]; [reflexivity|]. cbn [map flat_map]. now rewrite IH. Qed.
Lemma entries_cut gs : forall i, entries_from i (map cut_mesh_group gs) = entries_from i gs.
Proof. induction gs as [|g gs IH]; intros i; [reflexivity|]. cbn [map entries_from]. now rewrite IH. Qed.
Lemma meshex_write_cut all gs : meshex_data_write all (map cut_mesh_group gs) = meshex_data_write all gs.
Proof.
  unfold meshex_data_write, meshex_of. rewrite map_map, entries_cut.
  rewrite (map_ext (fun x => group_value (cut_mesh_group x)) group_value).
  2:{ intros g. unfold group_value. cbn [cut_mesh_group mg_sphere mg_full mg_name]. now rewrite !cstr_cut. }
  replace (flat_map (fun g => map flag_val (mg_flags g)) (map cut_mesh_group gs)) with (flat_map (fun g => map flag_val (mg_flags g)) gs);
    [reflexivity|].
  clear. induction gs as [|g gs IH]; [reflexivity|]. cbn [map flat_map]. now rewrite IH.
Qed.
Lemma groups_ok_cut gs : forallb typed_mesh_group gs = true -> counts_fit (DtMeshEx gs) -> groups_ok (map cut_mesh_group gs) = true.
Proof.
  intros T (L1 & L2). unfold groups_ok. rewrite zlen_map, flags_cut.
  replace (zlen gs <? 2 ^ 32) with true by (clear - L1; lia). replace (zlen (flat_map mg_flags gs) <? 2 ^ 32) with true by (clear - L2; lia).
  rewrite (forallb_cut cut_mesh_group typed_mesh_group mesh_group_ok); auto.
  intros g Tg. unfold typed_mesh_group in Tg. split_true. unfold mesh_group_ok. cbn [cut_mesh_group mg_sphere mg_full mg_name].
  cuts. knowns. reflexivity.
Qed.
Theorem meshex_cut all gs out : sphere_ok all = true -> forallb typed_mesh_group gs = true -> counts_fit (DtMeshEx gs) ->
  meshex_data_write all gs = Ok out -> zlen out < 2 ^ 63 -> meshex_data_read out = Ok (map cut_mesh_group gs).
Proof.
  intros A T C E L. rewrite <- meshex_write_cut in E. exact (meshex_save_load all _ out A (groups_ok_cut gs T C) E L).
Qed.

(** ** Adjacency *)
Lemma adj_entries_cut d : forall o, adj_entries_from o (map cut_adj_entry d) = adj_entries_from o d.
Proof.
  induction d as [|e d IH]; intros o; [reflexivity|]. cbn [map adj_entries_from cut_adj_entry ae_object ae_adjacency].
  rewrite IH. now rewrite Z.mod_mod by discriminate.
Qed.
Lemma adjacency_cut d : flat_map ae_adjacency (map cut_adj_entry d) = flat_map ae_adjacency d.
Proof. induction d as [|e d IH]; [reflexivity|]. cbn [map flat_map]. now rewrite IH. Qed.
Lemma removelast_map {A B} (f : A -> B) l : removelast (map f l) = map f (removelast l).
Proof. induction l as [|a [|b l] IH]; [reflexivity|reflexivity|]. cbn [map] in *. cbn [removelast]. cbn [removelast] in IH. now rewrite IH. Qed.
Lemma adj_cut_saved d : forallb typed_adj_entry d = true -> counts_fit (DtAdj d) ->
  exists out, adj_data_write d = Ok out /\ adj_data_read out = Ok (map cut_adj_entry d).
Proof.
  intros T (L1 & L2).
  destruct (adj_save_load (map cut_adj_entry d)) as (out' & W & R).
  - unfold adj_data_ok. rewrite zlen_map, removelast_map, adjacency_cut.
    replace (zlen d <? 2 ^ 32) with true by (clear - L1; lia). replace (2 * _ <? 2 ^ 32) with true by (clear - L2; lia). rewrite !andb_true_r.
    refine (forallb_cut cut_adj_entry typed_adj_entry _ d _ T). intros e Te. unfold typed_adj_entry in Te. split_true.
    cbn [cut_adj_entry ae_object ae_adjacency]. knowns. rewrite andb_true_r. unfold u32_ok. clear. lia.
  - unfold adj_data_write, adj_of in W. rewrite adj_entries_cut, adjacency_cut in W.
    exists out'. split; [exact W|exact R].
Qed.
Theorem adj_cut d out : forallb typed_adj_entry d = true -> counts_fit (DtAdj d) -> adj_data_write d = Ok out ->
  adj_data_read out = Ok (map cut_adj_entry d).
Proof. intros T C E. destruct (adj_cut_saved d T C) as (o & W & R). rewrite E in W. injection W as <-. exact R. Qed.

(** ** Materials *)
Lemma matl_write_cut d : matl_data_write (cut_matl d) = matl_data_write d.
Proof.
  unfold matl_data_write, matl_val. cbn [cut_matl mt_major mt_minor mt_entries]. rewrite map_map.
  rewrite (map_ext (fun x => entry16_val (cut_matl_entry x)) entry16_val); [reflexivity|].
  intros e. unfold entry16_val. cbn [cut_matl_entry mt_label mt_shader mt_blends mt_floats mt_bools mt_vectors mt_rasters mt_samplers mt_textures mt_uvs].
  rewrite !string_cut, map_map.
  rewrite (map_ext (fun x => MatlData.attribute 11 ssbh_string (cut_param x)) (MatlData.attribute 11 ssbh_string)); [reflexivity|].
  intros p. unfold MatlData.attribute. cbn [cut_param pr_id pr_data]. now rewrite string_cut.
Qed.
Lemma matl_ok_cut d : typed_matl d = true -> counts_fit (DtMatl d) -> matl_ok (cut_matl d) = true.
Proof.
  intros T (L1 & L2).
  unfold typed_matl in T. apply andb_true_iff in T as [_ T]. unfold matl_ok. cbn [cut_matl mt_entries]. unfold len_ok.
  rewrite zlen_map. replace (zlen (mt_entries d) <? 2 ^ 64) with true by (clear - L1; lia). cbn [andb]. apply forallb_forall.
  intros e He. apply in_map_iff in He as (e0 & <- & He). rewrite forallb_forall in T. specialize (T e0 He). specialize (L2 e0 He).
  unfold typed_matl_entry in T. split_true. unfold matl_entry_ok.
  assert (Pc : param_count (cut_matl_entry e0) = param_count e0).
  { unfold param_count. cbn [cut_matl_entry mt_blends mt_floats mt_bools mt_vectors mt_rasters mt_samplers mt_textures mt_uvs].
    now rewrite zlen_map. }
  rewrite Pc. replace (param_count e0 <? 2 ^ 64) with true by (clear - L2; lia).
  cbn [cut_matl_entry mt_label mt_shader mt_blends mt_floats mt_bools mt_vectors mt_rasters mt_samplers mt_textures mt_uvs].
  cuts. rewrite (forallb_cut cut_param (param_ok utf8_valid) (param_ok text_ok)); auto.
  - knowns. reflexivity.
  - intros p Hp. unfold param_ok in *. split_true. cbn [cut_param pr_id pr_data]. cuts. knowns. reflexivity.
Qed.
Theorem matl_cut d out : typed_matl d = true -> counts_fit (DtMatl d) -> matl_data_write d = Ok out -> zlen out < 2 ^ 63 ->
  matl_data_read out = Ok (cut_matl d).
Proof. intros T C E L. rewrite <- matl_write_cut in E. exact (matl_save_load (cut_matl d) out (matl_ok_cut d T C) E L). Qed.

(** ** Animations *)
Lemma create_track_cut t buffer : create_track (cut_track t) buffer = create_track t buffer.
Proof. unfold create_track. cbn [cut_track td_name td_comp td_flags td_values]. now rewrite string_cut. Qed.
Lemma map_buffer_cut {A B} (f : A -> list Z -> res (B * list Z)) (c : A -> A) l :
  (forall a b, f (c a) b = f a b) -> forall b, map_buffer f (map c l) b = map_buffer f l b.
Proof.
  intros H. induction l as [|a l IH]; intros b; [reflexivity|]. cbn [map map_buffer]. rewrite H.
  destruct (f a b) as [[y b']|e|]; cbn [bind]; [now rewrite IH|reflexivity|reflexivity].
Qed.
Lemma create_node_cut n buffer : create_node (cut_node n) buffer = create_node n buffer.
Proof.
  unfold create_node. cbn [cut_node nd_name nd_tracks].
  rewrite (map_buffer_cut create_track cut_track) by exact create_track_cut. now rewrite string_cut.
Qed.
Lemma create_group_cut g buffer : create_group (cut_group g) buffer = create_group g buffer.
Proof.
  unfold create_group. cbn [cut_group gd_type gd_nodes].
  now rewrite (map_buffer_cut create_node cut_node) by exact create_node_cut.
Qed.
Lemma create_anim_cut d : create_anim (cut_anim d) = create_anim d.
Proof.
  unfold create_anim. cbn [cut_anim ad_major ad_minor ad_final ad_groups].
  now rewrite (map_buffer_cut create_group cut_group) by exact create_group_cut.
Qed.
Lemma tracks_cut d : tracks_of (cut_anim d) = map cut_track (tracks_of d).
Proof.
  unfold tracks_of. cbn [cut_anim ad_groups]. induction (ad_groups d) as [|g gs IH]; [reflexivity|].
  cbn [map flat_map]. rewrite map_app, <- IH. f_equal. cbn [cut_group gd_nodes]. clear IH.
  induction (gd_nodes g) as [|n ns IH]; [reflexivity|]. cbn [map flat_map]. rewrite map_app, <- IH. reflexivity.
Qed.
Lemma anim_size_cut d : anim_size (cut_anim d) = anim_size d.
Proof. unfold anim_size. rewrite tracks_cut, map_map. reflexivity. Qed.
Lemma anim_write_cut d : anim_data_write (cut_anim d) = anim_data_write d.
Proof. unfold anim_data_write. now rewrite create_anim_cut. Qed.
Lemma anim_ok_cut d : typed_anim d = true -> counts_fit (DtAnim d) -> anim_ok (cut_anim d) = true.
Proof.
  intros T (L1 & L2 & L3 & L4). unfold typed_anim in T. split_true. unfold anim_ok. cbn [cut_anim ad_final ad_groups]. knowns. rewrite zlen_map.
  replace (zlen (ad_groups d) <? 2 ^ 64) with true by (clear - L1; lia). cbn [andb]. apply forallb_forall.
  intros g Hg. apply in_map_iff in Hg as (g0 & <- & Hg). destruct (L2 g0 Hg) as (L5 & L6).
  match goal with H : forallb typed_group _ = true |- _ => rewrite forallb_forall in H; pose proof (H g0 Hg) as Tg end.
  unfold typed_group in Tg. apply andb_true_iff in Tg as [Tg1 Tg2]. unfold group_ok. cbn [cut_group gd_type gd_nodes]. rewrite Tg1, zlen_map.
  replace (zlen (gd_nodes g0) <? 2 ^ 64) with true by (clear - L5; lia). cbn [andb]. apply forallb_forall.
  intros n Hn. apply in_map_iff in Hn as (n0 & <- & Hn). specialize (L6 n0 Hn). rewrite forallb_forall in Tg2. specialize (Tg2 n0 Hn).
  unfold typed_node in Tg2. apply andb_true_iff in Tg2 as [Tn1 Tn2]. unfold node_ok. cbn [cut_node nd_name nd_tracks].
  rewrite cut_text, zlen_map by auto. replace (zlen (nd_tracks n0) <? 2 ^ 64) with true by (clear - L6; lia). cbn [andb].
  apply forallb_forall. intros t Ht. apply in_map_iff in Ht as (t0 & <- & Ht). rewrite forallb_forall in Tn2. specialize (Tn2 t0 Ht).
  unfold typed_track in Tn2. apply andb_true_iff in Tn2 as [Tt1 Tt2]. unfold track_ok. cbn [cut_track td_name td_values].
  rewrite cut_text, Tt2 by auto. cbn [andb].
  assert (Q : tv_len (td_values t0) < 2 ^ 32); [|clear - Q; lia].
  apply L3. unfold tracks_of. apply in_flat_map. exists g0. split; auto. apply in_flat_map. eauto.
Qed.
Theorem anim_cut order d out : typed_anim d = true -> counts_fit (DtAnim d) -> anim_data_write d = Ok out -> zlen out < 2 ^ 63 ->
  anim_data_read order out = Ok (stored_anim (cut_anim d)).
Proof.
  intros T C E L. rewrite <- anim_write_cut in E. apply anim_save_load; auto.
  - now apply anim_ok_cut.
  - rewrite anim_size_cut. destruct C as (_ & _ & _ & C). exact C.
Qed.

(** ** Skeletons *)
Section World.
Variable mul : mat -> mat -> mat.
Variable inv : mat -> mat.
Hypothesis mul_ok : forall a c, mat_ok (mul a c) = true.
Hypothesis inv_ok : forall a, mat_ok (inv a) = true.

Lemma entry_cut i b : typed_bone b = true ->
  wt SkelBoneEntry (bone_entry i b) = true /\ un_bone (bone_entry i b) (mat_val (bn_transform b)) = Ok (cut_bone b).
Proof.
  intros H. unfold typed_bone in H. apply andb_true_iff in H as [H Hb]. apply andb_true_iff in H as [H Hp].
  apply andb_true_iff in H as [Hn Hm]. split.
  - unfold bone_entry, SkelBoneEntry, SsbhString. rewrite <- string_cut.
    rewrite !wt_record_cons, wt_record_nil, wt_text by (now apply cut_text). cbn [andb].
    assert (W : forall x, 0 <= x < 2 ^ 16 -> wt (TInt 2) (VInt x) = true) by (intros x X; cbn [wt]; lia).
    unfold u16, i16. rewrite !W; [|clear; destruct (bn_parent b); lia|clear; lia]. cbn [andb].
    rewrite andb_true_r. unfold SkelEntryFlags, padded. rewrite wt_struct. cbn [map wt_fields fst app].
    rewrite andb_true_r. exact Hb.
  - unfold bone_entry, un_bone. rewrite mat_back. cbn [bind]. rewrite <- string_cut, text_roundtrip by (now apply cut_text).
    unfold cut_bone. destruct (bn_parent b) as [p|]; reflexivity.
Qed.
Lemma entries_bones_cut bs : forall i, forallb typed_bone bs = true ->
  forallb (wt SkelBoneEntry) (bone_entries i bs) = true /\
  un_bones (bone_entries i bs) (map (fun b => mat_val (bn_transform b)) bs) = Ok (map cut_bone bs).
Proof.
  induction bs as [|b bs IH]; intros i H; [split; reflexivity|]. cbn [forallb bone_entries map un_bones] in *.
  apply andb_true_iff in H as [H1 H2]. destruct (entry_cut i b H1) as (A & B). destruct (IH (i + 1) H2) as (C & D).
  rewrite A, C, B. cbn [bind]. rewrite D. split; reflexivity.
Qed.
Lemma typed_parents bones : forallb typed_bone bones = true -> parents_ok bones = true.
Proof.
  unfold parents_ok. intros H. rewrite forallb_forall in *. intros b Hb. apply H in Hb. unfold typed_bone in Hb.
  destruct (bn_parent b); [|reflexivity]. cbn [typed_opt] in Hb. unfold u64_ok in Hb.
  apply andb_true_iff in Hb as [Hb _]. apply andb_true_iff in Hb as [_ Hb]. clear - Hb. lia.
Qed.

Lemma skel_val_cut bones v : forallb typed_bone bones = true -> zlen bones < 2 ^ 64 -> skel_val mul inv bones = Ok v ->
  file_ok (mkFile Skel (1, 0) v) /\ un_skel v = Ok (map cut_bone bones).
Proof.
  intros W L64 E. pose proof (typed_parents _ W) as P. unfold skel_val in E.
  destruct (worlds_dec mul inv bones bones P P) as [A|A].
  2:{ rewrite (proj2 (worlds_spec mul inv bones bones P P) A) in E. discriminate E. }
  destruct (proj1 (worlds_spec mul inv bones bones P P) A) as (ws & Ew & F). rewrite Ew in E. cbn [bind] in E. injection E as <-.
  assert (Lw : List.length ws = List.length bones) by (symmetry; eapply forall2_length; eauto).
  assert (Mb : forall b, In b bones -> mat_ok (bn_transform b) = true).
  { intros b Hb. rewrite forallb_forall in W. apply W in Hb. unfold typed_bone in Hb. clear - Hb.
    apply andb_true_iff in Hb as [Hb _]. apply andb_true_iff in Hb as [Hb _]. now apply andb_true_iff in Hb as [_ Hb]. }
  destruct (entries_bones_cut bones 0 W) as (We & Ue). split; [|exact Ue].
  exists Skel_V10. split; [reflexivity|]. cbn [fbody]. unfold Skel_V10. rewrite !wt_record_cons, wt_record_nil.
  unfold zlen in L64.
  assert (M : forall {A} (f : A -> mat) (l : list A), Z.of_nat (List.length l) < 2 ^ 64 -> (forall a, In a l -> mat_ok (f a) = true) ->
             wt (TArr Matrix4x4) (VArr (map (fun a => mat_val (f a)) l)) = true).
  { intros A0 f l Hl Hf. apply wt_arr_forall; [unfold zlen; now rewrite map_length|].
    apply forallb_forall. intros x Hx. apply in_map_iff in Hx as (a & <- & Ha). apply wt_mat. auto. }
  rewrite (wt_arr_forall SkelBoneEntry) by (try exact We; unfold zlen; now rewrite bone_entries_length).
  rewrite (M _ bn_transform bones) by auto. rewrite (M _ (fun b => inv (bn_transform b)) bones) by auto.
  rewrite (M _ inv ws) by (auto; now rewrite Lw).
  assert (Mw : wt (TArr Matrix4x4) (VArr (map mat_val ws)) = true); [|now rewrite Mw].
  apply (M _ (fun w => w) ws); [now rewrite Lw|].
  intros w Hw. destruct (forall2_in_r _ _ _ F w Hw) as (b & Hb & l & _ & ->). apply product_ok; auto.
Qed.
Theorem skel_cut bones out : forallb typed_bone bones = true -> zlen bones < 2 ^ 64 ->
  skel_data_write mul inv bones = Ok out -> zlen out < 2 ^ 63 -> skel_data_read out = Ok (map cut_bone bones).
Proof.
  intros W L64 E L. unfold skel_data_write in E. destruct (skel_val mul inv bones) as [v| |] eqn:V; try discriminate E.
  cbn [bind] in E. destruct (skel_val_cut bones v W L64 V) as [F U]. pose proof (typed_roundtrip _ _ _ _ F E L) as T.
  unfold skel_data_read. rewrite T. cbn [bind]. exact U.
Qed.
End World.

(** ** Meshes *)
Lemma attributes_cut f u l : forall i,
  MeshData.get_attributes f u i (map cut_attribute l) =
  map (fun p => let '(n, i, u, e) := p in (cut n, i, u, e)) (MeshData.get_attributes f u i l).
Proof. induction l as [|a l IH]; intros i; [reflexivity|]. cbn [map MeshData.get_attributes]. now rewrite IH. Qed.
Definition cut_item (p : list Z * Z * usage * encoded) : list Z * Z * usage * encoded :=
  let '(n, i, u, e) := p in (cut n, i, u, e).
Lemma buffer0_cut ver o : buffer0_data ver (cut_object o) = map cut_item (buffer0_data ver o).
Proof.
  unfold buffer0_data. cbn [cut_object ob_positions ob_normals ob_binormals ob_tangents]. rewrite !map_app, !attributes_cut.
  destruct ver; reflexivity.
Qed.
Lemma buffer1_cut ver o : buffer1_data ver (cut_object o) = map cut_item (buffer1_data ver o).
Proof. unfold buffer1_data. cbn [cut_object ob_texcoords ob_colors]. rewrite !map_app, !attributes_cut. reflexivity. Qed.
Definition cut_pair (p : attribute * encoded) : attribute * encoded :=
  (MkAttribute (cut (a_name (fst p))) (a_sub (fst p)) (a_buffer (fst p)) (a_usage (fst p)) (a_type (fst p)) (a_offset (fst p)), snd p).
Lemma create_attributes_cut b l : forall off,
  create_buffer_attributes b off (map cut_item l) = map cut_pair (create_buffer_attributes b off l).
Proof.
  induction l as [|[[[n i] u] e] l IH]; intros off; [reflexivity|]. cbn [map cut_item create_buffer_attributes]. now rewrite IH.
Qed.
Lemma attribute_val_cut ver p : attribute_val ver (fst (cut_pair p)) = attribute_val ver (fst p).
Proof.
  destruct p as [[n s b u t o] e]. unfold attribute_val, cut_pair, calculate_attribute_name.
  cbn [fst a_name a_sub a_buffer a_usage a_type a_offset]. rewrite !string_cut. reflexivity.
Qed.
Lemma stride_cut l : total_stride (map cut_pair l) = total_stride l.
Proof. unfold total_stride. now rewrite map_map. Qed.
Lemma lens_cut l : map attr_len (map cut_attribute l) = map attr_len l.
Proof. now rewrite map_map. Qed.
Lemma vertex_count_cut o : vertex_count (cut_object o) = vertex_count o.
Proof.
  unfold vertex_count. cbn [cut_object ob_positions ob_normals ob_binormals ob_tangents ob_texcoords ob_colors].
  now rewrite !lens_cut.
Qed.
Lemma first_positions_cut o : first_positions (cut_object o) = first_positions o.
Proof. unfold first_positions. cbn [cut_object ob_positions]. now destruct (ob_positions o). Qed.

Section Bounding.
Variable bounding : list (list Z) -> val.
Lemma create_object_cut ver o s : create_mesh_object bounding ver (cut_object o) s = create_mesh_object bounding ver o s.
Proof.
  unfold create_mesh_object. rewrite vertex_count_cut, buffer0_cut, buffer1_cut, first_positions_cut, !create_attributes_cut, !stride_cut.
  rewrite !map_map. cbn [cut_pair snd].
  rewrite <- map_app, map_map.
  rewrite (map_ext (fun x => attribute_val ver (fst (cut_pair x))) (fun x => attribute_val ver (fst x))) by (intros; apply attribute_val_cut).
  cbn [cut_object ob_name ob_subindex ob_parent ob_bias ob_no_write ob_no_test ob_indices ob_influences].
  rewrite !string_cut. destruct (negb _); [reflexivity|]. destruct (vertex_count o) as [c| |]; cbn [bind]; [|reflexivity|reflexivity].
  destruct (match max_index (ob_indices o) with Some m => c <=? m | None => false end); [reflexivity|].
  destruct (ob_influences o); reflexivity.
Qed.
Lemma create_objects_cut ver os : forall s,
  create_mesh_objects bounding ver (map cut_object os) s = create_mesh_objects bounding ver os s.
Proof.
  induction os as [|o os IH]; intros s; [reflexivity|]. cbn [map create_mesh_objects]. rewrite create_object_cut.
  destruct (create_mesh_object bounding ver o s) as [[v s']| |]; cbn [bind]; [now rewrite IH|reflexivity|reflexivity].
Qed.
Lemma bone_buffers_cut ver l : bone_buffers ver (map cut_influence l) = bone_buffers ver l.
Proof.
  induction l as [|i l IH]; [reflexivity|]. cbn [map bone_buffers cut_influence inf_bone inf_weights]. now rewrite IH, string_cut.
Qed.
Lemma count_cut l : forall c, fold_left count_influence (map cut_influence l) c = fold_left count_influence l c.
Proof. induction l as [|i l IH]; intros c; [reflexivity|]. cbn [map fold_left]. rewrite IH. reflexivity. Qed.
Lemma groups_cut ver os : rigging_groups ver (map cut_object os) = rigging_groups ver os.
Proof.
  induction os as [|o os IH]; [reflexivity|]. cbn [map rigging_groups cut_object ob_name ob_subindex ob_influences].
  rewrite IH, bone_buffers_cut, string_cut. unfold calculate_max_influences. now rewrite count_cut.
Qed.
Lemma create_inner_cut ver os : create_mesh_inner bounding ver (map cut_object os) = create_mesh_inner bounding ver os.
Proof.
  unfold create_mesh_inner. rewrite create_objects_cut. unfold create_rigging_buffers. rewrite groups_cut.
  replace (flat_map first_positions (map cut_object os)) with (flat_map first_positions os); [reflexivity|].
  induction os as [|o os IH]; [reflexivity|]. cbn [map flat_map]. now rewrite first_positions_cut, <- IH.
Qed.
End Bounding.

Lemma attribute_bytes_cut size l : attribute_bytes size (map cut_attribute l) = attribute_bytes size l.
Proof. unfold attribute_bytes. now rewrite map_map. Qed.
Lemma all_attributes_cut o : all_attributes (cut_object o) = map cut_attribute (all_attributes o).
Proof. unfold all_attributes. cbn [cut_object ob_positions ob_normals ob_binormals ob_tangents ob_texcoords ob_colors]. now rewrite !map_app. Qed.
Lemma mesh_fits_cut ver os : mesh_fits ver os -> mesh_fits ver (map cut_object os).
Proof.
  unfold mesh_fits. rewrite !map_map.
  rewrite (map_ext (fun x => bytes0 ver (cut_object x)) (bytes0 ver)).
  2:{ intros o. unfold bytes0. cbn [cut_object ob_positions ob_normals ob_binormals ob_tangents]. now rewrite !attribute_bytes_cut. }
  rewrite (map_ext (fun x => bytes1 ver (cut_object x)) (bytes1 ver)).
  2:{ intros o. unfold bytes1. cbn [cut_object ob_texcoords ob_colors]. now rewrite !attribute_bytes_cut. }
  rewrite (map_ext (fun x => bytes2 ver (cut_object x)) (bytes2 ver)).
  2:{ intros o. unfold bytes2. rewrite all_attributes_cut. destruct ver, (all_attributes o); reflexivity. }
  auto.
Qed.
Lemma mesh_ok_cut d : typed_mesh d = true -> counts_fit (DtMesh d) -> mesh_ok (cut_mesh d) = true.
Proof.
  intros T (L1 & L2 & L3).
  unfold typed_mesh in T. apply andb_true_iff in T as [_ T]. unfold mesh_ok. cbn [cut_mesh mesh_objects]. unfold len_ok. rewrite zlen_map.
  replace (zlen (mesh_objects d) <? 2 ^ 64) with true by (clear - L1; lia). rewrite andb_true_r. apply forallb_forall.
  intros o Ho. apply in_map_iff in Ho as (o0 & <- & Ho). rewrite forallb_forall in T. specialize (T o0 Ho).
  rewrite Forall_forall in L2. destruct (L2 o0 Ho) as (L4 & L5 & L6). unfold typed_object in T.
  unfold object_ok. rewrite all_attributes_cut, zlen_map.
  cbn [cut_object ob_name ob_subindex ob_parent ob_bias ob_indices ob_influences]. unfold len_ok. rewrite zlen_map.
  replace (zlen (all_attributes o0) <? 2 ^ 28) with true by (clear - L4; lia).
  replace (zlen (ob_influences o0) <? 2 ^ 64) with true by (clear - L5; lia).
  split_true. cuts.
  assert (Fa : forallb attr_ok (map cut_attribute (all_attributes o0)) = true).
  { refine (forallb_cut cut_attribute typed_attribute attr_ok _ _ _).
    - intros a Ta. unfold typed_attribute in Ta. apply andb_true_iff in Ta as [Ta1 Ta2]. unfold attr_ok.
      cbn [cut_attribute attr_name attr_data]. now rewrite cut_text, Ta2.
    - unfold all_attributes. rewrite !forallb_app. knowns. reflexivity. }
  assert (Fi : forallb inf_ok (map cut_influence (ob_influences o0)) = true).
  { apply forallb_forall. intros i Hi. apply in_map_iff in Hi as (i0 & <- & Hi). specialize (L6 i0 Hi).
    match goal with H : forallb typed_influence _ = true |- _ => rewrite forallb_forall in H; specialize (H i0 Hi) as Ti end.
    unfold typed_influence in Ti. apply andb_true_iff in Ti as [Ti1 Ti2]. unfold inf_ok. cbn [cut_influence inf_bone inf_weights].
    rewrite cut_text, Ti2 by auto. replace (zlen (inf_weights i0) <? 2 ^ 61) with true by (clear - L6; lia). reflexivity. }
  rewrite Fa, Fi. knowns. reflexivity.
Qed.

(** Sorting keeps the order of groups that belong to the same object. *)
Lemma filter_insert {A} (leb : A -> A -> bool) (m : A -> bool) x l :
  (forall y, In y l -> m x = true -> m y = true -> leb x y = true) -> filter m (insert_by leb x l) = filter m (x :: l).
Proof.
  induction l as [|y l IH]; intros H; [reflexivity|]. cbn [insert_by]. destruct (leb x y) eqn:E; [reflexivity|].
  cbn [filter]. rewrite IH by (intros; apply H; auto; right; auto). cbn [filter].
  destruct (m x) eqn:Mx, (m y) eqn:My; try reflexivity. rewrite (H y (or_introl eq_refl) eq_refl My) in E. discriminate E.
Qed.
Lemma filter_sort {A} (leb : A -> A -> bool) (m : A -> bool) l :
  (forall x y, In x l -> In y l -> m x = true -> m y = true -> leb x y = true) -> filter m (sort_by leb l) = filter m l.
Proof.
  unfold sort_by. induction l as [|x l IH]; intros H; [reflexivity|]. cbn [fold_right]. rewrite filter_insert.
  - cbn [filter]. rewrite IH; [reflexivity|]. intros a b Ha Hb. apply H; right; auto.
  - intros y Hy Mx My. apply H; auto; [left; auto|]. right.
    apply (Permutation_in _ (Permutation_sym (sort_perm leb l))). exact Hy.
Qed.
Definition group_match (name : list Z) (sub : Z) (g : val) : bool :=
  match g with
  | VStruct [n; VInt i; _; VArr _] => match ssbh_to_str n with Some s => list_eqb s name | None => false end && (i =? sub)
  | _ => true
  end.
Lemma rigging_filter ver gs name sub : read_rigging_data ver (filter (group_match name sub) gs) name sub = read_rigging_data ver gs name sub.
Proof.
  induction gs as [|g gs IH]; [reflexivity|]. cbn [filter]. destruct (group_match name sub g) eqn:M.
  - cbn [read_rigging_data]. now rewrite IH.
  - rewrite IH. unfold group_match in M. destruct g as [| |[|n [|[i| | | | |] [|f [|[| | |bufs| |] [|]]]]]| | |]; try discriminate M.
    cbn [read_rigging_data]. now rewrite M.
Qed.
Lemma rigging_merged ver os rig name sub : Forall object_facts os -> create_rigging_buffers ver os = Ok rig ->
  read_rigging_data ver rig name sub =
  Ok (flat_map ob_influences (filter (fun o => list_eqb (ob_name o) name && (ob_subindex o =? sub)) os)).
Proof.
  intros F E. unfold create_rigging_buffers in E. apply bind_ok in E as (gs & Eg & [= <-]). apply rigging_groups_inv in Eg.
  rewrite <- rigging_filter, filter_sort, rigging_filter, (rigging_read ver os gs name sub F Eg).
  - f_equal. clear. induction os as [|o os IH]; [reflexivity|]. cbn [flat_map filter]. unfold key_match at 1.
    destruct (list_eqb (ob_name o) name && (ob_subindex o =? sub)); [cbn [flat_map]; now rewrite IH|exact IH].
  - assert (K : forall g, In g gs -> group_match name sub g = true -> group_key g = (name, sub)).
    { intros g Hg. destruct (forall2_in_r _ _ _ Eg g Hg) as (o & Ho & G). rewrite Forall_forall in F.
      rewrite (group_key_of ver o g (F o Ho) G). destruct G as (bufs & _ & ->). cbn [group_match].
      rewrite to_str_text by apply (of_name o (F o Ho)). intros M. apply andb_true_iff in M as [M1 M2]. apply list_eqb_eq in M1.
      unfold object_key. rewrite M1. f_equal. clear - M2. lia. }
    intros x y Hx Hy Mx My. rewrite (K x Hx Mx), (K y Hy My). unfold key_leb. cbn [fst snd].
    replace (list_eqb name name) with true by (symmetry; now apply list_eqb_eq). apply Z.leb_refl.
Qed.

Theorem mesh_cut bounding d out : bounding_ok bounding -> typed_mesh d = true -> counts_fit (DtMesh d) ->
  mesh_data_write bounding d = Ok out -> zlen out < 2 ^ 63 ->
  mesh_data_read out = Ok (stored_mesh (MkMesh (mesh_major d) (mesh_minor d) (merged_objects (map cut_object (mesh_objects d))))).
Proof.
  intros B T C E L. pose proof (mesh_ok_cut d T C) as K. destruct C as (_ & _ & M).
  unfold mesh_data_write in E. apply bind_ok in E as (v & Ev & E).
  destruct (create_mesh_inner_of bounding d v Ev) as (ver & V & P & _ & I).
  rewrite (mesh_version_eq d ver V) in M. apply mesh_fits_cut in M. rewrite <- create_inner_cut in I.
  pose proof (mesh_inner_file_ok bounding ver (cut_mesh d) v B K M P I) as F.
  pose proof (typed_roundtrip _ _ _ _ F E L) as R. unfold mesh_data_read. rewrite R. cbn [bind].
  change (un_mesh (mesh_major (cut_mesh d), mesh_minor (cut_mesh d)) v = Ok (stored_mesh
    (MkMesh (mesh_major d) (mesh_minor d) (merged_objects (map cut_object (mesh_objects d)))))).
  destruct (mesh_ok_facts (cut_mesh d) K) as [Fo _].
  rewrite (un_mesh_inner bounding ver (cut_mesh d) v
    (fun o => flat_map ob_influences (filter (same_key o) (map cut_object (mesh_objects d)))) K M V I).
  - unfold stored_mesh, merged_objects. cbn [mesh_major mesh_minor mesh_objects cut_mesh].
    change (mesh_version_of (MkMesh (mesh_major d) (mesh_minor d) _)) with (mesh_version_of d).
    rewrite (mesh_version_eq d ver V), !map_map. reflexivity.
  - intros rig Er o Ho. apply (rigging_merged ver _ rig _ _ Fo Er).
Qed.
(** Objects that differ in name or number keep their influences. *)
Lemma merged_same os : NoDup (map object_key os) -> merged_objects os = os.
Proof.
  intros N. unfold merged_objects. rewrite <- (map_id os) at 2. apply map_ext_in. intros o Ho.
  assert (Q : flat_map ob_influences (filter (same_key o) os) = ob_influences o).
  { rewrite <- (lookup_unique os o N Ho) at 1. clear. induction os as [|x os IH]; [reflexivity|]. cbn [filter flat_map].
    unfold same_key at 1. unfold key_match at 1. destruct (list_eqb (ob_name x) (ob_name o) && (ob_subindex x =? ob_subindex o));
      [cbn [flat_map]; now rewrite IH|exact IH]. }
  rewrite Q. now destruct o.
Qed.
Lemma merged_cut d : keys_differ d -> merged_data (cut_data d) = cut_data d.
Proof.
  destruct d as [d|major minor bones|d|d|d|d|d|d]; try reflexivity. intros N.
  cbn [cut_data merged_data cut_mesh mesh_major mesh_minor mesh_objects]. rewrite merged_same; [reflexivity|].
  rewrite map_map. exact N.
Qed.

(** Objects with the same kept name and number are loaded, but not saved again. *)
Lemma merged_unsaved_mesh bounding d : ~ NoDup (map (fun o => (cut (ob_name o), ob_subindex o)) (mesh_objects d)) ->
  mesh_data_write bounding (stored_mesh (MkMesh (mesh_major d) (mesh_minor d) (merged_objects (map cut_object (mesh_objects d))))) =
  Err (EData DDuplicate).
Proof.
  intros N. unfold mesh_data_write, create_mesh. cbn [stored_mesh mesh_objects mesh_major mesh_minor].
  match goal with |- context [validate_mesh_object_subindices ?os] => set (os' := os); pose proof (validate_spec os') as V end.
  destruct (validate_mesh_object_subindices os') as [u|e|]; [exfalso|destruct V as [-> _]; reflexivity|destruct V].
  apply N. unfold os', merged_objects in V. rewrite !map_map in V. exact V.
Qed.

(** ** All types *)
#[local] Strategy opaque [typed_read typed_write modl_data_write matl_data_write hlpb_data_write meshex_data_write adj_data_write anim_data_write skel_data_write mesh_data_write].
Theorem data_cut mul inv bounding sphere_of order d out :
  (forall a c, mat_ok (mul a c) = true) -> (forall a, mat_ok (inv a) = true) -> bounding_ok bounding ->
  (forall gs, sphere_ok (sphere_of gs) = true) -> typed_data d = true -> counts_fit d ->
  save_data mul inv bounding sphere_of d = Ok out -> zlen out < 2 ^ 63 ->
  load_as order (data_kind_of d) out = Ok (stored_data (merged_data (cut_data d))).
Proof.
  intros M I B S T C E L. destruct d as [d|major minor bones|d|d|d|d|d|d].
  - change (bind (mesh_data_read out) (fun d => Ok (DtMesh d)) =
      Ok (DtMesh (stored_mesh (MkMesh (mesh_major d) (mesh_minor d) (merged_objects (map cut_object (mesh_objects d))))))).
    rewrite (mesh_cut bounding d out B T C E L). reflexivity.
  - change (bind (skel_data_read out) (fun d => Ok (DtSkel 1 0 d)) = Ok (DtSkel 1 0 (map cut_bone bones))).
    assert (T' : forallb typed_bone bones = true) by (clear - T; cbn [typed_data] in T; now apply andb_true_iff in T as [_ T]).
    rewrite (skel_cut mul inv M I bones out T' C E L). reflexivity.
  - change (bind (anim_data_read order out) (fun d => Ok (DtAnim d)) = Ok (DtAnim (stored_anim (cut_anim d)))).
    rewrite (anim_cut order d out T C E L). reflexivity.
  - change (bind (modl_data_read out) (fun d => Ok (DtModl d)) = Ok (DtModl (cut_modl d))).
    rewrite (modl_cut d out T C E L). reflexivity.
  - change (bind (matl_data_read out) (fun d => Ok (DtMatl d)) = Ok (DtMatl (cut_matl d))).
    rewrite (matl_cut d out T C E L). reflexivity.
  - change (bind (hlpb_data_read out) (fun d => Ok (DtHlpb d)) = Ok (DtHlpb (cut_hlpb d))).
    rewrite (hlpb_cut d out T C E L). reflexivity.
  - change (bind (meshex_data_read out) (fun d => Ok (DtMeshEx d)) = Ok (DtMeshEx (map cut_mesh_group d))).
    rewrite (meshex_cut (sphere_of d) d out (S d) T C E L). reflexivity.
  - change (bind (adj_data_read out) (fun d => Ok (DtAdj d)) = Ok (DtAdj (map cut_adj_entry d))).
    rewrite (adj_cut d out T C E). reflexivity.
Qed.

Lemma cut_same t : cut t = t <-> ~ In 0 t.
Proof.
  split.
  - intros E. rewrite <- E. destruct (cut_spec t) as (r & _ & N & _). exact N.
  - induction t as [|x t IH]; [reflexivity|]. intros N. cbn [cut In] in *. destruct (Z.eqb_spec x 0) as [->|X]; [tauto|].
    f_equal. apply IH. tauto.
Qed.
Lemma map_idem {A} (f : A -> A) : (forall a, f (f a) = f a) -> forall l, map f (map f l) = map f l.
Proof. intros H l. rewrite map_map. apply map_ext. exact H. Qed.
Lemma kept_parent_idem p : kept_parent (kept_parent p) = kept_parent p.
Proof.
  destruct p as [i|]; [|reflexivity]. cbn [kept_parent]. destruct (i mod 2 ^ 16 <? 2 ^ 15) eqn:E; [|reflexivity].
  cbn [kept_parent]. rewrite Z.mod_mod by discriminate. now rewrite E.
Qed.
(** What is kept is kept again. *)
Theorem cut_data_idem d : cut_data (cut_data d) = cut_data d.
Proof.
  destruct d as [d|major minor bones|d|d|d|d|d|d]; cbn [cut_data]; f_equal.
  - destruct d as [ma mi os]. unfold cut_mesh. cbn [mesh_major mesh_minor mesh_objects]. f_equal. apply map_idem. intros o.
    unfold cut_object. cbn [ob_name ob_subindex ob_parent ob_bias ob_no_write ob_no_test ob_indices ob_positions ob_normals ob_binormals
      ob_tangents ob_texcoords ob_colors ob_influences]. rewrite !cut_idem.
    assert (A : forall l, map cut_attribute (map cut_attribute l) = map cut_attribute l).
    { apply map_idem. intros a. unfold cut_attribute. cbn [attr_name attr_data]. now rewrite cut_idem. }
    rewrite !A. f_equal. apply map_idem. intros i. unfold cut_influence. cbn [inf_bone inf_weights]. now rewrite cut_idem.
  - apply map_idem. intros b. unfold cut_bone. cbn [bn_name bn_transform bn_parent bn_billboard]. now rewrite cut_idem, kept_parent_idem.
  - unfold cut_anim. cbn [ad_major ad_minor ad_final ad_groups]. f_equal. apply map_idem. intros g. unfold cut_group.
    cbn [gd_type gd_nodes]. f_equal. apply map_idem. intros n. unfold cut_node. cbn [nd_name nd_tracks]. rewrite cut_idem. f_equal.
    apply map_idem. intros t. unfold cut_track. cbn [td_name td_comp td_flags td_values]. now rewrite cut_idem.
  - unfold cut_modl. cbn [md_model md_skel md_materials md_anim md_mesh md_entries]. rewrite !cut_idem, (map_idem cut cut_idem). f_equal.
    + destruct (md_anim d) as [a|]; cbn [option_map]; [now rewrite cut_idem|reflexivity].
    + apply map_idem. intros e. unfold cut_modl_entry. cbn [me_name me_subindex me_material]. now rewrite !cut_idem.
  - unfold cut_matl. cbn [mt_major mt_minor mt_entries]. f_equal. apply map_idem. intros e. unfold cut_matl_entry.
    cbn [mt_label mt_shader mt_blends mt_floats mt_bools mt_vectors mt_rasters mt_samplers mt_textures mt_uvs]. rewrite !cut_idem. f_equal.
    apply map_idem. intros p. unfold cut_param. cbn [pr_id pr_data]. now rewrite cut_idem.
  - unfold cut_hlpb. cbn [hd_aims hd_orients]. f_equal; apply map_idem.
    + intros a. unfold cut_aim.
      cbn [am_name am_bone1 am_bone2 am_type1 am_type2 am_target1 am_target2 am_unk1 am_unk2 am_aim am_up am_quat1 am_quat2].
      now rewrite !cut_idem.
    + intros o. unfold cut_orient. cbn [or_name or_parent1 or_parent2 or_source or_target or_type or_axes or_quat1 or_quat2 or_min or_max].
      now rewrite !cut_idem.
  - apply map_idem. intros g. unfold cut_mesh_group. cbn [mg_sphere mg_full mg_name mg_flags]. now rewrite !cut_idem.
  - apply map_idem. intros e. unfold cut_adj_entry. cbn [ae_object ae_adjacency]. now rewrite Z.mod_mod by discriminate.
Qed.

(** Documents *)
Theorem document_cut mul inv bounding sphere_of order j d ext out :
  (forall a c, mat_ok (mul a c) = true) -> (forall a, mat_ok (inv a) = true) -> bounding_ok bounding ->
  (forall gs, sphere_ok (sphere_of gs) = true) -> wellformed j = true -> read_first attempts j = Some d -> counts_fit d ->
  json_to_data_file mul inv bounding sphere_of j = Ok (ext, out) -> zlen out < 2 ^ 63 ->
  data_to_json order ext out = Some (Ok (data_json (stored_data (merged_data (cut_data d))))).
Proof.
  intros M I B S W R C E L. pose proof (accepted_typed j d W R) as T.
  unfold json_to_data_file in E. rewrite R in E.
  destruct (save_data mul inv bounding sphere_of d) as [o| |] eqn:Sv; [|discriminate E|discriminate E].
  cbn [unwrap bind] in E. injection E as <- <-. unfold data_to_json. rewrite kind_back.
  rewrite (data_cut mul inv bounding sphere_of order d o M I B S T C Sv L). reflexivity.
Qed.

Theorem merged_unsaved mul inv bounding sphere_of d : ~ keys_differ d ->
  save_data mul inv bounding sphere_of (stored_data (merged_data (cut_data d))) = Err (EData DDuplicate).
Proof.
  destruct d as [d|major minor bones|d|d|d|d|d|d]; intros N; try (exfalso; apply N; exact I).
  exact (merged_unsaved_mesh bounding d N).
Qed.
