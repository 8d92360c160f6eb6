(** Conversions of any value in memory. *)
From Coq Require Import Lia ZifyBool ZifyNat ZifyN Permutation.
From Verif Require Import Bytes BytesFacts Ssbh File SsbhSpec SsbhFacts Formats FileFacts Strings Bits AnimComp AnimBuf AnimFile AnimSpec AnimFacts AnimDataFacts.
From Verif Require Import SmallData DataSpec SmallDataFacts MatlData MatlSpec MatlFacts SkelData SkelSpec SkelFacts MeshEx MeshExFacts AdjData AdjSpec AdjDataFacts
  VecData MeshData MeshSpec MeshFacts RigFacts MeshLemmas ReloadFacts AnimReadSpec AnimRead MeshReadSpec MeshRead DataFuzz.
Ltac Zify.zify_post_hook ::= ZifyBool.elim_bool_cstr; Z.to_euclidean_division_equations.

(** ** To data *)
Lemma modl_converts version t v : format Modl version = Some t -> wt t v = true -> exists d, un_modl version v = Ok d /\ modl_ok d = true.
Proof.
  intros F W. destruct version as [ma mi]. cbn in F. unfold ver_eqb in F. cbn [fst snd] in F.
  destruct ((ma =? 1) && (mi =? 7)) eqn:C; [|discriminate F]. injection F as <-. assert (ma = 1 /\ mi = 7) as [-> ->] by lia.
  destruct (modl_any v W) as (d & U & O & _). eauto.
Qed.
Lemma hlpb_converts version t v : format Hlpb version = Some t -> wt t v = true ->
  exists d, un_hlpb v = Ok d /\ forallb aim_ok (hd_aims d) = true /\ forallb orient_ok (hd_orients d) = true.
Proof.
  intros F W. assert (t = Hlpb_V11) as ->.
  { destruct version as [ma mi]. cbn in F. unfold ver_eqb in F. cbn [fst snd] in F. destruct ((ma =? 1) && (mi =? 1)); [|discriminate F]. now injection F as <-. }
  apply struct_inv in W as (vs & -> & F2). inv2.
  repeat match goal with H : wt (TArr _) _ = true |- _ => apply arr_inv in H as (? & -> & ? & ?) end.
  match goal with H : forallb (wt AimConstraint) _ = true |- _ => apply (list_any _ un_aim aim_ok) in H as (xs & Ea & Oa & _); [|exact aim_any] end.
  match goal with H : forallb (wt OrientConstraint) _ = true |- _ => apply (list_any _ un_orient orient_ok) in H as (ys & Eo & Oo & _); [|exact orient_any] end.
  cbn [un_hlpb]. rewrite Ea. cbn [bind]. rewrite Eo. cbn [bind]. eauto.
Qed.
Lemma skel_converts version t v : format Skel version = Some t -> wt t v = true -> exists bones, un_skel v = Ok bones /\ bones_ok bones = true.
Proof.
  intros F W. assert (t = Skel_V10) as ->.
  { destruct version as [ma mi]. cbn in F. unfold ver_eqb in F. cbn [fst snd] in F. destruct ((ma =? 1) && (mi =? 0)); [|discriminate F]. now injection F as <-. }
  apply struct_inv in W as (vs & -> & F2). inv2.
  repeat match goal with H : wt (TArr _) _ = true |- _ => apply arr_inv in H as (? & -> & ? & ?) end. cbn [un_skel].
  match goal with |- exists d, un_bones ?es ?ts = _ /\ _ => assert (K : exists bs, un_bones es ts = Ok bs /\ forallb bone_ok bs = true /\ zlen bs <= zlen es)
    by (apply bones_any; assumption) end.
  destruct K as (bs & U & O & L). exists bs. split; [exact U|]. unfold bones_ok. rewrite O, andb_true_r. apply Z.ltb_lt. eapply Z.le_lt_trans; eassumption.
Qed.
Lemma matl_converts version t v : format Matl version = Some t -> wt t v = true ->
  exists d, un_matl version v = Ok d /\ (mt_major d, mt_minor d) = version /\ matl_ok d = true.
Proof.
  intros F W. assert (V : (version = (1, 5) /\ t = Matl_V15) \/ (version = (1, 6) /\ t = Matl_V16)).
  { destruct version as [ma mi]. cbn in F. unfold ver_eqb in F. cbn [fst snd] in F.
    destruct ((ma =? 1) && (mi =? 5)) eqn:C; [injection F as <-; left; split; [f_equal; lia|reflexivity]|].
    destruct ((ma =? 1) && (mi =? 6)) eqn:C'; [injection F as <-; right; split; [f_equal; lia|reflexivity]|discriminate F]. }
  destruct V as [[-> ->]|[-> ->]]; apply struct_inv in W as (vs & -> & F2); inv2;
    match goal with H : wt (TArr _) _ = true |- _ => apply arr_inv in H as (es & -> & L & We) end.
  - apply (list_any _ un_entry15 matl_entry_ok) in We as (xs & U & Ox & Lx);
      [|intros v Hv; eapply entry_any; [exact blend15_any|exact raster15_any|exact Hv]].
    change (un_matl (1, 5) (VStruct [VArr es])) with (let* entries := un_list un_entry15 es in Ok (MatD 1 5 entries)).
    rewrite U. cbn [bind]. eexists. split; [reflexivity|]. split; [reflexivity|]. unfold matl_ok, len_ok. cbn [mt_entries]. rewrite Ox, andb_true_r. lia.
  - apply (list_any _ un_entry16 matl_entry_ok) in We as (xs & U & Ox & Lx);
      [|intros v Hv; eapply entry_any; [exact blend16_any|exact raster16_any|exact Hv]].
    change (un_matl (1, 6) (VStruct [VArr es])) with (let* entries := un_list un_entry16 es in Ok (MatD 1 6 entries)).
    rewrite U. cbn [bind]. eexists. split; [reflexivity|]. split; [reflexivity|]. unfold matl_ok, len_ok. cbn [mt_entries]. rewrite Ox, andb_true_r. lia.
Qed.

Lemma dropped_ok {A} (r : res A) : dropped r = Ok tt <-> r <> Panic.
Proof. destruct r; cbn; split; congruence. Qed.

Theorem targets_to_data :
  (forall version t v, format Modl version = Some t -> wt t v = true -> fuzz_modl_to_data version v = Ok tt) /\
  (forall version t v, format Skel version = Some t -> wt t v = true -> fuzz_skel_to_data v = Ok tt) /\
  (forall version t v, format Matl version = Some t -> wt t v = true -> fuzz_matl_to_data version v = Ok tt) /\
  (forall version t v, format Mesh version = Some t -> wt t v = true -> fuzz_mesh_to_data version v = Ok tt) /\
  (forall x, meshex_ok x = true -> fuzz_meshex_to_data x = Ok tt) /\
  (forall x, fuzz_adj_to_data x = Ok tt).
Proof.
  split; [|split; [|split; [|split; [|split]]]].
  - intros version t v F W. destruct (modl_converts _ _ _ F W) as (d & U & _). unfold fuzz_modl_to_data. now rewrite U.
  - intros version t v F W. destruct (skel_converts _ _ _ F W) as (d & U & _). unfold fuzz_skel_to_data. now rewrite U.
  - intros version t v F W. destruct (matl_converts _ _ _ F W) as (d & U & _). unfold fuzz_matl_to_data. now rewrite U.
  - intros version t v F W. destruct (mesh_converts _ _ _ F W) as (ver & os & bufs & ib & groups & _ & _ & _ & _ & H). now apply dropped_ok.
  - intros x H. destruct (meshex_data_of_any x H) as (gs & U & _). unfold fuzz_meshex_to_data. now rewrite U.
  - intros x. destruct (adj_data_any x) as [A B]. unfold fuzz_adj_to_data. destruct (increasing (bounds x)) eqn:E.
    + destruct (A eq_refl) as (d & -> & _). reflexivity.
    + now rewrite (B eq_refl).
Qed.

Lemma dropped_panic {A} (r : res A) : dropped r = Panic <-> r = Panic.
Proof. destruct r; cbn; split; congruence. Qed.
Theorem target_anim t m v : format Anim (2, m) = Some t -> wt t v = true -> exists a, v = anim_val a /\ an_minor a = m /\
  forall order, fuzz_anim_to_data order (2, m) v = Panic <-> first_bad (readable_track (an_buffer a)) (panicking_track (an_buffer a)) (file_tracks a).
Proof.
  intros F W. destruct (anim_converts _ _ _ F W) as (a & V & M & H). exists a. split; auto. split; auto. intros order.
  unfold fuzz_anim_to_data. rewrite dropped_panic. apply H.
Qed.
Theorem target_anim_v12 v : wt Anim_V12 v = true -> exists a, anim_v1_val v a /\ forall order, (forall l, Permutation l (order l)) ->
  (fuzz_anim_to_data order (1, 2) v = Ok tt <-> Forall (fun t => Forall (property_sound (av1_buffers a)) (v1_properties t)) (av1_tracks a)).
Proof.
  intros W. destruct (anim_converts_v12 _ W) as (a & V & H). exists a. split; auto. intros order O. destruct (H order O) as (H1 & _ & H3).
  unfold fuzz_anim_to_data. rewrite <- H1. destruct (anim_to_data order (1, 2) v) as [d|e|] eqn:E; cbn.
  - split; eauto.
  - now destruct (H3 e).
  - split; [discriminate|]. intros [d [=]].
Qed.

(** ** From data *)
Section Skel.
Variables (mul : mat -> mat -> mat) (inv : mat -> mat).
Theorem skel_saves bones : parents_ok bones = true ->
  ((exists v, skel_val mul inv bones = Ok v) <-> forall b, In b bones -> exists l, ancestors bones b l) /\
  (skel_val mul inv bones = Err (EData DCycle) <-> exists b, In b bones /\ forall l, ~ ancestors bones b l).
Proof.
  intros P. destruct (worlds_spec mul inv bones bones P P) as [S1 S2]. destruct (worlds_dec mul inv bones bones P P) as [A|A]; unfold skel_val.
  - destruct (S1 A) as (ws & E & _). rewrite E. cbn [bind]. split; split; intros H; auto; eauto; try discriminate H.
    destruct H as (b & I & N). destruct (A b I) as (l & Al). now destruct (N l).
  - rewrite (S2 A). cbn [bind]. split; split; intros H; auto.
    + now destruct H.
    + destruct A as (b & I & N). destruct (H b I) as (l & Al). now destruct (N l).
Qed.
End Skel.

Lemma create_object_np bounding ver o s : create_mesh_object bounding ver o s <> Panic.
Proof.
  unfold create_mesh_object. destruct (negb (zlen (ob_indices o) mod 3 =? 0)); [discriminate|].
  destruct (vertex_count_err o) as [V|[n V]]; rewrite V; cbn [bind]; [discriminate|].
  destruct (match max_index (ob_indices o) with Some m => n <=? m | None => false end); discriminate.
Qed.
Lemma create_objects_np bounding ver os : forall s, create_mesh_objects bounding ver os s <> Panic.
Proof.
  induction os as [|o os IH]; intros s; cbn [create_mesh_objects]; [discriminate|]. pose proof (create_object_np bounding ver o s) as N.
  destruct (create_mesh_object bounding ver o s) as [[v s1]|e|]; cbn [bind]; try congruence. specialize (IH s1).
  destruct (create_mesh_objects bounding ver os s1) as [[vs s2]|e|]; cbn [bind]; congruence.
Qed.
Theorem create_mesh_np bounding d : create_mesh bounding d <> Panic.
Proof.
  unfold create_mesh. pose proof (validate_spec (mesh_objects d)) as VS. destruct (validate_mesh_object_subindices (mesh_objects d)) as [[]|e|]; cbn [bind]; [|discriminate|tauto].
  destruct (version_of (mesh_major d) (mesh_minor d)) as [ver|]; [|discriminate]. unfold create_mesh_inner.
  pose proof (create_objects_np bounding ver (mesh_objects d) no_buffers) as C.
  destruct (create_mesh_objects bounding ver (mesh_objects d) no_buffers) as [[vs s]|e|]; cbn [bind]; try congruence.
  pose proof (create_rigging_spec ver (mesh_objects d)) as R. destruct (create_rigging_buffers ver (mesh_objects d)); cbn [bind]; [discriminate|discriminate|tauto].
Qed.

(** The values of every track can be written. *)
Lemma tracks_create ts : forallb (fun t => values_ok (td_values t)) ts = true -> forall buffer, exists r, map_buffer create_track ts buffer = Ok r.
Proof.
  induction ts as [|t ts IH]; intros H buffer; cbn [map_buffer]; [eauto|]. cbn [forallb] in H. apply andb_true_iff in H as [Ht H].
  assert (W : exists b, tv_write (td_values t) (infer_compression (td_values t)) (td_comp t) = Ok b).
  { destruct (Z.eq_dec (infer_compression (td_values t)) Compressed) as [E|E].
    - rewrite E. destruct (compressed_values (td_values t) (td_comp t) Ht) as (b & Eb & _). eauto.
    - destruct (uncompressed_values (td_values t) _ (td_comp t) Ht E) as (b & Eb & _). eauto. }
  destruct W as (b & W). unfold create_track at 1. rewrite W. cbn [bind].
  match goal with |- context [map_buffer create_track ts ?bf] => destruct (IH H bf) as ([ys bf'] & ->) end. cbn [bind]. eauto.
Qed.
Lemma buffer_create {A B} (f : A -> list Z -> res (B * list Z)) (p : A -> bool) l : (forall x, p x = true -> forall b, exists r, f x b = Ok r) ->
  forallb p l = true -> forall b, exists r, map_buffer f l b = Ok r.
Proof.
  intros F. induction l as [|x l IH]; intros H b; cbn [map_buffer]; [eauto|]. cbn [forallb] in H. apply andb_true_iff in H as [Hx H].
  destruct (F x Hx b) as ([y b1] & ->). cbn [bind]. destruct (IH H b1) as ([ys b2] & ->). cbn [bind]. eauto.
Qed.
Lemma forallb_flat {A B} (p : B -> bool) (f : A -> list B) l : forallb p (flat_map f l) = forallb (fun x => forallb p (f x)) l.
Proof. induction l as [|x l IH]; [reflexivity|]. cbn [flat_map forallb]. now rewrite forallb_app, IH. Qed.
Lemma nodes_create ns : forallb (fun n => forallb (fun t => values_ok (td_values t)) (nd_tracks n)) ns = true -> forall b, exists r, map_buffer create_node ns b = Ok r.
Proof.
  apply buffer_create. intros n Hn b. unfold create_node. destruct (tracks_create _ Hn b) as ([ts b'] & ->). cbn [bind]. eauto.
Qed.
Lemma groups_create gs : forallb (fun g => forallb (fun n => forallb (fun t => values_ok (td_values t)) (nd_tracks n)) (gd_nodes g)) gs = true ->
  forall b, exists r, map_buffer create_group gs b = Ok r.
Proof.
  apply buffer_create. intros g Hg b. unfold create_group. destruct (nodes_create _ Hg b) as ([ns b'] & ->). cbn [bind]. eauto.
Qed.
Lemma forallb_ext' {A} (p q : A -> bool) l : (forall x, p x = q x) -> forallb p l = forallb q l.
Proof. intros E. induction l as [|x l IH]; [reflexivity|]. cbn [forallb]. now rewrite E, IH. Qed.
Theorem anim_saves d : forallb (fun t => values_ok (td_values t)) (tracks_of d) = true ->
  ((exists a, create_anim d = Ok a) \/ create_anim d = Err (EData DVersion) \/ create_anim d = Err (EData DFinalFrame)) /\
  (create_anim d = Err (EData DVersion) <-> ad_major d <> 2 \/ (ad_minor d <> 0 /\ ad_minor d <> 1)).
Proof.
  intros H. unfold tracks_of in H. rewrite forallb_flat in H. erewrite forallb_ext' in H by (intros g; apply forallb_flat).
  destruct (groups_create _ H []) as ([gs bf] & G). unfold create_anim. rewrite G. cbn [bind].
  destruct ((ad_major d =? 2) && ((ad_minor d =? 0) || (ad_minor d =? 1))) eqn:V.
  - match goal with |- context [if ?c then Ok _ else Err (EData DFinalFrame)] => destruct c end.
    + split; [left; eexists; reflexivity|]. split; [discriminate|lia].
    + split; [right; right; reflexivity|]. split; [discriminate|lia].
  - split; [right; left; reflexivity|]. split; [intros _; lia|reflexivity].
Qed.

Theorem targets_from_data :
  (forall d, fuzz_modl_from_data d = Ok tt) /\
  (forall mul inv bones, parents_ok bones = true -> fuzz_skel_from_data mul inv bones = Ok tt) /\
  (forall d, fuzz_matl_from_data d = Ok tt) /\
  (forall bounding d, fuzz_mesh_from_data bounding d = Ok tt) /\
  (forall all gs, fuzz_meshex_from_data all gs = Ok tt) /\
  (forall d, fuzz_adj_from_data d = Ok tt) /\
  (forall d, forallb (fun t => values_ok (td_values t)) (tracks_of d) = true -> fuzz_anim_from_data d = Ok tt).
Proof.
  repeat split; auto.
  - intros mul inv bones P. apply dropped_ok. destruct (skel_saves mul inv bones P) as [_ _]. destruct (worlds_spec mul inv bones bones P P) as [S1 S2]. unfold skel_val.
    destruct (worlds_dec mul inv bones bones P P) as [A|A]; [destruct (S1 A) as (ws & -> & _)|rewrite (S2 A)]; discriminate.
  - intros d. unfold fuzz_matl_from_data, matl_val. now destruct (_ && _).
  - intros bounding d. apply dropped_ok, create_mesh_np.
  - intros d H. apply dropped_ok. destruct (anim_saves d H) as [[(a & ->)|[->| ->]] _]; discriminate.
Qed.
