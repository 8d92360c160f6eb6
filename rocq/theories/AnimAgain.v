(** Saving animations again: the same bytes for values stored without loss. *)
From Coq Require Import Lia ZifyBool ZifyNat ZifyN.
From Verif Require Import Bytes Ssbh Float32 AnimComp AnimBuf AnimFile AnimSpec ResaveSpec AnimDataFacts AnimFacts.
Ltac Zify.zify_post_hook ::= ZifyBool.elim_bool_cstr; Z.to_euclidean_division_equations.

Lemma fold_min_le l : forall a x, In x (a :: l) -> fold_left Z.min l a <= x.
Proof.
  induction l as [|b l IH]; cbn [fold_left]; intros a x H; [destruct H as [->|[]]; lia|].
  destruct H as [->|[->|H]].
  - specialize (IH (Z.min x b) (Z.min x b) (or_introl eq_refl)). lia.
  - specialize (IH (Z.min a x) (Z.min a x) (or_introl eq_refl)). lia.
  - apply IH. now right.
Qed.
Lemma fold_min_in l : forall a, In (fold_left Z.min l a) (a :: l).
Proof.
  induction l as [|b l IH]; cbn [fold_left]; intros a; [now left|].
  destruct (IH (Z.min a b)) as [E|H]; [|right; now right]. rewrite <- E. destruct (Z.min_spec a b) as [[_ ->]|[_ ->]]; cbn; auto.
Qed.
Lemma lowest_le l x : In x l -> lowest l <= x.
Proof. destruct l as [|a l]; [intros []|]. intros H. unfold lowest. cbn. now apply fold_min_le. Qed.
Lemma lowest_in l : l <> [] -> In (lowest l) l.
Proof. destruct l as [|a l]; [easy|]. intros _. unfold lowest. cbn. apply fold_min_in. Qed.

Lemma lossless_values v : kept v -> stored_track_values v = v.
Proof.
  unfold stored_track_values, kept. destruct (compressed v); [|reflexivity]. intros [H|H]; [discriminate|].
  destruct v as [l|l|l|l|l|l]; try contradiction; cbn [frame_bits stored_values]; [|reflexivity].
  cbn [Z.eqb]. f_equal. transitivity (map (fun x => x) l); [apply map_ext_in|apply map_id]. intros x I. unfold stored_index.
  pose proof (lowest_le l x I). assert (l <> []) by (intros ->; destruct I). pose proof (H x (lowest l) I (lowest_in l H1)).
  rewrite Z.mod_small; lia.
Qed.

(** The compensation flag matters for transforms only. *)
Lemma write_compensation v : kept v -> forall cs, tv_write v (infer_compression v) (stored_compensation v cs) = tv_write v (infer_compression v) cs.
Proof.
  intros L cs. unfold tv_write. destruct (infer_compression v =? Compressed) eqn:E.
  - destruct L as [L|L]; [rewrite compressed_infer in L; congruence|]. destruct v as [l|l|l|l|l|l]; try contradiction; reflexivity.
  - destruct v as [[|]|l|l|l|l|l]; reflexivity.
Qed.
Lemma again_track t b : kept (td_values t) -> create_track (stored_track t) b = create_track t b.
Proof.
  intros L. unfold create_track, stored_track. cbn [td_name td_comp td_flags td_values]. rewrite lossless_values by exact L.
  now rewrite write_compensation.
Qed.
Lemma map_buffer_ext {A B} (f : A -> list Z -> res (B * list Z)) g l : (forall x b, In x l -> f (g x) b = f x b) ->
  forall b, map_buffer f (map g l) b = map_buffer f l b.
Proof.
  induction l as [|x l IH]; intros H b; [reflexivity|]. cbn [map map_buffer]. rewrite H by now left.
  destruct (f x b) as [[y b']| |]; cbn [bind]; auto. rewrite IH; [reflexivity|]. intros; apply H; now right.
Qed.
Lemma again_node n b : (forall t, In t (nd_tracks n) -> kept (td_values t)) -> create_node (stored_node n) b = create_node n b.
Proof. intros H. unfold create_node, stored_node. cbn [nd_tracks nd_name]. rewrite map_buffer_ext; auto using again_track. Qed.
Lemma again_group g b : (forall n t, In n (gd_nodes g) -> In t (nd_tracks n) -> kept (td_values t)) -> create_group (stored_group g) b = create_group g b.
Proof. intros H. unfold create_group, stored_group. cbn [gd_nodes gd_type]. rewrite map_buffer_ext; [reflexivity|]. intros. apply again_node; eauto. Qed.
Lemma again_anim d : (forall t, In t (tracks_of d) -> kept (td_values t)) -> create_anim (stored_anim d) = create_anim d.
Proof.
  intros H. unfold create_anim, stored_anim. cbn [ad_major ad_minor ad_final ad_groups]. rewrite map_buffer_ext; [reflexivity|].
  intros g b Ig. apply again_group. intros n t In' It. apply H. unfold tracks_of.
  apply in_flat_map. exists g. split; auto. apply in_flat_map. eauto.
Qed.

Lemma stored_tracks d : tracks_of (stored_anim d) = map stored_track (tracks_of d).
Proof.
  unfold tracks_of, stored_anim. cbn [ad_groups]. induction (ad_groups d) as [|g gs IH]; [reflexivity|].
  cbn [map flat_map]. rewrite map_app, IH. f_equal. clear. cbn [stored_group gd_nodes].
  induction (gd_nodes g) as [|n ns IH]; [reflexivity|]. cbn [map flat_map]. rewrite map_app, IH. reflexivity.
Qed.

Theorem anim_again order d out d' : anim_ok d = true -> anim_size d < 2 ^ 32 ->
  (forall t, In t (tracks_of d) -> kept (td_values t)) ->
  anim_data_write d = Ok out -> zlen out < 2 ^ 63 -> anim_data_read order out = Ok d' ->
  anim_data_write d' = Ok out /\ map td_values (tracks_of d') = map td_values (tracks_of d).
Proof.
  intros W S H E L R. rewrite (anim_save_load order d out W S E L) in R. injection R as <-. split.
  - unfold anim_data_write in *. rewrite again_anim; auto.
  - rewrite stored_tracks, map_map. apply map_ext_in. intros t I. apply lossless_values. auto.
Qed.
