(** The floats of a document that is written are finite, so they are read back (JsonTextAll.v). *)
From Coq Require Import Lia ZifyBool ZifyNat ZifyN Permutation.
From Verif Require Import JsonTextTool JsonTextAll Bytes BytesFacts Ssbh Formats Strings Float32 File MeshEx Json JsonSchema JsonFile JsonSpec JsonFacts
  JsonRound JsonDoc JsonTool DataJson DataJsonSpec DataJsonFacts DataJsonLoad DataJsonTool
  JsonText JsonTextSpec JsonTextFacts JsonTextWrite JsonTextUtf8 JsonTextFile.
Ltac Zify.zify_post_hook ::= ZifyBool.elim_bool_cstr; Z.to_euclidean_division_equations.
Open Scope Z_scope.

Definition finite_tree (j : json) : Prop := Forall (fun n => f32_finite n = true) (tree_floats j).

Lemma finite_arr js : (forall j, In j js -> finite_tree j) -> finite_tree (JArr js).
Proof. intros H. apply Forall_forall. intros n I. cbn [tree_floats] in I. apply in_flat_map in I as (j & I & J). exact (proj1 (Forall_forall _ _) (H j I) n J). Qed.
Lemma finite_obj ms : (forall m, In m ms -> finite_tree (snd m)) -> finite_tree (JObj ms).
Proof. intros H. apply Forall_forall. intros n I. cbn [tree_floats] in I. apply in_flat_map in I as (j & I & J). exact (proj1 (Forall_forall _ _) (H j I) n J). Qed.
Lemma finite_other j : tree_floats j = [] -> finite_tree j.
Proof. intros H. unfold finite_tree. rewrite H. constructor. Qed.

Lemma finite_of_value s : forall v, finite_tree (to_json s v).
Proof.
  induction s as [w sg| |tags|w| |fs IH|s IH|s IH|s IH|s IH| | |vs IH|n s IH| | |vs IH|nul d s IH] using schema_ind2; intros v;
    try exact (IH v); destruct v; cbn [to_json]; try (apply finite_other; reflexivity).
  - unfold f32_json. destruct (f32_finite n) eqn:E; [|apply finite_other; reflexivity]. constructor; auto.
  - destruct (name_of n tags); apply finite_other; reflexivity.
  - unfold bits_json. apply finite_obj. intros m [<-|[]]. cbn [snd]. apply finite_arr. intros j I.
    apply in_map_iff in I as (b & <- & _). apply finite_other. reflexivity.
  - apply finite_obj. rewrite Forall_forall in IH. clear - IH. revert vs. induction fs as [|p fs IHf]; intros [|v vs] m I; try destruct I as [<-|I]; try contradiction.
    + cbn [snd]. apply IH. cbn. auto.
    + apply (IHf (fun q J => IH q (or_intror J)) vs m I).
  - destruct vs as [|v [|]]; try (apply finite_other; reflexivity). apply IH.
  - destruct o; [apply IH|apply finite_other; reflexivity].
  - destruct o; [apply IH|apply finite_other; reflexivity].
  - apply finite_arr. intros j I. apply in_map_iff in I as (v & <- & _). apply IH.
  - destruct o as [[| | | | |tag [| | vs'| | |]]|]; try (apply finite_other; reflexivity). destruct vs' as [|v' [|]]; try (apply finite_other; reflexivity).
    apply finite_obj. intros m [<-|[]]. cbn [snd]. rewrite Forall_forall in IH. clear - IH.
    induction vs as [|[[t x] s'] vs IHv]; [apply finite_other; reflexivity|]. destruct (tag =? t).
    + apply finite_obj. intros m [<-|[]]. cbn [snd]. apply (IH (t, x, s')). cbn. auto.
    + apply IHv. intros q J. apply IH. cbn. auto.
  - apply finite_arr. intros j I. apply in_map_iff in I as (v & <- & _). apply IH.
  - rewrite Forall_forall in IH. clear - IH.
    induction vs as [|[[t x] s'] vs IHv]; [apply finite_other; reflexivity|]. destruct (tag =? t).
    + apply finite_obj. intros m [<-|[]]. cbn [snd]. apply (IH (t, x, s')). cbn. auto.
    + apply IHv. intros q J. apply IH. cbn. auto.
Qed.

Lemma finite_iff_exponent n : 0 <= n < 2 ^ 32 -> f32_finite n = true -> n mod 2 ^ 31 < 255 * 2 ^ 23.
Proof.
  unfold f32_finite. intros B F.
  assert (E : n mod 2 ^ 31 = (n / 2 ^ 23) mod 2 ^ 8 * 2 ^ 23 + n mod 2 ^ 23).
  { change (2 ^ 31) with (2 ^ 23 * 2 ^ 8). rewrite Z.rem_mul_r by lia. lia. }
  pose proof (Z.mod_pos_bound n (2 ^ 23) eq_refl). pose proof (Z.mod_pos_bound (n / 2 ^ 23) (2 ^ 8) eq_refl). lia.
Qed.
Theorem all_kept n : 0 <= n < 2 ^ 32 -> f32_finite n = true -> float_kept n.
Proof. intros B F. apply kept_finite; auto using finite_iff_exponent. Qed.

Lemma tree_kept j : tree_ok j = true -> finite_tree j -> Forall float_kept (tree_floats j).
Proof.
  unfold finite_tree. intros T F. rewrite Forall_forall in *. intros n I. apply all_kept; auto. clear F.
  revert T I. induction j as [|b|x|x|s|js IH|ms IH] using json_ind'; cbn [tree_ok tree_floats]; intros T I; try contradiction.
  - destruct I as [<-|[]]. lia.
  - apply in_flat_map in I as (j & J & I). rewrite Forall_forall in IH. rewrite forallb_forall in T. eauto.
  - apply in_flat_map in I as (m & J & I). rewrite Forall_forall in IH. rewrite forallb_forall in T. specialize (T m J).
    apply andb_true_iff in T as [_ T]. eauto.
Qed.

Lemma document_finite d : finite_tree (document_json d).
Proof.
  destruct d as [f|x|x]; cbn [document_json].
  - unfold ssbh_to_json. destruct (schema_find _ _) as [[x s]|]; try (apply finite_other; reflexivity).
    apply finite_obj. intros m [<-|[]]. cbn [snd]. apply finite_obj. intros m [<-|[]]. cbn [snd]. apply finite_of_value.
  - apply finite_of_value.
  - apply finite_of_value.
Qed.
Lemma data_finite d : finite_tree (data_json d).
Proof. apply finite_of_value. Qed.

Theorem tree_written j : tree_ok j = true -> finite_tree j ->
  denotes j (to_text j) /\ utf8_valid (to_text j) = true /\ from_text (to_text j) = if Nat.ltb (nesting j) 128 then Some j else None.
Proof.
  intros T F. pose proof (tree_kept j T F) as K. pose proof (tree_printable j T K) as P.
  split; [now apply to_text_denotes|]. split; [now apply to_text_utf8|now apply text_roundtrip].
Qed.

Theorem lib_identity_all d out :
  document_ok d -> countable d -> save d = Ok out -> zlen out < 2 ^ 63 -> representable_document d ->
  exists t, file_to_text (output_ext d) out = Ok t /\ text_to_file t = Ok (Some (output_ext d, out)).
Proof.
  intros H C S L R. apply lib_identity; auto. apply tree_kept; [apply document_tree; auto|apply document_finite].
Qed.

Theorem data_library_all mul inv bounding sphere_of order k b d :
  (forall l, Permutation l (order l)) -> bytes_ok b = true -> load_as order k b = Ok d -> finite_data d ->
  exists t, data_to_text order (data_ext k) b = Some (Ok t) /\
    forall out, save_data mul inv bounding sphere_of d = Ok out ->
      text_to_data_file mul inv bounding sphere_of t = Ok (data_ext k, out).
Proof.
  intros P B L F. apply (data_text_library _ _ _ _ order k b d); auto. destruct (load_typed _ _ _ _ P B L) as [_ T].
  apply tree_kept; [apply data_tree; auto|apply data_finite].
Qed.
