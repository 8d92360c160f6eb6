(** Lemmas about ModlData, HlpbData and MeshExData. *)
From Coq Require Import Lia ZifyBool ZifyNat ZifyN.
From Verif Require Import Bytes BytesFacts Ssbh File SsbhSpec SsbhFacts Formats Strings Bits BitsFacts Float32 AnimComp AnimBuf AnimFile AnimSpec AnimFile AnimFacts AnimDataFacts MeshEx MeshExFacts SmallData DataSpec.
From Verif Require Import SsbhLemmas FileSpec.
Ltac Zify.zify_post_hook ::= ZifyBool.elim_bool_cstr; Z.to_euclidean_division_equations.

Lemma un_list_map {A} (f : A -> val) (un : val -> res A) l :
  (forall a, In a l -> un (f a) = Ok a) -> un_list un (map f l) = Ok l.
Proof.
  induction l as [|a l IH]; intros H; [reflexivity|]. cbn [map un_list].
  rewrite (H a (or_introl eq_refl)). cbn [bind]. rewrite IH; [reflexivity|]. intros b Hb. apply H. now right.
Qed.
Lemma wt_arr_map {A} t (f : A -> val) (ok : A -> bool) l :
  (forall a, ok a = true -> wt t (f a) = true) -> zlen l < 2 ^ 64 -> forallb ok l = true ->
  wt (TArr t) (VArr (map f l)) = true.
Proof.
  intros H L F. cbn [wt]. replace (zlen (map f l)) with (zlen l) by (unfold zlen; now rewrite map_length).
  change two64 with (2 ^ 64). apply andb_true_intro; split; [lia|].
  rewrite forallb_forall in *. intros x Hx. apply in_map_iff in Hx as (a & <- & Ha). auto.
Qed.
Lemma texts_roundtrip l : forallb text_ok l = true -> map ssbh_to_string_lossy (map ssbh_string l) = l.
Proof.
  intros H. rewrite map_map. rewrite <- (map_id l) at 2. apply map_ext_in. intros a Ha.
  apply text_roundtrip. rewrite forallb_forall in H. auto.
Qed.
Lemma vec3_back v : un_vec3 (vec3_val v) = Ok v. Proof. now destruct v. Qed.
Lemma vec4_back v : un_vec4 (vec4_val v) = Ok v. Proof. now destruct v. Qed.
Lemma wt_vec3 v : vec3_ok v = true -> wt Vector3 (vec3_val v) = true.
Proof.
  unfold vec3_ok, vec3_val, Vector3. intros H. apply andb_true_iff in H as [H H3]. apply andb_true_iff in H as [H1 H2].
  now rewrite !wt_record_cons, wt_record_nil, !wt_f32.
Qed.
Lemma wt_vec4 v : vec4_ok v = true -> wt Vector4 (vec4_val v) = true.
Proof.
  unfold vec4_ok, vec4_val, Vector4. intros H. apply andb_true_iff in H as [H H4].
  apply andb_true_iff in H as [H H3]. apply andb_true_iff in H as [H1 H2].
  now rewrite !wt_record_cons, wt_record_nil, !wt_f32.
Qed.
Lemma wt_u32 x : u32_ok x = true -> wt u32 (VInt x) = true.
Proof. unfold u32_ok. intros H. cbn [wt u32]. lia. Qed.
Lemma wt_u64 x : u64_ok x = true -> wt u64 (VInt x) = true.
Proof. unfold u64_ok. intros H. cbn [wt u64]. lia. Qed.
Lemma wt_text n s : text_ok s = true -> wt (SsbhStringN n) (ssbh_string s) = true.
Proof. intros H. apply andb_true_iff in H as [U _]. apply wt_string. eapply utf8_bytes; [apply Nat.le_refl|auto]. Qed.

Ltac sp H := repeat match type of H with
  | (_ && _) = true => let H1 := fresh H in apply andb_true_iff in H as [H H1]
  end.

(** Keep conversion from unfolding the generic reader and writer. *)
#[local] Strategy opaque [typed_write typed_read].

(** ** Modl *)
Lemma modl_file_ok d : modl_ok d = true -> file_ok (mkFile Modl (1, 7) (modl_val d)).
Proof.
  unfold modl_ok. intros H. apply andb_true_iff in H as [H H6]. apply andb_true_iff in H as [H H5].
  apply andb_true_iff in H as [H H4]. apply andb_true_iff in H as [H H3]. apply andb_true_iff in H as [H1 H2].
  apply andb_true_iff in H3 as [L3 H3]. apply andb_true_iff in H6 as [L6 H6]. unfold len_ok in *.
  exists Modl_V17. split; [reflexivity|]. cbn [fbody]. unfold modl_val, Modl_V17, SsbhString, SsbhString8.
  rewrite !wt_record_cons, wt_record_nil. rewrite !wt_text by auto.
  rewrite (wt_arr_map _ _ text_ok); [|apply wt_text|lia|exact H3].
  rewrite (wt_arr_map _ _ modl_entry_ok); [|intros e He|lia|auto].
  2:{ unfold modl_entry_ok, ModlEntry, modl_entry_val, SsbhString in *. apply andb_true_iff in He as [He E3].
      apply andb_true_iff in He as [E1 E2]. rewrite !wt_record_cons, wt_record_nil.
      now rewrite !wt_text, wt_u64 by auto. }
  destruct (md_anim d) as [a|]; [|reflexivity]. cbn [option_map]. change (wt (TRel ?t) (VPtr (Some ?v))) with (wt t v). now rewrite wt_text.
Qed.

Lemma modl_back v d : modl_ok d = true ->
  un_modl v (modl_val d) = Ok (MD (fst v) (snd v) (md_model d) (md_skel d) (md_materials d) (md_anim d) (md_mesh d) (md_entries d)).
Proof.
  unfold modl_ok. intros H. apply andb_true_iff in H as [H H6]. apply andb_true_iff in H as [H H5].
  apply andb_true_iff in H as [H H4]. apply andb_true_iff in H as [H H3]. apply andb_true_iff in H as [H1 H2].
  apply andb_true_iff in H3 as [_ H3]. apply andb_true_iff in H6 as [_ H6].
  unfold modl_val, un_modl. rewrite un_list_map.
  2:{ intros e He. rewrite forallb_forall in H6. specialize (H6 e He). unfold modl_entry_ok in H6.
      apply andb_true_iff in H6 as [H6 E3]. apply andb_true_iff in H6 as [E1 E2].
      unfold modl_entry_val, un_modl_entry. rewrite !text_roundtrip by auto. now destruct e. }
  cbn [bind]. rewrite !text_roundtrip, texts_roundtrip by auto.
  destruct (md_anim d) as [a|]; [|reflexivity]. cbn [option_map]. now rewrite text_roundtrip.
Qed.

Theorem modl_save_load d out : modl_ok d = true -> modl_data_write d = Ok out -> zlen out < 2 ^ 63 ->
  modl_data_read out = Ok (stored_modl d).
Proof.
  intros W E L. unfold modl_data_write in E. pose proof (typed_roundtrip _ _ _ _ (modl_file_ok d W) E L) as T.
  unfold modl_data_read. rewrite T. cbn [bind]. now apply modl_back.
Qed.
Theorem modl_write_total d : modl_ok d = true -> exists out, modl_data_write d = Ok out.
Proof. intros W. unfold modl_data_write, hlpb_data_write. apply typed_write_total. now apply modl_file_ok. Qed.

(** ** Hlpb *)
Lemma aim_wt a : aim_ok a = true -> wt AimConstraint (aim_val a) = true.
Proof.
  unfold aim_ok. cbn [forallb]. intros H. sp H. sp H. repeat match goal with H : (_ && _) = true |- _ => apply andb_true_iff in H as [? ?] end.
  unfold AimConstraint, aim_val, SsbhString. rewrite !wt_record_cons, wt_record_nil.
  now rewrite !wt_text, !wt_u32, !wt_vec3, !wt_vec4 by auto.
Qed.
Lemma orient_wt o : orient_ok o = true -> wt OrientConstraint (orient_val o) = true.
Proof.
  unfold orient_ok. cbn [forallb]. intros H. sp H. repeat match goal with H : (_ && _) = true |- _ => apply andb_true_iff in H as [? ?] end.
  unfold OrientConstraint, orient_val, SsbhString. rewrite !wt_record_cons, wt_record_nil.
  now rewrite !wt_text, !wt_u32, !wt_vec3, !wt_vec4 by auto.
Qed.

Lemma range_from_length k : forall a, length (range_from a k) = k.
Proof. induction k as [|k IH]; intros a; [reflexivity|]. cbn [range_from length]. now rewrite IH. Qed.
Lemma range_from_in k : forall a x, In x (range_from a k) -> a <= x < a + Z.of_nat k.
Proof.
  induction k as [|k IH]; intros a x H; [destruct H|]. cbn [range_from] in H. destruct H as [->|H]; [lia|].
  apply IH in H. lia.
Qed.
Lemma range_from_nth k : forall a i, (i < k)%nat -> nth_error (range_from a k) i = Some (a + Z.of_nat i).
Proof.
  induction k as [|k IH]; intros a i H; [lia|]. cbn [range_from]. destruct i as [|i].
  - cbn [nth_error]. f_equal. lia.
  - cbn [nth_error]. rewrite IH by lia. f_equal. lia.
Qed.
Lemma range32_length n : 0 <= n < 2 ^ 32 -> length (range32 n) = Z.to_nat n.
Proof. intros H. unfold range32. rewrite range_from_length, Z.mod_small by lia. reflexivity. Qed.
Lemma range32_ok n x : In x (range32 n) -> u32_ok x = true.
Proof. unfold range32. intros H. apply range_from_in in H. unfold u32_ok. lia. Qed.

Lemma hlpb_file_ok d : hlpb_ok d = true -> file_ok (mkFile Hlpb (1, 1) (hlpb_val d)).
Proof.
  unfold hlpb_ok. intros H. apply andb_true_iff in H as [H H4]. apply andb_true_iff in H as [H L4].
  apply andb_true_iff in H as [L2 H2].
  exists Hlpb_V11. split; [reflexivity|]. cbn [fbody]. unfold hlpb_val, Hlpb_V11.
  rewrite !wt_record_cons, wt_record_nil.
  rewrite (wt_arr_map AimConstraint aim_val aim_ok) by (auto using aim_wt; lia).
  rewrite (wt_arr_map OrientConstraint orient_val orient_ok) by (auto using orient_wt; lia).
  rewrite (wt_arr_map u32 VInt u32_ok); [|apply wt_u32| |].
  2:{ pose proof (zlen_nonneg (hd_aims d)). pose proof (zlen_nonneg (hd_orients d)).
      unfold zlen at 1. rewrite app_length, !range32_length by lia. lia. }
  2:{ apply forallb_forall. intros x Hx. apply in_app_iff in Hx as [Hx|Hx]; now apply range32_ok in Hx. }
  cbn [wt]. unfold zlen at 1. rewrite app_length, !repeat_length. rewrite !andb_true_r.
  cbn [andb]. apply andb_true_intro. split.
  - unfold zlen in *. change two64 with (2 ^ 64). lia.
  - apply forallb_forall. intros x Hx. apply in_app_iff in Hx as [Hx|Hx]; apply repeat_spec in Hx; now subst x.
Qed.

Lemma aim_back a : aim_ok a = true -> un_aim (aim_val a) = Ok a.
Proof.
  unfold aim_ok. cbn [forallb]. intros H. sp H. repeat match goal with H : (_ && _) = true |- _ => apply andb_true_iff in H as [? ?] end.
  unfold aim_val, un_aim. rewrite !vec3_back, !vec4_back. cbn [bind]. rewrite !text_roundtrip by auto. now destruct a.
Qed.
Lemma orient_back a : orient_ok a = true -> un_orient (orient_val a) = Ok a.
Proof.
  unfold orient_ok. cbn [forallb]. intros H. sp H. repeat match goal with H : (_ && _) = true |- _ => apply andb_true_iff in H as [? ?] end.
  unfold orient_val, un_orient. rewrite !vec3_back, !vec4_back. cbn [bind]. rewrite !text_roundtrip by auto. now destruct a.
Qed.

Theorem hlpb_save_load d out : hlpb_ok d = true -> hlpb_data_write d = Ok out -> zlen out < 2 ^ 63 ->
  hlpb_data_read out = Ok (HD 1 1 (hd_aims d) (hd_orients d)).
Proof.
  intros W E L. unfold hlpb_data_write in E. pose proof (typed_roundtrip _ _ _ _ (hlpb_file_ok d W) E L) as T.
  unfold hlpb_data_read. rewrite T. cbn [bind]. unfold hlpb_val, un_hlpb.
  unfold hlpb_ok in W. apply andb_true_iff in W as [W H4]. apply andb_true_iff in W as [W L4].
  apply andb_true_iff in W as [L2 H2]. rewrite forallb_forall in *.
  rewrite !un_list_map by (auto using aim_back, orient_back). reflexivity.
Qed.
Theorem hlpb_write_total d : hlpb_ok d = true -> exists out, hlpb_data_write d = Ok out.
Proof. intros W. unfold modl_data_write, hlpb_data_write. apply typed_write_total. now apply hlpb_file_ok. Qed.

Lemma nth_error_repeat {A} (x : A) n i : (i < n)%nat -> nth_error (repeat x n) i = Some x.
Proof. revert i. induction n as [|n IH]; intros i H; [lia|]. destruct i; [reflexivity|]. cbn. apply IH. lia. Qed.

Theorem hlpb_lists d : hlpb_ok d = true -> exists indices types,
  hlpb_val d = VStruct [VArr (map aim_val (hd_aims d)); VArr (map orient_val (hd_orients d)); VArr indices; VArr types] /\
  length indices = (length (hd_aims d) + length (hd_orients d))%nat /\ length types = length indices /\
  (forall k, (k < length (hd_aims d))%nat ->
     nth_error indices k = Some (VInt (Z.of_nat k)) /\ nth_error types k = Some (VInt 0)) /\
  (forall k, (k < length (hd_orients d))%nat ->
     nth_error indices (length (hd_aims d) + k) = Some (VInt (Z.of_nat k)) /\
     nth_error types (length (hd_aims d) + k) = Some (VInt 1)).
Proof.
  intros W. unfold hlpb_ok in W. apply andb_true_iff in W as [W H4]. apply andb_true_iff in W as [W L4].
  apply andb_true_iff in W as [L2 H2]. clear H2 H4.
  pose proof (zlen_nonneg (hd_aims d)) as N1. pose proof (zlen_nonneg (hd_orients d)) as N2.
  assert (R1 : length (range32 (zlen (hd_aims d))) = length (hd_aims d))
    by (rewrite range32_length by lia; unfold zlen; lia).
  assert (R2 : length (range32 (zlen (hd_orients d))) = length (hd_orients d))
    by (rewrite range32_length by lia; unfold zlen; lia).
  eexists _, _. split; [reflexivity|]. rewrite map_length, !app_length, !repeat_length, R1, R2.
  split; [reflexivity|]. split; [reflexivity|]. split; intros k K.
  - rewrite map_app. rewrite !nth_error_app1 by (rewrite ?map_length, ?repeat_length; lia).
    rewrite nth_error_repeat by lia. rewrite nth_error_map. unfold range32. rewrite range_from_nth.
    + cbn [option_map]. split; [|reflexivity]. do 2 f_equal.
    + rewrite Z.mod_small by lia. unfold zlen. lia.
  - rewrite map_app. rewrite !nth_error_app2 by (rewrite ?map_length, ?repeat_length; lia).
    rewrite map_length, repeat_length, R1. replace (length (hd_aims d) + k - length (hd_aims d))%nat with k by lia.
    rewrite nth_error_repeat by lia. rewrite nth_error_map. unfold range32. rewrite range_from_nth.
    + cbn [option_map]. split; [|reflexivity]. do 2 f_equal.
    + rewrite Z.mod_small by lia. unfold zlen. lia.
Qed.

(** ** MeshEx *)
Lemma cstr_back s : text_ok s = true -> un_cstr_ptr (cstr_ptr s) = Ok s.
Proof.
  intros H. apply andb_true_iff in H as [U N]. unfold cstr_ptr, un_cstr_ptr, cstring_to_str.
  rewrite from_bytes_id by auto. now rewrite U.
Qed.
Lemma wt_cstr_ptr n s : bytes_ok s = true -> wt (TAbs 8 (TCStr n)) (cstr_ptr s) = true.
Proof.
  intros B. unfold cstr_ptr. cbn [wt]. unfold bytes_ok, is_byte in B.
  induction s as [|x s IH]; [reflexivity|]. cbn [forallb cstring_from_bytes] in *.
  apply andb_true_iff in B as [B1 B2]. destruct (Z.eqb_spec x 0); [reflexivity|]. cbn [forallb]. rewrite IH by auto. lia.
Qed.
Lemma text_bytes s : text_ok s = true -> bytes_ok s = true.
Proof. intros H. apply andb_true_iff in H as [U _]. eapply utf8_bytes; [apply Nat.le_refl|auto]. Qed.
Lemma wt_sphere s : sphere_ok s = true -> wt BoundingSphere (sphere_val s) = true.
Proof.
  unfold sphere_ok, sphere_val, BoundingSphere. intros H. apply andb_true_iff in H as [H1 H2].
  now rewrite !wt_record_cons, wt_record_nil, wt_vec3, wt_f32.
Qed.

Lemma entries_length gs : forall i, length (entries_from i gs) = length (flat_map mg_flags gs).
Proof.
  induction gs as [|g gs IH]; intros i; [reflexivity|]. cbn [entries_from flat_map].
  now rewrite !app_length, map_length, IH.
Qed.
Lemma flags_length gs : length (flat_map (fun g => map flag_val (mg_flags g)) gs) = length (flat_map mg_flags gs).
Proof. induction gs as [|g gs IH]; [reflexivity|]. cbn [flat_map]. now rewrite !app_length, map_length, IH. Qed.
Lemma entries_wt gs : forall i, forallb (wt MeshEntry) (entries_from i gs) = true.
Proof.
  induction gs as [|g gs IH]; intros i; [reflexivity|]. cbn [entries_from]. rewrite forallb_app, IH, andb_true_r.
  apply forallb_forall. intros x Hx. apply in_map_iff in Hx as (f & <- & _). unfold MeshEntry, mesh_entry.
  unfold aligned. rewrite wt_struct. cbn [map wt_fields fst].
  replace (wt u32 (VInt (i mod 2 ^ 32))) with true; [reflexivity|]. cbn [wt u32]. lia.
Qed.
Lemma flags_wt gs : forallb (wt EntryFlag) (flat_map (fun g => map flag_val (mg_flags g)) gs) = true.
Proof.
  induction gs as [|g gs IH]; [reflexivity|]. cbn [flat_map]. rewrite forallb_app, IH, andb_true_r.
  apply forallb_forall. intros x Hx. apply in_map_iff in Hx as (f & <- & _). destruct f as [[] []]; reflexivity.
Qed.

Lemma wt_vec_ptr t l : forallb (wt t) l = true -> wt (TAbs 8 (TVec (zlen l) t)) (vec_ptr (Some l)) = true.
Proof. intros H. unfold vec_ptr. cbn [option_map wt]. now rewrite Z.eqb_refl, H. Qed.

Lemma wt_flags_ptr l : forallb (wt EntryFlag) l = true -> wt (flags_ty (zlen l)) (flags_ptr (Some l)) = true.
Proof.
  intros H. unfold flags_ty, EntryFlags, flags_ptr, aligned. cbn [option_map wt map]. now rewrite Z.eqb_refl, H.
Qed.

Lemma meshex_of_ok all gs : sphere_ok all = true -> groups_ok gs = true -> meshex_ok (meshex_of all gs) = true.
Proof.
  intros A G. unfold groups_ok in G. apply andb_true_iff in G as [G _]. apply andb_true_iff in G as [G _].
  unfold meshex_ok, meshex_of. cbn [mx_all mx_groups mx_entries mx_flags mx_unk1 opt_len].
  unfold groups_ty, entries_ty. rewrite (wt_vec_ptr MeshEntry) by apply entries_wt. rewrite wt_flags_ptr by apply flags_wt.
  rewrite (wt_vec_ptr MeshObjectGroup).
  - rewrite !andb_true_r. unfold AllData, aligned. change (wt (TAbs 8 ?t) (VPtr (Some ?v))) with (wt t v).
    rewrite wt_struct. cbn [map wt_fields fst]. now rewrite wt_sphere, wt_cstr_ptr.
  - rewrite forallb_forall in *. intros x Hx. apply in_map_iff in Hx as (g & <- & Hg). specialize (G g Hg).
    unfold mesh_group_ok in G. apply andb_true_iff in G as [G G3]. apply andb_true_iff in G as [G1 G2].
    unfold MeshObjectGroup, group_value, aligned. rewrite wt_struct. cbn [map wt_fields fst].
    now rewrite wt_sphere, !wt_cstr_ptr by auto using text_bytes.
Qed.

(** The flags of one group among entries and flags side by side *)
Lemma un_flag_in t : wt EntryFlag t = true -> un_flag t = Ok (flags_in t).
Proof. destruct t; try discriminate 1. reflexivity. Qed.

Lemma skipn_cons {A} (l : list A) k x : nth_error l k = Some x -> skipn k l = x :: skipn (S k) l.
Proof. revert l. induction k as [|k IH]; intros [|y l] H; try discriminate H; [now injection H as ->|]. cbn [skipn]. now apply IH. Qed.
Lemma skipn_none {A} (l : list A) k : nth_error l k = None -> skipn k l = [].
Proof. intros H. apply nth_error_None in H. now apply skipn_all2. Qed.

Lemma combine_nil_r {A B} (l : list A) : combine l (@nil B) = [].
Proof. now destruct l. Qed.

Lemma entry_shape e : wt MeshEntry e = true -> exists g v, e = VStruct [VInt g; v].
Proof.
  unfold MeshEntry, aligned. destruct e; try discriminate 1. rewrite wt_struct. cbn [map wt_fields fst].
  destruct vs as [|a [|v [|? ?]]]; rewrite ?andb_false_r; try discriminate 1. destruct a; try discriminate 1. eauto.
Qed.

Lemma flags_group i fs : forallb (wt EntryFlag) fs = true -> forall es k, forallb (wt MeshEntry) es = true ->
  flags_of_group i es k (Some fs) =
  Ok (map (fun ef => flags_in (snd ef)) (filter (fun ef => in_group i (fst ef)) (combine es (skipn k fs)))).
Proof.
  intros F. induction es as [|e es IH]; intros k W; [reflexivity|].
  cbn [forallb] in W. apply andb_true_iff in W as [W1 W2]. apply entry_shape in W1 as (g & v & ->).
  cbn [flags_of_group]. rewrite (IH (S k)) by auto. cbn [bind].
  destruct (nth_error fs k) as [f|] eqn:N.
  - rewrite (skipn_cons _ _ _ N). cbn [combine filter fst in_group].
    rewrite un_flag_in by (rewrite forallb_forall in F; apply F; eapply nth_error_In; eauto). cbn [bind].
    now destruct (g =? i).
  - rewrite (skipn_none _ _ N). rewrite (skipn_all2 fs) by (apply nth_error_None in N; lia).
    rewrite !combine_nil_r. cbn [filter map]. now destruct (g =? i).
Qed.
Lemma flags_group_none i : forall es k, forallb (wt MeshEntry) es = true -> flags_of_group i es k None = Ok [].
Proof.
  induction es as [|e es IH]; intros k W; [reflexivity|]. cbn [forallb] in W. apply andb_true_iff in W as [W1 W2].
  apply entry_shape in W1 as (g & v & ->).
  cbn [flags_of_group]. rewrite (IH (S k)) by auto. cbn [bind]. now destruct (g =? i).
Qed.

Lemma meshex_parts x : meshex_ok x = true ->
  forallb (wt MeshObjectGroup) (or_empty (mx_groups x)) = true /\
  forallb (wt MeshEntry) (or_empty (mx_entries x)) = true /\ forallb (wt EntryFlag) (or_empty (mx_flags x)) = true.
Proof.
  unfold meshex_ok. intros H. apply andb_true_iff in H as [H _]. apply andb_true_iff in H as [H H3].
  apply andb_true_iff in H as [H H2]. apply andb_true_iff in H as [_ H1].
  destruct x as [a g e f u]. cbn [mx_groups mx_entries mx_flags] in *.
  unfold groups_ty, entries_ty, flags_ty, EntryFlags, aligned, vec_ptr, flags_ptr in *.
  split; [|split].
  - destruct g as [g|]; [|reflexivity]. cbn [option_map wt] in H1. now apply andb_true_iff in H1 as [_ H1].
  - destruct e as [e|]; [|reflexivity]. cbn [option_map wt] in H2. now apply andb_true_iff in H2 as [_ H2].
  - destruct f as [f|]; [|reflexivity]. cbn [option_map wt map] in H3. apply andb_true_iff in H3 as [H3 _].
    now apply andb_true_iff in H3 as [_ H3].
Qed.

Lemma flags_any x i : meshex_ok x = true ->
  flags_of_group i (or_empty (mx_entries x)) 0 (mx_flags x) =
  Ok (group_flags i (or_empty (mx_entries x)) (or_empty (mx_flags x))).
Proof.
  intros H. destruct (meshex_parts x H) as (_ & We & Wf). unfold group_flags. destruct (mx_flags x) as [fs|].
  - rewrite flags_group by auto. reflexivity.
  - rewrite flags_group_none by auto. cbn [or_empty]. now rewrite combine_nil_r.
Qed.

Lemma group_shape g : wt MeshObjectGroup g = true -> exists s f n, g = VStruct [s; f; n] /\
  wt BoundingSphere s = true /\ wt (TAbs 8 (TCStr 4)) f = true /\ wt (TAbs 8 (TCStr 4)) n = true.
Proof.
  unfold MeshObjectGroup, aligned. destruct g; try discriminate 1. rewrite wt_struct. cbn [map wt_fields fst].
  destruct vs as [|s [|f [|n [|? ?]]]]; rewrite ?andb_false_r; try discriminate 1. intros H.
  apply andb_true_iff in H as [H1 H]. apply andb_true_iff in H as [H2 H]. apply andb_true_iff in H as [H3 _]. eauto 10.
Qed.
Lemma int_shape w v : wt (TInt w) v = true -> exists n, v = VInt n.
Proof. destruct v; try discriminate 1. eauto. Qed.
Lemma vec3_shape v : wt Vector3 v = true -> exists x, v = vec3_val x.
Proof.
  unfold Vector3, record. destruct v; try discriminate 1. rewrite wt_struct. cbn [map wt_fields fst].
  destruct vs as [|a [|b [|c [|? ?]]]]; rewrite ?andb_false_r; try discriminate 1. intros H.
  apply andb_true_iff in H as [H1 H]. apply andb_true_iff in H as [H2 H]. apply andb_true_iff in H as [H3 _].
  apply int_shape in H1 as [x ->]. apply int_shape in H2 as [y ->]. apply int_shape in H3 as [z ->].
  now exists (V3 x y z).
Qed.
Lemma sphere_shape v : wt BoundingSphere v = true -> exists s, v = sphere_val s.
Proof.
  unfold BoundingSphere, record. destruct v; try discriminate 1. rewrite wt_struct. cbn [map wt_fields fst].
  destruct vs as [|a [|b [|? ?]]]; rewrite ?andb_false_r; try discriminate 1. intros H.
  apply andb_true_iff in H as [H1 H]. apply andb_true_iff in H as [H2 _].
  apply vec3_shape in H1 as [x ->]. apply int_shape in H2 as [y ->]. now exists (Sph x y).
Qed.
Lemma sphere_back s : un_sphere (sphere_val s) = Ok s.
Proof. destruct s as [[] r]. reflexivity. Qed.
Lemma cstr_ptr_shape n v : wt (TAbs 8 (TCStr n)) v = true -> exists s, un_cstr_ptr v = Ok s.
Proof.
  destruct v as [| | | |o|]; try discriminate 1. destruct o as [v|]; cbn [wt]; [|intros _; now exists []].
  destruct v; try discriminate 1. cbn [un_cstr_ptr]. eauto.
Qed.

Lemma un_groups_any x : meshex_ok x = true -> forall gs i, forallb (wt MeshObjectGroup) gs = true ->
  exists out, un_groups x i gs = Ok out /\
  Forall2 (fun v g => exists f n, v = VStruct [sphere_val (mg_sphere g); f; n] /\
             un_cstr_ptr f = Ok (mg_full g) /\ un_cstr_ptr n = Ok (mg_name g)) gs out /\
  (forall k g, nth_error out k = Some g ->
     mg_flags g = group_flags (i + Z.of_nat k) (or_empty (mx_entries x)) (or_empty (mx_flags x))).
Proof.
  intros X. induction gs as [|g gs IH]; intros i W.
  - exists []. split; [reflexivity|]. split; [constructor|]. intros [|k] g H; discriminate H.
  - cbn [forallb] in W. apply andb_true_iff in W as [W1 W2]. apply group_shape in W1 as (s & f & n & -> & Ws & Wf & Wn).
    apply sphere_shape in Ws as [s' ->]. apply cstr_ptr_shape in Wf as [f' Wf]. apply cstr_ptr_shape in Wn as [n' Wn].
    destruct (IH (i + 1) W2) as (out & E & F & N). cbn [un_groups]. rewrite sphere_back, Wf, Wn, flags_any, E by auto.
    cbn [bind]. eexists. split; [reflexivity|]. split.
    + constructor; [|exact F]. cbn [mg_sphere mg_full mg_name]. eauto.
    + intros [|k] g H.
      * injection H as <-. cbn [mg_flags]. do 2 f_equal. lia.
      * cbn [nth_error] in H. rewrite (N k g H). f_equal. lia.
Qed.

Theorem meshex_data_of_any x : meshex_ok x = true ->
  exists gs, un_meshex x = Ok gs /\
  Forall2 (fun v g => exists f n, v = VStruct [sphere_val (mg_sphere g); f; n] /\
             un_cstr_ptr f = Ok (mg_full g) /\ un_cstr_ptr n = Ok (mg_name g)) (or_empty (mx_groups x)) gs /\
  (forall i g, nth_error gs i = Some g ->
     mg_flags g = group_flags (Z.of_nat i) (or_empty (mx_entries x)) (or_empty (mx_flags x))).
Proof. intros X. apply (un_groups_any x X _ 0). now apply meshex_parts. Qed.

(** Data saved by us: the flags of group [i] *)
Lemma combine_app {A B} (a a' : list A) (b b' : list B) : length a = length b ->
  combine (a ++ a') (b ++ b') = combine a b ++ combine a' b'.
Proof.
  revert b. induction a as [|x a IH]; intros [|y b] H; try discriminate H; [reflexivity|]. cbn [app combine].
  rewrite IH; [reflexivity|]. now injection H.
Qed.
Lemma flag_back e : flags_in (flag_val e) = e.
Proof. now destruct e as [[] []]. Qed.

Lemma group_flags_app i a a' b b' : length a = length b ->
  group_flags i (a ++ a') (b ++ b') = group_flags i a b ++ group_flags i a' b'.
Proof. intros H. unfold group_flags. now rewrite combine_app, filter_app, map_app by auto. Qed.

Lemma group_flags_same i fl : i mod 2 ^ 32 = i ->
  group_flags i (map (fun _ : entry_flags => mesh_entry i) fl) (map flag_val fl) = fl.
Proof.
  intros I. unfold group_flags. induction fl as [|f fl IH]; [reflexivity|]. cbn [map combine filter fst].
  unfold mesh_entry at 1. cbn [in_group]. rewrite I, Z.eqb_refl. cbn [map snd]. now rewrite flag_back, IH.
Qed.
Lemma group_flags_other i j fl : j mod 2 ^ 32 <> i ->
  group_flags i (map (fun _ : entry_flags => mesh_entry j) fl) (map flag_val fl) = [].
Proof.
  intros I. unfold group_flags. induction fl as [|f fl IH]; [reflexivity|]. cbn [map combine filter fst].
  unfold mesh_entry at 1. cbn [in_group]. destruct (Z.eqb_spec (j mod 2 ^ 32) i); [contradiction|]. exact IH.
Qed.
Lemma group_flags_from gs : forall j k, 0 <= j -> j + zlen gs < 2 ^ 32 -> 0 <= k ->
  group_flags k (entries_from j gs) (flat_map (fun g => map flag_val (mg_flags g)) gs) =
  if k <? j then [] else match nth_error gs (Z.to_nat (k - j)) with Some g => mg_flags g | None => [] end.
Proof.
  induction gs as [|g gs IH]; intros j k J L K.
  - cbn [entries_from flat_map]. unfold group_flags. cbn [combine filter map]. destruct (k <? j); [reflexivity|].
    now destruct (Z.to_nat (k - j)).
  - rewrite zlen_cons in L. pose proof (zlen_nonneg gs). cbn [entries_from flat_map].
    rewrite group_flags_app by now rewrite !map_length. rewrite IH by lia.
    destruct (Z.eq_dec k j) as [->|N].
    + rewrite group_flags_same by (apply Z.mod_small; lia). replace (j <? j + 1) with true by lia.
      rewrite app_nil_r. replace (j <? j) with false by lia. now replace (Z.to_nat (j - j)) with O by lia.
    + rewrite group_flags_other by (rewrite Z.mod_small by lia; congruence). cbn [app].
      destruct (k <? j) eqn:C; [now replace (k <? j + 1) with true by lia|].
      replace (k <? j + 1) with false by lia.
      replace (Z.to_nat (k - j)) with (S (Z.to_nat (k - (j + 1)))) by lia. reflexivity.
Qed.

Lemma un_groups_back all all_gs : sphere_ok all = true -> groups_ok all_gs = true ->
  forall gs pre, all_gs = pre ++ gs -> un_groups (meshex_of all all_gs) (zlen pre) (map group_value gs) = Ok gs.
Proof.
  intros A G. pose proof (meshex_of_ok all all_gs A G) as X.
  unfold groups_ok in G. apply andb_true_iff in G as [G _]. apply andb_true_iff in G as [G L].
  induction gs as [|g gs IH]; intros pre E; [reflexivity|].
  assert (Gg : mesh_group_ok g = true).
  { rewrite forallb_forall in G. apply G. rewrite E. apply in_or_app. right. now left. }
  unfold mesh_group_ok in Gg. apply andb_true_iff in Gg as [Gg G3]. apply andb_true_iff in Gg as [G1 G2].
  cbn [map un_groups group_value]. rewrite sphere_back, !cstr_back, flags_any by auto. cbn [bind].
  specialize (IH (pre ++ [g])). rewrite <- app_assoc in IH. specialize (IH E).
  replace (zlen (pre ++ [g])) with (zlen pre + 1) in IH by (rewrite zlen_app; reflexivity). rewrite IH. cbn [bind].
  cbn [meshex_of mx_entries mx_flags or_empty].
  pose proof (zlen_nonneg pre). rewrite group_flags_from by lia.
  replace (zlen pre <? 0) with false by lia. replace (Z.to_nat (zlen pre - 0)) with (length pre) by (unfold zlen; lia).
  rewrite E, nth_error_app2 by lia. rewrite Nat.sub_diag. cbn [nth_error]. now destruct g.
Qed.

Theorem meshex_data_back all gs : sphere_ok all = true -> groups_ok gs = true -> un_meshex (meshex_of all gs) = Ok gs.
Proof.
  intros A G. unfold un_meshex. change (or_empty (mx_groups (meshex_of all gs))) with (map group_value gs).
  exact (un_groups_back all gs A G gs [] eq_refl).
Qed.

Lemma meshex_of_lens all gs : groups_ok gs = true ->
  opt_len (mx_groups (meshex_of all gs)) < 2 ^ 32 /\ opt_len (mx_entries (meshex_of all gs)) < 2 ^ 32 /\
  opt_len (mx_flags (meshex_of all gs)) < 2 ^ 32 /\
  opt_len (mx_entries (meshex_of all gs)) = opt_len (mx_flags (meshex_of all gs)).
Proof.
  intros G. unfold groups_ok in G. apply andb_true_iff in G as [G L2]. apply andb_true_iff in G as [_ L1].
  cbn [meshex_of mx_groups mx_entries mx_flags opt_len]. unfold zlen in *.
  rewrite map_length, entries_length, flags_length. lia.
Qed.

Theorem meshex_save_load all gs out : sphere_ok all = true -> groups_ok gs = true ->
  meshex_data_write all gs = Ok out -> zlen out < 2 ^ 63 -> meshex_data_read out = Ok gs.
Proof.
  intros A G E L. unfold meshex_data_write in E. destruct (meshex_of_lens all gs G) as (L1 & L2 & L3 & _).
  pose proof (meshex_roundtrip _ _ (meshex_of_ok all gs A G) L1 L2 L3 E L) as (R & _).
  unfold meshex_data_read. rewrite R. cbn [bind]. now apply meshex_data_back.
Qed.
Theorem meshex_data_total all gs : sphere_ok all = true -> groups_ok gs = true ->
  (exists out, meshex_data_write all gs = Ok out) \/ meshex_data_write all gs = Err EPtrRange.
Proof.
  intros A G. unfold meshex_data_write. destruct (meshex_of_lens all gs G) as (L1 & L2 & L3 & L4).
  apply (meshex_errors _ (meshex_of_ok all gs A G) L1 L2 L3). exact L4.
Qed.

(** ** Grouping of mesh objects *)
Lemma text_eqb_spec a b : text_eqb a b = true <-> a = b.
Proof. unfold text_eqb. destruct (list_eq_dec Z.eq_dec a b); split; congruence. Qed.

Lemma group_by_flat {A} (l : list (text * A)) :
  flat_map (fun g => map (pair (fst g)) (snd g)) (group_by_name l) = l.
Proof.
  induction l as [|[n a] l IH]; [reflexivity|]. cbn [group_by_name]. destruct (group_by_name l) as [|[m g] rest].
  - cbn in *. now rewrite <- IH.
  - destruct (text_eqb n m) eqn:E.
    + apply text_eqb_spec in E. subst m. cbn [flat_map map fst snd app] in *. now rewrite IH.
    + cbn [flat_map map fst snd app] in *. now rewrite IH.
Qed.
Lemma group_by_nonempty {A} (l : list (text * A)) : Forall (fun g => snd g <> []) (group_by_name l).
Proof.
  induction l as [|[n a] l IH]; [constructor|]. cbn [group_by_name]. destruct (group_by_name l) as [|[m g] rest].
  - repeat constructor. discriminate.
  - inversion IH; subst. destruct (text_eqb n m); repeat constructor; auto; discriminate.
Qed.
Lemma group_by_adjacent {A} (l : list (text * A)) i a b :
  nth_error (group_by_name l) i = Some a -> nth_error (group_by_name l) (S i) = Some b -> fst a <> fst b.
Proof.
  revert i a b. induction l as [|[n x] l IH]; intros i a b Ha Hb; [destruct i; discriminate Ha|].
  cbn [group_by_name] in *. destruct (group_by_name l) as [|[m g] rest].
  - destruct i; discriminate Hb.
  - destruct (text_eqb n m) eqn:E.
    + destruct i as [|i]; [|now apply (IH (S i))]. cbn [nth_error] in *. injection Ha as <-. cbn [fst].
      exact (IH O (m, g) b eq_refl Hb).
    + destruct i as [|i]; [|now apply (IH i)]. cbn [nth_error] in *. injection Ha as <-. injection Hb as <-. cbn [fst].
      intros ->. rewrite (proj2 (text_eqb_spec m m) eq_refl) in E. discriminate E.
Qed.

(** ** Name tags *)
Lemma starts_with_spec pat : forall s, starts_with pat s = true <-> exists b, s = pat ++ b.
Proof.
  induction pat as [|p pat IH]; intros s; cbn [starts_with].
  - split; [intros _; now exists s|auto].
  - destruct s as [|c s].
    + split; [discriminate|intros [b H]; discriminate H].
    + rewrite andb_true_iff, IH. split.
      * intros [E [b ->]]. exists b. cbn [app]. f_equal. lia.
      * intros [b H]. injection H as -> ->. split; [lia|eauto].
Qed.

Lemma find_text_spec pat s : pat <> [] ->
  match find_text pat s with
  | Some k => (exists b, s = firstn k s ++ pat ++ b) /\ (k <= length s)%nat /\
              forall a b, s = a ++ pat ++ b -> (k <= length a)%nat
  | None => forall a b, s <> a ++ pat ++ b
  end.
Proof.
  intros P. induction s as [|c s IH]; cbn [find_text].
  - destruct (starts_with pat []) eqn:E.
    + apply starts_with_spec in E as [b E]. destruct pat; [contradiction|discriminate E].
    + intros a b H. destruct a; [|discriminate H]. destruct pat; [contradiction|discriminate H].
  - destruct (starts_with pat (c :: s)) eqn:E.
    + apply starts_with_spec in E as [b E]. split; [now exists b|]. split; [lia|]. intros. lia.
    + assert (N : forall a b, c :: s = a ++ pat ++ b -> exists a', a = c :: a' /\ s = a' ++ pat ++ b).
      { intros a b H. destruct a as [|x a].
        - assert (starts_with pat (c :: s) = true) by (apply starts_with_spec; exists b; exact H). congruence.
        - injection H as <- H. eauto. }
      destruct (find_text pat s) as [k|]; cbn [option_map].
      * destruct IH as ((b & Eb) & Lk & M). split; [exists b; cbn [firstn app]; now rewrite <- Eb|].
        split; [cbn [length]; lia|]. intros a b' H. apply N in H as (a' & -> & H). apply M in H. cbn [length]. lia.
      * intros a b H. apply N in H as (a' & -> & H). exact (IH a' b H).
Qed.

Lemma ends_with_spec pat s : ends_with pat s = true <-> exists a, s = a ++ pat.
Proof.
  unfold ends_with. rewrite starts_with_spec. split; intros [b H].
  - exists (rev b). rewrite <- (rev_involutive s), H, rev_app_distr, rev_involutive. reflexivity.
  - exists (rev b). rewrite H, rev_app_distr. reflexivity.
Qed.

Lemma firstn_split {A} (a b : list A) k : (k <= length a)%nat -> firstn k (a ++ b) = firstn k a.
Proof. intros H. rewrite firstn_app. replace (k - length a)%nat with O by lia. cbn [firstn]. now rewrite app_nil_r. Qed.

Theorem strip_tags s : exists rest,
  s = strip_mesh_name_tags s ++ rest /\
  ~ occurs tag_vis (strip_mesh_name_tags s) /\ ~ occurs tag_o (strip_mesh_name_tags s) /\
  (occurs tag_vis s \/ occurs tag_o s -> (exists r, rest = tag_vis ++ r) \/ (exists r, rest = tag_o ++ r)) /\
  (~ occurs tag_vis s -> ~ occurs tag_o s -> rest = tag_shape \/ (rest = [] /\ forall a, s <> a ++ tag_shape)).
Proof.
  pose proof (find_text_spec tag_vis s ltac:(discriminate)) as V.
  pose proof (find_text_spec tag_o s ltac:(discriminate)) as O'.
  assert (Cut : forall pat k, pat <> [] -> (k <= length s)%nat ->
            (forall a b, s = a ++ pat ++ b -> (k <= length a)%nat) -> ~ occurs pat (firstn k s)).
  { intros pat k P L M (a & b & H). 
    assert (E : s = a ++ pat ++ (b ++ skipn k s)) by (rewrite <- (firstn_skipn k s) at 1; rewrite H; now rewrite <- !app_assoc).
    apply M in E. apply (f_equal (@length Z)) in H. rewrite !app_length, firstn_length in H.
    destruct pat; [contradiction|]. cbn [length] in H. lia. }
  assert (Cut' : forall pat k, ~ occurs pat s -> ~ occurs pat (firstn k s)).
  { intros pat k N (a & b & H). apply N. exists a, (b ++ skipn k s).
    rewrite <- (firstn_skipn k s) at 1. rewrite H. now rewrite <- !app_assoc. }
  assert (Nocc : forall pat, (forall a b, s <> a ++ pat ++ b) -> ~ occurs pat s).
  { intros pat H (a & b & E). exact (H a b E). }
  assert (Rest : forall pat k b, s = firstn k s ++ pat ++ b -> skipn k s = pat ++ b).
  { intros pat k b H. apply (app_inv_head (firstn k s)). now rewrite firstn_skipn. }
  unfold strip_mesh_name_tags.
  destruct (find_text tag_vis s) as [v|], (find_text tag_o s) as [o|]; cbv zeta beta iota.
  - destruct V as ((bv & Ev) & Lv & Mv). destruct O' as ((bo & Eo) & Lo & Mo).
    exists (skipn (Nat.min v o) s). split; [now rewrite firstn_skipn|].
    split; [apply Cut; [discriminate|lia|]; intros a b H; apply Mv in H; lia|].
    split; [apply Cut; [discriminate|lia|]; intros a b H; apply Mo in H; lia|].
    split.
    + intros _. destruct (Nat.min_spec v o) as [[_ ->]|[_ ->]]; [left; exists bv|right; exists bo]; eauto.
    + intros N _. exfalso. apply N. now exists (firstn v s), bv.
  - destruct V as ((bv & Ev) & Lv & Mv). rewrite (Nat.min_l v) by lia.
    exists (skipn v s). split; [now rewrite firstn_skipn|].
    split; [apply Cut; [discriminate|lia|auto]|]. split; [apply Cut', Nocc, O'|].
    split; [intros _; left; exists bv; auto|]. intros N _. exfalso. apply N. now exists (firstn v s), bv.
  - destruct O' as ((bo & Eo) & Lo & Mo). rewrite (Nat.min_r _ o) by lia.
    exists (skipn o s). split; [now rewrite firstn_skipn|].
    split; [apply Cut', Nocc, V|]. split; [apply Cut; [discriminate|lia|auto]|].
    split; [intros _; right; exists bo; auto|]. intros _ N. exfalso. apply N. now exists (firstn o s), bo.
  - apply Nocc in V. apply Nocc in O'. destruct (ends_with tag_shape s) eqn:E.
    + apply ends_with_spec in E as [a E]. 
      assert (F : firstn (length s - length tag_shape) s = a).
      { rewrite E at 2. rewrite firstn_split; rewrite E, app_length; [|lia].
        rewrite firstn_all2; [reflexivity|lia]. }
      rewrite F. exists tag_shape. split; [auto|]. rewrite <- F. split; [auto|]. split; [auto|].
      split; [intros [H|H]; contradiction|]. auto.
    + exists []. rewrite app_nil_r. split; [reflexivity|]. split; [auto|]. split; [auto|].
      split; [intros [H|H]; contradiction|]. intros _ _. right. split; [reflexivity|]. intros a H.
      assert (ends_with tag_shape s = true) by (apply ends_with_spec; eauto). congruence.
Qed.

Theorem from_mesh_objects_runs (A : Type) (bounds : list A -> sphere) (objects : list (text * A)) :
  exists runs : list (text * list A),
    flat_map (fun r => map (pair (fst r)) (snd r)) runs = objects /\
    Forall (fun r => snd r <> []) runs /\
    (forall i a b, nth_error runs i = Some a -> nth_error runs (S i) = Some b -> fst a <> fst b) /\
    Forall2 (fun r g => mg_sphere g = bounds (snd r) /\ mg_full g = fst r /\
                        mg_name g = strip_mesh_name_tags (fst r) /\ mg_flags g = repeat (EF true true) (length (snd r)))
      runs (from_mesh_objects bounds objects).
Proof.
  exists (group_by_name objects). split; [apply group_by_flat|]. split; [apply group_by_nonempty|].
  split; [apply group_by_adjacent|]. unfold from_mesh_objects. induction (group_by_name objects) as [|r l IH]; constructor; [|exact IH].
  cbn [mg_sphere mg_full mg_name mg_flags]. repeat split. induction (snd r) as [|x l' IH']; [reflexivity|].
  cbn [map length repeat]. now rewrite IH'.
Qed.
