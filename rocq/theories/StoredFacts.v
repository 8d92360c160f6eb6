(** What the saved files of skeletons, materials and meshes contain. *)
From Coq Require Import Lia ZifyBool ZifyNat ZifyN.
From Verif Require Import Bytes BytesFacts Ssbh Formats File Strings SsbhFacts SsbhLemmas AnimComp AnimBuf AnimSpec SmallData DataSpec
  SkelData SkelSpec SkelFacts MatlData MatlSpec MatlFacts VecData MeshData MeshSpec MeshFacts RigFacts MeshLemmas StoredSpec.
From Verif Require Import AnimDataFacts SmallDataFacts.
Ltac Zify.zify_post_hook ::= ZifyBool.elim_bool_cstr; Z.to_euclidean_division_equations.
#[local] Strategy opaque [typed_write typed_read].

(** ** Skeletons *)
Lemma bone_entries_nth : forall bs k i b, nth_error bs i = Some b ->
  nth_error (bone_entries k bs) i = Some (bone_entry (k + Z.of_nat i) b).
Proof.
  induction bs as [|c bs IH]; intros k [|i] b H; try discriminate H; cbn [nth_error bone_entries] in *.
  - injection H as ->. do 2 f_equal. lia.
  - rewrite (IH (k + 1) i b H). do 2 f_equal. lia.
Qed.
Lemma forall2_nth {A B} (P : A -> B -> Prop) l m : Forall2 P l m -> forall i a, nth_error l i = Some a -> exists b, nth_error m i = Some b /\ P a b.
Proof.
  induction 1 as [|x y l m H F IH]; intros [|i] a E; try discriminate E; cbn [nth_error] in *; [injection E as <-; eauto|auto].
Qed.
Theorem skel_file mul inv :
  (forall a c, mat_ok (mul a c) = true) -> (forall a, mat_ok (inv a) = true) ->
  forall bones out, bones_ok bones = true -> skel_data_write mul inv bones = Ok out -> zlen out < 2 ^ 63 ->
  exists es ws iws ts its,
  typed_read Skel out = Ok ((1, 0), VStruct [VArr es; VArr ws; VArr iws; VArr ts; VArr its]) /\ length es = length bones /\
  forall i b, nth_error bones i = Some b -> exists e l,
    nth_error es i = Some e /\ bone_stored i b e /\ ancestors bones b l /\
    nth_error ws i = Some (mat_val (product mul b l)) /\ nth_error iws i = Some (mat_val (inv (product mul b l))) /\
    nth_error ts i = Some (mat_val (bn_transform b)) /\ nth_error its i = Some (mat_val (inv (bn_transform b))).
Proof.
  intros Hm Hi bones out W E L. unfold skel_data_write in E. destruct (skel_val mul inv bones) as [v| |] eqn:V; try discriminate E.
  cbn [bind] in E. destruct (skel_val_ok mul inv Hm Hi bones v W V) as [F _]. pose proof (typed_roundtrip _ _ _ _ F E L) as T.
  destruct (skel_worlds mul inv bones v (bones_parents _ W) V) as (ws & -> & Hw). do 5 eexists. split; [exact T|]. split.
  - clear. generalize 0. induction bones as [|b r IH]; intros k; [reflexivity|]. cbn [bone_entries length]. now rewrite IH.
  - intros i b Hb. destruct (forall2_nth _ _ _ Hw i b Hb) as (w & Ew & l & Hl & ->). exists (bone_entry (0 + Z.of_nat i) b), l.
    split; [now apply bone_entries_nth|]. split; [|repeat split; auto; rewrite nth_error_map; rewrite ?Ew, ?Hb; reflexivity].
    do 2 eexists. split; [reflexivity|]. assert (K : bone_ok b = true).
    { unfold bones_ok in W. repeat (apply andb_true_iff in W as [W ?]). apply nth_error_In in Hb.
      match goal with H : forallb bone_ok bones = true |- _ => rewrite forallb_forall in H; auto end. }
    unfold bone_ok in K. apply andb_true_iff in K as [K _]. apply andb_true_iff in K as [K P]. apply andb_true_iff in K as [K _].
    split; [now apply text_roundtrip|]. destruct (bn_parent b); [|reflexivity]. apply Z.mod_small. lia.
Qed.

(** ** Materials *)
Lemma of_type_app t a b : of_type t (a ++ b) = of_type t a ++ of_type t b.
Proof. apply flat_map_app. Qed.
Lemma of_type_same {A} t (f : A -> val) ps : of_type t (map (MatlData.attribute t f) ps) = map (fun p => (pr_id p, f (pr_data p))) ps.
Proof. induction ps as [|p ps IH]; [reflexivity|]. unfold of_type in *. cbn [map flat_map MatlData.attribute]. rewrite Z.eqb_refl, IH. reflexivity. Qed.
Lemma of_type_other {A} t u (f : A -> val) ps : (u =? t) = false -> of_type t (map (MatlData.attribute u f) ps) = [].
Proof. intros H. induction ps as [|p ps IH]; [reflexivity|]. unfold of_type in *. cbn [map flat_map MatlData.attribute]. now rewrite H, IH. Qed.
Lemma stored_map {A} (P : A -> val -> Prop) (f : A -> val) (ps : list (param A)) : (forall a, P a (f a)) ->
  stored_params P ps (map (fun p => (pr_id p, f (pr_data p))) ps).
Proof. intros H. induction ps as [|p ps IH]; cbn [map]; constructor; [split; [reflexivity|apply H]|exact IH]. Qed.
Lemma types_map {A} t (f : A -> val) (ps : list (param A)) : map attribute_type (map (MatlData.attribute t f) ps) = repeat t (length ps).
Proof. induction ps as [|p ps IH]; [reflexivity|]. cbn [map length repeat]. now rewrite IH. Qed.
Lemma blend_stored_val b : blend_stored b (blend16_val b).
Proof. repeat eexists. Qed.
Lemma raster_stored_val r : raster_stored r (raster16_val r).
Proof. repeat eexists. Qed.
Lemma sampler_stored_val s : sampler_stored s (sampler_val s).
Proof.
  unfold sampler_stored, sampler_val. do 8 eexists. split; [reflexivity|]. destruct (Z.eqb_spec (sm_aniso s) 1); split; congruence.
Qed.
Lemma entry_stored_val e : matl_entry_ok e = true -> entry_stored e (entry16_val e).
Proof.
  intros K. unfold entry16_val, entry_stored. do 3 eexists. split; [reflexivity|]. unfold matl_entry_ok in K. do 9 apply andb_true_iff in K as [K _].
  apply andb_true_iff in K as [K1 K2].
  split; [now apply text_roundtrip|]. split; [now apply text_roundtrip|]. split; [now rewrite !map_app, !types_map|].
  rewrite !of_type_app, !of_type_same. rewrite !of_type_other by reflexivity. rewrite ?app_nil_r, ?app_nil_l.
  split; [|split]; apply stored_map; auto using blend_stored_val, raster_stored_val, sampler_stored_val.
Qed.
Theorem matl_file d out : matl_ok d = true -> matl_data_write d = Ok out -> zlen out < 2 ^ 63 ->
  exists es, typed_read Matl out = Ok ((1, 6), VStruct [VArr es]) /\ Forall2 entry_stored (mt_entries d) es.
Proof.
  intros W E L. unfold matl_data_write, matl_val in E.
  destruct ((mt_major d =? 1) && (mt_minor d =? 6)) eqn:V; [|discriminate E]. cbn [bind] in E.
  pose proof (typed_roundtrip _ _ _ _ (matl_file_ok _ W) E L) as T. eexists. split; [exact T|].
  unfold matl_ok in W. apply andb_true_iff in W as [_ W]. rewrite forallb_forall in W. clear - W. revert W. induction (mt_entries d) as [|e es IH]; intros W; [constructor|].
  cbn [map]. constructor; [apply entry_stored_val, W; now left|]. apply IH. intros x Hx. apply W. now right.
Qed.

(** ** Meshes *)
Lemma forall2_impl {A B} (P Q : A -> B -> Prop) l m : (forall a b, P a b -> Q a b) -> Forall2 P l m -> Forall2 Q l m.
Proof. intros H. induction 1; constructor; auto. Qed.
Lemma get_attributes_in f u : forall l k i a, nth_error l i = Some a -> In (attr_name a, k + Z.of_nat i, u, f (attr_data a)) (get_attributes f u k l).
Proof.
  induction l as [|b l IH]; intros k [|i] a H; try discriminate H; cbn [nth_error get_attributes] in *.
  - injection H as ->. left. do 3 f_equal. lia.
  - right. specialize (IH (k + 1) i a H). replace (k + Z.of_nat (S i)) with (k + 1 + Z.of_nat i) by lia. exact IH.
Qed.
Lemma cba_in b : forall l off name i u e, In (name, i, u, e) l ->
  exists o, In (MkAttribute name i b u (enc_type e) o, e) (create_buffer_attributes b off l).
Proof.
  induction l as [|[[[n j] w] e'] l IH]; intros off name i u e H; [contradiction|]. cbn [create_buffer_attributes]. destruct H as [H|H].
  - injection H as -> -> -> ->. eexists. left. reflexivity.
  - destruct (IH (off + size_in_bytes (enc_type e')) name i u e H) as [o Ho]. exists o. now right.
Qed.
Lemma attributes_stored_val ver o : ver <> MV8 -> attributes_stored o
  (map (fun p => attribute_val ver (fst p)) (create_buffer_attributes 0 0 (buffer0_data ver o) ++ create_buffer_attributes 1 0 (buffer1_data ver o))).
Proof.
  intros V u l i a Hu Ha.
  assert (G : forall x b f n, In (attr_name a, 0 + Z.of_nat i, x, f (attr_data a)) n -> usage_number ver x = u ->
    calculate_attribute_name x (Z.of_nat i) (attr_name a) = ssbh_string (first_name u (Z.of_nat i) (attr_name a)) ->
    exists ty buffer offset, In (VStruct [VInt u; VInt ty; VInt buffer; VInt offset; VInt (Z.of_nat i);
                 ssbh_string (first_name u (Z.of_nat i) (attr_name a)); VArr [ssbh_string (attr_name a)]])
      (map (fun p => attribute_val ver (fst p)) (create_buffer_attributes b 0 n))).
  { intros x b f n H U N. destruct (cba_in b n 0 _ _ _ _ H) as [off Ho]. do 3 eexists. apply in_map_iff. eexists. split; [|exact Ho].
    cbn [fst]. unfold attribute_val. cbn [a_usage a_type a_buffer a_offset a_sub a_name]. change (0 + Z.of_nat i) with (Z.of_nat i). rewrite N, U.
    destruct ver; [contradiction V; reflexivity|reflexivity..]. }
  assert (I : forall x f, In (attr_name a, 0 + Z.of_nat i, x, f (attr_data a)) (get_attributes f x 0 l)) by (intros; now apply get_attributes_in).
  rewrite map_app. unfold usage_lists in Hu. repeat destruct Hu as [Hu|Hu]; try contradiction Hu; injection Hu as <- <-.
  - destruct (G Position 0 (from_positions ver) (buffer0_data ver o)) as (t & bu & off & H); [|destruct ver; reflexivity|reflexivity|exists t, bu, off; apply in_or_app; now left].
    unfold buffer0_data. rewrite !in_app_iff. auto.
  - destruct (G Normal 0 (from_vectors ver) (buffer0_data ver o)) as (t & bu & off & H); [|destruct ver; reflexivity|reflexivity|exists t, bu, off; apply in_or_app; now left].
    unfold buffer0_data. rewrite !in_app_iff. auto.
  - destruct (G Binormal 0 (from_vectors ver) (buffer0_data ver o)) as (t & bu & off & H); [| | |exists t, bu, off; apply in_or_app; now left].
    + unfold buffer0_data. rewrite !in_app_iff. right. right. left. destruct ver; [contradiction V; reflexivity|auto..].
    + destruct ver; [contradiction V; reflexivity|reflexivity..].
    + unfold calculate_attribute_name, first_name. cbn [Z.eqb Pos.eqb andb]. destruct (Z.of_nat i =? 0); [reflexivity|]. destruct (Z.of_nat i =? 1); reflexivity.
  - destruct (G Tangent 0 (from_vectors ver) (buffer0_data ver o)) as (t & bu & off & H); [|destruct ver; reflexivity| |exists t, bu, off; apply in_or_app; now left].
    + unfold buffer0_data. rewrite !in_app_iff. auto.
    + unfold calculate_attribute_name, first_name. cbn [Z.eqb Pos.eqb andb]. destruct (Z.of_nat i =? 0); reflexivity.
  - destruct (G TextureCoordinate 1 (from_vectors ver) (buffer1_data ver o)) as (t & bu & off & H); [|destruct ver; reflexivity|reflexivity|exists t, bu, off; apply in_or_app; now right].
    unfold buffer1_data. rewrite !in_app_iff. auto.
  - destruct (G ColorSet 1 (from_colors ver) (buffer1_data ver o)) as (t & bu & off & H); [| |reflexivity|exists t, bu, off; apply in_or_app; now right].
    + unfold buffer1_data. rewrite !in_app_iff. auto.
    + destruct ver; [contradiction V; reflexivity|reflexivity..].
Qed.
Lemma chain_stored bounding ver os s vs s' : chain bounding ver os s vs s' ->
  Forall2 (fun o v => exists attrs, object_stored bounding o v attrs /\ (ver <> MV8 -> attributes_stored o attrs)) os vs.
Proof.
  induction 1 as [s|o n os s vs s' H C IH]; constructor; [|exact IH]. unfold object_val. eexists. split; [|apply attributes_stored_val].
  unfold object_stored. do 13 eexists. exists (match ob_influences o with [] => 0 | _ => 1 end). split; [|destruct (ob_influences o) eqn:E; cbn match; split; congruence].
  unfold first_positions. destruct (ob_no_write o), (ob_no_test o), (ob_influences o); cbn [Z.b2z]; reflexivity.
Qed.

Theorem mesh_file bounding d out : bounding_ok bounding -> mesh_ok d = true -> mesh_fits (mesh_version_of d) (mesh_objects d) ->
  mesh_data_write bounding d = Ok out -> zlen out < 2 ^ 63 ->
  exists name vs b0 b1 b2 ib rig,
  typed_read Mesh out = Ok ((mesh_major d, mesh_minor d),
    VStruct [VStruct [name; bounding (flat_map (fun o => match ob_positions o with a :: _ => to_vec3 (attr_data a) | [] => [] end) (mesh_objects d));
      VInt 0; VArr vs; VArr [VInt (zlen b0); VInt (zlen b1); VInt (zlen b2); VInt 0]; VInt (zlen ib);
      VArr [VBytes b0; VBytes b1; VBytes b2; VBytes []]; VBytes ib; VArr rig]]) /\
  ssbh_to_string_lossy name = [] /\
  Forall2 (fun o v => exists attrs, object_stored bounding o v attrs /\ (mesh_minor d <> 8 -> attributes_stored o attrs)) (mesh_objects d) vs.
Proof.
  intros B K M E L. unfold mesh_data_write in E. apply bind_ok in E as (v & Ev & E).
  pose proof (typed_roundtrip _ _ _ _ (mesh_file_ok bounding d v B K M Ev) E L) as T. destruct (mesh_ok_facts d K) as [F _].
  destruct (create_mesh_inv bounding d v K Ev) as (ver & vs & s & rig & EV & EP & N & C & R & ->). rewrite (mesh_version_eq d ver EV) in M.
  destruct (chain_lengths _ _ _ _ _ C F M) as (S & L0 & L1 & L2 & Li & E3). cbn [map] in T. rewrite E3 in T.
  assert (NN : forall b : list Z, 0 <= zlen b) by (intros; unfold zlen; lia). rewrite !Z.mod_small in T by auto.
  do 7 eexists. split; [exact T|]. split; [reflexivity|]. eapply forall2_impl; [|exact (chain_stored _ _ _ _ _ _ C)].
  intros o w (attrs & H1 & H2). exists attrs. split; [exact H1|]. intros V. apply H2. intros ->. apply V. cbn [version_pair] in EP. congruence.
Qed.
