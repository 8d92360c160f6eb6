(** What the readers of ssbh_data give has the types of the JSON documents. *)
From Coq Require Import Lia ZifyBool ZifyNat ZifyN Permutation.
From Verif Require Import Bytes BytesFacts Ssbh File SsbhSpec SsbhFacts Formats FileFacts FileSpec SsbhLemmas MeshEx MeshExFacts
  Strings AnimComp AnimBuf AnimSpec AnimFacts AnimFile SmallData DataSpec SmallDataFacts MatlData MatlSpec MatlFacts SkelData
  SkelSpec SkelFacts AdjData AdjSpec AdjDataFacts ReloadFacts ShdrFacts DecFacts VecData MeshData MeshSpec MeshReadSpec
  MeshRead MeshReload AnimReadSpec AnimRead AnimReload Json DataJson DataJsonSpec.
Ltac Zify.zify_post_hook ::= ZifyBool.elim_bool_cstr; Z.to_euclidean_division_equations.
Local Open Scope list_scope.
Local Open Scope Z_scope.

Lemma text_typed t : text_ok t = true -> utf8_valid t = true.
Proof. unfold text_ok. rewrite andb_true_iff. tauto. Qed.
Lemma all_typed {A} (f g : A -> bool) l : (forall a, f a = true -> g a = true) -> forallb f l = true -> forallb g l = true.
Proof. intros H. rewrite !forallb_forall. auto. Qed.
Ltac typed := rewrite ?andb_true_iff in *; intuition (auto using text_typed).

Lemma modl_typed b d : bytes_ok b = true -> modl_data_read b = Ok d -> typed_modl d = true.
Proof.
  intros Hb H. unfold modl_data_read in H. apply bind_ok in H as ([version v] & E & H).
  apply typed_read_ok in E as (t & F & W); [|exact Hb]. cbn [fkind fver fbody] in *.
  assert (version = (1, 7) /\ t = Modl_V17) as [-> ->].
  { destruct version as [ma mi]. cbn in F. unfold ver_eqb in F. cbn [fst snd] in F.
    destruct ((ma =? 1) && (mi =? 7)) eqn:V; [|discriminate F]. injection F as <-. split; [f_equal; lia|reflexivity]. }
  destruct (modl_any v W) as (d' & U & O' & S). rewrite U in H. injection H as ->.
  rewrite <- S. unfold modl_ok in O'. unfold typed_modl, stored_modl.
  cbn [md_major md_minor md_model md_skel md_materials md_anim md_mesh md_entries].
  assert (forall e, modl_entry_ok e = true -> typed_modl_entry e = true) as X.
  { intros e. unfold modl_entry_ok, typed_modl_entry. typed. }
  rewrite !andb_true_iff in O'. destruct O' as (((((O1 & O2) & _ & O3) & O4) & O5) & _ & O6).
  rewrite (text_typed _ O1), (text_typed _ O2), (text_typed _ O5), (all_typed _ _ _ text_typed O3), (all_typed _ _ _ X O6).
  cbn [andb]. revert O4. destruct (md_anim d); intros O4; [cbn [typed_opt]; now rewrite (text_typed _ O4)|reflexivity].
Qed.
Lemma hlpb_typed b d : bytes_ok b = true -> hlpb_data_read b = Ok d -> typed_hlpb d = true.
Proof.
  intros Hb H. unfold hlpb_data_read in H. apply bind_ok in H as ([version v] & E & H).
  apply typed_read_ok in E as (t & F & W); [|exact Hb]. cbn [fkind fver fbody] in *.
  assert (t = Hlpb_V11) as ->.
  { destruct version as [ma mi]. cbn in F. unfold ver_eqb in F. cbn [fst snd] in F.
    destruct ((ma =? 1) && (mi =? 1)); [|discriminate F]. now injection F as <-. }
  apply struct_inv in W as (vs & -> & F2). inv2.
  repeat match goal with H : wt (TArr _) _ = true |- _ => apply arr_inv in H as (? & -> & ? & ?) end.
  match goal with H : forallb (wt AimConstraint) _ = true |- _ => apply (list_any _ un_aim aim_ok) in H as (xs & Ea & Oa & _); [|exact aim_any] end.
  match goal with H : forallb (wt OrientConstraint) _ = true |- _ => apply (list_any _ un_orient orient_ok) in H as (ys & Eo & Oo & _); [|exact orient_any] end.
  cbn [un_hlpb] in H. rewrite Ea in H. cbn [bind] in H. rewrite Eo in H. cbn [bind] in H. injection H as <-.
  unfold typed_hlpb. cbn [hd_major hd_minor hd_aims hd_orients]. rewrite !andb_true_iff.
  refine (conj (conj (conj eq_refl eq_refl) _) _).
  - revert Oa. apply all_typed. intros a. unfold aim_ok, typed_aim. cbn [forallb]. typed.
  - revert Oo. apply all_typed. intros a. unfold orient_ok, typed_orient. cbn [forallb]. typed.
Qed.
Lemma skel_typed b bones : bytes_ok b = true -> skel_data_read b = Ok bones -> forallb typed_bone bones = true.
Proof.
  intros Hb H. unfold skel_data_read in H. apply bind_ok in H as ([version v] & E & H).
  apply typed_read_ok in E as (t & F & W); [|exact Hb]. cbn [fkind fver fbody] in *.
  assert (t = Skel_V10) as ->.
  { destruct version as [ma mi]. cbn in F. unfold ver_eqb in F. cbn [fst snd] in F.
    destruct ((ma =? 1) && (mi =? 0)); [|discriminate F]. now injection F as <-. }
  apply struct_inv in W as (vs & -> & F2). inv2.
  repeat match goal with H : wt (TArr _) _ = true |- _ => apply arr_inv in H as (? & -> & ? & ?) end. cbn [un_skel] in H.
  match type of H with un_bones ?es ?ts = _ => assert (K : exists bs, un_bones es ts = Ok bs /\ forallb bone_ok bs = true /\ zlen bs <= zlen es)
    by (apply bones_any; assumption) end.
  destruct K as (bs & U & Ob & Lb). rewrite U in H. injection H as ->.
  revert Ob. apply all_typed. intros a. unfold bone_ok, typed_bone, typed_opt, u64_ok. destruct (bn_parent a); typed; lia.
Qed.
Lemma matl_typed b d : bytes_ok b = true -> matl_data_read b = Ok d -> typed_matl d = true.
Proof.
  intros Hb H. unfold matl_data_read in H. apply bind_ok in H as ([version v] & E & H).
  apply typed_read_ok in E as (t & F & W); [|exact Hb]. cbn [fkind fver fbody] in *.
  assert (V : (version = (1, 5) /\ t = Matl_V15) \/ (version = (1, 6) /\ t = Matl_V16)).
  { destruct version as [ma mi]. cbn in F. unfold ver_eqb in F. cbn [fst snd] in F.
    destruct ((ma =? 1) && (mi =? 5)) eqn:C; [injection F as <-; left; split; [f_equal; lia|reflexivity]|].
    destruct ((ma =? 1) && (mi =? 6)) eqn:C'; [injection F as <-; right; split; [f_equal; lia|reflexivity]|discriminate F]. }
  assert (forall e, matl_entry_ok e = true -> typed_matl_entry e = true) as X.
  { intros e. unfold matl_entry_ok, typed_matl_entry. rewrite !andb_true_iff. intros K.
    assert (forallb (param_ok utf8_valid) (mt_textures e) = true).
    { refine (all_typed (param_ok text_ok) _ _ _ _); [|tauto]. intros p. unfold param_ok. typed. }
    typed. }
  destruct V as [[-> ->]|[-> ->]]; apply struct_inv in W as (vs & -> & F2); inv2;
    match goal with H : wt (TArr _) _ = true |- _ => apply arr_inv in H as (es & -> & L & We) end.
  - apply (list_any _ un_entry15 matl_entry_ok) in We as (xs & U & Ox & Lx);
      [|intros v Hv; eapply entry_any; [exact blend15_any|exact raster15_any|exact Hv]].
    change (un_matl (1, 5) (VStruct [VArr es])) with (let* entries := un_list un_entry15 es in Ok (MatD 1 5 entries)) in H.
    rewrite U in H. cbn [bind] in H. injection H as <-. unfold typed_matl. cbn [mt_major mt_minor mt_entries].
    now rewrite (all_typed _ _ _ X Ox).
  - apply (list_any _ un_entry16 matl_entry_ok) in We as (xs & U & Ox & Lx);
      [|intros v Hv; eapply entry_any; [exact blend16_any|exact raster16_any|exact Hv]].
    change (un_matl (1, 6) (VStruct [VArr es])) with (let* entries := un_list un_entry16 es in Ok (MatD 1 6 entries)) in H.
    rewrite U in H. cbn [bind] in H. injection H as <-. unfold typed_matl. cbn [mt_major mt_minor mt_entries].
    now rewrite (all_typed _ _ _ X Ox).
Qed.
Lemma meshex_typed b gs : bytes_ok b = true -> meshex_data_read b = Ok gs -> forallb typed_mesh_group gs = true.
Proof.
  intros Hb H. unfold meshex_data_read in H. apply bind_ok in H as (x & R & H). apply meshex_read_ok in R as (X & Lg & Le); [|exact Hb].
  destruct (meshex_data_of_any x X) as (gs' & U & F & Fl). rewrite U in H. injection H as ->.
  destruct (meshex_parts x X) as (Wg & _ & _).
  clear - F Wg. induction F as [|v g vs gs (f & n & -> & Ef & En) F IH]; [reflexivity|]. cbn [forallb] in *. apply andb_true_iff in Wg as [W1 W2].
  rewrite IH, andb_true_r by exact W2. apply SmallDataFacts.group_shape in W1 as (s & f' & n' & [= <- <- <-] & Ws & Wf & Wn).
  apply sphere_any in Ws as (s & Es & Os). unfold typed_mesh_group.
  apply (f_equal un_sphere) in Es. rewrite !sphere_back in Es. injection Es as ->.
  rewrite Os, (text_typed _ (cstr_ptr_any _ _ _ Wf Ef)). exact (text_typed _ (cstr_ptr_any _ _ _ Wn En)).
Qed.
Lemma adj_typed b d : bytes_ok b = true -> adj_data_read b = Ok d -> forallb typed_adj_entry d = true.
Proof.
  intros Hb H. unfold adj_data_read in H. apply bind_ok in H as (x & R & H). apply adj_read_iff in R as (X & L & _); [|exact Hb].
  unfold adj_ok in X. apply andb_true_iff in X as [X1 X2]. unfold un_adj in H. destruct (adj_entries_any _ X2 _ _ X1 H) as (Q1 & _ & _).
  revert Q1. apply all_typed. intros e. unfold typed_adj_entry, u32_ok, u64_ok. typed; lia.
Qed.
Lemma mesh_typed b d : bytes_ok b = true -> mesh_data_read b = Ok d -> typed_mesh d = true.
Proof.
  intros Hb H. destruct (mesh_loaded _ _ Hb H) as (_ & _ & (V1 & V2) & _ & _ & O). unfold typed_mesh.
  rewrite !andb_true_iff. split; [rewrite V1; unfold u16_ok; destruct V2 as [->|[->| ->]]; auto|].
  revert O. apply all_typed. intros o. unfold object_parts, all_attributes, typed_object. rewrite !forallb_app.
  assert (forall a, attr_ok a = true -> typed_attribute a = true) as X.
  { intros a. unfold attr_ok, typed_attribute. typed. }
  assert (forall i, text_ok (inf_bone i) && forallb weight_ok (inf_weights i) = true -> typed_influence i = true) as Y.
  { intros i. unfold typed_influence. typed. }
  rewrite !andb_true_iff. intros Ho. destruct Ho as [Ho H1]. repeat match goal with H : _ /\ _ |- _ => destruct H end.
  repeat split; auto using text_typed; try (eapply all_typed; eassumption). exact (all_typed _ _ _ Y H1).
Qed.
Lemma lossy_typed v : utf8_valid (ssbh_to_string_lossy v) = true.
Proof.
  unfold ssbh_to_string_lossy, ssbh_to_str.
  destruct v as [| |[|[| | | |[[| bs| | | |]|]|] [|]]| | |]; try reflexivity.
  unfold cstring_to_str. destruct (utf8_valid bs) eqn:E; [exact E|reflexivity].
Qed.
Lemma anim_typed order b d : (forall l, Permutation l (order l)) -> bytes_ok b = true -> anim_data_read order b = Ok d -> typed_anim d = true.
Proof.
  intros P Hb R. destruct (anim_reload order b d Hb R) as [[V _]|(V1 & V2 & O & _)].
  - pose proof R as R0. unfold anim_data_read in R0. destruct (typed_read Anim b) as [[version v]|e|] eqn:E; try discriminate R0. clear R0.
    destruct (anim_version _ _ _ Hb E) as [[-> W]|X].
    + destruct (anim_file_v12 b v Hb E) as (a & A & K). destruct (K order P) as (_ & K2 & _).
      destruct (K2 d R) as (_ & _ & Ef & _ & G & _).
      assert (is32 (ad_final d) = true) as F.
      { rewrite Ef. destruct A as (n & u1 & u2 & u3 & ts & -> & _). apply struct_inv in W as (vs & [= <-] & F). inv2.
        match goal with H : wt f32 (VInt (av1_final a)) = true |- _ => apply f32_any in H as (x & [= ->] & H); exact H end. }
      unfold typed_anim. injection V as -> ->. rewrite F. cbn [andb]. change (u16_ok 1) with true. change (u16_ok 2) with true. cbn [andb].
      apply forallb_forall. intros g I. destruct (G g I) as (t & name & T & _ & N). unfold typed_group. rewrite N.
      apply andb_true_iff. split.
      * cbn in T. intuition (match goal with H : (_, _, _) = _ |- _ => injection H as <- <- <- end; reflexivity).
      * apply forallb_forall. intros nd In'. apply in_map_iff in In' as (x & <- & _). unfold typed_node. cbn [nd_name nd_tracks forallb].
        rewrite lossy_typed. unfold typed_track. cbn [td_name td_values].
        destruct T as [T|[T|[T|[]]]]; apply (f_equal snd) in T; cbn [snd] in T; rewrite <- T; reflexivity.
    + exfalso. assert (exists m, version = (2, m)) as [m ->] by (destruct X as [[-> _]|[-> _]]; eauto).
      destruct (anim_file _ _ _ Hb E) as (a & _ & _ & I). destruct (I order) as [I1 _]. apply I1 in R as (K1 & _). congruence.
  - unfold typed_anim. assert (u16_ok (ad_major d) = true /\ u16_ok (ad_minor d) = true) as [-> ->].
    { rewrite V1. destruct V2 as [->| ->]; auto. }
    unfold anim_ok in O. rewrite !andb_true_iff in O. destruct O as ((O1 & O2) & O3). rewrite O1. cbn [andb].
    revert O3. apply all_typed. intros g. unfold group_ok, typed_group. rewrite !andb_true_iff. intros ((G1 & _) & G2). split; auto.
    revert G2. apply all_typed. intros n. unfold node_ok, typed_node. rewrite !andb_true_iff. intros ((N1 & _) & N2). split; auto using text_typed.
    revert N2. apply all_typed. intros t. unfold track_ok, typed_track. typed.
Qed.

Theorem load_typed order k b d : (forall l, Permutation l (order l)) -> bytes_ok b = true -> load_as order k b = Ok d ->
  data_kind_of d = k /\ typed_data d = true.
Proof.
  intros P Hb H. destruct k; cbn [load_as] in H; apply bind_ok in H as (x & E & H); injection H as <-; split; try reflexivity; cbn [typed_data].
  - exact (mesh_typed _ _ Hb E).
  - exact (skel_typed _ _ Hb E).
  - exact (anim_typed _ _ _ P Hb E).
  - exact (modl_typed _ _ Hb E).
  - exact (matl_typed _ _ Hb E).
  - exact (hlpb_typed _ _ Hb E).
  - exact (meshex_typed _ _ Hb E).
  - exact (adj_typed _ _ Hb E).
Qed.
