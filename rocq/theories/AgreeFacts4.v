(** The documents of the two JSON programs agree: Mesh. *)
From Coq Require Import Lia ZifyBool ZifyNat ZifyN.
From Verif Require Import Bytes BytesFacts Ssbh File SsbhSpec SsbhFacts Formats FileFacts Strings Bits Float32 AnimComp AnimBuf AnimFile.
From Verif Require Import AnimSpec SsbhLemmas AnimFacts AnimDataFacts SmallData DataSpec SmallDataFacts MatlData SkelData AdjData MeshEx VecData MeshData FileSpec DecFacts MeshSpec MeshReadSpec MeshRead ReloadFacts SizeDataFacts Json JsonSchema JsonFile JsonFacts DataJson AgreeSpec AgreeFacts AgreeFacts3.
Ltac Zify.zify_post_hook ::= ZifyBool.elim_bool_cstr; Z.to_euclidean_division_equations.
#[local] Strategy opaque [typed_write typed_read].

Definition attribute_schema (ver : mesh_version) : schema := match ver with MV8 => s_mesh_AttributeV8 | MV9 => s_mesh_AttributeV9 | MV10 => s_mesh_AttributeV10 end.
Definition weight_schema (ver : mesh_version) : schema := match ver with MV10 => SBuf | _ => SArr s_mesh_VertexWeightV8 end.
Definition usage_name (u : usage) : string :=
  match u with
  | Position => "Position" | Normal => "Normal" | Binormal => "Binormal" | Tangent => "Tangent" | TextureCoordinate => "TextureCoordinate"
  | ColorSet => "ColorSet"
  end%string.

(** ** Attributes *)
Lemma usage_shown ver v a u : attribute_fields ver v a -> has_usage (usage_name u) (to_json (attribute_schema ver) v) = usage_eqb (a_usage a) u.
Proof.
  intros (n & t & In1 & _ & F). destruct ver.
  - destruct F as [-> _]. cbn [MeshReadSpec.usages In] in In1.
    repeat (destruct In1 as [E|In1]; [injection E as <- <-; now destruct u|]). destruct In1.
  - destruct F as (name & names & -> & _). cbn [MeshReadSpec.usages In] in In1.
    repeat (destruct In1 as [E|In1]; [injection E as <- <-; now destruct u|]). destruct In1.
  - destruct F as (name & names & -> & _). cbn [MeshReadSpec.usages In] in In1.
    repeat (destruct In1 as [E|In1]; [injection E as <- <-; now destruct u|]). destruct In1.
Qed.
Definition dim_name (d : dim) : string := match d with Two => "Vector2" | Three => "Vector3" | Four => "Vector4" end%string.
Definition dim_of (t : data_type) : dim := match t with Float2 | HalfFloat2 => Two | Float3 => Three | _ => Four end.
Lemma type_shown ver v a : attribute_fields ver v a -> exists t, get "data_type" (to_json (attribute_schema ver) v) = Some (JStr t) /\
  vector_name t = dim_name (dim_of (a_type a)).
Proof.
  intros (n & t & _ & In2 & F). destruct ver.
  - destruct F as [-> _]. cbn [types In] in In2.
    repeat (destruct In2 as [E|In2]; [injection E as <- <-; eexists; split; reflexivity|]). destruct In2.
  - destruct F as (name & names & -> & _). cbn [types In] in In2.
    repeat (destruct In2 as [E|In2]; [injection E as <- <-; eexists; split; reflexivity|]). destruct In2.
  - destruct F as (name & names & -> & _). cbn [types In] in In2.
    repeat (destruct In2 as [E|In2]; [injection E as <- <-; eexists; split; reflexivity|]). destruct In2.
Qed.
Lemma vectors_shown v : to_json sd_vector_data (vector_data_doc v) =
  JObj [(dim_name (vec_dim v), JArr (map (to_json (SFix (Z.of_nat (dim_count (vec_dim v))) SF32)) (map (list_doc int_doc) (vec_rows v))))].
Proof. destruct v as [[| |] rows]; reflexivity. Qed.
Definition attribute_json (d : attribute_data) : json := to_json sd_attribute (attribute_doc d).
Lemma names_shown ver v a : wt (attribute_ty ver) v = true -> attribute_fields ver v a ->
  match get "attribute_names" (to_json (attribute_schema ver) v) with
  | Some (JArr (n :: _)) => shown (JStr (a_name a)) n
  | Some (JArr []) => a_name a = []
  | Some _ => False
  | None => True
  end.
Proof.
  intros W (n & t & _ & _ & F). destruct ver.
  - destruct F as [-> _]. exact I.
  - destruct F as (name & names & -> & ->). apply struct_inv in W as (vs & [= <-] & F). inv2.
    match goal with H : wt (TArr _) _ = true |- _ => apply arr_inv in H as (l' & [= <-] & _ & H) end. destruct names as [|x names]; [reflexivity|].
    match goal with H : forallb (wt SsbhString) _ = true |- _ => cbn [forallb] in H; apply andb_true_iff in H as [H _]; exact (text_shown 4 _ H) end.
  - destruct F as (name & names & -> & ->). apply struct_inv in W as (vs & [= <-] & F). inv2.
    match goal with H : wt (TArr _) _ = true |- _ => apply arr_inv in H as (l' & [= <-] & _ & H) end. destruct names as [|x names]; [reflexivity|].
    match goal with H : forallb (wt SsbhString) _ = true |- _ => cbn [forallb] in H; apply andb_true_iff in H as [H _]; exact (text_shown 4 _ H) end.
Qed.
Lemma attribute_shown ver bufs r v a d : wt (attribute_ty ver) v = true -> attribute_fields ver v a -> loaded_attribute bufs r a d ->
  attribute_agree (r_count r) (attribute_json d) (to_json (attribute_schema ver) v).
Proof.
  intros W F (N & _ & b & _ & V). destruct (type_shown _ _ _ F) as (t & Et & En).
  eexists (attr_name d), t, _. split; [reflexivity|]. split; [exact Et|]. split.
  { change (get "data" (attribute_json d)) with (Some (to_json sd_vector_data (vector_data_doc (attr_data d)))). rewrite vectors_shown, En.
    replace (vec_dim (attr_data d)) with (dim_of (a_type a)); [reflexivity|]. unfold vectors_at in V. destruct (a_type a); now destruct V as [-> _]. }
  split. { rewrite !zlen_map. unfold vectors_at in V. destruct (layout (a_type a)) as [[? ?] ?]. apply V. }
  rewrite N. now apply names_shown.
Qed.
Lemma usage_list_shown ver bufs r u : forall vs l ds, forallb (wt (attribute_ty ver)) vs = true -> Forall2 (attribute_fields ver) vs l ->
  Forall2 (loaded_attribute bufs r) (filter (fun a => usage_eqb (a_usage a) u) l) ds ->
  Forall2 (attribute_agree (r_count r)) (map attribute_json ds) (filter (has_usage (usage_name u)) (map (to_json (attribute_schema ver)) vs)).
Proof.
  intros vs l ds W F. revert ds W. induction F as [|v a vs l Ha F IH]; intros ds W L.
  - inversion L. constructor.
  - cbn [forallb] in W. apply andb_true_iff in W as [W1 W2]. cbn [map filter] in *. rewrite (usage_shown _ _ _ u Ha).
    destruct (usage_eqb (a_usage a) u); [|auto]. inversion L as [|? d ? ds' L1 L2]; subst. constructor; [|auto].
    exact (attribute_shown _ _ _ _ _ _ W1 Ha L1).
Qed.

(** ** Influences *)
Definition influence_json (i : bone_influence) : json := to_json sd_influence (influence_doc i).
Lemma name_text name s : ssbh_to_str name = Some s -> ssbh_to_string_lossy name = s.
Proof. unfold ssbh_to_string_lossy. now intros ->. Qed.
Lemma weights_shown l : Forall2 (agree_on ["vertex_index"; "vertex_weight"]%string) (map (fun w => to_json sd_weight (weight_doc w)) l)
  (map (fun w => to_json s_mesh_VertexWeightV8 (VStruct [VInt (wt_index w); VInt (wt_weight w)])) l).
Proof. induction l as [|w l IH]; constructor; [all_shown|exact IH]. Qed.
Lemma influence_shown ver v i : wt (BoneBuffer (weight_ty ver)) v = true -> loaded_influence ver v i ->
  influence_agree (influence_json i) (to_json (s_mesh_BoneBuffer (weight_schema ver)) v).
Proof.
  intros W (name & ws & -> & Hn & Hw). apply struct_inv in W as (vs & [= <-] & F). inv2. split.
  { pick idtac. rewrite <- (name_text _ _ Hn). apply (text_shown 4). assumption. }
  destruct ver; cbn [stored_weights] in Hw.
  3: { destruct Hw as (bs & -> & _). exact I. }
  all: subst ws; cbn [s_mesh_BoneBuffer weight_schema to_json]; 
    change (get "data" _) with (Some (JArr (map (to_json s_mesh_VertexWeightV8) (map (fun w => VStruct [VInt (wt_index w); VInt (wt_weight w)]) (inf_weights i)))));
    cbn match; rewrite map_map; eexists; (split; [|apply weights_shown]);
    change (get "vertex_weights" _) with (Some (JArr (map (to_json sd_weight) (map weight_doc (inf_weights i))))); now rewrite map_map.
Qed.
Lemma owner_shown n name : name <> [] -> wt SsbhString n = true ->
  match to_json s_string n with JStr t => text_eqb t name | _ => false end = true <-> ssbh_to_str n = Some name.
Proof.
  intros N W. pose proof (text_shown 4 n W) as H.
  apply (struct_inv [TRel (TCStr 4)]) in W as (vs & -> & F). inv2.
  match goal with H : wt (TRel _) ?v = true |- _ => destruct v as [| | | |[s|]|]; try discriminate H;
    [change (wt (TRel (TCStr 4)) (VPtr (Some s))) with (wt (TCStr 4) s) in H; apply cstr_any in H as (bs & -> & Hb)|] end.
  - cbn [to_json s_string]. unfold cstr_json. rewrite cstring_keeps by exact Hb. cbn [ssbh_to_str]. rewrite text_eqb_spec.
    destruct (cstring_to_str bs) as [s|]; split; intros E; congruence.
  - cbn. split; intros E; discriminate E.
Qed.
Definition group_json (ver : mesh_version) : val -> json := to_json (s_mesh_RiggingGroup (weight_schema ver)).
Lemma rigging_shown ver name subindex : name <> [] -> forall groups l, forallb (wt (RiggingGroup (weight_ty ver))) groups = true ->
  loaded_influences ver groups name subindex l -> Forall2 influence_agree (map influence_json l) (rigging_of name (JInt subindex) (map (group_json ver) groups)).
Proof.
  intros N groups l W (parts & -> & F). induction F as [|g part groups parts H F IH]; [constructor|].
  cbn [forallb] in W. apply andb_true_iff in W as [W1 W2]. specialize (IH W2). change (List.concat (part :: parts)) with (part ++ List.concat parts)%list. rewrite map_app. cbn [map].
  unfold rigging_of. cbn [flat_map]. apply Forall2_app; [|exact IH]. clear IH F W2.
  apply struct_inv in W1 as (vs & -> & F). inv2. arrays.
  match goal with H : wt u64 _ = true |- _ => apply int_any in H as (i & -> & _) end.
  match goal with H : wt SsbhString ?v = true |- _ => rename H into Wn; rename v into n end.
  match goal with H : forallb _ ?l = true |- _ => rename H into Wb; rename l into bufs end.
  match goal with |- context [get "buffers" ?j] => change (get "buffers" j) with (Some (JArr (map (to_json (s_mesh_BoneBuffer (weight_schema ver))) bufs)));
    change (get "mesh_object_subindex" j) with (Some (JInt i)); change (get "mesh_object_name" j) with (Some (to_json s_string n)) end.
  pose proof (owner_shown n name N Wn) as O.
  cut (Forall2 influence_agree (map influence_json part)
    (if match to_json s_string n with JStr t => text_eqb t name | _ => false end && (i =? subindex) then map (to_json (s_mesh_BoneBuffer (weight_schema ver))) bufs else []));
    [clear; now destruct (to_json s_string n)|].
  destruct H as [(b' & (n' & f' & [= <- -> _ <-] & E) & L)|[H ->]].
  - apply O in E. rewrite E, Z.eqb_refl. cbn [andb]. clear - L Wb. induction L as [|v i l m Hv L IH]; [constructor|].
    cbn [forallb] in Wb. apply andb_true_iff in Wb as [W1 W2]. constructor; [exact (influence_shown _ _ _ W1 Hv)|auto].
  - destruct (match to_json s_string n with JStr t => text_eqb t name | _ => false end) eqn:E; [|constructor].
    apply proj1 in O. specialize (O eq_refl). destruct (Z.eqb_spec i subindex) as [->|]; [|constructor]. elim (H bufs). eexists. eexists. split; [reflexivity|exact O].
Qed.

(** ** Objects and files *)
Definition object_json (o : mesh_object) : json := to_json sd_object (object_doc o).
Lemma flag_shown b n : (b = true <-> n <> 0) -> shown (bool_json (Z.b2z b)) (JInt n).
Proof.
  intros H. rewrite bool_shown. replace b with (negb (n =? 0)); [apply shown_flag|]. destruct b, (Z.eqb_spec n 0) as [->|]; try reflexivity; [now elim (proj1 H eq_refl)|].
  symmetry. now apply H.
Qed.
Lemma object_shown ver bufs ib groups v o : forallb (wt (RiggingGroup (weight_ty ver))) groups = true -> wt (MeshObject (attribute_ty ver)) v = true ->
  loaded_object ver bufs ib groups v o ->
  object_agree (map (group_json ver) groups) (object_json o) (to_json (s_mesh_MeshObject (attribute_schema ver)) v).
Proof.
  intros Wg W (r & l & (u1 & o0 & o1 & o2 & o3 & s0 & s1 & s2 & s3 & u2 & rg & bo & Eo & Es & ->) & Fa & En & Ei & Ep & Eb & Hw & Ht & Hi & U1 & U2 & U3 & U4 & U5 & U6 & Inf).
  apply struct_inv in W as (vs & [= <-] & F). inv2.
  match goal with H : wt (TArr _) _ = true |- _ => apply arr_inv in H as (l' & [= <-] & _ & H) end.
  split. { unfold agree_on. constructor; [pick ltac:(rewrite En; apply (text_shown 4); assumption)|]. constructor; [pick ltac:(rewrite Ei; apply shown_same)|].
    constructor; [pick ltac:(rewrite Ep; apply (text_shown 4); assumption)|]. constructor; [pick ltac:(rewrite Eb; apply shown_same)|constructor]. }
  split. { eexists. split; [reflexivity|]. unfold agree_on. constructor; [pick ltac:(now apply flag_shown)|]. constructor; [pick ltac:(now apply flag_shown)|constructor]. }
  split. { eexists. exists (r_index_count r). split; [reflexivity|]. split; [reflexivity|]. rewrite !zlen_map. apply Hi. }
  split.
  { exists (map (to_json (attribute_schema ver)) (r_attributes r)), (r_count r). split; [reflexivity|]. split; [reflexivity|].
    assert (X : forall x u ds, get x (object_json o) = Some (JArr (map (to_json sd_attribute) (map attribute_doc ds))) -> loaded_usage bufs r l u ds ->
      exists js, get x (object_json o) = Some (JArr js) /\ Forall2 (attribute_agree (r_count r)) js (filter (has_usage (usage_name u)) (map (to_json (attribute_schema ver)) (r_attributes r)))).
    { intros x u ds G (l' & L & ->). exists (map attribute_json ds). split; [rewrite G, map_map; reflexivity|]. eapply usage_list_shown; eauto. }
    unfold AgreeSpec.usages. repeat constructor; cbn [fst snd].
    - exact (X "positions"%string Position (ob_positions o) eq_refl U1).
    - exact (X "normals"%string Normal (ob_normals o) eq_refl U2).
    - exact (X "binormals"%string Binormal (ob_binormals o) eq_refl U3).
    - exact (X "tangents"%string Tangent (ob_tangents o) eq_refl U4).
    - exact (X "texture_coordinates"%string TextureCoordinate (ob_texcoords o) eq_refl U5).
    - exact (X "color_sets"%string ColorSet (ob_colors o) eq_refl U6). }
  exists (ob_name o), (JInt (ob_subindex o)), (map influence_json (ob_influences o)). split; [reflexivity|]. split; [reflexivity|].
  split. { change (get "bone_influences" _) with (Some (JArr (map (to_json sd_influence) (map influence_doc (ob_influences o))))). now rewrite map_map. }
  intros N. now apply rigging_shown.
Qed.

Lemma objects_shown ver bufs ib groups : forallb (wt (RiggingGroup (weight_ty ver))) groups = true -> forall os ds,
  forallb (wt (MeshObject (attribute_ty ver))) os = true -> Forall2 (loaded_object ver bufs ib groups) os ds ->
  Forall2 (object_agree (map (group_json ver) groups)) (map object_json ds) (map (to_json (s_mesh_MeshObject (attribute_schema ver))) os).
Proof.
  intros Wg os ds W F. induction F as [|v o os ds H F IH]; [constructor|]. cbn [forallb] in W. apply andb_true_iff in W as [W1 W2].
  constructor; [exact (object_shown _ _ _ _ _ _ Wg W1 H)|auto].
Qed.
Theorem mesh_agrees order b dj fj : bytes_ok b = true -> data_to_json order "numshb" b = Some (Ok dj) -> file_to_json "numshb" b = Ok fj ->
  mesh_agree dj (content fj).
Proof.
  intros Hb D Fj. apply (data_of_json _ _ DkMesh) in D as (d & L & ->); [|reflexivity]. cbn [load_as] in L. apply bind_ok in L as (m & L & E).
  injection E as <-. unfold mesh_data_read in L. apply bind_ok in L as ([version v] & R & U).
  destruct (open_file _ _ _ _ _ _ Hb R Fj eq_refl eq_refl) as (-> & t & F & W). clear R Fj.
  destruct (mesh_converts _ _ _ F W) as (ver & os & bufs & ib & groups & Lv & (n & bo & u & sz & si & ->) & H & _). apply H in U as [_ U]. clear H.
  assert (X : t = Mesh_variant (MeshInner (attribute_ty ver) (weight_ty ver)) /\
    content (ssbh_to_json (mkFile Mesh version (VStruct [VStruct [n; bo; u; VArr os; sz; si; VArr (map VBytes bufs); VBytes ib; VArr groups]]))) =
    to_json (s_mesh_MeshInner (attribute_schema ver) (weight_schema ver)) (VStruct [n; bo; u; VArr os; sz; si; VArr (map VBytes bufs); VBytes ib; VArr groups])).
  { cbn [layouts In] in Lv. destruct Lv as [E|[E|[E|[]]]]; injection E as <- <-; cbn in F; injection F as <-; split; reflexivity. }
  destruct X as [-> Ec]. rewrite Ec. clear Ec F.
  apply (struct_inv [MeshInner (attribute_ty ver) (weight_ty ver)] 16 8 None) in W as (vs & [= <-] & G). inv2.
  match goal with H : wt (MeshInner _ _) _ = true |- _ => apply struct_inv in H as (vs & [= <-] & G) end. inv2. 
  match goal with H : wt (TArr (MeshObject _)) _ = true |- _ => apply arr_inv in H as (os' & [= <-] & _ & Ho) end.
  match goal with H : wt (TArr (RiggingGroup _)) _ = true |- _ => apply arr_inv in H as (gs & [= <-] & _ & Hg) end.
  exists (map (group_json ver) groups). split; [reflexivity|].
  exists (map object_json (mesh_objects m)), (map (to_json (s_mesh_MeshObject (attribute_schema ver))) os). split.
  { change (get "objects" _) with (Some (JArr (map (to_json sd_object) (map object_doc (mesh_objects m))))). now rewrite map_map. }
  split; [reflexivity|]. exact (objects_shown _ _ _ _ Hg _ _ Ho U).
Qed.
