(** The documents of the two JSON programs agree: MeshEx, Adj and Matl. *)
From Coq Require Import Lia ZifyBool ZifyNat ZifyN.
From Verif Require Import Bytes BytesFacts Ssbh File SsbhSpec SsbhFacts Formats FileFacts Strings Bits Float32 AnimComp AnimBuf AnimFile.
From Verif Require Import AnimSpec SsbhLemmas AnimFacts AnimDataFacts SmallData DataSpec SmallDataFacts MatlData MatlSpec MatlFacts SkelData SkelFacts.
From Verif Require Import AdjData AdjSpec AdjDataFacts MeshEx MeshExFacts VecData MeshData FileSpec DecFacts ReloadFacts SizeDataFacts Json JsonSchema JsonFile DataJson AgreeSpec AgreeFacts.
Ltac Zify.zify_post_hook ::= ZifyBool.elim_bool_cstr; Z.to_euclidean_division_equations.

(** ** MeshEx *)
Lemma cstr_ptr_shown n v t : wt (TAbs 8 (TCStr n)) v = true -> un_cstr_ptr v = Ok t -> shown (JStr t) (to_json (SAbs SCStr) v).
Proof.
  destruct v as [| | | |[s|]|]; try discriminate 1.
  - intros W. change (wt (TAbs 8 (TCStr n)) (VPtr (Some s))) with (wt (TCStr n) s) in W. apply cstr_any in W as (bs & -> & Hb).
    cbn [un_cstr_ptr]. intros [= <-]. cbn [to_json]. unfold cstr_json. rewrite cstring_keeps by exact Hb. apply shown_same.
  - intros _ [= <-]. apply shown_null.
Qed.
Lemma flag_shown v : wt EntryFlag v = true -> flag_agree (to_json sd_flags (flags_doc (flags_in v))) (to_json s_meshex_EntryFlag v).
Proof.
  destruct v as [n| | | | |]; try discriminate 1. intros _. exists (n mod 256), (n / 256 mod 256). split; [reflexivity|].
  change 256 with (2 ^ 8). rewrite !Z.mod_pow2_bits_low by lia. split.
  - change (get "draw_model" _) with (Some (bool_json (Z.b2z (Z.testbit n 0)))). now destruct (Z.testbit n 0).
  - change (get "cast_shadow" _) with (Some (bool_json (Z.b2z (Z.testbit n 1)))). now destruct (Z.testbit n 1).
Qed.
Lemma entry_named i e : wt MeshEntry e = true -> names_group i (to_json s_meshex_MeshEntry e) = in_group (Z.of_nat i) e.
Proof.
  intros W. unfold MeshEntry in W. destruct e as [| |vs| | |]; try discriminate W. unfold aligned in W. rewrite wt_struct in W. cbn [map wt_fields fst] in W.
  destruct vs as [|a [|c [|? ?]]]; rewrite ?andb_false_r in W; try discriminate W. apply andb_true_iff in W as [W _].
  destruct a as [g| | | | |]; try discriminate W. reflexivity.
Qed.
Lemma flags_shown i : forall es fs, forallb (wt MeshEntry) es = true -> forallb (wt EntryFlag) fs = true ->
  Forall2 flag_agree (map (fun e => to_json sd_flags (flags_doc e)) (group_flags (Z.of_nat i) es fs))
    (map snd (filter (fun p => names_group i (fst p)) (combine (map (to_json s_meshex_MeshEntry) es) (map (to_json s_meshex_EntryFlag) fs)))).
Proof.
  unfold group_flags. induction es as [|e es IH]; intros [|f fs] We Wf; try constructor. cbn [forallb] in *.
  apply andb_true_iff in We as [We1 We2], Wf as [Wf1 Wf2]. cbn [map combine filter fst]. rewrite entry_named by exact We1.
  destruct (in_group (Z.of_nat i) e); [|auto]. cbn [map snd]. constructor; [now apply flag_shown|auto].
Qed.
Lemma nth_map {A B} (f : A -> B) l : forall i y, nth_error (map f l) i = Some y -> exists x, nth_error l i = Some x /\ y = f x.
Proof. induction l as [|a l IH]; intros [|i] y H; try discriminate H; [injection H as <-; now exists a|exact (IH i y H)]. Qed.
Lemma forall2_nth {A B} (R : A -> B -> Prop) l m : Forall2 R l m -> forall i a b, nth_error l i = Some a -> nth_error m i = Some b -> R a b.
Proof. induction 1 as [|a b l m Hab F IH]; intros [|i] x y Hx Hy; try discriminate Hx; [injection Hx as <-; injection Hy as <-; exact Hab|eapply IH; eauto]. Qed.
Theorem meshex_agrees order b dj fj : bytes_ok b = true -> data_to_json order "numshexb" b = Some (Ok dj) -> file_to_json "numshexb" b = Ok fj ->
  meshex_agree dj fj.
Proof.
  intros Hb D Fj. apply (data_of_json _ _ DkMeshEx) in D as (d & L & ->); [|reflexivity]. cbn [load_as] in L. apply bind_ok in L as (gs & L & E).
  injection E as <-. unfold meshex_data_read in L. apply bind_ok in L as (x & R & U).
  unfold file_to_json, load in Fj. cbn [String.eqb Ascii.eqb Bool.eqb] in Fj. rewrite R in Fj. cbn [bind document_json] in Fj. injection Fj as <-.
  apply meshex_read_ok in R as (X & _ & _); [|exact Hb].
  destruct (meshex_data_of_any x X) as (gs' & U' & F & Fl). rewrite U in U'. injection U' as <-. clear U.
  destruct (meshex_parts x X) as (Wg & We & Wf).
  exists (map (fun g => to_json sd_mesh_group (mesh_group_doc g)) gs), (map (to_json s_meshex_MeshObjectGroup) (or_empty (mx_groups x))),
    (map (to_json s_meshex_MeshEntry) (or_empty (mx_entries x))), (map (to_json s_meshex_EntryFlag) (or_empty (mx_flags x))).
  split. { change (get "mesh_object_groups" _) with (Some (JArr (map (to_json sd_mesh_group) (map mesh_group_doc gs)))). now rewrite map_map. }
  split; [now destruct (mx_groups x) eqn:G; unfold meshex_to_json, meshex_val; rewrite G|].
  split; [now destruct (mx_entries x) eqn:G; unfold meshex_to_json, meshex_val; rewrite G|].
  split; [now destruct (mx_flags x) eqn:G; unfold meshex_to_json, meshex_val; rewrite G|].
  split; [rewrite !map_length; symmetry; exact (forall2_length _ _ _ F)|].
  intros i gj hj Hg Hh. apply nth_map in Hg as (g & Hg & ->). apply nth_map in Hh as (v & Hh & ->).
  destruct (forall2_nth _ _ _ F i v g Hh Hg) as (f & n & -> & Ef & En). split.
  - apply nth_error_In in Hh. rewrite forallb_forall in Wg. apply Wg in Hh. apply group_shape in Hh as (s & f' & n' & [= <- <- <-] & Ws & Wff & Wn).
    unfold agree_on. constructor; [pick ltac:(apply shown_same)|]. constructor; [pick ltac:(exact (cstr_ptr_shown _ _ _ Wff Ef))|].
    constructor; [pick ltac:(exact (cstr_ptr_shown _ _ _ Wn En))|constructor].
  - exists (map (fun e => to_json sd_flags (flags_doc e)) (mg_flags g)). split.
    { change (get "entry_flags" _) with (Some (JArr (map (to_json sd_flags) (map flags_doc (mg_flags g))))). now rewrite map_map. }
    rewrite (Fl i g Hg). now apply flags_shown.
Qed.

(** ** Adj *)
Lemma adj_parts buffer : forall es d, forallb (fun e => u32_ok (fst e) && u32_ok (snd e)) es = true -> un_adj_entries buffer es = Ok d ->
  List.length d = List.length es /\
  forall i a e, nth_error d i = Some a -> nth_error es i = Some e -> ae_object a = fst e /\ exists before after,
    buffer = (before ++ ae_adjacency a ++ after)%list /\ zlen before = snd e / 2 /\
    match nth_error es (S i) with Some e' => zlen before + zlen (ae_adjacency a) = snd e' / 2 | None => after = [] end.
Proof.
  induction es as [|[o offset] es IH]; intros d W H; cbn [un_adj_entries] in H.
  - injection H as <-. split; [reflexivity|]. intros [|i] a e Ha; discriminate Ha.
  - cbn [forallb fst snd] in W. apply andb_true_iff in W as [W1 W2]. apply andb_true_iff in W1 as [_ W1].
    assert (O0 : 0 <= offset / 2) by (unfold u32_ok in W1; lia). clear W1.
    match type of H with match ?o with _ => _ end = _ => destruct o as [sl|] eqn:Sl; [|discriminate H] end.
    apply bind_ok in H as (rest & R & H). injection H as <-. destruct (IH rest W2 R) as [L P]. clear IH. split; [cbn [List.length]; lia|].
    intros [|i] a e Ha He; [|exact (P i a e Ha He)]. injection Ha as <-. injection He as <-. cbn [ae_object ae_adjacency fst snd]. split; [reflexivity|].
    destruct es as [|[o' next] es]; cbn [nth_error].
    + unfold slice_from in Sl. destruct (offset / 2 <=? zlen buffer) eqn:B; [|discriminate Sl]. injection Sl as <-.
      exists (firstn (Z.to_nat (offset / 2)) buffer), []. rewrite app_nil_r, firstn_skipn. split; [reflexivity|]. split; [|reflexivity].
      unfold zlen in *. rewrite firstn_length. lia.
    + unfold slice_get in Sl. destruct (_ && _) eqn:B; [|discriminate Sl]. injection Sl as <-. apply andb_true_iff in B as [B1 B2]. cbn [snd].
      exists (firstn (Z.to_nat (offset / 2)) buffer), (skipn (Z.to_nat (next / 2 - offset / 2)) (skipn (Z.to_nat (offset / 2)) buffer)).
      rewrite firstn_skipn, firstn_skipn. split; [reflexivity|]. unfold zlen in *. rewrite !firstn_length, skipn_length.
      revert O0 B1 B2. generalize (offset / 2) (next / 2). clear. intros. lia.
Qed.
Lemma map_split {A B} (f : A -> B) l a b c : l = (a ++ b ++ c)%list -> map f l = (map f a ++ map f b ++ map f c)%list.
Proof. intros ->. now rewrite !map_app. Qed.
Theorem adj_agrees order b dj fj : bytes_ok b = true -> data_to_json order "adjb" b = Some (Ok dj) -> file_to_json "adjb" b = Ok fj ->
  adj_agree dj fj.
Proof.
  intros Hb D Fj. apply (data_of_json _ _ DkAdj) in D as (d & L & ->); [|reflexivity]. cbn [load_as] in L. apply bind_ok in L as (es & L & E).
  injection E as <-. unfold adj_data_read in L. apply bind_ok in L as (x & R & U).
  unfold file_to_json, load in Fj. cbn [String.eqb Ascii.eqb Bool.eqb] in Fj. rewrite R in Fj. cbn [bind document_json] in Fj. injection Fj as <-.
  apply adj_read_iff in R as (X & _ & _); [|exact Hb]. unfold adj_ok in X. apply andb_true_iff in X as [X _].
  destruct x as [entries buffer]. unfold un_adj in U. cbn [ad_entries ad_indices] in *. destruct (adj_parts _ _ _ X U) as [Ln P].
  exists (map (fun e => to_json sd_adj_entry (adj_entry_doc e)) es), (map (fun e => to_json s_adj_AdjEntry (entry_val e)) entries), (map (int_json 2 true) buffer).
  split. { change (get "entries" _) with (Some (JArr (map (to_json sd_adj_entry) (map adj_entry_doc es)))). now rewrite map_map. }
  split. { change (get "entries" _) with (Some (JArr (map (to_json s_adj_AdjEntry) (map entry_val entries)))). now rewrite map_map. }
  split. { change (get "index_buffer" _) with (Some (JArr (map (to_json (SInt 2 true)) (map VInt buffer)))). now rewrite map_map. }
  split; [now rewrite !map_length|]. intros i aj ej Ha He. apply nth_map in Ha as (a & Ha & ->). apply nth_map in He as (e & He & ->).
  destruct (P i a e Ha He) as (Eo & before & after & Eb & Lb & N). split.
  { exists (JInt (ae_object a)), (JInt (fst e)). split; [reflexivity|]. split; [reflexivity|]. rewrite Eo. apply shown_same. }
  exists (snd e), (map (int_json 2 true) before), (map (int_json 2 true) (ae_adjacency a)), (map (int_json 2 true) after).
  split; [reflexivity|]. split. { change (get "vertex_adjacency" _) with (Some (JArr (map (to_json (SInt 2 true)) (map int_doc (ae_adjacency a))))). now rewrite map_map. }
  split; [now apply map_split|]. rewrite !zlen_map. split; [exact Lb|].
  rewrite nth_error_map. destruct (nth_error entries (S i)) as [e'|]; cbn [option_map]; [exists (snd e'); split; [reflexivity|exact N]|now rewrite N].
Qed.

(** ** Matl *)
Definition variants (blend rast : schema) : list (Z * string * schema) :=
  [(1, "Float", SF32); (2, "Boolean", SInt 4 false); (5, "Vector4", s_vectors_Vector4); (7, "Unk7", s_vectors_Color4f); (11, "String", s_string);
   (14, "Sampler", s_matl_Sampler); (16, "UvTransform", s_matl_UvTransform); (17, "BlendState", blend); (18, "RasterizerState", rast)]%string.
Definition attributes (blend rast : schema) : schema := SStruct [("param_id", s_matl_ParamId); ("param", SCase (variants blend rast))]%string.
Lemma of_variant_cons x a l : of_variant x (a :: l) = (of_variant x [a] ++ of_variant x l)%list.
Proof. unfold of_variant. cbn [flat_map]. now rewrite app_nil_r. Qed.
Lemma of_variant_one blend rast tag x s id t ty v bt rt : In (tag, x, s) (variants blend rast) -> In (t, ty) (param_types bt rt) ->
  of_variant x [to_json (attributes blend rast) (VStruct [VInt id; VPtr (Some (VCase t (VStruct [v])))])] =
  if t =? tag then [(to_json s_matl_ParamId (VInt id), to_json s v)] else [].
Proof.
  unfold variants, param_types. cbn [In]. intros I J.
  repeat (destruct I as [I|I]; [injection I as <- <- <-; repeat (destruct J as [J|J]; [injection J as <- <-; reflexivity|]); contradiction|]). contradiction.
Qed.
Lemma params_shown {A} blend rast bt rt tag ty x s (un : val -> res A) (doc : A -> val) sd (R : json -> json -> Prop) :
  In (tag, x, s) (variants blend rast) -> In (tag, ty) (param_types bt rt) ->
  (forall v d, wt ty v = true -> un v = Ok d -> R (to_json sd (doc d)) (to_json s v)) ->
  forall attrs ps, forallb (wt (record [ParamId; Param bt rt])) attrs = true -> MatlData.get_attributes tag un attrs = Ok ps ->
  Forall2 (fun p q => get "param_id" p = Some (fst q) /\ exists a, get "data" p = Some a /\ R a (snd q))
    (map (fun p => to_json (sd_param sd) (param_doc doc p)) ps) (of_variant x (map (to_json (attributes blend rast)) attrs)).
Proof.
  intros I J H. assert (Un : forall t', In (tag, t') (param_types bt rt) -> t' = ty).
  { revert J. clear. unfold param_types. cbn [In]. intros J t' K.
    repeat (destruct J as [J|J]; [injection J as <- <-; repeat (destruct K as [K|K]; [try discriminate K; now injection K as <-|]); contradiction|]). contradiction. }
  induction attrs as [|v attrs IH]; intros ps W G; [injection G as <-; constructor|]. cbn [forallb] in W. apply andb_true_iff in W as [W1 W2].
  destruct (attr_any _ _ _ W1) as (id & _ & [->|(t & ty' & w & -> & K & Ww)]); cbn [MatlData.get_attributes] in G; cbn [map]; rewrite of_variant_cons.
  - change (of_variant x [to_json (attributes blend rast) (VStruct [VInt id; VPtr None])]) with (@nil (json * json)). now apply IH.
  - rewrite (of_variant_one _ _ _ _ _ _ _ _ _ _ _ I K). destruct (t =? tag) eqn:E; [|now apply IH].
    apply Z.eqb_eq in E as ->. apply Un in K as ->. apply bind_ok in G as (d & U & G). apply bind_ok in G as (ps' & G & E). injection E as <-.
    cbn [app map]. constructor; [|now apply IH]. split; [reflexivity|]. eexists. split; [reflexivity|]. now apply H.
Qed.

Lemma float_shown v d : wt f32 v = true -> un_z v = Ok d -> shown (to_json SF32 (int_doc d)) (to_json SF32 v).
Proof. intros W H. apply f32_any in W as (n & -> & _). injection H as <-. apply shown_same. Qed.
Lemma bool_shown v d : wt u32 v = true -> un_bool32 v = Ok d -> shown (to_json SBool (bool_doc d)) (to_json (SInt 4 false) v).
Proof.
  intros W H. apply u32_any in W as (n & -> & _). injection H as <-. replace (to_json SBool (bool_doc (negb (n =? 0)))) with (JBool (negb (n =? 0))) by now destruct (n =? 0).
  apply shown_flag.
Qed.
Lemma vector_shown v d : wt Vector4 v = true -> un_vec4 v = Ok d -> shown (to_json s_vectors_Vector4 (vec4_val d)) (to_json s_vectors_Vector4 v).
Proof. intros W H. apply vec4_any in W as (x & -> & _). rewrite vec4_back in H. injection H as <-. apply shown_same. Qed.
Lemma texture_shown v d : wt SsbhString v = true -> un_text v = Ok d -> shown (to_json SText (text_doc d)) (to_json s_string v).
Proof. intros W H. injection H as <-. exact (text_shown 4 v W). Qed.
Lemma uv_shown v d : wt UvTransform v = true -> un_uv v = Ok d -> shown (to_json s_matl_UvTransform (uv_val d)) (to_json s_matl_UvTransform v).
Proof. intros W H. apply struct_inv in W as (vs & -> & F). inv2. vecs. injection H as <-. apply shown_same. Qed.
Lemma blend16_shown v d : wt BlendStateV16 v = true -> un_blend16 v = Ok d -> blend_agree (to_json sd_blend (blend_doc d)) (to_json s_matl_BlendStateV16 v).
Proof.
  intros W H. apply struct_inv in W as (vs & -> & F). inv2. reprs. injection H as <-. split; [all_shown|].
  match goal with |- agree_or _ _ (to_json _ (blend_doc (Bld _ _ _ _ _ _ (negb (?n =? 0))))) _ => exists (JBool (negb (n =? 0))); split; [now destruct n|exact (shown_flag n)] end.
Qed.
Lemma blend15_shown v d : wt BlendStateV15 v = true -> un_blend15 v = Ok d -> blend_agree (to_json sd_blend (blend_doc d)) (to_json s_matl_BlendStateV15 v).
Proof.
  intros W H. apply struct_inv in W as (vs & -> & F). inv2. reprs. injection H as <-. split; [all_shown|]. exists (JBool false). split; reflexivity.
Qed.
Lemma raster16_shown v d : wt RasterizerStateV16 v = true -> un_raster16 v = Ok d -> raster_agree (to_json sd_raster (raster_doc d)) (to_json s_matl_RasterizerStateV16 v).
Proof.
  intros W H. apply struct_inv in W as (vs & -> & F). inv2. reprs. injection H as <-. split; [pick show|].
  split; (eexists; split; [reflexivity|]; apply shown_same).
Qed.
Lemma raster15_shown v d : wt RasterizerStateV15 v = true -> un_raster15 v = Ok d -> raster_agree (to_json sd_raster (raster_doc d)) (to_json s_matl_RasterizerStateV15 v).
Proof.
  intros W H. apply struct_inv in W as (vs & -> & F). inv2. reprs. injection H as <-. split; [pick show|].
  split; (eexists; split; [reflexivity|]; reflexivity).
Qed.
Lemma sampler_shown v d : wt Sampler v = true -> un_sampler v = Ok d -> sampler_agree (to_json sd_sampler (sampler_doc d)) (to_json s_matl_Sampler v).
Proof.
  intros W H. apply struct_inv in W as (vs & -> & F). inv2.
  match goal with H : wt MaxAnisotropy ?v = true |- _ => destruct v as [an| | | | |]; try discriminate H end.
  match goal with H : wt Color4f ?v = true |- _ => change (wt Vector4 v = true) in H end.
  match goal with H : wt FilteringType _ = true |- _ => apply (repr_any _ _ 3) in H as (fl & -> & Hf) end.
  reprs. cbn [un_sampler] in H. rewrite vec4_back in H. cbn [bind] in H. injection H as <-. split; [all_shown|].
  assert (C : fl = 0 \/ fl = 1 \/ fl = 2) by (clear - Hf; unfold below in Hf; lia). destruct C as [-> | [-> | ->]].
  all: eexists; eexists; split; [reflexivity|]; split; [reflexivity|]; split; intros E; try discriminate E; try reflexivity; now elim E.
Qed.
Lemma matl_entry_shown bt rt blend rast ub ur v e :
  (forall v d, wt bt v = true -> ub v = Ok d -> blend_agree (to_json sd_blend (blend_doc d)) (to_json blend v)) ->
  (forall v d, wt rt v = true -> ur v = Ok d -> raster_agree (to_json sd_raster (raster_doc d)) (to_json rast v)) ->
  wt (MatlEntry bt rt) v = true -> un_matl_entry ub ur v = Ok e ->
  entry_agree (to_json sd_matl_entry (matl_entry_doc e))
    (to_json (SStruct [("material_label", s_string); ("attributes", SArr (attributes blend rast)); ("shader_label", s_string)]%string) v).
Proof.
  intros Hb Hr W H. apply struct_inv in W as (vs & -> & F). inv2. arrays.
  match goal with H : forallb _ ?l = true |- _ => rename l into attrs, H into Wa end. unfold un_matl_entry in H.
  apply bind_ok in H as (vectors & E1 & H). apply bind_ok in H as (floats & E2 & H). apply bind_ok in H as (bools & E3 & H).
  apply bind_ok in H as (textures & E4 & H). apply bind_ok in H as (samplers & E5 & H). apply bind_ok in H as (blends & E6 & H).
  apply bind_ok in H as (rasters & E7 & H). apply bind_ok in H as (uvs & E8 & H). injection H as <-. split; [all_shown|].
  exists (map (to_json (attributes blend rast)) attrs). split; [reflexivity|].
  assert (P : forall A x tag ty s (un : val -> res A) doc sd (R : json -> json -> Prop) ps, In (tag, x, s) (variants blend rast) -> In (tag, ty) (param_types bt rt) ->
    (forall v d, wt ty v = true -> un v = Ok d -> R (to_json sd (doc d)) (to_json s v)) -> MatlData.get_attributes tag un attrs = Ok ps ->
    forall y d, get y d = Some (to_json (SArr (sd_param sd)) (list_doc (param_doc doc) ps)) ->
    params_agree y x R d (map (to_json (attributes blend rast)) attrs)).
  { intros A x tag ty s un doc sd R ps I J Hx G yy d E. exists (map (fun p => to_json (sd_param sd) (param_doc doc p)) ps). split.
    - rewrite E. unfold list_doc. cbn [to_json]. now rewrite map_map.
    - exact (params_shown _ _ _ _ _ _ _ _ un doc sd R I J Hx attrs ps Wa G). }
  split; [|split; [|split; [|split; [|split; [|split; [|split]]]]]].
  - eapply (P _ _ _ _ _ _ int_doc SF32); [| |exact float_shown|exact E2|reflexivity]; [unfold variants|unfold param_types]; cbn [In]; tauto.
  - eapply (P _ _ _ _ _ _ bool_doc SBool); [| |exact bool_shown|exact E3|reflexivity]; [unfold variants|unfold param_types]; cbn [In]; tauto.
  - eapply (P _ _ _ _ _ _ vec4_val s_vectors_Vector4); [| |exact vector_shown|exact E1|reflexivity]; [unfold variants|unfold param_types]; cbn [In]; tauto.
  - eapply (P _ _ _ _ _ _ text_doc SText); [| |exact texture_shown|exact E4|reflexivity]; [unfold variants|unfold param_types]; cbn [In]; tauto.
  - eapply (P _ _ _ _ _ _ uv_val s_matl_UvTransform); [| |exact uv_shown|exact E8|reflexivity]; [unfold variants|unfold param_types]; cbn [In]; tauto.
  - eapply (P _ _ _ _ _ _ blend_doc sd_blend); [| |exact Hb|exact E6|reflexivity]; [unfold variants|unfold param_types]; cbn [In]; tauto.
  - eapply (P _ _ _ _ _ _ raster_doc sd_raster); [| |exact Hr|exact E7|reflexivity]; [unfold variants|unfold param_types]; cbn [In]; tauto.
  - eapply (P _ _ _ _ _ _ sampler_doc sd_sampler); [| |exact sampler_shown|exact E5|reflexivity]; [unfold variants|unfold param_types]; cbn [In]; tauto.
Qed.
Theorem matl_agrees order b dj fj : bytes_ok b = true -> data_to_json order "numatb" b = Some (Ok dj) -> file_to_json "numatb" b = Ok fj ->
  matl_agree dj (content fj).
Proof.
  intros Hb D Fj. apply (data_of_json _ _ DkMatl) in D as (d & L & ->); [|reflexivity]. cbn [load_as] in L. apply bind_ok in L as (m & L & E).
  injection E as <-. unfold matl_data_read in L. apply bind_ok in L as ([version v] & R & U).
  destruct (open_file _ _ _ _ _ _ Hb R Fj eq_refl eq_refl) as (-> & t & F & W). clear R Fj.
  assert (V : (version = (1, 5) /\ t = Matl_V15) \/ (version = (1, 6) /\ t = Matl_V16)).
  { destruct version as [ma mi]. cbn in F. unfold ver_eqb in F. cbn [fst snd] in F.
    destruct ((ma =? 1) && (mi =? 5)) eqn:C; [injection F as <-; left; split; [f_equal; lia|reflexivity]|].
    destruct ((ma =? 1) && (mi =? 6)) eqn:C'; [injection F as <-; right; split; [f_equal; lia|reflexivity]|discriminate F]. }
  clear F. destruct V as [[-> ->]|[-> ->]]; apply struct_inv in W as (vs & -> & F); inv2; arrays;
    cbn [un_matl] in U; apply bind_ok in U as (es & E & U); injection U as <-;
    (eexists; eexists; split; [reflexivity|]; split; [reflexivity|]); unfold list_doc; cbn [mt_entries]; rewrite map_map.
  - refine (list_shown (MatlEntry BlendStateV15 RasterizerStateV15) un_entry15 (fun e => to_json sd_matl_entry (matl_entry_doc e)) _ _ _ _ _ _ E); [|assumption].
    intros v e. exact (matl_entry_shown _ _ _ _ _ _ v e blend15_shown raster15_shown).
  - refine (list_shown (MatlEntry BlendStateV16 RasterizerStateV16) un_entry16 (fun e => to_json sd_matl_entry (matl_entry_doc e)) _ _ _ _ _ _ E); [|assumption].
    intros v e. exact (matl_entry_shown _ _ _ _ _ _ v e blend16_shown raster16_shown).
Qed.
