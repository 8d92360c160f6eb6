(** Lemmas about materials. *)
From Coq Require Import Lia ZifyBool ZifyNat ZifyN.
From Verif Require Import Bytes BytesFacts Ssbh File SsbhSpec SsbhFacts Formats Strings Bits Float32 AnimComp AnimBuf AnimSpec.
From Verif Require Import SsbhLemmas FileSpec AnimFacts AnimDataFacts SmallData DataSpec SmallDataFacts MatlData MatlSpec.
Ltac Zify.zify_post_hook ::= ZifyBool.elim_bool_cstr; Z.to_euclidean_division_equations.

#[local] Strategy opaque [typed_write typed_read].

Ltac split_ok := repeat match goal with H : (_ && _) = true |- _ => apply andb_true_iff in H as [? ?] end.

(** ** Values and their types *)
Lemma wt_repr w a tags n : existsb (Z.eqb n) tags = true -> wt (TRepr w a tags) (VInt n) = true.
Proof. auto. Qed.
Lemma below_in n x : below n x = true -> existsb (Z.eqb x) (map Z.of_nat (seq 0 (Z.to_nat n))) = true.
Proof.
  unfold below. intros H. apply existsb_exists. exists x. split; [|lia]. apply in_map_iff. exists (Z.to_nat x). split; [lia|].
  apply in_seq. lia.
Qed.
Lemma wt_wpadded_cons t ts v vs k : wt (wpadded (t :: ts) k) (VStruct (v :: vs)) = wt t v && wt (wpadded ts k) (VStruct vs).
Proof. unfold wpadded. rewrite !wt_struct. reflexivity. Qed.
Lemma wt_wpadded_nil k : wt (wpadded [] k) (VStruct []) = true.
Proof. reflexivity. Qed.
Ltac wtm := rewrite ?wt_record_cons, ?wt_wpadded_cons, ?wt_record_nil, ?wt_wpadded_nil.

Lemma wt_param_id x : below 366 x = true -> wt ParamId (VInt x) = true.
Proof. intros H. exact (below_in _ _ H). Qed.
Lemma wt_factor x : below 11 x = true -> wt BlendFactor (VInt x) = true.
Proof. intros H. exact (below_in _ _ H). Qed.
Lemma wt_op x : below 5 x = true -> wt BlendOperation (VInt x) = true.
Proof. intros H. exact (below_in _ _ H). Qed.
Lemma wt_wrap x : below 4 x = true -> wt WrapMode (VInt x) = true.
Proof. intros H. exact (below_in _ _ H). Qed.
Lemma wt_filter x : below 3 x = true -> wt MinFilter (VInt x) = true.
Proof. intros H. exact (below_in _ _ H). Qed.
Lemma wt_fill x : below 2 x = true -> wt FillMode (VInt x) = true.
Proof. intros H. exact (below_in _ _ H). Qed.
Lemma wt_cull x : below 3 x = true -> wt CullMode (VInt x) = true.
Proof. intros H. exact (below_in _ _ H). Qed.

Lemma wt_sampler s : sampler_ok s = true -> wt Sampler (sampler_val s) = true.
Proof.
  unfold sampler_ok. intros H. split_ok. unfold Sampler, sampler_val. wtm.
  change MagFilter with MinFilter. change Color4f with Vector4.
  rewrite !wt_wrap, !wt_filter, wt_vec4 by auto. rewrite (wt_f32 (sm_lod s)) by auto.
  replace (wt MaxAnisotropy (VInt (sm_aniso s))) with true by (symmetry; exact H0).
  destruct (sm_aniso s =? 1); reflexivity.
Qed.
Lemma wt_blend16 b : blend_ok b = true -> wt BlendStateV16 (blend16_val b) = true.
Proof.
  unfold blend_ok. intros H. split_ok. unfold BlendStateV16, blend16_val, bool32_val. wtm.
  rewrite !wt_factor, !wt_op by auto. destruct (bl_coverage b); reflexivity.
Qed.
Lemma wt_blend15 b : blend_ok b = true -> wt BlendStateV15 (blend15_val b) = true.
Proof.
  unfold blend_ok. intros H. split_ok. unfold BlendStateV15, blend15_val, bool32_val. wtm.
  rewrite !(wt_factor (bl_src b)), !(wt_factor (bl_dst b)) by auto. reflexivity.
Qed.
Lemma wt_raster16 r : raster_ok r = true -> wt RasterizerStateV16 (raster16_val r) = true.
Proof.
  unfold raster_ok. intros H. split_ok. unfold RasterizerStateV16, raster16_val. wtm.
  rewrite wt_fill, wt_cull, (wt_f32 (rs_bias r)) by auto. reflexivity.
Qed.
Lemma wt_raster15 r : raster_ok r = true -> wt RasterizerStateV15 (raster15_val r) = true.
Proof. unfold raster_ok. intros H. split_ok. unfold RasterizerStateV15, raster15_val. wtm. now rewrite wt_cull by auto. Qed.
Lemma wt_uv u : uvt_ok u = true -> wt UvTransform (uv_val u) = true.
Proof. unfold uvt_ok. intros H. split_ok. unfold UvTransform, uv_val. wtm. now rewrite !wt_f32 by auto. Qed.
Lemma wt_flag b : (fun _ : bool => true) b = true -> wt u32 (bool32_val b) = true.
Proof. now destruct b. Qed.

Lemma sampler_back s : un_sampler (sampler_val s) = Ok s.
Proof.
  destruct s as [a b c d e f g h]. unfold sampler_val, un_sampler. cbn [sm_wraps sm_wrapt sm_wrapr sm_min sm_mag sm_border sm_lod sm_aniso].
  rewrite vec4_back. cbn [bind]. destruct (h =? 1) eqn:E; [apply Z.eqb_eq in E; now subst h|reflexivity].
Qed.
Lemma blend16_back b : un_blend16 (blend16_val b) = Ok b.
Proof. destruct b as [a b c d e f []]; reflexivity. Qed.
Lemma blend15_back b : un_blend15 (blend15_val b) = Ok (blend15 b).
Proof. reflexivity. Qed.
Lemma raster16_back r : un_raster16 (raster16_val r) = Ok r.
Proof. now destruct r. Qed.
Lemma raster15_back r : un_raster15 (raster15_val r) = Ok (raster15 r).
Proof. reflexivity. Qed.
Lemma uv_back u : un_uv (uv_val u) = Ok u.
Proof. now destruct u. Qed.
Lemma flag_back b : un_bool32 (bool32_val b) = Ok b.
Proof. now destruct b. Qed.

(** ** Attribute lists *)
Lemma get_attributes_app {A} tag (un : val -> res A) a b ps qs :
  get_attributes tag un a = Ok ps -> get_attributes tag un b = Ok qs -> get_attributes tag un (a ++ b) = Ok (ps ++ qs).
Proof.
  revert ps. induction a as [|v a IH]; intros ps Ha Hb; [injection Ha as <-; exact Hb|].
  cbn [app]. cbn [get_attributes] in *.
  destruct v as [| |vs| | |]; try discriminate Ha.
  destruct vs as [|[n| | | | |] [|[| | | |[[| | | | |t [| |[|v [|]]| | |]]|]|] [|]]]; try discriminate Ha; [|now apply IH].
  destruct (t =? tag); [|now apply IH]. destruct (un v) as [d| |]; try discriminate Ha. cbn [bind] in *.
  destruct (get_attributes tag un a) as [l| |]; try discriminate Ha. cbn [bind] in Ha. injection Ha as <-.
  now rewrite (IH l eq_refl Hb).
Qed.
Lemma get_same {A} tag (f : A -> val) (un : val -> res A) (g : A -> A) l : (forall p, In p l -> un (f (pr_data p)) = Ok (g (pr_data p))) ->
  get_attributes tag un (map (attribute tag f) l) = Ok (map (on_data g) l).
Proof.
  induction l as [|p l IH]; intros H; [reflexivity|]. cbn [map]. unfold attribute at 1. cbn [get_attributes]. rewrite Z.eqb_refl.
  rewrite H by now left. cbn [bind]. rewrite IH; [reflexivity|]. intros q Hq. apply H. now right.
Qed.
Lemma on_data_id {A} (l : list (param A)) : map (on_data (fun x => x)) l = l.
Proof. rewrite <- (map_id l) at 2. apply map_ext. now intros []. Qed.
Lemma get_same' {A} tag (f : A -> val) (un : val -> res A) l : (forall p, In p l -> un (f (pr_data p)) = Ok (pr_data p)) ->
  get_attributes tag un (map (attribute tag f) l) = Ok l.
Proof. intros H. rewrite (get_same tag f un (fun x => x) l H). now rewrite on_data_id. Qed.
Lemma get_other {A B} tag tag' (f : A -> val) (un : val -> res B) l : tag' <> tag ->
  get_attributes tag un (map (attribute tag' f) l) = Ok [].
Proof.
  intros N. induction l as [|p l IH]; [reflexivity|]. cbn [map]. unfold attribute at 1. cbn [get_attributes].
  replace (tag' =? tag) with false by lia. exact IH.
Qed.

Lemma get_app {A} tag (un : val -> res A) a b ps qs r :
  get_attributes tag un a = Ok ps -> get_attributes tag un b = Ok qs -> r = ps ++ qs -> get_attributes tag un (a ++ b) = Ok r.
Proof. intros Ha Hb ->. now apply get_attributes_app. Qed.
Ltac get_all := lazymatch goal with
  | |- get_attributes _ _ (_ ++ _) = _ => eapply get_app; [get_all|get_all|cbn [app]; rewrite ?app_nil_r; reflexivity]
  | |- get_attributes ?t _ (map (attribute ?t _) _) = _ => first [solve [eapply get_same'; intros; auto]|solve [eapply get_same; intros; eauto]]
  | |- _ => apply get_other; lia
  end.

Lemma textures_back e : matl_entry_ok e = true -> forall p, In p (mt_textures e) -> un_text (ssbh_string (pr_data p)) = Ok (pr_data p).
Proof.
  intros ok p Hp. unfold un_text. f_equal. apply text_roundtrip. unfold matl_entry_ok in ok. split_ok.
  match goal with H : forallb (param_ok text_ok) _ = true |- _ => rewrite forallb_forall in H; apply H in Hp end.
  unfold param_ok in Hp. now apply andb_true_iff in Hp as [_ Hp].
Qed.
Lemma int_back n : un_z (VInt n) = Ok n. Proof. reflexivity. Qed.
#[local] Hint Resolve sampler_back blend16_back blend15_back raster16_back raster15_back uv_back flag_back vec4_back int_back textures_back : core.
Lemma entry_texts e : matl_entry_ok e = true -> text_ok (mt_label e) = true /\ text_ok (mt_shader e) = true.
Proof. unfold matl_entry_ok. intros H. split_ok. auto. Qed.

Lemma entry_count e : matl_entry_ok e = true -> param_count e < 2 ^ 64.
Proof. unfold matl_entry_ok. intros H. split_ok. clear - H8. lia. Qed.

Lemma entry16_back e : matl_entry_ok e = true -> un_entry16 (entry16_val e) = Ok e.
Proof.
  intros ok. destruct (entry_texts e ok) as [T1 T2]. pose proof (textures_back e ok) as T3.
  unfold un_entry16, un_matl_entry, entry16_val. set (attrs := map _ _ ++ _).
  assert (E1 : get_attributes 5 un_vec4 attrs = Ok (mt_vectors e)) by (unfold attrs; get_all).
  assert (E2 : get_attributes 1 un_z attrs = Ok (mt_floats e)) by (unfold attrs; get_all).
  assert (E3 : get_attributes 2 un_bool32 attrs = Ok (mt_bools e)) by (unfold attrs; get_all).
  assert (E4 : get_attributes 11 un_text attrs = Ok (mt_textures e)) by (unfold attrs; get_all).
  assert (E5 : get_attributes 14 un_sampler attrs = Ok (mt_samplers e)) by (unfold attrs; get_all).
  assert (E6 : get_attributes 17 un_blend16 attrs = Ok (mt_blends e)) by (unfold attrs; get_all).
  assert (E7 : get_attributes 18 un_raster16 attrs = Ok (mt_rasters e)) by (unfold attrs; get_all).
  assert (E8 : get_attributes 16 un_uv attrs = Ok (mt_uvs e)) by (unfold attrs; get_all).
  rewrite E1, E2, E3, E4, E5, E6, E7, E8. cbn [bind]. rewrite !text_roundtrip by auto. now destruct e.
Qed.
Theorem entry15_back e : matl_entry_ok e = true -> un_entry15 (entry15_val e) = Ok (stored_entry15 e).
Proof.
  intros ok. destruct (entry_texts e ok) as [T1 T2]. pose proof (textures_back e ok) as T3.
  unfold un_entry15, un_matl_entry, entry15_val. set (attrs := map _ _ ++ _).
  assert (E1 : get_attributes 5 un_vec4 attrs = Ok (mt_vectors e)) by (unfold attrs; get_all).
  assert (E2 : get_attributes 1 un_z attrs = Ok (mt_floats e)) by (unfold attrs; get_all).
  assert (E3 : get_attributes 2 un_bool32 attrs = Ok (mt_bools e)) by (unfold attrs; get_all).
  assert (E4 : get_attributes 11 un_text attrs = Ok (mt_textures e)) by (unfold attrs; get_all).
  assert (E5 : get_attributes 14 un_sampler attrs = Ok (mt_samplers e)) by (unfold attrs; get_all).
  assert (E6 : get_attributes 17 un_blend15 attrs = Ok (map (on_data blend15) (mt_blends e))) by (unfold attrs; get_all).
  assert (E7 : get_attributes 18 un_raster15 attrs = Ok (map (on_data raster15) (mt_rasters e))) by (unfold attrs; get_all).
  assert (E8 : get_attributes 16 un_uv attrs = Ok (mt_uvs e)) by (unfold attrs; get_all).
  rewrite E1, E2, E3, E4, E5, E6, E7, E8. cbn [bind]. now rewrite !text_roundtrip by auto.
Qed.

(** ** Entries are well typed *)
Lemma attributes_wt {A} blend rast tag (f : A -> val) (ok : A -> bool) l :
  (forall a, ok a = true -> wt (Param blend rast) (VPtr (Some (VCase tag (VStruct [f a])))) = true) ->
  forallb (param_ok ok) l = true -> forallb (wt (record [ParamId; Param blend rast])) (map (attribute tag f) l) = true.
Proof.
  intros H F. rewrite forallb_forall in *. intros v Hv. apply in_map_iff in Hv as (p & <- & Hp). apply F in Hp.
  unfold param_ok in Hp. split_ok. unfold attribute. wtm. rewrite wt_param_id, H by auto. reflexivity.
Qed.

Ltac wt_case := intros; cbv [Param variant]; cbn [wt Z.eqb Pos.eqb]; rewrite andb_true_r.
Lemma params_wt e blend_ty rast_ty bv rv : matl_entry_ok e = true ->
  (forall b, blend_ok b = true -> wt blend_ty (bv b) = true) -> (forall r, raster_ok r = true -> wt rast_ty (rv r) = true) ->
  let W l := forallb (wt (record [ParamId; Param blend_ty rast_ty])) l = true in
  W (map (attribute 17 bv) (mt_blends e)) /\ W (map (attribute 2 bool32_val) (mt_bools e)) /\
  W (map (attribute 1 VInt) (mt_floats e)) /\ W (map (attribute 5 vec4_val) (mt_vectors e)) /\
  W (map (attribute 18 rv) (mt_rasters e)) /\ W (map (attribute 14 sampler_val) (mt_samplers e)) /\
  W (map (attribute 11 ssbh_string) (mt_textures e)) /\ W (map (attribute 16 uv_val) (mt_uvs e)).
Proof.
  intros ok B R W. unfold matl_entry_ok in ok. split_ok.
  assert (C : forall tag v t, In (tag, record [t]) [variant 1 f32; variant 2 u32; variant 5 Vector4; variant 7 Color4f; variant 11 SsbhString;
         variant 14 Sampler; variant 16 UvTransform; variant 17 blend_ty; variant 18 rast_ty] -> wt t v = true ->
         wt (Param blend_ty rast_ty) (VPtr (Some (VCase tag (VStruct [v])))) = true).
  { intros tag v t I T. unfold Param, variant. cbn [wt]. cbn [In] in I. unfold variant in I.
    assert (T' : wt (record [t]) (VStruct [v]) = true) by (wtm; now rewrite T).
    repeat (destruct I as [I|I]; [injection I as <- I; rewrite <- I in T'; exact T'|]). contradiction. }
  assert (K : forall {A} tag (f : A -> val) ok l t, In (tag, record [t]) [variant 1 f32; variant 2 u32; variant 5 Vector4; variant 7 Color4f;
         variant 11 SsbhString; variant 14 Sampler; variant 16 UvTransform; variant 17 blend_ty; variant 18 rast_ty] ->
         (forall a, ok a = true -> wt t (f a) = true) -> forallb (param_ok ok) l = true -> W (map (attribute tag f) l)).
  { intros A tag f ok l t I T F. unfold W. eapply attributes_wt; [|exact F]. intros a Ha. eapply C; eauto. }
  unfold variant in K. repeat split.
  - eapply (K _ _ _ _ _ blend_ty); [cbn [In]; tauto|apply B|auto].
  - eapply (K _ _ _ _ _ u32); [cbn [In]; tauto|apply wt_flag|auto].
  - eapply (K _ _ _ _ _ f32); [cbn [In]; tauto|apply wt_f32|auto].
  - eapply (K _ _ _ _ _ Vector4); [cbn [In]; tauto|apply wt_vec4|auto].
  - eapply (K _ _ _ _ _ rast_ty); [cbn [In]; tauto|apply R|auto].
  - eapply (K _ _ _ _ _ Sampler); [cbn [In]; tauto|apply wt_sampler|auto].
  - eapply (K _ _ _ _ _ SsbhString); [cbn [In]; tauto|apply wt_text|auto].
  - eapply (K _ _ _ _ _ UvTransform); [cbn [In]; tauto|apply wt_uv|auto].
Qed.
Lemma wt_entry16 e : matl_entry_ok e = true -> wt (MatlEntry BlendStateV16 RasterizerStateV16) (entry16_val e) = true.
Proof.
  intros ok. destruct (entry_texts e ok) as [T1 T2].
  destruct (params_wt e _ _ _ _ ok wt_blend16 wt_raster16) as (A1 & A2 & A3 & A4 & A5 & A6 & A7 & A8).
  unfold MatlEntry, entry16_val, SsbhString. wtm. rewrite !wt_text by auto. cbn [andb]. rewrite andb_true_r.
  change (wt (TArr ?t) (VArr ?l)) with ((zlen l <? two64) && forallb (wt t) l). rewrite !forallb_app, A1, A2, A3, A4, A5, A6, A7, A8.
  cbn [andb]. apply entry_count in ok. clear - ok. unfold param_count, zlen in *. rewrite !app_length, !map_length.
  change two64 with (2 ^ 64). lia.
Qed.
Lemma wt_entry15 e : matl_entry_ok e = true -> wt (MatlEntry BlendStateV15 RasterizerStateV15) (entry15_val e) = true.
Proof.
  intros ok. destruct (entry_texts e ok) as [T1 T2].
  destruct (params_wt e _ _ _ _ ok wt_blend15 wt_raster15) as (A1 & A2 & A3 & A4 & A5 & A6 & A7 & A8).
  unfold MatlEntry, entry15_val, SsbhString. wtm. rewrite !wt_text by auto. cbn [andb]. rewrite andb_true_r.
  change (wt (TArr ?t) (VArr ?l)) with ((zlen l <? two64) && forallb (wt t) l). rewrite !forallb_app, A1, A2, A3, A4, A5, A6, A7, A8.
  cbn [andb]. apply entry_count in ok. clear - ok. unfold param_count, zlen in *. rewrite !app_length, !map_length.
  change two64 with (2 ^ 64). lia.
Qed.

(** ** Saving and loading *)
Lemma matl_file_ok es : len_ok es && forallb matl_entry_ok es = true ->
  file_ok (mkFile Matl (1, 6) (VStruct [VArr (map entry16_val es)])).
Proof.
  intros H. apply andb_true_iff in H as [L H]. unfold len_ok in L. exists Matl_V16. split; [reflexivity|]. cbn [fbody]. unfold Matl_V16. wtm.
  rewrite (wt_arr_map _ _ matl_entry_ok) by (auto using wt_entry16; lia). reflexivity.
Qed.
Theorem matl_save_load d out : matl_ok d = true -> matl_data_write d = Ok out -> zlen out < 2 ^ 63 -> matl_data_read out = Ok d.
Proof.
  intros W E L. unfold matl_data_write, matl_val in E.
  destruct ((mt_major d =? 1) && (mt_minor d =? 6)) eqn:V; [|discriminate E]. cbn [bind] in E.
  pose proof (typed_roundtrip _ _ _ _ (matl_file_ok _ W) E L) as T. unfold matl_data_read. rewrite T. cbn [bind un_matl].
  change (ver_eqb (1, 6) (1, 5)) with false. cbn match. rewrite un_list_map.
  - cbn [bind fst snd]. apply andb_true_iff in V as [V1 V2]. apply Z.eqb_eq in V1, V2. destruct d as [ma mi es]; cbn [mt_major mt_minor mt_entries] in *. now subst.
  - intros e He. apply entry16_back. unfold matl_ok in W. apply andb_true_iff in W as [_ W]. rewrite forallb_forall in W. auto.
Qed.
Theorem matl_write_result d : matl_ok d = true ->
  ((mt_major d, mt_minor d) = (1, 6) -> exists out, matl_data_write d = Ok out) /\
  ((mt_major d, mt_minor d) <> (1, 6) -> matl_data_write d = Err (EData DVersion)).
Proof.
  intros W. unfold matl_data_write, matl_val. split; intros V.
  - injection V as -> ->. cbn [Z.eqb Pos.eqb andb bind]. exact (typed_write_total _ _ _ (matl_file_ok _ W)).
  - destruct ((mt_major d =? 1) && (mt_minor d =? 6)) eqn:E; [|reflexivity]. exfalso. apply V. f_equal; lia.
Qed.

(** ** Reading any file *)
Lemma get_of_type {A} tag (un : val -> res A) attrs : forall ps, get_attributes tag un attrs = Ok ps -> read_from un ps (of_type tag attrs).
Proof.
  induction attrs as [|v attrs IH]; intros ps H; [injection H as <-; constructor|]. cbn [get_attributes] in H. unfold of_type. cbn [flat_map].
  destruct v as [| |vs| | |]; try discriminate H.
  destruct vs as [|[n| | | | |] [|[| | | |[[| | | | |t [| |[|v [|]]| | |]]|]|] [|]]]; try discriminate H; [|now apply IH].
  destruct (t =? tag); [|now apply IH]. destruct (un v) as [d| |] eqn:U; try discriminate H. cbn [bind] in H.
  destruct (get_attributes tag un attrs) as [l| |] eqn:G; try discriminate H. cbn [bind] in H. injection H as <-.
  cbn [app]. constructor; [split; [reflexivity|exact U]|]. now apply IH.
Qed.
Lemma un_entry_read ub ur v e : un_matl_entry ub ur v = Ok e -> entry_read ub ur e v.
Proof.
  unfold un_matl_entry. intros H. destruct v as [| |vs| | |]; try discriminate H.
  destruct vs as [|label [|[| | |attrs| |] [|shader [|]]]]; try discriminate H.
  repeat match type of H with bind ?x _ = Ok _ =>
    let E := fresh "E" in destruct x eqn:E; try discriminate H; cbn [bind] in H; apply get_of_type in E end.
  injection H as <-. exists label, attrs, shader. cbn [mt_label mt_shader mt_floats mt_bools mt_vectors mt_textures mt_samplers mt_uvs mt_blends mt_rasters].
  tauto.
Qed.
