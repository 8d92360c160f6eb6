(** Data loaded from any file: the conversion succeeds and the data can be saved again. *)
From Coq Require Import Lia ZifyBool ZifyNat ZifyN FinFun.
From Verif Require Import Bytes BytesFacts Ssbh File SsbhSpec SsbhFacts Formats FileFacts Strings Bits Float32 AnimComp AnimBuf AnimSpec.
From Verif Require Import SsbhLemmas FileSpec AnimFacts AnimDataFacts SmallData DataSpec SmallDataFacts MatlData MatlSpec MatlFacts.
From Verif Require Import DecFacts SkelData SkelSpec SkelFacts MeshEx MeshExFacts AdjData AdjSpec AdjDataFacts.
Ltac Zify.zify_post_hook ::= ZifyBool.elim_bool_cstr; Z.to_euclidean_division_equations.

Ltac oks := repeat match goal with |- (_ && _) = true => apply andb_true_intro; split end; auto.

(** ** Shapes of well typed values *)
Lemma fields_inv (ts : list ty) : forall vs, wt_fields (map (fun t => (t, (0, 0))) ts) vs = true -> Forall2 (fun t v => wt t v = true) ts vs.
Proof.
  induction ts as [|t ts IH]; intros [|v vs] H; try discriminate H; [constructor|]. cbn [map wt_fields fst] in H.
  apply andb_true_iff in H as [H1 H2]. constructor; auto.
Qed.
Lemma struct_inv ts k aa al v : wt (TStruct (map (fun t => (t, (0, 0))) ts) k aa al) v = true ->
  exists vs, v = VStruct vs /\ Forall2 (fun t v => wt t v = true) ts vs.
Proof.
  intros H. destruct v as [| |vs| | |]; try discriminate H. exists vs. split; [reflexivity|]. apply fields_inv. now rewrite wt_struct in H.
Qed.
Lemma arr_inv t v : wt (TArr t) v = true -> exists l, v = VArr l /\ zlen l < 2 ^ 64 /\ forallb (wt t) l = true.
Proof.
  intros H. destruct v as [| | |l| |]; try discriminate H. exists l. split; [reflexivity|].
  change (wt (TArr t) (VArr l)) with ((zlen l <? two64) && forallb (wt t) l) in H. apply andb_true_iff in H as [H1 H2].
  change two64 with (2 ^ 64) in H1. split; [lia|exact H2].
Qed.
Ltac inv2 := repeat match goal with
  | H : Forall2 _ (_ :: _) _ |- _ => inversion H; clear H; subst
  | H : Forall2 _ [] _ |- _ => inversion H; clear H; subst
  end.

Lemma int_any w v : wt (TInt w) v = true -> exists n, v = VInt n /\ 0 <= n < 256 ^ w.
Proof. destruct v; try discriminate 1. cbn [wt]. intros H. eexists. split; [reflexivity|]. lia. Qed.
Lemma f32_any v : wt f32 v = true -> exists n, v = VInt n /\ is32 n = true.
Proof. intros H. apply int_any in H as (n & -> & H). exists n. split; [reflexivity|]. unfold is32. lia. Qed.
Lemma u32_any v : wt u32 v = true -> exists n, v = VInt n /\ u32_ok n = true.
Proof. exact (f32_any v). Qed.
Lemma repr_any w a n v : wt (TRepr w a (map Z.of_nat (seq 0 (Z.to_nat n)))) v = true -> exists x, v = VInt x /\ below n x = true.
Proof.
  destruct v as [x| | | | |]; try discriminate 1. cbn [wt]. intros H. exists x. split; [reflexivity|].
  apply existsb_exists in H as (y & Hy & E). apply in_map_iff in Hy as (k & <- & Hk). apply in_seq in Hk. unfold below. lia.
Qed.
Lemma vec3_any v : wt Vector3 v = true -> exists x, v = vec3_val x /\ vec3_ok x = true.
Proof.
  intros H. apply struct_inv in H as (vs & -> & F). inv2. repeat match goal with H : wt f32 _ = true |- _ => apply f32_any in H as (? & -> & ?) end.
  exists (V3 x1 x0 x). split; [reflexivity|]. unfold vec3_ok. cbn [v3x v3y v3z]. oks.
Qed.
Lemma vec4_any v : wt Vector4 v = true -> exists x, v = vec4_val x /\ vec4_ok x = true.
Proof.
  intros H. apply struct_inv in H as (vs & -> & F). inv2. repeat match goal with H : wt f32 _ = true |- _ => apply f32_any in H as (? & -> & ?) end.
  exists (V4 x2 x1 x0 x). split; [reflexivity|]. unfold vec4_ok. cbn [v4x v4y v4z v4w]. oks.
Qed.
Lemma cstr_any n v : wt (TCStr n) v = true -> exists bs, v = VBytes bs /\ forallb (fun x => negb (x =? 0)) bs = true.
Proof.
  destruct v as [|bs| | | |]; try discriminate 1. cbn [wt]. intros H. exists bs. split; [reflexivity|].
  rewrite forallb_forall in *. intros x Hx. apply H in Hx. lia.
Qed.
Lemma text_any n v : wt (SsbhStringN n) v = true -> text_ok (ssbh_to_string_lossy v) = true.
Proof.
  intros H. apply (struct_inv [TRel (TCStr n)]) in H as (vs & -> & F). inv2.
  match goal with H : wt (TRel _) ?v = true |- _ => destruct v as [| | | |[s|]|]; try discriminate H;
    [change (wt (TRel (TCStr n)) (VPtr (Some s))) with (wt (TCStr n) s) in H; apply cstr_any in H as (bs & -> & Hb)|reflexivity] end.
  unfold ssbh_to_string_lossy, ssbh_to_str, cstring_to_str, text_ok. destruct (utf8_valid bs) eqn:U; [|reflexivity]. now rewrite U, Hb.
Qed.
Lemma list_any {A} t (un : val -> res A) (ok : A -> bool) l :
  (forall v, wt t v = true -> exists x, un v = Ok x /\ ok x = true) -> forallb (wt t) l = true ->
  exists xs, un_list un l = Ok xs /\ forallb ok xs = true /\ zlen xs = zlen l.
Proof.
  intros H. induction l as [|v l IH]; intros F; [exists []; auto|]. cbn [forallb] in F. apply andb_true_iff in F as [F1 F2].
  destruct (H v F1) as (x & U & O'). destruct (IH F2) as (xs & U2 & O2 & L). exists (x :: xs). cbn [un_list forallb]. rewrite U. cbn [bind].
  rewrite U2. cbn [bind]. rewrite O', O2. split; [reflexivity|]. split; [reflexivity|]. rewrite !zlen_cons. lia.
Qed.
Ltac anys := repeat match goal with
  | H : wt f32 _ = true |- _ => apply f32_any in H as (? & -> & ?)
  | H : wt u32 _ = true |- _ => apply u32_any in H as (? & -> & ?)
  | H : wt Vector3 _ = true |- _ => apply vec3_any in H as (? & -> & ?)
  | H : wt Vector4 _ = true |- _ => apply vec4_any in H as (? & -> & ?)
  | H : wt SsbhString _ = true |- _ => apply (text_any 4) in H
  | H : wt SsbhString8 _ = true |- _ => apply (text_any 8) in H
  end.

(** ** The typed reader *)
Lemma typed_read_ok k b version v : bytes_ok b = true -> typed_read k b = Ok (version, v) -> file_ok (mkFile k version v).
Proof.
  intros Hb H. unfold typed_read in H. apply bind_ok in H as (f & E & H). apply file_read_ok in E; [|exact Hb].
  destruct f as [k' v' b']. cbn [fkind fver fbody] in *. destruct k', k; try discriminate H; injection H as -> ->; exact E.
Qed.

#[local] Strategy opaque [typed_write typed_read].

(** ** Modl *)
Lemma modl_any v : wt Modl_V17 v = true -> exists d, un_modl (1, 7) v = Ok d /\ modl_ok d = true /\ stored_modl d = d.
Proof.
  intros H. apply struct_inv in H as (vs & -> & F). inv2. anys.
  repeat match goal with H : wt (TArr _) _ = true |- _ => apply arr_inv in H as (? & -> & ? & ?) end.
  match goal with H : forallb (wt ModlEntry) _ = true |- _ => apply (list_any _ un_modl_entry modl_entry_ok) in H as (es & E & Oe & Le) end.
  2:{ intros v Hv. apply struct_inv in Hv as (vs & -> & F). inv2. anys.
      match goal with H : wt u64 _ = true |- _ => apply int_any in H as (i & -> & ?) end. eexists. split; [reflexivity|].
      unfold modl_entry_ok. cbn [me_name me_subindex me_material]. oks. unfold u64_ok. lia. }
  match goal with H : wt (TRel _) ?v = true |- _ => destruct v as [| | | |o|]; try discriminate H; rename H into Ho end.
  cbn [un_modl]. rewrite E. cbn [bind fst snd]. eexists. split; [reflexivity|]. split; [|reflexivity].
  unfold modl_ok. cbn [md_model md_skel md_materials md_anim md_mesh md_entries]. unfold len_ok. oks.
  - unfold zlen. rewrite map_length. unfold zlen in *. lia.
  - match goal with H : forallb (wt SsbhString) _ = true |- _ => rewrite forallb_forall in H; rename H into G end.
    apply forallb_forall. intros s Hs. apply in_map_iff in Hs as (s' & <- & Hs). apply (text_any 4). now apply G.
  - destruct o as [s|]; [|reflexivity]. cbn [option_map]. apply (text_any 4). exact Ho.
  - lia.
Qed.
Theorem modl_reload b d : bytes_ok b = true -> modl_data_read b = Ok d ->
  exists out, modl_data_write d = Ok out /\ (zlen out < 2 ^ 63 -> modl_data_read out = Ok d).
Proof.
  intros Hb H. unfold modl_data_read in H. apply bind_ok in H as ([version v] & E & H).
  apply typed_read_ok in E as (t & F & W); [|exact Hb]. cbn [fkind fver fbody] in *.
  assert (version = (1, 7) /\ t = Modl_V17) as [-> ->].
  { destruct version as [ma mi]. cbn in F. unfold ver_eqb in F. cbn [fst snd] in F.
    destruct ((ma =? 1) && (mi =? 7)) eqn:V; [|discriminate F]. injection F as <-. split; [f_equal; lia|reflexivity]. }
  destruct (modl_any v W) as (d' & U & O' & S). rewrite U in H. injection H as ->.
  destruct (modl_write_total d O') as (out & Wr). exists out. split; [exact Wr|]. intros L. rewrite (modl_save_load d out O' Wr L). now rewrite S.
Qed.

(** ** Hlpb *)
Lemma aim_any v : wt AimConstraint v = true -> exists a, un_aim v = Ok a /\ aim_ok a = true.
Proof.
  intros H. apply struct_inv in H as (vs & -> & F). inv2. anys. cbn [un_aim]. rewrite !vec3_back, !vec4_back. cbn [bind].
  eexists. split; [reflexivity|]. unfold aim_ok.
  cbn [forallb am_name am_bone1 am_bone2 am_type1 am_type2 am_target1 am_target2 am_unk1 am_unk2 am_aim am_up am_quat1 am_quat2]. oks.
Qed.
Lemma orient_any v : wt OrientConstraint v = true -> exists a, un_orient v = Ok a /\ orient_ok a = true.
Proof.
  intros H. apply struct_inv in H as (vs & -> & F). inv2. anys. cbn [un_orient]. rewrite !vec3_back, !vec4_back. cbn [bind].
  eexists. split; [reflexivity|]. unfold orient_ok.
  cbn [forallb or_name or_parent1 or_parent2 or_source or_target or_type or_axes or_quat1 or_quat2 or_min or_max]. oks.
Qed.
Theorem hlpb_reload b d : bytes_ok b = true -> hlpb_data_read b = Ok d ->
  zlen (hd_aims d) < 2 ^ 32 -> zlen (hd_orients d) < 2 ^ 32 ->
  exists out, hlpb_data_write d = Ok out /\ (zlen out < 2 ^ 63 -> hlpb_data_read out = Ok d).
Proof.
  intros Hb H La Lo. unfold hlpb_data_read in H. apply bind_ok in H as ([version v] & E & H).
  apply typed_read_ok in E as (t & F & W); [|exact Hb]. cbn [fkind fver fbody] in *.
  assert (t = Hlpb_V11) as ->.
  { destruct version as [ma mi]. cbn in F. unfold ver_eqb in F. cbn [fst snd] in F.
    destruct ((ma =? 1) && (mi =? 1)); [|discriminate F]. now injection F as <-. }
  apply struct_inv in W as (vs & -> & F2). inv2.
  repeat match goal with H : wt (TArr _) _ = true |- _ => apply arr_inv in H as (? & -> & ? & ?) end.
  match goal with H : forallb (wt AimConstraint) _ = true |- _ => apply (list_any _ un_aim aim_ok) in H as (xs & Ea & Oa & _); [|exact aim_any] end.
  match goal with H : forallb (wt OrientConstraint) _ = true |- _ => apply (list_any _ un_orient orient_ok) in H as (ys & Eo & Oo & _); [|exact orient_any] end.
  cbn [un_hlpb] in H. rewrite Ea in H. cbn [bind] in H. rewrite Eo in H. cbn [bind] in H. injection H as <-. cbn [hd_aims hd_orients] in *.
  assert (O' : hlpb_ok (HD 1 1 xs ys) = true) by (unfold hlpb_ok; cbn [hd_aims hd_orients]; oks; lia).
  destruct (hlpb_write_total _ O') as (out & Wr). exists out. split; [exact Wr|]. intros L. exact (hlpb_save_load _ out O' Wr L).
Qed.

(** ** Skel *)
Lemma mat_any v : wt Matrix4x4 v = true -> exists m, un_mat v = Ok m /\ mat_ok m = true.
Proof.
  intros H. apply struct_inv in H as (vs & -> & F). inv2. anys. cbn [un_mat]. rewrite !vec4_back. cbn [bind].
  eexists. split; [reflexivity|]. unfold mat_ok. cbn [col1 col2 col3 col4]. oks.
Qed.
Lemma bone_any e t : wt SkelBoneEntry e = true -> wt Matrix4x4 t = true -> exists b, un_bone e t = Ok b /\ bone_ok b = true.
Proof.
  intros He Ht. apply mat_any in Ht as (m & Em & Om). apply struct_inv in He as (vs & -> & F). inv2. anys.
  repeat match goal with H : wt u16 _ = true |- _ => apply int_any in H as (? & -> & ?) end.
  repeat match goal with H : wt i16 _ = true |- _ => apply int_any in H as (? & -> & ?) end.
  match goal with H : wt SkelEntryFlags ?f = true |- _ => rename H into Wf; destruct f as [| |fs| | |]; try discriminate Wf;
    destruct fs as [|a [|c [|]]]; unfold SkelEntryFlags, padded in Wf; rewrite wt_struct in Wf; cbn [map app wt_fields fst] in Wf;
    rewrite ?andb_false_r in Wf; try discriminate Wf end.
  apply andb_true_iff in Wf as [Wa Wc]. rewrite andb_true_r in Wc. apply int_any in Wa as (? & -> & ?).
  destruct c as [c| | | | |]; try discriminate Wc. cbn [un_bone]. rewrite Em. cbn [bind]. eexists. split; [reflexivity|].
  unfold bone_ok. cbn [bn_name bn_transform bn_parent bn_billboard]. oks.
  match goal with |- context [if ?c then _ else _] => destruct c eqn:C end; [|reflexivity]. lia.
Qed.
Lemma bones_any es : forall ts, forallb (wt SkelBoneEntry) es = true -> forallb (wt Matrix4x4) ts = true ->
  exists bs, un_bones es ts = Ok bs /\ forallb bone_ok bs = true /\ zlen bs <= zlen es.
Proof.
  induction es as [|e es IH]; intros ts We Wt; [exists []; cbn; auto with zarith|].
  destruct ts as [|t ts]; [exists []; pose proof (zlen_nonneg (e :: es)); cbn; auto|].
  cbn [forallb] in *. apply andb_true_iff in We as [We1 We2]. apply andb_true_iff in Wt as [Wt1 Wt2].
  destruct (bone_any e t We1 Wt1) as (b & Eb & Ob). destruct (IH ts We2 Wt2) as (bs & Es & Os & L).
  exists (b :: bs). cbn [un_bones]. rewrite Eb. cbn [bind]. rewrite Es. cbn [bind forallb]. rewrite Ob, Os. rewrite !zlen_cons. repeat split; auto with zarith.
Qed.
Theorem skel_reload mul inv b bones : (forall a c, mat_ok (mul a c) = true) -> (forall a, mat_ok (inv a) = true) ->
  bytes_ok b = true -> skel_data_read b = Ok bones ->
  skel_data_write mul inv bones = Err (EData DCycle) \/
  exists out, skel_data_write mul inv bones = Ok out /\ (zlen out < 2 ^ 63 -> skel_data_read out = Ok bones).
Proof.
  intros Mo Io Hb H. unfold skel_data_read in H. apply bind_ok in H as ([version v] & E & H).
  apply typed_read_ok in E as (t & F & W); [|exact Hb]. cbn [fkind fver fbody] in *.
  assert (t = Skel_V10) as ->.
  { destruct version as [ma mi]. cbn in F. unfold ver_eqb in F. cbn [fst snd] in F.
    destruct ((ma =? 1) && (mi =? 0)); [|discriminate F]. now injection F as <-. }
  apply struct_inv in W as (vs & -> & F2). inv2.
  repeat match goal with H : wt (TArr _) _ = true |- _ => apply arr_inv in H as (? & -> & ? & ?) end. cbn [un_skel] in H.
  match type of H with un_bones ?es ?ts = _ => assert (K : exists bs, un_bones es ts = Ok bs /\ forallb bone_ok bs = true /\ zlen bs <= zlen es)
    by (apply bones_any; assumption) end.
  destruct K as (bs & U & Ob & Lb). rewrite U in H. injection H as ->.
  assert (O' : bones_ok bones = true) by (unfold bones_ok; oks; lia).
  destruct (worlds_dec mul inv bones bones (bones_parents _ O') (bones_parents _ O')) as [A|A].
  - right. destruct (proj1 (skel_write_result mul inv Mo Io bones O') A) as (out & Wr). exists out. split; [exact Wr|].
    intros L. exact (skel_save_load mul inv Mo Io bones out O' Wr L).
  - left. exact (proj2 (skel_write_result mul inv Mo Io bones O') A).
Qed.

(** ** Matl *)
Ltac reprs := repeat match goal with
  | H : wt BlendFactor _ = true |- _ => apply (repr_any _ _ 11) in H as (? & -> & ?)
  | H : wt BlendOperation _ = true |- _ => apply (repr_any _ _ 5) in H as (? & -> & ?)
  | H : wt WrapMode _ = true |- _ => apply (repr_any _ _ 4) in H as (? & -> & ?)
  | H : wt MinFilter _ = true |- _ => apply (repr_any _ _ 3) in H as (? & -> & ?)
  | H : wt MagFilter _ = true |- _ => apply (repr_any _ _ 3) in H as (? & -> & ?)
  | H : wt FilteringType _ = true |- _ => apply (repr_any _ _ 3) in H as (? & -> & ?)
  | H : wt CullMode _ = true |- _ => apply (repr_any _ _ 3) in H as (? & -> & ?)
  | H : wt FillMode _ = true |- _ => apply (repr_any _ _ 2) in H as (? & -> & ?)
  | H : wt u64 _ = true |- _ => apply int_any in H as (? & -> & ?)
  end; anys.
Lemma uv_any v : wt UvTransform v = true -> exists u, un_uv v = Ok u /\ uvt_ok u = true.
Proof. intros H. apply struct_inv in H as (vs & -> & F). inv2. reprs. eexists. split; [reflexivity|]. unfold uvt_ok. cbn [uv_su uv_sv uv_rot uv_tu uv_tv]. oks. Qed.
Lemma sampler_any v : wt Sampler v = true -> exists s, un_sampler v = Ok s /\ sampler_ok s = true.
Proof.
  intros H. apply struct_inv in H as (vs & -> & F). inv2.
  match goal with H : wt MaxAnisotropy ?v = true |- _ => rename H into A; destruct v as [an| | | | |]; try discriminate A end.
  match goal with H : wt Color4f ?v = true |- _ => change (wt Vector4 v = true) in H end.
  reprs. cbn [un_sampler]. rewrite vec4_back. cbn [bind]. eexists. split; [reflexivity|].
  unfold sampler_ok. cbn [sm_wraps sm_wrapt sm_wrapr sm_min sm_mag sm_border sm_lod sm_aniso]. oks.
  match goal with |- context [if ?c then _ else _] => destruct c end; [exact A|reflexivity].
Qed.
Lemma blend16_any v : wt BlendStateV16 v = true -> exists s, un_blend16 v = Ok s /\ blend_ok s = true.
Proof.
  intros H. apply struct_inv in H as (vs & -> & F). inv2. reprs. eexists. split; [reflexivity|].
  unfold blend_ok. cbn [bl_src bl_cop bl_dst bl_asrc bl_aop bl_adst]. oks.
Qed.
Lemma blend15_any v : wt BlendStateV15 v = true -> exists s, un_blend15 v = Ok s /\ blend_ok s = true.
Proof.
  intros H. apply struct_inv in H as (vs & -> & F). inv2. reprs. eexists. split; [reflexivity|].
  unfold blend_ok. cbn [bl_src bl_cop bl_dst bl_asrc bl_aop bl_adst]. oks.
Qed.
Lemma raster16_any v : wt RasterizerStateV16 v = true -> exists s, un_raster16 v = Ok s /\ raster_ok s = true.
Proof.
  intros H. apply struct_inv in H as (vs & -> & F). inv2. reprs. eexists. split; [reflexivity|].
  unfold raster_ok. cbn [rs_fill rs_cull rs_bias]. oks.
Qed.
Lemma raster15_any v : wt RasterizerStateV15 v = true -> exists s, un_raster15 v = Ok s /\ raster_ok s = true.
Proof.
  intros H. apply struct_inv in H as (vs & -> & F). inv2. reprs. eexists. split; [reflexivity|].
  unfold raster_ok. cbn [rs_fill rs_cull rs_bias]. oks.
Qed.
Lemma flag_any v : wt u32 v = true -> exists x, un_bool32 v = Ok x /\ true = true.
Proof. intros H. apply u32_any in H as (n & -> & _). eexists. split; reflexivity. Qed.
Lemma float_any v : wt f32 v = true -> exists x, un_z v = Ok x /\ is32 x = true.
Proof. intros H. apply f32_any in H as (n & -> & ?). eexists. split; [reflexivity|assumption]. Qed.
Lemma un_text_any v : wt SsbhString v = true -> exists x, un_text v = Ok x /\ text_ok x = true.
Proof. intros H. apply (text_any 4) in H. eexists. split; [reflexivity|assumption]. Qed.
Lemma un_vec4_any v : wt Vector4 v = true -> exists x, un_vec4 v = Ok x /\ vec4_ok x = true.
Proof. intros H. apply vec4_any in H as (x & -> & ?). exists x. rewrite vec4_back. auto. Qed.

(** The shape of an attribute *)
Definition param_types (blend rast : ty) : list (Z * ty) :=
  [(1, f32); (2, u32); (5, Vector4); (7, Color4f); (11, SsbhString); (14, Sampler); (16, UvTransform); (17, blend); (18, rast)].
Lemma attr_any blend rast v : wt (record [ParamId; Param blend rast]) v = true ->
  exists id, below 366 id = true /\ (v = VStruct [VInt id; VPtr None] \/
    exists tag t w, v = VStruct [VInt id; VPtr (Some (VCase tag (VStruct [w])))] /\ In (tag, t) (param_types blend rast) /\ wt t w = true).
Proof.
  intros H. apply struct_inv in H as (vs & -> & F). inv2.
  match goal with H : wt ParamId _ = true |- _ => apply (repr_any _ _ 366) in H as (id & -> & Hid) end.
  exists id. split; [exact Hid|]. match goal with H : wt (Param _ _) ?v = true |- _ => rename H into P; destruct v as [| | | |[c|]|]; try discriminate P end;
    [right|left; reflexivity].
  destruct c as [| | | | |tag w]; try discriminate P. unfold Param, variant in P. cbn [wt] in P.
  repeat match type of P with (if ?c then _ else _) = true => destruct c eqn:?C;
    [apply Z.eqb_eq in C; subst tag; apply struct_inv in P as (vs & -> & F); inv2;
     eexists _, _, _; split; [reflexivity|]; split; [|eassumption]; unfold param_types; cbn [In]; tauto|clear C] end.
  discriminate P.
Qed.
Lemma get_any {A} blend rast tag t (un : val -> res A) (ok : A -> bool) attrs :
  (forall t', In (tag, t') (param_types blend rast) -> t' = t) -> (forall v, wt t v = true -> exists x, un v = Ok x /\ ok x = true) ->
  forallb (wt (record [ParamId; Param blend rast])) attrs = true ->
  exists ps, get_attributes tag un attrs = Ok ps /\ forallb (param_ok ok) ps = true.
Proof.
  intros Hu Hx. induction attrs as [|v attrs IH]; intros F; [exists []; auto|]. cbn [forallb] in F. apply andb_true_iff in F as [F1 F2].
  destruct (IH F2) as (ps & G & Hp). destruct (attr_any _ _ _ F1) as (id & Hid & [->|(tg & t' & w & -> & I & W)]); cbn [get_attributes]; [eauto|].
  destruct (tg =? tag) eqn:E; [|eauto]. apply Z.eqb_eq in E as ->. apply Hu in I as ->. destruct (Hx _ W) as (x & U & Ox).
  rewrite U. cbn [bind]. rewrite G. cbn [bind]. eexists. split; [reflexivity|]. cbn [forallb]. rewrite Hp, andb_true_r.
  unfold param_ok. cbn [pr_id pr_data]. now rewrite Hid, Ox.
Qed.
Lemma get_length {A} tag (un : val -> res A) attrs ps : get_attributes tag un attrs = Ok ps -> zlen ps = zlen (of_type tag attrs).
Proof. intros H. apply get_of_type in H. unfold zlen. f_equal. induction H; cbn [length]; congruence. Qed.
Lemma of_type_cons tag v attrs : of_type tag (v :: attrs) = of_type tag [v] ++ of_type tag attrs.
Proof. unfold of_type. cbn [flat_map]. now rewrite app_nil_r. Qed.
Lemma of_type_one v : (forall tag, of_type tag [v] = []) \/ exists t, forall tag, zlen (of_type tag [v]) = if t =? tag then 1 else 0.
Proof.
  destruct v as [| |[|[id| | | | |] [|[| | | |[[| | | | |t [| |[|w [|]]| | |]]|]|] [|]]]| | |]; try (left; reflexivity).
  right. exists t. intros tag. unfold of_type. cbn [flat_map]. destruct (t =? tag); reflexivity.
Qed.
Lemma types_length attrs :
  zlen (of_type 17 attrs) + zlen (of_type 1 attrs) + zlen (of_type 2 attrs) + zlen (of_type 5 attrs) + zlen (of_type 18 attrs) +
  zlen (of_type 14 attrs) + zlen (of_type 11 attrs) + zlen (of_type 16 attrs) <= zlen attrs.
Proof.
  induction attrs as [|v attrs IH]; [vm_compute; discriminate|].
  rewrite !(of_type_cons _ v attrs), !zlen_app, zlen_cons.
  destruct (of_type_one v) as [E|(t & E)]; rewrite !E; [change (zlen (@nil (Z * val))) with 0; lia|].
  repeat match goal with |- context [t =? ?k] => destruct (Z.eqb_spec t k); [subst t; cbn [Z.eqb Pos.eqb]; lia|] end. lia.
Qed.
Lemma entry_any blend rast ub ur v :
  (forall v, wt blend v = true -> exists s, ub v = Ok s /\ blend_ok s = true) ->
  (forall v, wt rast v = true -> exists s, ur v = Ok s /\ raster_ok s = true) ->
  wt (MatlEntry blend rast) v = true -> exists e, un_matl_entry ub ur v = Ok e /\ matl_entry_ok e = true.
Proof.
  intros Hb Hr H. apply struct_inv in H as (vs & -> & F). inv2. anys.
  match goal with H : wt (TArr _) _ = true |- _ => apply arr_inv in H as (attrs & -> & L & W) end.
  assert (U : forall tag t t', In (tag, t') (param_types blend rast) -> In (tag, t) (param_types blend rast) -> t' = t).
  { unfold param_types. cbn [In]. intros tag t t' I J.
    repeat (destruct I as [I|I]; [injection I as <- <-; repeat (destruct J as [J|J]; [try discriminate J; now injection J as <-|]); contradiction|]). contradiction. }
  assert (G : forall {A} tag t (un : val -> res A) ok, In (tag, t) (param_types blend rast) -> (forall v, wt t v = true -> exists x, un v = Ok x /\ ok x = true) ->
     exists ps, get_attributes tag un attrs = Ok ps /\ forallb (param_ok ok) ps = true).
  { intros A tag t un ok I Hx. eapply get_any; eauto. }
  unfold un_matl_entry.
  destruct (G _ 5 Vector4 un_vec4 vec4_ok) as (? & E1 & O1); [unfold param_types; cbn [In]; tauto|exact un_vec4_any|].
  destruct (G _ 1 f32 un_z is32) as (? & E2 & O2); [unfold param_types; cbn [In]; tauto|exact float_any|].
  destruct (G _ 2 u32 un_bool32 (fun _ => true)) as (? & E3 & O3); [unfold param_types; cbn [In]; tauto|exact flag_any|].
  destruct (G _ 11 SsbhString un_text text_ok) as (? & E4 & O4); [unfold param_types; cbn [In]; tauto|exact un_text_any|].
  destruct (G _ 14 Sampler un_sampler sampler_ok) as (? & E5 & O5); [unfold param_types; cbn [In]; tauto|exact sampler_any|].
  destruct (G _ 17 blend ub blend_ok) as (? & E6 & O6); [unfold param_types; cbn [In]; tauto|exact Hb|].
  destruct (G _ 18 rast ur raster_ok) as (? & E7 & O7); [unfold param_types; cbn [In]; tauto|exact Hr|].
  destruct (G _ 16 UvTransform un_uv uvt_ok) as (? & E8 & O8); [unfold param_types; cbn [In]; tauto|exact uv_any|].
  rewrite E1, E2, E3, E4, E5, E6, E7, E8. cbn [bind]. eexists. split; [reflexivity|].
  pose proof (types_length attrs) as T. apply get_length in E1, E2, E3, E4, E5, E6, E7, E8.
  unfold matl_entry_ok, param_count. cbn [mt_label mt_shader mt_floats mt_bools mt_vectors mt_textures mt_samplers mt_uvs mt_blends mt_rasters].
  oks. clear - T L E1 E2 E3 E4 E5 E6 E7 E8. lia.
Qed.
Theorem matl_reload b d : bytes_ok b = true -> matl_data_read b = Ok d ->
  ((mt_major d, mt_minor d) = (1, 6) /\ exists out, matl_data_write d = Ok out /\ (zlen out < 2 ^ 63 -> matl_data_read out = Ok d)) \/
  ((mt_major d, mt_minor d) = (1, 5) /\ matl_data_write d = Err (EData DVersion)).
Proof.
  intros Hb H. unfold matl_data_read in H. apply bind_ok in H as ([version v] & E & H).
  apply typed_read_ok in E as (t & F & W); [|exact Hb]. cbn [fkind fver fbody] in *.
  assert (V : (version = (1, 5) /\ t = Matl_V15) \/ (version = (1, 6) /\ t = Matl_V16)).
  { destruct version as [ma mi]. cbn in F. unfold ver_eqb in F. cbn [fst snd] in F.
    destruct ((ma =? 1) && (mi =? 5)) eqn:C; [injection F as <-; left; split; [f_equal; lia|reflexivity]|].
    destruct ((ma =? 1) && (mi =? 6)) eqn:C'; [injection F as <-; right; split; [f_equal; lia|reflexivity]|discriminate F]. }
  destruct V as [[-> ->]|[-> ->]].
  - right. unfold un_matl in H. cbn [ver_eqb fst snd] in H. destruct v as [| |[|[| | |es| |] [|]]| | |]; try discriminate H.
    destruct (un_list _ es) as [entries| |]; try discriminate H. cbn [bind] in H. injection H as <-. split; reflexivity.
  - left. apply struct_inv in W as (vs & -> & F2). inv2.
    match goal with H : wt (TArr _) _ = true |- _ => apply arr_inv in H as (es & -> & L & We) end.
    apply (list_any _ un_entry16 matl_entry_ok) in We as (xs & U & Ox & Lx);
      [|intros v Hv; eapply entry_any; [exact blend16_any|exact raster16_any|exact Hv]].
    change (un_matl (1, 6) (VStruct [VArr es])) with (let* entries := un_list un_entry16 es in Ok (MatD 1 6 entries)) in H.
    rewrite U in H. cbn [bind] in H. injection H as <-. cbn [mt_major mt_minor]. split; [reflexivity|].
    assert (O' : matl_ok (MatD 1 6 xs) = true) by (unfold matl_ok, len_ok; cbn [mt_entries]; oks; lia).
    destruct (proj1 (matl_write_result _ O') eq_refl) as (out & Wr). exists out. split; [exact Wr|]. intros Lo. exact (matl_save_load _ out O' Wr Lo).
Qed.

(** ** MeshEx *)
Lemma sphere_any v : wt BoundingSphere v = true -> exists s, v = sphere_val s /\ sphere_ok s = true.
Proof.
  intros H. apply struct_inv in H as (vs & -> & F). inv2. anys. eexists (Sph _ _). split; [reflexivity|]. unfold sphere_ok. cbn [sp_center sp_radius]. oks.
Qed.
Lemma cstr_ptr_any n v t : wt (TAbs 8 (TCStr n)) v = true -> un_cstr_ptr v = Ok t -> text_ok t = true.
Proof.
  destruct v as [| | | |[s|]|]; try discriminate 1.
  - intros W. change (wt (TAbs 8 (TCStr n)) (VPtr (Some s))) with (wt (TCStr n) s) in W. apply cstr_any in W as (bs & -> & Hb).
    cbn [un_cstr_ptr]. intros [= <-]. unfold cstring_to_str, text_ok. destruct (utf8_valid bs) eqn:U; [|reflexivity]. now rewrite U, Hb.
  - intros _ [= <-]. reflexivity.
Qed.
Lemma filters_length {A} (p : Z -> A -> bool) : (forall k k' a, p k a = true -> p k' a = true -> k = k') ->
  forall ks, NoDup ks -> forall l, (length (flat_map (fun k => filter (p k) l) ks) <= length l)%nat.
Proof.
  intros U ks N. induction N as [|k ks Nk N IH]; intros l; [cbn; lia|]. cbn [flat_map]. rewrite app_length.
  assert (E : flat_map (fun k' => filter (p k') l) ks = flat_map (fun k' => filter (p k') (filter (fun a => negb (p k a)) l)) ks).
  { clear IH N. induction ks as [|k' ks IHk]; [reflexivity|]. cbn [flat_map]. f_equal; [|apply IHk; intros I; apply Nk; now right].
    clear IHk. induction l as [|a l IHl]; [reflexivity|]. cbn [filter].
    destruct (p k a) eqn:E; cbn [negb]; [|cbn [filter]; destruct (p k' a); [f_equal|]; exact IHl].
    destruct (p k' a) eqn:E'; [|exact IHl]. exfalso. apply Nk. left. now rewrite (U k k' a E E'). }
  rewrite E. specialize (IH (filter (fun a => negb (p k a)) l)).
  assert (L : (length (filter (p k) l) + length (filter (fun a => negb (p k a)) l) = length l)%nat).
  { clear. induction l as [|a l IHl]; [reflexivity|]. cbn [filter]. destruct (p k a); cbn [negb length]; lia. }
  lia.
Qed.
Lemma flags_total es fs : forall out i, (forall k g, nth_error out k = Some g -> mg_flags g = group_flags (i + Z.of_nat k) es fs) ->
  length (flat_map mg_flags out) =
  length (flat_map (fun k => filter (fun ef => in_group k (fst ef)) (combine es fs)) (map (fun k => i + Z.of_nat k) (seq 0 (length out)))).
Proof.
  induction out as [|g out IH]; intros i H; [reflexivity|]. cbn [length seq map flat_map]. rewrite !app_length. f_equal.
  - rewrite (H 0%nat g eq_refl). unfold group_flags. now rewrite map_length.
  - rewrite (IH (i + 1)).
    + rewrite <- seq_shift, map_map. do 2 f_equal. apply map_ext. intros k. lia.
    + intros k g' Hk. rewrite (H (S k) g' Hk). f_equal. lia.
Qed.
Lemma in_group_fun k k' (ef : val * val) : in_group k (fst ef) = true -> in_group k' (fst ef) = true -> k = k'.
Proof. destruct ef as [[| |[|[g| | | | |] [|? [|]]]| | |] f]; cbn [in_group fst]; try discriminate 1. lia. Qed.
Lemma nodup_from i n : NoDup (map (fun k => i + Z.of_nat k) (seq 0 n)).
Proof. apply Injective_map_NoDup; [intros a c; lia|apply seq_NoDup]. Qed.
Lemma meshex_read_ok b x : bytes_ok b = true -> meshex_read b = Ok x ->
  meshex_ok x = true /\ opt_len (mx_groups x) < 2 ^ 32 /\ opt_len (mx_entries x) < 2 ^ 32.
Proof.
  intros Hb H. apply meshex_read_dec in H; [|exact Hb]. destruct H as (len & ne & ng & _ & Ne & Ng & Da & Dg & De & Df & Du).
  apply DecFacts.uint_nonneg in Ne, Ng, Du; auto.
  apply (Dec_wt _ false) in Da; [|reflexivity|exact Hb]. apply (Dec_wt _ false) in Dg; [|cbn; clear - Ne Ng; lia|exact Hb]. apply (Dec_wt _ false) in De; [|cbn; clear - Ne Ng; lia|exact Hb]. apply (Dec_wt _ false) in Df; [|cbn; clear - Ne Ng; lia|exact Hb].
  destruct x as [a g e f u]. cbn [mx_all mx_groups mx_entries mx_flags mx_unk1] in *.
  assert (G : wt (groups_ty (opt_len g)) (vec_ptr g) = true /\ opt_len g < 2 ^ 32).
  { destruct g as [g|]; [|split; reflexivity]. unfold groups_ty, vec_ptr in *. cbn [option_map wt opt_len] in *. lia. }
  assert (E : wt (entries_ty (opt_len e)) (vec_ptr e) = true /\ opt_len e < 2 ^ 32).
  { destruct e as [e|]; [|split; reflexivity]. unfold entries_ty, vec_ptr in *. cbn [option_map wt opt_len] in *. lia. }
  assert (F : wt (flags_ty (opt_len f)) (flags_ptr f) = true).
  { destruct f as [f|]; [|reflexivity]. unfold flags_ty, flags_ptr, EntryFlags, aligned in *. cbn [option_map wt opt_len map] in *. lia. }
  destruct G as [G Lg], E as [E Le]. split; [|split; assumption]. unfold meshex_ok. cbn [mx_all mx_groups mx_entries mx_flags mx_unk1].
  rewrite Da, G, E, F. cbn [wt u32 andb]. lia.
Qed.
Lemma meshex_loaded b gs : bytes_ok b = true -> meshex_data_read b = Ok gs ->
  exists x, meshex_read b = Ok x /\ groups_ok gs = true /\ zlen (flat_map mg_flags gs) <= opt_len (mx_entries x) /\
    Forall2 (fun v g => exists f n, v = VStruct [sphere_val (mg_sphere g); f; n] /\
      un_cstr_ptr f = Ok (mg_full g) /\ un_cstr_ptr n = Ok (mg_name g)) (or_empty (mx_groups x)) gs.
Proof.
  intros Hb H. unfold meshex_data_read in H. apply bind_ok in H as (x & R & H). exists x. split; [exact R|]. apply meshex_read_ok in R as (X & Lg & Le); [|exact Hb].
  destruct (meshex_data_of_any x X) as (gs' & U & F & Fl). rewrite U in H. injection H as ->.
  destruct (meshex_parts x X) as (Wg & _ & _).
  assert (LF : zlen (flat_map mg_flags gs) <= opt_len (mx_entries x)).
  { pose proof (flags_total _ _ gs 0 Fl) as T.
    assert (Q := filters_length (fun k (ef : val * val) => in_group k (fst ef)) in_group_fun
                   (map (fun k => 0 + Z.of_nat k) (seq 0 (length gs))) (nodup_from _ _)
                   (combine (or_empty (mx_entries x)) (or_empty (mx_flags x)))).
    cbv beta in Q. rewrite <- T in Q. rewrite combine_length in Q. clear - Q Le. destruct (mx_entries x); cbn [or_empty opt_len length] in *; unfold zlen in *; lia. }
  split; [|split; [exact LF|exact F]]. unfold groups_ok. oks.
  - clear - F Wg. induction F as [|v g vs gs (f & n & -> & Ef & En) F IH]; [reflexivity|]. cbn [forallb] in *. apply andb_true_iff in Wg as [W1 W2].
    rewrite IH, andb_true_r by exact W2. apply group_shape in W1 as (s & f' & n' & [= <- <- <-] & Ws & Wf & Wn).
    apply sphere_any in Ws as (s & Es & Os). unfold mesh_group_ok. oks.
    + apply (f_equal un_sphere) in Es. rewrite !sphere_back in Es. injection Es as ->. exact Os.
    + exact (cstr_ptr_any _ _ _ Wf Ef).
    + exact (cstr_ptr_any _ _ _ Wn En).
  - apply forall2_length in F. clear - F Lg. destruct (mx_groups x); cbn [or_empty opt_len] in *; unfold zlen in *; cbn [length] in *; lia.
  - clear - LF Le. lia.
Qed.
Theorem meshex_reload all b gs : sphere_ok all = true -> bytes_ok b = true -> meshex_data_read b = Ok gs ->
  meshex_data_write all gs = Err EPtrRange \/
  exists out, meshex_data_write all gs = Ok out /\ (zlen out < 2 ^ 63 -> meshex_data_read out = Ok gs).
Proof.
  intros A Hb H. destruct (meshex_loaded b gs Hb H) as (x & _ & G & _). destruct (meshex_data_total all gs A G) as [(out & W)|W]; [right|now left].
  exists out. split; [exact W|]. intros L. exact (meshex_save_load all gs out A G W L).
Qed.

(** ** Adj *)
Lemma forallb_sublist {A} (p : A -> bool) l i n : forallb p l = true -> forallb p (firstn n (skipn i l)) = true.
Proof.
  rewrite !forallb_forall. intros H x Hx. apply H. rewrite <- (firstn_skipn i l). apply in_or_app. right.
  rewrite <- (firstn_skipn n (skipn i l)). apply in_or_app. now left.
Qed.
Lemma adj_entries_any buffer : forallb u16_ok buffer = true -> forall es d,
  forallb (fun e => u32_ok (fst e) && u32_ok (snd e)) es = true -> un_adj_entries buffer es = Ok d ->
  forallb (fun e => u32_ok (ae_object e) && forallb u16_ok (ae_adjacency e)) d = true /\ zlen d = zlen es /\
  forall o s r, es = (o, s) :: r -> zlen (flat_map ae_adjacency (removelast d)) <= 2 ^ 31 - 1 - s / 2.
Proof.
  intros Hb. induction es as [|[o s] es IH]; intros d Ho H; [injection H as <-; split; [reflexivity|]; split; [reflexivity|discriminate]|].
  cbn [forallb fst snd] in Ho. apply andb_true_iff in Ho as [Ho1 Ho2]. apply andb_true_iff in Ho1 as [Hobj Hs].
  cbn [un_adj_entries] in H.
  destruct es as [|[o' s'] es].
  - unfold slice_from in H. destruct (s / 2 <=? zlen buffer) eqn:C; [|discriminate H]. cbn [un_adj_entries bind] in H. injection H as <-.
    split; [cbn [forallb ae_object ae_adjacency]; rewrite Hobj; cbn [andb]; rewrite andb_true_r|].
    { rewrite <- (firstn_all2 (n := length buffer) (skipn (Z.to_nat (s / 2)) buffer)) by (rewrite skipn_length; lia). now apply forallb_sublist. }
    split; [reflexivity|]. intros ? ? ? [= <- <- <-]. cbn [removelast flat_map]. rewrite zlen_nil. unfold u32_ok in Hs. lia.
  - set (es' := (o', s') :: es) in *. unfold slice_get in H.
    destruct ((s / 2 <=? s' / 2) && (s' / 2 <=? zlen buffer)) eqn:C; [|discriminate H].
    destruct (un_adj_entries buffer es') as [rest| |] eqn:U; try discriminate H. cbn [bind] in H. injection H as <-.
    destruct (IH rest Ho2 eq_refl) as (Q1 & Q2 & Q3). split; [|split].
    + cbn [forallb ae_object ae_adjacency]. rewrite Hobj, Q1, andb_true_r. cbn [andb]. now apply forallb_sublist.
    + rewrite !zlen_cons. lia.
    + intros ? ? ? [= <- <- <-]. specialize (Q3 o' s' es eq_refl).
      assert (N : rest <> []) by (intros ->; unfold es' in Q2; rewrite zlen_cons in Q2; pose proof (zlen_nonneg es); rewrite zlen_nil in Q2; lia).
      destruct rest as [|r0 rest]; [contradiction|]. change (removelast (AE o _ :: r0 :: rest)) with (AE o (firstn (Z.to_nat (s' / 2 - s / 2)) (skipn (Z.to_nat (s / 2)) buffer)) :: removelast (r0 :: rest)).
      cbn [flat_map ae_adjacency]. rewrite zlen_app. unfold u32_ok in Hs.
      assert (zlen (firstn (Z.to_nat (s' / 2 - s / 2)) (skipn (Z.to_nat (s / 2)) buffer)) <= s' / 2 - s / 2).
      { unfold zlen. rewrite firstn_length. lia. }
      lia.
Qed.
Theorem adj_reload b d : bytes_ok b = true -> adj_data_read b = Ok d ->
  exists out, adj_data_write d = Ok out /\ adj_data_read out = Ok d.
Proof.
  intros Hb H. unfold adj_data_read in H. apply bind_ok in H as (x & R & H). apply adj_read_iff in R as (X & L & _); [|exact Hb].
  unfold adj_ok in X. apply andb_true_iff in X as [X1 X2]. unfold un_adj in H. destruct (adj_entries_any _ X2 _ _ X1 H) as (Q1 & Q2 & Q3).
  apply adj_save_load. unfold adj_data_ok. oks; [lia|].
  destruct (ad_entries x) as [|[o s] es] eqn:E; [injection H as <-; reflexivity|]. specialize (Q3 _ _ _ eq_refl).
  cbn [forallb fst snd] in X1. unfold u32_ok in X1. lia.
Qed.

(** ** Conversion succeeds whenever the file can be read *)
Lemma modl_loads b r : bytes_ok b = true -> typed_read Modl b = Ok r -> exists d, modl_data_read b = Ok d.
Proof.
  intros Hb E. unfold modl_data_read. rewrite E. cbn [bind]. destruct r as [version v]. apply typed_read_ok in E as (t & F & W); [|exact Hb].
  cbn [fkind fver fbody] in *. destruct version as [ma mi]. cbn in F. unfold ver_eqb in F. cbn [fst snd] in F.
  destruct ((ma =? 1) && (mi =? 7)) eqn:C; [|discriminate F]. injection F as <-. assert (ma = 1 /\ mi = 7) as [-> ->] by lia.
  destruct (modl_any v W) as (d & U & _). exists d. exact U.
Qed.
Lemma hlpb_loads b r : bytes_ok b = true -> typed_read Hlpb b = Ok r -> exists d, hlpb_data_read b = Ok d.
Proof.
  intros Hb E. unfold hlpb_data_read. rewrite E. cbn [bind]. destruct r as [version v]. apply typed_read_ok in E as (t & F & W); [|exact Hb].
  cbn [fkind fver fbody] in *.
  assert (t = Hlpb_V11) as ->.
  { destruct version as [ma mi]. cbn in F. unfold ver_eqb in F. cbn [fst snd] in F.
    destruct ((ma =? 1) && (mi =? 1)); [|discriminate F]. now injection F as <-. }
  apply struct_inv in W as (vs & -> & F2). inv2.
  repeat match goal with H : wt (TArr _) _ = true |- _ => apply arr_inv in H as (? & -> & ? & ?) end.
  match goal with H : forallb (wt AimConstraint) _ = true |- _ => apply (list_any _ un_aim aim_ok) in H as (xs & Ea & Oa & _); [|exact aim_any] end.
  match goal with H : forallb (wt OrientConstraint) _ = true |- _ => apply (list_any _ un_orient orient_ok) in H as (ys & Eo & Oo & _); [|exact orient_any] end.
  cbn [un_hlpb]. rewrite Ea. cbn [bind]. rewrite Eo. cbn [bind]. eauto.
Qed.
Lemma skel_loads b r : bytes_ok b = true -> typed_read Skel b = Ok r -> exists d, skel_data_read b = Ok d.
Proof.
  intros Hb E. unfold skel_data_read. rewrite E. cbn [bind]. destruct r as [version v]. apply typed_read_ok in E as (t & F & W); [|exact Hb].
  cbn [fkind fver fbody] in *.
  assert (t = Skel_V10) as ->.
  { destruct version as [ma mi]. cbn in F. unfold ver_eqb in F. cbn [fst snd] in F.
    destruct ((ma =? 1) && (mi =? 0)); [|discriminate F]. now injection F as <-. }
  apply struct_inv in W as (vs & -> & F2). inv2.
  repeat match goal with H : wt (TArr _) _ = true |- _ => apply arr_inv in H as (? & -> & ? & ?) end. cbn [un_skel].
  match goal with |- exists d, un_bones ?es ?ts = _ => assert (K : exists bs, un_bones es ts = Ok bs /\ forallb bone_ok bs = true /\ zlen bs <= zlen es)
    by (apply bones_any; assumption) end.
  destruct K as (bs & U & _). eauto.
Qed.
Lemma matl_loads b version v : bytes_ok b = true -> typed_read Matl b = Ok (version, v) -> exists d entries,
  matl_data_read b = Ok d /\ (mt_major d, mt_minor d) = version /\ v = VStruct [VArr entries] /\
  ((version = (1, 5) /\ Forall2 (entry_read un_blend15 un_raster15) (mt_entries d) entries) \/
   (version = (1, 6) /\ Forall2 (entry_read un_blend16 un_raster16) (mt_entries d) entries)).
Proof.
  intros Hb E. unfold matl_data_read. rewrite E. cbn [bind]. apply typed_read_ok in E as (t & F & W); [|exact Hb].
  cbn [fkind fver fbody] in *.
  assert (V : (version = (1, 5) /\ t = Matl_V15) \/ (version = (1, 6) /\ t = Matl_V16)).
  { destruct version as [ma mi]. cbn in F. unfold ver_eqb in F. cbn [fst snd] in F.
    destruct ((ma =? 1) && (mi =? 5)) eqn:C; [injection F as <-; left; split; [f_equal; lia|reflexivity]|].
    destruct ((ma =? 1) && (mi =? 6)) eqn:C'; [injection F as <-; right; split; [f_equal; lia|reflexivity]|discriminate F]. }
  assert (R : forall ub ur es xs, un_list (un_matl_entry ub ur) es = Ok xs -> Forall2 (entry_read ub ur) xs es).
  { intros ub ur. induction es as [|e es IH]; intros xs H; [injection H as <-; constructor|]. cbn [un_list] in H.
    destruct (un_matl_entry ub ur e) as [x| |] eqn:U; try discriminate H. cbn [bind] in H.
    destruct (un_list (un_matl_entry ub ur) es) as [ys| |] eqn:U2; try discriminate H. cbn [bind] in H. injection H as <-.
    constructor; [now apply un_entry_read|]. now apply IH. }
  destruct V as [[-> ->]|[-> ->]]; apply struct_inv in W as (vs & -> & F2); inv2;
    match goal with H : wt (TArr _) _ = true |- _ => apply arr_inv in H as (es & -> & L & We) end.
  - apply (list_any _ un_entry15 matl_entry_ok) in We as (xs & U & Ox & Lx);
      [|intros v Hv; eapply entry_any; [exact blend15_any|exact raster15_any|exact Hv]].
    change (un_matl (1, 5) (VStruct [VArr es])) with (let* entries := un_list un_entry15 es in Ok (MatD 1 5 entries)).
    rewrite U. cbn [bind]. eexists _, es. split; [reflexivity|]. cbn [mt_major mt_minor mt_entries]. split; [reflexivity|]. split; [reflexivity|].
    left. split; [reflexivity|]. now apply R.
  - apply (list_any _ un_entry16 matl_entry_ok) in We as (xs & U & Ox & Lx);
      [|intros v Hv; eapply entry_any; [exact blend16_any|exact raster16_any|exact Hv]].
    change (un_matl (1, 6) (VStruct [VArr es])) with (let* entries := un_list un_entry16 es in Ok (MatD 1 6 entries)).
    rewrite U. cbn [bind]. eexists _, es. split; [reflexivity|]. cbn [mt_major mt_minor mt_entries]. split; [reflexivity|]. split; [reflexivity|].
    right. split; [reflexivity|]. now apply R.
Qed.

Lemma conversions_total b r : bytes_ok b = true ->
  (typed_read Modl b = Ok r -> exists d, modl_data_read b = Ok d) /\
  (typed_read Hlpb b = Ok r -> exists d, hlpb_data_read b = Ok d) /\
  (typed_read Skel b = Ok r -> exists d, skel_data_read b = Ok d) /\
  (typed_read Matl b = Ok r -> exists d, matl_data_read b = Ok d).
Proof.
  intros Hb. repeat split.
  - now apply modl_loads.
  - now apply hlpb_loads.
  - now apply skel_loads.
  - destruct r as [version v]. intros H. destruct (matl_loads b version v Hb H) as (d & _ & E & _). eauto.
Qed.

(** A material file of version 1.5 *)
Definition matl15_file : list Z := match typed_write Matl (1, 5) (VStruct [VArr []]) with Ok out => out | _ => [] end.
Lemma matl15_lost : exists b d, bytes_ok b = true /\ matl_data_read b = Ok d /\ matl_data_write d = Err (EData DVersion).
Proof. exists matl15_file, (MatD 1 5 []). vm_compute. auto. Qed.
