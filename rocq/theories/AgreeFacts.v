(** The documents of the two JSON programs agree: Modl, Hlpb, Skel. *)
From Coq Require Import Lia ZifyBool ZifyNat ZifyN.
From Verif Require Import Bytes BytesFacts Ssbh File SsbhSpec SsbhFacts Formats FileFacts Strings Bits Float32 AnimComp AnimBuf AnimFile.
From Verif Require Import AnimSpec SsbhLemmas AnimFacts AnimDataFacts SmallData DataSpec SmallDataFacts MatlData SkelData AdjData MeshEx VecData MeshData FileSpec DecFacts ReloadFacts SizeDataFacts Json JsonSchema JsonFile DataJson AgreeSpec.
Ltac Zify.zify_post_hook ::= ZifyBool.elim_bool_cstr; Z.to_euclidean_division_equations.
#[local] Strategy opaque [typed_write typed_read].

(** ** Programs *)
Lemma data_of_json order ext k b j : kind_of_ext ext = Some k -> data_to_json order ext b = Some (Ok j) ->
  exists d, load_as order k b = Ok d /\ j = data_json d.
Proof.
  intros K H. unfold data_to_json in H. rewrite K in H. destruct (load_as order k b) as [d|e|] eqn:L; try discriminate H.
  cbn [bind] in H. injection H as <-. eauto.
Qed.
Lemma file_of_json ext b j f : String.eqb ext "adjb" = false -> String.eqb ext "numshexb" = false -> file_read b = Ok f ->
  file_to_json ext b = Ok j -> j = ssbh_to_json f.
Proof.
  intros E1 E2 F H. unfold file_to_json, load in H. rewrite E1, E2, F in H. cbn [bind document_json] in H. now injection H as <-.
Qed.

Lemma open_file ext b j k version v : bytes_ok b = true -> typed_read k b = Ok (version, v) -> file_to_json ext b = Ok j ->
  String.eqb ext "adjb" = false -> String.eqb ext "numshexb" = false ->
  j = ssbh_to_json (mkFile k version v) /\ exists t, format k version = Some t /\ wt t v = true.
Proof.
  intros Hb R H E1 E2. split; [exact (file_of_json ext b j _ E1 E2 (typed_file _ _ _ _ R) H)|].
  apply typed_read_ok in R as (t & F & W); [|exact Hb]. cbn [fkind fver fbody] in *. eauto.
Qed.

(** ** Text and lists *)
Lemma cstring_keeps bs : forallb (fun x => negb (x =? 0)) bs = true -> cstring_from_bytes bs = bs.
Proof.
  induction bs as [|x r IH]; intros H; [reflexivity|]. cbn [forallb cstring_from_bytes] in *. apply andb_true_iff in H as [H1 H2].
  destruct (x =? 0); [discriminate H1|]. now rewrite IH.
Qed.
Lemma text_shown n v : wt (SsbhStringN n) v = true -> shown (JStr (ssbh_to_string_lossy v)) (to_json s_string v).
Proof.
  intros H. apply (struct_inv [TRel (TCStr n)]) in H as (vs & -> & F). inv2.
  match goal with H : wt (TRel _) ?v = true |- _ => destruct v as [| | | |[s|]|]; try discriminate H;
    [change (wt (TRel (TCStr n)) (VPtr (Some s))) with (wt (TCStr n) s) in H; apply cstr_any in H as (bs & -> & Hb)|apply shown_null] end.
  cbn [to_json s_string]. unfold cstr_json. rewrite cstring_keeps by exact Hb. apply shown_same.
Qed.
Lemma list_shown {A} t (un : val -> res A) (f : A -> json) (g : val -> json) (R : json -> json -> Prop) :
  (forall v x, wt t v = true -> un v = Ok x -> R (f x) (g v)) ->
  forall l xs, forallb (wt t) l = true -> un_list un l = Ok xs -> Forall2 R (map f xs) (map g l).
Proof.
  intros H. induction l as [|v l IH]; intros xs W E; cbn [un_list] in E; [injection E as <-; constructor|].
  cbn [forallb] in W. apply andb_true_iff in W as [W1 W2]. apply bind_ok in E as (x & E1 & E). apply bind_ok in E as (ys & E2 & E).
  injection E as <-. cbn [map]. constructor; auto.
Qed.

Lemma texts_shown l : forallb (wt SsbhString) l = true ->
  Forall2 shown (map (fun x => JStr (ssbh_to_string_lossy x)) l) (map (to_json s_string) l).
Proof.
  induction l as [|s l IH]; intros H; [constructor|]. cbn [forallb map] in *. apply andb_true_iff in H as [H1 H2].
  constructor; [exact (text_shown 4 s H1)|auto].
Qed.

Ltac pick x := match goal with
  | |- agree_at _ _ _ => eexists; eexists; split; [reflexivity|split; [reflexivity|]]; x
  end.
Ltac show := first [apply shown_same | apply (text_shown 4); assumption | apply (text_shown 8); assumption].
Ltac all_shown := unfold agree_on; repeat (constructor; [pick show|]); constructor.
Ltac arrays := repeat match goal with H : wt (TArr _) _ = true |- _ => apply arr_inv in H as (? & -> & ? & ?) end.
Lemma one_version k version t ver t' : format k version = Some t -> versions k = [(ver, t')] -> version = ver /\ t = t'.
Proof.
  unfold format. intros F E. rewrite E in F. cbn in F. unfold ver_eqb in F. destruct version as [a b], ver as [c d]. cbn [fst snd] in F.
  destruct ((a =? c) && (b =? d)) eqn:V; [|discriminate F]. injection F as <-. split; [f_equal; lia|reflexivity].
Qed.

(** ** Modl *)
Lemma modl_entry_shown v e : wt ModlEntry v = true -> un_modl_entry v = Ok e ->
  agree_on ["mesh_object_name"; "mesh_object_subindex"; "material_label"]%string (to_json sd_modl_entry (modl_entry_doc e)) (to_json s_modl_ModlEntry v).
Proof.
  intros W H. apply struct_inv in W as (vs & -> & F). inv2. match goal with H : wt u64 _ = true |- _ => apply int_any in H as (i & -> & ?) end.
  injection H as <-. all_shown.
Qed.
Theorem modl_agrees order b dj fj : bytes_ok b = true -> data_to_json order "numdlb" b = Some (Ok dj) -> file_to_json "numdlb" b = Ok fj ->
  modl_agree dj (content fj).
Proof.
  intros Hb D Fj. apply (data_of_json _ _ DkModl) in D as (d & L & ->); [|reflexivity]. cbn [load_as] in L. apply bind_ok in L as (m & L & E).
  injection E as <-. unfold modl_data_read in L. apply bind_ok in L as ([version v] & R & U).
  destruct (open_file _ _ _ _ _ _ Hb R Fj eq_refl eq_refl) as (-> & t & F & W). clear R Fj.
  destruct (one_version _ _ _ _ _ F eq_refl) as [-> ->]. clear F.
  apply struct_inv in W as (vs & -> & F). inv2. arrays.
  match goal with H : wt (TRel _) ?v = true |- _ => destruct v as [| | | |o|]; try discriminate H; rename H into Ho end.
  cbn [un_modl] in U. apply bind_ok in U as (es & E & U). injection U as <-. repeat split.
  - unfold agree_on. constructor; [pick show|]. constructor; [pick show|]. constructor; [|constructor; [pick show|constructor]].
    destruct o as [s|]; pick idtac; [apply (text_shown 4); exact Ho|apply shown_same].
  - eexists. eexists. split; [reflexivity|]. split; [reflexivity|]. cbn [snd md_materials]. 
    unfold list_doc. rewrite !map_map. apply texts_shown. assumption.
  - eexists. eexists. split; [reflexivity|]. split; [reflexivity|]. unfold list_doc. cbn [md_entries]. rewrite map_map.
    refine (list_shown ModlEntry un_modl_entry (fun e => to_json sd_modl_entry (modl_entry_doc e)) _ _ modl_entry_shown _ _ _ E). assumption.
Qed.

(** ** Hlpb *)
Ltac vecs := repeat match goal with
  | H : wt Vector3 _ = true |- _ => apply vec3_any in H as (? & -> & ?)
  | H : wt Vector4 _ = true |- _ => apply vec4_any in H as (? & -> & ?)
  | H : wt f32 _ = true |- _ => apply f32_any in H as (? & -> & ?)
  | H : wt u32 _ = true |- _ => apply u32_any in H as (? & -> & ?)
  end.
Lemma aim_shown v a : wt AimConstraint v = true -> un_aim v = Ok a ->
  agree_on ["name"; "aim_bone_name1"; "aim_bone_name2"; "aim_type1"; "aim_type2";
    "target_bone_name1"; "target_bone_name2"; "unk1"; "unk2"; "aim"; "up"; "quat1"; "quat2"]%string (to_json sd_aim (aim_doc a)) (to_json s_hlpb_AimConstraint v).
Proof.
  intros W H. apply struct_inv in W as (vs & -> & F). inv2. vecs. cbn [un_aim] in H. rewrite !vec3_back, !vec4_back in H. cbn [bind] in H.
  injection H as <-. all_shown.
Qed.
Lemma orient_shown v o : wt OrientConstraint v = true -> un_orient v = Ok o ->
  agree_on ["name"; "parent_bone_name1"; "parent_bone_name2"; "source_bone_name";
    "target_bone_name"; "unk_type"; "constraint_axes"; "quat1"; "quat2"; "range_min"; "range_max"]%string (to_json sd_orient (orient_doc o)) (to_json s_hlpb_OrientConstraint v).
Proof.
  intros W H. apply struct_inv in W as (vs & -> & F). inv2. vecs. cbn [un_orient] in H. rewrite !vec3_back, !vec4_back in H. cbn [bind] in H.
  injection H as <-. all_shown.
Qed.
Theorem hlpb_agrees order b dj fj : bytes_ok b = true -> data_to_json order "nuhlpb" b = Some (Ok dj) -> file_to_json "nuhlpb" b = Ok fj ->
  hlpb_agree dj (content fj).
Proof.
  intros Hb D Fj. apply (data_of_json _ _ DkHlpb) in D as (d & L & ->); [|reflexivity]. cbn [load_as] in L. apply bind_ok in L as (m & L & E).
  injection E as <-. unfold hlpb_data_read in L. apply bind_ok in L as ([version v] & R & U).
  destruct (open_file _ _ _ _ _ _ Hb R Fj eq_refl eq_refl) as (-> & t & F & W). clear R Fj.
  destruct (one_version _ _ _ _ _ F eq_refl) as [-> ->]. clear F.
  apply struct_inv in W as (vs & -> & F). inv2. arrays.
  cbn [un_hlpb] in U. apply bind_ok in U as (xs & E1 & U). apply bind_ok in U as (ys & E2 & U). injection U as <-.
  split; (eexists; eexists; split; [reflexivity|]; split; [reflexivity|]; unfold list_doc; cbn [hd_aims hd_orients]; rewrite map_map).
  - refine (list_shown AimConstraint un_aim (fun e => to_json sd_aim (aim_doc e)) _ _ aim_shown _ _ _ E1). assumption.
  - refine (list_shown OrientConstraint un_orient (fun e => to_json sd_orient (orient_doc e)) _ _ orient_shown _ _ _ E2). assumption.
Qed.

(** ** Skel *)
Lemma mat_wt v m : wt Matrix4x4 v = true -> un_mat v = Ok m -> v = mat_val m.
Proof.
  intros W H. apply struct_inv in W as (vs & -> & F). inv2. vecs. cbn [un_mat] in H. rewrite !vec4_back in H. cbn [bind] in H. now injection H as <-.
Qed.
Lemma bone_shown e t b : wt SkelBoneEntry e = true -> wt Matrix4x4 t = true -> un_bone e t = Ok b ->
  bone_agree (to_json sd_bone (bone_doc b)) (to_json s_skel_SkelBoneEntry e) (to_json s_vectors_Matrix4x4 t).
Proof.
  intros We Wt H. apply struct_inv in We as (vs & -> & F). inv2. unfold un_bone in H.
  repeat match goal with H : wt u16 _ = true |- _ => apply int_any in H as (? & -> & ?) | H : wt i16 _ = true |- _ => apply int_any in H as (? & -> & ?) end.
  match goal with H0 : wt SkelEntryFlags ?f = true |- _ => destruct f as [| |[|[] [|[] [|]]]| | |]; try discriminate H end.
  apply bind_ok in H as (m & M & H). apply (mat_wt t m Wt) in M as ->. injection H as <-. repeat split.
  - pick show.
  - eexists. split; [reflexivity|]. pick show.
  - eexists. split; [reflexivity|]. change (256 ^ 2) with 65536 in *. change (2 ^ 15) with 32768. 
    match goal with |- get _ (to_json _ (bone_doc (Bone _ _ ?p _))) = _ =>
      match goal with |- ?l = _ => change l with (Some (to_json (SAbs (SInt 8 false)) (opt_doc int_doc p))) end end.
    unfold int_json. change (Z.pow_pos 2 15) with 32768. change (65536 / 2) with 32768. cbn [andb].
    match goal with |- context [?p <? 32768] => destruct (p <? 32768) eqn:P;
      [assert ((32768 <=? p) = false) as -> by lia; assert ((p <? 0) = false) as -> by lia; reflexivity|
       assert ((32768 <=? p) = true) as -> by lia; assert ((p - 65536 <? 0) = true) as -> by lia; reflexivity] end.
  - destruct m as [[] [] [] []]. eexists.
    exists [[f32_json v4x; f32_json v4y; f32_json v4z; f32_json v4w]; [f32_json v4x0; f32_json v4y0; f32_json v4z0; f32_json v4w0];
            [f32_json v4x1; f32_json v4y1; f32_json v4z1; f32_json v4w1]; [f32_json v4x2; f32_json v4y2; f32_json v4z2; f32_json v4w2]].
    split; [reflexivity|]. split; [repeat constructor|]. repeat constructor.
Qed.
Lemma bones_shown : forall es ts bs, forallb (wt SkelBoneEntry) es = true -> forallb (wt Matrix4x4) ts = true -> un_bones es ts = Ok bs ->
  Forall2 (fun b p => bone_agree b (fst p) (snd p)) (map (fun b => to_json sd_bone (bone_doc b)) bs)
    (combine (map (to_json s_skel_SkelBoneEntry) es) (map (to_json s_vectors_Matrix4x4) ts)).
Proof.
  induction es as [|e es IH]; intros [|t ts] bs We Wt H; cbn [un_bones] in H; try (injection H as <-; constructor).
  cbn [forallb] in *. apply andb_true_iff in We as [We1 We2], Wt as [Wt1 Wt2]. apply bind_ok in H as (b & B & H). apply bind_ok in H as (r & Br & H).
  injection H as <-. cbn [map combine]. constructor; [now apply bone_shown|auto].
Qed.
Theorem skel_agrees order b dj fj : bytes_ok b = true -> data_to_json order "nusktb" b = Some (Ok dj) -> file_to_json "nusktb" b = Ok fj ->
  skel_agree dj (content fj).
Proof.
  intros Hb D Fj. apply (data_of_json _ _ DkSkel) in D as (d & L & ->); [|reflexivity]. cbn [load_as] in L. apply bind_ok in L as (m & L & E).
  injection E as <-. unfold skel_data_read in L. apply bind_ok in L as ([version v] & R & U).
  destruct (open_file _ _ _ _ _ _ Hb R Fj eq_refl eq_refl) as (-> & t & F & W). clear R Fj.
  destruct (one_version _ _ _ _ _ F eq_refl) as [-> ->]. clear F.
  apply struct_inv in W as (vs & -> & F). inv2. arrays. cbn [un_skel] in U.
  eexists. eexists. eexists. split; [reflexivity|]. split; [reflexivity|]. split; [reflexivity|]. unfold list_doc. rewrite map_map. apply bones_shown; assumption.
Qed.
