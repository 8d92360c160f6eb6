(** Data loaded from files of limited length can be saved and loaded again. *)
From Coq Require Import Lia ZifyBool ZifyNat ZifyN.
From Verif Require Import Bytes BytesFacts Ssbh Described File SsbhSpec SsbhFacts Formats FileFacts Strings Bits Float32 AnimComp AnimBuf AnimSpec.
From Verif Require Import SsbhLemmas FileSpec AnimFacts AnimDataFacts SmallData DataSpec SmallDataFacts MatlData MatlSpec MatlFacts.
From Verif Require Import DecFacts SkelData SkelSpec SkelFacts MeshEx MeshExFacts ReloadFacts SizeSpec SizeFacts SizeFileFacts SizeLoad SizeLoadFacts.
Ltac Zify.zify_post_hook ::= ZifyBool.elim_bool_cstr; Z.to_euclidean_division_equations.



(** ** Reading and saving *)
Lemma typed_file k b version v : typed_read k b = Ok (version, v) -> file_read b = Ok (mkFile k version v).
Proof.
  intros H. unfold typed_read in H. apply bind_ok in H as (f & E & H). rewrite E. destruct f as [k' v' b']. cbn [fkind fver fbody] in *.
  destruct k', k; try discriminate H; injection H as -> ->; reflexivity.
Qed.
#[local] Strategy opaque [typed_write typed_read].
Lemma typed_within k b version v t L : bytes_ok b = true -> zlen b <= L -> typed_read k b = Ok (version, v) -> format k version = Some t -> within L t v = true.
Proof. intros Hb HL R F. apply typed_file in R. apply file_read_dec in R; [|exact Hb]. exact (file_within b _ t L Hb HL R F). Qed.
Lemma typed_small k version v t out : file_ok (mkFile k version v) -> format k version = Some t -> within (reload_limit k) t v = true ->
  typed_write k version v = Ok out -> zlen out < 2 ^ 63.
Proof. intros O F X E. rewrite typed_write_file in E. exact (small_save (mkFile k version v) t out O F X E). Qed.

(** ** Text *)
Lemma cstring_short s : zlen (cstring_from_bytes s) <= zlen s.
Proof. induction s as [|x r IH]; cbn [cstring_from_bytes]; [lia|]. destruct (x =? 0); rewrite ?zlen_cons; [|lia]. pose proof (zlen_nonneg r). change (zlen (@nil Z)) with 0. lia. Qed.
Lemma string_within L n s : zlen s <= L -> within L (SsbhStringN n) (ssbh_string s) = true.
Proof. intros H. pose proof (cstring_short s). cbn [within SsbhStringN record map ssbh_string]. rewrite andb_true_r. lia. Qed.
Lemma lossy_short L n v : 0 <= L -> within L (SsbhStringN n) v = true -> zlen (ssbh_to_string_lossy v) <= L.
Proof.
  intros HL. unfold ssbh_to_string_lossy, ssbh_to_str, cstring_to_str.
  destruct v as [| |[|[| | | |[[|bs| | | |]|]|] [|]]| | |]; try (intros _; exact HL). cbn [within SsbhStringN record map]. rewrite andb_true_r. intros H.
  destruct (utf8_valid bs); [lia|exact HL].
Qed.
Lemma string_again L n v : 0 <= L -> within L (SsbhStringN n) v = true -> within L (SsbhStringN n) (ssbh_string (ssbh_to_string_lossy v)) = true.
Proof. intros HL H. apply string_within. eapply lossy_short; eauto. Qed.

Lemma list_again {A} L t (un : val -> res A) (f : A -> val) : (forall v x, within L t v = true -> un v = Ok x -> within L t (f x) = true) ->
  forall vs xs, forallb (within L t) vs = true -> un_list un vs = Ok xs -> forallb (within L t) (map f xs) = true /\ zlen xs = zlen vs.
Proof.
  intros H. induction vs as [|v vs IH]; intros xs W E; cbn [un_list] in E; [injection E as <-; auto|]. cbn [forallb] in W. bsplit W.
  apply bind_ok in E as (x & E1 & E). apply bind_ok in E as (ys & E2 & E). injection E as <-. destruct (IH ys) as [Y1 Y2]; auto.
  cbn [map forallb]. rewrite Y1, (H v x) by auto. rewrite !zlen_cons. auto with zarith.
Qed.
Lemma arr_again {A} L t (un : val -> res A) (f : A -> val) vs xs : (forall v x, within L t v = true -> un v = Ok x -> within L t (f x) = true) ->
  within L (TArr t) (VArr vs) = true -> un_list un vs = Ok xs -> within L (TArr t) (VArr (map f xs)) = true.
Proof.
  intros H W E. cbn [within] in *. bsplit W. destruct (list_again L t un f H vs xs) as [Y1 Y2]; auto. rewrite Y1. unfold zlen in *. rewrite map_length. lia.
Qed.
Lemma zlen_map {A B} (f : A -> B) l : zlen (map f l) = zlen l.
Proof. unfold zlen. now rewrite map_length. Qed.

(** Splitting a struct into its fields. *)
Ltac fields H := unfold record in H; rewrite within_struct in H; cbn [map within_fields] in H; repeat match goal with X : _ && _ = true |- _ => apply andb_true_iff in X as [? ?] end.
Ltac build := unfold record; rewrite within_struct; cbn [map within_fields]; rewrite ?andb_true_r; repeat match goal with |- _ && _ = true => apply andb_true_intro; split end.
Ltac texts HL := match goal with |- within _ (SsbhStringN ?n) _ = true => apply (string_again _ n _ HL); assumption | _ => idtac end.

(** ** Modl *)
Lemma modl_again L ver v d : 0 <= L -> within L Modl_V17 v = true -> un_modl ver v = Ok d -> within L Modl_V17 (modl_val d) = true.
Proof.
  intros HL W H. unfold un_modl in H. destruct v as [| |[|a [|b [|[| | |c| |] [|[| | | |o|] [|e [|[| | |f| |] [|]]]]]]]| | |]; try discriminate H.
  apply bind_ok in H as (es & E & H). injection H as <-. unfold Modl_V17, SsbhString, SsbhString8 in *. fields W. unfold modl_val. cbn [md_model md_skel md_materials md_anim md_mesh md_entries].
  build; texts HL.
  - cbn [within] in *. bsplit H1. rewrite !zlen_map. rewrite H1. cbn [andb]. rewrite forallb_forall in *. intros x Hx. apply in_map_iff in Hx as (s & <- & Hs). apply in_map_iff in Hs as (y & <- & Hy). apply (string_again L 4); auto.
  - destruct o as [s|]; [|reflexivity]. cbn [option_map within] in *. apply (string_again L 4); auto.
  - eapply (arr_again L ModlEntry un_modl_entry); eauto. intros x y Wx Ux. unfold un_modl_entry in Ux.
    destruct x as [| |[|n [|[i| | | | |] [|m [|]]]]| | |]; try discriminate Ux. injection Ux as <-. unfold ModlEntry, SsbhString in *. fields Wx. unfold modl_entry_val. cbn [me_name me_subindex me_material]. build; texts HL. reflexivity.
Qed.
Theorem modl_small_reload b d : bytes_ok b = true -> zlen b <= 2 ^ 32 -> modl_data_read b = Ok d ->
  exists out, modl_data_write d = Ok out /\ modl_data_read out = Ok d.
Proof.
  intros Hb HL H. destruct (modl_reload b d Hb H) as (out & Wr & Rd). exists out. split; [exact Wr|]. apply Rd. clear Rd.
  unfold modl_data_read in H. apply bind_ok in H as ([version v] & E & H).
  pose proof E as E'. apply typed_read_ok in E' as (t & F & W); [|exact Hb]. cbn [fkind fver fbody] in *.
  assert (version = (1, 7) /\ t = Modl_V17) as [-> ->].
  { destruct version as [ma mi]. cbn in F. unfold ver_eqb in F. cbn [fst snd] in F.
    destruct ((ma =? 1) && (mi =? 7)) eqn:V; [|discriminate F]. injection F as <-. split; [f_equal; lia|reflexivity]. }
  destruct (modl_any v W) as (d' & U & O' & _). rewrite U in H. injection H as ->.
  apply (typed_small Modl (1, 7) (modl_val d) Modl_V17); auto; [now apply modl_file_ok|].
  eapply modl_again; [apply limit_nonneg| |exact U]. eapply typed_within; eauto.
Qed.

(** ** Hlpb *)
Lemma aim_again L v a : 0 <= L -> within L AimConstraint v = true -> un_aim v = Ok a -> within L AimConstraint (aim_val a) = true.
Proof.
  intros HL W H. unfold un_aim in H.
  destruct v as [| |vs| | |]; try discriminate H. do 7 (destruct vs as [|? vs]; [discriminate H|]). do 2 (destruct vs as [|[?| | | | |] vs]; try discriminate H).
  do 10 (destruct vs as [|? vs]; try discriminate H). destruct vs; try discriminate H.
  repeat (apply bind_ok in H as (? & _ & H)). injection H as <-. unfold AimConstraint, SsbhString in *. fields W. unfold aim_val.
  cbn [am_name am_bone1 am_bone2 am_type1 am_type2 am_target1 am_target2 am_unk1 am_unk2 am_aim am_up am_quat1 am_quat2]. build; texts HL; reflexivity.
Qed.
Lemma orient_again L v a : 0 <= L -> within L OrientConstraint v = true -> un_orient v = Ok a -> within L OrientConstraint (orient_val a) = true.
Proof.
  intros HL W H. unfold un_orient in H.
  destruct v as [| |vs| | |]; try discriminate H. do 5 (destruct vs as [|? vs]; [discriminate H|]). do 1 (destruct vs as [|[?| | | | |] vs]; try discriminate H).
  do 5 (destruct vs as [|? vs]; try discriminate H). destruct vs; try discriminate H.
  repeat (apply bind_ok in H as (? & _ & H)). injection H as <-. unfold OrientConstraint, SsbhString in *. fields W. unfold orient_val.
  cbn [or_name or_parent1 or_parent2 or_source or_target or_type or_axes or_quat1 or_quat2 or_min or_max]. build; texts HL; reflexivity.
Qed.
Lemma ints_within L l : forallb (within L u32) (map VInt l) = true.
Proof. apply forallb_forall. intros x Hx. apply in_map_iff in Hx as (n & <- & _). reflexivity. Qed.
Lemma range32_short n : 0 <= n -> zlen (range32 n) <= n.
Proof. intros H. unfold range32, zlen. rewrite range_from_length. pose proof (Z.mod_le n (2 ^ 32) H eq_refl). pose proof (Z.mod_pos_bound n (2 ^ 32) eq_refl). lia. Qed.
Lemma hlpb_counts xs ys : within (2 ^ 33) (TArr AimConstraint) (VArr (map aim_val xs)) = true -> within (2 ^ 33) (TArr OrientConstraint) (VArr (map orient_val ys)) = true ->
  zlen xs <= 67108864 /\ zlen ys <= 134217728.
Proof.
  intros Ea Eo. cbn [within] in Ea, Eo. apply andb_true_iff in Ea as [Ea _], Eo as [Eo _]. rewrite zlen_map in Ea. rewrite zlen_map in Eo. apply Z.leb_le in Ea, Eo.
  change (2 ^ 33 / inline_size AimConstraint + 1) with 59652324 in Ea. change (2 ^ 33 / inline_size OrientConstraint + 1) with 76695845 in Eo. lia.
Qed.
Lemma hlpb_within xs ys : within (2 ^ 33) (TArr AimConstraint) (VArr (map aim_val xs)) = true -> within (2 ^ 33) (TArr OrientConstraint) (VArr (map orient_val ys)) = true ->
  within (2 ^ 33) Hlpb_V11 (hlpb_val (HD 1 1 xs ys)) = true.
Proof.
  intros Ea Eo. destruct (hlpb_counts xs ys Ea Eo) as [Lx Ly]. unfold Hlpb_V11, hlpb_val. cbn [hd_aims hd_orients]. build; [exact Ea|exact Eo| |]; clear Ea Eo.
  - cbn [within]. rewrite ints_within, andb_true_r. rewrite zlen_map, zlen_app. pose proof (range32_short _ (zlen_nonneg xs)). pose proof (range32_short _ (zlen_nonneg ys)).
    change (2 ^ 33 / inline_size u32 + 1) with 2147483649. lia.
  - cbn [within]. apply andb_true_intro. split.
    + change (2 ^ 33 / inline_size ConstraintType + 1) with 2147483649. unfold zlen in *. rewrite app_length, !repeat_length. lia.
    + apply forallb_forall. intros x Hx. apply in_app_or in Hx as [Hx|Hx]; apply repeat_spec in Hx as ->; reflexivity.
Qed.
Theorem hlpb_small_reload b d : bytes_ok b = true -> zlen b <= 2 ^ 33 -> hlpb_data_read b = Ok d ->
  exists out, hlpb_data_write d = Ok out /\ hlpb_data_read out = Ok d.
Proof.
  intros Hb HL H. unfold hlpb_data_read in H. apply bind_ok in H as ([version v] & E & H).
  pose proof E as E'. apply typed_read_ok in E' as (t & F & W); [|exact Hb]. cbn [fkind fver fbody] in *.
  assert (version = (1, 1) /\ t = Hlpb_V11) as [-> ->].
  { destruct version as [ma mi]. cbn in F. unfold ver_eqb in F. cbn [fst snd] in F.
    destruct ((ma =? 1) && (mi =? 1)) eqn:V; [|discriminate F]. injection F as <-. split; [f_equal; lia|reflexivity]. }
  apply (typed_within Hlpb b _ _ Hlpb_V11 (2 ^ 33)) in E; auto.
  apply struct_inv in W as (vs & -> & F2). inv2.
  repeat match goal with H : wt (TArr _) _ = true |- _ => apply arr_inv in H as (? & -> & ? & ?) end. unfold Hlpb_V11 in E. fields E.
  match goal with H : forallb (wt AimConstraint) _ = true |- _ => apply (list_any _ un_aim aim_ok) in H as (xs & Ea & Oa & _); [|exact aim_any] end.
  match goal with H : forallb (wt OrientConstraint) _ = true |- _ => apply (list_any _ un_orient orient_ok) in H as (ys & Eo & Oo & _); [|exact orient_any] end.
  cbn [un_hlpb] in H. rewrite Ea in H. cbn [bind] in H. rewrite Eo in H. cbn [bind] in H. injection H as <-.
  assert (HL0 : 0 <= 2 ^ 33) by discriminate.
  apply (arr_again (2 ^ 33) AimConstraint un_aim aim_val _ xs (fun v x => aim_again _ v x HL0)) in Ea; [|assumption].
  apply (arr_again (2 ^ 33) OrientConstraint un_orient orient_val _ ys (fun v x => orient_again _ v x HL0)) in Eo; [|assumption].
  clear - Ea Eo Oa Oo. destruct (hlpb_counts xs ys Ea Eo) as [Lx Ly].
  assert (O' : hlpb_ok (HD 1 1 xs ys) = true). { unfold hlpb_ok. cbn [hd_aims hd_orients]. clear Ea Eo. oks; clear Oa Oo; change (2 ^ 32) with 4294967296; lia. }
  destruct (hlpb_write_total _ O') as (out & Wr). exists out. split; [exact Wr|]. apply (hlpb_save_load _ out O' Wr).
  apply (typed_small Hlpb (1, 1) (hlpb_val (HD 1 1 xs ys)) Hlpb_V11); [now apply hlpb_file_ok|reflexivity| |exact Wr]. now apply hlpb_within.
Qed.

(** ** Skel *)
Lemma mat_within L m : within L Matrix4x4 (mat_val m) = true.
Proof. reflexivity. Qed.
Lemma mats_within L (f : mat -> val) : (forall m, within L Matrix4x4 (f m) = true) -> forall ms, zlen ms <= L / 64 + 1 -> within L (TArr Matrix4x4) (VArr (map f ms)) = true.
Proof.
  intros H ms Hm. cbn [within]. rewrite zlen_map. change (inline_size Matrix4x4) with 64. apply andb_true_intro. split; [now apply Z.leb_le|].
  apply forallb_forall. intros x Hx. apply in_map_iff in Hx as (m & <- & _). apply H.
Qed.
Lemma bones_short L : 0 <= L -> forall es ts bones, forallb (within L SkelBoneEntry) es = true -> un_bones es ts = Ok bones ->
  zlen bones <= zlen ts /\ forall i, forallb (within L SkelBoneEntry) (bone_entries i bones) = true.
Proof.
  intros HL. induction es as [|e es IH]; intros ts bones We H; [injection H as <-; split; [apply zlen_nonneg|reflexivity]|].
  destruct ts as [|t ts]; [injection H as <-; split; [apply zlen_nonneg|reflexivity]|]. cbn [un_bones] in H. cbn [forallb] in We. apply andb_true_iff in We as [W1 W2].
  apply bind_ok in H as (b & E & H). apply bind_ok in H as (bs & E2 & H). injection H as <-. destruct (IH ts bs W2 E2) as [Y1 Y2].
  split; [rewrite !zlen_cons; lia|]. intros i. cbn [bone_entries forallb]. rewrite Y2, andb_true_r. unfold un_bone in E.
  destruct e as [| |[|n [|[j| | | | |] [|[p| | | | |] [|[| |[|[x| | | | |] [|[bb| | | | |] [|]]]| | |] [|]]]]]| | |]; try discriminate E.
  apply bind_ok in E as (m & _ & E). injection E as <-. unfold bone_entry. cbn [bn_name bn_billboard bn_parent]. unfold SkelBoneEntry, SsbhString in *. fields W1. build; texts HL; reflexivity.
Qed.
Lemma bone_entries_len bs : forall i, zlen (bone_entries i bs) = zlen bs.
Proof. induction bs as [|b bs IH]; intros i; cbn [bone_entries]; [reflexivity|]. rewrite !zlen_cons, IH. reflexivity. Qed.
Theorem skel_small_reload mul inv b bones : (forall a c, mat_ok (mul a c) = true) -> (forall a, mat_ok (inv a) = true) ->
  bytes_ok b = true -> zlen b <= 2 ^ 33 -> skel_data_read b = Ok bones ->
  skel_data_write mul inv bones = Err (EData DCycle) \/
  exists out, skel_data_write mul inv bones = Ok out /\ skel_data_read out = Ok bones.
Proof.
  intros Mo Io Hb HL H. destruct (skel_reload mul inv b bones Mo Io Hb H) as [X|(out & Wr & Rd)]; [now left|right]. exists out. split; [exact Wr|]. apply Rd. clear Rd.
  unfold skel_data_read in H. apply bind_ok in H as ([version v] & E & H).
  pose proof E as E'. apply typed_read_ok in E' as (t & F & W); [|exact Hb]. cbn [fkind fver fbody] in *.
  assert (version = (1, 0) /\ t = Skel_V10) as [-> ->].
  { destruct version as [ma mi]. cbn in F. unfold ver_eqb in F. cbn [fst snd] in F.
    destruct ((ma =? 1) && (mi =? 0)) eqn:V; [|discriminate F]. injection F as <-. split; [f_equal; lia|reflexivity]. }
  apply (typed_within Skel b _ _ Skel_V10 (2 ^ 33)) in E; auto.
  apply struct_inv in W as (vs & -> & F2). inv2.
  repeat match goal with H : wt (TArr _) _ = true |- _ => apply arr_inv in H as (? & -> & ? & ?) end. cbn [un_skel] in H.
  match type of H with un_bones ?es ?ts = _ => assert (K : exists bs, un_bones es ts = Ok bs /\ forallb bone_ok bs = true /\ zlen bs <= zlen es)
    by (apply bones_any; assumption); assert (Le : zlen es < 2 ^ 64) by assumption end.
  destruct K as (bs & U & Ob & Lb). rewrite U in H. injection H as ->.
  assert (O' : bones_ok bones = true). { clear - Ob Lb Le. unfold bones_ok. oks. clear Ob. lia. }
  unfold Skel_V10 in E. fields E. unfold skel_data_write in Wr. apply bind_ok in Wr as (v & Ev & Wr).
  destruct (skel_val_ok mul inv Mo Io bones v O' Ev) as [Ok' _].
  apply (typed_small Skel (1, 0) v Skel_V10); [exact Ok'|reflexivity| |exact Wr]. change (reload_limit Skel) with (2 ^ 33).
  unfold skel_val in Ev. pose proof (bones_parents _ O') as P. destruct (worlds_dec mul inv bones bones P P) as [A|A].
  2:{ rewrite (proj2 (worlds_spec mul inv bones bones P P) A) in Ev. discriminate Ev. }
  destruct (proj1 (worlds_spec mul inv bones bones P P) A) as (ws & Ew & FW). rewrite Ew in Ev. cbn [bind] in Ev. injection Ev as <-.
  apply forall2_length in FW.
  match goal with H : within _ (TArr SkelBoneEntry) _ = true |- _ => cbn [within] in H; apply andb_true_iff in H as [_ We] end.
  match type of U with un_bones _ ?ts = _ => match goal with H : within _ (TArr Matrix4x4) (VArr ts) = true |- _ => cbn [within] in H; apply andb_true_iff in H as [Lt _]; apply Z.leb_le in Lt end end.
  destruct (bones_short (2 ^ 33) ltac:(discriminate) _ _ _ We U) as [Y1 Y2]. change (inline_size Matrix4x4) with 64 in Lt. clear - Lt FW Y1 Y2.
  assert (L1 : zlen bones <= 2 ^ 33 / 64 + 1) by lia. assert (L2 : zlen ws <= 2 ^ 33 / 64 + 1) by (unfold zlen in *; lia). clear Lt Y1 FW.
  unfold Skel_V10. build.
  - cbn [within]. rewrite Y2, andb_true_r, bone_entries_len. change (inline_size SkelBoneEntry) with 16. change (2 ^ 33 / 64) with 134217728 in L1. change (2 ^ 33 / 16) with 536870912. lia.
  - apply (mats_within _ mat_val); auto using mat_within.
  - apply (mats_within _ (fun m => mat_val (inv m))); [intros; apply mat_within|exact L2].
  - rewrite <- (map_map bn_transform mat_val). apply (mats_within _ mat_val); auto using mat_within. now rewrite zlen_map.
  - rewrite <- (map_map bn_transform (fun m => mat_val (inv m))). apply (mats_within _ (fun m => mat_val (inv m))); [intros; apply mat_within|now rewrite zlen_map].
Qed.

(** ** Matl *)
Notation attr16 := (record [ParamId; Param BlendStateV16 RasterizerStateV16]).
Lemma get_texts L attrs : 0 <= L -> forall ps, forallb (within L attr16) attrs = true -> get_attributes 11 un_text attrs = Ok ps -> Forall (fun p => zlen (pr_data p) <= L) ps.
Proof.
  intros HL. induction attrs as [|a attrs IH]; intros ps W H; [injection H as <-; constructor|]. cbn [forallb] in W. apply andb_true_iff in W as [W1 W2]. cbn [get_attributes] in H.
  destruct a as [| |[|[id| | | | |] [|[| | | |[[| | | | |t [| |[|v [|]]| | |]]|]|] [|]]]| | |]; try discriminate H; [|now apply IH].
  destruct (t =? 11) eqn:E; [|now apply IH]. apply Z.eqb_eq in E as ->. apply bind_ok in H as (d & U & H). apply bind_ok in H as (qs & G & H). injection H as <-.
  constructor; [|now apply IH]. cbn [pr_data]. injection U as <-. apply (lossy_short L 4); [exact HL|].
  unfold record in W1. rewrite within_struct in W1. cbn [map within_fields] in W1. apply andb_true_iff in W1 as [_ W1]. apply andb_true_iff in W1 as [W1 _].
  unfold Param in W1. rewrite within_enum in W1. cbn [find_case variant Z.eqb Pos.eqb] in W1. unfold record in W1. rewrite within_struct in W1. cbn [map within_fields] in W1.
  apply andb_true_iff in W1 as [W1 _]. exact W1.
Qed.
Lemma attrs_within {A} L tag (f : A -> val) ps : (forall p, In p ps -> within L attr16 (attribute tag f p) = true) -> forallb (within L attr16) (map (attribute tag f) ps) = true.
Proof. intros H. apply forallb_forall. intros x Hx. apply in_map_iff in Hx as (p & <- & Hp). now apply H. Qed.
Lemma entry16_again L v e : 0 <= L -> within L (MatlEntry BlendStateV16 RasterizerStateV16) v = true -> un_entry16 v = Ok e ->
  within L (MatlEntry BlendStateV16 RasterizerStateV16) (entry16_val e) = true.
Proof.
  intros HL W H. unfold un_entry16, un_matl_entry in H. destruct v as [| |[|l [|[| | |attrs| |] [|s [|]]]]| | |]; try discriminate H.
  apply bind_ok in H as (vectors & E1 & H). apply bind_ok in H as (floats & E2 & H). apply bind_ok in H as (bools & E3 & H). apply bind_ok in H as (texts & E4 & H).
  apply bind_ok in H as (samplers & E5 & H). apply bind_ok in H as (blends & E6 & H). apply bind_ok in H as (rasters & E7 & H). apply bind_ok in H as (uvs & E8 & H). injection H as <-.
  unfold MatlEntry, SsbhString in *. unfold record in W at 1. rewrite within_struct in W. cbn [map within_fields] in W. apply andb_true_iff in W as [Wl W]. apply andb_true_iff in W as [Wa W]. apply andb_true_iff in W as [Ws _].
  unfold entry16_val. cbn [mt_label mt_shader mt_floats mt_bools mt_vectors mt_textures mt_samplers mt_uvs mt_blends mt_rasters].
  unfold record at 1. rewrite within_struct. cbn [map within_fields]. rewrite (string_again L 4 l HL Wl), (string_again L 4 s HL Ws). cbn [andb]. rewrite !andb_true_r.
  cbn [within] in Wa. apply andb_true_iff in Wa as [La Wa]. pose proof (get_texts L attrs HL texts Wa E4) as T. rewrite Forall_forall in T.
  cbn [within]. rewrite !forallb_app. rewrite !attrs_within by (intros; reflexivity).
  rewrite (attrs_within L 11 ssbh_string) by (intros p Hp; specialize (T p Hp); unfold attribute; build; [reflexivity|]; unfold Param; rewrite within_enum; cbn [find_case variant Z.eqb Pos.eqb]; build; apply (string_within L 4); exact T).
  rewrite (attrs_within L 16 uv_val) by (intros; reflexivity). cbn [andb]. rewrite !andb_true_r. apply Z.leb_le in La. apply Z.leb_le. pose proof (types_length attrs) as TL.
  apply get_length in E1, E2, E3, E4, E5, E6, E7, E8. rewrite !zlen_app, !zlen_map. clear - La TL E1 E2 E3 E4 E5 E6 E7 E8.
  revert La. generalize (L / inline_size attr16 + 1). intros; lia.
Qed.
Theorem matl_small_reload b d : bytes_ok b = true -> zlen b <= 2 ^ 24 -> matl_data_read b = Ok d ->
  ((mt_major d, mt_minor d) = (1, 6) /\ exists out, matl_data_write d = Ok out /\ matl_data_read out = Ok d) \/
  ((mt_major d, mt_minor d) = (1, 5) /\ matl_data_write d = Err (EData DVersion)).
Proof.
  intros Hb HL H. destruct (matl_reload b d Hb H) as [(V & out & Wr & Rd)|X]; [left|now right]. split; [exact V|]. exists out. split; [exact Wr|]. apply Rd. clear Rd.
  unfold matl_data_read in H. apply bind_ok in H as ([version v] & E & H). pose proof E as E'. apply typed_read_ok in E' as (t & F & W); [|exact Hb]. cbn [fkind fver fbody] in *.
  unfold un_matl in H. destruct v as [| |[|[| | |es| |] [|]]| | |]; try discriminate H. apply bind_ok in H as (entries & U & H). injection H as <-. cbn [mt_major mt_minor] in V.
  destruct version as [ma mi]. cbn [fst snd] in *. injection V as -> ->. change (ver_eqb (1, 6) (1, 5)) with false in U. cbn match in U. assert (t = Matl_V16) as -> by (cbn in F; congruence).
  apply (typed_within Matl b _ _ Matl_V16 (2 ^ 24)) in E; [|exact Hb|exact HL|reflexivity].
  apply struct_inv in W as (vs & [= <-] & F2). inv2. match goal with H : wt (TArr _) _ = true |- _ => apply arr_inv in H as (es' & [= <-] & L & We) end.
  apply (list_any _ un_entry16 matl_entry_ok) in We as (xs & U' & Ox & Lx); [|intros v Hv; eapply entry_any; [exact blend16_any|exact raster16_any|exact Hv]].
  rewrite U in U'. injection U' as <-. unfold matl_data_write, matl_val in Wr. cbn [mt_major mt_minor mt_entries Z.eqb Pos.eqb andb bind] in Wr.
  apply (typed_small Matl (1, 6) (VStruct [VArr (map entry16_val entries)]) Matl_V16); [|reflexivity| |exact Wr].
  - apply matl_file_ok. rewrite Ox, andb_true_r. unfold len_ok. clear - L Lx. lia.
  - change (reload_limit Matl) with (2 ^ 24). unfold Matl_V16 in *. unfold record in E at 1. rewrite within_struct in E. cbn [map within_fields] in E. apply andb_true_iff in E as [E _].
    unfold record at 1. rewrite within_struct. cbn [map within_fields]. rewrite andb_true_r.
    apply (arr_again (2 ^ 24) _ un_entry16 entry16_val es entries (fun v x => entry16_again _ v x (ltac:(discriminate) : 0 <= 2 ^ 24)) E U).
Qed.

(** ** MeshEx *)
Lemma cstr_short L a v t : 0 <= L -> within L (TAbs 8 (TCStr a)) v = true -> un_cstr_ptr v = Ok t -> zlen t <= L.
Proof.
  intros HL W H. destruct v as [| | | |[[|bs| | | |]|]|]; try discriminate H; [|injection H as <-; exact HL]. cbn [un_cstr_ptr within] in *. injection H as <-. unfold cstring_to_str.
  destruct (utf8_valid bs); [lia|exact HL].
Qed.
Lemma cstr_room L a t : 0 < a <= 16 -> zlen t <= L -> space 16 (TAbs 8 (TCStr a)) (cstr_ptr t) <= L + 16.
Proof.
  intros Ha Ht. cbn [space cstr_ptr]. pose proof (cstring_short t). pose proof (zlen_nonneg t). set (bs := cstring_from_bytes t) in *.
  pose proof (round_up_lt (object_size (TCStr a) (VBytes bs)) 16 ltac:(lia)).
  destruct bs as [|x r]; [cbn [object_size]; assert (round_up a 16 <= 16) by (apply round_up_least; try lia; reflexivity); lia|].
  cbn [object_size] in *. lia.
Qed.
Lemma group_room L g : 0 <= L -> zlen (mg_full g) <= L -> zlen (mg_name g) <= L -> space 16 MeshObjectGroup (group_value g) <= 2 * (L + 16).
Proof.
  intros HL Hf Hn. unfold MeshObjectGroup, aligned, group_value. rewrite space_struct. cbn [map space_fields]. change (space 16 BoundingSphere (sphere_val (mg_sphere g))) with 0.
  pose proof (cstr_room L 4 _ ltac:(lia) Hf). pose proof (cstr_room L 4 _ ltac:(lia) Hn). lia.
Qed.
Lemma zero_list A t vs : (forall v, In v vs -> space A t v = 0) -> space_list A t vs = 0.
Proof. induction vs as [|v r IH]; intros H; [reflexivity|]. cbn [space_list fold_right]. fold (space_list A t r). rewrite (H v (or_introl eq_refl)), IH; [reflexivity|]. intros; apply H; now right. Qed.
Lemma entries_in gs : forall i v, In v (entries_from i gs) -> exists j, v = mesh_entry j.
Proof. induction gs as [|g gs IH]; intros i v H; [destruct H|]. cbn [entries_from] in H. apply in_app_or in H as [H|H]; [|eapply IH; eauto]. apply in_map_iff in H as (? & <- & _). eauto. Qed.
Lemma flags_in_vals gs v : In v (flat_map (fun g => map flag_val (mg_flags g)) gs) -> exists e, v = flag_val e.
Proof. intros H. apply in_flat_map in H as (g & _ & H). apply in_map_iff in H as (e & <- & _). eauto. Qed.
Lemma meshex_room L n m all gs : 0 <= L -> zlen gs <= n -> zlen (flat_map mg_flags gs) <= m -> (forall g, In g gs -> zlen (mg_full g) <= L /\ zlen (mg_name g) <= L) ->
  meshex_space (meshex_of all gs) <= 128 + 32 * n + 18 * m + n * (2 * (L + 16)).
Proof.
  intros HL Hn Hm Hg. unfold meshex_space, meshex_of. cbn [mx_all mx_groups mx_entries mx_flags opt_len].
  change (space 16 (TAbs 8 AllData) (VPtr (Some (VStruct [sphere_val all; cstr_ptr [65; 108; 108]])))) with 48.
  unfold groups_ty, entries_ty, flags_ty, vec_ptr, flags_ptr. cbn [option_map space object_size csize].
  fold (space_list 16 MeshObjectGroup (map group_value gs)). fold (space_list 16 MeshEntry (entries_from 0 gs)).
  assert (G : space_list 16 MeshObjectGroup (map group_value gs) <= zlen gs * (2 * (L + 16))).
  { rewrite <- (zlen_map group_value gs). apply list_space_le. intros v Hv. apply in_map_iff in Hv as (g & <- & Ig). destruct (Hg g Ig). now apply group_room. }
  rewrite (zero_list 16 MeshEntry) by (intros v Hv; apply entries_in in Hv as (j & ->); reflexivity).
  unfold EntryFlags, aligned. rewrite space_struct. cbn [map space_fields space csize].
  match goal with |- context [fold_right ?f 0 ?l] => change (fold_right f 0 l) with (space_list 16 EntryFlag l) end.
  rewrite (zero_list 16 EntryFlag) by (intros v Hv; apply flags_in_vals in Hv as (e & ->); reflexivity).
  assert (Z1 : zlen (map group_value gs) = zlen gs) by apply zlen_map.
  assert (Z2 : zlen (entries_from 0 gs) = zlen (flat_map mg_flags gs)) by (unfold zlen; now rewrite entries_length).
  assert (Z3 : zlen (flat_map (fun g => map flag_val (mg_flags g)) gs) = zlen (flat_map mg_flags gs)) by (unfold zlen; now rewrite flags_length).
  match goal with |- context [object_size (TStruct [(TVec ?k EntryFlag, (0, 0))] 0 0 ?al) ?v] =>
    change (object_size (TStruct [(TVec k EntryFlag, (0, 0))] 0 0 al) v) with (k * 2 + 0 + 0 + 0) end.
  rewrite Z1, Z2, Z3. change (csize MeshObjectGroup) with 32. change (csize MeshEntry) with 16. change (csize EntryFlag) with 2.
  pose proof (round_up_lt (zlen gs * 32) 16 ltac:(lia)). pose proof (round_up_lt (zlen (flat_map mg_flags gs) * 16) 16 ltac:(lia)).
  pose proof (round_up_lt (zlen (flat_map mg_flags gs) * 2 + 0 + 0 + 0) 16 ltac:(lia)).
  assert (zlen gs * (2 * (L + 16)) <= n * (2 * (L + 16))) by (apply Z.mul_le_mono_nonneg_r; lia).
  clear - H H0 H1 H2 G Hn Hm. revert H H0 H1 H2 G. generalize (n * (2 * (L + 16))), (zlen gs * (2 * (L + 16))), (round_up (zlen gs * 32) 16), (round_up (zlen (flat_map mg_flags gs) * 16) 16),
    (round_up (zlen (flat_map mg_flags gs) * 2 + 0 + 0 + 0) 16), (space_list 16 MeshObjectGroup (map group_value gs)). intros; lia.
Qed.

(** The counts and the text of a MeshEx file. *)
Lemma vec_count b n t p l : bytes_ok b = true -> lead t = true -> 0 < inline_size t -> Dec b (TAbs 8 (TVec n t)) p (vec_ptr (Some l)) -> (zlen l - 1) * inline_size t <= zlen b.
Proof.
  intros Hb Hl Hi D. unfold vec_ptr in D. cbn [option_map] in D. inversion D as [| | | | | | | |w u q o x U N Dx| | | | | | |]; subst. inversion Dx as [| | | | | | | | | | | | | | |? ? ? vs L Dv]; subst.
  pose proof (DecFacts.uint_nonneg _ _ _ _ Hb U). apply (elems_len b t (inline_size t) o l Hi (fun x q => lead_starts b t q x Hl) eq_refl Dv). lia.
Qed.
Theorem meshex_small_reload all b gs : sphere_ok all = true -> bytes_ok b = true -> zlen b <= 2 ^ 32 -> meshex_data_read b = Ok gs ->
  exists out, meshex_data_write all gs = Ok out /\ meshex_data_read out = Ok gs.
Proof.
  intros A Hb HL H. destruct (meshex_loaded b gs Hb H) as (x & R & G & LF & F). apply meshex_read_dec in R; [|exact Hb].
  destruct R as (len & ne & ng & _ & Ne & Ng & _ & Dg & De & _).
  assert (CE : opt_len (mx_entries x) <= 268435457).
  { destruct (mx_entries x) as [l|]; [|cbn; lia]. cbn [opt_len]. apply vec_count in De; [|exact Hb|reflexivity|reflexivity]. change (inline_size MeshEntry) with 16 in De. change (2 ^ 32) with 4294967296 in HL. lia. }
  assert (CG : zlen gs <= 134217729 /\ forall g, In g gs -> zlen (mg_full g) <= 4294967296 /\ zlen (mg_name g) <= 4294967296).
  { destruct (mx_groups x) as [l|]; [|inversion F; subst; split; [cbn; lia|intros g []]]. cbn [or_empty] in F. split.
    - apply forall2_length in F. apply vec_count in Dg; [|exact Hb|reflexivity|reflexivity]. change (inline_size MeshObjectGroup) with 32 in Dg. change (2 ^ 32) with 4294967296 in HL. unfold zlen in *. lia.
    - intros g Hg. apply (forall2_in_r _ _ _ F) in Hg as (v & Hv & f & n & -> & Ef & En). pose proof (DecFacts.uint_nonneg _ _ _ _ Hb Ng).
      apply (dec_within b 4294967296 Hb HL _ false) in Dg; [|cbn; clear - H0; lia|reflexivity|lia]. unfold vec_ptr in Dg. cbn [option_map within] in Dg. rewrite forallb_forall in Dg. specialize (Dg _ Hv).
      unfold MeshObjectGroup, aligned in Dg. rewrite within_struct in Dg. cbn [map within_fields] in Dg. apply andb_true_iff in Dg as [_ Dg]. apply andb_true_iff in Dg as [Wf Dg]. apply andb_true_iff in Dg as [Wn _].
      split; [exact (cstr_short 4294967296 4 _ _ ltac:(lia) Wf Ef)|exact (cstr_short 4294967296 4 _ _ ltac:(lia) Wn En)]. }
  destruct CG as [CG CT]. assert (LF' : zlen (flat_map mg_flags gs) <= 268435457) by lia.
  pose proof (meshex_room 4294967296 134217729 268435457 all gs ltac:(lia) CG LF' CT) as S. clear - A G S.
  destruct (meshex_of_lens all gs G) as (L1 & L2 & L3 & L4). pose proof (meshex_of_ok all gs A G) as X.
  destruct (meshex_fits _ X L1 L2 L3 L4) as (out & W). { clear - S. change (2 ^ 64) with 18446744073709551616. lia. }
  exists out. split; [exact W|]. apply (meshex_save_load all gs out A G W). pose proof (meshex_size _ _ X W) as Z. clear - S Z. change (2 ^ 63) with 9223372036854775808. lia.
Qed.
