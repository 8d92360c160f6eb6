(** JSON documents of the data types of ssbh_data: how values are represented. *)
From Coq Require Import Lia ZifyBool ZifyNat ZifyN.
From Verif Require Import Bytes BytesFacts Ssbh Formats File MeshEx Strings AnimComp AnimBuf AnimSpec AnimFile SmallData DataSpec
  SmallDataFacts MatlData MatlSpec SkelData SkelSpec AdjData VecData MeshData MeshSpec Json JsonSchema JsonSpec JsonFacts
  JsonRound DataJson DataJsonSpec.
Ltac Zify.zify_post_hook ::= ZifyBool.elim_bool_cstr; Z.to_euclidean_division_equations.

(** [doc] and [un] are inverse, [ty] and [fl] describe the documents [doc] gives. *)
Record rep (s : schema) {A} (ty : A -> bool) (doc : A -> val) (un : val -> res A) (fl : A -> list Z) : Prop := Rep {
  r_un : forall a, un (doc a) = Ok a;
  r_sty : forall a, ty a = true -> sty s (doc a) = true;
  r_fl : forall a, floats s (doc a) = forallb f32_finite (fl a);
  r_inv : forall v, sty s v = true -> exists a, v = doc a /\ ty a = true
}.
Arguments r_un {s A ty doc un fl}. Arguments r_sty {s A ty doc un fl}.
Arguments r_fl {s A ty doc un fl}. Arguments r_inv {s A ty doc un fl}.

Local Open Scope list_scope.
Local Open Scope Z_scope.

Create HintDb rep discriminated.

(** ** Leaves *)
Lemma rep_text : rep SText utf8_valid text_doc un_text_doc (fun _ => []).
Proof.
  split; auto.
  intros [] H; try discriminate. exists bs. auto.
Qed.
Lemma rep_int w sg : rep (SInt w sg) (fun n => (0 <=? n) && (n <? 256 ^ w)) int_doc un_int_doc (fun _ => []).
Proof. split; auto. intros [] H; try discriminate. exists n. auto. Qed.
Lemma rep_u16 sg : rep (SInt 2 sg) u16_ok int_doc un_int_doc (fun _ => []).
Proof. exact (rep_int 2 sg). Qed.
Lemma rep_u32 sg : rep (SInt 4 sg) u32_ok int_doc un_int_doc (fun _ => []).
Proof. exact (rep_int 4 sg). Qed.
Lemma rep_u64 sg : rep (SInt 8 sg) u64_ok int_doc un_int_doc (fun _ => []).
Proof. exact (rep_int 8 sg). Qed.
Lemma rep_f32 : rep SF32 is32 int_doc un_int_doc (fun n => [n]).
Proof. split; auto. intros [] H; try discriminate. exists n. auto. Qed.
Lemma rep_bool : rep SBool (fun _ => true) bool_doc un_bool_doc (fun _ => []).
Proof.
  split; auto.
  - now intros [].
  - now intros [].
  - intros [] H; try discriminate. cbn in H. exists (n =? 1). split; auto. unfold bool_doc. f_equal.
    destruct (n =? 1) eqn:E; cbn; lia.
Qed.
Lemma rep_name tags ty : (forall n, ty n = existsb (Z.eqb n) (map fst tags)) ->
  rep (SName tags) ty int_doc un_int_doc (fun _ => []).
Proof.
  intros E. split; auto.
  - intros a. rewrite E. auto.
  - intros [] H; try discriminate. exists n. rewrite E. auto.
Qed.
#[export] Hint Resolve rep_text rep_u16 rep_u32 rep_u64 rep_f32 rep_bool : rep.

(** ** Lists and options *)
Lemma un_list_ok {A} (f : val -> res A) (g : A -> val) : (forall a, f (g a) = Ok a) ->
  forall l, un_list_doc f (list_doc g l) = Ok l.
Proof.
  intros H l. cbn. induction l as [|a l IH]; cbn; auto. now rewrite H, IH.
Qed.
Lemma list_docs {A} (P : val -> bool) (doc : A -> val) (ty : A -> bool) vs :
  (forall v, P v = true -> exists a, v = doc a /\ ty a = true) -> forallb P vs = true ->
  exists l, vs = map doc l /\ forallb ty l = true.
Proof.
  intros H. induction vs as [|v vs IH]; cbn; intros F; [now exists []|].
  apply andb_true_iff in F as [F1 F2]. destruct (H v F1) as (a & -> & T). destruct (IH F2) as (l & -> & T2).
  exists (a :: l). cbn. now rewrite T.
Qed.

Section Lists.
Context {A : Type} (s : schema) (ty : A -> bool) (doc : A -> val) (un : val -> res A) (fl : A -> list Z).
Hypothesis R : rep s ty doc un fl.

Lemma list_floats l : forallb (floats s) (map doc l) = forallb f32_finite (flat_map fl l).
Proof. induction l as [|a l IH]; cbn; auto. now rewrite IH, (r_fl R), forallb_app. Qed.
Lemma list_sty l : forallb ty l = true -> forallb (sty s) (map doc l) = true.
Proof.
  induction l as [|a l IH]; cbn; auto. rewrite !andb_true_iff. intros [H1 H2]. split; auto. now apply (r_sty R).
Qed.

Lemma rep_list : rep (SArr s) (forallb ty) (list_doc doc) (un_list_doc un) (flat_map fl).
Proof.
  split.
  - apply un_list_ok, R.
  - apply list_sty.
  - intros l. rewrite <- list_floats. unfold floats at 1. cbn. rewrite forallb_flat_map. reflexivity.
  - intros [] H; try discriminate. destruct (list_docs _ doc ty vs (r_inv R) H) as (l & -> & T). now exists l.
Qed.
Lemma rep_fix n : rep (SFix n s) (fun l => (zlen l =? n) && forallb ty l) (list_doc doc) (un_list_doc un) (flat_map fl).
Proof.
  split.
  - apply un_list_ok, R.
  - intros l H. apply andb_true_iff in H as [H1 H2]. cbn. unfold zlen in *. rewrite map_length, H1. now apply list_sty.
  - intros l. rewrite <- list_floats. unfold floats at 1. cbn. rewrite forallb_flat_map. reflexivity.
  - intros [] H; try discriminate. cbn in H. apply andb_true_iff in H as [L H].
    destruct (list_docs _ doc ty vs (r_inv R) H) as (l & -> & T). exists l.
    unfold zlen in *. rewrite map_length in L. now rewrite L, T.
Qed.
Lemma rep_def nul d : rep (SDef nul d s) ty doc un fl.
Proof. split; [apply R..]. Qed.
End Lists.
Lemma rep_opt {A} s (ty : A -> bool) doc un : rep s ty doc un (fun _ => []) ->
  rep (SAbs s) (typed_opt ty) (opt_doc doc) (un_opt_doc un) (fun _ => []).
Proof.
  intros R. split.
  - intros [a|]; cbn; auto. now rewrite (r_un R).
  - intros [a|]; cbn; auto. apply R.
  - intros [a|]; auto. exact (r_fl R a).
  - intros [| | | |[v|]|] H; try discriminate; [|now exists None].
    destruct (r_inv R v H) as (a & -> & T). now exists (Some a).
Qed.
#[export] Hint Resolve rep_list rep_opt : rep.
#[export] Hint Resolve rep_fix | 5 : rep.
#[export] Hint Resolve rep_def | 10 : rep.

(** ** Structs *)
Record freps (fs : list (string * schema)) {A} (ty : A -> bool) (docs : A -> list val) (fl : A -> list Z) : Prop := FReps {
  f_tys : forall a, ty a = true -> tys fs (docs a);
  f_fl : forall a, forallb (fun x => x) (map2 (fun p v => floats (snd p) v) fs (docs a)) = forallb f32_finite (fl a);
  f_inv : forall vs, tys fs vs -> exists a, vs = docs a /\ ty a = true
}.
Lemma fnil : freps [] (fun _ : unit => true) (fun _ => []) (fun _ => []).
Proof. split; auto; [constructor|]. intros vs H. inversion H. now exists tt. Qed.
Lemma fcons x s fs {A B} (ty : A -> bool) doc un fl (tyT : B -> bool) docsT flT :
  rep s ty doc un fl -> freps fs tyT docsT flT ->
  freps ((x, s) :: fs) (fun p => ty (fst p) && tyT (snd p)) (fun p => doc (fst p) :: docsT (snd p))
        (fun p => fl (fst p) ++ flT (snd p)).
Proof.
  intros R F. split.
  - intros [a b] H. cbn in *. apply andb_true_iff in H as [H1 H2]. constructor; [now apply R|now apply F].
  - intros [a b]. cbn [fst snd]. rewrite forallb_app, <- (r_fl R), <- (f_fl _ _ _ _ F). reflexivity.
  - intros vs H. inversion H as [|? v ? vs' H1 H2]; subst. destruct (r_inv R v H1) as (a & -> & T).
    destruct (f_inv _ _ _ _ F _ H2) as (b & -> & T2). exists (a, b). cbn. now rewrite T, T2.
Qed.
Lemma floats_struct fs vs : floats (SStruct fs) (VStruct vs) =
  forallb (fun x => x) (map2 (fun p v => floats (snd p) v) fs vs).
Proof.
  unfold floats at 1. cbn. rewrite forallb_concat. revert vs. induction fs as [|p fs IH]; intros [|v vs]; cbn; auto.
  now rewrite <- IH.
Qed.
Lemma rep_struct fs {A T} ty doc un fl tyT docsT flT (to : A -> T) (from : T -> A) :
  freps fs tyT docsT flT ->
  (forall a, un (doc a) = Ok a) ->
  (forall a, ty a = tyT (to a)) ->
  (forall a, forallb f32_finite (fl a) = forallb f32_finite (flT (to a))) ->
  (forall a, doc a = VStruct (docsT (to a))) ->
  (forall t, to (from t) = t) ->
  rep (SStruct fs) ty doc un fl.
Proof.
  intros F U Ty L D I. split; auto.
  - intros a H. rewrite D. apply sty_struct, F. now rewrite <- Ty.
  - intros a. now rewrite D, floats_struct, (f_fl _ _ _ _ F), L.
  - intros v H. destruct v; try discriminate. apply sty_struct, (f_inv _ _ _ _ F) in H as (t & -> & H).
    exists (from t). now rewrite D, Ty, I.
Qed.

Lemma no_list {A} (l : list A) : flat_map (fun _ => @nil Z) l = [].
Proof. induction l; auto. Qed.
Lemma all_true {A} (l : list A) : forallb (fun _ => true) l = true.
Proof. induction l; auto. Qed.

Ltac parts_back := repeat match goal with
  | |- context [bind (?u (?d ?x)) _] =>
      let H := fresh in
      assert (H : u (d x) = Ok x) by (eapply (@r_un _ _ _ d u); solve [eauto 10 with rep]);
      rewrite H; clear H; cbn [bind]
  end.
Ltac bools := rewrite ?forallb_app, ?andb_assoc, ?no_list, ?all_true, ?andb_true_r.
Lemma flat_one {A B} (f : A -> B) l : flat_map (fun a => [f a]) l = map f l.
Proof. induction l; cbn; congruence. Qed.
Lemma flat_flat {A B C} (f : B -> list C) (g : A -> list B) l :
  flat_map f (flat_map g l) = flat_map (fun x => flat_map f (g x)) l.
Proof. induction l; cbn; auto. now rewrite flat_map_app, IHl. Qed.
Lemma tracks_flat {A} (f : track_data -> list A) gs :
  flat_map f (flat_map (fun g => flat_map nd_tracks (gd_nodes g)) gs) =
  flat_map (fun g => flat_map (fun n => flat_map f (nd_tracks n)) (gd_nodes g)) gs.
Proof. rewrite flat_flat. apply flat_map_ext. intros g. apply flat_flat. Qed.
Ltac more_floats :=
  unfold anim_floats, tracks_of, object_floats, all_attributes, matl_entry_floats; cbn -[forallb flat_map];
  rewrite ?tracks_flat, ?flat_map_app, ?flat_one, ?app_nil_r, ?forallb_app, ?andb_assoc; reflexivity.
Ltac struct_rep to from :=
  lazymatch goal with |- rep ?s ?ty ?doc ?un ?fl =>
    let s' := eval hnf in s in change s with s';
    eapply (rep_struct _ _ _ _ _ _ _ _ to from);
    [ repeat (eapply fcons; [solve [eauto 10 with rep]|]); apply fnil
    | let a := fresh in intros a; unfold doc, un; parts_back; destruct a; reflexivity
    | intros []; cbn -[forallb]; bools; reflexivity
    | intros []; cbn -[forallb]; bools; first [reflexivity | solve [more_floats]]
    | intros []; reflexivity
    | intros t; repeat match goal with p : prod _ _ |- _ => destruct p | u : unit |- _ => destruct u end; reflexivity ]
  end.

Lemma rep_vec3 : rep s_vectors_Vector3 vec3_ok vec3_val un_vec3 vec3_floats.
Proof.
  struct_rep (fun r => (v3x r, (v3y r, (v3z r, tt))))
             (fun t : (Z * (Z * (Z * unit))) => let '(a, (b, (c, _))) := t in V3 a b c).
Qed.
#[export] Hint Resolve rep_vec3 : rep.
Lemma rep_vec4 : rep s_vectors_Vector4 vec4_ok vec4_val un_vec4 vec4_floats.
Proof.
  struct_rep (fun r => (v4x r, (v4y r, (v4z r, (v4w r, tt)))))
             (fun t : (Z * (Z * (Z * (Z * unit)))) => let '(a, (b, (c, (d, _)))) := t in V4 a b c d).
Qed.
#[export] Hint Resolve rep_vec4 : rep.
Lemma rep_color : rep s_vectors_Color4f vec4_ok vec4_val un_vec4 vec4_floats.
Proof.
  struct_rep (fun r => (v4x r, (v4y r, (v4z r, (v4w r, tt)))))
             (fun t : (Z * (Z * (Z * (Z * unit)))) => let '(a, (b, (c, (d, _)))) := t in V4 a b c d).
Qed.
#[export] Hint Resolve rep_color : rep.
Lemma rep_uv : rep sd_uv uvt_ok uv_val un_uv uv_floats.
Proof.
  struct_rep (fun r => (uv_su r, (uv_sv r, (uv_rot r, (uv_tu r, (uv_tv r, tt))))))
             (fun t : (Z * (Z * (Z * (Z * (Z * unit))))) => let '(a, (b, (c, (d, (e, _))))) := t in Uv a b c d e).
Qed.
#[export] Hint Resolve rep_uv : rep.
Lemma rep_uv_matl : rep s_matl_UvTransform uvt_ok uv_val un_uv uv_floats.
Proof.
  struct_rep (fun r => (uv_su r, (uv_sv r, (uv_rot r, (uv_tu r, (uv_tv r, tt))))))
             (fun t : (Z * (Z * (Z * (Z * (Z * unit))))) => let '(a, (b, (c, (d, (e, _))))) := t in Uv a b c d e).
Qed.
#[export] Hint Resolve rep_uv_matl : rep.
Lemma rep_sphere : rep s_mesh_BoundingSphere sphere_ok sphere_val un_sphere (fun s => vec3_floats (sp_center s) ++ [sp_radius s]).
Proof.
  struct_rep (fun r => (sp_center r, (sp_radius r, tt)))
             (fun t : (vec3 * (Z * unit)) => let '(a, (b, _)) := t in Sph a b).
Qed.
#[export] Hint Resolve rep_sphere : rep.

(** ** The types *)
Lemma rep_modl_entry : rep sd_modl_entry typed_modl_entry modl_entry_doc un_modl_entry_doc (fun _ => []).
Proof.
  struct_rep (fun r => (me_name r, (me_subindex r, (me_material r, tt))))
             (fun t : (text * (Z * (text * unit))) => let '(a, (b, (c, _))) := t in ME a b c).
Qed.
#[export] Hint Resolve rep_modl_entry : rep.
Lemma rep_modl : rep sd_modl typed_modl modl_doc un_modl_doc (fun _ => []).
Proof.
  struct_rep (fun r => (md_major r, (md_minor r, (md_model r, (md_skel r, (md_materials r, (md_anim r, (md_mesh r, (md_entries r, tt)))))))))
             (fun t : (Z * (Z * (text * (text * (list text * (option text * (text * (list modl_entry * unit)))))))) => let '(a, (b, (c, (d, (e, (f, (g, (h, _)))))))) := t in MD a b c d e f g h).
Qed.
#[export] Hint Resolve rep_modl : rep.
Lemma rep_aim : rep sd_aim typed_aim aim_doc un_aim_doc aim_floats.
Proof.
  struct_rep (fun r => (am_name r, (am_bone1 r, (am_bone2 r, (am_type1 r, (am_type2 r, (am_target1 r, (am_target2 r, (am_unk1 r, (am_unk2 r, (am_aim r, (am_up r, (am_quat1 r, (am_quat2 r, tt))))))))))))))
             (fun t : (text * (text * (text * (text * (text * (text * (text * (Z * (Z * (vec3 * (vec3 * (vec4 * (vec4 * unit))))))))))))) => let '(a, (b, (c, (d, (e, (f, (g, (h, (i, (j, (k, (l, (m, _))))))))))))) := t in Aim a b c d e f g h i j k l m).
Qed.
#[export] Hint Resolve rep_aim : rep.
Lemma rep_orient : rep sd_orient typed_orient orient_doc un_orient_doc orient_floats.
Proof.
  struct_rep (fun r => (or_name r, (or_parent1 r, (or_parent2 r, (or_source r, (or_target r, (or_type r, (or_axes r, (or_quat1 r, (or_quat2 r, (or_min r, (or_max r, tt))))))))))))
             (fun t : (text * (text * (text * (text * (text * (Z * (vec3 * (vec4 * (vec4 * (vec3 * (vec3 * unit))))))))))) => let '(a, (b, (c, (d, (e, (f, (g, (h, (i, (j, (k, _))))))))))) := t in Orient a b c d e f g h i j k).
Qed.
#[export] Hint Resolve rep_orient : rep.
Lemma rep_hlpb : rep sd_hlpb typed_hlpb hlpb_doc un_hlpb_doc hlpb_floats.
Proof.
  struct_rep (fun r => (hd_major r, (hd_minor r, (hd_aims r, (hd_orients r, tt)))))
             (fun t : (Z * (Z * (list aim * (list orient * unit)))) => let '(a, (b, (c, (d, _)))) := t in HD a b c d).
Qed.
#[export] Hint Resolve rep_hlpb : rep.
Lemma rep_flags : rep sd_flags (fun _ => true) flags_doc un_flags_doc (fun _ => []).
Proof.
  struct_rep (fun r => (ef_draw r, (ef_shadow r, tt)))
             (fun t : (bool * (bool * unit)) => let '(a, (b, _)) := t in EF a b).
Qed.
#[export] Hint Resolve rep_flags : rep.
Lemma rep_mesh_group : rep sd_mesh_group typed_mesh_group mesh_group_doc un_mesh_group_doc mesh_group_floats.
Proof.
  struct_rep (fun r => (mg_sphere r, (mg_full r, (mg_name r, (mg_flags r, tt)))))
             (fun t : (sphere * (text * (text * (list entry_flags * unit)))) => let '(a, (b, (c, (d, _)))) := t in MG a b c d).
Qed.
#[export] Hint Resolve rep_mesh_group : rep.
Lemma rep_adj_entry : rep sd_adj_entry typed_adj_entry adj_entry_doc un_adj_entry_doc (fun _ => []).
Proof.
  struct_rep (fun r => (ae_object r, (ae_adjacency r, tt)))
             (fun t : (Z * (list Z * unit)) => let '(a, (b, _)) := t in AE a b).
Qed.
#[export] Hint Resolve rep_adj_entry : rep.
(** ** Names *)
Lemma below_name n tags : forallb (below n) (map fst tags) = true ->
  forallb (fun k => existsb (Z.eqb (Z.of_nat k)) (map fst tags)) (seq 0 (Z.to_nat n)) = true ->
  rep (SName tags) (below n) int_doc un_int_doc (fun _ => []).
Proof.
  intros L F. apply rep_name. intros x. apply Bool.eq_iff_eq_true. rewrite existsb_exists. split.
  - intros H. unfold below in H. rewrite forallb_forall in F. specialize (F (Z.to_nat x)).
    rewrite in_seq in F. rewrite Z2Nat.id in F by lia. apply existsb_exists, F. lia.
  - intros (y & I & E). apply Z.eqb_eq in E as ->. rewrite forallb_forall in L. auto.
Qed.
Ltac name_rep := apply below_name; vm_compute; reflexivity.
Lemma rep_wrap : rep s_matl_WrapMode (below 4) int_doc un_int_doc (fun _ => []).
Proof. name_rep. Qed.
Lemma rep_min : rep s_matl_MinFilter (below 3) int_doc un_int_doc (fun _ => []).
Proof. name_rep. Qed.
Lemma rep_mag : rep s_matl_MagFilter (below 3) int_doc un_int_doc (fun _ => []).
Proof. name_rep. Qed.
Lemma rep_factor : rep s_matl_BlendFactor (below 11) int_doc un_int_doc (fun _ => []).
Proof. name_rep. Qed.
Lemma rep_operation : rep s_matl_BlendOperation (below 5) int_doc un_int_doc (fun _ => []).
Proof. name_rep. Qed.
Lemma rep_fill : rep s_matl_FillMode (below 2) int_doc un_int_doc (fun _ => []).
Proof. name_rep. Qed.
Lemma rep_cull : rep s_matl_CullMode (below 3) int_doc un_int_doc (fun _ => []).
Proof. name_rep. Qed.
Lemma rep_id : rep s_matl_ParamId (below 366) int_doc un_int_doc (fun _ => []).
Proof. name_rep. Qed.
Lemma rep_aniso : rep s_matl_MaxAnisotropy (fun n => existsb (Z.eqb n) [1; 2; 4; 8; 16]) int_doc un_int_doc (fun _ => []).
Proof. now apply rep_name. Qed.
Lemma rep_billboard : rep s_skel_BillboardType (fun n => existsb (Z.eqb n) [0; 1; 2; 3; 4; 6; 8]) int_doc un_int_doc (fun _ => []).
Proof. now apply rep_name. Qed.
Lemma rep_group_type : rep s_anim_GroupType (fun n => existsb (Z.eqb n) [1; 2; 4; 5]) int_doc un_int_doc (fun _ => []).
Proof. now apply rep_name. Qed.
#[export] Hint Resolve rep_wrap rep_min rep_mag rep_factor rep_operation rep_fill rep_cull rep_id rep_aniso rep_billboard
  rep_group_type : rep.
Strategy opaque [s_matl_ParamId].

Lemma rep_col : rep (SFix 4 SF32) vec4_ok col_doc un_col_doc vec4_floats.
Proof.
  pose proof (rep_fix SF32 is32 int_doc un_int_doc (fun n => [n]) rep_f32 4) as R. split.
  - now intros [].
  - intros [x y z w] H. apply (r_sty R [x; y; z; w]). unfold vec4_ok in H. cbn [v4x v4y v4z v4w] in H.
    cbn -[is32]. now rewrite andb_true_r, !andb_assoc.
  - intros [x y z w]. exact (r_fl R [x; y; z; w]).
  - intros v H. apply (r_inv R) in H as (l & -> & H). apply andb_true_iff in H as [L H].
    destruct l as [|x [|y [|z [|w [|? l]]]]]; try (unfold zlen in L; cbn [List.length] in L; lia).
    exists (V4 x y z w). split; auto. unfold vec4_ok. cbn -[is32] in *. now rewrite andb_true_r, !andb_assoc in H.
Qed.
Lemma rep_mat : rep sd_mat mat_ok mat_doc un_mat_doc mat_floats.
Proof.
  pose proof (rep_fix _ _ _ _ _ rep_col 4) as R. split.
  - now intros [[] [] [] []].
  - intros [x y z w] H. apply (r_sty R [x; y; z; w]). unfold mat_ok in H. cbn [col1 col2 col3 col4] in H.
    cbn -[vec4_ok]. now rewrite andb_true_r, !andb_assoc.
  - intros [x y z w]. pose proof (r_fl R [x; y; z; w]) as E. cbn [flat_map] in E. rewrite app_nil_r in E. exact E.
  - intros v H. apply (r_inv R) in H as (l & -> & H). apply andb_true_iff in H as [L H].
    destruct l as [|x [|y [|z [|w [|? l]]]]]; try (unfold zlen in L; cbn [List.length] in L; lia).
    exists (Mat x y z w). split; auto. unfold mat_ok. cbn -[vec4_ok] in *. now rewrite andb_true_r, !andb_assoc in H.
Qed.
#[export] Hint Resolve rep_mat : rep.
Lemma rep_bone : rep sd_bone typed_bone bone_doc un_bone_doc (fun b => mat_floats (bn_transform b)).
Proof.
  struct_rep (fun r => (bn_name r, (bn_transform r, (bn_parent r, (bn_billboard r, tt)))))
             (fun t : (list Z * (mat * (option Z * (Z * unit)))) => let '(a, (b, (c, (d, _)))) := t in Bone a b c d).
Qed.
#[export] Hint Resolve rep_bone : rep.
Lemma rep_sampler : rep sd_sampler sampler_ok sampler_doc un_sampler_doc sampler_floats.
Proof.
  struct_rep (fun r => (sm_wraps r, (sm_wrapt r, (sm_wrapr r, (sm_min r, (sm_mag r, (sm_border r, (sm_lod r, (sm_aniso r, tt)))))))))
             (fun t : (Z * (Z * (Z * (Z * (Z * (vec4 * (Z * (Z * unit)))))))) => let '(a, (b, (c, (d, (e, (f, (g, (h, _)))))))) := t in Smp a b c d e f g h).
Qed.
#[export] Hint Resolve rep_sampler : rep.
Lemma rep_blend : rep sd_blend blend_ok blend_doc un_blend_doc (fun _ => []).
Proof.
  struct_rep (fun r => (bl_src r, (bl_cop r, (bl_dst r, (bl_asrc r, (bl_aop r, (bl_adst r, (bl_coverage r, tt))))))))
             (fun t : (Z * (Z * (Z * (Z * (Z * (Z * (bool * unit))))))) => let '(a, (b, (c, (d, (e, (f, (g, _))))))) := t in Bld a b c d e f g).
Qed.
#[export] Hint Resolve rep_blend : rep.
Lemma rep_raster : rep sd_raster raster_ok raster_doc un_raster_doc raster_floats.
Proof.
  struct_rep (fun r => (rs_fill r, (rs_cull r, (rs_bias r, tt))))
             (fun t : (Z * (Z * (Z * unit))) => let '(a, (b, (c, _))) := t in Rst a b c).
Qed.
#[export] Hint Resolve rep_raster : rep.
Lemma rep_param {A} s (ty : A -> bool) doc un fl : rep s ty doc un fl ->
  rep (sd_param s) (param_ok ty) (param_doc doc) (un_param_doc un) (fun p => fl (pr_data p)).
Proof.
  intros R.
  eapply (rep_struct _ _ _ _ _ _ _ _ (fun p => (pr_id p, (pr_data p, tt))) (fun t : Z * (A * unit) => let '(a, (b, _)) := t in Prm a b)).
  - repeat (eapply fcons; [eauto with rep|]). apply fnil.
  - intros []. cbn. now rewrite (r_un R).
  - intros []. cbn. bools. reflexivity.
  - intros []. cbn. bools. reflexivity.
  - intros []. reflexivity.
  - now intros (a & b & []).
Qed.
#[export] Hint Resolve rep_param : rep.
Lemma rep_matl_entry : rep sd_matl_entry typed_matl_entry matl_entry_doc un_matl_entry_doc matl_entry_floats.
Proof.
  struct_rep (fun r => (mt_label r, (mt_shader r, (mt_blends r, (mt_floats r, (mt_bools r, (mt_vectors r, (mt_rasters r, (mt_samplers r, (mt_textures r, (mt_uvs r, tt)))))))))))
             (fun t : (text * (text * (list (param blend) * (list (param Z) * (list (param bool) * (list (param vec4) * (list (param raster) * (list (param sampler) * (list (param text) * (list (param uvtransform) * unit)))))))))) => let '(a, (b, (c, (d, (e, (f, (g, (h, (i, (j, _)))))))))) := t in MatE a b c d e f g h i j).
Qed.
#[export] Hint Resolve rep_matl_entry : rep.
Lemma rep_matl : rep sd_matl typed_matl matl_doc un_matl_doc (fun d => flat_map matl_entry_floats (mt_entries d)).
Proof.
  struct_rep (fun r => (mt_major r, (mt_minor r, (mt_entries r, tt))))
             (fun t : (Z * (Z * (list matl_entry * unit))) => let '(a, (b, (c, _))) := t in MatD a b c).
Qed.
#[export] Hint Resolve rep_matl : rep.
Lemma rep_transform : rep sd_transform (fun t => vec3_ok (tr_scale t) && vec4_ok (tr_rot t) && vec3_ok (tr_trans t)) transform_doc un_transform_doc transform_floats.
Proof.
  struct_rep (fun r => (tr_scale r, (tr_rot r, (tr_trans r, tt))))
             (fun t : (vec3 * (vec4 * (vec3 * unit))) => let '(a, (b, (c, _))) := t in Tr a b c).
Qed.
#[export] Hint Resolve rep_transform : rep.
Lemma rep_tflags : rep sd_tflags (fun _ => true) tflags_doc un_tflags_doc (fun _ => []).
Proof.
  struct_rep (fun r => (override_translation r, (override_rotation r, (override_scale r, (override_compensate_scale r, tt)))))
             (fun t : (bool * (bool * (bool * (bool * unit)))) => let '(a, (b, (c, (d, _)))) := t in TF a b c d).
Qed.
#[export] Hint Resolve rep_tflags : rep.

(** ** Values of tracks *)
Lemma flat_id (l : list Z) : flat_map (fun a => [a]) l = l.
Proof. induction l; cbn; congruence. Qed.
Lemma rep_floats : rep (SArr SF32) (forallb is32) (list_doc int_doc) (un_list_doc un_int_doc) (fun l => l).
Proof.
  destruct (rep_list _ _ _ _ _ rep_f32) as [U S L I]. split; auto. intros l. now rewrite L, flat_id.
Qed.
Lemma rep_nothing {A} s (ty : A -> bool) doc un : rep s ty doc un (fun _ => []) ->
  rep (SArr s) (forallb ty) (list_doc doc) (un_list_doc un) (fun _ => []).
Proof.
  intros R. destruct (rep_list _ _ _ _ _ R) as [U S L I]. split; auto. intros l. now rewrite L, no_list.
Qed.
Lemma rep_track_values : rep sd_track_values values_ok track_values_doc un_track_values_doc values_floats.
Proof.
  pose proof (rep_list _ _ _ _ _ rep_transform) as R0. pose proof (rep_list _ _ _ _ _ rep_uv) as R1.
  pose proof rep_floats as R2. pose proof (rep_nothing _ _ _ _ (rep_u32 false)) as R3.
  pose proof (rep_nothing _ _ _ _ rep_bool) as R4. pose proof (rep_list _ _ _ _ _ rep_vec4) as R5.
  split.
  - intros []; unfold track_values_doc, un_track_values_doc.
    + now rewrite (r_un R0).
    + now rewrite (r_un R1).
    + now rewrite (r_un R2).
    + now rewrite (r_un R3).
    + now rewrite (r_un R4).
    + now rewrite (r_un R5).
  - intros [] H.
    + exact (r_sty R0 _ H).
    + exact (r_sty R1 _ H).
    + exact (r_sty R2 _ H).
    + exact (r_sty R3 _ H).
    + exact (r_sty R4 _ (all_true _)).
    + exact (r_sty R5 _ H).
  - intros [].
    + exact (r_fl R0 _).
    + exact (r_fl R1 _).
    + exact (r_fl R2 _).
    + exact (r_fl R3 _).
    + exact (r_fl R4 _).
    + exact (r_fl R5 _).
  - intros v H. destruct v; try discriminate. cbn [sd_track_values sty] in H.
    destruct (tag =? 0) eqn:E0; [apply Z.eqb_eq in E0 as ->; apply (r_inv R0) in H as (l & -> & T); now exists (TvTransform l)|].
    destruct (tag =? 1) eqn:E1; [apply Z.eqb_eq in E1 as ->; apply (r_inv R1) in H as (l & -> & T); now exists (TvUv l)|].
    destruct (tag =? 2) eqn:E2; [apply Z.eqb_eq in E2 as ->; apply (r_inv R2) in H as (l & -> & T); now exists (TvFloat l)|].
    destruct (tag =? 3) eqn:E3; [apply Z.eqb_eq in E3 as ->; apply (r_inv R3) in H as (l & -> & T); now exists (TvPattern l)|].
    destruct (tag =? 4) eqn:E4; [apply Z.eqb_eq in E4 as ->; apply (r_inv R4) in H as (l & -> & T); now exists (TvBool l)|].
    destruct (tag =? 5) eqn:E5; [apply Z.eqb_eq in E5 as ->; apply (r_inv R5) in H as (l & -> & T); now exists (TvVec4 l)|].
    discriminate.
Qed.
#[export] Hint Resolve rep_track_values : rep.
Lemma rep_track : rep sd_track typed_track track_doc un_track_doc (fun t => values_floats (td_values t)).
Proof.
  struct_rep (fun r => (td_name r, (td_comp r, (td_flags r, (td_values r, tt)))))
             (fun t : (list Z * (bool * (tflags * (track_values * unit)))) => let '(a, (b, (c, (d, _)))) := t in TD a b c d).
Qed.
#[export] Hint Resolve rep_track : rep.
Lemma rep_node : rep sd_node typed_node node_doc un_node_doc (fun n => flat_map (fun t => values_floats (td_values t)) (nd_tracks n)).
Proof.
  struct_rep (fun r => (nd_name r, (nd_tracks r, tt)))
             (fun t : (list Z * (list track_data * unit)) => let '(a, (b, _)) := t in ND a b).
Qed.
#[export] Hint Resolve rep_node : rep.
Lemma rep_group : rep sd_group typed_group group_doc un_group_doc (fun g => flat_map (fun n => flat_map (fun t => values_floats (td_values t)) (nd_tracks n)) (gd_nodes g)).
Proof.
  struct_rep (fun r => (gd_type r, (gd_nodes r, tt)))
             (fun t : (Z * (list node_data * unit)) => let '(a, (b, _)) := t in GD a b).
Qed.
#[export] Hint Resolve rep_group : rep.
Lemma rep_anim : rep sd_anim typed_anim anim_doc un_anim_doc anim_floats.
Proof.
  struct_rep (fun r => (ad_major r, (ad_minor r, (ad_final r, (ad_groups r, tt)))))
             (fun t : (Z * (Z * (Z * (list group_data * unit)))) => let '(a, (b, (c, (d, _)))) := t in AD a b c d).
Qed.
#[export] Hint Resolve rep_anim : rep.

(** ** Vertex data *)
Lemma concat_rows (l : list (list Z)) : flat_map (flat_map (fun n => [n])) l = List.concat l.
Proof. induction l; cbn; auto. now rewrite flat_id, IHl. Qed.
Lemma rep_vector_data : rep sd_vector_data vec_ok vector_data_doc un_vector_data_doc (fun v => List.concat (vec_rows v)).
Proof.
  pose proof (fun n => rep_list _ _ _ _ _ (rep_fix _ _ _ _ _ rep_f32 n)) as R.
  split.
  - intros [[] rows]; unfold vector_data_doc, un_vector_data_doc; cbn [vec_rows]; now rewrite (r_un (R 2)).
  - intros [[] rows] H.
    + exact (r_sty (R 2) _ H).
    + exact (r_sty (R 3) _ H).
    + exact (r_sty (R 4) _ H).
  - intros [[] rows]; cbn [vec_rows]; rewrite <- concat_rows.
    + exact (r_fl (R 2) _).
    + exact (r_fl (R 3) _).
    + exact (r_fl (R 4) _).
  - intros v H. destruct v; try discriminate. cbn [sd_vector_data sty] in H.
    destruct (tag =? 0) eqn:E0; [apply Z.eqb_eq in E0 as ->; apply (r_inv (R 2)) in H as (l & -> & T); now exists (MkVec Two l)|].
    destruct (tag =? 1) eqn:E1; [apply Z.eqb_eq in E1 as ->; apply (r_inv (R 3)) in H as (l & -> & T); now exists (MkVec Three l)|].
    destruct (tag =? 2) eqn:E2; [apply Z.eqb_eq in E2 as ->; apply (r_inv (R 4)) in H as (l & -> & T); now exists (MkVec Four l)|].
    discriminate.
Qed.
#[export] Hint Resolve rep_vector_data : rep.
Lemma rep_attribute : rep sd_attribute typed_attribute attribute_doc un_attribute_doc attribute_floats.
Proof.
  struct_rep (fun r => (attr_name r, (attr_data r, tt)))
             (fun t : (list Z * (vector_data * unit)) => let '(a, (b, _)) := t in MkAttr a b).
Qed.
#[export] Hint Resolve rep_attribute : rep.
Lemma rep_weight : rep sd_weight weight_ok weight_doc un_weight_doc (fun w => [wt_weight w]).
Proof.
  struct_rep (fun r => (wt_index r, (wt_weight r, tt)))
             (fun t : (Z * (Z * unit)) => let '(a, (b, _)) := t in MkWeight a b).
Qed.
#[export] Hint Resolve rep_weight : rep.
Lemma rep_influence : rep sd_influence typed_influence influence_doc un_influence_doc (fun i => map wt_weight (inf_weights i)).
Proof.
  struct_rep (fun r => (inf_bone r, (inf_weights r, tt)))
             (fun t : (list Z * (list vertex_weight * unit)) => let '(a, (b, _)) := t in MkInf a b).
Qed.
#[export] Hint Resolve rep_influence : rep.
Lemma rep_object : rep sd_object typed_object object_doc un_object_doc object_floats.
Proof.
  struct_rep (fun r => (ob_name r, (ob_subindex r, (ob_parent r, (ob_bias r, (ob_no_write r, (ob_no_test r, (ob_indices r, (ob_positions r, (ob_normals r, (ob_binormals r, (ob_tangents r, (ob_texcoords r, (ob_colors r, (ob_influences r, tt)))))))))))))))
             (fun t : (list Z * (Z * (list Z * (Z * (bool * (bool * (list Z * (list attribute_data * (list attribute_data * (list attribute_data * (list attribute_data * (list attribute_data * (list attribute_data * (list bone_influence * unit)))))))))))))) => let '(a, (b, (c, (d, (e, (f, (g, (h, (i, (j, (k, (l, (m, (n, _)))))))))))))) := t in MkObj a b c d e f g h i j k l m n).
Qed.
#[export] Hint Resolve rep_object : rep.
Lemma rep_mesh : rep sd_mesh typed_mesh mesh_doc un_mesh_doc (fun d => flat_map object_floats (mesh_objects d)).
Proof.
  struct_rep (fun r => (mesh_major r, (mesh_minor r, (mesh_objects r, tt))))
             (fun t : (Z * (Z * (list mesh_object * unit))) => let '(a, (b, (c, _))) := t in MkMesh a b c).
Qed.
#[export] Hint Resolve rep_mesh : rep.
