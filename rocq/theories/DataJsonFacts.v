(** JSON documents of the data types of ssbh_data: writing and reading. *)
From Coq Require Import Lia ZifyBool ZifyNat ZifyN.
From Verif Require Import Bytes BytesFacts Ssbh Formats File MeshEx Strings Float32 FloatFacts AnimComp AnimBuf AnimSpec
  AnimFile SmallData DataSpec MatlData MatlSpec SkelData SkelSpec AdjData VecData MeshData MeshSpec Json JsonSchema
  JsonFile JsonSpec JsonFacts JsonRound JsonDoc JsonOrder JsonTool JsonType DataJson DataJsonSpec DataJsonRep.
Ltac Zify.zify_post_hook ::= ZifyBool.elim_bool_cstr; Z.to_euclidean_division_equations.
Local Open Scope list_scope.
Local Open Scope Z_scope.

(** ** Schemas of types ssbh_data has *)
Fixpoint tidy (s : schema) : bool :=
  match s with
  | SInt _ _ | SF32 | SName _ | SText | SBool => true
  | SStruct fs => forallb (fun p => tidy (snd p)) fs
  | SArr s' | SFix _ s' => tidy s'
  | SAbs s' => match s' with SText | SInt _ _ => true | _ => false end
  | SEnum vs => forallb (fun p => tidy (snd p)) vs
  | SDef _ d s' => sty s' d && tidy s'
  | _ => false
  end.

Lemma clean_all s vs : (forall v, sty s v = true -> clean s v = v) -> forallb (sty s) vs = true -> map (clean s) vs = vs.
Proof.
  intros H. induction vs as [|v vs IH]; cbn; auto. rewrite andb_true_iff. intros [H1 H2].
  now rewrite H, IH.
Qed.

Theorem clean_tidy : forall s v, tidy s = true -> sty s v = true -> clean s v = v.
Proof.
  induction s using schema_ind2; intros v T S; try discriminate; cbn in T; [..|apply andb_true_iff in T as [_ T]; exact (IHs v T S)];
    destruct v; try discriminate; auto.
  - cbn [clean]. f_equal. apply sty_struct in S. revert T.
    induction S as [|[x s] v fs vs S1 S2 IH]; cbn; auto. rewrite andb_true_iff. intros [T1 T2].
    inversion H; subst. f_equal; auto.
  - destruct s; try discriminate; destruct o as [[]|]; try discriminate; reflexivity.
  - cbn [clean]. f_equal. apply clean_all; auto.
  - cbn in S. apply andb_true_iff in S as [_ S]. cbn [clean]. f_equal. apply clean_all; auto.
  - cbn in S |- *. revert T S. induction H as [|[[t x] s] vs H1 H2 IH]; cbn; auto. rewrite andb_true_iff. intros [T1 T2].
    destruct (tag =? t); auto. intros S. now rewrite H1.
Qed.

(** ** Accepted documents *)
Definition accepts (f : json -> option val) (P : val -> Prop) : Prop :=
  forall j v, wellformed j = true -> f j = Some v -> P v.

Lemma list_accepts f s j vs : accepts f (fun v => sty s v = true) -> wellformed j = true -> json_list f j = Some vs ->
  forallb (sty s) vs = true.
Proof.
  intros G P H. unfold json_list in H. destruct j; try discriminate. cbn in P. apply opt_all_inv in H.
  revert vs H. induction js as [|j js IH]; intros [|v vs] H; cbn in *; try discriminate; auto.
  apply andb_true_iff in P as [P1 P2]. injection H as H1 H2. apply andb_true_iff. split; eauto.
Qed.

Lemma struct_accepts (fs : list field_reader) (gs : list (string * schema)) :
  Forall2 (fun (f : field_reader) (g : string * schema) =>
             accepts (snd f) (fun v => sty (snd g) v = true) /\
             (forall b v, absent b f = Some v -> sty (snd g) v = true)) fs gs ->
  accepts (json_struct fs) (fun v => sty (SStruct gs) v = true).
Proof.
  intros F j v P H. unfold json_struct in H. destruct j as [| | | | |js|ms]; try discriminate.
  - destruct (json_seq fs js) as [vs|] eqn:E; [|discriminate]. injection H as <-. cbn in P. apply sty_struct.
    revert js vs P E. induction F as [|f [x s] fs gs [G M] F IH]; intros [|j js] vs P E; cbn [json_seq] in E; try discriminate.
    + injection E as <-. constructor.
    + destruct (absent true f) as [v|] eqn:E1; [|discriminate]. destruct (json_seq fs []) as [r|] eqn:E2; [|discriminate].
      injection E as <-. constructor; [exact (M _ _ E1)|exact (IH [] r P E2)].
    + destruct (snd f j) as [v|] eqn:E1; [|discriminate]. destruct (json_seq fs js) as [r|] eqn:E2; [|discriminate].
      injection E as <-. cbn in P. apply andb_true_iff in P as [P1 P2]. constructor; [exact (G _ _ P1 E1)|exact (IH js r P2 E2)].
  - destruct (opt_all _) as [vs|] eqn:E; [|discriminate]. injection H as <-. apply opt_all_inv in E.
    cbn in P. rewrite forallb_forall in P. apply sty_struct.
    revert vs E. induction F as [|f [x s] fs gs [G M] F IH]; intros [|v vs] E; cbn in E; try discriminate; [constructor|].
    injection E as E1 E2. constructor; [|now apply IH].
    destruct (member (fst (fst f)) ms) as [[j|]|] eqn:K; [|eauto|discriminate].
    apply member_some in K. exact (G _ _ (P _ K) E1).
Qed.

Lemma variant_accepts {A} (vs : list (string * (option json -> option A))) (Q : A -> Prop) j a :
  (forall x f o a, In (x, f) vs -> (forall j, o = Some j -> wellformed j = true) -> f o = Some a -> Q a) ->
  wellformed j = true -> json_variant vs j = Some a -> Q a.
Proof.
  intros G P H. unfold json_variant in H. destruct j as [| | | |x| |[|[x j] [|]]]; try discriminate.
  - destruct (variant_of x vs) as [f|] eqn:E; [|discriminate]. apply variant_in in E as (y & I).
    refine (G _ _ _ _ I _ H). discriminate.
  - destruct (variant_of (text_of x) vs) as [f|] eqn:E; [|discriminate]. apply variant_in in E as (y & I).
    refine (G _ _ _ _ I _ H). intros j' X. injection X as <-. cbn in P. now rewrite andb_true_r in P.
Qed.

Lemma tag_first vs n y s v : NoDup (map (fun p => fst (fst p)) vs) -> In (n, y, s) vs -> sty s v = true ->
  sty (SEnum vs) (VCase n v) = true.
Proof.
  intros D I S. cbn. induction vs as [|[[m z] s'] vs IH]; [destruct I|].
  inversion D as [|? ? D1 D2]; subst. destruct I as [I|I].
  - injection I as <- <- <-. now rewrite Z.eqb_refl.
  - destruct (n =? m) eqn:E; [|auto]. apply Z.eqb_eq in E as ->. destruct D1. apply in_map_iff. now exists (m, y, s).
Qed.

Theorem tidy_accepts : forall s, tidy s = true -> sch_ok s = true -> accepts (from_json s) (fun v => sty s v = true).
Proof.
  induction s using schema_ind2; intros T O; try discriminate; cbn [tidy] in T; cbn [sch_ok] in O; cbn [from_json].
  - intros j v _ H. pose proof (int_gives w sg j v) as G.
    unfold json_int in H, G. destruct j; try discriminate. exact (G eq_refl H).
  - intros j v P H. unfold json_f32 in H. destruct j; try discriminate.
    + exact (f32_gives _ v (eq_refl : proper (JInt n) = true) H).
    + injection H as <-. exact P.
  - intros j v P H. apply (variant_accepts _ (fun v => sty (SName tags) v = true) j v) in H; auto.
    intros x f o a I _ E. apply in_map_iff in I as ([n y] & E2 & I). injection E2 as <- <-.
    assert (a = VInt n) as -> by (destruct o as [[]|]; cbn in E; congruence).
    cbn. apply existsb_exists. exists n. split; [|lia]. apply in_map_iff. now exists (n, y).
  - apply struct_accepts. apply andb_true_iff in O as [_ O].
    induction H as [|[x s] fs H1 H2 IH]; cbn; [constructor|].
    cbn in T, O. apply andb_true_iff in T as [T1 T2]. apply andb_true_iff in O as [O1 O2].
    constructor; [|now apply IH]. split; [now apply H1|]. intros b v E. unfold absent in E. cbn in E.
    destruct s; try discriminate; cbn in E.
    + destruct b; [discriminate|]. injection E as <-. reflexivity.
    + injection E as <-. cbn in T1. now apply andb_true_iff in T1 as [T1 _].
  - apply andb_true_iff in O as [_ O]. intros j v P H. unfold json_ptr in H.
    assert (tidy s = true) as T' by (destruct s; try discriminate; auto).
    specialize (IHs T' O). destruct (from_json s j) as [v'|] eqn:E.
    + assert (v = VPtr None \/ v = VPtr (Some v')) as [-> | ->]; [|auto|exact (IHs _ _ P E)].
      destruct j; injection H as <-; auto.
    + destruct j; try discriminate. now injection H as <-.
  - intros j v P H. destruct (json_list (from_json s) j) as [vs|] eqn:E; [|discriminate]. injection H as <-.
    exact (list_accepts _ _ _ _ (IHs T O) P E).
  - intros j v P H. destruct (json_list (from_json s) j) as [vs|] eqn:E; [|discriminate].
    destruct (zlen vs =? n) eqn:L; [|discriminate]. injection H as <-. cbn. rewrite L.
    exact (list_accepts _ _ _ _ (IHs T O) P E).
  - intros j v P H. destruct j; try discriminate. injection H as <-. exact P.
  - intros j v P H. destruct j; try discriminate. injection H as <-. now destruct b.
  - apply andb_true_iff in O as [O O3]. apply andb_true_iff in O as [O1 _].
    intros j v P H1. apply (variant_accepts _ (fun v => sty (SEnum vs) v = true) j v) in H1; auto.
    intros x f o a I Po E. apply in_map_iff in I as ([[n y] s] & E3 & I). injection E3 as <- <-.
    destruct o as [j2|]; [|discriminate]. cbn in E. destruct (from_json s j2) as [b|] eqn:E4; [|discriminate].
    injection E as <-. rewrite Forall_forall in H. rewrite forallb_forall in T, O3.
    apply (tag_first _ _ y s); auto.
    + revert O1. apply nodupb_spec. intros. apply Z.eqb_eq.
    + exact (H _ I (T _ I) (O3 _ I) _ _ (Po j2 eq_refl) E4).
  - apply andb_true_iff in T as [T1 T2]. apply andb_true_iff in O as [_ O].
    intros j v P H. assert (from_json s j = Some v \/ v = d) as [E | ->].
    { destruct j; auto. destruct nul; auto. injection H as <-. auto. }
    + exact (IHs T2 O _ _ P E).
    + exact T1.
Qed.

(** ** The eight types *)
Lemma data_schema_ok k : sch_ok (data_schema k) = true.
Proof. now destruct k; vm_compute. Qed.
Lemma data_schema_tidy k : tidy (data_schema k) = true.
Proof. now destruct k; vm_compute. Qed.

Lemma rep_skel : rep sd_skel (fun d => u16_ok (fst (fst d)) && u16_ok (snd (fst d)) && forallb typed_bone (snd d))
  (fun d => skel_doc (fst (fst d)) (snd (fst d)) (snd d)) un_skel_doc
  (fun d => flat_map (fun b => mat_floats (bn_transform b)) (snd d)).
Proof.
  change sd_skel with (SStruct [("major_version"%string, SInt 2 false); ("minor_version"%string, SInt 2 false); ("bones"%string, SArr sd_bone)]).
  eapply (rep_struct _ _ _ _ _ _ _ _ (fun r : Z * Z * list bone => (fst (fst r), (snd (fst r), (snd r, tt))))
                                     (fun t : Z * (Z * (list bone * unit)) => let '(a, (b, (c, _))) := t in (a, b, c))).
  - repeat (eapply fcons; [solve [eauto 10 with rep]|]); apply fnil.
  - intros [[a b] c]. unfold skel_doc, un_skel_doc. cbn [fst snd]. parts_back. reflexivity.
  - intros [[a b] c]. cbn -[forallb]. bools. reflexivity.
  - intros [[a b] c]. cbn -[forallb]. rewrite app_nil_r. reflexivity.
  - intros [[a b] c]. reflexivity.
  - now intros (a & b & c & []).
Qed.
Lemma rep_one {A} x s (ty : A -> bool) doc un fl : rep s ty doc un fl ->
  rep (SStruct [(x, s)]) ty (fun a => VStruct [doc a]) (fun v => match v with VStruct [a] => un a | _ => Err EType end) fl.
Proof.
  intros R. eapply (rep_struct _ _ _ _ _ _ _ _ (fun a : A => (a, tt)) (fun t : A * unit => fst t)).
  - eapply fcons; [exact R|apply fnil].
  - intros a. apply R.
  - intros a. cbn. now rewrite andb_true_r.
  - intros a. cbn. now rewrite app_nil_r.
  - reflexivity.
  - now intros [a []].
Qed.
Lemma rep_meshex : rep sd_meshex (forallb typed_mesh_group) meshex_doc un_meshex_doc (flat_map mesh_group_floats).
Proof. apply (rep_one "mesh_object_groups"), rep_list, rep_mesh_group. Qed.
Lemma rep_adj : rep sd_adj (forallb typed_adj_entry) adj_doc un_adj_doc (fun _ => []).
Proof. apply (rep_one "entries"), rep_nothing, rep_adj_entry. Qed.

Lemma data_back d : un_data_doc (data_kind_of d) (data_doc d) = Ok d.
Proof.
  destruct d as [d|ma mi bs|d|d|d|d|d|d]; unfold un_data_doc, data_kind_of, data_doc.
  - now rewrite (r_un rep_mesh).
  - pose proof (r_un rep_skel (ma, mi, bs)) as E. cbn [fst snd] in E. now rewrite E.
  - now rewrite (r_un rep_anim).
  - now rewrite (r_un rep_modl).
  - now rewrite (r_un rep_matl).
  - now rewrite (r_un rep_hlpb).
  - now rewrite (r_un rep_meshex).
  - now rewrite (r_un rep_adj).
Qed.
Lemma data_sty d : typed_data d = true -> sty (data_schema (data_kind_of d)) (data_doc d) = true.
Proof.
  destruct d as [d|ma mi bs|d|d|d|d|d|d]; intros H.
  - exact (r_sty rep_mesh d H).
  - exact (r_sty rep_skel (ma, mi, bs) H).
  - exact (r_sty rep_anim d H).
  - exact (r_sty rep_modl d H).
  - exact (r_sty rep_matl d H).
  - exact (r_sty rep_hlpb d H).
  - exact (r_sty rep_meshex d H).
  - exact (r_sty rep_adj d H).
Qed.
Lemma data_fl d : floats (data_schema (data_kind_of d)) (data_doc d) = forallb f32_finite (data_floats d).
Proof.
  destruct d as [d|ma mi bs|d|d|d|d|d|d].
  - exact (r_fl rep_mesh d).
  - exact (r_fl rep_skel (ma, mi, bs)).
  - exact (r_fl rep_anim d).
  - exact (r_fl rep_modl d).
  - exact (r_fl rep_matl d).
  - exact (r_fl rep_hlpb d).
  - exact (r_fl rep_meshex d).
  - exact (r_fl rep_adj d).
Qed.
Lemma data_inv k v : sty (data_schema k) v = true -> exists d, v = data_doc d /\ data_kind_of d = k /\ typed_data d = true.
Proof.
  destruct k; intros H.
  - destruct (r_inv rep_mesh v H) as (d & E & T). now exists (DtMesh d).
  - destruct (r_inv rep_skel v H) as ([[ma mi] bs] & E & T). now exists (DtSkel ma mi bs).
  - destruct (r_inv rep_anim v H) as (d & E & T). now exists (DtAnim d).
  - destruct (r_inv rep_modl v H) as (d & E & T). now exists (DtModl d).
  - destruct (r_inv rep_matl v H) as (d & E & T). now exists (DtMatl d).
  - destruct (r_inv rep_hlpb v H) as (d & E & T). now exists (DtHlpb d).
  - destruct (r_inv rep_meshex v H) as (d & E & T). now exists (DtMeshEx d).
  - destruct (r_inv rep_adj v H) as (d & E & T). now exists (DtAdj d).
Qed.

Lemma finite_iff d : forallb f32_finite (data_floats d) = true <-> finite_data d.
Proof.
  unfold finite_data. rewrite forallb_forall, Forall_forall. unfold finite, f32_finite.
  split; intros H x I; specialize (H x I); lia.
Qed.

(** Each type reads what it wrote. *)
Theorem read_written d : typed_data d = true ->
  read_as (data_kind_of d) (data_json d) = if forallb f32_finite (data_floats d) then Some d else None.
Proof.
  intros T. unfold read_as, data_json. rewrite roundtrip by (apply data_schema_ok || now apply data_sty).
  rewrite data_fl. destruct (forallb f32_finite (data_floats d)); auto.
  rewrite clean_tidy by (apply data_schema_tidy || now apply data_sty). now rewrite data_back.
Qed.

(** Whatever is accepted has the type. *)
Theorem read_typed k j d : wellformed j = true -> read_as k j = Some d -> data_kind_of d = k /\ typed_data d = true.
Proof.
  intros W H. unfold read_as in H. destruct (from_json (data_schema k) j) as [v|] eqn:E; [|discriminate].
  apply (tidy_accepts _ (data_schema_tidy k) (data_schema_ok k) j v W) in E.
  destruct (data_inv k v E) as (d' & -> & <- & T). rewrite data_back in H. now injection H as <-.
Qed.
Theorem first_typed j d : wellformed j = true -> read_first attempts j = Some d -> typed_data d = true.
Proof.
  intros W. generalize attempts. intros ks. induction ks as [|k ks IH]; cbn [read_first]; [discriminate|].
  destruct (read_as k j) as [d'|] eqn:E; [|exact IH]. intros H. injection H as <-. now apply (read_typed k j d' W).
Qed.

(** ** Which type reads a document *)
Lemma to_json_struct fs vs : to_json (SStruct fs) (VStruct vs) = JObj (map2 (fun p v => (fst p, to_json (snd p) v)) fs vs).
Proof. reflexivity. Qed.
Lemma member_names (fs : list (string * schema)) vs x :
  ~ In x (map fst fs) -> ~ In x (map fst (map2 (fun p v => (fst p, to_json (snd p) v)) fs vs)).
Proof.
  revert vs. induction fs as [|[y s] fs IH]; intros [|v vs] N; cbn in *; auto.
  intros [E|I]; [apply N; auto|]. apply (IH vs); auto.
Qed.

(** A struct that needs a member the document does not have *)
Definition needed (s : schema) : bool := match s with SAbs _ | SDef _ _ _ => false | _ => true end.
Lemma lacks fs x s gs v : In (x, s) fs -> needed s = true -> ~ In x (map fst gs) ->
  from_json (SStruct fs) (to_json (SStruct gs) v) = None.
Proof.
  intros I N A. destruct (from_json (SStruct fs) (to_json (SStruct gs) v)) as [w|] eqn:E; auto. exfalso.
  destruct v; cbn -[from_json] in E; try discriminate E.
  destruct (missing_member fs x s (map2 (fun p v => (fst p, to_json (snd p) v)) gs vs) I (member_names gs vs x A)) as [[s' ->]|(nul & d & s' & ->)];
    try discriminate. cbn -[from_json]. congruence.
Qed.

Definition fields (k : data_kind) : list (string * schema) := match data_schema k with SStruct fs => fs | _ => [] end.
Lemma fields_schema k : data_schema k = SStruct (fields k).
Proof. now destruct k. Qed.
Definition tells (k k' : data_kind) : bool :=
  existsb (fun p => needed (snd p) && negb (existsb (String.eqb (fst p)) (map fst (fields k)))) (fields k').
Lemma told_apart d k : tells (data_kind_of d) k = true -> read_as k (data_json d) = None.
Proof.
  unfold tells. intros H. apply existsb_exists in H as ([x s] & I & H). apply andb_true_iff in H as [N A]. cbn [fst snd] in *.
  unfold read_as, data_json. rewrite !fields_schema, (lacks _ x s); auto.
  intros J. rewrite (proj2 (existsb_exists _ _)) in A; [discriminate|]. exists x. split; auto. apply String.eqb_refl.
Qed.

Lemma member_read fs x s ms j w : In (x, s) fs -> member x ms = Some (Some j) ->
  from_json (SStruct fs) (JObj ms) = Some w -> exists v, from_json s j = Some v.
Proof.
  intros I M H. cbn in H. destruct (opt_all _) as [vs|] eqn:E; [|discriminate].
  destruct (from_json s j) as [v|] eqn:F; [now exists v|]. exfalso.
  rewrite opt_all_none in E; [discriminate|]. apply in_map_iff.
  exists (x, missing s, from_json s). cbn. rewrite M. split; auto. apply in_map_iff. now exists (x, s).
Qed.
Lemma array_fails s j js : from_json s j = None -> from_json (SArr s) (JArr (j :: js)) = None.
Proof. intros H. change (option_map VArr (opt_all (from_json s j :: map (from_json s) js)) = None). now rewrite H. Qed.
Lemma entries_differ s x s' fs gs vs w : s = SStruct fs -> In (x, s') fs -> needed s' = true -> ~ In x (map fst gs) ->
  from_json (SArr s) (JArr (map (to_json (SStruct gs)) vs)) = Some w -> vs = [] /\ w = VArr [].
Proof.
  intros -> I N A H. destruct vs as [|v vs].
  - cbn in H. now injection H as <-.
  - cbn [map] in H. rewrite array_fails in H; [discriminate|]. exact (lacks fs x s' gs v I N A).
Qed.
Lemma int_back w sg n : 0 <? w = true -> sty (SInt w sg) (VInt n) = true -> json_int w sg (int_json w sg n) = Some (VInt n).
Proof. intros W H. exact (roundtrip (SInt w sg) (VInt n) W H). Qed.

Theorem told_other d k d' : typed_data d = true -> data_kind_of d <> k -> read_as k (data_json d) = Some d' ->
  (exists m, d = DtModl m /\ md_entries m = [] /\ (d' = DtMatl (MatD (md_major m) (md_minor m) []) \/ d' = DtAdj [])) \/
  (exists m, d = DtMatl m /\ mt_entries m = [] /\ d' = DtAdj []).
Proof.
  intros T N H.
  assert (tells (data_kind_of d) k = true \/
          data_kind_of d = DkModl /\ k = DkMatl \/ data_kind_of d = DkModl /\ k = DkAdj \/
          data_kind_of d = DkMatl /\ k = DkAdj) as [A|B].
  { destruct (data_kind_of d), k; try tauto; left; vm_compute; reflexivity. }
  { apply told_apart in A. congruence. }
  unfold read_as in H. destruct (from_json (data_schema k) (data_json d)) as [v|] eqn:E; [|discriminate].
  destruct B as [[K ->]|[[K ->]|[K ->]]]; destruct d as [| | |m|m| | |]; try discriminate K; clear K N.
  - left. exists m. split; [reflexivity|].
    cbn [typed_data] in T. unfold typed_modl in T. rewrite !andb_true_iff in T.
    assert (md_entries m = []) as X.
    { destruct (member_read (fields DkMatl) "entries" (SArr sd_matl_entry) (match data_json (DtModl m) with JObj ms => ms | _ => [] end)
        (JArr (map (to_json sd_modl_entry) (map modl_entry_doc (md_entries m)))) v (or_intror (or_intror (or_introl eq_refl))) eq_refl E) as (w & F).
      eapply (entries_differ _ "shader_label") in F as [F _]; [now destruct (md_entries m)|reflexivity|cbn; tauto|reflexivity|].
      cbn. intuition discriminate. }
    split; auto. destruct m as [ma mi a b c e f es]. cbn [md_entries md_major md_minor] in *. subst es.
    assert (v = VStruct [VInt ma; VInt mi; VArr []]) as ->.
    { cbn -[json_int int_json] in E.
      rewrite !int_back in E by (reflexivity || apply T). now injection E as <-. }
    cbn in H. left. now injection H as <-.
  - left. exists m. split; [reflexivity|].
    destruct (member_read (fields DkAdj) "entries" (SArr sd_adj_entry) (match data_json (DtModl m) with JObj ms => ms | _ => [] end)
        (JArr (map (to_json sd_modl_entry) (map modl_entry_doc (md_entries m)))) v (or_introl eq_refl) eq_refl E) as (w & F).
    eapply (entries_differ _ "mesh_object_index") in F as [F _]; [|reflexivity|cbn; tauto|reflexivity|cbn; intuition discriminate].
    assert (md_entries m = []) as X by now destruct (md_entries m). split; auto. right.
    destruct m as [ma mi a b c e f es]. cbn [md_entries] in X. subst es. cbn in E. injection E as <-. cbn in H. now injection H as <-.
  - right. exists m. split; [reflexivity|].
    destruct (member_read (fields DkAdj) "entries" (SArr sd_adj_entry) (match data_json (DtMatl m) with JObj ms => ms | _ => [] end)
        (JArr (map (to_json sd_matl_entry) (map matl_entry_doc (mt_entries m)))) v (or_introl eq_refl) eq_refl E) as (w & F).
    eapply (entries_differ _ "mesh_object_index") in F as [F _]; [|reflexivity|cbn; tauto|reflexivity|cbn; intuition discriminate].
    assert (mt_entries m = []) as X by now destruct (mt_entries m). split; auto.
    destruct m as [ma mi es]. cbn [mt_entries] in X. subst es. cbn in E. injection E as <-. cbn in H. now injection H as <-.
Qed.

Theorem first_written d : typed_data d = true ->
  read_first attempts (data_json d) = if forallb f32_finite (data_floats d) then Some d else None.
Proof.
  intros T. pose proof (read_written d T) as R. pose proof (told_apart d) as A.
  assert (forall d', d = DtMatl d' -> forallb f32_finite (data_floats d) = false -> read_as DkAdj (data_json d) = None) as M.
  { intros m -> F. destruct (read_as DkAdj (data_json (DtMatl m))) as [d'|] eqn:E; auto. exfalso.
    destruct (told_other (DtMatl m) DkAdj d' T ltac:(discriminate) E) as [(m' & X & _)|(m' & X & Y & _)]; [discriminate|].
    injection X as ->. cbn in F. rewrite Y in F. discriminate. }
  destruct d as [d|ma mi bs|d|d|d|d|d|d]; cbn [data_kind_of] in *; unfold attempts; cbn [read_first];
    rewrite ?(A DkMesh), ?(A DkSkel), ?(A DkAnim), ?(A DkModl), ?(A DkMatl), ?(A DkHlpb), ?(A DkMeshEx) by (vm_compute; reflexivity);
    rewrite R; try (rewrite ?(A DkSkel), ?(A DkAnim), ?(A DkModl), ?(A DkMatl), ?(A DkHlpb), ?(A DkMeshEx), ?(A DkAdj) by (vm_compute; reflexivity));
    try reflexivity.
  - now destruct (forallb _ _).
  - now destruct (forallb _ _).
  - now destruct (forallb _ _).
  - specialize (M d eq_refl). destruct (forallb _ _); auto. now rewrite M.
  - now destruct (forallb _ _).
  - now destruct (forallb _ _).
Qed.

(** ** Members with a default *)
Lemma default_member fs x nul dv s j ms :
  NoDup (map fst fs) -> In (x, SDef nul dv s) fs -> from_json (SDef nul dv s) j = Some dv -> ~ In x (map fst ms) ->
  from_json (SStruct fs) (JObj ((x, j) :: ms)) = from_json (SStruct fs) (JObj ms).
Proof.
  intros N I E M.
  change (option_map VStruct (opt_all (map (fun f : field_reader =>
            match member (fst (fst f)) ((x, j) :: ms) with
            | Some (Some j') => snd f j' | Some None => absent false f | None => None end)
            (map (fun p => (fst p, missing (snd p), from_json (snd p))) fs))) =
          option_map VStruct (opt_all (map (fun f : field_reader =>
            match member (fst (fst f)) ms with
            | Some (Some j') => snd f j' | Some None => absent false f | None => None end)
            (map (fun p => (fst p, missing (snd p), from_json (snd p))) fs)))).
  do 2 f_equal. apply map_ext_in. intros f J. apply in_map_iff in J as ([y sy] & <- & J). cbn [fst snd].
  destruct (String.eqb_spec y x) as [->|Ne].
  - assert (sy = SDef nul dv s) as ->.
    { clear - N I J. induction fs as [|[z sz] fs IH]; [destruct I|]. cbn [map fst In] in *. inversion N; subst.
      destruct I as [I|I], J as [J|J]; try congruence; [| |auto].
      - injection I as -> ->. exfalso. apply H1. exact (in_map fst _ _ J).
      - injection J as -> ->. exfalso. apply H1. exact (in_map fst _ _ I). }
    cbn [member]. rewrite String.eqb_refl, (member_notin _ _ M), E. reflexivity.
  - cbn [member]. now rewrite (proj2 (String.eqb_neq _ _) Ne).
Qed.
Lemma read_first_stable ks j j' : reordered j j' -> read_first ks j = read_first ks j'.
Proof.
  intros R. induction ks as [|k ks IH]; [reflexivity|]. cbn [read_first]. unfold read_as.
  now rewrite (from_json_stable _ _ _ R), IH.
Qed.
Lemma read_first_own ks d :
  typed_data d = true -> forallb f32_finite (data_floats d) = true -> In (data_kind_of d) ks ->
  (forall k, In k ks -> k <> data_kind_of d -> read_as k (data_json d) = None) ->
  read_first ks (data_json d) = Some d.
Proof.
  intros T F I K. induction ks as [|k ks IH]; [destruct I|]. cbn [read_first].
  assert (k = data_kind_of d \/ k <> data_kind_of d) as [->|N] by (destruct k, d; cbn; (left; reflexivity) || (right; discriminate)).
  - now rewrite (read_written _ T), F.
  - rewrite (K k (or_introl eq_refl) N). apply IH; [destruct I as [I|I]; [now destruct N|exact I]|]. intros k' I'. apply K. now right.
Qed.
