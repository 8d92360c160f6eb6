(** JSON documents read back: files. *)
From Coq Require Import Lia ZifyBool ZifyNat ZifyN Permutation.
From Verif Require Import Bytes BytesFacts Ssbh Formats Strings Float32 File MeshEx Json JsonSchema JsonFile JsonSpec JsonFacts JsonRound.
Ltac Zify.zify_post_hook ::= ZifyBool.elim_bool_cstr; Z.to_euclidean_division_equations.

(** ** Which values come back *)

Definition text_ok (p : schema * val) : bool :=
  match p with
  | (SCStr, VBytes bs) => utf8_valid bs
  | (SRel s, VPtr (Some v)) | (SAbs s, VPtr (Some v)) => negb (nullish s v)
  | _ => true
  end.

Lemma representable_spec s v :
  representable s v <-> floats s v = true /\ forallb text_ok (parts s v) = true.
Proof.
  rewrite floats_spec. unfold representable, finite_floats. rewrite !Forall_forall, forallb_forall. split.
  - intros H. split; intros p I; destruct (H p I) as (H1 & H2 & H3); auto.
    destruct p as [[] []]; cbn; auto.
    + destruct o as [v'|]; auto. apply negb_true_iff. destruct (nullish s0 v') eqn:E; auto.
      destruct H3. exists s0, v'. auto.
    + destruct o as [v'|]; auto. apply negb_true_iff. destruct (nullish s0 v') eqn:E; auto.
      destruct H3. exists s0, v'. auto.
    + destruct (utf8_valid bs) eqn:E; auto. destruct H2. now exists bs.
  - intros (F & T) p I. specialize (F p I). specialize (T p I). split; [exact F|]. split.
    + intros (bs & -> & E). cbn in T. congruence.
    + intros (s' & v' & [-> | ->] & E); cbn in T; rewrite E in T; discriminate.
Qed.

Lemma clean_id : forall s v,
  sty s v = true -> (forallb text_ok (parts s v) = true <-> clean s v = v).
Proof.
  induction s using schema_ind2; intros v T; [..|exact (IHs v T)];
    destruct v; cbn in T; try discriminate; try (cbn; tauto).
  - apply sty_struct in T. cbn. rewrite forallb_concat.
    assert (forall l m, (forall p, In p l -> In p fs) -> tys l m ->
      (forallb (forallb text_ok) (map2 (fun (p : string * schema) v => parts (snd p) v) l m) = true <->
       map2 (fun p v => clean (snd p) v) l m = m)) as X.
    { rewrite Forall_forall in H. induction l as [|p l IH]; intros m I F; inversion F as [|? v ? m' F1 F2]; subst.
      - now split.
      - change (forallb text_ok (parts (snd p) v) &&
                forallb (forallb text_ok) (map2 (fun (p : string * schema) v => parts (snd p) v) l m') = true <->
                clean (snd p) v :: map2 (fun p v => clean (snd p) v) l m' = v :: m').
        rewrite andb_true_iff, (H p) by auto with datatypes. rewrite IH by auto with datatypes.
        split; [intros [-> ->]; auto|]. intros E. injection E. auto. }
    specialize (X fs vs (fun _ I => I) T). rewrite X. split; [intros ->; auto|]. now injection 1.
  - destruct vs as [|v [|]]; try discriminate. cbn. rewrite (IHs v T).
    split; [intros ->; auto|]. now injection 1.
  - destruct o as [v|]; [|cbn; tauto]. cbn. rewrite andb_true_iff, (IHs v T), negb_true_iff.
    destruct (nullish s v); split.
    + intros [X _]. discriminate.
    + discriminate.
    + intros [_ ->]. auto.
    + intros X. injection X. auto.
  - destruct o as [v|]; [|cbn; tauto]. cbn. rewrite andb_true_iff, (IHs v T), negb_true_iff.
    destruct (nullish s v); split.
    + intros [X _]. discriminate.
    + discriminate.
    + intros [_ ->]. auto.
    + intros X. injection X. auto.
  - cbn. rewrite forallb_flat_map. rewrite forallb_forall in *.
    split; intros X.
    + f_equal. rewrite <- (map_id vs) at 2. apply map_ext_in. intros a I. apply (IHs a); auto.
    + injection X as X. intros a I. apply (IHs a); auto. clear T IHs.
      induction vs as [|b vs IH]; [destruct I|]. cbn in X. injection X as X1 X2. destruct I as [->|I]; auto.
  - cbn. destruct (utf8_valid bs) eqn:E; split; intros X; auto; try discriminate.
    injection X as <-. discriminate.
  - destruct o as [v|]; [|cbn; tauto]. destruct v as [| | | | |tag v]; try discriminate.
    destruct v as [| |[|v [|]]| | |]; try discriminate. cbn [parts clean forallb text_ok andb].
    revert T. induction vs as [|[[t x] s] vs IH]; [discriminate|]. inversion H; subst.
    destruct (tag =? t) eqn:E.
    + intros T. rewrite (H2 v T). cbn [snd]. split; [intros ->; auto|]. now injection 1.
    + intros T. now apply IH.
  - cbn. apply andb_true_iff in T as [_ T]. rewrite forallb_flat_map. rewrite forallb_forall in *.
    split; intros X.
    + f_equal. rewrite <- (map_id vs) at 2. apply map_ext_in. intros a I. apply (IHs a); auto.
    + injection X as X. intros a I. apply (IHs a); auto. clear T IHs.
      induction vs as [|b vs IH]; [destruct I|]. cbn in X. injection X as X1 X2. destruct I as [->|I]; auto.
  - cbn [parts clean forallb text_ok andb].
    revert T. induction vs as [|[[t x] s] vs IH]; [discriminate|]. inversion H; subst.
    destruct (tag =? t) eqn:E.
    + intros T. rewrite (H2 v T). cbn [snd]. split; [intros ->; auto|]. now injection 1.
    + intros T. now apply IH.
Qed.

Theorem json_value_iff s v :
  sch_ok s = true -> sty s v = true ->
  (from_json s (to_json s v) = Some v <-> representable s v).
Proof.
  intros O T. rewrite roundtrip, representable_spec, clean_id by auto.
  destruct (floats s v); split; try discriminate; intros H.
  - injection H. auto.
  - destruct H as [_ ->]. auto.
  - destruct H. discriminate.
Qed.

(** ** The formats *)

Definition version_ok (p : ((Z * Z) * ty) * ((Z * Z) * (string * schema))) : bool :=
  let '((v, t), (v', (x, s))) := p in ver_eqb v v' && fits s t && sch_ok s.
Definition kind_ok (k : kind) : bool :=
  Nat.eqb (List.length (versions k)) (List.length (schemas k))
  && forallb version_ok (combine (versions k) (schemas k))
  && nodupb String.eqb (map (fun e => fst (snd e)) (schemas k)).

Lemma kinds_ok : forall k, kind_ok k = true.
Proof. intros []; vm_compute; reflexivity. Qed.

Lemma ver_eqb_eq a b : ver_eqb a b = true <-> a = b.
Proof.
  destruct a as [a1 a2], b as [b1 b2]. unfold ver_eqb. cbn. rewrite andb_true_iff, !Z.eqb_eq.
  split; [intros [-> ->]; auto|]. now injection 1.
Qed.

Lemma format_schema k v t :
  format k v = Some t ->
  exists x s, schema_find v (schemas k) = Some (x, s) /\ In (v, (x, s)) (schemas k) /\
              fits s t = true /\ sch_ok s = true.
Proof.
  pose proof (kinds_ok k) as K. unfold kind_ok in K. apply andb_true_iff in K as [K _].
  apply andb_true_iff in K as [L K]. apply Nat.eqb_eq in L. unfold format.
  revert L K. generalize (schemas k). induction (versions k) as [|[v0 t0] l IH]; intros [|[v1 [x s]] m] L K;
    cbn in *; try discriminate.
  apply andb_true_iff in K as [K1 K2]. apply andb_true_iff in K1 as [K1 K3].
  apply andb_true_iff in K1 as [K1 K4]. apply ver_eqb_eq in K1 as <-. injection L as L.
  destruct (ver_eqb v v0) eqn:E.
  - intros H. injection H as <-. apply ver_eqb_eq in E as ->. exists x, s. auto.
  - intros H. destruct (IH m L K2 H) as (x' & s' & F & I & R). exists x', s'. auto.
Qed.

Lemma names_nodup k : NoDup (map (fun e => fst (snd e)) (schemas k)).
Proof.
  pose proof (kinds_ok k) as K. unfold kind_ok in K. apply andb_true_iff in K as [_ K].
  apply nodupb_spec in K; [auto|apply String.eqb_eq].
Qed.

Lemma kind_names_nodup : NoDup (map kind_name kinds).
Proof. apply (nodupb_spec String.eqb); [apply String.eqb_eq|]. vm_compute. reflexivity. Qed.

Lemma kind_in k : In k kinds.
Proof. destruct k; cbn; tauto. Qed.

Lemma ssbh_read_json k v x s j :
  In (v, (x, s)) (schemas k) ->
  ssbh_from_json (JObj [(kind_name k, JObj [(x, j)])]) =
  match from_json s j with Some b => Some (mkFile k v b) | None => None end.
Proof.
  intros I. unfold ssbh_from_json. cbn [json_variant].
  rewrite (variant_find (kind_name k) _ (newtype_variant (kind_from_json k))).
  - cbn [newtype_variant]. unfold kind_from_json. cbn [json_variant].
    rewrite (variant_find x _ (newtype_variant (version_from_json k (v, (x, s))))).
    + reflexivity.
    + rewrite map_map. cbn [fst]. apply names_nodup.
    + apply in_map_iff. now exists (v, (x, s)).
  - rewrite map_map. cbn [fst]. apply kind_names_nodup.
  - apply in_map_iff. exists k. split; auto. apply kind_in.
Qed.

Lemma ssbh_roundtrip f :
  file_ok f ->
  ssbh_from_json (ssbh_to_json f) =
  (if floats (document_schema (DSsbh f)) (fbody f)
   then Some (mkFile (fkind f) (fver f) (clean (document_schema (DSsbh f)) (fbody f))) else None)
  /\ sch_ok (document_schema (DSsbh f)) = true /\ sty (document_schema (DSsbh f)) (fbody f) = true.
Proof.
  intros (t & F & W). destruct (format_schema _ _ _ F) as (x & s & E & I & Fi & O).
  unfold ssbh_to_json, document_schema. rewrite E. rewrite (ssbh_read_json _ _ _ _ _ I).
  pose proof (wt_sty _ _ _ Fi W) as T. rewrite roundtrip by auto.
  split; [now destruct (floats s (fbody f))|]. auto.
Qed.

(** MeshEx and Adj *)

Lemma meshex_schema_ok : sch_ok s_meshex_MeshEx = true.
Proof. vm_compute. reflexivity. Qed.
Lemma adj_schema_ok : sch_ok s_adj_Adj = true.
Proof. vm_compute. reflexivity. Qed.

Lemma meshex_sty x : meshex_ok x = true -> sty s_meshex_MeshEx (meshex_val x) = true.
Proof.
  unfold meshex_ok. rewrite !andb_true_iff. intros ((((H1 & H2) & H3) & H4) & H5).
  unfold meshex_val, s_meshex_MeshEx. apply sty_struct. repeat (constructor; cbn [snd]).
  - exact (wt_sty (SAbs s_meshex_AllData) (TAbs 8 AllData) _ eq_refl H1).
  - refine (wt_sty (SAbs (SArr s_meshex_MeshObjectGroup)) _ _ _ H2). reflexivity.
  - refine (wt_sty (SAbs (SArr s_meshex_MeshEntry)) _ _ _ H3). reflexivity.
  - refine (wt_sty (SAbs s_meshex_EntryFlags) _ _ _ H4). reflexivity.
  - refine (wt_sty (SInt 4 false) _ _ _ H5). reflexivity.
Qed.

Lemma meshex_of_to x : meshex_of_val (meshex_val x) = Some x.
Proof. destruct x as [a [g|] [e|] [f|] u]; reflexivity. Qed.

(** Reading a MeshEx gives a MeshEx value of the right shape. *)
Lemma clean_meshex x :
  meshex_ok x = true -> exists y, clean s_meshex_MeshEx (meshex_val x) = meshex_val y.
Proof.
  destruct x as [a g e f u]. intros H.
  exists (mkMeshEx
    (match a with Some v => Some (clean s_meshex_AllData v) | None => None end)
    (match g with Some l => Some (map (clean s_meshex_MeshObjectGroup) l) | None => None end)
    (match e with Some l => Some (map (clean s_meshex_MeshEntry) l) | None => None end)
    (match f with Some l => Some (map (clean s_meshex_EntryFlag) l) | None => None end) u).
  destruct a as [v|], g, e, f; cbn -[s_meshex_AllData]; auto.
Qed.

Lemma meshex_roundtrip_json x :
  meshex_ok x = true ->
  meshex_from_json (meshex_to_json x) =
  (if floats s_meshex_MeshEx (meshex_val x)
   then meshex_of_val (clean s_meshex_MeshEx (meshex_val x)) else None).
Proof.
  intros H. unfold meshex_from_json, meshex_to_json.
  rewrite roundtrip by (auto using meshex_schema_ok, meshex_sty). now destruct (floats _ _).
Qed.
