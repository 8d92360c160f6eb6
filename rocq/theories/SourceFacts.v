(** Proofs about saving with the emitted code and about what the macro accepts. *)
From Coq Require Import Lia ZifyBool ZifyNat ZifyN.
From Verif Require Import Bytes Ssbh Formats File Derive Elab Items DeriveFacts Source.
Ltac Zify.zify_post_hook ::= ZifyBool.elim_bool_cstr; Z.to_euclidean_division_equations.
Open Scope string_scope.
Open Scope Z_scope.

Lemma omap_erases cs : omap erase cs = erases cs.
Proof. induction cs as [|c cs IH]; cbn; auto. rewrite IH. reflexivity. Qed.

(** The descriptors of the formats are those of the items of the repository. *)
Theorem formats_source k : elab_versions items depth (format_name k) = Some (versions k).
Proof. destruct k; vm_compute; reflexivity. Qed.

Lemma versions_find it (l : list ((Z * Z) * (string * list cty))) vts v T :
  omap (fun x =>
          match omap erase (snd (snd x)) with
          | Some ts => option_map (fun t => (fst x, t)) (variant_ty it (fst (snd x)) ts)
          | None => None
          end) l = Some vts ->
  lookup_ver v vts = Some T ->
  exists name cs ts, find_version v l = Some (name, cs) /\ erases cs = Some ts /\ variant_ty it name ts = Some T.
Proof.
  revert vts. induction l as [|[v' [name cs]] r IH]; intros vts O L; cbn [omap] in O.
  - inversion O; subst. discriminate.
  - cbn [fst snd] in O. rewrite omap_erases in O. destruct (erases cs) as [ts|] eqn:E; try discriminate.
    destruct (variant_ty it name ts) as [t|] eqn:V; cbn [option_map] in O; try discriminate.
    match type of O with context [omap ?f r] => destruct (omap f r) as [vr|] eqn:R; try discriminate end.
    inversion O; subst vts. cbn [lookup_ver find_version] in *. destruct (ver_eqb v v').
    + inversion L; subst. eauto 10.
    + eauto.
Qed.

Theorem source_saves f : file_ok f -> source_write f = file_write f.
Proof.
  destruct f as [k v body]. intros (T & F & W). cbn [fkind fver fbody] in *.
  pose proof (formats_source k) as H. unfold elab_versions in H. unfold source_write, file_write. cbn [fkind fver fbody].
  rewrite F. destruct (elab_variants items depth (format_name k)) as [[it l]|]; try discriminate.
  unfold format in F. destruct (versions_find it l _ v T H F) as (name & cs & ts & FV & E & V). rewrite FV.
  assert (X : exists vs, body = VStruct vs).
  { destruct (variant_code it name ts T V)
      as (x & o & vo & fs & arms & zarms & fl & w & z & p & _ & _ & _ & _ & _ & _ & _ & _ & _ & _ & C).
    destruct C as [(_ & _ & ->)|(_ & _ & ->)]; destruct body; try discriminate; eauto. }
  destruct X as (vs & ->).
  destruct (emitted_variant it name cs ts T vs fresh E V W) as [_ Z]. rewrite Z. cbn [bind].
  unfold write_ssbh_file.
  match goal with |- context [item_write _ _ ?s] => destruct (emitted_variant it name cs ts T vs s E V W) as [X _] end.
  unfold gen_write_variant in X. rewrite X. reflexivity.
Qed.

(** ** Acceptance *)
Lemma usize_accepted l : (exists o, get_usize_arg l = Ok o) <->
  match l with LInt n => (0 <=? n) && (n <? two64) | _ => true end = true.
Proof.
  destruct l as [n| |]; cbn; split; eauto.
  - destruct ((0 <=? n) && (n <? two64)); auto. intros (o & H). discriminate.
  - intros ->. eauto.
Qed.

Lemma nested_accepted l : forall o, (exists o', nested_options l o = Ok o') <-> forallb key_ok l = true.
Proof.
  induction l as [|m l IH]; intros o; cbn [nested_options forallb]; [split; eauto|].
  destruct m as [r|path v| | |]; cbn [key_ok andb]; try apply IH.
  destruct path as [|k [|k' path]]; try (split; [intros (o' & H); discriminate|discriminate]).
  pose proof (usize_accepted v) as U.
  destruct (k =? "pad_after")%string eqn:K1.
  { apply String.eqb_eq in K1. subst k. cbn [String.eqb Ascii.eqb Bool.eqb orb andb]. rewrite andb_true_iff, <- U.
    destruct (get_usize_arg v) as [n| |]; cbn [bind].
    - rewrite <- (IH (Options n (op_aligned o) (op_alignment o) (op_repr o) (op_magic o))). split; [eauto|tauto].
    - split; [intros (o' & H); discriminate|intros ((o' & H) & _); discriminate].
    - split; [intros (o' & H); discriminate|intros ((o' & H) & _); discriminate]. }
  destruct (k =? "align_after")%string eqn:K2.
  { apply String.eqb_eq in K2. subst k. cbn [String.eqb Ascii.eqb Bool.eqb orb andb]. rewrite andb_true_iff, <- U.
    destruct (get_usize_arg v) as [n| |]; cbn [bind].
    - rewrite <- (IH (Options (op_pad o) n (op_alignment o) (op_repr o) (op_magic o))). split; [eauto|tauto].
    - split; [intros (o' & H); discriminate|intros ((o' & H) & _); discriminate].
    - split; [intros (o' & H); discriminate|intros ((o' & H) & _); discriminate]. }
  destruct (k =? "alignment")%string eqn:K3.
  { apply String.eqb_eq in K3. subst k. cbn [String.eqb Ascii.eqb Bool.eqb orb andb]. rewrite andb_true_iff, <- U.
    destruct (get_usize_arg v) as [n| |]; cbn [bind].
    - rewrite <- (IH (Options (op_pad o) (op_aligned o) n (op_repr o) (op_magic o))). split; [eauto|tauto].
    - split; [intros (o' & H); discriminate|intros ((o' & H) & _); discriminate].
    - split; [intros (o' & H); discriminate|intros ((o' & H) & _); discriminate]. }
  destruct (k =? "magic")%string; cbn [orb andb bind].
  - apply IH.
  - split; [intros (o' & H); discriminate|discriminate].
Qed.

Lemma options_accepted l : forall o, (exists o', write_options l o = Ok o') <-> attrs_ok l = true.
Proof.
  induction l as [|a l IH]; intros o; cbn [write_options attrs_ok forallb]; [split; eauto|].
  unfold attr_ok. fold attr_ok. destruct (at_path a =? "ssbhwrite")%string; [|apply IH].
  unfold get_repr. destruct (at_args a) as [args|]; [|cbn [bind]; apply IH].
  assert (X : (exists o', (let* o1 := nested_options args o in write_options l o1) = Ok o') <->
              forallb key_ok args && attrs_ok l = true).
  { rewrite andb_true_iff, <- (nested_accepted args o). destruct (nested_options args o) as [o1| |]; cbn [bind].
    - rewrite IH. split; [intros H; split; eauto|tauto].
    - split; [intros (o' & H); discriminate|intros ((o' & H) & _); discriminate].
    - split; [intros (o' & H); discriminate|intros ((o' & H) & _); discriminate]. }
  destruct args as [|m [|m' args]]; [exact X| |destruct m; exact X].
  destruct m; try exact X. cbn [bind forallb key_ok andb]. apply IH.
Qed.

Lemma repr_accepted l o : get_write_options l = Ok o -> has_repr l = match op_repr o with Some _ => true | None => false end.
Proof.
  unfold get_write_options.
  assert (X : forall l o o', write_options l o = Ok o' ->
    match op_repr o' with Some _ => true | None => false end =
    (match op_repr o with Some _ => true | None => false end || has_repr l)%bool).
  { clear. induction l as [|a l IH]; intros o o' H; cbn [write_options has_repr existsb] in *.
    - inversion H. now rewrite orb_false_r.
    - change (existsb _ l) with (has_repr l).
      destruct (at_path a =? "ssbhwrite")%string; cbn [andb]; [|now rewrite (IH _ _ H)].
      unfold get_repr in H. destruct (at_args a) as [args|]; [|cbn [bind] in H; now rewrite (IH _ _ H)].
      assert (N : (let* o1 := nested_options args o in write_options l o1) = Ok o' ->
        match op_repr o' with Some _ => true | None => false end =
        (match op_repr o with Some _ => true | None => false end || has_repr l)%bool).
      { destruct (nested_options args o) as [o1| |] eqn:E; try discriminate. cbn [bind]. intros H'. rewrite (IH _ _ H').
        f_equal. clear -E. revert o E. induction args as [|m r IH]; intros o E; cbn [nested_options] in E; [now inversion E|].
        destruct m as [x|path v| | |]; try (apply IH; exact E). destruct path as [|k [|]]; try discriminate.
        destruct (k =? "pad_after")%string; [destruct (get_usize_arg v); try discriminate; cbn [bind] in E; now apply IH in E|].
        destruct (k =? "align_after")%string; [destruct (get_usize_arg v); try discriminate; cbn [bind] in E; now apply IH in E|].
        destruct (k =? "alignment")%string; [destruct (get_usize_arg v); try discriminate; cbn [bind] in E; now apply IH in E|].
        destruct (k =? "magic")%string; [|discriminate]. cbn [bind] in E. now apply IH in E. }
      destruct args as [|m [|m' args]]; [now rewrite (N H)| |destruct m; now rewrite (N H)].
      destruct m; try (now rewrite (N H)). cbn [bind] in H. rewrite (IH _ _ H). cbn [op_repr orb].
      destruct (op_repr o); reflexivity. }
  intros H. rewrite (X _ _ _ H). reflexivity.
Qed.

Lemma field_accepted fs : forall ps, List.length ps = List.length fs ->
  ((exists l, field_steps fs ps = Ok l) <-> forallb (fun f => attrs_ok (f_attrs f)) fs = true) /\
  ((exists l, field_terms fs ps = Ok l) <-> forallb (fun f => attrs_ok (f_attrs f)) fs = true).
Proof.
  induction fs as [|f fs IH]; intros [|p ps] L; try discriminate; cbn [field_steps field_terms forallb].
  - split; split; eauto.
  - destruct (IH ps ltac:(cbn in L; lia)) as [A B]. rewrite !andb_true_iff, <- (options_accepted (f_attrs f) default_options).
    fold (get_write_options (f_attrs f)).
    destruct (get_write_options (f_attrs f)) as [o| |]; cbn [bind];
      [|split; split; [intros (o' & H); discriminate|intros ((o' & H) & _); discriminate
                      |intros (o' & H); discriminate|intros ((o' & H) & _); discriminate]
       |split; split; [intros (o' & H); discriminate|intros ((o' & H) & _); discriminate
                      |intros (o' & H); discriminate|intros ((o' & H) & _); discriminate]].
    split.
    + rewrite <- A. destruct (field_steps fs ps) as [r| |]; cbn [bind].
      * split; [intros _; split; eauto|eauto].
      * split; [intros (o' & H); discriminate|intros (_ & (o' & H)); discriminate].
      * split; [intros (o' & H); discriminate|intros (_ & (o' & H)); discriminate].
    + rewrite <- B. destruct (field_terms fs ps) as [r| |]; cbn [bind].
      * split; [intros _; split; eauto|eauto].
      * split; [intros (o' & H); discriminate|intros (_ & (o' & H)); discriminate].
      * split; [intros (o' & H); discriminate|intros (_ & (o' & H)); discriminate].
Qed.

Lemma named_places fs b : List.length (places_named fs b) = List.length fs.
Proof. unfold places_named. now rewrite map_length. Qed.
Lemma unnamed_places fs b : List.length (places_unnamed fs b) = List.length fs.
Proof. unfold places_unnamed. now rewrite map_length, seq_length. Qed.

Lemma arm_accepted v : fields_accepted (v_fields v) = true <->
  exists fp p w z, arm_of v = Ok (fp, p) /\ field_steps (fst fp) (snd fp) = Ok w /\ field_terms (fst fp) (snd fp) = Ok z.
Proof.
  unfold arm_of, fields_accepted. destruct (v_fields v) as [l|l|].
  - destruct (field_accepted l (places_named l false) (named_places _ _)) as [A B]. split.
    + intros H. pose proof (proj2 A H) as [w W]. pose proof (proj2 B H) as [z Z]. eexists _, _, w, z. eauto.
    + intros (fp & p & w & z & E & W & Z). inversion E; subst fp. apply A. eauto.
  - destruct (field_accepted l (places_unnamed l false) (unnamed_places _ _)) as [A B]. split.
    + intros H. pose proof (proj2 A H) as [w W]. pose proof (proj2 B H) as [z Z]. eexists _, _, w, z. eauto.
    + intros (fp & p & w & z & E & W & Z). inversion E; subst fp. apply A. eauto.
  - split; [discriminate|]. intros (fp & p & w & z & E & _). discriminate.
Qed.

Lemma variants_accepted vs :
  forallb (fun v => attrs_ok (v_attrs v) && fields_accepted (v_fields v)) vs = true <->
  (exists l z, variant_steps vs = Ok l /\ variant_terms vs = Ok z).
Proof.
  induction vs as [|v vs IH]; cbn [forallb variant_steps variant_terms]; [split; eauto|].
  rewrite !andb_true_iff, IH, arm_accepted, <- (options_accepted (v_attrs v) default_options).
  fold (get_write_options (v_attrs v)). split.
  - intros (((o & O) & fp & p & w & z & A & W & Z) & l & t & L & T).
    rewrite O. cbn [bind]. rewrite A. cbn [bind]. rewrite W, Z. cbn [bind]. rewrite L, T. cbn [bind]. eauto.
  - intros (l & t & L & T).
    destruct (get_write_options (v_attrs v)) as [o| |]; try discriminate. cbn [bind] in L, T.
    destruct (arm_of v) as [[fp p]| |]; try discriminate. cbn [bind] in L, T.
    destruct (field_steps (fst fp) (snd fp)) as [w| |] eqn:W; try discriminate. cbn [bind] in L.
    destruct (field_terms (fst fp) (snd fp)) as [z| |] eqn:Z; try discriminate. cbn [bind] in T.
    destruct (variant_steps vs) as [lr| |]; try discriminate. destruct (variant_terms vs) as [tr| |]; try discriminate.
    split; [split; [eauto|]|eauto]. exists fp, p, w, z. auto.
Qed.

Theorem macro_accepts it : (exists im, derive it = Ok im) <-> accepted it = true.
Proof.
  unfold derive, accepted. rewrite andb_true_iff, <- (options_accepted (i_attrs it) default_options).
  fold (get_write_options (i_attrs it)).
  destruct (get_write_options (i_attrs it)) as [o| |] eqn:G; cbn [bind];
    [|split; [intros (o' & H); discriminate|intros ((o' & H) & _); discriminate]
     |split; [intros (o' & H); discriminate|intros ((o' & H) & _); discriminate]].
  rewrite (repr_accepted _ _ G). unfold data_and_size.
  destruct (op_repr o) as [r|]; cbn [bind orb]; [split; eauto|].
  assert (X : forall (A B : Prop), (A <-> B) -> (A <-> (exists o' : options, Ok o = Ok o') /\ B)).
  { intros A B H. rewrite H. split; [eauto|tauto]. }
  apply X. clear X.
  destruct (i_data it) as [[l|l|]|vs|]; cbn [fields_accepted].
  - destruct (field_accepted l (places_named l true) (named_places _ _)) as [A B]. split.
    + intros (im & H). apply A. destruct (field_steps l (places_named l true)); try discriminate. eauto.
    + intros H. pose proof (proj2 A H) as [w W]. pose proof (proj2 B H) as [z Z]. rewrite W, Z. cbn [bind]. eauto.
  - destruct (field_accepted l (places_unnamed l true) (unnamed_places _ _)) as [A B]. split.
    + intros (im & H). apply B. destruct (field_terms l (places_unnamed l true)); try discriminate. eauto.
    + intros H. pose proof (proj2 A H) as [w W]. pose proof (proj2 B H) as [z Z]. rewrite W, Z. cbn [bind]. eauto.
  - split; [intros (im & H); discriminate|discriminate].
  - rewrite variants_accepted. split.
    + intros (im & H). destruct (variant_steps vs); try discriminate. destruct (variant_terms vs); try discriminate. eauto.
    + intros (w & z & W & Z). rewrite W, Z. cbn [bind]. eauto.
  - split; [intros (im & H); discriminate|discriminate].
Qed.

(** Every item of the repository is accepted; all but two count all that they write. *)
Definition items_of (ds : list decl) : list item :=
  List.concat (map (fun d => match d with
                             | DeclItem it => [it]
                             | DeclCase n vs => [case_item n vs]
                             | _ => []
                             end) ds).

Lemma items_accepted : forallb accepted (items_of items) = true.
Proof. vm_compute. reflexivity. Qed.

Lemma items_counted :
  map i_name (filter (fun it => negb (counts it)) (items_of items)) = ["mesh::Mesh"; "anim::Anim"].
Proof. vm_compute. reflexivity. Qed.
