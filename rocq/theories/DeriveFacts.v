(** The code emitted by the derive macro does what [write], [size] and [ssbh_align] say of the
    descriptor of the item. *)
From Coq Require Import Lia ZifyBool ZifyNat ZifyN DecimalNat DecimalString FinFun.
From Verif Require Import Bytes BytesFacts Ssbh Described SsbhFacts Derive Elab.
Ltac Zify.zify_post_hook ::= ZifyBool.elim_bool_cstr; Z.to_euclidean_division_equations.
Open Scope string_scope.
Open Scope Z_scope.

(** ** Small steps *)
Lemma emit_zeros0 s : emit (zeros 0) s = s.
Proof. destruct s as [b p d]. unfold emit, zeros. cbn. now rewrite Z.add_0_r. Qed.

Lemma run_steps_app x env l1 l2 s :
  run_steps x env (l1 ++ l2) s = let* s := run_steps x env l1 s in run_steps x env l2 s.
Proof.
  revert s. induction l1 as [|a l1 IH]; intros s; cbn [app run_steps]; auto.
  destruct (run_step x env a s); cbn [bind]; auto.
Qed.

Lemma run_pad x env o s : shadowed env = false ->
  run_steps x env (write_pad_after o) s = Ok (emit (zeros (opt0 (op_pad o))) s).
Proof.
  intros E. unfold write_pad_after. destruct (op_pad o); cbn [run_steps opt0].
  - unfold run_step. rewrite E. reflexivity.
  - now rewrite emit_zeros0.
Qed.

Lemma run_align x env o s : shadowed env = false ->
  run_steps x env (write_aligned_after o) s = Ok (Ssbh.align_after (opt0 (op_aligned o)) s).
Proof.
  intros E. unfold write_aligned_after. destruct (op_aligned o); cbn [run_steps opt0].
  - unfold run_step. rewrite E. reflexivity.
  - reflexivity.
Qed.

(** ** Fields *)

(** Components that are written and sized like values of descriptors. *)
Inductive agrees : list obj -> list ty -> list val -> Prop :=
| agrees_nil : agrees [] [] []
| agrees_cons o os t ts v vs :
    (forall s, o_write o s = write t v s) -> o_size o = Ok (size t v) ->
    agrees os ts vs -> agrees (o :: os) (t :: ts) (v :: vs).

(** Sizes only. *)
Inductive sized : list obj -> list ty -> list val -> Prop :=
| sized_nil : sized [] [] []
| sized_cons o os t ts v vs :
    o_size o = Ok (size t v) -> sized os ts vs -> sized (o :: os) (t :: ts) (v :: vs).

Lemma agrees_sized os ts vs : agrees os ts vs -> sized os ts vs.
Proof. induction 1; constructor; auto. Qed.

Lemma sized_length os ts vs : sized os ts vs -> List.length os = List.length ts /\ List.length vs = List.length ts.
Proof. induction 1; cbn; lia. Qed.

Lemma fields_ty_length fs ts l : fields_ty fs ts = Some l -> List.length fs = List.length ts.
Proof.
  revert ts l. induction fs as [|f fs IH]; intros [|t ts] l; cbn; try discriminate; auto.
  destruct (field_ty f t); try discriminate. destruct (fields_ty fs ts) eqn:E; try discriminate.
  intros _. f_equal. eauto.
Qed.

Lemma field_run x env os ts vs : agrees os ts vs -> forall fs ps l fts s,
  field_steps fs ps = Ok l -> fields_ty fs ts = Some fts ->
  map (receiver x env) ps = map (@Ok obj) os -> shadowed env = false ->
  run_steps x env l s = write_fields fts vs s.
Proof.
  induction 1 as [|o os t ts v vs W Z A IH]; intros fs ps l fts s L F R E.
  - destruct fs; cbn in F; [|discriminate]. inversion F; subst. destruct ps; [|discriminate].
    cbn in L. inversion L. reflexivity.
  - destruct fs as [|f fs]; cbn [fields_ty] in F; [discriminate|].
    destruct ps as [|p ps]; [discriminate|]. cbn [map] in R. inversion R as [[R1 R2]].
    cbn [field_steps] in L.
    destruct (get_write_options (f_attrs f)) as [o'| |] eqn:G; try discriminate. cbn [bind] in L.
    destruct (field_steps fs ps) as [r| |] eqn:L'; try discriminate. cbn [bind] in L. inversion L; subst l.
    unfold field_ty in F. rewrite G in F.
    destruct (op_aligned o') eqn:AL; try discriminate.
    destruct (fields_ty fs ts) as [fr|] eqn:F'; try discriminate. inversion F; subst fts.
    cbn [write_fields run_steps]. unfold run_step at 1. rewrite E. cbn [receiver] in *.
    rewrite R1. cbn [bind]. rewrite W.
    destruct (write t v s) as [s1| |]; cbn [bind]; auto.
    rewrite run_steps_app, run_pad by auto. cbn [bind].
    rewrite run_steps_app, run_align by auto. cbn [bind]. rewrite AL. cbn [opt0].
    unfold Ssbh.align_after. cbn. eapply IH; eauto.
Qed.

Lemma field_eval x env os ts vs : sized os ts vs -> forall fs ps z fts,
  field_terms fs ps = Ok z -> fields_ty fs ts = Some fts -> fs <> [] ->
  map (receiver x env) ps = map (@Ok obj) os ->
  eval_terms x env z = Ok (size_fields fts vs).
Proof.
  induction 1 as [|o os t ts v vs Z A IH]; intros fs ps z fts L F N R.
  - destruct fs; [contradiction|discriminate].
  - destruct fs as [|f fs]; cbn [fields_ty] in F; [discriminate|].
    destruct ps as [|p ps]; [discriminate|]. cbn [map] in R. inversion R as [[R1 R2]].
    cbn [field_terms] in L.
    destruct (get_write_options (f_attrs f)) as [o'| |] eqn:G; try discriminate. cbn [bind] in L.
    destruct (field_terms fs ps) as [r| |] eqn:L'; try discriminate. cbn [bind] in L. inversion L; subst z.
    unfold field_ty in F. rewrite G in F.
    destruct (op_aligned o') eqn:AL; try discriminate.
    destruct (fields_ty fs ts) as [fr|] eqn:F'; try discriminate. inversion F; subst fts.
    cbn [size_fields]. destruct fs as [|g fs].
    + assert (ts = []) as -> by (destruct ts; [auto|discriminate]). inversion A; subst.
      destruct ps; [|discriminate]. cbn in L'. inversion L'; subst r. cbn in F'. inversion F'; subst.
      cbn [eval_terms]. rewrite R1. cbn [bind]. rewrite Z. cbn [bind size_fields].
      now rewrite Z.add_0_r.
    + specialize (IH _ _ _ _ L' F' ltac:(discriminate) R2).
      destruct r as [|[q k] r]. { cbn in IH. discriminate. }
      cbn [eval_terms]. cbn [eval_terms] in IH. rewrite R1. cbn [bind]. rewrite Z. cbn [bind].
      destruct r; rewrite IH; reflexivity.
Qed.

(** ** Names *)
Lemma assoc_notin {A} x (xs : list string) (os : list A) :
  existsb (String.eqb x) xs = false -> assoc x (combine xs os) = None.
Proof.
  revert os. induction xs as [|y xs IH]; intros os H; auto.
  destruct os as [|o os]; auto. cbn [combine assoc existsb] in *.
  apply orb_false_iff in H as [-> H]. auto.
Qed.

Lemma assoc_combine {A} (xs : list string) (os : list A) :
  nodup xs = true -> List.length xs = List.length os ->
  map (fun x => get (assoc x (combine xs os))) xs = map (@Ok A) os.
Proof.
  revert os. induction xs as [|x xs IH]; intros [|o os] N L; try discriminate; auto.
  cbn [nodup] in N. apply andb_prop in N as [N1 N2].
  cbn [map combine assoc]. rewrite String.eqb_refl. cbn [get]. f_equal.
  rewrite <- IH by (auto; cbn in L; lia). apply map_ext_in. intros y I.
  destruct (String.eqb_spec y x) as [->|]; auto.
  exfalso. apply negb_true_iff in N1.
  assert (existsb (String.eqb x) xs = true) by (apply existsb_exists; exists x; split; [auto|apply String.eqb_refl]).
  congruence.
Qed.

Lemma bind_named_combine (xs : list string) (os : list obj) v d ys :
  (map (fun x => get (assoc x ys)) xs = map (@Ok obj) os) ->
  bind_named xs (Self v d ys) = Ok (combine xs os).
Proof.
  unfold bind_named. cbn [s_comps]. revert os. induction xs as [|x xs IH]; intros [|o os] H; try discriminate; auto.
  cbn [map] in H. inversion H as [[H1 H2]]. rewrite H1. cbn [bind].
  rewrite (IH _ H2). reflexivity.
Qed.

Lemma index_inj i j : index i = index j -> i = j.
Proof.
  unfold index. intros H. apply (f_equal NilEmpty.uint_of_string) in H.
  rewrite !NilEmpty.usu in H. inversion H as [H']. now apply Unsigned.to_uint_inj.
Qed.

Lemma vi_inj i j : vi i = vi j -> i = j.
Proof. unfold vi. cbn. intros H. inversion H. now apply index_inj. Qed.

Lemma nodup_spec l : NoDup l -> nodup l = true.
Proof.
  induction 1 as [|x l N _ IH]; auto. cbn [nodup]. rewrite IH, andb_true_r. apply negb_true_iff.
  destruct (existsb (String.eqb x) l) eqn:E; auto. apply existsb_exists in E as (y & I & E).
  apply String.eqb_eq in E. subst. contradiction.
Qed.

Lemma nodup_vi n : nodup (map vi (seq 0 n)) = true.
Proof.
  apply nodup_spec. apply FinFun.Injective_map_NoDup; [|apply seq_NoDup].
  intros i j. apply vi_inj.
Qed.

Lemma vi_notin x n : (forall i, x <> vi i) -> existsb (String.eqb x) (map vi (seq 0 n)) = false.
Proof.
  intros H. destruct (existsb (String.eqb x) (map vi (seq 0 n))) eqn:E; auto.
  apply existsb_exists in E as (y & I & E). apply String.eqb_eq in E. subst y.
  apply in_map_iff in I as (i & E & _). exfalso. apply (H i). auto.
Qed.

Lemma map_snd_combine {A B} (xs : list A) (ys : list B) :
  List.length xs = List.length ys -> map snd (combine xs ys) = ys.
Proof. revert ys. induction xs as [|x xs IH]; intros [|y ys]; cbn; try discriminate; auto. intros H. f_equal. auto. Qed.

Lemma nth_combine {A} (xs : list string) (os : list A) k :
  List.length xs = List.length os ->
  map (fun i => get (option_map snd (nth_error (combine xs os) (i - k)))) (seq k (List.length os)) = map (@Ok A) os.
Proof.
  revert os k. induction xs as [|x xs IH]; intros [|o os] k; cbn [List.length]; try discriminate; auto.
  intros L. cbn [seq map combine]. rewrite Nat.sub_diag. cbn [nth_error option_map get snd]. f_equal.
  rewrite <- (IH os (S k)) by lia. apply map_ext_in. intros i I. apply in_seq in I.
  replace (i - k)%nat with (S (i - S k)) by lia. reflexivity.
Qed.

Lemma comp_names_length fs : List.length (comp_names fs) = List.length (fields_list fs).
Proof. destruct fs; cbn; rewrite ?map_length, ?seq_length; auto. Qed.

(** ** Receivers of a struct *)
Lemma receivers_named fs os v d :
  nodup (map f_name fs) = true -> List.length fs = List.length os ->
  map (receiver (Self v d (combine (map f_name fs) os)) []) (places_named fs true) = map (@Ok obj) os.
Proof.
  intros N L. unfold places_named. rewrite map_map. cbn [receiver s_comps].
  rewrite <- (assoc_combine (map f_name fs) os) by (rewrite ?map_length; auto).
  rewrite map_map. reflexivity.
Qed.

Lemma receivers_unnamed fs os v d :
  List.length fs = List.length os ->
  map (receiver (Self v d (combine (map index (seq 0 (List.length fs))) os)) []) (places_unnamed fs true)
  = map (@Ok obj) os.
Proof.
  intros L. unfold places_unnamed. rewrite map_map. cbn [receiver s_comps].
  rewrite <- (nth_combine (map index (seq 0 (List.length fs))) os 0) by (rewrite map_length, seq_length; auto).
  rewrite L. apply map_ext. intros i. now rewrite Nat.sub_0_r.
Qed.

(** ** Structs *)
Definition places_of (fs : fields) (include_self : bool) : list place :=
  match fs with
  | FNamed l => places_named l include_self
  | FUnnamed l => places_unnamed l include_self
  | FUnit => []
  end.

Lemma receivers_struct fs os v d arm :
  fields_ok fs arm = true -> List.length (fields_list fs) = List.length os ->
  map (receiver (Self v d (combine (comp_names fs) os)) []) (places_of fs true) = map (@Ok obj) os.
Proof.
  destruct fs as [l|l|]; cbn [fields_ok fields_list comp_names places_of]; intros K L; try discriminate.
  - apply receivers_named; auto. lia.
  - apply receivers_unnamed; auto.
Qed.

Lemma none_spec {A} (o : option A) : none o = true -> o = None.
Proof. destruct o; cbn; congruence. Qed.

Lemma fields_ok_nonempty fs arm : fields_ok fs arm = true -> fields_list fs <> [].
Proof. destruct fs as [[|]|[|]|]; cbn; congruence. Qed.

(** What the macro emits for a struct with a descriptor. *)
Lemma struct_code it ts T fs : i_data it = DStruct fs -> struct_ty it ts = Some T ->
  exists o l w z,
    T = TStruct l (opt0 (op_pad o)) (opt0 (op_aligned o)) (op_alignment o) /\
    fields_ty (fields_list fs) ts = Some l /\ fields_ok fs false = true /\
    field_steps (fields_list fs) (places_of fs true) = Ok w /\
    field_terms (fields_list fs) (places_of fs true) = Ok z /\
    derive it = Ok (Impl (WSteps w) (write_pad_after o ++ write_aligned_after o)%list
                         (ZSum z (op_pad o) None)
                         (match op_alignment o with Some n => AConst n | None => ASelf end)).
Proof.
  intros D S. unfold struct_ty in S. rewrite D in S.
  destruct (get_write_options (i_attrs it)) as [o| |] eqn:G; try discriminate.
  destruct (none (op_repr o) && none (op_magic o) && fields_ok fs false) eqn:C; try discriminate.
  apply andb_prop in C as [C K]. apply andb_prop in C as [C1 C2].
  apply none_spec in C1. apply none_spec in C2.
  destruct (fields_ty (fields_list fs) ts) as [l|] eqn:F; cbn in S; try discriminate. inversion S; subst T.
  assert (X : exists w z, field_steps (fields_list fs) (places_of fs true) = Ok w /\
                          field_terms (fields_list fs) (places_of fs true) = Ok z).
  { clear -F. generalize (places_of fs true). revert ts l F. induction (fields_list fs) as [|f r IH]; intros ts l F ps.
    - exists [], []. auto.
    - destruct ts as [|t ts]; [discriminate|]. cbn [fields_ty] in F. unfold field_ty in F.
      destruct (get_write_options (f_attrs f)) as [o| |] eqn:G; try discriminate.
      destruct (op_aligned o); try discriminate. destruct (fields_ty r ts) as [fr|] eqn:F'; try discriminate.
      destruct ps as [|p ps].
      + exists [], []. auto.
      + destruct (IH _ _ F' ps) as (w & z & A & B). cbn [field_steps field_terms]. rewrite G. cbn [bind].
        rewrite A, B. cbn [bind]. eauto. }
  destruct X as (w & z & W & Z). exists o, l, w, z. repeat split; auto.
  unfold derive. rewrite G. cbn [bind]. unfold data_and_size. rewrite C1, D. unfold magic_len. rewrite C2.
  destruct fs as [r|r|]; cbn [fields_list places_of] in *; [| |discriminate].
  - rewrite W, Z. cbn [bind app option_map]. reflexivity.
  - rewrite W, Z. cbn [bind app option_map]. reflexivity.
Qed.

Lemma struct_size it ts T fs os vs : i_data it = DStruct fs -> struct_ty it ts = Some T -> sized os ts vs ->
  item_size it (self_of it "" 0 os) = Ok (size T (VStruct vs)).
Proof.
  intros D S A. destruct (struct_code it ts T fs D S) as (o & l & w & z & -> & F & K & W & Z & E).
  unfold item_size. rewrite E. cbn [bind im_size eval_size]. unfold self_of, shape. rewrite D.
  pose proof (sized_length _ _ _ A) as [L1 L2]. pose proof (fields_ty_length _ _ _ F) as L3.
  rewrite (field_eval _ _ _ _ _ A _ _ _ _ Z F (fields_ok_nonempty _ _ K)
             (receivers_struct fs os "" 0 false K ltac:(lia))).
  cbn [bind opt0]. rewrite size_struct. f_equal. lia.
Qed.

Lemma struct_write it ts T fs os vs s : i_data it = DStruct fs -> struct_ty it ts = Some T -> agrees os ts vs ->
  item_write it (self_of it "" 0 os) s = write T (VStruct vs) s.
Proof.
  intros D S A. pose proof (struct_size it ts T fs os vs D S (agrees_sized _ _ _ A)) as X. unfold item_size in X.
  destruct (struct_code it ts T fs D S) as (o & l & w & z & -> & F & K & W & Z & E).
  unfold item_write. rewrite E in *. cbn [bind im_size] in X. cbn [bind]. unfold run_write. cbn [im_size im_data im_after].
  rewrite X. cbn [bind run_data]. rewrite size_struct, write_struct.
  pose proof (sized_length _ _ _ (agrees_sized _ _ _ A)) as [L1 L2]. pose proof (fields_ty_length _ _ _ F) as L3.
  unfold self_of, shape. rewrite D.
  rewrite (field_run _ _ _ _ _ A _ _ _ _ _ W F (receivers_struct fs os "" 0 false K ltac:(lia)) eq_refl).
  destruct (write_fields l vs _) as [s1| |]; cbn [bind]; auto.
  rewrite run_steps_app, run_pad by auto. cbn [bind]. now rewrite run_align.
Qed.

(** ** Variants *)
Lemma variant_arms vs arms terms v x :
  variant_steps vs = Ok arms -> variant_terms vs = Ok terms -> find_variant v vs = Some x ->
  exists o fp p w z,
    get_write_options (v_attrs x) = Ok o /\ arm_of x = Ok (fp, p) /\
    field_steps (fst fp) (snd fp) = Ok w /\ field_terms (fst fp) (snd fp) = Ok z /\
    find_arm v arms = Some (p, w ++ write_pad_after o ++ write_aligned_after o)%list /\
    find_arm v terms = Some (p, (z, opt0 (op_pad o))).
Proof.
  revert arms terms. induction vs as [|y vs IH]; intros arms terms A T F; [discriminate|].
  cbn [variant_steps variant_terms find_variant] in A, T, F.
  destruct (get_write_options (v_attrs y)) as [o| |] eqn:G; try discriminate. cbn [bind] in A, T.
  destruct (arm_of y) as [[fp p]| |] eqn:R; try discriminate. cbn [bind] in A, T.
  destruct (field_steps (fst fp) (snd fp)) as [w| |] eqn:W; try discriminate. cbn [bind] in A.
  destruct (field_terms (fst fp) (snd fp)) as [z| |] eqn:Z; try discriminate. cbn [bind] in T.
  destruct (variant_steps vs) as [ar| |]; try discriminate. cbn [bind] in A. inversion A; subst arms.
  destruct (variant_terms vs) as [tr| |]; try discriminate. cbn [bind] in T. inversion T; subst terms.
  assert (pat_variant p = v_name y) as P.
  { unfold arm_of in R. destruct (v_fields y); inversion R; reflexivity. }
  cbn [find_arm]. rewrite P. destruct (String.eqb v (v_name y)) eqn:E.
  - inversion F; subst y. exists o, fp, p, w, z. repeat split; auto.
  - destruct (IH _ _ eq_refl eq_refl F) as (o' & fp' & p' & w' & z' & H). exists o', fp', p', w', z'. auto.
Qed.

Definition env_names (fs : fields) : list string :=
  match fs with
  | FNamed l => field_names l
  | FUnnamed l => field_names_unnamed l
  | FUnit => []
  end.

Lemma arm_env x fp p v d os : arm_of x = Ok (fp, p) -> fields_ok (v_fields x) true = true ->
  List.length (fields_list (v_fields x)) = List.length os ->
  fp = (fields_list (v_fields x), places_of (v_fields x) false) /\
  bind_pat p (Self v d (combine (comp_names (v_fields x)) os)) = Ok (combine (env_names (v_fields x)) os) /\
  nodup (env_names (v_fields x)) = true /\ List.length (env_names (v_fields x)) = List.length os /\
  shadowed (combine (env_names (v_fields x)) os) = false /\
  forall y, map (receiver y (combine (env_names (v_fields x)) os)) (places_of (v_fields x) false) = map (@Ok obj) os.
Proof.
  unfold arm_of. intros H K L. destruct (v_fields x) as [l|l|]; inversion H; subst fp p; clear H.
  - cbn [fields_ok fields_list comp_names places_of env_names] in *.
    assert (N : nodup (map f_name l) = true) by lia.
    assert (LL : List.length (map f_name l) = List.length os) by (rewrite map_length; auto).
    repeat split; auto.
    + cbn [bind_pat]. apply bind_named_combine. now apply assoc_combine.
    + unfold shadowed. rewrite !assoc_notin; auto; unfold field_names; lia.
    + intros y. unfold places_named. rewrite map_map. cbn [receiver]. unfold field_names.
      rewrite <- (assoc_combine (map f_name l) os) by auto. now rewrite map_map.
  - cbn [fields_ok fields_list comp_names places_of env_names] in *.
    assert (LL : List.length (map vi (seq 0 (List.length l))) = List.length os) by (rewrite map_length, seq_length; auto).
    unfold field_names_unnamed in *.
    repeat split; auto.
    + cbn [bind_pat s_comps]. rewrite map_snd_combine; auto. rewrite map_length, seq_length. auto.
    + apply nodup_vi.
    + unfold shadowed. rewrite !assoc_notin; auto; apply vi_notin; intros i E; inversion E.
    + intros y. unfold places_unnamed. rewrite map_map. cbn [receiver].
      rewrite <- (assoc_combine (map vi (seq 0 (List.length l))) os) by (auto; apply nodup_vi).
      now rewrite map_map.
Qed.

Lemma zeros_split a b s : 0 <= a -> 0 <= b -> a = 0 \/ b = 0 ->
  emit (zeros b) (emit (zeros a) s) = emit (zeros (a + b)) s.
Proof. intros A B [->| ->]; rewrite emit_zeros0; f_equal; f_equal; lia. Qed.

(** What the macro emits for a variant with a descriptor. *)
Lemma variant_code it v ts T : variant_ty it v ts = Some T ->
  exists x o vo fs arms zarms l w z p,
    find_variant v (variants it) = Some x /\ v_fields x = fs /\
    fields_ty (fields_list fs) ts = Some l /\ fields_ok fs true = true /\
    arm_of x = Ok ((fields_list fs, places_of fs false), p) /\
    field_steps (fields_list fs) (places_of fs false) = Ok w /\
    field_terms (fields_list fs) (places_of fs false) = Ok z /\
    find_arm v arms = Some (p, w ++ write_pad_after vo ++ write_aligned_after vo)%list /\
    find_arm v zarms = Some (p, (z, opt0 (op_pad vo))) /\
    derive it = Ok (Impl (WMatch arms) (write_pad_after o ++ write_aligned_after o)%list
                         (ZMatch zarms (op_pad o) None) ASelf) /\
    (op_pad vo = None /\ op_aligned vo = None /\
       T = TStruct l (opt0 (op_pad o)) (opt0 (op_aligned o)) None \/
     op_pad o = None /\ op_aligned o = None /\
       T = TStruct l (opt0 (op_pad vo)) (opt0 (op_aligned vo)) None).
Proof.
  unfold variant_ty.
  destruct (get_write_options (i_attrs it)) as [o| |] eqn:G; try discriminate.
  destruct (derive it) as [im| |] eqn:D; try discriminate.
  destruct (find_variant v (variants it)) as [x|] eqn:FV; try discriminate.
  destruct (get_write_options (v_attrs x)) as [vo| |] eqn:GV; try discriminate.
  destruct (none (op_repr o) && none (op_magic o) && none (op_alignment o) && fields_ok (v_fields x) true) eqn:C;
    try discriminate.
  apply andb_prop in C as [C K]. apply andb_prop in C as [C C3]. apply andb_prop in C as [C1 C2].
  apply none_spec in C1. apply none_spec in C2. apply none_spec in C3.
  destruct (fields_ty (fields_list (v_fields x)) ts) as [l|] eqn:F; try discriminate.
  intros H.
  unfold derive in D. rewrite G in D. cbn [bind] in D. unfold data_and_size in D. rewrite C1 in D.
  unfold variants in FV. destruct (i_data it) as [|vs|] eqn:DD; try discriminate.
  destruct (variant_steps vs) as [arms| |] eqn:VS; try discriminate. cbn [bind] in D.
  destruct (variant_terms vs) as [terms| |] eqn:VT; try discriminate. cbn [bind] in D.
  rewrite C3 in D. unfold magic_len in D. rewrite C2 in D. cbn [option_map] in D.
  destruct (variant_arms vs arms terms v x VS VT FV) as (vo' & fp & p & w & z & G' & R & W & Z & FA & FT).
  rewrite GV in G'. inversion G'; subst vo'.
  assert (fp = (fields_list (v_fields x), places_of (v_fields x) false)) as ->.
  { unfold arm_of in R. destruct (v_fields x); inversion R; reflexivity. }
  exists x, o, vo, (v_fields x), arms, terms, l, w, z, p.
  split; auto.
  split; auto. split; auto. split; auto. split; auto. split; auto. split; auto. split; auto. split; auto.
  split; [congruence|].
  destruct (none (op_pad vo) && none (op_aligned vo)) eqn:N1.
  - left. apply andb_prop in N1 as [N1 N2]. apply none_spec in N1. apply none_spec in N2. inversion H; auto.
  - destruct (none (op_pad o) && none (op_aligned o)) eqn:N2; [|discriminate].
    right. apply andb_prop in N2 as [N2 N3]. apply none_spec in N2. apply none_spec in N3. inversion H; auto.
Qed.

Lemma shape_variant it v x : find_variant v (variants it) = Some x -> shape it v = v_fields x.
Proof. unfold variants, shape. destruct (i_data it); cbn; try discriminate. now intros ->. Qed.

Lemma variant_size it v ts T os vs : variant_ty it v ts = Some T -> sized os ts vs ->
  item_size it (self_of it v 0 os) = Ok (size T (VStruct vs)).
Proof.
  intros S A. destruct (variant_code it v ts T S)
    as (x & o & vo & fs & arms & zarms & l & w & z & p & FV & <- & F & K & R & W & Z & FA & FT & D & C).
  pose proof (sized_length _ _ _ A) as [L1 L2]. pose proof (fields_ty_length _ _ _ F) as L3.
  unfold item_size. rewrite D. cbn [bind im_size eval_size]. unfold self_of. rewrite (shape_variant _ _ _ FV).
  cbn [s_variant]. rewrite FT. cbn [get bind].
  destruct (arm_env x _ p v 0 os R K ltac:(lia)) as (_ & B & _ & _ & _ & RC).
  rewrite B. cbn [bind fst snd].
  rewrite (field_eval _ _ _ _ _ A _ _ _ _ Z F (fields_ok_nonempty _ _ K) (RC _)). cbn [bind opt0].
  destruct C as [(-> & _ & ->)|(-> & _ & ->)]; rewrite size_struct; cbn [opt0]; f_equal; lia.
Qed.

Lemma variant_write it v ts T os vs s : variant_ty it v ts = Some T -> agrees os ts vs ->
  item_write it (self_of it v 0 os) s = write T (VStruct vs) s.
Proof.
  intros S A. pose proof (variant_size it v ts T os vs S (agrees_sized _ _ _ A)) as X. unfold item_size in X.
  destruct (variant_code it v ts T S)
    as (x & o & vo & fs & arms & zarms & l & w & z & p & FV & <- & F & K & R & W & Z & FA & FT & D & C).
  pose proof (sized_length _ _ _ (agrees_sized _ _ _ A)) as [L1 L2]. pose proof (fields_ty_length _ _ _ F) as L3.
  unfold item_write. rewrite D in *. cbn [bind im_size] in X. cbn [bind]. unfold run_write.
  cbn [im_size im_data im_after]. rewrite X. cbn [bind run_data].
  unfold self_of. rewrite (shape_variant _ _ _ FV). cbn [s_variant]. rewrite FA. cbn [get bind].
  destruct (arm_env x _ p v 0 os R K ltac:(lia)) as (_ & B & _ & _ & SH & RC).
  rewrite B. cbn [bind]. rewrite run_steps_app.
  rewrite (field_run _ _ _ _ _ A _ _ _ _ _ W F (RC _) SH).
  destruct C as [(C1 & C2 & ->)|(C1 & C2 & ->)]; rewrite size_struct, write_struct;
    destruct (write_fields l vs _) as [s1| |]; cbn [bind]; auto.
  - rewrite run_steps_app, run_pad by auto. cbn [bind]. rewrite run_align by auto. cbn [bind].
    rewrite C1, C2. cbn [opt0]. rewrite emit_zeros0. unfold Ssbh.align_after at 1. cbn [Z.ltb Z.compare].
    rewrite run_steps_app, run_pad by auto. cbn [bind]. now rewrite run_align.
  - rewrite run_steps_app, run_pad by auto. cbn [bind]. rewrite run_align by auto. cbn [bind].
    rewrite run_steps_app, run_pad by auto. cbn [bind]. rewrite run_align by auto.
    rewrite C1, C2. cbn [opt0]. rewrite emit_zeros0. reflexivity.
Qed.

(** ** Fieldless enums *)
Lemma repr_code it ts T vs : i_data it = DEnum vs -> struct_ty it ts = Some T ->
  exists w r z, T = TRepr w (enum_layout it) (sort (item_tags it)) /\ width r = Ok w /\ ts = [] /\
    derive it = Ok (Impl (WSteps [SCast r]) [] (ZCast r) (AOf r)) /\ z = tt.
Proof.
  intros D S. unfold struct_ty in S. rewrite D in S.
  destruct (get_write_options (i_attrs it)) as [o| |] eqn:G; try discriminate.
  destruct (op_repr o) as [r|] eqn:R; try discriminate. destruct ts; try discriminate.
  destruct (width r) as [w| |] eqn:W; try discriminate.
  destruct (none (op_pad o) && none (op_aligned o) && none (op_alignment o)) eqn:C; try discriminate.
  apply andb_prop in C as [C C3]. apply andb_prop in C as [C1 C2].
  apply none_spec in C1. apply none_spec in C2. apply none_spec in C3. inversion S; subst T.
  exists w, r, tt. repeat split; auto.
  unfold derive. rewrite G. cbn [bind]. unfold data_and_size. rewrite R. cbn [bind]. rewrite C3.
  unfold write_pad_after, write_aligned_after. now rewrite C1, C2.
Qed.

Lemma repr_write it ts T vs n s : i_data it = DEnum vs -> struct_ty it ts = Some T ->
  item_write it (self_of it "" n []) s = write T (VInt n) s /\
  item_size it (self_of it "" n []) = Ok (size T (VInt n)).
Proof.
  intros D S. destruct (repr_code it ts T vs D S) as (w & r & _ & -> & W & -> & E & _).
  unfold item_write, item_size. rewrite E. cbn [bind im_size eval_size]. split.
  - unfold run_write. cbn [im_size im_data im_after eval_size run_data run_steps]. rewrite W. cbn [bind].
    unfold run_step. cbn [shadowed assoc]. unfold shadowed. cbn [assoc]. rewrite W. cbn [bind write].
    unfold self_of. cbn [s_disc]. reflexivity.
  - rewrite W. reflexivity.
Qed.

(** ** Types *)
Section CtyInd.
  Variable P : cty -> Prop.
  Hypothesis HLib : forall t, P (CLib t).
  Hypothesis HRel : forall c, P c -> P (CRel c).
  Hypothesis HAbs : forall w c, P c -> P (CAbs w c).
  Hypothesis HArr : forall c, P c -> P (CArr c).
  Hypothesis HFix : forall n c, P c -> P (CFix n c).
  Hypothesis HVec : forall n c, P c -> P (CVec n c).
  Hypothesis HItem : forall it cs, Forall P cs -> P (CItem it cs).
  Hypothesis HCase : forall it vs, Forall (fun x => Forall P (snd (snd x))) vs -> P (CCase it vs).

  Fixpoint cty_ind' (c : cty) : P c :=
    match c with
    | CLib t => HLib t
    | CRel c => HRel c (cty_ind' c)
    | CAbs w c => HAbs w c (cty_ind' c)
    | CArr c => HArr c (cty_ind' c)
    | CFix n c => HFix n c (cty_ind' c)
    | CVec n c => HVec n c (cty_ind' c)
    | CItem it cs =>
        HItem it cs
          ((fix go (cs : list cty) : Forall P cs :=
              match cs with [] => Forall_nil _ | c :: r => Forall_cons c (cty_ind' c) (go r) end) cs)
    | CCase it vs =>
        HCase it vs
          ((fix gov (vs : list (Z * (string * list cty))) : Forall (fun x => Forall P (snd (snd x))) vs :=
              match vs with
              | [] => Forall_nil _
              | x :: r =>
                  Forall_cons x
                    (match x return Forall P (snd (snd x)) with
                     | (tg, (nm, cs)) =>
                         (fix go (cs : list cty) : Forall P cs :=
                            match cs with [] => Forall_nil _ | c :: r => Forall_cons c (cty_ind' c) (go r) end) cs
                     end) (gov r)
              end) vs)
    end.
End CtyInd.

(** The inner loops. *)
Fixpoint size_objs (cs : list cty) (vs : list val) : list obj :=
  match cs, vs with
  | c :: cr, v :: vr => Obj (fun _ => Err EType) (gen_size c v) :: size_objs cr vr
  | _, _ => []
  end.

Fixpoint layouts (cs : list cty) : Z :=
  match cs with [] => 1 | c :: r => Z.max (layout c) (layouts r) end.

Fixpoint erases (cs : list cty) : option (list ty) :=
  match cs with
  | [] => Some []
  | c :: r => match erase c, erases r with Some t, Some l => Some (t :: l) | _, _ => None end
  end.

Fixpoint erase_cases (it : item) (vs : list (Z * (string * list cty))) : option (list (Z * ty)) :=
  match vs with
  | [] => Some []
  | (tag, (name, cs)) :: r =>
      match erases cs with
      | Some ts =>
          match variant_ty it name ts, erase_cases it r with
          | Some t, Some l => Some ((tag, t) :: l)
          | _, _ => None
          end
      | None => None
      end
  end.

Fixpoint find_body (tag : Z) (vs : list (Z * (string * list cty))) : option (string * list cty) :=
  match vs with
  | [] => None
  | (tg, x) :: r => if tag =? tg then Some x else find_body tag r
  end.

Lemma gen_size_item it cs vs :
  gen_size (CItem it cs) (VStruct vs) = item_size it (self_of it "" 0 (size_objs cs vs)).
Proof. reflexivity. Qed.

Lemma gen_write_item it cs vs s :
  gen_write (CItem it cs) (VStruct vs) s = item_write it (self_of it "" 0 (objs cs vs)) s.
Proof. reflexivity. Qed.

Lemma gen_write_case it vs tag ws s :
  gen_write (CCase it vs) (VPtr (Some (VCase tag (VStruct ws)))) s =
  let* a := item_align it (layout (CCase it vs)) in
  let* s1 := write_relptr a
    (Some (match find_body tag vs with
           | Some (name, cs) => item_write it (self_of it name 0 (objs cs ws))
           | None => fun _ => Err EType
           end)) (bump 16 s) in
  Ok (emit (le_bytes 8 tag) s1).
Proof.
  cbn [gen_write].
  match goal with |- context [write_relptr _ (Some (?f vs))] => assert (E : f vs = match find_body tag vs with
           | Some (name, cs) => item_write it (self_of it name 0 (objs cs ws))
           | None => fun _ => Err EType
           end) end.
  { generalize vs. clear. induction vs as [|[tg [name cs]] r IH]; auto. cbn [find_body].
    destruct (tag =? tg); auto. }
  now rewrite E.
Qed.

Lemma erase_item it cs : erase (CItem it cs) = match erases cs with Some ts => struct_ty it ts | None => None end.
Proof. reflexivity. Qed.

Lemma erase_case it vs :
  erase (CCase it vs) = if case_ok it then option_map TEnum (erase_cases it vs) else None.
Proof.
  cbn [erase]. destruct (case_ok it); auto. f_equal.
  induction vs as [|[tag [name cs]] r IH]; auto. cbn [erase_cases]. rewrite <- IH. reflexivity.
Qed.

Lemma layout_item it cs : layout (CItem it cs) = if fieldless it then enum_layout it else layouts cs.
Proof. reflexivity. Qed.

(** ** The emitted code refines the descriptor *)
Definition refines (c : cty) : Prop := forall T, erase c = Some T ->
  layout c = rust_align T /\
  gen_align c = Ok (ssbh_align T) /\
  (forall v, wt T v = true -> gen_size c v = Ok (size T v)) /\
  (forall v, wt T v = true -> forall s, gen_write c v s = write T v s).

Lemma fields_wt fs ts fts vs : fields_ty fs ts = Some fts -> wt_fields fts vs = true ->
  Forall2 (fun t v => wt t v = true) ts vs.
Proof.
  revert ts fts vs. induction fs as [|f fs IH]; intros [|t ts] fts vs F W; try discriminate.
  - inversion F; subst. destruct vs; try discriminate. constructor.
  - cbn [fields_ty] in F. unfold field_ty in F. destruct (get_write_options (f_attrs f)); try discriminate.
    destruct (op_aligned a); try discriminate. destruct (fields_ty fs ts) as [r|] eqn:E; try discriminate.
    inversion F; subst fts. destruct vs as [|v vs]; [discriminate|]. cbn [wt_fields] in W.
    apply andb_prop in W as [W1 W2]. constructor; eauto.
Qed.

Lemma refines_objs cs : Forall refines cs -> forall ts vs, erases cs = Some ts ->
  Forall2 (fun t v => wt t v = true) ts vs ->
  agrees (objs cs vs) ts vs /\ sized (size_objs cs vs) ts vs.
Proof.
  induction 1 as [|c cs R _ IH]; intros ts vs E W; cbn [erases] in E.
  - inversion E; subst. inversion W; subst. split; constructor.
  - destruct (erase c) as [t|] eqn:Et; try discriminate. destruct (erases cs) as [r|]; try discriminate.
    inversion E; subst ts. inversion W as [|? v ? vr Wv Wr]; subst.
    destruct (R _ Et) as (_ & _ & Z & X). destruct (IH _ _ eq_refl Wr) as [A B].
    cbn [size_objs]. change (objs (c :: cs) (v :: vr)) with (Obj (fun s => gen_write c v s) (gen_size c v) :: objs cs vr).
    split; constructor; cbn [o_write o_size]; auto.
Qed.

Lemma refines_layouts cs : Forall refines cs -> forall ts fs fts, erases cs = Some ts ->
  fields_ty fs ts = Some fts -> forall sp aa al, layouts cs = rust_align (TStruct fts sp aa al).
Proof.
  induction 1 as [|c cs R _ IH]; intros ts fs fts E F sp aa al; cbn [erases] in E.
  - inversion E; subst. destruct fs; [|discriminate]. inversion F. reflexivity.
  - destruct (erase c) as [t|] eqn:Et; try discriminate. destruct (erases cs) as [r|]; try discriminate.
    inversion E; subst ts. destruct fs as [|f fs]; [discriminate|]. cbn [fields_ty] in F. unfold field_ty in F.
    destruct (get_write_options (f_attrs f)); try discriminate.
    destruct (op_aligned a); try discriminate. destruct (fields_ty fs r) as [fr|] eqn:F'; try discriminate.
    inversion F; subst fts. cbn [layouts]. destruct (R _ Et) as (-> & _).
    rewrite (IH _ _ _ eq_refl F' sp aa al). reflexivity.
Qed.

Lemma write_list_ext f g vs : Forall (fun v => forall s, f v s = g v s) vs -> forall s, write_list f vs s = write_list g vs s.
Proof.
  induction 1 as [|v vs E _ IH]; intros s; cbn [write_list]; auto. rewrite E. destruct (g v s); cbn [bind]; auto.
Qed.

Lemma slice_sizes c T vs : (forall v, wt T v = true -> gen_size c v = Ok (size T v)) ->
  forallb (wt T) vs = true -> gen_slice_size c vs = Ok (slice_size T vs).
Proof.
  intros Z W. destruct vs as [|v vs]; auto. cbn [gen_slice_size slice_size].
  apply forallb_forall with (x := v) in W; [|now left]. now rewrite Z.
Qed.

Lemma slice_writes c T vs : (forall v, wt T v = true -> forall s, gen_write c v s = write T v s) ->
  forallb (wt T) vs = true -> forall s,
  write_list (fun v' => gen_write c v') vs s = write_list (fun v' => write T v') vs s.
Proof.
  intros X W. apply write_list_ext. apply Forall_forall. intros v I. apply X.
  rewrite forallb_forall in W. auto.
Qed.

Lemma relptr_ext a f g s : (forall s, f s = g s) -> write_relptr a (Some f) s = write_relptr a (Some g) s.
Proof.
  intros E. unfold write_relptr, write_rel_ptr_aligned. destruct (write_relative_offset _); cbn [bind]; auto.
  now rewrite E.
Qed.

Lemma absptr_ext w a f g s : (forall s, f s = g s) -> write_absptr w a (Some f) s = write_absptr w a (Some g) s.
Proof. intros E. unfold write_absptr. destruct (_ <? _); auto. now rewrite E. Qed.

Lemma case_align it n : case_ok it = true -> item_align it n = Ok n.
Proof.
  unfold case_ok, item_align. destruct (get_write_options (i_attrs it)) as [o| |] eqn:G; try discriminate.
  unfold derive. rewrite G. cbn [bind]. destruct (data_and_size it o) as [[w z]| |]; try discriminate.
  intros C. apply andb_prop in C as [C1 C2]. apply none_spec in C1. apply none_spec in C2.
  cbn [bind im_align]. rewrite C1, C2. reflexivity.
Qed.

Lemma erase_cases_find it vs l tag t : erase_cases it vs = Some l -> find_case tag l = Some t ->
  exists name cs ts, find_body tag vs = Some (name, cs) /\ In (tag, (name, cs)) vs /\
    erases cs = Some ts /\ variant_ty it name ts = Some t.
Proof.
  revert l. induction vs as [|[tg [name cs]] r IH]; intros l E F; cbn [erase_cases] in E.
  - inversion E; subst. discriminate.
  - destruct (erases cs) as [ts|] eqn:Es; try discriminate.
    destruct (variant_ty it name ts) as [t'|] eqn:V; try discriminate.
    destruct (erase_cases it r) as [lr|]; try discriminate. inversion E; subst l.
    cbn [find_case find_body] in *. destruct (tag =? tg) eqn:C.
    + inversion F; subst t'. apply Z.eqb_eq in C. subst tg. exists name, cs, ts. repeat split; auto. now left.
    + destruct (IH _ eq_refl F) as (n' & c' & t'' & A & B & C' & D). exists n', c', t''. repeat split; auto. now right.
Qed.

Lemma case_layout it vs : Forall (fun x => Forall refines (snd (snd x))) vs -> forall l,
  erase_cases it vs = Some l -> layout (CCase it vs) = rust_align (TEnum l).
Proof.
  induction 1 as [|[tg [name cs]] r R _ IH]; intros l E; cbn [erase_cases] in E.
  - inversion E. reflexivity.
  - destruct (erases cs) as [ts|] eqn:Es; try discriminate.
    destruct (variant_ty it name ts) as [t'|] eqn:V; try discriminate.
    destruct (erase_cases it r) as [lr|]; try discriminate. inversion E; subst l.
    change (layout (CCase it ((tg, (name, cs)) :: r))) with (Z.max (layouts cs) (layout (CCase it r))).
    change (rust_align (TEnum ((tg, t') :: lr))) with (Z.max (rust_align t') (rust_align (TEnum lr))).
    rewrite (IH _ eq_refl). f_equal.
    destruct (variant_code it name ts t' V)
      as (x & o & vo & fs & arms & zarms & l & w & z & p & FV & FS & F & K & RR & W & Z & FA & FT & D & C).
    destruct C as [(_ & _ & ->)|(_ & _ & ->)]; eapply refines_layouts; eauto.
Qed.

Theorem emitted_refines c : refines c.
Proof.
  induction c using cty_ind'; unfold refines; intros T E.
  - cbn in E. inversion E; subst. repeat split; auto.
  - cbn [erase] in E. destruct (erase c) as [T'|] eqn:E'; try discriminate. cbn in E. inversion E; subst T.
    destruct (IHc _ E') as (L & A & Z & W). cbn [layout gen_align rust_align ssbh_align]. split; [exact L|split; [now rewrite L|split]].
    + intros v Hv. destruct v; try discriminate. reflexivity.
    + intros v Hv s. destruct v; try discriminate. cbn [gen_write write]. rewrite A. cbn [bind].
      destruct o as [v'|]; cbn [option_map]; auto. apply relptr_ext. apply W. exact Hv.
  - cbn [erase] in E. destruct (erase c) as [T'|] eqn:E'; try discriminate. cbn in E. inversion E; subst T.
    destruct (IHc _ E') as (L & A & Z & W). cbn [layout gen_align rust_align ssbh_align]. split; [exact L|split; [now rewrite L|split]].
    + intros v Hv. destruct v; try discriminate. reflexivity.
    + intros v Hv s. destruct v; try discriminate. cbn [gen_write write]. rewrite A. cbn [bind].
      destruct o as [v'|]; cbn [option_map]; auto. apply absptr_ext. apply W. exact Hv.
  - cbn [erase] in E. destruct (erase c) as [T'|] eqn:E'; try discriminate. cbn in E. inversion E; subst T.
    destruct (IHc _ E') as (L & A & Z & W). split; [reflexivity|split; [reflexivity|split]].
    + intros v Hv. destruct v; try discriminate. reflexivity.
    + intros v Hv s. destruct v as [| | |vs| |]; try discriminate. cbn [gen_write write].
      assert (Hw : forallb (wt T') vs = true) by (cbn [wt] in Hv; now apply andb_prop in Hv).
      destruct (write_array_header _ _); cbn [bind]; auto.
      rewrite (slice_sizes c T') by auto. cbn [bind]. now rewrite (slice_writes c T').
  - cbn [erase] in E. destruct (erase c) as [T'|] eqn:E'; try discriminate. cbn in E. inversion E; subst T.
    destruct (IHc _ E') as (L & A & Z & W). cbn [layout gen_align rust_align ssbh_align]. split; [exact L|split; [now rewrite L|split]].
    + intros v Hv. destruct v as [| | |vs| |]; try discriminate.
      assert (Hw : forallb (wt T') vs = true) by (cbn [wt] in Hv; now apply andb_prop in Hv).
      exact (slice_sizes c T' vs Z Hw).
    + intros v Hv s. destruct v as [| | |vs| |]; try discriminate. cbn [gen_write write].
      assert (Hw : forallb (wt T') vs = true) by (cbn [wt] in Hv; now apply andb_prop in Hv).
      destruct (zlen vs =? n); auto.
      rewrite (slice_sizes c T') by auto. cbn [bind]. now rewrite (slice_writes c T').
  - cbn [erase] in E. destruct (erase c) as [T'|] eqn:E'; try discriminate. cbn in E. inversion E; subst T.
    destruct (IHc _ E') as (L & A & Z & W). split; [reflexivity|split; [exact A|split]].
    + intros v Hv. destruct v as [| | |vs| |]; try discriminate.
      assert (Hw : forallb (wt T') vs = true) by (cbn [wt] in Hv; now apply andb_prop in Hv).
      exact (slice_sizes c T' vs Z Hw).
    + intros v Hv s. destruct v as [| | |vs| |]; try discriminate. cbn [gen_write write].
      assert (Hw : forallb (wt T') vs = true) by (cbn [wt] in Hv; now apply andb_prop in Hv).
      destruct (zlen vs =? n); auto.
      rewrite (slice_sizes c T') by auto. cbn [bind]. now rewrite (slice_writes c T').
  - rewrite erase_item in E. destruct (erases cs) as [ts|] eqn:Es; try discriminate.
    destruct (i_data it) as [fs|vs|] eqn:D.
    + destruct (struct_code it ts T fs D E) as (o & l & w & z & -> & F & K & W & Z & G).
      assert (LL : layout (CItem it cs) = rust_align (TStruct l (opt0 (op_pad o)) (opt0 (op_aligned o)) (op_alignment o))).
      { rewrite layout_item. unfold fieldless. rewrite D. eapply refines_layouts; eauto. }
      split; [exact LL|split; [|split]].
      * cbn [gen_align]. unfold item_align. rewrite G. cbn [bind im_align].
        destruct (op_alignment o); cbn [eval_align ssbh_align]; auto. now rewrite LL.
      * intros v Hv. destruct v as [| |vs| | |]; try discriminate. rewrite wt_struct in Hv.
        rewrite gen_size_item. eapply struct_size; eauto.
        eapply refines_objs; eauto. eapply fields_wt; eauto.
      * intros v Hv s. destruct v as [| |vs| | |]; try discriminate. rewrite wt_struct in Hv.
        rewrite gen_write_item. eapply struct_write; eauto.
        eapply refines_objs; eauto. eapply fields_wt; eauto.
    + destruct (repr_code it ts T vs D E) as (w & r & _ & -> & W & -> & G & _).
      split; [|split; [|split]].
      * rewrite layout_item. unfold fieldless. rewrite D. reflexivity.
      * cbn [gen_align]. unfold item_align. rewrite G. cbn [bind im_align eval_align]. exact W.
      * intros v Hv. destruct v as [n| | | | |]; try discriminate. eapply (repr_write it [] _ vs n (mkW [] 0 0)); eauto.
      * intros v Hv s. destruct v as [n| | | | |]; try discriminate. eapply (repr_write it [] _ vs n s); eauto.
    + unfold struct_ty in E. rewrite D in E. destruct (get_write_options (i_attrs it)); discriminate.
  - rewrite erase_case in E. destruct (case_ok it) eqn:K; try discriminate.
    destruct (erase_cases it vs) as [l|] eqn:Es; try discriminate. cbn in E. inversion E; subst T.
    pose proof (case_layout it vs H l Es) as L. split; [exact L|split; [cbn [gen_align]; now rewrite L|split]].
    + intros v Hv. destruct v; try discriminate. reflexivity.
    + intros v Hv s. destruct v as [| | | |o|]; try discriminate. destruct o as [v'|].
      * destruct v' as [| | | | |tag v'']; try discriminate. rewrite write_enum. rewrite wt_enum in Hv.
        destruct (find_case tag l) as [t'|] eqn:FC; try discriminate.
        destruct (erase_cases_find it vs l tag t' Es FC) as (name & cs & ts & FB & I & Ec & V).
        assert (X : exists ws, v'' = VStruct ws /\ agrees (objs cs ws) ts ws).
        { destruct (variant_code it name ts t' V)
            as (x & o & vo & fs & arms & zarms & fl & w & z & p & FV & FS & F & KK & RR & W & Z & FA & FT & D & C).
          destruct v'' as [| | | | |]; destruct C as [(_ & _ & ->)|(_ & _ & ->)]; try discriminate;
            eexists; (split; [reflexivity|]); rewrite wt_struct in Hv;
            rewrite Forall_forall in H; specialize (H _ I); cbn [snd] in H;
            eapply refines_objs; eauto; eapply fields_wt; eauto. }
        destruct X as (ws & -> & A). rewrite gen_write_case, (case_align it _ K), FB. cbn [bind]. rewrite L.
        change (rust_align (TEnum l)) with (enum_align l).
        rewrite (relptr_ext _ _ (write t' (VStruct ws))); auto.
        intros s'. eapply variant_write; eauto.
      * cbn [gen_write write]. rewrite (case_align it _ K). cbn [bind]. rewrite L. reflexivity.
Qed.

(** A variant of a format enum. *)
Theorem emitted_variant it v cs ts T vs s :
  erases cs = Some ts -> variant_ty it v ts = Some T -> wt T (VStruct vs) = true ->
  gen_write_variant it v cs vs s = write T (VStruct vs) s /\
  item_size it (self_of it v 0 (objs cs vs)) = Ok (size T (VStruct vs)).
Proof.
  intros E V W. unfold gen_write_variant.
  assert (A : agrees (objs cs vs) ts vs).
  { assert (R : Forall refines cs) by (apply Forall_forall; intros; apply emitted_refines).
    destruct (variant_code it v ts T V)
      as (x & o & vo & fs & arms & zarms & fl & w & z & p & FV & FS & F & KK & RR & WW & Z & FA & FT & D & C).
    apply (refines_objs cs R ts vs E).
    destruct C as [(_ & _ & ->)|(_ & _ & ->)]; rewrite wt_struct in W; eapply fields_wt; eauto. }
  split; [eapply variant_write|eapply variant_size]; eauto. now apply agrees_sized.
Qed.

(** ** The size that is computed is the number of bytes written *)

(** A component that moves the writer by the size it claims. *)
Definition honest (o : obj) : Prop :=
  forall s s' n, o_write o s = Ok s' -> o_size o = Ok n -> wpos s' = wpos s + n.

(** Attributes whose effect is the same in ssbh_write and in size_in_bytes. *)
Definition plain_fields (fs : list fld) : bool :=
  forallb (fun f => match get_write_options (f_attrs f) with Ok o => none (op_aligned o) | _ => true end) fs.
Definition plain_variant (v : evariant) : bool :=
  match get_write_options (v_attrs v) with Ok o => none (op_aligned o) | _ => true end &&
  plain_fields (fields_list (v_fields v)).
Definition counts (it : item) : bool :=
  match get_write_options (i_attrs it) with
  | Ok o =>
      none (op_aligned o) &&
      match op_repr o with
      | Some _ => none (op_pad o)
      | None =>
          match i_data it with
          | DStruct (FNamed fs) => plain_fields fs
          | DStruct (FUnnamed fs) => none (op_magic o) && plain_fields fs
          | DEnum vs => none (op_magic o) && forallb plain_variant vs
          | _ => true
          end
      end
  | _ => true
  end.

Lemma usize_nonneg l n : get_usize_arg l = Ok n -> 0 <= opt0 n.
Proof.
  destruct l; cbn; [|intros H; inversion H; cbn; lia|intros H; inversion H; cbn; lia].
  destruct ((0 <=? n0) && (n0 <? two64)) eqn:E; try discriminate. intros H. inversion H. cbn [opt0]. lia.
Qed.

Lemma nested_pad l : forall o o', 0 <= opt0 (op_pad o) -> nested_options l o = Ok o' -> 0 <= opt0 (op_pad o').
Proof.
  induction l as [|m l IH]; intros o o' P H; cbn [nested_options] in H; [now inversion H; subst|].
  destruct m as [r|path v| | |]; eauto. destruct path as [|k [|]]; try discriminate.
  destruct (k =? "pad_after")%string.
  { destruct (get_usize_arg v) as [n| |] eqn:G; try discriminate. cbn [bind] in H.
    eapply IH; [|exact H]. cbn [op_pad]. eapply usize_nonneg; eauto. }
  destruct (k =? "align_after")%string.
  { destruct (get_usize_arg v) as [n| |] eqn:G; try discriminate. cbn [bind] in H. eapply IH; [|exact H]. exact P. }
  destruct (k =? "alignment")%string.
  { destruct (get_usize_arg v) as [n| |] eqn:G; try discriminate. cbn [bind] in H. eapply IH; [|exact H]. exact P. }
  destruct (k =? "magic")%string; [|discriminate]. cbn [bind] in H. eapply IH; [|exact H]. exact P.
Qed.

Lemma options_pad l o : get_write_options l = Ok o -> 0 <= opt0 (op_pad o).
Proof.
  unfold get_write_options.
  assert (X : forall l o o', 0 <= opt0 (op_pad o) -> write_options l o = Ok o' -> 0 <= opt0 (op_pad o')).
  { clear. induction l as [|a l IH]; intros o o' P H; cbn [write_options] in H; [now inversion H; subst|].
    destruct (at_path a =? "ssbhwrite")%string; [|eauto].
    destruct (get_repr a); [cbn [bind] in H; eapply IH; [|exact H]; exact P|].
    destruct (at_args a) as [args|]; [|eauto].
    destruct (nested_options args o) as [o1| |] eqn:N; try discriminate. cbn [bind] in H.
    eapply IH; [|exact H]. eapply nested_pad; eauto. }
  apply X. cbn. lia.
Qed.

Lemma emit_pos bs s : wpos (emit bs s) = wpos s + zlen bs.
Proof. reflexivity. Qed.

Lemma zeros_len n : 0 <= n -> zlen (zeros n) = n.
Proof. intros H. unfold zlen, zeros. rewrite repeat_length. lia. Qed.

Lemma pad_pos x env l o s s' : get_write_options l = Ok o ->
  run_steps x env (write_pad_after o) s = Ok s' -> wpos s' = wpos s + opt0 (op_pad o).
Proof.
  intros G. pose proof (options_pad _ _ G) as P. unfold write_pad_after.
  destruct (op_pad o) as [n|]; cbn [run_steps opt0] in *.
  - unfold run_step. destruct (shadowed env); [discriminate|]. cbn [bind]. intros H. inversion H.
    rewrite emit_pos, zeros_len; lia.
  - intros H. inversion H. lia.
Qed.

Definition env_honest (env : list (string * obj)) : Prop := Forall (fun x => honest (snd x)) env.

Lemma assoc_in {A} x (l : list (string * A)) a : assoc x l = Some a -> In (x, a) l.
Proof.
  induction l as [|[y b] r IH]; cbn; try discriminate. destruct (String.eqb_spec x y) as [->|]; auto.
  intros H. inversion H. now left.
Qed.

Lemma get_ok {A} (o : option A) a : get o = Ok a -> o = Some a.
Proof. destruct o; cbn; congruence. Qed.

Lemma receiver_honest x env p o : env_honest (s_comps x) -> env_honest env -> receiver x env p = Ok o -> honest o.
Proof.
  unfold env_honest. rewrite !Forall_forall. intros C E R. destruct p as [f|i|y]; cbn [receiver] in R; apply get_ok in R.
  - apply assoc_in in R. exact (C _ R).
  - destruct (nth_error (s_comps x) i) as [[n a]|] eqn:N; cbn in R; try discriminate. inversion R; subst.
    apply nth_error_In in N. exact (C _ N).
  - apply assoc_in in R. exact (E _ R).
Qed.

Lemma field_pos x env : env_honest (s_comps x) -> env_honest env -> forall fs ps l z n s s',
  plain_fields fs = true -> field_steps fs ps = Ok l -> field_terms fs ps = Ok z ->
  eval_terms x env z = Ok n -> run_steps x env l s = Ok s' -> wpos s' = wpos s + n.
Proof.
  intros C E. induction fs as [|f fs IH]; intros ps l z n s s' P L Z V R.
  - destruct ps; cbn in Z; inversion Z; subst; discriminate.
  - destruct ps as [|p ps]; [cbn in Z; inversion Z; subst; discriminate|].
    cbn [field_steps field_terms] in L, Z. cbn [plain_fields forallb] in P. apply andb_prop in P as [P1 P2].
    destruct (get_write_options (f_attrs f)) as [o| |] eqn:G; try discriminate. cbn [bind] in L, Z.
    destruct (field_steps fs ps) as [lr| |] eqn:L'; try discriminate. cbn [bind] in L. inversion L; subst l.
    destruct (field_terms fs ps) as [zr| |] eqn:Z'; try discriminate. cbn [bind] in Z. inversion Z; subst z.
    apply none_spec in P1. cbn [run_steps] in R. unfold write_aligned_after in R. rewrite P1 in R. cbn [app] in R.
    unfold run_step in R at 1. destruct (shadowed env); [discriminate|].
    destruct (receiver x env p) as [ob| |] eqn:RC; try discriminate. cbn [bind] in R.
    destruct (o_write ob s) as [s1| |] eqn:W; try discriminate. cbn [bind] in R. rewrite run_steps_app in R.
    destruct (run_steps x env (write_pad_after o) s1) as [s2| |] eqn:PD; try discriminate. cbn [bind] in R.
    apply (pad_pos _ _ _ _ _ _ G) in PD.
    pose proof (receiver_honest x env p ob C E RC) as H.
    cbn [eval_terms] in V. rewrite RC in V. cbn [bind] in V.
    destruct (o_size ob) as [k| |] eqn:K; try (destruct zr; discriminate). cbn [bind] in V.
    specialize (H _ _ _ W K).
    destruct zr as [|q zr].
    + inversion V; subst n. assert (lr = []) as ->.
      { destruct fs as [|g fs]; [destruct ps; cbn in L'; now inversion L'|].
        destruct ps as [|q ps]; [cbn in L'; now inversion L'|]. exfalso. cbn [field_terms] in Z'.
        destruct (get_write_options (f_attrs g)); try discriminate. cbn [bind] in Z'.
        destruct (field_terms fs ps); discriminate. }
      cbn in R. inversion R; subst. lia.
    + destruct (eval_terms x env (q :: zr)) as [y| |] eqn:Y; try (destruct q; discriminate).
      assert (n = k + opt0 (op_pad o) + y) as -> by (destruct q; cbn [bind] in V; inversion V; reflexivity).
      specialize (IH ps lr (q :: zr) y s2 s' P2 L' Z' Y R). lia.
Qed.

Lemma named_honest xs x env : env_honest (s_comps x) -> bind_named xs x = Ok env -> env_honest env.
Proof.
  intros C. unfold bind_named. revert env. induction xs as [|y r IH]; intros env B.
  - inversion B; subst. constructor.
  - destruct (get (assoc y (s_comps x))) as [o| |] eqn:G; try discriminate. cbn [bind] in B.
    match type of B with context [bind ?t _] => destruct t as [r'| |] eqn:T; try discriminate end.
    cbn [bind] in B. inversion B; subst. constructor; [|exact (IH _ eq_refl)].
    apply get_ok, assoc_in in G. unfold env_honest in C. rewrite Forall_forall in C. exact (C _ G).
Qed.

Lemma pat_honest p x env : env_honest (s_comps x) -> bind_pat p x = Ok env -> env_honest env.
Proof.
  intros C. destruct p as [v xs|v xs]; cbn [bind_pat]; intros B; [|eapply named_honest; eauto].
  inversion B; subst. unfold env_honest in *. clear B. revert xs. induction C as [|c l Hc _ IH]; intros [|y xs]; cbn; constructor; auto.
Qed.

Lemma arms_pos x v : env_honest (s_comps x) -> forall vs arms terms p l q k n m env s s',
  forallb plain_variant vs = true -> variant_steps vs = Ok arms -> variant_terms vs = Ok terms ->
  find_arm v arms = Some (p, l) -> find_arm v terms = Some (q, (k, m)) ->
  bind_pat p x = Ok env -> eval_terms x env k = Ok n -> run_steps x env l s = Ok s' ->
  p = q /\ wpos s' = wpos s + n + m.
Proof.
  intros C. induction vs as [|y vs IH]; intros arms terms p l q k n m env s s' P A T FA FT B V R.
  - cbn in A. inversion A; subst. discriminate.
  - cbn [variant_steps variant_terms] in A, T. cbn [forallb] in P. apply andb_prop in P as [P1 P2].
    unfold plain_variant in P1. apply andb_prop in P1 as [P3 P4].
    destruct (get_write_options (v_attrs y)) as [o| |] eqn:G; try discriminate. cbn [bind] in A, T.
    destruct (arm_of y) as [[fp p']| |] eqn:AO; try discriminate. cbn [bind] in A, T.
    destruct (field_steps (fst fp) (snd fp)) as [w| |] eqn:W; try discriminate. cbn [bind] in A.
    destruct (field_terms (fst fp) (snd fp)) as [z| |] eqn:Z; try discriminate. cbn [bind] in T.
    destruct (variant_steps vs) as [ar| |]; try discriminate. cbn [bind] in A. inversion A; subst arms.
    destruct (variant_terms vs) as [tr| |]; try discriminate. cbn [bind] in T. inversion T; subst terms.
    cbn [find_arm] in FA, FT. destruct (v =? pat_variant p')%string.
    + inversion FA; subst p l. inversion FT; subst q k m. split; auto.
      assert (F : fst fp = fields_list (v_fields y)).
      { unfold arm_of in AO. destruct (v_fields y); inversion AO; reflexivity. }
      apply none_spec in P3. unfold write_aligned_after in R. rewrite P3, app_nil_r in R.
      rewrite run_steps_app in R. destruct (run_steps x env w s) as [s1| |] eqn:RW; try discriminate.
      cbn [bind] in R. apply (pad_pos _ _ _ _ _ _ G) in R. rewrite <- F in P4.
      pose proof (field_pos x env C (pat_honest _ _ _ C B) _ _ _ _ _ _ _ P4 W Z V RW). lia.
    + eapply IH; eauto.
Qed.

Lemma magic_pos bs s s' : write (TFix (zlen bs) (TInt 1)) (VArr (map VInt bs)) s = Ok s' -> wpos s' = wpos s + zlen bs.
Proof.
  cbn [write]. destruct (_ =? _); try discriminate.
  assert (X : forall s, wpos (bump (slice_size (TInt 1) (map VInt bs)) s) = wpos s) by (intros; unfold bump; destruct (_ <? _); auto).
  rewrite <- (X s). generalize (bump (slice_size (TInt 1) (map VInt bs)) s). clear X s.
  induction bs as [|b bs IH]; intros s H; cbn [map write_list] in H.
  - inversion H. unfold zlen. cbn. lia.
  - cbn [write bind] in H. apply IH in H. rewrite H, emit_pos.
    change (zlen (le_bytes (Z.to_nat 1) b)) with 1. rewrite (zlen_cons b). lia.
Qed.

Theorem size_is_honest it im x n s s' :
  derive it = Ok im -> counts it = true -> env_honest (s_comps x) ->
  eval_size (im_size im) x = Ok n -> run_write im x s = Ok s' -> wpos s' = wpos s + n.
Proof.
  intros D K C V R. unfold counts in K. unfold derive in D.
  destruct (get_write_options (i_attrs it)) as [o| |] eqn:G; try discriminate. cbn [bind] in D.
  apply andb_prop in K as [K1 K2]. apply none_spec in K1.
  destruct (data_and_size it o) as [[w z]| |] eqn:DS; try discriminate. cbn [bind] in D. inversion D; subst im. clear D.
  cbn [im_size] in V. unfold run_write in R. cbn [im_size im_data im_after] in R. rewrite V in R. cbn [bind] in R.
  unfold write_aligned_after in R. rewrite K1, app_nil_r in R.
  destruct (run_data w x (bump n s)) as [s1| |] eqn:RD; try discriminate. cbn [bind] in R.
  apply (pad_pos _ _ _ _ _ _ G) in R.
  assert (B : wpos (bump n s) = wpos s) by (unfold bump; destruct (_ <? _); auto).
  unfold data_and_size in DS. destruct (op_repr o) as [r|].
  - apply none_spec in K2. rewrite K2 in R. cbn [opt0] in R. inversion DS; subst w z.
    cbn [eval_size] in V. cbn [run_data run_steps] in RD. unfold run_step in RD. cbn in RD. rewrite V in RD. cbn in RD.
    inversion RD; subst s1. rewrite R, emit_pos, B. 
    assert (N : 0 <= n).
    { unfold width in V. repeat (destruct (r =? _)%string; [inversion V; lia|]). discriminate. }
    unfold zlen. rewrite le_bytes_length. lia.
  - destruct (i_data it) as [[fs|fs|]|vs|]; try discriminate.
    + destruct (field_steps fs (places_named fs true)) as [l| |] eqn:L; try discriminate. cbn [bind] in DS.
      destruct (field_terms fs (places_named fs true)) as [ts| |] eqn:T; try discriminate. cbn [bind] in DS.
      inversion DS; subst w z. cbn [eval_size] in V.
      destruct (eval_terms x [] ts) as [k| |] eqn:ET; try discriminate. cbn [bind] in V. inversion V; subst n. clear V.
      cbn [run_data] in RD. rewrite run_steps_app in RD.
      set (s0 := bump _ s) in *.
      destruct (run_steps x [] match op_magic o with Some bs => [SMagic bs] | None => [] end s0) as [s2| |] eqn:M; try discriminate.
      cbn [bind] in RD. apply (field_pos x [] C ltac:(constructor) fs _ _ _ _ _ _ K2 L T ET) in RD.
      assert (wpos s2 = wpos s0 + opt0 (magic_len o)).
      { unfold magic_len. destruct (op_magic o) as [bs|]; cbn [option_map opt0].
        - cbn [run_steps] in M. unfold run_step in M. cbn [shadowed assoc] in M.
          change (shadowed []) with false in M. cbn [bind] in M.
          destruct (write (TFix (zlen bs) (TInt 1)) (VArr (map VInt bs)) s0) as [s3| |] eqn:WM; try discriminate.
          cbn [bind] in M. inversion M; subst. apply magic_pos in WM. exact WM.
        - cbn in M. inversion M. lia. }
      lia.
    + apply andb_prop in K2 as [K2 K3]. apply none_spec in K2.
      destruct (field_terms fs (places_unnamed fs true)) as [ts| |] eqn:T; try discriminate. cbn [bind] in DS.
      destruct (field_steps fs (places_unnamed fs true)) as [l| |] eqn:L; try discriminate. cbn [bind] in DS.
      inversion DS; subst w z. cbn [eval_size] in V.
      destruct (eval_terms x [] ts) as [k| |] eqn:ET; try discriminate. cbn [bind] in V. inversion V; subst n. clear V.
      cbn [run_data] in RD. unfold magic_len in *. rewrite K2 in *. cbn [option_map opt0] in *.
      apply (field_pos x [] C ltac:(constructor) fs _ _ _ _ _ _ K3 L T ET) in RD. lia.
    + apply andb_prop in K2 as [K2 K3]. apply none_spec in K2.
      destruct (variant_steps vs) as [arms| |] eqn:VS; try discriminate. cbn [bind] in DS.
      destruct (variant_terms vs) as [terms| |] eqn:VT; try discriminate. cbn [bind] in DS.
      inversion DS; subst w z. cbn [eval_size] in V. unfold magic_len in *. rewrite K2 in *. cbn [option_map opt0] in *.
      destruct (find_arm (s_variant x) terms) as [[q [k m]]|] eqn:FT; try discriminate. cbn [get bind fst snd] in V.
      cbn [run_data] in RD.
      destruct (find_arm (s_variant x) arms) as [[p l]|] eqn:FA; try discriminate. cbn [get bind] in RD.
      destruct (bind_pat p x) as [env| |] eqn:BP; try discriminate. cbn [bind] in RD.
      assert (p = q) as <-.
      { clear -VS VT FA FT. revert arms terms VS VT FA FT. induction vs as [|y vs IH]; intros arms terms VS VT FA FT.
        - cbn in VS. inversion VS; subst. discriminate.
        - cbn [variant_steps variant_terms] in VS, VT.
          destruct (get_write_options (v_attrs y)) as [o| |]; try discriminate. cbn [bind] in VS, VT.
          destruct (arm_of y) as [[fp p']| |]; try discriminate. cbn [bind] in VS, VT.
          destruct (field_steps (fst fp) (snd fp)); try discriminate. cbn [bind] in VS.
          destruct (field_terms (fst fp) (snd fp)); try discriminate. cbn [bind] in VT.
          destruct (variant_steps vs); try discriminate. cbn [bind] in VS. inversion VS; subst arms.
          destruct (variant_terms vs); try discriminate. cbn [bind] in VT. inversion VT; subst terms.
          cbn [find_arm] in FA, FT. destruct (s_variant x =? pat_variant p')%string; [congruence|]. eauto. }
      rewrite BP in V. cbn [bind] in V.
      destruct (eval_terms x env k) as [e| |] eqn:ET; try discriminate. cbn [bind] in V. inversion V; subst n. clear V.
      destruct (arms_pos x _ C vs arms terms p l p k e m env _ _ K3 VS VT FA FT BP ET RD) as [_ H]. lia.
Qed.
