(** The order of members does not matter: proofs. *)
From Coq Require Import Lia Permutation.
From Verif Require Import Bytes Ssbh Formats File MeshEx Json JsonSchema JsonFile JsonSpec JsonFacts.

Definition stable {A} (f : json -> option A) : Prop := forall j j', reordered j j' -> f j = f j'.

Lemma reordered_null j j' : reordered j j' -> (j = JNull <-> j' = JNull).
Proof. induction 1; try tauto; split; discriminate. Qed.

Lemma stable_by {A} (f : json -> option A) :
  (forall l j j' r, reordered j j' -> f (JArr (l ++ j :: r)) = f (JArr (l ++ j' :: r))) ->
  (forall l x j j' r, reordered j j' -> f (JObj (l ++ (x, j) :: r)) = f (JObj (l ++ (x, j') :: r))) ->
  (forall ms ms', Permutation ms ms' -> f (JObj ms) = f (JObj ms')) ->
  stable f.
Proof. intros H1 H2 H3 j j'. induction 1; auto. congruence. Qed.

Lemma stable_list f : stable f -> stable (json_list f).
Proof.
  intros S. apply stable_by; auto. intros l j j' r R. cbn. now rewrite !map_app; cbn; rewrite (S j j' R).
Qed.

Lemma stable_ptr f : stable f -> stable (json_ptr f).
Proof.
  intros S j j' R. pose proof (reordered_null _ _ R) as N. unfold json_ptr. rewrite (S j j' R).
  destruct j, j'; auto; exfalso; destruct N as [N1 N2];
    try (specialize (N1 eq_refl); discriminate); specialize (N2 eq_refl); discriminate.
Qed.

Lemma member_replace x l y j j' r :
  member x (l ++ (y, j) :: r) = member x (l ++ (y, j') :: r) \/
  (member x (l ++ (y, j) :: r) = Some (Some j) /\ member x (l ++ (y, j') :: r) = Some (Some j')).
Proof.
  induction l as [|[z k] l IH]; cbn.
  - destruct (String.eqb x y); auto. destruct (member x r) as [[|]|]; auto.
  - destruct (String.eqb x z); auto. destruct IH as [-> | [-> ->]]; auto.
Qed.

Lemma member_order x ms ms' : Permutation ms ms' -> member x ms = member x ms'.
Proof.
  induction 1 as [|[y j] l l' P IH|[y j] [z k] l|l l' l'' P1 IH1 P2 IH2]; cbn; auto.
  - now rewrite IH.
  - destruct (String.eqb x y), (String.eqb x z); auto. now destruct (member x l) as [[|]|].
  - congruence.
Qed.

Lemma stable_struct (fs : list field_reader) :
  Forall (fun f : field_reader => stable (snd f)) fs -> stable (json_struct fs).
Proof.
  intros S. apply stable_by.
  - intros l j j' r R. unfold json_struct. f_equal.
    revert l. induction fs as [|f fs IH]; intros l; [now destruct l|]. inversion S; subst.
    destruct l as [|k l]; cbn.
    + now rewrite (H1 j j' R).
    + now rewrite (IH H2).
  - intros l x j j' r R. cbn. do 2 f_equal. apply map_ext_in. intros f I. rewrite Forall_forall in S.
    destruct (member_replace (fst (fst f)) l x j j' r) as [-> | [-> ->]]; auto. now apply S.
  - intros ms ms' P. cbn. do 2 f_equal. apply map_ext. intros f. now rewrite (member_order _ _ _ P).
Qed.

Lemma variant_in {A} x (vs : list (string * (option json -> option A))) f :
  variant_of x vs = Some f -> exists y, In (y, f) vs.
Proof.
  induction vs as [|[y g] vs IH]; cbn; [discriminate|]. destruct (text_eqb x (text_of y)).
  - intros H. injection H as ->. eauto.
  - intros H. destruct (IH H) as (z & I). eauto.
Qed.

Lemma stable_variant {A} (vs : list (string * (option json -> option A))) :
  Forall (fun p => stable (fun j => snd p (Some j))) vs -> stable (json_variant vs).
Proof.
  intros S. apply stable_by; auto.
  - intros l x j j' r R. destruct l as [|[y k] [|]], r as [|[z k'] r]; cbn; auto.
    destruct (variant_of (text_of x) vs) as [f|] eqn:E; auto. apply variant_in in E as (y & I).
    rewrite Forall_forall in S. exact (S _ I j j' R).
  - intros ms ms' P. destruct ms as [|a [|b ms]].
    + apply Permutation_nil in P as ->. auto.
    + apply Permutation_length_1_inv in P as ->. auto.
    + pose proof (Permutation_length P) as L. destruct ms' as [|[a1 a2] [|b' ms']]; cbn in L; try discriminate.
      destruct a. reflexivity.
Qed.

Lemma stable_unit {A} (a : A) : stable (fun j => unit_variant a (Some j)).
Proof.
  intros j j' R. pose proof (reordered_null _ _ R) as N. unfold unit_variant.
  destruct j, j'; auto; exfalso; destruct N as [N1 N2];
    try (specialize (N1 eq_refl); discriminate); specialize (N2 eq_refl); discriminate.
Qed.

Lemma stable_int w sg : stable (json_int w sg).
Proof. apply stable_by; auto. Qed.

Lemma stable_bind {A B} (f : json -> option A) (g : option A -> option B) :
  stable f -> stable (fun j => g (f j)).
Proof. intros S j j' R. now rewrite (S j j' R). Qed.

Theorem from_json_stable : forall s, stable (from_json s).
Proof.
  induction s using schema_ind2; cbn [from_json].
  - apply stable_int.
  - apply stable_by; auto.
  - apply stable_variant. apply Forall_forall. intros p I. apply in_map_iff in I as ([t x] & <- & _).
    apply stable_unit.
  - unfold json_bits. refine (stable_bind (json_struct _) (fun o => match o with
      | Some (VStruct [VArr vs]) => Some (VInt (le_val (map int_of_val vs))) | _ => None end) _).
    apply stable_struct. repeat constructor. cbn.
    refine (stable_bind (json_list (json_int 1 false)) (fun o => match o with
      | Some vs => if zlen vs =? w then Some (VArr vs) else None | None => None end) _).
    apply stable_list, stable_int.
  - intros j j' R. pose proof (reordered_null _ _ R) as N.
    destruct j, j'; auto; exfalso; destruct N as [N1 N2];
      try (specialize (N1 eq_refl); discriminate); specialize (N2 eq_refl); discriminate.
  - apply stable_struct. rewrite Forall_forall in *. intros f I. apply in_map_iff in I as (p & <- & I). exact (H _ I).
  - exact (stable_bind (from_json s) (fun o => match o with Some v => Some (VStruct [v]) | None => None end) IHs).
  - now apply stable_ptr.
  - now apply stable_ptr.
  - exact (stable_bind _ (option_map VArr) (stable_list _ IHs)).
  - apply stable_by; auto.
  - apply stable_by; auto.
  - refine (stable_bind (json_struct _) (fun o => match o with
      | Some (VStruct [v]) => Some v | _ => None end) _).
    apply stable_struct. repeat constructor. cbn. apply stable_ptr, stable_variant.
    rewrite Forall_forall in *. intros f I. apply in_map_iff in I as (p & <- & I). cbn.
    exact (stable_bind (from_json (snd p)) (fun o => match o with
      | Some v => Some (VCase (fst (fst p)) (VStruct [v])) | None => None end) (H _ I)).
  - exact (stable_bind _ (fun o => match o with
      | Some vs => if zlen vs =? n then Some (VArr vs) else None | None => None end) (stable_list _ IHs)).
  - apply stable_by; auto.
  - apply stable_by; auto.
  - apply stable_variant.
    rewrite Forall_forall in *. intros f I. apply in_map_iff in I as (p & <- & I). cbn.
    exact (stable_bind (from_json (snd p)) (fun o => match o with
      | Some v => Some (VCase (fst (fst p)) v) | None => None end) (H _ I)).
  - intros j j' R. pose proof (reordered_null _ _ R) as N. rewrite (IHs j j' R).
    destruct j, j'; auto; exfalso; destruct N as [N1 N2];
      try (specialize (N1 eq_refl); discriminate); specialize (N2 eq_refl); discriminate.
Qed.

Theorem read_document_stable j j' : reordered j j' -> read_document j = read_document j'.
Proof.
  intros R. assert (stable ssbh_from_json) as S.
  { apply stable_variant. apply Forall_forall. intros p I. apply in_map_iff in I as (k & <- & _). cbn.
    apply stable_variant. apply Forall_forall. intros p I. apply in_map_iff in I as (e & <- & _). cbn.
    exact (stable_bind (from_json (snd (snd e))) (fun o => match o with
      | Some v => Some (mkFile k (fst e) v) | None => None end) (from_json_stable _)). }
  unfold read_document, meshex_from_json, adj_from_json.
  now rewrite (S _ _ R), !(from_json_stable _ _ _ R).
Qed.

(** Members that are not fields are ignored. *)
Lemma member_other x l y j r : x <> y -> member x (l ++ (y, j) :: r) = member x (l ++ r).
Proof.
  intros N. induction l as [|[z k] l IH]; cbn.
  - now destruct (String.eqb_spec x y).
  - now rewrite IH.
Qed.

Theorem unknown_member fs l x j r :
  ~ In x (map fst fs) ->
  from_json (SStruct fs) (JObj (l ++ (x, j) :: r)) = from_json (SStruct fs) (JObj (l ++ r)).
Proof.
  intros N. cbn. do 2 f_equal. apply map_ext_in. intros f I. apply in_map_iff in I as (p & <- & I). cbn.
  rewrite member_other; auto. intros E. apply N. rewrite <- E. now apply in_map.
Qed.

Lemma opt_all_none {A} (l : list (option A)) : In None l -> opt_all l = None.
Proof.
  induction l as [|[a|] l IH]; cbn; intros I; [destruct I| |auto].
  destruct I as [I|I]; [discriminate|]. now rewrite IH.
Qed.

Theorem missing_member fs x s ms :
  In (x, s) fs -> ~ In x (map fst ms) ->
  from_json (SStruct fs) (JObj ms) <> None -> (exists s', s = SAbs s') \/ (exists nul d s', s = SDef nul d s').
Proof.
  intros I N H. destruct s; try (exfalso; apply H; cbn; rewrite opt_all_none; [reflexivity|];
    apply in_map_iff; eexists; split; [|apply in_map_iff; eexists; split; [reflexivity|exact I]];
    cbn; now rewrite member_notin); eauto 10.
Qed.

Lemma member_twice x a b c j k : member x (a ++ (x, j) :: b ++ (x, k) :: c) = None.
Proof.
  assert (forall l, member x (l ++ (x, k) :: c) <> Some None) as E.
  { induction l as [|[z i] l IH]; cbn.
    - rewrite String.eqb_refl. now destruct (member x c) as [[|]|].
    - destruct (String.eqb x z); auto. now destruct (member x _) as [[|]|]. }
  induction a as [|[z i] a IH]; cbn.
  - rewrite String.eqb_refl. specialize (E b). now destruct (member x (b ++ (x, k) :: c)) as [[|]|].
  - rewrite IH. now destruct (String.eqb x z).
Qed.

Theorem repeated_member fs x a b c j k :
  In x (map fst fs) -> from_json (SStruct fs) (JObj (a ++ (x, j) :: b ++ (x, k) :: c)) = None.
Proof.
  intros I. apply in_map_iff in I as (p & <- & I). cbn. rewrite opt_all_none; [reflexivity|].
  apply in_map_iff. eexists. split; [|apply in_map_iff; eexists; split; [reflexivity|exact I]].
  cbn. now rewrite member_twice.
Qed.
