(** Forms derived from any declarations are well formed. *)
From Coq Require Import Lia.
From Verif Require Import Bytes Ssbh Derive Elab Items SerdeItems Formats File Json JsonSchema JsonFacts JsonSpec JsonRound
  JsonDoc DataJson Serde SerdeSpec.
From Coq Require Import List.
Import ListNotations.
Open Scope string_scope.
Open Scope Z_scope.

Lemma nodupb_true {A} (eqb : A -> A -> bool) l :
  (forall a b, eqb a b = true <-> a = b) -> NoDup l -> nodupb eqb l = true.
Proof.
  intros E. induction 1 as [|a l N _ IH]; cbn; auto. rewrite IH, andb_true_r.
  apply negb_true_iff. destruct (existsb (eqb a) l) eqn:X; auto. apply existsb_exists in X as (b & I & X).
  apply E in X as ->. contradiction.
Qed.
Lemma ints l : NoDup l -> nodupb Z.eqb l = true.
Proof. apply nodupb_true, Z.eqb_eq. Qed.
Lemma texts l : NoDup l -> nodupb String.eqb l = true.
Proof. apply nodupb_true, String.eqb_eq. Qed.

Lemma forallb_and {A} (f g : A -> bool) l : forallb (fun x => f x && g x) l = forallb f l && forallb g l.
Proof. induction l; cbn; auto. rewrite IHl. destruct (f a), (g a), (forallb f l); cbn; auto. Qed.
Lemma forallb_same {A} (f g : A -> bool) l : Forall (fun x => f x = g x) l -> forallb f l = forallb g l.
Proof. induction 1; cbn; congruence. Qed.

Lemma sch_ok_split s : sch_ok s = names_ok s && null_once s.
Proof.
  induction s using schema_ind2; cbn [sch_ok names_ok null_once]; rewrite ?andb_true_r; auto;
    try (rewrite IHs; destruct (names_ok s), (null_once s), (no_float s); reflexivity).
  - rewrite (forallb_same _ (fun p => names_ok (snd p) && null_once (snd p))), forallb_and by auto.
    now rewrite andb_assoc.
  - rewrite (forallb_same _ (fun p => names_ok (snd p) && null_once (snd p))), forallb_and by auto.
    now rewrite andb_assoc.
  - rewrite (forallb_same _ (fun p => names_ok (snd p) && null_once (snd p))), forallb_and by auto.
    now rewrite andb_assoc.
  - rewrite IHs. destruct (names_ok s), (null_once s), (negb nul || plain s); reflexivity.
Qed.

Lemma omap_map {A B C} (f : A -> option B) (g : B -> C) (h : A -> C) l l' :
  (forall a b, In a l -> f a = Some b -> g b = h a) -> omap f l = Some l' -> map g l' = map h l.
Proof.
  revert l'. induction l as [|a l IH]; cbn; intros l' H E; [now injection E as <-|].
  destruct (f a) as [b|] eqn:F; [|discriminate]. destruct (omap f l) as [m|]; [|discriminate]. injection E as <-.
  cbn. f_equal; auto.
Qed.
Lemma omap_all {A B} (f : A -> option B) (P : B -> bool) l l' :
  (forall a b, f a = Some b -> P b = true) -> omap f l = Some l' -> forallb P l' = true.
Proof.
  intros H. revert l'. induction l as [|a l IH]; cbn; intros l' E; [now injection E as <-|].
  destruct (f a) as [b|] eqn:F; [|discriminate]. destruct (omap f l) as [m|]; [|discriminate]. injection E as <-.
  cbn. rewrite (H _ _ F). now apply IH.
Qed.

Lemma combine_fst {A B} (l : list A) (m : list B) : List.length l = List.length m -> map fst (combine l m) = l.
Proof. revert m. induction l; intros [|b m] H; cbn in *; try discriminate; auto. f_equal. auto. Qed.
Lemma combine_snd {A B} (l : list A) (m : list B) : List.length l = List.length m -> map snd (combine l m) = m.
Proof. revert m. induction l; intros [|b m] H; cbn in *; try discriminate; auto. f_equal. auto. Qed.
Lemma discriminants_length vs : forall n, List.length (discriminants n vs) = List.length vs.
Proof. induction vs; intros n; cbn; auto. Qed.
Lemma numbered_fst {A} (l : list A) : forall n x, In x (map fst (numbered n l)) -> n <= x.
Proof. induction l; cbn; intros n x H; [contradiction|]. destruct H as [<-|H]; [lia|]. apply IHl in H. lia. Qed.
Lemma numbered_nodup {A} (l : list A) : forall n, NoDup (map fst (numbered n l)).
Proof.
  induction l; cbn; intros n; constructor; auto. intros H. apply numbered_fst in H. lia.
Qed.
Lemma numbered_snd {A} (l : list A) : forall n, map snd (numbered n l) = l.
Proof. induction l; cbn; intros n; auto. f_equal. auto. Qed.
Lemma kept_nodup fs : NoDup (map f_name fs) -> NoDup (map f_name (kept_fields fs)).
Proof.
  unfold kept_fields. induction fs as [|f fs IH]; cbn; intros H; auto. inversion H; subst.
  destruct (negb _); cbn; auto. constructor; auto. intros I. apply in_map_iff in I as (g & E & I).
  apply filter_In in I as [I _]. apply H2. rewrite <- E. now apply in_map.
Qed.
Lemma find_in x ds d : find_decl x ds = Some d -> In d ds.
Proof.
  induction ds as [|e ds IH]; cbn; [discriminate|]. destruct (x =? decl_name e)%string; [injection 1 as ->|]; auto.
Qed.

Section any.
Context (ds : list decl) (default : string -> option (list val)) (reader : list Z -> option (schema -> schema)).
Hypothesis declared : Forall accepted ds.
Hypothesis reading : forall name g s, reader name = Some g -> names_ok s = true -> names_ok (g s) = true.

Lemma field_ok f d s s' : names_ok s = true -> field_schema reader f d s = Some s' -> names_ok s' = true.
Proof.
  intros O. unfold field_schema. destruct (reader_name (f_attrs f)) as [name|].
  - destruct (reader name) as [g|] eqn:G; [|discriminate]. cbn [option_map]. pose proof (reading _ _ _ G O) as O'.
    destruct d; [injection 1 as <-; exact O'|]. destruct (has_word _ _ _); [|injection 1 as <-; exact O'].
    destruct (default_of s); [|discriminate]. injection 1 as <-. exact O'.
  - destruct d; [injection 1 as <-; exact O|]. destruct (has_word _ _ _); [|injection 1 as <-; exact O].
    destruct (default_of s); [|discriminate]. injection 1 as <-. exact O.
Qed.
Lemma defaults_fields it fs l : with_defaults default it fs = Some l -> map fst l = fs.
Proof.
  unfold with_defaults. destruct (has_word _ _ _).
  - destruct (default (i_name it)) as [vs|]; [|discriminate]. destruct (Nat.eqb _ _) eqn:E; [|discriminate].
    injection 1 as <-. apply combine_fst. rewrite map_length. symmetry. now apply Nat.eqb_eq.
  - injection 1 as <-. rewrite map_map. cbn. apply map_id.
Qed.
Lemma struct_ok it fs l r (field : fld -> option schema) :
  (forall f s, field f = Some s -> names_ok s = true) -> NoDup (map f_name fs) ->
  with_defaults default it fs = Some l ->
  omap (fun p => match field (fst p) with
                 | Some s => option_map (pair (f_name (fst p))) (field_schema reader (fst p) (snd p) s)
                 | None => None
                 end) l = Some r -> names_ok (SStruct r) = true.
Proof.
  intros F N D E. cbn [names_ok]. apply andb_true_iff. split.
  - apply texts. rewrite (omap_map _ fst (fun p => f_name (fst p)) _ _) with (2 := E).
    + rewrite <- map_map, (defaults_fields _ _ _ D). exact N.
    + intros a b _ H. destruct (field (fst a)); [|discriminate]. destruct (field_schema _ _ _ _); [|discriminate].
      now injection H as <-.
  - refine (omap_all _ (fun p => names_ok (snd p)) _ _ _ E). intros a b H. destruct (field (fst a)) as [s|] eqn:X; [|discriminate].
    destruct (field_schema _ _ _ _) as [s'|] eqn:Y; [|discriminate]. injection H as <-. cbn. eapply field_ok; eauto.
Qed.

Lemma derived_ok fuel :
  (forall t s, serde ds default reader fuel t = Some s -> names_ok s = true) /\
  (forall x args s, serde_decl ds default reader fuel x args = Some s -> names_ok s = true).
Proof.
  induction fuel as [|k [IHt IHd]]; [split; discriminate|]. split.
  - intros t s. cbn [serde]. destruct t as [x args|t n| |n].
    + assert (forall c t', (forall s', names_ok (c s') = names_ok s') -> option_map c (serde ds default reader k t') = Some s -> names_ok s = true) as M.
      { intros c t' C. destruct (serde ds default reader k t') as [s'|] eqn:E; [|discriminate]. injection 1 as <-.
        rewrite C. eauto. }
      assert (option_map SCase None = Some s -> names_ok s = true) as No by discriminate.
      destruct args as [|a args].
      { destruct (serde_prim x) as [s'|] eqn:P; [|apply IHd]. injection 1 as <-. revert P. unfold serde_prim.
        repeat match goal with |- context [if ?b then _ else _] => destruct b end; try discriminate; injection 1 as <-; reflexivity. }
      destruct args as [|b args].
      * assert ((if x =? "RelPtr64" then option_map SRel (serde ds default reader k a)
              else if x =? "Option" then option_map SAbs (serde ds default reader k a)
              else if (x =? "SsbhArray") || (x =? "Vec") then option_map SArr (serde ds default reader k a)
              else if x =? "SsbhEnum64" then
                match a with
                | RPath e [] =>
                    match find_decl e ds with
                    | Some (DeclCase _ vs) =>
                        option_map SCase
                          (omap (fun y => option_map (fun s => (fst y, fst (snd y), s)) (serde ds default reader k (snd (snd y)))) vs)
                    | _ => None
                    end
                | _ => None
                end
              else serde_decl ds default reader k x [a])%string = Some s -> names_ok s = true) as One.
        { destruct (x =? "RelPtr64")%string; [now apply M|]. destruct (x =? "Option")%string; [now apply M|].
          destruct ((x =? "SsbhArray") || (x =? "Vec"))%string; [now apply M|].
          destruct (x =? "SsbhEnum64")%string; [|apply IHd].
          destruct a as [e [|? ?]| | |]; try discriminate. destruct (find_decl e ds) as [[| | |n vs]|] eqn:F; try discriminate.
          pose proof (proj1 (Forall_forall _ _) declared _ (find_in _ _ _ F)) as [A1 A2].
          destruct (omap _ vs) as [l|] eqn:E; [|discriminate]. injection 1 as <-. cbn [names_ok].
          apply andb_true_iff. split; [apply andb_true_iff; split|].
          - apply ints. rewrite (omap_map _ _ (fun y => fst y) _ _) with (2 := E); [exact A1|].
            intros y p _ H. destruct (serde _ _ _ k _); [|discriminate]. now injection H as <-.
          - apply texts. rewrite (omap_map _ _ (fun y => fst (snd y)) _ _) with (2 := E); [exact A2|].
            intros y p _ H. destruct (serde _ _ _ k _); [|discriminate]. now injection H as <-.
          - refine (omap_all _ (fun p => names_ok (snd p)) _ _ _ E). intros y p H.
            destruct (serde _ _ _ k (snd (snd y))) as [s'|] eqn:X; [|discriminate]. injection H as <-. cbn. eauto. }
        destruct a; try exact One. destruct (x =? "CString")%string; [injection 1 as <-; reflexivity|apply IHd].
      * assert ((if x =? "Ptr" then option_map SAbs (serde ds default reader k b) else serde_decl ds default reader k x [a; b])%string = Some s -> names_ok s = true) as Two.
        { destruct (x =? "Ptr")%string; [now apply M|apply IHd]. }
        destruct args; [destruct a; exact Two|destruct a; apply IHd].
    + destruct (serde ds default reader k t) as [s'|] eqn:E; [|discriminate]. injection 1 as <-. cbn. eauto.
    + injection 1 as <-. reflexivity.
    + discriminate.
  - intros x args s. cbn [serde_decl]. destruct (find_decl x ds) as [[it|n ps t|n w|n vs]|] eqn:F; try discriminate;
      pose proof (proj1 (Forall_forall _ _) declared _ (find_in _ _ _ F)) as A; cbn [accepted] in A.
    + set (field := fun f : fld => serde ds default reader k (subst (combine (i_params it) args) (f_ty f))).
      change (fun f : fld => serde ds default reader k (subst (combine (i_params it) args) (f_ty f))) with field.
      assert (forall f s, field f = Some s -> names_ok s = true) as Fd by (intros f s'; apply IHt).
      destruct (i_data it) as [[fs|[|f [|? ?]]|]|vs|]; try discriminate.
      * assert (match with_defaults default it (kept_fields fs) with
                | Some l => option_map SStruct (omap (fun p => match field (fst p) with
                              | Some s => option_map (pair (f_name (fst p))) (field_schema reader (fst p) (snd p) s)
                              | None => None end) l)
                | None => None
                end = Some s -> names_ok s = true) as St.
        { destruct (with_defaults _ _ _) as [l|] eqn:D; [|discriminate]. destruct (omap _ l) as [r|] eqn:E; [|discriminate].
          injection 1 as <-. exact (struct_ok _ _ _ _ _ Fd (kept_nodup _ A) D E). }
        destruct (if has_word _ _ _ then _ else _) as [|f [|? ?]]; [exact St|apply Fd|exact St].
      * change (option_map SWrap (field f) = Some s -> names_ok s = true).
        destruct (field f) as [s'|] eqn:E; [|discriminate]. injection 1 as <-. cbn. eauto.
      * destruct A as [A1 A2]. destruct (forallb is_unit vs).
        { injection 1 as <-. cbn [names_ok]. rewrite combine_fst, combine_snd by (rewrite map_length, discriminants_length; auto).
          now rewrite ints, texts. }
        destruct (omap _ (numbered 0 vs)) as [l|] eqn:E; [|discriminate]. injection 1 as <-. cbn [names_ok].
        apply andb_true_iff. split; [apply andb_true_iff; split|].
        -- apply ints. rewrite (omap_map _ _ (fun y => fst y) _ _) with (2 := E); [apply numbered_nodup|].
           intros y p _ H. destruct (v_fields (snd y)) as [|[|f [|? ?]]|]; try discriminate.
           match type of H with option_map _ ?x = _ => change x with (field f) in H end. destruct (field f); [|discriminate]. injection H as <-. reflexivity.
        -- apply texts. rewrite (omap_map _ _ (fun y => v_name (snd y)) _ _) with (2 := E).
           ++ rewrite <- (map_map snd v_name), numbered_snd. exact A1.
           ++ intros y p _ H. destruct (v_fields (snd y)) as [|[|f [|? ?]]|]; try discriminate.
              match type of H with option_map _ ?x = _ => change x with (field f) in H end. destruct (field f); [|discriminate]. injection H as <-. reflexivity.
        -- refine (omap_all _ (fun p => names_ok (snd p)) _ _ _ E). intros y p H.
           destruct (v_fields (snd y)) as [|[|f [|? ?]]|]; try discriminate.
           match type of H with option_map _ ?x = _ => change x with (field f) in H end. destruct (field f) as [s'|] eqn:X; [|discriminate]. injection H as <-. cbn. eauto.
    + apply IHt.
    + injection 1 as <-. cbn. now apply Z.ltb_lt.
Qed.

Theorem derived_roundtrip fuel t s v :
  serde ds default reader fuel t = Some s -> null_once s = true -> sty s v = true ->
  (from_json s (to_json s v) = Some v <-> representable s v).
Proof.
  intros E N T. apply json_value_iff; auto. rewrite sch_ok_split, N, andb_true_r. now apply (derived_ok fuel) in E.
Qed.
End any.

(** ** The declarations of the repository *)
Definition declarations : list decl := (items ++ serde_items)%list.
Notation derived := (serde declarations repo_defaults repo_readers).

Lemma files_derived : serde_file declarations repo_defaults repo_readers 30 =
  Some (map (fun k => (kind_name k, read_magic k, schemas k)) kinds).
Proof. vm_compute. reflexivity. Qed.
Lemma others_derived :
  derived 30%nat (RPath "meshex::MeshEx" []) = Some s_meshex_MeshEx /\ derived 30%nat (RPath "adj::Adj" []) = Some s_adj_Adj.
Proof. split; vm_compute; reflexivity. Qed.
Lemma data_derived k : derived 30%nat (data_type k) = Some (data_schema k).
Proof. destruct k; vm_compute; reflexivity. Qed.

Definition acceptedb (d : decl) : bool :=
  match d with
  | DeclItem it =>
      match i_data it with
      | DStruct (FNamed fs) => nodupb String.eqb (map f_name fs)
      | DEnum vs => nodupb String.eqb (map v_name vs) && nodupb Z.eqb (discriminants 0 vs)
      | _ => true
      end
  | DeclAlias _ _ _ => true
  | DeclBits _ w => 0 <? w
  | DeclCase _ vs => nodupb Z.eqb (map fst vs) && nodupb String.eqb (map (fun x => fst (snd x)) vs)
  end.
Lemma acceptedb_spec d : acceptedb d = true -> accepted d.
Proof.
  assert (forall l, nodupb String.eqb l = true -> NoDup l) as T by (intros l; apply nodupb_spec, String.eqb_eq).
  assert (forall l, nodupb Z.eqb l = true -> NoDup l) as I by (intros l; apply nodupb_spec, Z.eqb_eq).
  destruct d as [it| |n w|n vs]; cbn [acceptedb accepted]; auto.
  - destruct (i_data it) as [[fs|fs|]|vs|]; auto. intros H. apply andb_true_iff in H as [H1 H2]. auto.
  - apply Z.ltb_lt.
  - intros H. apply andb_true_iff in H as [H1 H2]. auto.
Qed.
Lemma declarations_accepted : Forall accepted declarations.
Proof.
  assert (forallb acceptedb declarations = true) as H by (vm_compute; reflexivity).
  apply Forall_forall. intros d I. apply acceptedb_spec. now apply (proj1 (forallb_forall _ _) H).
Qed.
Lemma readers_ok name g s : repo_readers name = Some g -> names_ok s = true -> names_ok (g s) = true.
Proof. unfold repo_readers. destruct (text_eqb _ _); [|discriminate]. now injection 1 as <-. Qed.
