(** JSON documents read back: the main induction. *)
From Coq Require Import Lia ZifyBool ZifyNat ZifyN Permutation.
From Verif Require Import Bytes BytesFacts Ssbh Formats Strings Float32 File MeshEx Json JsonSchema JsonFile JsonSpec JsonFacts.
Ltac Zify.zify_post_hook ::= ZifyBool.elim_bool_cstr; Z.to_euclidean_division_equations.

Lemma ptr_roundtrip s v :
  sch_ok s = true -> no_float s = true -> sty s v = true ->
  from_json s (to_json s v) = (if floats s v then Some (clean s v) else None) ->
  (nullish s v = true -> floats s v = true) ->
  json_ptr (from_json s) (to_json s v) =
  if floats s v then Some (if nullish s v then VPtr None else VPtr (Some (clean s v))) else None.
Proof.
  intros O NF T IH NU. destruct (nullish s v) eqn:N.
  - rewrite NU by auto. apply nullish_null in N; auto. now rewrite N.
  - assert (to_json s v <> JNull) as X. { intros E. apply nullish_null in E; auto. congruence. }
    unfold json_ptr. rewrite IH. destruct (to_json s v); try congruence; now destruct (floats s v).
Qed.

Lemma nullish_floats : forall s v, no_float s = true -> sch_ok s = true -> nullish s v = true -> floats s v = true.
Proof.
  induction s using schema_ind2; intros v NF O N; cbn in N;
    [..|cbn in O; apply andb_true_iff in O as [_ O]; specialize (IHs v NF O N); unfold floats in *; cbn; now rewrite IHs];
    destruct v; try discriminate; try reflexivity.
  - destruct vs as [|v [|]]; try discriminate. cbn in O. apply andb_true_iff in O as [O1 O2].
    specialize (IHs v O1 O2 N). unfold floats in *. cbn. now rewrite IHs.
  - destruct o as [v|]; [|reflexivity]. cbn in O. apply andb_true_iff in O as [O1 O2].
    specialize (IHs v O1 O2 N). unfold floats in *. cbn. now rewrite IHs.
  - destruct o as [v|]; [|reflexivity]. cbn in O. apply andb_true_iff in O as [O1 O2].
    specialize (IHs v O1 O2 N). unfold floats in *. cbn. now rewrite IHs.
Qed.

(** Struct fields *)
Definition tys (fs : list (string * schema)) (vs : list val) : Prop :=
  Forall2 (fun p v => sty (snd p) v = true) fs vs.

Lemma sty_struct fs vs : sty (SStruct fs) (VStruct vs) = true <-> tys fs vs.
Proof.
  unfold tys. cbn. revert vs. induction fs as [|[x s] fs IH]; intros [|v vs]; split; intros H;
    try discriminate; try (now inversion H); try constructor; auto.
  - now apply andb_true_iff in H as [H _].
  - apply IH. now apply andb_true_iff in H as [_ H].
  - inversion H; subst. apply andb_true_iff. split; auto. now apply IH.
Qed.

Lemma tys_length fs vs : tys fs vs -> List.length fs = List.length vs.
Proof. induction 1; cbn; auto. Qed.

Lemma map2_keys {A B} (f : (string * A) -> B -> json) fs vs :
  List.length fs = List.length vs ->
  map fst (map2 (fun p v => (fst p, f p v)) fs vs) = map fst fs.
Proof. revert vs. induction fs; intros [|v vs] H; cbn in *; try discriminate; auto. f_equal. auto. Qed.

Lemma struct_roundtrip (fs : list field_reader) ks (g : field_reader -> json -> option val) ms :
  NoDup (map fst ms) -> map fst ms = map (fun f : field_reader => fst (fst f)) fs ->
  ks = map2 (fun (f : field_reader) (m : string * json) => snd f (snd m)) fs ms ->
  json_struct fs (JObj ms) = option_map VStruct (opt_all ks).
Proof.
  intros N E ->. cbn. do 2 f_equal.
  assert (forall fs' ms', map fst ms' = map (fun f : field_reader => fst (fst f)) fs' ->
            (forall m, In m ms' -> In m ms) ->
            map (fun f : field_reader => match member (fst (fst f)) ms with
                       | Some (Some j') => snd f j' | Some None => absent false f | None => None end) fs' =
            map2 (fun (f : field_reader) (m : string * json) => snd f (snd m)) fs' ms') as X; [|auto].
  induction fs' as [|f fs' IH]; intros [|[x j] ms'] E' I; cbn in *; try discriminate; auto.
  injection E' as E1 E2. f_equal; [|auto].
  rewrite <- E1. rewrite (member_in x j) by auto. reflexivity.
Qed.

Lemma opt_all_map2 {A B C} (f : A -> B -> option C) (g : A -> B -> C) (c : A -> B -> bool) l m :
  Forall2 (fun a b => f a b = if c a b then Some (g a b) else None) l m ->
  opt_all (map2 f l m) =
  if forallb (fun x => x) (map2 c l m) then Some (map2 g l m) else None.
Proof.
  induction 1 as [|a b l m H F IH]; auto. change (opt_all (f a b :: map2 f l m) =
    if c a b && forallb (fun x => x) (map2 c l m) then Some (g a b :: map2 g l m) else None).
  rewrite H. destruct (c a b); auto. cbn [opt_all andb]. rewrite IH.
  now destruct (forallb (fun x => x) (map2 c l m)).
Qed.

Lemma map2_map_l {A A' B C} (h : A' -> A) (f : A -> B -> C) l m :
  map2 f (map h l) m = map2 (fun a b => f (h a) b) l m.
Proof. revert m. induction l; intros [|b m]; cbn; auto. f_equal. apply IHl. Qed.

Lemma map2_map2_r {A B C D} (h : A -> B -> D) (f : A -> D -> C) l m :
  map2 f l (map2 h l m) = map2 (fun a b => f a (h a b)) l m.
Proof. revert m. induction l; intros [|b m]; cbn; auto. f_equal. apply IHl. Qed.

Theorem roundtrip : forall s v,
  sch_ok s = true -> sty s v = true ->
  from_json s (to_json s v) = if floats s v then Some (clean s v) else None.
Proof.
  induction s using schema_ind2; intros v O T; cbn in O;
    [..|apply andb_true_iff in O as [N O]; cbn [from_json to_json];
        change (floats (SDef nul d s) v) with (floats s v); change (clean (SDef nul d s) v) with (clean s v);
        rewrite <- (IHs v O T); destruct nul; [|now destruct (to_json s v)];
        destruct s; try discriminate; destruct v; try discriminate;
        cbn in T; destruct (name_of_some _ _ T) as (x & E & _); cbn; now rewrite E];
    destruct v; cbn in T; try discriminate.
  - cbn. apply int_roundtrip; lia.
  - cbn. unfold floats. cbn. rewrite andb_true_r. unfold f32_json. now destruct (f32_finite n).
  - cbn. destruct (name_of_some _ _ T) as (x & E & I). rewrite E. cbn.
    apply andb_true_iff in O as [_ O]. apply nodupb_spec in O; [|apply String.eqb_eq].
    rewrite (variant_find x _ (unit_variant (VInt n))).
    + reflexivity.
    + rewrite map_map. cbn. exact O.
    + apply in_map_iff. now exists (n, x).
  - cbn. apply bits_roundtrip; lia.
  - destruct vs; [reflexivity|discriminate].
  - apply sty_struct in T. apply andb_true_iff in O as [O1 O2].
    apply nodupb_spec in O1; [|apply String.eqb_eq]. rewrite forallb_forall in O2.
    pose proof (tys_length _ _ T) as L. cbn [from_json to_json].
    erewrite struct_roundtrip.
    2: exact (fun _ _ => None).
    2: { rewrite (map2_keys (fun p v => to_json (snd p) v)) by auto. exact O1. }
    2: { rewrite (map2_keys (fun p v => to_json (snd p) v)) by auto. rewrite map_map. reflexivity. }
    2: reflexivity.
    rewrite map2_map_l, map2_map2_r. cbn [fst snd].
    rewrite (opt_all_map2 _ (fun p v => clean (snd p) v) (fun p v => floats (snd p) v)).
    + unfold floats at 2. cbn [parts forallb float_ok]. rewrite forallb_concat.
      assert (forall l m, forallb (forallb float_ok) (map2 (fun (p : string * schema) v => parts (snd p) v) l m) =
                forallb (fun x => x) (map2 (fun (p : string * schema) v => floats (snd p) v) l m)) as X.
      { induction l as [|a l IH]; intros [|b m]; cbn; auto. now rewrite <- IH. }
      rewrite X. cbn [andb clean]. now destruct (forallb (fun x => x) _).
    + clear L O1. rewrite Forall_forall in H.
      assert (forall l m, (forall p, In p l -> In p fs) -> tys l m ->
                Forall2 (fun p v => from_json (snd p) (to_json (snd p) v) =
                                    if floats (snd p) v then Some (clean (snd p) v) else None) l m) as X; [|auto].
      induction l as [|p l IH]; intros m I F; inversion F; subst; constructor; auto.
      * apply H; [auto with datatypes| |auto]. apply O2. auto with datatypes.
      * apply IH; auto with datatypes.
  - destruct vs as [|v [|]]; try discriminate. apply andb_true_iff in O as [_ O].
    cbn [from_json to_json]. rewrite IHs by auto. unfold floats at 2. cbn. fold (floats s v). now destruct (floats s v).
  - apply andb_true_iff in O as [O1 O2]. destruct o as [v|]; [|reflexivity].
    change (floats (SRel s) (VPtr (Some v))) with (floats s v).
    cbn [from_json to_json clean]. apply ptr_roundtrip; auto. intros N. now apply nullish_floats.
  - apply andb_true_iff in O as [O1 O2]. destruct o as [v|]; [|reflexivity].
    change (floats (SAbs s) (VPtr (Some v))) with (floats s v).
    cbn [from_json to_json clean]. apply ptr_roundtrip; auto. intros N. now apply nullish_floats.
  - cbn. rewrite map_map. rewrite forallb_forall in T.
    rewrite (opt_all_map _ (clean s) (floats s)) by auto.
    rewrite forallb_flat_map. change (fun a => forallb float_ok (parts s a)) with (floats s).
    now destruct (forallb (floats s) vs).
  - cbn. rewrite hex_roundtrip by auto. reflexivity.
  - cbn. unfold cstr_json, cstring_to_str. rewrite cstring_whole by auto. unfold floats. cbn.
    now destruct (utf8_valid bs).
  - destruct o as [v|]; [|reflexivity]. destruct v as [| | | | |tag v]; try discriminate.
    destruct v as [| |[|v [|]]| | |]; try discriminate.
    apply andb_true_iff in O as [O O3]. apply andb_true_iff in O as [O1 O2].
    apply nodupb_spec in O2; [|apply String.eqb_eq]. rewrite forallb_forall in O3. rewrite Forall_forall in H.
    assert (exists x s, In (tag, x, s) vs /\ sty s v = true /\
              to_json (SCase vs) (VPtr (Some (VCase tag (VStruct [v])))) =
                JObj [("data"%string, JObj [(x, to_json s v)])] /\
              floats (SCase vs) (VPtr (Some (VCase tag (VStruct [v])))) = floats s v /\
              clean (SCase vs) (VPtr (Some (VCase tag (VStruct [v])))) =
                VPtr (Some (VCase tag (VStruct [clean s v])))) as (x & s & I & T' & J & F & C).
    { clear -T. unfold floats. cbn. revert T. induction vs as [|[[t x] s] vs IH]; [discriminate|].
      destruct (tag =? t) eqn:E.
      - intros T. apply Z.eqb_eq in E as ->. exists x, s. auto with datatypes.
      - intros T. destruct (IH T) as (x' & s' & I & R). exists x', s'. auto with datatypes. }
    rewrite J, F, C. cbn [from_json]. unfold json_struct. cbn [map fst snd member].
    change (String.eqb "data" "data") with true. cbn iota beta. cbn [opt_all json_ptr json_variant].
    assert (from_json s (to_json s v) = if floats s v then Some (clean s v) else None) as IH.
    { apply (H (tag, x, s)); auto. }
    rewrite (variant_find x _ (newtype_variant (fun j' => match from_json s j' with
               | Some v => Some (VCase tag (VStruct [v])) | None => None end))).
    + cbn [newtype_variant]. rewrite IH. now destruct (floats s v).
    + rewrite map_map. cbn [fst]. exact O2.
    + apply in_map_iff. now exists (tag, x, s).
  - cbn. rewrite map_map. apply andb_true_iff in T as [T1 T2]. rewrite forallb_forall in T2.
    rewrite (opt_all_map _ (clean s) (floats s)) by auto.
    rewrite forallb_flat_map. change (fun a => forallb float_ok (parts s a)) with (floats s).
    destruct (forallb (floats s) vs); auto. cbn. unfold zlen in *. rewrite map_length. now rewrite T1.
  - reflexivity.
  - cbn. unfold bool_json. assert (n = 0 \/ n = 1) as [-> | ->] by lia; reflexivity.
  - apply andb_true_iff in O as [O O3]. apply andb_true_iff in O as [O1 O2].
    apply nodupb_spec in O2; [|apply String.eqb_eq]. rewrite forallb_forall in O3. rewrite Forall_forall in H.
    assert (exists x s, In (tag, x, s) vs /\ sty s v = true /\
              to_json (SEnum vs) (VCase tag v) = JObj [(x, to_json s v)] /\
              floats (SEnum vs) (VCase tag v) = floats s v /\
              clean (SEnum vs) (VCase tag v) = VCase tag (clean s v)) as (x & s & I & T' & J & F & C).
    { clear -T. unfold floats. cbn. revert T. induction vs as [|[[t x] s] vs IH]; [discriminate|].
      destruct (tag =? t) eqn:E.
      - intros T. apply Z.eqb_eq in E as ->. exists x, s. auto with datatypes.
      - intros T. destruct (IH T) as (x' & s' & I & R). exists x', s'. auto with datatypes. }
    rewrite J, F, C. cbn [from_json json_variant].
    assert (from_json s (to_json s v) = if floats s v then Some (clean s v) else None) as IH.
    { apply (H (tag, x, s)); auto. }
    rewrite (variant_find x _ (newtype_variant (fun j' => match from_json s j' with
               | Some v => Some (VCase tag v) | None => None end))).
    + cbn [newtype_variant]. rewrite IH. now destruct (floats s v).
    + rewrite map_map. cbn [fst]. exact O2.
    + apply in_map_iff. now exists (tag, x, s).
Qed.
