(** The texts of the documents the programs write: proofs. *)
From Coq Require Import Lia ZifyBool ZifyNat ZifyN Permutation.
From Verif Require Import Bytes BytesFacts Ssbh Formats Strings Float32 File MeshEx Json JsonSchema JsonFile JsonSpec JsonFacts
  JsonRound JsonDoc JsonTool DataJson DataJsonSpec DataJsonFacts DataJsonLoad DataJsonTool
  JsonText JsonTextSpec JsonTextFacts JsonTextWrite JsonTextUtf8 JsonTextFile.
Ltac Zify.zify_post_hook ::= ZifyBool.elim_bool_cstr; Z.to_euclidean_division_equations.
Open Scope Z_scope.
Open Scope list_scope.

#[local] Strategy opaque [file_write file_read meshex_write meshex_read adj_write adj_read].

(** ** How deep and of what the documents of a type are *)
Fixpoint depth (s : schema) : nat :=
  match s with
  | SBits _ => 2
  | SStruct fs => S (fold_right Nat.max O (map (fun p => depth (snd p)) fs))
  | SWrap s' | SRel s' | SAbs s' | SDef _ _ s' => depth s'
  | SArr s' | SFix _ s' => S (depth s')
  | SCase vs => S (S (fold_right Nat.max O (map (fun p => depth (snd p)) vs)))
  | SEnum vs => S (fold_right Nat.max O (map (fun p => depth (snd p)) vs))
  | _ => O
  end.
Fixpoint plain (s : schema) : bool :=
  match s with
  | SInt w _ => (0 <=? w) && (w <=? 8)
  | SName tags => forallb (fun p => utf8_valid (text_of (snd p))) tags
  | SStruct fs => forallb (fun p => utf8_valid (text_of (fst p)) && plain (snd p)) fs
  | SWrap s' | SRel s' | SAbs s' | SDef _ _ s' | SArr s' | SFix _ s' => plain s'
  | SCase vs | SEnum vs => forallb (fun p => utf8_valid (text_of (snd (fst p))) && plain (snd p)) vs
  | _ => true
  end.

Lemma max_in {A} (f : A -> nat) l a : In a l -> (f a <= fold_right Nat.max O (map f l))%nat.
Proof. induction l as [|b l IH]; intros []; cbn; [subst|specialize (IH H)]; lia. Qed.
Lemma max_le {A} (f : A -> nat) l n : (forall a, In a l -> (f a <= n)%nat) -> (fold_right Nat.max O (map f l) <= n)%nat.
Proof.
  induction l as [|b l IH]; intros H; cbn; [lia|]. assert (f b <= n)%nat by (apply H; cbn; auto).
  assert (fold_right Nat.max O (map f l) <= n)%nat by (apply IH; intros; apply H; cbn; auto). lia.
Qed.

Lemma map2_in {A B C} (f : A -> B -> C) l : forall m c, In c (map2 f l m) -> exists a b, In a l /\ In b m /\ c = f a b.
Proof.
  induction l as [|a l IH]; intros [|b m] c H; cbn in H; try tauto. destruct H as [<-|H]; [exists a, b; cbn; auto|].
  destruct (IH _ _ H) as (a' & b' & Ia & Ib & E). exists a', b'. cbn. auto.
Qed.

Lemma nesting_depth s : forall v, (nesting (to_json s v) <= depth s)%nat.
Proof.
  induction s as [w sg| |tags|w| |fs IH|s IH|s IH|s IH|s IH| | |vs IH|n s IH| | |vs IH|nul d s IH] using schema_ind2; intros v;
    try exact (IH v); destruct v; cbn [to_json]; unfold int_json, cstr_json, bool_json; try (cbn [nesting]; lia).
  - unfold f32_json. destruct (f32_finite n); cbn; lia.
  - destruct (name_of n tags); cbn; lia.
  - unfold bits_json. cbn [nesting depth snd map fold_right]. rewrite map_map.
    assert (fold_right Nat.max O (map (fun x => nesting (JInt x)) (le_bytes (Z.to_nat w) n)) <= 0)%nat by (apply max_le; intros; cbn; lia). lia.
  - cbn [nesting depth]. apply le_n_S. apply max_le. intros m I. apply map2_in in I as (p & v & Ip & _ & ->). cbn [snd].
    rewrite Forall_forall in IH. etransitivity; [apply (IH p Ip)|]. exact (max_in (fun p => depth (snd p)) fs p Ip).
  - destruct vs as [|v [|]]; try (cbn; lia). apply IH.
  - destruct o; [apply IH|cbn; lia].
  - destruct o; [apply IH|cbn; lia].
  - cbn [nesting depth]. apply le_n_S. rewrite map_map. apply max_le. intros v _. apply IH.
  - destruct o as [[| | | | |tag [| | vs'| | |]]|]; try (cbn; lia). destruct vs' as [|v' [|]]; try (cbn; lia).
    cbn [nesting depth snd map fold_right]. apply le_n_S.
    assert (H : forall l, (forall p, In p l -> In p vs) ->
      (nesting ((fix go (vs : list (Z * string * schema)) : json :=
                match vs with
                | [] => JNull
                | (t, x, s') :: r => if (tag =? t)%Z then JObj [(x, to_json s' v')] else go r
                end) l) <= S (fold_right Nat.max O (map (fun p => depth (snd p)) vs)))%nat).
    { induction l as [|[[t x] s'] l IHl]; intros H; [cbn; lia|]. destruct (tag =? t).
      - cbn [nesting snd map fold_right]. apply le_n_S. rewrite Forall_forall in IH. rewrite Nat.max_0_r.
        assert (I : In (t, x, s') vs) by (apply H; cbn; auto).
        etransitivity; [apply (IH _ I)|]. exact (max_in (fun p => depth (snd p)) vs _ I).
      - apply IHl. intros. apply H. cbn. auto. }
    specialize (H vs (fun p I => I)). lia.
  - cbn [nesting depth]. apply le_n_S. rewrite map_map. apply max_le. intros v _. apply IH.
  - cbn [depth].
    assert (H : forall l, (forall p, In p l -> In p vs) ->
      (nesting ((fix go (vs : list (Z * string * schema)) : json :=
                match vs with
                | [] => JNull
                | (t, x, s') :: r => if (tag =? t)%Z then JObj [(x, to_json s' v)] else go r
                end) l) <= S (fold_right Nat.max O (map (fun p => depth (snd p)) vs)))%nat).
    { induction l as [|[[t x] s'] l IHl]; intros H; [cbn; lia|]. destruct (tag =? t).
      - cbn [nesting snd map fold_right]. apply le_n_S. rewrite Forall_forall in IH. rewrite Nat.max_0_r.
        assert (I : In (t, x, s') vs) by (apply H; cbn; auto).
        etransitivity; [apply (IH _ I)|]. exact (max_in (fun p => depth (snd p)) vs _ I).
      - apply IHl. intros. apply H. cbn. auto. }
    exact (H vs (fun p I => I)).
Qed.

Lemma name_found n tags x : name_of n tags = Some x -> exists t, In (t, x) tags.
Proof.
  induction tags as [|[t y] tags IH]; cbn; [discriminate|]. destruct (n =? t); [intros H; injection H as ->; eauto|].
  intros H. destruct (IH H) as (t' & I). eauto.
Qed.

Lemma hex_ascii bs : bytes_ok bs = true -> ascii_text (hex_encode bs).
Proof.
  unfold bytes_ok, hex_encode. induction bs as [|b bs IH]; intros H; [constructor|]. cbn [forallb flat_map app] in *.
  apply andb_true_iff in H as [B H]. unfold is_byte in B.
  constructor; [unfold hex_digit; destruct (b / 16 <? 10) eqn:?; lia|].
  constructor; [unfold hex_digit; destruct (b mod 16 <? 10) eqn:?; lia|]. exact (IH H).
Qed.

Lemma pow256_8 w : 0 <= w <= 8 -> 0 < 256 ^ w <= 2 ^ 64.
Proof.
  intros B. split; [apply Z.pow_pos_nonneg; lia|]. change (2 ^ 64) with (256 ^ 8). apply Z.pow_le_mono_r; lia.
Qed.

Lemma tree_of_value s : forall v, plain s = true -> sty s v = true -> tree_ok (to_json s v) = true.
Proof.
  induction s as [w sg| |tags|w| |fs IH|s IH|s IH|s IH|s IH| | |vs IH|n s IH| | |vs IH|nul d s IH] using schema_ind2; intros v P T;
    try exact (IH v P T); destruct v; cbn in T; try discriminate T; cbn [to_json].
  - cbn in P. unfold int_json, tree_ok. pose proof (pow256_8 w ltac:(lia)) as B. unfold two64.
    set (x := 256 ^ w) in *. clearbody x. destruct (sg && (x / 2 <=? n)) eqn:E; lia.
  - unfold f32_json. destruct (f32_finite n); [|reflexivity]. cbn [tree_ok]. change (256 ^ 4) with (2 ^ 32) in T. exact T.
  - destruct (name_of n tags) as [x|] eqn:E; auto. apply name_found in E as (t & I). cbn in P. rewrite forallb_forall in P.
    exact (P _ I).
  - unfold bits_json. cbn. rewrite andb_true_r. apply forallb_forall. intros j I. apply in_map_iff in I as (b & <- & I).
    pose proof (le_bytes_ok (Z.to_nat w) n) as B. unfold bytes_ok in B. rewrite forallb_forall in B. specialize (B b I). unfold is_byte in B.
    cbn [tree_ok]. unfold two64. lia.
  - reflexivity.
  - cbn in P. rewrite Forall_forall in IH. rewrite forallb_forall in P. apply sty_struct in T. cbn [tree_ok].
    apply forallb_forall. clear - IH P T. induction T as [|p v fs vs Tp T IHT]; intros m I; [destruct I|].
    cbn [map2] in I. destruct I as [<-|I].
    + specialize (P p (or_introl eq_refl)). apply andb_true_iff in P as [P1 P2]. cbn [fst snd]. rewrite P1. cbn.
      apply IH; auto. cbn. auto.
    + apply IHT; auto; intros; [apply IH|apply P]; cbn; auto.
  - destruct vs as [|v [|]]; try discriminate T. now apply IH.
  - destruct o; auto.
  - destruct o; auto.
  - cbn [tree_ok]. apply forallb_forall. intros j I. apply in_map_iff in I as (v & <- & I). rewrite forallb_forall in T. auto.
  - cbn [tree_ok]. now apply ascii_utf8, hex_ascii.
  - unfold cstr_json, cstring_to_str. cbn [tree_ok]. now destruct (utf8_valid (cstring_from_bytes bs)) eqn:E.
  - destruct o as [[| | | | |tag [| | vs'| | |]]|]; try discriminate T; auto. destruct vs' as [|v' [|]]; try discriminate T.
    cbn [tree_ok forallb fst snd]. rewrite andb_true_r. cbn [andb].
    cbn [plain] in P. rewrite Forall_forall in IH. rewrite forallb_forall in P. clear - IH P T.
    apply andb_true_iff. split; [reflexivity|].
    induction vs as [|[[t x] s'] vs IHv]; [reflexivity|]. destruct (tag =? t).
    + specialize (P _ (or_introl eq_refl)). apply andb_true_iff in P as [P1 P2]. cbn [fst snd] in *. cbn [tree_ok forallb fst snd].
      rewrite P1. cbn. rewrite andb_true_r. apply (IH (t, x, s')); cbn; auto.
    + apply IHv; auto; intros; [apply IH|apply P]; cbn; auto.
  - apply andb_true_iff in T as [_ T]. cbn [tree_ok]. apply forallb_forall. intros j I. apply in_map_iff in I as (v & <- & I).
    rewrite forallb_forall in T. auto.
  - exact T.
  - reflexivity.
  - cbn [plain] in P. rewrite Forall_forall in IH. rewrite forallb_forall in P. clear - IH P T.
    induction vs as [|[[t x] s'] vs IHv]; [reflexivity|]. destruct (tag =? t).
    + specialize (P _ (or_introl eq_refl)). apply andb_true_iff in P as [P1 P2]. cbn [fst snd] in *. cbn [tree_ok forallb fst snd].
      rewrite P1. cbn. rewrite andb_true_r. apply (IH (t, x, s')); cbn; auto.
    + apply IHv; auto; intros; [apply IH|apply P]; cbn; auto.
Qed.

Definition schema_fit (s : schema) : bool := plain s && Nat.ltb (depth s) 120.

Lemma ssbh_fit k : forallb (fun e => utf8_valid (text_of (fst (snd e))) && schema_fit (snd (snd e))) (schemas k) = true.
Proof. destruct k; vm_compute; reflexivity. Qed.
Lemma meshex_fit : schema_fit s_meshex_MeshEx = true. Proof. vm_compute. reflexivity. Qed.
Lemma adj_fit : schema_fit s_adj_Adj = true. Proof. vm_compute. reflexivity. Qed.
Lemma data_fit k : schema_fit (data_schema k) = true. Proof. destruct k; vm_compute; reflexivity. Qed.

Lemma fit_tree s v : schema_fit s = true -> sty s v = true ->
  tree_ok (to_json s v) = true /\ (nesting (to_json s v) < 120)%nat.
Proof.
  intros F T. unfold schema_fit in F. apply andb_true_iff in F as [P D]. apply Nat.ltb_lt in D. split; [now apply tree_of_value|].
  pose proof (nesting_depth s v). lia.
Qed.

Theorem document_tree d : document_ok d -> tree_ok (document_json d) = true /\ (nesting (document_json d) < 128)%nat.
Proof.
  destruct d as [f|x|x]; cbn [document_ok document_json]; intros H.
  - destruct (ssbh_roundtrip f H) as (_ & _ & T). destruct H as (t & F & W). destruct (format_schema _ _ _ F) as (x & s & E & I & _ & _).
    cbn [document_schema] in T. unfold ssbh_to_json. rewrite E in *. pose proof (ssbh_fit (fkind f)) as A. rewrite forallb_forall in A.
    specialize (A _ I). cbn [fst snd] in A. apply andb_true_iff in A as [A1 A2]. destruct (fit_tree _ _ A2 T) as [T1 T2].
    cbn [tree_ok forallb fst snd nesting map fold_right]. rewrite T1, A1. split; [|lia].
    destruct (fkind f); reflexivity.
  - destruct (fit_tree _ _ meshex_fit (meshex_sty x H)) as [T1 T2]. unfold meshex_to_json. split; auto. lia.
  - destruct (fit_tree _ _ adj_fit (adj_sty x H)) as [T1 T2]. unfold adj_to_json. split; auto. lia.
Qed.

Theorem data_tree d : typed_data d = true -> tree_ok (data_json d) = true /\ (nesting (data_json d) < 128)%nat.
Proof.
  intros T. destruct (fit_tree _ _ (data_fit _) (data_sty d T)) as [T1 T2]. unfold data_json. split; auto. lia.
Qed.

(** ** The programs *)
Lemma tree_back j : tree_ok j = true -> (nesting j < 128)%nat -> Forall float_kept (tree_floats j) ->
  utf8_valid (to_text j) = true /\ from_text (to_text j) = Some j.
Proof.
  intros T N F. split; [now apply to_text_utf8|]. rewrite text_roundtrip by now apply tree_printable.
  apply Nat.ltb_lt in N. now rewrite N.
Qed.

Theorem lib_text d : document_ok d -> Forall float_kept (tree_floats (document_json d)) ->
  text_to_file (to_text (document_json d)) =
    match json_to_file (document_json d) with
    | Some (ext, r) => let* out := r in Ok (Some (ext, out))
    | None => Ok None
    end.
Proof.
  intros H F. destruct (document_tree d H) as [T N]. destruct (tree_back _ T N F) as [U R]. unfold text_to_file. now rewrite U, R.
Qed.

Theorem lib_identity d out :
  document_ok d -> countable d -> save d = Ok out -> zlen out < 2 ^ 63 -> representable_document d ->
  Forall float_kept (tree_floats (document_json d)) ->
  exists t, file_to_text (output_ext d) out = Ok t /\ text_to_file t = Ok (Some (output_ext d, out)).
Proof.
  intros H C S L R F. destruct (tool_identity d out H C S L R) as (j & E & J). exists (to_text j). unfold file_to_text. rewrite E.
  split; [reflexivity|]. unfold file_to_json in E. rewrite (save_load d out H C S L) in E. cbn [bind] in E. injection E as <-.
  rewrite lib_text by auto. now rewrite J.
Qed.

Theorem data_text mul inv bounding sphere_of d : typed_data d = true -> Forall float_kept (tree_floats (data_json d)) ->
  text_to_data_file mul inv bounding sphere_of (to_text (data_json d)) = json_to_data_file mul inv bounding sphere_of (data_json d).
Proof.
  intros H F. destruct (data_tree d H) as [T N]. destruct (tree_back _ T N F) as [U R]. unfold text_to_data_file. now rewrite U, R.
Qed.

Theorem data_text_library mul inv bounding sphere_of order k b d :
  (forall l, Permutation l (order l)) -> bytes_ok b = true -> load_as order k b = Ok d ->
  finite_data d -> Forall float_kept (tree_floats (data_json d)) ->
  exists t, data_to_text order (data_ext k) b = Some (Ok t) /\
    forall out, save_data mul inv bounding sphere_of d = Ok out ->
      text_to_data_file mul inv bounding sphere_of t = Ok (data_ext k, out).
Proof.
  intros P B L Fi F. destruct (tool_library mul inv bounding sphere_of order k b d P B L) as (E & S & _).
  destruct (load_typed _ _ _ _ P B L) as [_ T]. exists (to_text (data_json d)). unfold data_to_text. rewrite E. split; [reflexivity|].
  intros out W. rewrite data_text by auto. now apply S.
Qed.

(** Any text: what the programs get is a document in memory. *)
Lemma tree_wellformed j : tree_ok j = true -> wellformed j = true.
Proof.
  induction j as [|b|n|n|s|js IH|ms IH] using json_ind'; cbn [tree_ok wellformed]; intros T; auto.
  - rewrite forallb_forall in *. rewrite Forall_forall in IH. auto.
  - rewrite forallb_forall in *. rewrite Forall_forall in IH. intros m I. specialize (T m I). apply andb_true_iff in T as [_ T]. auto.
Qed.

Theorem any_text mul inv bounding sphere_of t ext out :
  text_to_data_file mul inv bounding sphere_of t = Ok (ext, out) ->
  exists j d, from_text t = Some j /\ read_first attempts j = Some d /\ typed_data d = true /\
    save_data mul inv bounding sphere_of d = Ok out /\ ext = data_ext (data_kind_of d).
Proof.
  unfold text_to_data_file. destruct (utf8_valid t) eqn:U; [|discriminate]. destruct (from_text t) as [j|] eqn:E; [|discriminate].
  intros H. pose proof (tree_wellformed j (from_text_tree t j U E)) as W.
  destruct (tool_outcome mul inv bounding sphere_of j) as [(d & o & R & S & J)|J]; rewrite J in H; [|discriminate].
  injection H as <- <-. exists j, d. repeat split; auto. exact (accepted_typed _ _ W R).
Qed.
