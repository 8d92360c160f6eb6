(** Facts about the paths and runs of Cli.v. *)
From Coq Require Import String Permutation Lia ZifyBool.
From Verif Require Import Bytes Strings File MeshEx DataJsonTool JsonTextTool Json JsonFile JsonSpec DataJson DataJsonSpec JsonText JsonTextFile JsonTextUtf8 JsonTextFinite Cli.
From Coq Require Import List.
Import ListNotations.
Open Scope Z_scope.
Open Scope list_scope.

(** The parts of a path to a file with an extension *)
Definition no_slash (l : list Z) : Prop := ~ In 47 l.
Definition plain_ext (e : list Z) : Prop := e <> [] /\ no_slash e /\ ~ In 46 e.
Definition directory (d : list Z) : Prop := d = [] \/ exists d', d = d' ++ [47].

Lemma last_component_app n d :
  no_slash n -> (d = [] \/ exists d', d = 47 :: d') -> last_component (n ++ d) = (n, d).
Proof.
  intros N D. induction n as [|c n IH]; cbn [app last_component].
  - destruct D as [->|[d' ->]]; reflexivity.
  - replace (c =? 47) with false by (symmetry; apply Z.eqb_neq; intros ->; apply N; left; auto).
    rewrite IH; auto. intros I. apply N. right. auto.
Qed.

Lemma split_dot_app e s : ~ In 46 e -> split_dot (e ++ 46 :: s) = Some (e, s).
Proof.
  induction e as [|c e IH]; intros H; cbn [app split_dot]; auto.
  replace (c =? 46) with false by (symmetry; apply Z.eqb_neq; intros ->; apply H; left; auto).
  rewrite IH; auto. intros I. apply H. right. auto.
Qed.

Lemma rev_directory d : directory d -> rev d = [] \/ exists d', rev d = 47 :: d'.
Proof. intros [->|[d' ->]]; auto. right. rewrite rev_app_distr. exists (rev d'). reflexivity. Qed.

Lemma file_name_form d s e :
  directory d -> s <> [] -> no_slash s -> plain_ext e ->
  file_name_rev (d ++ s ++ 46 :: e) = Some (rev e ++ 46 :: rev s, rev d).
Proof.
  intros D S NS (E & NE & DE). unfold file_name_rev.
  assert (R : rev (d ++ s ++ 46 :: e) = (rev e ++ 46 :: rev s) ++ rev d).
  { rewrite !rev_app_distr. cbn [rev]. rewrite <- !app_assoc. reflexivity. }
  rewrite R. clear R.
  assert (T : strip_end ((rev e ++ 46 :: rev s) ++ rev d) = (rev e ++ 46 :: rev s) ++ rev d).
  { destruct (rev e) as [|c r] eqn:Q.
    - apply (f_equal (@rev Z)) in Q. rewrite rev_involutive in Q. destruct (E Q).
    - assert (I : In c e) by (rewrite in_rev, Q; left; auto).
      cbn [app strip_end].
      replace (c =? 47) with false by (symmetry; apply Z.eqb_neq; intros ->; auto).
      replace (c =? 46) with false by (symmetry; apply Z.eqb_neq; intros ->; auto).
      reflexivity. }
  rewrite T, last_component_app.
  - destruct (rev e) as [|c r] eqn:Q.
    + apply (f_equal (@rev Z)) in Q. rewrite rev_involutive in Q. destruct (E Q).
    + destruct (rev s) as [|x y] eqn:P.
      * apply (f_equal (@rev Z)) in P. rewrite rev_involutive in P. destruct (S P).
      * destruct r as [|c' [|c'' r]]; reflexivity.
  - intros I. apply in_app_or in I. destruct I as [I|[I|I]]; [|discriminate|].
    + apply NE. rewrite in_rev. auto.
    + apply NS. rewrite in_rev. auto.
  - apply rev_directory. auto.
Qed.

Lemma rev_cons_form (s : list Z) : s <> [] -> exists c r, rev s = c :: r.
Proof.
  intros S. destruct (rev s) as [|c r] eqn:P; eauto.
  apply (f_equal (@rev Z)) in P. rewrite rev_involutive in P. destruct (S P).
Qed.

Lemma extension_form d s e :
  directory d -> s <> [] -> no_slash s -> plain_ext e -> extension (d ++ s ++ 46 :: e) = Some e.
Proof.
  intros D S NS E. unfold extension. rewrite file_name_form by auto.
  rewrite split_dot_app by (rewrite <- in_rev; apply E).
  destruct (rev_cons_form s S) as (c & r & ->). rewrite rev_involutive. reflexivity.
Qed.

Lemma with_extension_form d s e x :
  directory d -> s <> [] -> no_slash s -> plain_ext e -> x <> [] ->
  with_extension (d ++ s ++ 46 :: e) x = d ++ s ++ 46 :: x.
Proof.
  intros D S NS E X. unfold with_extension. rewrite file_name_form by auto.
  rewrite split_dot_app by (rewrite <- in_rev; apply E).
  destruct (rev_cons_form s S) as (c & r & Q). rewrite Q, <- Q.
  rewrite rev_app_distr, !rev_involutive, <- app_assoc. destruct x; [destruct (X eq_refl)|reflexivity].
Qed.

Lemma last_component_spec r n d : last_component r = (n, d) ->
  r = n ++ d /\ no_slash n /\ (d = [] \/ exists d', d = 47 :: d').
Proof.
  revert n d. induction r as [|c r IH]; cbn [last_component]; intros n d H.
  - injection H as <- <-. split; [|split]; auto. intros [].
  - destruct (Z.eqb_spec c 47) as [->|K].
    + injection H as <- <-. split; [|split]; eauto. intros [].
    + destruct (last_component r) as [n' d'] eqn:Q. injection H as <- <-.
      destruct (IH _ _ eq_refl) as (-> & N & D). split; [|split]; auto. intros [I|I]; auto.
Qed.

Lemma split_dot_spec r e s : split_dot r = Some (e, s) -> r = e ++ 46 :: s /\ ~ In 46 e.
Proof.
  revert e s. induction r as [|c r IH]; cbn [split_dot]; intros e s H; [discriminate|].
  destruct (Z.eqb_spec c 46) as [->|K].
  - injection H as <- <-. auto.
  - destruct (split_dot r) as [[e' s']|]; [|discriminate]. injection H as <- <-.
    destruct (IH _ _ eq_refl) as (-> & N). split; auto. intros [I|I]; auto.
Qed.

Lemma file_name_spec p n d : file_name_rev p = Some (n, d) ->
  no_slash n /\ (d = [] \/ exists d', d = 47 :: d').
Proof.
  unfold file_name_rev. destruct (last_component _) as [n' d'] eqn:Q.
  destruct (last_component_spec _ _ _ Q) as (_ & N & D). intros H.
  assert ((n', d') = (n, d)) as [= -> ->].
  { destruct n' as [|c [|c' [|c'' n']]]; try discriminate.
    - destruct (c =? 46); congruence.
    - destruct (_ && _); congruence.
    - congruence. }
  auto.
Qed.

(** The new extension is the one asked for *)
Lemma extension_with p e x : extension p = Some e -> plain_ext x -> extension (with_extension p x) = Some x.
Proof.
  unfold extension at 1, with_extension. destruct (file_name_rev p) as [[n d]|] eqn:F; [|discriminate].
  destruct (split_dot n) as [[e' [|c s]]|] eqn:S; try discriminate. intros _ X.
  destruct (file_name_spec _ _ _ F) as (N & D). destruct (split_dot_spec _ _ _ S) as (-> & _).
  rewrite rev_app_distr, <- app_assoc.
  destruct x as [|x0 x]; [destruct X as [X _]; destruct (X eq_refl)|].
  apply extension_form; auto.
  - destruct D as [->|[d' ->]]; [left; auto|right; exists (rev d'); reflexivity].
  - intros Q. apply (f_equal (@rev Z)) in Q. rewrite rev_involutive in Q. discriminate.
  - intros I. apply N. rewrite <- in_rev in I. apply in_or_app. right. right. auto.
Qed.

Lemma name_text s : name_of_text (text_of s) = s.
Proof.
  induction s as [|a s IH]; cbn [text_of name_of_text]; auto. rewrite IH. f_equal.
  rewrite <- (Ascii.ascii_N_embedding a) at 2. f_equal. lia.
Qed.

(** Which extensions the programs write *)
Lemma plain_computed e :
  (negb (zlen e =? 0) && forallb (fun c => negb (c =? 47) && negb (c =? 46)) e = true) -> plain_ext e.
Proof.
  intros H. apply andb_prop in H as [H K]. rewrite forallb_forall in K. split; [|split].
  - intros ->. discriminate.
  - intros I. apply K in I. discriminate.
  - intros I. apply K in I. discriminate.
Qed.

Lemma output_plain d : plain_ext (text_of (output_ext d)) /\ text_of (output_ext d) <> text_of "json".
Proof.
  destruct d as [f|x|x]; cbn [output_ext]; [destruct (fkind f)|..];
    (split; [apply plain_computed; reflexivity|discriminate]).
Qed.

Lemma data_plain k : plain_ext (text_of (data_ext k)) /\ text_of (data_ext k) <> text_of "json".
Proof. destruct k; (split; [apply plain_computed; reflexivity|discriminate]). Qed.

Lemma text_to_file_ext t ext out : text_to_file t = Ok (Some (ext, out)) -> exists d, ext = output_ext d.
Proof.
  unfold text_to_file, json_to_file. destruct (utf8_valid t); [|discriminate].
  destruct (from_text t) as [j|]; [|discriminate]. destruct (read_document j) as [d|]; [|discriminate].
  destruct (save d); cbn [bind unwrap]; try discriminate. intros [= <- <-]. eauto.
Qed.

Lemma text_to_data_ext mul inv bounding sphere_of t ext out :
  text_to_data_file mul inv bounding sphere_of t = Ok (ext, out) -> exists k, ext = data_ext k.
Proof.
  unfold text_to_data_file, json_to_data_file. destruct (utf8_valid t); [|discriminate].
  destruct (from_text t) as [j|]; [|discriminate]. destruct (read_first attempts j) as [d|]; [|discriminate].
  destruct (save_data _ _ _ _ d); cbn [bind unwrap]; try discriminate. intros [= <- <-]. eauto.
Qed.

Lemma same_iff a b : same a b = true <-> a = b.
Proof.
  revert b. induction a as [|x a IH]; intros [|y b]; cbn [same]; [tauto|split; discriminate|split; discriminate|].
  rewrite Bool.andb_true_iff, Z.eqb_eq, IH. split; [intros [-> ->]; auto|intros [= -> ->]; auto].
Qed.

Lemma is_ext_not e s : e <> text_of s -> is_ext e s = false.
Proof. intros H. unfold is_ext. destruct (same e (text_of s)) eqn:Q; auto. apply same_iff in Q. destruct (H Q). Qed.

Lemma put_same fs p b : put fs p b p = Some b.
Proof. unfold put. replace (same p p) with true; auto. symmetry. apply same_iff. auto. Qed.

Lemma app_longer (p s : list Z) : s <> [] -> p ++ s <> p.
Proof. intros S H. apply (f_equal (@length Z)) in H. rewrite app_length in H. destruct s; cbn in *; [auto|lia]. Qed.

Lemma other_extension p e x : extension p = Some e -> plain_ext x -> x <> e -> with_extension p x <> p.
Proof. intros E X N Q. apply N. assert (H := extension_with p e x E X). rewrite Q, E in H. congruence. Qed.

(** ** Runs *)
Lemma json_path d s e : directory d -> s <> [] -> no_slash s -> plain_ext e ->
  extension ((d ++ s ++ 46 :: e) ++ text_of ".json") = Some (text_of "json") /\
  forall x, x <> [] -> with_extension ((d ++ s ++ 46 :: e) ++ text_of ".json") x = (d ++ s ++ 46 :: e) ++ 46 :: x.
Proof.
  intros D S NS E.
  assert (Q : forall y, (d ++ s ++ 46 :: e) ++ 46 :: y = d ++ (s ++ 46 :: e) ++ 46 :: y)
    by (intros y; rewrite <- !app_assoc; reflexivity).
  change (text_of ".json") with (46 :: text_of "json"). rewrite Q.
  assert (S' : s ++ 46 :: e <> []) by (destruct s; discriminate).
  assert (NS' : no_slash (s ++ 46 :: e)).
  { intros I. apply in_app_or in I as [I|[I|I]]; [auto|discriminate|]. apply E in I. auto. }
  assert (J : plain_ext (text_of "json")) by (apply plain_computed; reflexivity).
  split; [apply extension_form; auto|]. intros x X. rewrite Q. apply with_extension_form; auto.
Qed.

Lemma lib_run fs d s doc out :
  directory d -> s <> [] -> no_slash s ->
  document_ok doc -> countable doc -> save doc = Ok out -> zlen out < 2 ^ 63 -> representable_document doc ->
  let p := d ++ s ++ 46 :: text_of (output_ext doc) in
  fs p = Some out ->
  exists t, lib_main fs p None = Writes (p ++ text_of ".json") t /\
    lib_main (put fs (p ++ text_of ".json") t) (p ++ text_of ".json") None =
    Writes (p ++ 46 :: text_of (output_ext doc)) out.
Proof.
  intros D S NS H C V L R p F. destruct (lib_identity_all doc out H C V L R) as (t & T & U).
  destruct (output_plain doc) as (P & J). exists t. unfold lib_main. split.
  - unfold p at 1. rewrite extension_form by auto. rewrite is_ext_not by auto. rewrite F, name_text, T. reflexivity.
  - destruct (json_path d s _ D S NS P) as (X & W). fold p in X, W. rewrite X.
    change (is_ext (text_of "json") "json") with true. cbv iota. rewrite put_same, U. cbn [path_or].
    rewrite W by apply P. reflexivity.
Qed.

Lemma data_run mul inv bounding sphere_of order fs d s k b x out :
  (forall l, Permutation l (order l)) -> directory d -> s <> [] -> no_slash s ->
  bytes_ok b = true -> load_as order k b = Ok x -> finite_data x ->
  save_data mul inv bounding sphere_of x = Ok out ->
  let p := d ++ s ++ 46 :: text_of (data_ext k) in
  let run := data_main mul inv bounding sphere_of order in
  fs p = Some b ->
  exists t, run fs p None = Writes (p ++ text_of ".json") t /\
    run (put fs (p ++ text_of ".json") t) (p ++ text_of ".json") None =
    Writes (p ++ 46 :: text_of (data_ext k)) out.
Proof.
  intros O D S NS B L X V p run F.
  destruct (data_library_all mul inv bounding sphere_of order k b x O B L X) as (t & T & U).
  destruct (data_plain k) as (P & J). exists t. unfold run, data_main. split.
  - unfold p at 1. rewrite extension_form by auto. rewrite is_ext_not by auto. rewrite F, name_text, T. reflexivity.
  - destruct (json_path d s _ D S NS P) as (E & W). fold p in E, W. rewrite E.
    change (is_ext (text_of "json") "json") with true. cbv iota. rewrite put_same, (U out V). cbn [path_or].
    rewrite W by apply P. reflexivity.
Qed.

Lemma lib_input_kept fs p q b : lib_main fs p None = Writes q b -> q <> p.
Proof.
  unfold lib_main. destruct (extension p) as [e|] eqn:E; [|discriminate].
  destruct (is_ext e "json") eqn:I.
  - apply same_iff in I. destruct (fs p) as [t|]; [|discriminate].
    destruct (text_to_file t) as [[[ext out]|]| |] eqn:T; try discriminate. cbn [path_or]. intros [= <- <-].
    destruct (text_to_file_ext _ _ _ T) as (d & ->). destruct (output_plain d) as (P & J).
    apply (other_extension p e); auto. congruence.
  - destruct (fs p) as [c|]; [|discriminate]. destruct (file_to_text _ c); try discriminate. cbn [path_or].
    intros [= <- <-]. apply app_longer. discriminate.
Qed.

Lemma data_input_kept mul inv bounding sphere_of order fs p q b :
  data_main mul inv bounding sphere_of order fs p None = Writes q b -> q <> p.
Proof.
  unfold data_main. destruct (extension p) as [e|] eqn:E; [|discriminate].
  destruct (is_ext e "json") eqn:I.
  - apply same_iff in I. destruct (fs p) as [t|]; [|discriminate].
    destruct (text_to_data_file _ _ _ _ t) as [[ext out]| |] eqn:T; try discriminate. cbn [path_or]. intros [= <- <-].
    destruct (text_to_data_ext _ _ _ _ _ _ _ T) as (k & ->). destruct (data_plain k) as (P & J).
    apply (other_extension p e); auto. congruence.
  - destruct (fs p) as [c|]; [|discriminate]. destruct (data_to_text _ _ c) as [[| |]|]; try discriminate. cbn [path_or].
    intros [= <- <-]. apply app_longer. discriminate.
Qed.

(** With an output path the same bytes are written there *)
Definition moved (r : outcome) (o : list Z) : outcome :=
  match r with Writes _ b => Writes o b | _ => r end.

Lemma lib_given fs p o : lib_main fs p (Some o) = moved (lib_main fs p None) o.
Proof.
  unfold lib_main. destruct (extension p) as [e|]; auto. destruct (is_ext e "json"); destruct (fs p) as [t|]; auto.
  - destruct (text_to_file t) as [[[ext out]|]| |]; auto.
  - destruct (file_to_text _ t); auto.
Qed.

Lemma data_given mul inv bounding sphere_of order fs p o :
  data_main mul inv bounding sphere_of order fs p (Some o) = moved (data_main mul inv bounding sphere_of order fs p None) o.
Proof.
  unfold data_main. destruct (extension p) as [e|]; auto. destruct (is_ext e "json"); destruct (fs p) as [t|]; auto.
  - destruct (text_to_data_file _ _ _ _ t) as [[ext out]| |]; auto.
  - destruct (data_to_text _ _ t) as [[| |]|]; auto.
Qed.
