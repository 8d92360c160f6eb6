(** Proofs about files of shaders. *)
From Coq Require Import Lia ZifyBool ZifyNat ZifyN.
From Verif Require Import Bytes BytesFacts Ssbh File SsbhSpec SsbhFacts Formats FileFacts Strings AnimBuf SmallData SsbhLemmas FileSpec.
From Verif Require Import ShdrData ShdrSpec ShdrFacts ReloadFacts.
Ltac Zify.zify_post_hook ::= ZifyBool.elim_bool_cstr; Z.to_euclidean_division_equations.

#[local] Strategy opaque [typed_write typed_read].

Lemma shader_any v : wt Shader v = true -> exists name stage binary, shader_fields v name stage binary /\ bytes_ok binary = true.
Proof.
  intros H. destruct v as [| |vs| | |]; try discriminate H. unfold Shader, padded in H. rewrite wt_struct in H. cbn [map app wt_fields fst] in H.
  destruct vs as [|n [|s [|u [|bf [|z [|? ?]]]]]]; try (cbn [wt_fields] in H; rewrite ?andb_false_r in H; discriminate H).
  cbn [wt_fields] in H. repeat rewrite andb_true_iff in H. destruct H as (Hn & Hs & Hu & Hb & Hz & _).
  destruct s; try discriminate Hs. destruct u; try discriminate Hu. destruct bf; try discriminate Hb. destruct z; try discriminate Hz.
  exists n, n0, bs. split; [do 2 eexists; reflexivity|]. cbn [wt] in Hb. now apply andb_true_iff in Hb.
Qed.

Lemma shdr_any version v b : bytes_ok b = true -> typed_read Shdr b = Ok (version, v) ->
  exists vs, v = VStruct [VArr vs] /\ Forall (fun v => exists name stage binary, shader_fields v name stage binary /\ bytes_ok binary = true) vs.
Proof.
  intros Hb E. apply typed_read_ok in E as (t & F & W); [|exact Hb]. cbn [fkind fver fbody] in *.
  assert (t = Shdr_V12) as ->.
  { destruct version as [ma mi]. cbn in F. unfold ver_eqb in F. cbn [fst snd] in F.
    destruct ((ma =? 1) && (mi =? 2)); [|discriminate F]. now injection F as <-. }
  apply struct_inv in W as (vs & -> & F2). inv2.
  match goal with H : wt (TArr _) _ = true |- _ => apply arr_inv in H as (l & -> & _ & H2) end.
  exists l. split; [reflexivity|]. rewrite forallb_forall in H2. apply Forall_forall. intros v Hv. apply shader_any. auto.
Qed.

Lemma un_shader_eq v name stage binary : shader_fields v name stage binary ->
  un_shader v = match meta_read binary with Ok m => Ok (SE (ssbh_to_string_lossy name) stage m) | _ => Panic end \/
  (exists e h c, un_shader v = Err e /\ read_shader binary = Ok (h, c) /\ meta_new binary h = Err e).
Proof.
  intros (u & z & ->). cbn [un_shader]. unfold meta_read. destruct (read_shader binary) as [[h c]| |]; cbn [unwrap bind]; auto.
  destruct (meta_new binary h) eqn:E; cbn [bind]; auto. right. eauto 10.
Qed.

Lemma un_shader_read v name stage binary : bytes_ok binary = true -> shader_fields v name stage binary ->
  un_shader v = match meta_read binary with Ok m => Ok (SE (ssbh_to_string_lossy name) stage m) | _ => Panic end.
Proof.
  intros Hb S. destruct (un_shader_eq v name stage binary S) as [H|(e & h & c & _ & R & M)]; auto.
  apply shader_inv in R as [R _]; auto. now apply meta_new_no_err in M.
Qed.

Theorem shdr_file b version v : bytes_ok b = true -> typed_read Shdr b = Ok (version, v) ->
  exists shaders, v = VStruct [VArr shaders] /\
    (forall d, shdr_data_read b = Ok d ->
       Forall2 (fun s e => exists name binary, shader_fields s name (se_stage e) binary /\
                  se_name e = ssbh_to_string_lossy name /\ meta_at binary (se_meta e)) shaders d) /\
    ((exists d, shdr_data_read b = Ok d) <->
     Forall (fun s => exists name stage binary, shader_fields s name stage binary /\ sound_tables binary /\ sound_names binary) shaders) /\
    (forall e, shdr_data_read b <> Err e).
Proof.
  intros Hb E. destruct (shdr_any _ _ _ Hb E) as (vs & -> & F). exists vs. split; [reflexivity|].
  unfold shdr_data_read. rewrite E. cbn [bind un_shdr]. clear E.
  assert (inj : forall v n s bi n' s' bi', shader_fields v n s bi -> shader_fields v n' s' bi' -> n = n' /\ s = s' /\ bi = bi').
  { intros v n s bi n' s' bi' (u & z & ->) (u' & z' & H). injection H as; subst. auto. }
  repeat apply conj.
  - intros d H. apply un_list_forall2 in H. induction H as [|v e vs d H H2 IH]; constructor.
    + inversion F as [|? ? (name & stage & binary & S & Bb) _]; subst. rewrite (un_shader_read v name stage binary) in H; auto.
      destruct (meta_read binary) as [m| |] eqn:M; try discriminate. injection H as <-. exists name, binary. cbn. split; auto.
      split; auto. now apply meta_described.
    + apply IH. now inversion F.
  - intros [d H]. apply un_list_forall2 in H. induction H as [|v e vs d H H2 IH]; constructor.
    + inversion F as [|? ? (name & stage & binary & S & Bb) _]; subst. rewrite (un_shader_read v name stage binary) in H; auto.
      destruct (meta_read binary) as [m| |] eqn:M; try discriminate. exists name, stage, binary. split; auto.
      apply (meta_outcome binary Bb). eauto.
    + apply IH. now inversion F.
  - intros G. apply un_list_total. intros k v Hk. apply nth_error_In in Hk. rewrite Forall_forall in F, G.
    destruct (F v Hk) as (name & stage & binary & S & Bb). destruct (G v Hk) as (name' & stage' & binary' & S' & T & N).
    destruct (inj _ _ _ _ _ _ _ S S') as (<- & <- & <-). rewrite (un_shader_read v name stage binary) by auto.
    destruct (meta_outcome binary Bb) as [[_ O] _]. destruct O as [m ->]; auto. eauto.
  - intros e. apply un_list_no_err. intros k v Hk e'. apply nth_error_In in Hk. rewrite Forall_forall in F.
    destruct (F v Hk) as (name & stage & binary & S & Bb). rewrite (un_shader_read v name stage binary) by auto.
    destruct (meta_read binary); discriminate.
Qed.
