(** Induction principle, well-formed descriptors and unfolding equations. *)
From Coq Require Import Lia ZifyBool ZifyNat ZifyN.
From Verif Require Import Bytes BytesFacts Ssbh Described.
Ltac Zify.zify_post_hook ::= ZifyBool.elim_bool_cstr; Z.to_euclidean_division_equations.

Section TyInd.
  Variable P : ty -> Prop.
  Hypothesis HInt : forall w, P (TInt w).
  Hypothesis HRepr : forall w ra tags, P (TRepr w ra tags).
  Hypothesis HBits : forall w, P (TBits w).
  Hypothesis HUnit : P TUnit.
  Hypothesis HStruct : forall fs spad aa al,
    Forall (fun f => P (fst f)) fs -> P (TStruct fs spad aa al).
  Hypothesis HRel : forall t, P t -> P (TRel t).
  Hypothesis HAbs : forall w t, P t -> P (TAbs w t).
  Hypothesis HArr : forall t, P t -> P (TArr t).
  Hypothesis HBuf : P TBuf.
  Hypothesis HCStr : forall n, P (TCStr n).
  Hypothesis HEnum : forall vs, Forall (fun f => P (snd f)) vs -> P (TEnum vs).
  Hypothesis HFix : forall n t, P t -> P (TFix n t).
  Hypothesis HVec : forall n t, P t -> P (TVec n t).

  Fixpoint ty_ind' (t : ty) : P t :=
    match t with
    | TInt w => HInt w
    | TRepr w ra tags => HRepr w ra tags
    | TBits w => HBits w
    | TUnit => HUnit
    | TStruct fs spad aa al =>
        HStruct fs spad aa al
          ((fix go (fs : list (ty * (Z * Z))) : Forall (fun f => P (fst f)) fs :=
              match fs with
              | [] => Forall_nil _
              | f :: r => Forall_cons f (match f return P (fst f) with (t', pr) => ty_ind' t' end) (go r)
              end) fs)
    | TRel t' => HRel t' (ty_ind' t')
    | TAbs w t' => HAbs w t' (ty_ind' t')
    | TArr t' => HArr t' (ty_ind' t')
    | TBuf => HBuf
    | TCStr n => HCStr n
    | TEnum vs =>
        HEnum vs
          ((fix go (vs : list (Z * ty)) : Forall (fun f => P (snd f)) vs :=
              match vs with
              | [] => Forall_nil _
              | f :: r => Forall_cons f (match f return P (snd f) with (tg, t') => ty_ind' t' end) (go r)
              end) vs)
    | TFix n t' => HFix n t' (ty_ind' t')
    | TVec n t' => HVec n t' (ty_ind' t')
    end.
End TyInd.


(** ** Named versions of the inner loops *)
Fixpoint size_fields (fs : list field) (vs : list val) : Z :=
  match fs, vs with
  | (t', (wp, _)) :: fr, v' :: vr => size t' v' + wp + size_fields fr vr
  | _, _ => 0
  end.

Fixpoint write_fields (fs : list field) (vs : list val) (s : wst) : res wst :=
  match fs, vs with
  | [], [] => Ok s
  | (t', (wp, _)) :: fr, v' :: vr =>
      let* s1 := write t' v' s in
      write_fields fr vr (emit (zeros wp) s1)
  | _, _ => Err EType
  end.

Fixpoint read_fields (fs : list field) (b : list Z) (p : Z) : res (list val * Z) :=
  match fs with
  | [] => Ok ([], p)
  | (t', (_, rp)) :: fr =>
      let* (v, p1) := read t' b p in
      let* (vs, p2) := read_fields fr b (p1 + rp) in
      Ok (v :: vs, p2)
  end.

Fixpoint wt_fields (fs : list field) (vs : list val) : bool :=
  match fs, vs with
  | [], [] => true
  | (t', _) :: fr, v' :: vr => wt t' v' && wt_fields fr vr
  | _, _ => false
  end.

Fixpoint find_case (tag : Z) (vs : list (Z * ty)) : option ty :=
  match vs with
  | [] => None
  | (tg, t') :: r => if tag =? tg then Some t' else find_case tag r
  end.

Lemma size_struct fs spad aa al vs :
  size (TStruct fs spad aa al) (VStruct vs) = size_fields fs vs + spad.
Proof. reflexivity. Qed.

Lemma write_struct fs spad aa al vs s :
  write (TStruct fs spad aa al) (VStruct vs) s =
  let* s1 := write_fields fs vs (bump (size_fields fs vs + spad) s) in
  Ok (align_after aa (emit (zeros spad) s1)).
Proof. reflexivity. Qed.

Lemma read_struct fs spad aa al b p :
  read (TStruct fs spad aa al) b p =
  let* (vs, p') := read_fields fs b p in Ok (VStruct vs, p').
Proof.
  cbn. f_equal. revert p. induction fs as [|[t' [wp rp]] fr IH]; intros p; cbn; auto.
  destruct (read t' b p) as [[v p1]| |]; cbn; auto. rewrite IH. auto.
Qed.

Lemma wt_struct fs spad aa al vs :
  wt (TStruct fs spad aa al) (VStruct vs) = wt_fields fs vs.
Proof. reflexivity. Qed.

Lemma write_case vs tag v' :
  (fix go (vs : list (Z * ty)) : wst -> res wst :=
     match vs with
     | [] => fun _ => Err EType
     | (tg, t') :: r => if tag =? tg then write t' v' else go r
     end) vs
  = match find_case tag vs with Some t' => write t' v' | None => fun _ => Err EType end.
Proof. induction vs as [|[tg t'] r IH]; cbn; auto. destruct (tag =? tg); auto. Qed.

Lemma read_case vs tag b p :
  (fix go (vs : list (Z * ty)) : res (val * Z) :=
     match vs with
     | [] => Err ENoVariant
     | (tg, t') :: r => if tag =? tg then read t' b p else go r
     end) vs
  = match find_case tag vs with Some t' => read t' b p | None => Err ENoVariant end.
Proof. induction vs as [|[tg t'] r IH]; cbn; auto. destruct (tag =? tg); auto. Qed.

Lemma wt_case vs tag v' :
  (fix go (vs : list (Z * ty)) : bool :=
     match vs with
     | [] => false
     | (tg, t') :: r => if tag =? tg then wt t' v' else go r
     end) vs
  = match find_case tag vs with Some t' => wt t' v' | None => false end.
Proof. induction vs as [|[tg t'] r IH]; cbn; auto. destruct (tag =? tg); auto. Qed.

Lemma write_enum vs tag v' s :
  write (TEnum vs) (VPtr (Some (VCase tag v'))) s =
  let* s1 := write_relptr (enum_align vs)
    (Some (match find_case tag vs with Some t' => write t' v' | None => fun _ => Err EType end))
    (bump 16 s) in
  Ok (emit (le_bytes 8 tag) s1).
Proof. cbn [write]. now rewrite write_case. Qed.

Lemma read_enum vs b p :
  read (TEnum vs) b p =
  let* (relative_offset, p1) := read_int 8 b p in
  let* (data_type, saved_pos) := read_int 8 b p1 in
  if relative_offset =? 0 then Ok (VPtr None, saved_pos)
  else
    let* seek_pos := absolute_offset_checked p relative_offset in
    let* (v, _) := match find_case data_type vs with
                   | Some t' => read t' b seek_pos | None => Err ENoVariant end in
    Ok (VPtr (Some (VCase data_type v)), saved_pos).
Proof.
  cbn [read]. destruct (read_int 8 b p) as [[ro p1]| |]; cbn [bind]; auto.
  destruct (read_int 8 b p1) as [[dt sp]| |]; cbn [bind]; auto.
  destruct (ro =? 0); auto.
  destruct (absolute_offset_checked p ro); cbn [bind]; auto.
  now rewrite read_case.
Qed.

Lemma wt_enum vs tag v' :
  wt (TEnum vs) (VPtr (Some (VCase tag v'))) =
  match find_case tag vs with Some t' => wt t' v' | None => false end.
Proof. cbn [wt]. apply wt_case. Qed.

(** Elements read one after another. *)
Fixpoint read_n (n : nat) (rd : Z -> res (val * Z)) (p : Z) : res (list val * Z) :=
  match n with
  | O => Ok ([], p)
  | S n' =>
      let* (v, p1) := rd p in
      let* (vs, p2) := read_n n' rd p1 in
      Ok (v :: vs, p2)
  end.

Lemma read_elements_n rd count p :
  read_elements rd count p = read_n (Z.to_nat count) rd p.
Proof.
  unfold read_elements. rewrite iter_z_nat.
  assert (forall n acc p,
    (let* (acc', p') := iter_nat n (read_push rd) (acc, p) in Ok (rev acc', p'))
    = (let* (vs, p') := read_n n rd p in Ok (rev acc ++ vs, p'))) as H.
  { induction n as [|n IH]; intros acc q; cbn.
    - now rewrite app_nil_r.
    - destruct (rd q) as [[v q1]| |]; cbn; auto. rewrite IH.
      destruct (read_n n rd q1) as [[vs q2]| |]; cbn; auto.
      now rewrite <- app_assoc. }
  rewrite H. destruct (read_n (Z.to_nat count) rd p) as [[vs q]| |]; auto.
Qed.

Fixpoint csize_fields (fs : list field) : Z :=
  match fs with [] => 0 | (t', (wp, _)) :: r => csize t' + wp + csize_fields r end.

Lemma csize_struct fs spad aa al : csize (TStruct fs spad aa al) = csize_fields fs + spad.
Proof. reflexivity. Qed.

Fixpoint twf_fields (m : mode) (spad : Z) (fs : list field) : bool :=
  match fs with
  | [] => match m with MInline => spad =? 0 | _ => true end
  | (t', (wp, rp)) :: r =>
      (0 <=? wp) &&
      match r with
      | [] => match m with
              | MInline => twf MInline t' && (wp + spad =? rp)
              | _ => twf MTail t'
              end
      | _ => twf MInline t' && (wp =? rp) && twf_fields m spad r
      end
  end.

Lemma twf_struct m fs spad aa al :
  twf m (TStruct fs spad aa al) =
  (aa =? 0) && (0 <=? spad) &&
  match al with Some a => 0 <? a | None => true end && twf_fields m spad fs.
Proof.
  cbn [twf]. f_equal. induction fs as [|[t' [wp rp]] r IH]; [reflexivity|].
  cbn [twf_fields]. f_equal. destruct r; [reflexivity|]. f_equal. exact IH.
Qed.

Lemma find_case_twf tag vs t' :
  twf MInline (TEnum vs) = true -> find_case tag vs = Some t' ->
  0 <= tag < two64 /\ twf MTail t' = true.
Proof.
  cbn [twf]. induction vs as [|[tg t0] r IH]; cbn [find_case]; [discriminate|].
  intros H. destruct (Z.eqb_spec tag tg).
  - intros [= <-]. subst. repeat (apply andb_true_iff in H as [H ?]). split; auto; lia.
  - apply IH. repeat (apply andb_true_iff in H as [H ?]). auto.
Qed.

Lemma find_case_in tag vs t' : find_case tag vs = Some t' -> In (tag, t') vs.
Proof.
  induction vs as [|[tg t0] r IH]; cbn; [discriminate|].
  destruct (Z.eqb_spec tag tg); [intros [= <-]; subst; auto|auto].
Qed.

Ltac bsplit H := repeat (apply andb_true_iff in H as [H ?]).

(** Inline-well-formed types are usable in every position. *)
Lemma twf_weaken t : twf MInline t = true -> twf MTail t = true.
Proof.
  induction t using ty_ind'; try (cbn; auto; fail).
  rewrite !twf_struct. intros E. bsplit E.
  rewrite E, H1, H2. cbn [andb].
  clear E H1 H2. induction fs as [|[t' [wp rp]] r IH]; auto.
  inversion H as [|? ? Ht Hr]; subst. cbn [twf_fields] in *. bsplit H0.
  rewrite H0. cbn [andb]. destruct r.
  - bsplit H1. auto.
  - bsplit H1. rewrite H1, H3. cbn [andb]. apply IH; auto.
Qed.

Lemma csize_nonneg m t : twf m t = true -> 0 <= csize t.
Proof.
  revert m. induction t using ty_ind'; intros m E; try rewrite twf_struct in E;
    cbn -[twf_fields] in E |- *; bsplit E; try lia.
  - fold (csize_fields fs).
    assert (0 <= csize_fields fs); [|lia].
    clear E H1 H2. induction fs as [|[t' [wp rp]] r IH]; cbn [csize_fields]; [lia|].
    inversion H as [|? ? Ht Hr]; subst. cbn [twf_fields] in H0. bsplit H0.
    destruct r.
    + cbn. assert (0 <= csize t'); [|lia]. cbn in Ht.
      destruct m; bsplit H1; eauto.
    + bsplit H1. specialize (IH Hr H2). cbn in Ht. specialize (Ht _ H1). lia.
  - specialize (IHt _ H). nia.
  - specialize (IHt _ H). nia.
Qed.

Lemma size_csize m t v : twf m t = true -> m <> MPtr -> wt t v = true -> size t v = csize t.
Proof.
  revert m v. induction t using ty_ind'; intros m v E Hm W;
    destruct v; cbn [wt] in W; try discriminate W; cbn [size csize]; try reflexivity.
  - fold (csize_fields fs). fold (size_fields fs vs). fold (wt_fields fs vs) in W.
    rewrite twf_struct in E. bsplit E. f_equal. clear E H1 H2.
    revert vs W; induction fs as [|[t' [wp rp]] r IH]; intros [|v' vr] W;
      cbn in W; try discriminate W; cbn [size_fields csize_fields]; auto.
    inversion H as [|? ? Ht Hr]; subst. cbn [twf_fields] in H0. bsplit H0.
    bsplit W. fold (wt_fields r vr) in H2. cbn in Ht.
    destruct r.
    + destruct vr; [|discriminate]. cbn.
      rewrite (Ht (match m with MInline => MInline | _ => MTail end)); auto;
        destruct m; bsplit H1; auto; discriminate.
    + bsplit H1. rewrite (Ht MInline), IH; auto. discriminate.
  - destruct m; cbn in E; try discriminate. congruence.
  - cbn in E. bsplit E. bsplit W. destruct vs as [|v' vr].
    + rewrite zlen_nil in W. cbn. lia.
    + cbn in H0. bsplit H0. rewrite (IHt MInline); auto; [|discriminate]. f_equal. lia.
  - cbn in E. bsplit E. bsplit W. destruct vs as [|v' vr].
    + rewrite zlen_nil in W. cbn. lia.
    + cbn in H0. bsplit H0. rewrite (IHt MInline); auto; [|discriminate]. f_equal. lia.
Qed.

Lemma slice_size_csize t vs :
  twf MInline t = true -> forallb (wt t) vs = true -> slice_size t vs = zlen vs * csize t.
Proof.
  intros E W. destruct vs as [|v vr]; [reflexivity|]. cbn [slice_size].
  cbn in W. bsplit W. rewrite (size_csize MInline); auto. discriminate.
Qed.

Lemma size_fields_csize m spad fs vs :
  twf_fields m spad fs = true -> m <> MPtr -> wt_fields fs vs = true ->
  size_fields fs vs = csize_fields fs.
Proof.
  intros E Hm W.
  revert vs W; induction fs as [|[t' [wp rp]] r IH]; intros [|v' vr] W;
    cbn in W; try discriminate W; cbn [size_fields csize_fields]; auto.
  cbn [twf_fields] in E. bsplit E. bsplit W. fold (wt_fields r vr) in H0.
  destruct r.
  - destruct vr; [|discriminate]. cbn.
    rewrite (size_csize (match m with MInline => MInline | _ => MTail end)); auto;
      destruct m; bsplit H; auto; discriminate.
  - bsplit H. rewrite (size_csize MInline), IH; auto. discriminate.
Qed.

Lemma rust_align_pos m t : twf m t = true -> 0 < rust_align t.
Proof.
  revert m. induction t using ty_ind'; intros m E; cbn in E |- *; bsplit E; try lia; eauto.
  - clear -H. induction fs as [|[t' pr] r IH]; [lia|]. inversion H; subst.
    specialize (IH H3). lia.
  - clear -H. induction vs as [|[tg t'] r IH]; [lia|]. inversion H; subst.
    specialize (IH H3). lia.
Qed.

Lemma ssbh_align_pos m t : twf m t = true -> 0 < ssbh_align t.
Proof.
  revert m. induction t using ty_ind'; intros m E; try (eapply rust_align_pos; eassumption);
    try (cbn in E |- *; bsplit E; lia).
  - destruct al as [a|].
    + rewrite twf_struct in E. bsplit E. cbn. lia.
    + eapply rust_align_pos; eassumption.
  - destruct m; cbn in E; try discriminate; cbn; lia.
  - cbn in E |- *. bsplit E. eauto.
Qed.

Lemma enum_align_pos vs : twf MInline (TEnum vs) = true -> 0 < enum_align vs.
Proof. apply rust_align_pos. Qed.
