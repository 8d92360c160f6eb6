(** The objects of a serialised value, as listed by [refs], are placed one after another. *)
From Coq Require Import Lia ZifyBool ZifyNat ZifyN.
From Verif Require Import Bytes BytesFacts Ssbh Described SsbhFacts Roundtrip RoundtripMain WriteFacts
  SsbhSpec DecFacts ExtFacts Formats File FileFacts.
Ltac Zify.zify_post_hook ::= ZifyBool.elim_bool_cstr; Z.to_euclidean_division_equations.

Local Opaque two64 le_bytes put Z.max Z.sub Z.add round_up.

Definition strip (x : ref) : extent := mkExt (r_start x) (r_len x) (r_align x).

Definition ref_fields (b : list Z) (c : Z) : list field -> Z -> list val -> list ref :=
  fix go fs p vs := match fs, vs with
  | (t', (_, pad)) :: fr, v' :: vr => refs b c t' p v' ++ go fr (p + inline_size t' + pad) vr
  | _, _ => []
  end.

Lemma ref_struct b c fs x y z p vs : refs b c (TStruct fs x y z) p (VStruct vs) = ref_fields b c fs p vs.
Proof. reflexivity. Qed.

Lemma ref_enum b c vs p tag v :
  refs b c (TEnum vs) p (VPtr (Some (VCase tag v))) =
  match find_case tag vs with
  | Some t' => mkRef c (p + u64_at b p) (object_size t' v) (enum_align vs)
                 :: refs b (p + u64_at b p + object_size t' v) t' (p + u64_at b p) v
  | None => []
  end.
Proof.
  cbn [refs]. generalize (enum_align vs). intros al.
  induction vs as [|[tg t'] r IH]; cbn [find_case]; auto. destruct (tag =? tg); auto.
Qed.

Lemma strip_elems t b c : (forall p v, map strip (refs b c t p v) = extents b t p v) ->
  forall step vs p, map strip (elems_refs (refs b c t) step p vs) = elems_extents (extents b t) step p vs.
Proof.
  intros H step. induction vs as [|v r IH]; intros p; cbn [elems_refs elems_extents map]; auto.
  rewrite map_app, H, IH. auto.
Qed.

Lemma strip_refs t : forall b c p v, map strip (refs b c t p v) = extents b t p v.
Proof.
  induction t as [w|w ra tags|w| |fs spad aa al HF|t IHt|w t IHt|t IHt| |n|vs HF|n t IHt|n t IHt]
    using ty_ind'; intros b c p v; destruct v; try reflexivity.
  - rewrite ref_struct, ext_struct. revert p vs.
    induction fs as [|[t' [wp rp]] r IH]; intros p [|v vr]; try reflexivity.
    inversion HF as [|? ? Ht Hr]; subst. cbn [ref_fields ext_fields fst] in *.
    rewrite map_app, Ht. f_equal. apply IH; auto.
  - destruct o; [|reflexivity]. cbn [refs extents map]. rewrite IHt. reflexivity.
  - destruct o; [|reflexivity]. cbn [refs extents map]. rewrite IHt. reflexivity.
  - destruct vs as [|v0 vr]; [reflexivity|]. cbn [refs extents map].
    rewrite strip_elems by auto. reflexivity.
  - destruct bs; reflexivity.
  - destruct o as [v|]; [destruct v; try reflexivity|reflexivity].
    rewrite ref_enum, ext_enum. destruct (find_case tag vs) eqn:Ef; [|reflexivity].
    cbn [map]. apply find_case_in in Ef. rewrite Forall_forall in HF. pose proof (HF _ Ef) as HX.
    cbn [snd] in HX. rewrite HX. reflexivity.
  - cbn [refs extents]. apply strip_elems; auto.
  - cbn [refs extents]. apply strip_elems; auto.
Qed.

Definition owner_ok (x : ref) : Prop := r_owner_end x <= r_start x.

Lemma owner_elems A bd t b c : (forall p v e, laid_out A e bd (extents b t p v) -> c <= e ->
    Forall owner_ok (refs b c t p v)) ->
  forall step vs p e, laid_out A e bd (elems_extents (extents b t) step p vs) -> c <= e ->
    Forall owner_ok (elems_refs (refs b c t) step p vs).
Proof.
  intros H step. induction vs as [|v r IH]; intros p e HL He; cbn [elems_refs elems_extents] in *; auto.
  apply laid_out_app in HL as [H1 H2]. apply Forall_app. split; [eapply H; eauto|].
  apply laid_out_end in H1. eapply IH; eauto. lia.
Qed.

Lemma owner_refs A bd t : forall b c p v e,
  laid_out A e bd (extents b t p v) -> c <= e -> Forall owner_ok (refs b c t p v).
Proof.
  induction t as [w|w ra tags|w| |fs spad aa al HF|t IHt|w t IHt|t IHt| |n|vs HF|n t IHt|n t IHt]
    using ty_ind'; intros b c p v e HL He; destruct v; try (constructor; fail).
  - rewrite ref_struct. rewrite ext_struct in HL. revert p vs e HL He.
    induction fs as [|[t' [wp rp]] r IH]; intros p [|v vr] e HL He; try (constructor; fail).
    inversion HF as [|? ? Ht Hr]; subst. cbn [ref_fields ext_fields fst] in *.
    apply laid_out_app in HL as [H1 H2]. apply Forall_app. split; [eapply Ht; eauto|].
    apply laid_out_end in H1. eapply IH; eauto. lia.
  - destruct o; [|constructor]. cbn [refs extents laid_out e_start e_len] in *.
    destruct HL as (L1 & L2 & L3 & L4 & L5). constructor; [unfold owner_ok; cbn; lia|].
    eapply IHt; [exact L5|lia].
  - destruct o; [|constructor]. cbn [refs extents laid_out e_start e_len] in *.
    destruct HL as (L1 & L2 & L3 & L4 & L5). constructor; [unfold owner_ok; cbn; lia|].
    eapply IHt; [exact L5|lia].
  - destruct vs as [|v0 vr]; [constructor|]. cbn [refs extents laid_out e_start e_len] in *.
    destruct HL as (L1 & L2 & L3 & L4 & L5). constructor; [unfold owner_ok; cbn; lia|].
    eapply owner_elems; [|exact L5|lia]. intros; eapply IHt; eauto.
  - destruct bs; [constructor|]. cbn [refs extents laid_out e_start e_len] in *.
    constructor; [unfold owner_ok; cbn; lia|constructor].
  - destruct o as [v|]; [destruct v; try (constructor; fail)|constructor].
    rewrite ref_enum. rewrite ext_enum in HL. destruct (find_case tag vs) eqn:Ef; [|constructor].
    cbn [laid_out e_start e_len] in *. destruct HL as (L1 & L2 & L3 & L4 & L5).
    constructor; [unfold owner_ok; cbn; lia|].
    apply find_case_in in Ef. rewrite Forall_forall in HF. pose proof (HF _ Ef) as HX.
    cbn [snd] in HX. eapply HX; [exact L5|lia].
  - cbn [refs extents] in *. eapply owner_elems; eauto.
  - cbn [refs extents] in *. eapply owner_elems; eauto.
Qed.

(** What [laid_out] means in terms of the specification. *)
Definition placed (A e n : Z) (l : list ref) : Prop :=
  ForallOrdPairs before l /\ Forall (in_file n) l /\
  Forall (fun x => r_start x mod r_align x = 0) l /\ Forall owner_ok l /\
  Forall (fun x => e <= r_start x /\ 0 <= r_len x) l /\ gaps_below A e l.

Lemma laid_bounds A e n l : laid_out A e n (map strip l) -> Forall (fun x => e <= r_start x /\ 0 <= r_len x) l.
Proof.
  revert e; induction l as [|x r IH]; intros e H; constructor; cbn in H.
  - lia.
  - destruct H as (H1 & _ & H2 & _ & H3). apply IH in H3.
    eapply Forall_impl; [|exact H3]. cbn. intros. lia.
Qed.

Lemma laid_placed A e n l : 0 <= e -> laid_out A e n (map strip l) -> Forall owner_ok l -> placed A e n l.
Proof.
  intros He HL HO. pose proof (laid_bounds _ _ _ _ HL) as HB.
  unfold placed. repeat split; auto; clear HO HB; revert e He HL;
    induction l as [|x r IH]; intros e He HL; cbn in *; try (constructor; fail); auto;
    destruct HL as (H1 & H2 & H3 & H4 & H5).
  - constructor.
    + apply laid_bounds in H5. eapply Forall_impl; [|exact H5]. unfold before. cbn. intros; lia.
    + eapply IH; [|exact H5]. lia.
  - constructor; [unfold in_file; lia|]. eapply IH; [|exact H5]. lia.
  - constructor; auto. eapply IH; [|exact H5]. lia.
  - split; [lia|]. eapply IH; [|exact H5]. lia.
Qed.

(** Any described type, written at any position. *)
Theorem write_placed A t v s s' :
  0 < A -> A mod 8 = 0 -> twf MTail t = true -> aln A t = true -> al16 t = true -> wt t v = true ->
  0 <= wpos s -> 0 <= wdp s -> write t v s = Ok s' -> wdp s' < two64 ->
  placed A (Z.max (wdp s) (wpos s + csize t)) (zlen (wbuf s')) (refs (wbuf s') (wpos s + csize t) t (wpos s) v).
Proof.
  intros HA HA8 E HAl H16 W Hp Hd H Hlt.
  pose proof (csize_nonneg _ _ E).
  pose proof (x_all A HA HA8 t MTail v s s' ltac:(discriminate) E HAl H16 W Hp Hd H) as HX.
  destruct (HX (Z.max (wdp s) (wpos s + csize t)) (wbuf s')) as (L1 & _ & _); auto; try lia.
  - pose proof (ru_ge A HA (Z.max (wdp s) (wpos s + csize t))). lia.
  - apply agree_refl.
  - apply laid_placed; [lia|rewrite strip_refs; auto|]. eapply owner_refs; [exact L1|lia].
Qed.

(** Whole files *)
Lemma versions_aln k : forallb (fun x => aln 8 (snd x)) (versions k) = true.
Proof. destruct k; vm_compute; reflexivity. Qed.

Lemma format_aln k v t : format k v = Some t -> aln 8 t = true.
Proof.
  intros H. apply lookup_in in H. pose proof (versions_aln k) as E. rewrite forallb_forall in E.
  now apply E in H.
Qed.

Theorem file_placed f t out :
  file_ok f -> format (fkind f) (fver f) = Some t -> file_write f = Ok out -> zlen out < 2 ^ 63 ->
  let e := 24 + csize t in
  e <= zlen out /\ 24 <= e /\ placed 8 e (zlen out) (refs out e t 24 (fbody f)).
Proof.
  intros (t' & F & W) F' E HL. rewrite F in F'. injection F' as <-.
  rename t' into t. unfold file_write in E. rewrite F in E.
  destruct (format_ok _ _ _ F) as [Hr _]. pose proof (format_aln _ _ _ F) as HAl.
  set (body := fbody f) in *. set (magic := file_write_magic (fkind f)) in *.
  assert (Hm : zlen magic = 4) by (unfold magic; destruct (fkind f); reflexivity).
  set (v := fver f) in *. clearbody magic body v. clear F f.
  destruct (write_document magic v t body Hm Hr W) as (s1 & s' & E0 & E1 & ->).
  rewrite E0 in E. cbn [bind] in E. injection E as <-. clear E0.
  destruct t; try discriminate Hr.
  apply root_inv in Hr as (Hr & HN & HA & HI & Haa).
  assert (W0 : wt (TStruct fs spad 0 al) body = true) by exact W.
  destruct (align_after_spec aa s1) as (n & B & _); [lia|].
  pose proof (csize_nonneg _ _ Hr) as Hc.
  change (csize (TStruct fs spad aa al)) with (csize (TStruct fs spad 0 al)) in E1.
  change (csize (TStruct fs spad aa al)) with (csize (TStruct fs spad 0 al)). cbv zeta.
  assert (HH : zlen (header magic v) = 24) by (apply header_len; auto).
  set (c := csize (TStruct fs spad 0 al)) in *.
  assert (Hp : 0 <= wpos (mkW (header magic v) 24 (24 + c))) by (cbn [wpos]; lia).
  assert (Hd : 0 <= wdp (mkW (header magic v) 24 (24 + c))) by (cbn [wdp]; lia).
  destruct (wok_all _ MTail ltac:(discriminate) Hr _ _ _ W0 Hp Hd E1) as [P1 P2 P3 P4].
  pose proof (dp_all _ MTail _ _ _ ltac:(discriminate) Hr HA W0 Hp Hd E1) as (D1 & D2 & D3).
  pose proof (x_all 8 ltac:(lia) eq_refl _ MTail _ _ _ ltac:(discriminate) Hr HAl HA W0 Hp Hd E1) as HX.
  fold c in P1, P3, P4, D1, D2, D3, HX.
  unfold xspec, wreg, reg in HX.
  cbn [wbuf wpos wdp] in *.
  assert (X : extends (wbuf s1) (wbuf (align_after aa s1))) by (rewrite B; apply extends_app).
  assert (HZ : zlen (wbuf s1) <= zlen (wbuf (align_after aa s1))).
  { rewrite B, zlen_app. pose proof (zlen_nonneg (zeros n)). lia. }
  assert (Hdp : wdp s1 < two64).
  { specialize (D3 (24 + c) ltac:(lia)).
    assert (le16 (wdp s1) (Z.max (zlen (wbuf s1)) (24 + c))) as D4
      by (apply D3, le16_le; lia).
    unfold le16 in D4.
    assert (24 + c <= zlen (wbuf s1)) by lia.
    rewrite Z.max_l in D4 by lia.
    pose proof (round_up_lt (zlen (wbuf s1)) 16 ltac:(lia)).
    change (2 ^ 63) with 9223372036854775808 in HL. change two64 with 18446744073709551616. lia. }
  destruct (HX (24 + c) (wbuf (align_after aa s1))) as (L1 & _ & _); auto; try lia.
  - pose proof (round_up_ge (24 + c) 8 ltac:(lia)). lia.
  - intros i x _ Hx. apply X; auto.
  - split; [lia|]. split; [lia|].
    change (refs (wbuf (align_after aa s1)) (24 + c) (TStruct fs spad aa al) 24 body)
      with (refs (wbuf (align_after aa s1)) (24 + c) (TStruct fs spad 0 al) 24 body).
    apply laid_placed; [lia|rewrite strip_refs; auto|].
    eapply owner_refs; [exact L1|lia].
Qed.
