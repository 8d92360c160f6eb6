(** How large documents loaded from files of a known length are when they are saved. *)
From Coq Require Import Lia ZifyBool ZifyNat ZifyN.
From Verif Require Import Bytes BytesFacts Ssbh Described SsbhFacts Roundtrip RoundtripMain WriteFacts SsbhSpec DecFacts ExtFacts Formats File FileFacts
  RefFacts FileSpec SsbhLemmas SizeSpec SizeFacts SizeFileFacts SizeLoad.
Ltac Zify.zify_post_hook ::= ZifyBool.elim_bool_cstr; Z.to_euclidean_division_equations.

Local Opaque Z.max Z.sub Z.add Z.mul Z.div round_up.

(** ** Named versions of the inner loops *)
Fixpoint within_fields (L : Z) (fs : list field) (vs : list val) : bool :=
  match fs, vs with (t', _) :: fr, v' :: vr => within L t' v' && within_fields L fr vr | _, _ => true end.
Lemma within_struct L fs spad aa al vs : within L (TStruct fs spad aa al) (VStruct vs) = within_fields L fs vs.
Proof. cbn. revert vs. induction fs as [|[t [wp rp]] r IH]; intros [|v vr]; cbn; rewrite ?IH; auto. Qed.
Lemma within_enum L cs tag v : within L (TEnum cs) (VPtr (Some (VCase tag v))) = match find_case tag cs with Some t => within L t v | None => true end.
Proof. cbn. induction cs as [|[tg t] r IH]; cbn [find_case]; auto. destruct (tag =? tg); auto. Qed.
Fixpoint most_fields (L : Z) (fs : list field) : Z := match fs with [] => 0 | (t', _) :: r => most L t' + most_fields L r end.
Lemma most_struct L fs spad aa al : most L (TStruct fs spad aa al) = most_fields L fs.
Proof. cbn. induction fs as [|[t [wp rp]] r IH]; cbn; rewrite ?IH; auto. Qed.
Fixpoint leads_fields (fs : list field) : bool := match fs with [] => true | (t', _) :: r => leads t' && leads_fields r end.
Lemma leads_struct fs spad aa al : leads (TStruct fs spad aa al) = leads_fields fs.
Proof. cbn. induction fs as [|[t [wp rp]] r IH]; cbn; rewrite ?IH; auto. Qed.
Lemma leads_case cs tag t : leads (TEnum cs) = true -> In (tag, t) cs -> leads t = true.
Proof. cbn. induction cs as [|[tg u] r IH]; intros E H; [destruct H|]; destruct H as [H|H]; apply andb_true_iff in E as [E1 E2]; auto. injection H as -> ->. exact E1. Qed.
Lemma most_case L cs tag t : In (tag, t) cs -> most_object L t + most L t <= most L (TEnum cs).
Proof. cbn. induction cs as [|[tg u] r IH]; intros H; [destruct H|]; destruct H as [H|H]; [injection H as -> ->; lia|]. specialize (IH H). lia. Qed.

Lemma inl_size t : forall ptr, inl ptr t = true -> 0 <= inline_size t.
Proof.
  induction t as [w|w ra tags|w| |fs spad aa al HF|t IHt|w t IHt|t IHt| |n|vs HF|n t IHt|n t IHt] using ty_ind'; intros ptr E; cbn [inline_size]; cbn [inl] in E; try lia.
  - change (inl_fields fs = true) in E. change (0 <= isize_fields fs). induction fs as [|[t [wp rp]] r IH]; cbn [isize_fields inl_fields] in *; [lia|].
    bsplit E. inversion HF as [|? ? Ht Hr]; subst. cbn [fst] in Ht. specialize (Ht _ E). specialize (IH Hr ltac:(assumption)). lia.
  - bsplit E. specialize (IHt false ltac:(assumption)). nia.
  - bsplit E. specialize (IHt false ltac:(assumption)). nia.
Qed.

(** ** What is read lies in the file *)
Lemma lead_starts b t : forall p v, lead t = true -> Dec b t p v -> 0 <= p < zlen b.
Proof.
  assert (U8 : forall p n, uint_at b p 8 n -> 0 <= p < zlen b) by (intros p n U; apply uint_end in U; lia).
  induction t as [w|w ra tags|w| |fs spad aa al HF|t IHt|w t IHt|t IHt| |n|vs HF|n t IHt|n t IHt] using ty_ind'; intros p v E D; cbn [lead] in E; try discriminate E;
    try (inversion D; subst; match goal with U : uint_at _ p _ _ |- _ => apply uint_end in U; lia end).
  - destruct fs as [|[t [wp rp]] r]; [discriminate E|]. inversion HF as [|? ? Ht Hr]; subst. cbn [fst] in Ht. dstruct D F. dcons F D1. eapply Ht; eauto.
  - bsplit E. inversion D as [| | | | | | | | | | | | | |? ? ? vs Hl Dv|]; subst. destruct vs as [|x r]; [cbn in *; lia|]. specialize (Dv O x eq_refl). replace p with (p + Z.of_nat 0 * inline_size t) by lia. eapply IHt; eauto.
  - bsplit E. inversion D as [| | | | | | | | | | | | | | |? ? ? vs Hl Dv]; subst. destruct vs as [|x r]; [cbn in *; lia|]. specialize (Dv O x eq_refl). replace p with (p + Z.of_nat 0 * inline_size t) by lia. eapply IHt; eauto.
Qed.

Lemma bytes_at_len b p bs : 0 <= p -> bytes_at b p bs -> zlen bs <= zlen b.
Proof.
  intros Hp H. destruct bs as [|x r] using rev_ind; [change (zlen (@nil Z)) with 0; apply zlen_nonneg|]. clear IHr.
  specialize (H (length r) x). rewrite nth_error_app2, Nat.sub_diag in H by lia. specialize (H eq_refl). apply byte_at_some in H.
  rewrite zlen_app. change (zlen [x]) with 1. unfold zlen in *. lia.
Qed.

Theorem dec_within b L : bytes_ok b = true -> zlen b <= L ->
  forall t ptr p v, inl ptr t = true -> leads t = true -> 0 <= p -> Dec b t p v -> within L t v = true.
Proof.
  intros Hb HL.
  induction t as [w|w ra tags|w| |fs spad aa al HF|t IHt|w t IHt|t IHt| |n|vs HF|n t IHt|n t IHt] using ty_ind'; intros ptr p v E X Hp D;
    try (inversion D; subst; reflexivity).
  - dstruct D F. rewrite within_struct. rewrite leads_struct in X. rewrite inl_struct in E. revert p vs Hp F.
    induction fs as [|[t [wp rp]] r IH]; intros p vs Hp F; [inversion F; reflexivity|]. dcons F D1. inversion HF as [|? ? Ht Hr]; subst. cbn [fst] in Ht.
    cbn [leads_fields inl_fields within_fields] in *. bsplit X. bsplit E. rewrite (Ht false p v) by auto. cbn [andb]. pose proof (inl_size t false E). match goal with H : (0 <=? rp) = true |- _ => apply Z.leb_le in H end. eapply IH; [auto|auto|auto| |eauto]. lia.
  - inversion D as [| | | | | |? ? o x U N O Dx| | | | | | | | |]; subst; [reflexivity|]. cbn [within]. cbn [inl leads] in E, X. pose proof (DecFacts.uint_nonneg _ _ _ _ Hb U). apply (IHt true (p + o)); auto; lia.
  - inversion D as [| | | | | | | |? ? ? o x U N Dx| | | | | | |]; subst; [reflexivity|]. cbn [within]. cbn [inl leads] in E, X. bsplit E. pose proof (DecFacts.uint_nonneg _ _ _ _ Hb U). apply (IHt true o); auto; lia.
  - inversion D as [| | | | | | | | |? ? o vs U C O Dv| | | | | |]; subst. cbn [within]. cbn [inl leads] in E, X. bsplit X. pose proof (DecFacts.uint_nonneg _ _ _ _ Hb U).
    pose proof (elems_len b t (inline_size t) (p + o) vs ltac:(lia) (fun x q => lead_starts b t q x X) eq_refl Dv ltac:(lia)) as HE.
    apply andb_true_iff. split.
    + assert (zlen vs - 1 <= L / inline_size t); [|lia]. apply Z.div_le_lower_bound; lia.
    + apply forallb_forall. intros x Hx. apply In_nth_error in Hx as (i & Hi). apply Dv in Hi. pose proof (inl_size t false E). apply (IHt false _ _ E) in Hi; auto. nia.
  - inversion D as [| | | | | | | | | |? o bs U C O Db| | | | |]; subst. cbn [within]. pose proof (DecFacts.uint_nonneg _ _ _ _ Hb U). apply bytes_at_len in Db; lia.
  - inversion D as [| | | | | | | | | | |? ? bs Db N| | | |]; subst. cbn [within]. apply bytes_at_len in Db; [|lia]. rewrite zlen_app in Db. change (zlen [0]) with 1 in Db. lia.
  - inversion D as [| | | | | | | | | | | | |? ? o tag t x U C N O I Dx| |]; subst; [reflexivity|]. rewrite within_enum. rewrite inl_enum in E.
    rewrite (proj2 (inl_case_iff _ _ _ E) I). rewrite Forall_forall in HF. pose proof (DecFacts.uint_nonneg _ _ _ _ Hb U).
    apply (HF _ I false (p + o)); auto; [eapply inl_case_in; eauto|eapply leads_case; eauto|lia].
  - inversion D as [| | | | | | | | | | | | | |? ? ? vs Hl Dv|]; subst. cbn [within]. cbn [inl leads] in E, X. bsplit E.
    apply forallb_forall. intros x Hx. apply In_nth_error in Hx as (i & Hi). apply Dv in Hi. pose proof (inl_size t false ltac:(assumption)). eapply (IHt false); [| | |exact Hi]; auto. nia.
  - inversion D as [| | | | | | | | | | | | | | |? ? ? vs Hl Dv]; subst. cbn [within]. cbn [inl leads] in E, X. bsplit E.
    apply forallb_forall. intros x Hx. apply In_nth_error in Hx as (i & Hi). apply Dv in Hi. pose proof (inl_size t false ltac:(assumption)). eapply (IHt false); [| | |exact Hi]; auto. nia.
Qed.

(** ** Values of limited length take limited space *)
Lemma most_object_ok L t v : 0 <= L -> twf MPtr t = true -> wt t v = true -> within L t v = true -> round_up (object_size t v) 8 <= most_object L t.
Proof.
  intros HL E W X. pose proof (round_up_lt (object_size t v) 8 ltac:(lia)).
  enough (object_size t v + 8 <= most_object L t) by lia. clear H.
  destruct t; try (cbn; lia). cbn [twf] in E. destruct v as [|bs| | | |]; try discriminate W. cbn [within] in X.
  destruct bs as [|x r]; cbn [object_size most_object]; lia.
Qed.
Lemma most_object_nonneg L t : 0 <= L -> twf MPtr t = true -> 0 <= most_object L t.
Proof.
  intros HL E. destruct (twf_ptr t E) as [Et|(n & -> & Hn)].
  - pose proof (csize_nonneg _ _ Et). destruct t; try (unfold most_object; lia). discriminate Et.
  - unfold most_object. lia.
Qed.

Lemma most_nonneg L t : forall m, 0 <= L -> twf m t = true -> 0 <= most L t.
Proof.
  induction t as [w|w ra tags|w| |fs spad aa al HF|t IHt|w t IHt|t IHt| |n|vs HF|n t IHt|n t IHt] using ty_ind'; intros m HL E; try (cbn [most]; lia).
  - rewrite most_struct. rewrite twf_struct in E. apply andb_true_iff in E as [_ E]. induction fs as [|[t [wp rp]] r IH]; cbn [most_fields]; [lia|].
    inversion HF as [|? ? Ht Hr]; subst. cbn [fst] in Ht. cbn [twf_fields] in E. bsplit E.
    assert (0 <= most L t) by (destruct r; [destruct m|]; bsplit H; eapply Ht; eauto).
    assert (0 <= most_fields L r) by (destruct r as [|f r]; [cbn; lia|bsplit H; apply IH; auto]). lia.
  - cbn [most twf] in *. pose proof (most_object_nonneg L t HL E). specialize (IHt _ HL E). lia.
  - cbn [most twf] in *. bsplit E. pose proof (most_object_nonneg L t HL ltac:(assumption)). specialize (IHt MPtr HL ltac:(assumption)). lia.
  - cbn [most twf] in *. specialize (IHt _ HL E). rewrite isize_csize by exact E. pose proof (csize_nonneg _ _ E). pose proof (Z.div_pos L (csize t) HL).
    destruct (Z.eq_dec (csize t) 0) as [C|C]; [rewrite C, Zdiv_0_r; nia|]. specialize (H0 ltac:(lia)). nia.
  - cbn [most]. induction vs as [|[tg u] r IH]; [lia|]. cbn [twf] in E. bsplit E. inversion HF; subst. apply Z.max_le_iff. right. apply IH; auto.
  - cbn [most twf] in *. bsplit E. specialize (IHt MInline HL ltac:(assumption)). nia.
  - cbn [most twf] in *. bsplit E. specialize (IHt MInline HL ltac:(assumption)). nia.
Qed.

Theorem within_most L t : forall m v, 0 <= L -> twf m t = true -> wt t v = true -> within L t v = true -> space 8 t v <= most L t.
Proof.
  induction t as [w|w ra tags|w| |fs spad aa al HF|t IHt|w t IHt|t IHt| |n|vs HF|n t IHt|n t IHt] using ty_ind'; intros m v HL E W X;
    pose proof (most_nonneg L _ m HL E) as MN; try (destruct v; exact MN).
  - destruct v; try discriminate W. rewrite space_struct, most_struct. rewrite wt_struct in W. rewrite within_struct in X. rewrite twf_struct in E. apply andb_true_iff in E as [_ E]. clear MN.
    revert vs W E X. induction fs as [|[t [wp rp]] r IH]; intros [|v vr] W E X; try discriminate W; cbn [space_fields most_fields]; [lia|].
    inversion HF as [|? ? Ht Hr]; subst. cbn [fst] in Ht. cbn [wt_fields within_fields twf_fields] in *. bsplit W. bsplit E. bsplit X.
    assert (space 8 t v <= most L t) by (destruct r; [destruct m|]; bsplit H0; eapply Ht; eauto).
    assert (space_fields 8 r vr <= most_fields L r). { destruct r as [|f r]; [destruct vr; cbn; lia|]. bsplit H0. apply IH; auto. }
    lia.
  - destruct v; try exact MN. destruct o as [v|]; [|exact MN]. cbn [space most within wt twf] in *. pose proof (most_object_ok L t v HL E W X). specialize (IHt _ v HL E W X). lia.
  - destruct v; try exact MN. destruct o as [v|]; [|exact MN]. cbn [space most within wt twf] in *. bsplit E. pose proof (most_object_ok L t v HL ltac:(assumption) W X). specialize (IHt MPtr v HL ltac:(assumption) W X). lia.
  - destruct v; try exact MN. cbn [space most within wt twf] in *. bsplit W. bsplit X. rewrite forallb_forall in *. fold (space_list 8 t vs).
    assert (S : space_list 8 t vs <= zlen vs * most L t) by (apply list_space_le; intros; eapply IHt; eauto).
    pose proof (most_nonneg L t _ HL E). pose proof (csize_nonneg _ _ E) as C. rewrite <- (isize_csize t) in C by exact E.
    pose proof (round_up_lt (zlen vs * inline_size t) 8 ltac:(lia)). assert (zlen vs <= L / inline_size t + 1) by lia.
    assert (zlen vs * inline_size t <= (L / inline_size t + 1) * inline_size t) by (apply Z.mul_le_mono_nonneg_r; auto).
    assert (zlen vs * most L t <= (L / inline_size t + 1) * most L t) by (apply Z.mul_le_mono_nonneg_r; auto). cbv zeta. lia.
  - destruct v; try exact MN. cbn [space most within] in *. pose proof (round_up_lt (zlen bs) 8 ltac:(lia)). lia.
  - destruct v; try exact MN. destruct o as [v|]; [|exact MN]. destruct v; try exact MN. rewrite space_enum. rewrite wt_enum in W. rewrite within_enum in X.
    destruct (find_case tag vs) as [t|] eqn:F; [|discriminate]. destruct (find_case_twf tag vs t E F) as [_ Et].
    assert (EP : twf MPtr t = true) by (destruct t; try exact Et; discriminate Et).
    pose proof (most_object_ok L t v HL EP W X). pose proof (most_case L vs tag t (find_case_in _ _ _ F)).
    rewrite Forall_forall in HF. pose proof (HF _ (find_case_in _ _ _ F) MTail v HL Et W X) as Y. cbn [snd] in Y. lia.
  - destruct v; try exact MN. cbn [space most within wt twf] in *. bsplit W. bsplit E. rewrite forallb_forall in *. fold (space_list 8 t vs).
    assert (S : space_list 8 t vs <= zlen vs * most L t) by (apply list_space_le; intros; eapply IHt; eauto). replace n with (zlen vs) by lia. exact S.
  - destruct v; try exact MN. cbn [space most within wt twf] in *. bsplit W. bsplit E. rewrite forallb_forall in *. fold (space_list 8 t vs).
    assert (S : space_list 8 t vs <= zlen vs * most L t) by (apply list_space_le; intros; eapply IHt; eauto). replace n with (zlen vs) by lia. exact S.
Qed.

(** ** Whole files *)
Lemma versions_leads k : forallb (fun x => leads (snd x)) (versions k) = true.
Proof. destruct k; vm_compute; reflexivity. Qed.
Lemma format_leads k v t : format k v = Some t -> leads t = true.
Proof. intros H. apply lookup_in in H. pose proof (versions_leads k) as E. rewrite forallb_forall in E. now apply E in H. Qed.

Theorem file_within b f t L : bytes_ok b = true -> zlen b <= L -> DecFile b f -> format (fkind f) (fver f) = Some t -> within L t (fbody f) = true.
Proof.
  intros Hb HL (_ & t' & F & D) F'. rewrite F in F'. injection F' as <-.
  eapply (dec_within b L Hb HL t' false 24); [eapply format_inl; eauto|eapply format_leads; eauto|lia|exact D].
Qed.

(** The size of the file of a document without long text, buffers and arrays. *)
Theorem within_size f t L out : 0 <= L -> file_ok f -> format (fkind f) (fver f) = Some t -> within L t (fbody f) = true -> file_write f = Ok out ->
  zlen out <= 32 + csize t + most L t.
Proof.
  intros HL O F X E. pose proof (file_size_upper f t out O F E) as U. destruct O as (t' & F' & W). rewrite F in F'. injection F' as <-.
  destruct (format_ok _ _ _ F) as [Hr _]. destruct t; try discriminate Hr. apply root_inv in Hr as (Hr & _).
  pose proof (within_most L (TStruct fs spad 0 al) MTail (fbody f) HL Hr W X) as S.
  change (space 8 (TStruct fs spad 0 al) (fbody f)) with (space 8 (TStruct fs spad aa al) (fbody f)) in S.
  change (most L (TStruct fs spad 0 al)) with (most L (TStruct fs spad aa al)) in S.
  pose proof (round_up_lt (24 + csize (TStruct fs spad aa al)) 8 ltac:(lia)). lia.
Qed.

Theorem loaded_size b f t out : bytes_ok b = true -> DecFile b f -> format (fkind f) (fver f) = Some t -> file_write f = Ok out ->
  zlen out <= 32 + csize t + most (zlen b) t.
Proof.
  intros Hb D F E. apply (within_size f t (zlen b) out); auto; [apply zlen_nonneg| |eapply file_within; eauto; lia].
  apply (file_read_ok b); [exact Hb|]. now apply file_read_dec.
Qed.

(** ** Files that can be saved again *)
Lemma versions_limit k : forallb (fun x => 32 + csize (snd x) + most (reload_limit k) (snd x) <? 2 ^ 63) (versions k) = true.
Proof. destruct k; vm_compute; reflexivity. Qed.
Lemma format_limit k v t : format k v = Some t -> 32 + csize t + most (reload_limit k) t < 2 ^ 63.
Proof. intros H. apply lookup_in in H. pose proof (versions_limit k) as E. rewrite forallb_forall in E. apply E in H. cbn [snd] in H. apply Z.ltb_lt in H. exact H. Qed.
Lemma limit_nonneg k : 0 <= reload_limit k.
Proof. destruct k; vm_compute; discriminate. Qed.

Theorem small_save f t out : file_ok f -> format (fkind f) (fver f) = Some t -> within (reload_limit (fkind f)) t (fbody f) = true -> file_write f = Ok out -> zlen out < 2 ^ 63.
Proof. intros O F X E. pose proof (within_size f t _ out (limit_nonneg _) O F X E). pose proof (format_limit _ _ _ F). lia. Qed.

Theorem small_reload b f : bytes_ok b = true -> file_read b = Ok f -> zlen b <= reload_limit (fkind f) ->
  exists out, file_write f = Ok out /\ file_read out = Ok f /\ zlen out < 2 ^ 63.
Proof.
  intros Hb R HL. pose proof (file_read_ok b f Hb R) as O. destruct (file_write_total f O) as (out & E). pose proof O as (t & F & _).
  assert (S : zlen out < 2 ^ 63). { eapply small_save; eauto. eapply file_within; eauto. now apply file_read_dec. }
  exists out. split; [exact E|]. split; [|exact S]. now apply file_roundtrip.
Qed.
