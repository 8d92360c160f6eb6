(** How large written files are. *)
From Coq Require Import Lia ZifyBool ZifyNat ZifyN.
From Verif Require Import Bytes BytesFacts Ssbh Described SsbhFacts Roundtrip RoundtripMain WriteFacts SsbhSpec DecFacts ExtFacts Formats File FileFacts
  RefFacts FileSpec SsbhLemmas MeshEx MeshExFacts SelfTest SelfTestFacts SizeSpec SizeFacts.
Ltac Zify.zify_post_hook ::= ZifyBool.elim_bool_cstr; Z.to_euclidean_division_equations.

Local Opaque two64 le_bytes put Z.max Z.sub Z.add round_up.

(** ** Files are not larger than the space of their objects *)
Lemma versions_align k : forallb (fun x => match snd x with TStruct _ _ aa _ => (aa =? 0) || (aa =? 8) | _ => false end) (versions k) = true.
Proof. destruct k; vm_compute; reflexivity. Qed.

Lemma format_align k v fs spad aa al : format k v = Some (TStruct fs spad aa al) -> aa = 0 \/ aa = 8.
Proof.
  intros H. apply lookup_in in H. pose proof (versions_align k) as E. rewrite forallb_forall in E. apply E in H. cbn in H. lia.
Qed.

Theorem file_size_upper f t out : file_ok f -> format (fkind f) (fver f) = Some t -> file_write f = Ok out ->
  zlen out <= round_up (24 + csize t) 8 + space 8 t (fbody f).
Proof.
  intros (t' & F & W) F' E. rewrite F in F'. injection F' as <-. rename t' into t. unfold file_write in E. rewrite F in E.
  destruct (format_ok _ _ _ F) as [Hr _]. pose proof (format_aln _ _ _ F) as HAl.
  destruct (write_document (file_write_magic (fkind f)) (fver f) t (fbody f)) as (s1 & s' & E' & E1 & ->); auto. { destruct (fkind f); reflexivity. }
  rewrite E' in E. cbn in E. injection E as <-. destruct t; try discriminate Hr. pose proof (format_align _ _ _ _ _ _ F) as Haa.
  apply root_inv in Hr as (Hr & HN & HA & HI & _). set (t0 := TStruct fs spad 0 al) in *.
  change (csize (TStruct fs spad aa al)) with (csize t0) in *. pose proof (csize_nonneg _ _ Hr) as Hc.
  pose proof (round_up_ge (24 + csize t0) 8 ltac:(lia)) as HG. pose proof (round_up_mod (24 + csize t0) 8 ltac:(lia)) as HM.
  change (space 8 (TStruct fs spad aa al) (fbody f)) with (space 8 t0 (fbody f)).
  destruct (space_ok 8 ltac:(lia) eq_refl t0 MTail (fbody f) Hr W) as [S0 SM].
  destruct (write_bounded 8 ltac:(lia) eq_refl t0 MTail (fbody f) (mkW (header (file_write_magic (fkind f)) (fver f)) 24 (24 + csize t0)) s1 (round_up (24 + csize t0) 8)) as [_ B];
    cbn [wpos wdp]; try lia; auto; try discriminate.
  assert (HH : zlen (header (file_write_magic (fkind f)) (fver f)) = 24) by (apply header_len; destruct (fkind f); reflexivity).
  cbn [wbuf] in B. rewrite HH in B. assert (B' : zlen (wbuf s1) <= round_up (24 + csize t0) 8 + space 8 t0 (fbody f)) by lia.
  unfold align_after. destruct Haa as [-> | ->]; [exact B'|]. cbn [Z.ltb Z.compare]. ws. rewrite zlen_put_end.
  pose proof (round_up_ge (zlen (wbuf s1)) 8 ltac:(lia)). rewrite zlen_app, zlen_zeros by lia.
  assert (round_up (zlen (wbuf s1)) 8 <= round_up (24 + csize t0) 8 + space 8 t0 (fbody f)); [|lia].
  apply round_up_least; [lia|exact B'|]. rewrite Z.add_mod, HM, SM by lia. reflexivity.
Qed.

(** ** Files have room for all objects *)
Definition total_len (l : list ref) : Z := fold_right (fun r n => r_len r + n) 0 l.

Lemma total_app a b : total_len (a ++ b) = total_len a + total_len b.
Proof. induction a as [|x a IH]; [reflexivity|]. change (r_len x + total_len (a ++ b) = r_len x + total_len a + total_len b). lia. Qed.

Lemma ru1 n : round_up n 1 = n.
Proof. Transparent round_up. unfold round_up. rewrite Z.div_1_r. lia. Opaque round_up. Qed.

Lemma elems_total b c t step : forall vs p, (forall v p, In v vs -> total_len (refs b c t p v) = space 1 t v) ->
  total_len (elems_refs (refs b c t) step p vs) = space_list 1 t vs.
Proof.
  induction vs as [|v r IH]; intros p H; cbn [elems_refs space_list fold_right]; [reflexivity|]. rewrite total_app, H by now left.
  rewrite IH; [reflexivity|]. intros; apply H; now right.
Qed.

Lemma refs_total b : forall t c p v, total_len (refs b c t p v) = space 1 t v.
Proof.
  induction t as [w|w ra tags|w| |fs spad aa al HF|t IHt|w t IHt|t IHt| |n|vs HF|n t IHt|n t IHt] using ty_ind'; intros c p v; try (destruct v; reflexivity).
  - destruct v; try reflexivity. rewrite ref_struct, space_struct. revert p vs. induction fs as [|[t [wp rp]] r IH]; intros p [|v vr]; try reflexivity.
    inversion HF as [|? ? Ht Hr]; subst. cbn [ref_fields space_fields]. cbn [fst] in Ht. now rewrite total_app, Ht, IH.
  - destruct v; try reflexivity. destruct o; try reflexivity. cbn [refs space total_len fold_right r_len]. fold (total_len (refs b (p + u64_at b p + object_size t v) t (p + u64_at b p) v)). now rewrite IHt, ru1.
  - destruct v; try reflexivity. destruct o; try reflexivity. cbn [refs space total_len fold_right r_len]. fold (total_len (refs b (uint_of b p w + object_size t v) t (uint_of b p w) v)). now rewrite IHt, ru1.
  - destruct v; try reflexivity. destruct vs as [|v0 vs]; [reflexivity|]. cbn [refs]. cbn [space]. fold (space_list 1 t (v0 :: vs)). rewrite ru1.
    rewrite <- (elems_total b (p + u64_at b p + zlen (v0 :: vs) * inline_size t) t (inline_size t) (v0 :: vs) (p + u64_at b p)) by (intros; apply IHt). reflexivity.
  - destruct v; try reflexivity. destruct bs; [reflexivity|]. cbn [refs space total_len fold_right r_len]. rewrite ru1. lia.
  - destruct v; try reflexivity. destruct o as [v|]; try reflexivity. destruct v; try reflexivity. rewrite space_enum. cbn [refs].
    generalize (enum_align vs). intros a. induction vs as [|[tg t] r IH]; [reflexivity|]. inversion HF as [|? ? Ht Hr]; subst. cbn [snd] in Ht. cbn [find_case].
    destruct (tag =? tg); [|now apply IH]. cbn [total_len fold_right r_len]. rewrite <- (Ht (p + u64_at b p + object_size t v) (p + u64_at b p) v), ru1. reflexivity.
  - destruct v; try reflexivity. cbn [refs space]. apply elems_total. intros; apply IHt.
  - destruct v; try reflexivity. cbn [refs space]. apply elems_total. intros; apply IHt.
Qed.

Lemma lens_nonneg b : forall t m c p v, twf m t = true -> wt t v = true -> Forall (fun r => 0 <= r_len r) (refs b c t p v).
Proof.
  assert (EL : forall c t step vs p, (forall v p, In v vs -> Forall (fun r => 0 <= r_len r) (refs b c t p v)) -> Forall (fun r => 0 <= r_len r) (elems_refs (refs b c t) step p vs)).
  { intros c t step. induction vs as [|v r IH]; intros p H; cbn [elems_refs]; [constructor|]. apply Forall_app. split; [apply H; now left|]. apply IH. intros; apply H; now right. }
  induction t as [w|w ra tags|w| |fs spad aa al HF|t IHt|w t IHt|t IHt| |n|vs HF|n t IHt|n t IHt] using ty_ind'; intros m c p v E W; try (destruct v; constructor).
  - destruct v; try discriminate W. rewrite ref_struct. rewrite wt_struct in W. rewrite twf_struct in E. apply andb_true_iff in E as [_ E].
    revert p vs W E. induction fs as [|[t [wp rp]] r IH]; intros p [|v vr] W E; cbn [ref_fields]; try constructor.
    inversion HF as [|? ? Ht Hr]; subst. cbn [fst] in Ht. cbn [wt_fields] in W. bsplit W. cbn [twf_fields] in E. bsplit E. apply Forall_app. split.
    + destruct r; [destruct m|]; bsplit H0; eapply Ht; eauto.
    + destruct r as [|f r]; [destruct vr; constructor|]. bsplit H0. apply IH; auto.
  - destruct v; try constructor. destruct o as [v|]; [|constructor]. cbn [refs twf wt] in *. constructor; [now apply object_size_nonneg|eauto].
  - destruct v; try constructor. destruct o as [v|]; [|constructor]. cbn [refs twf wt] in *. bsplit E. constructor; [now apply object_size_nonneg|eauto].
  - destruct v; try constructor. destruct vs as [|v0 vs]; [constructor|]. cbn [refs twf wt] in *. bsplit W. rewrite forallb_forall in H. constructor.
    + cbn [r_len]. rewrite isize_csize by exact E. pose proof (csize_nonneg _ _ E). pose proof (zlen_nonneg (v0 :: vs)). nia.
    + apply EL. intros; eapply IHt; eauto.
  - destruct v; try constructor. destruct bs; constructor; [|constructor]. cbn [r_len]. apply zlen_nonneg.
  - destruct v; try constructor. destruct o as [v|]; [|constructor]. destruct v; try constructor. rewrite wt_enum in W. cbn [refs]. revert W. generalize (enum_align vs). intros a W.
    assert (E' : forall t, find_case tag vs = Some t -> twf MTail t = true). { intros t Ef. eapply find_case_twf; [|exact Ef]. exact E. } clear E.
    induction vs as [|[tg t] r IH]; [constructor|]. inversion HF as [|? ? Ht Hr]; subst. cbn [snd] in Ht. cbn [find_case] in *.
    destruct (tag =? tg); [|now apply IH]. specialize (E' t eq_refl). constructor; [|eauto]. cbn [r_len]. apply object_size_nonneg. destruct t; try exact E'. discriminate E'.
  - destruct v; try constructor. cbn [refs twf wt] in *. bsplit E. bsplit W. rewrite forallb_forall in H0. apply EL. intros; eapply IHt; eauto.
  - destruct v; try constructor. cbn [refs twf wt] in *. bsplit E. bsplit W. rewrite forallb_forall in H0. apply EL. intros; eapply IHt; eauto.
Qed.

Lemma ordered_total n : forall l e, e <= n -> ForallOrdPairs before l -> Forall (in_file n) l -> Forall (fun r => 0 <= r_len r) l -> Forall (fun r => e <= r_start r) l ->
  e + total_len l <= n.
Proof.
  induction l as [|x l IH]; intros e He O I N S; cbn [total_len fold_right]; [lia|]. fold (total_len l).
  inversion O as [|? ? Ox Ol]; subst. inversion I as [|? ? Ix Il]; subst. inversion N as [|? ? Nx Nl]; subst. inversion S as [|? ? Sx Sl]; subst.
  destruct (Z.eq_dec (r_len x) 0) as [Z0|Z0]; cbv beta in *.
  - rewrite Z0. specialize (IH e He Ol Il Nl Sl). lia.
  - unfold in_file in Ix. specialize (IH (r_start x + r_len x) ltac:(lia) Ol Il Nl). specialize (IH Ox). lia.
Qed.

Theorem file_size_lower f t out : file_ok f -> format (fkind f) (fver f) = Some t -> file_write f = Ok out -> zlen out < 2 ^ 63 ->
  24 + csize t + space 1 t (fbody f) <= zlen out.
Proof.
  intros O F E L. destruct (file_objects_ordered f t out O F E L) as [B _]. destruct (file_objects_disjoint f t out O F E L) as [_ I]. cbv zeta in *.
  destruct O as (t' & F' & W). rewrite F in F'. injection F' as <-.
  rewrite <- (refs_total out t (24 + csize t) 24 (fbody f)). destruct (format_ok _ _ _ F) as [Hr _].
  assert (HT : exists t0, twf MTail t0 = true /\ wt t0 (fbody f) = true /\ csize t0 = csize t /\ forall c p, refs out c t0 p (fbody f) = refs out c t p (fbody f)).
  { destruct t; try discriminate Hr. apply root_inv in Hr as (Hr & _). exists (TStruct fs spad 0 al). repeat split; auto. }
  destruct HT as (t0 & T0 & W0 & C0 & R0). pose proof (csize_nonneg _ _ T0) as HC. rewrite C0 in HC.
  inversion B as [|? ? Bx Bl]; subst. inversion I as [|? ? Ix Il]; subst. unfold in_file in Ix. cbn [r_start r_len] in Ix.
  assert (H0 : 24 + csize t <= zlen out) by lia. apply ordered_total; auto.
  rewrite <- R0. eapply lens_nonneg; eauto.
Qed.

(** A document whose objects fit below 2^63 bytes is read back, without a look at the file. *)
Theorem fitting_roundtrip f t : file_ok f -> format (fkind f) (fver f) = Some t ->
  round_up (24 + csize t) 8 + space 8 t (fbody f) < 2 ^ 63 -> exists out, file_write f = Ok out /\ file_read out = Ok f.
Proof.
  intros O F L. destruct (file_write_total f O) as (out & E). exists out. split; [exact E|]. apply file_roundtrip; auto.
  pose proof (file_size_upper f t out O F E). lia.
Qed.

(** ** MeshEx files *)
Lemma mx_space x : space 16 (mx_ty x) (VStruct (mx_vals x)) = meshex_space x.
Proof. unfold mx_ty, record. rewrite space_struct. unfold meshex_space, mx_tys, mx_vals. cbn [map space_fields]. change (space 16 u32 (VInt (count32 (mx_entries x)))) with 0. change (space 16 u32 (VInt (count32 (mx_groups x)))) with 0. change (space 16 u32 (VInt (mx_unk1 x))) with 0. lia. Qed.

Lemma mx_absw x : absw (2 ^ 64) (mx_ty x) = true.
Proof. reflexivity. Qed.

Theorem meshex_size x out : meshex_ok x = true -> meshex_write x = Ok out -> zlen out <= 64 + meshex_space x.
Proof.
  intros X H. apply meshex_inv in H as (_ & s8 & E & HO). cbv zeta in HO. set (n := round_up (zlen (wbuf s8)) 16) in *.
  assert (Hp : 0 <= wpos mx_start) by (cbn; lia). assert (Hd : 0 <= wdp mx_start) by (cbn; lia).
  destruct (space_ok 16 ltac:(lia) eq_refl (mx_ty x) MInline _ (mx_twf x MInline) (mx_wt x X)) as [S0 SM]. rewrite mx_space in S0, SM.
  destruct (write_bounded 16 ltac:(lia) eq_refl (mx_ty x) MInline (VStruct (mx_vals x)) mx_start s8 64) as [_ B]; auto; try discriminate; try (rewrite ?mx_csize; cbn; lia).
  { apply mx_twf. } { apply mx_wt; auto. }
  rewrite mx_space in B. change (zlen (wbuf mx_start)) with 8 in B. pose proof (zlen_nonneg (wbuf s8)) as Hz.
  pose proof (round_up_ge (zlen (wbuf s8)) 16 ltac:(lia)) as Hn. fold n in Hn.
  rewrite HO, put_len by lia. rewrite zlen_le_bytes, zlen_app, zlen_zeros by lia.
  assert (n <= 64 + meshex_space x). { apply round_up_least; [lia|lia|]. rewrite Z.add_mod, SM by lia. reflexivity. }
  destruct (le_bytes 8 n); lia.
Qed.

Theorem meshex_fits x : meshex_ok x = true -> opt_len (mx_groups x) < 2 ^ 32 -> opt_len (mx_entries x) < 2 ^ 32 -> opt_len (mx_flags x) < 2 ^ 32 ->
  opt_len (mx_entries x) = opt_len (mx_flags x) -> 64 + meshex_space x < 2 ^ 64 -> exists out, meshex_write x = Ok out.
Proof.
  intros X Lg Le Lf C L. destruct (meshex_errors x X Lg Le Lf) as [_ E]. destruct (E C) as [H|H]; [exact H|]. exfalso. clear E.
  assert (Hp : 0 <= wpos mx_start) by (cbn; lia). assert (Hd : 0 <= wdp mx_start) by (cbn; lia).
  destruct (write_fits 16 ltac:(lia) eq_refl (2 ^ 64) (mx_ty x) MInline (VStruct (mx_vals x)) mx_start 64) as (s8 & E); auto; try discriminate; try (rewrite ?mx_csize; cbn; lia).
  { apply mx_twf. } { apply mx_wt; auto. } { rewrite mx_space. lia. }
  rewrite <- mx_chain in E. unfold meshex_write in H. rewrite C, Z.eqb_refl in H || (rewrite !count32_small in H by auto; rewrite C, Z.eqb_refl in H). cbn [negb] in H.
  change (write u64 (VInt 0) (bump 64 fresh)) with (Ok mx_start) in H. cbn [bind] in H. rewrite !count32_small in E by auto. rewrite C in E.
  do 6 (let E1 := fresh in apply bind_ok in E as (? & E1 & E); rewrite E1 in H; cbn [bind] in H). rewrite E in H. cbn [bind] in H. discriminate H.
Qed.

(** ** The space of what a MeshEx file contains *)
Lemma uint_end b p w n : 0 < w -> uint_at b p w n -> 0 <= p /\ p + w <= zlen b.
Proof.
  intros Hw (bs & L & H & _). destruct bs as [|x bs0] using rev_ind; [cbn in L; lia|]. clear IHbs0.
  rewrite zlen_app in L. change (zlen [x]) with 1 in L.
  assert (Hl : byte_at b (p + Z.of_nat (length bs0)) = Some x). { apply H. rewrite nth_error_app2, Nat.sub_diag by lia. reflexivity. }
  apply byte_at_some in Hl. destruct (bs0 ++ [x]) as [|y r] eqn:E; [now destruct bs0|].
  assert (Hf : byte_at b (p + Z.of_nat 0) = Some y) by (apply H; reflexivity). apply byte_at_some in Hf. unfold zlen in L. lia.
Qed.

Lemma cstr_space b a p v : bytes_ok b = true -> 0 < a <= 16 -> Dec b (TAbs 8 (TCStr a)) p v -> 0 <= space 16 (TAbs 8 (TCStr a)) v <= zlen b + 16.
Proof.
  intros Hb Ha D. pose proof (zlen_nonneg b). inversion D as [| | | | | | |w t q U|w t q o x U N Dx| | | | | | |]; subst; [cbn [space]; lia|]. inversion Dx; subst.
  cbn [space]. pose proof (DecFacts.uint_nonneg _ _ _ _ Hb U) as Ho.
  match goal with H : bytes_at b o (?l ++ [0]) |- _ => rename l into bs; pose proof (H (length bs) 0) as X end.
  rewrite nth_error_app2, Nat.sub_diag in X by lia. specialize (X eq_refl). apply byte_at_some in X.
  assert (B : 0 < object_size (TCStr a) (VBytes bs) <= Z.max 16 (zlen b)).
  { destruct bs as [|y r]; cbn [object_size]; [lia|]. set (l := y :: r) in *. unfold zlen in *. lia. }
  pose proof (round_up_lt (object_size (TCStr a) (VBytes bs)) 16 ltac:(lia)). pose proof (round_up_ge (object_size (TCStr a) (VBytes bs)) 16 ltac:(lia)).
  destruct (Z.max_spec 16 (zlen b)) as [[? M]|[? M]]; rewrite M in B; [lia|].
  assert (round_up (object_size (TCStr a) (VBytes bs)) 16 <= 16) by (apply round_up_least; try lia; reflexivity). lia.
Qed.

(** [n] elements of [k] bytes, each starting with an integer in the file. *)
Lemma elems_len b t k q (vs : list val) : 0 < k -> (forall x p, Dec b t p x -> 0 <= p < zlen b) ->
  inline_size t = k -> (forall i v, nth_error vs i = Some v -> Dec b t (q + Z.of_nat i * inline_size t) v) -> 0 <= q -> (zlen vs - 1) * k <= zlen b.
Proof.
  intros Hk HD <- H Hq. destruct vs as [|x r] using rev_ind; [pose proof (zlen_nonneg b); change (zlen (@nil val)) with 0; lia|]. clear IHr.
  specialize (H (length r) x). rewrite nth_error_app2, Nat.sub_diag in H by lia. specialize (H eq_refl). apply HD in H.
  rewrite zlen_app. change (zlen [x]) with 1. unfold zlen in *. lia.
Qed.

Lemma list_space_le A t c vs : (forall v, In v vs -> space A t v <= c) -> space_list A t vs <= zlen vs * c.
Proof.
  induction vs as [|v r IH]; intros H; cbn [space_list fold_right]; [change (zlen (@nil val)) with 0; lia|]. fold (space_list A t r). rewrite zlen_cons.
  pose proof (H v (or_introl eq_refl)). specialize (IH (fun u Hu => H u (or_intror Hu))). nia.
Qed.

Ltac dstruct D DF := inversion D as [| | | |? ? ? ? ? ? DF| | | | | | | | | | |]; subst; clear D.
Ltac dcons DF D := let X := fresh in rename DF into X; inversion X as [|? ? ? ? ? ? ? D DF]; subst; clear X.

Lemma int_starts b w p v : 0 < w -> Dec b (TInt w) p v -> 0 <= p < zlen b.
Proof. intros Hw D. inversion D as [? ? ? U| | | | | | | | | | | | | | |]; subst. apply uint_end in U; auto. lia. Qed.

Lemma sphere_starts b p v : Dec b BoundingSphere p v -> 0 <= p < zlen b /\ space 16 BoundingSphere v = 0.
Proof.
  intros D. dstruct D F. dcons F D1. dcons F D2. inversion F; subst. dstruct D1 G. dcons G D1. dcons G D3. dcons G D4. inversion G; subst.
  pose proof (int_starts b 4 _ _ ltac:(lia) D1). inversion D1; subst. inversion D2; subst. inversion D3; subst. inversion D4; subst. split; [lia|reflexivity].
Qed.

Lemma group_starts b p v : bytes_ok b = true -> Dec b MeshObjectGroup p v -> 0 <= p < zlen b /\ 0 <= space 16 MeshObjectGroup v <= 2 * (zlen b + 16).
Proof.
  intros Hb D. dstruct D F. dcons F D1. dcons F D2. dcons F D3. inversion F; subst. apply sphere_starts in D1 as [S1 S2].
  apply cstr_space in D2; [|auto|lia]. apply cstr_space in D3; [|auto|lia]. split; [exact S1|]. unfold MeshObjectGroup, aligned. rewrite space_struct. cbn [map space_fields].
  rewrite S2. lia.
Qed.

Lemma entry_starts b p v : Dec b MeshEntry p v -> 0 <= p < zlen b /\ space 16 MeshEntry v = 0.
Proof.
  intros D. dstruct D F. dcons F D1. dcons F D2. inversion F; subst. dstruct D2 G. dcons G D2. dcons G D3. dcons G D4. inversion G; subst.
  pose proof (int_starts b 4 _ _ ltac:(lia) D1). inversion D1; subst. inversion D2; subst. inversion D3; subst. inversion D4; subst. split; [lia|reflexivity].
Qed.

Lemma bits_starts b p v : Dec b EntryFlag p v -> 0 <= p < zlen b /\ space 16 EntryFlag v = 0.
Proof. intros D. inversion D as [| |? ? ? U| | | | | | | | | | | | |]; subst. apply uint_end in U; [|lia]. split; [lia|reflexivity]. Qed.

(** A pointer to a vector of [k] byte elements, each of which asks for at most [c]. *)
Lemma vec_space b n t k c p v : bytes_ok b = true -> 0 < k -> 0 <= c -> csize t = k -> inline_size t = k ->
  (forall x p, Dec b t p x -> 0 <= p < zlen b /\ space 16 t x <= c) -> Dec b (TAbs 8 (TVec n t)) p v ->
  space 16 (TAbs 8 (TVec n t)) v <= zlen b + k + 16 + (zlen b / k + 1) * c.
Proof.
  intros Hb Hk Hc Ck Ik HD D. pose proof (zlen_nonneg b).
  assert (0 <= (zlen b / k + 1) * c). { pose proof (Z.div_pos (zlen b) k). nia. }
  inversion D as [| | | | | | |w u q U|w u q o x U N Dx| | | | | | |]; subst; [cbn [space]; lia|]. inversion Dx as [| | | | | | | | | | | | | | |? ? ? vs L Dv]; subst.
  pose proof (DecFacts.uint_nonneg _ _ _ _ Hb U) as Ho. cbn [space object_size csize]. fold (space_list 16 t vs). rewrite <- Ik.
  pose proof (elems_len b t (csize t) o vs ltac:(lia) (fun x p H => proj1 (HD x p H)) Ik Dv ltac:(lia)) as HL.
  assert (HS : space_list 16 t vs <= zlen vs * c).
  { apply list_space_le. intros y Hy. apply In_nth_error in Hy as (i & Hi). apply Dv in Hi. now apply HD in Hi. }
  pose proof (round_up_lt (zlen vs * csize t) 16 ltac:(lia)). rewrite Ik in *.
  assert (zlen vs - 1 <= zlen b / csize t) by (apply Z.div_le_lower_bound; lia).
  assert (zlen vs * c <= (zlen b / csize t + 1) * c) by (apply Z.mul_le_mono_nonneg_r; lia). lia.
Qed.

Lemma flags_space b n p v : bytes_ok b = true -> Dec b (TAbs 8 (EntryFlags n)) p v -> space 16 (TAbs 8 (EntryFlags n)) v <= zlen b + 32.
Proof.
  intros Hb D. pose proof (zlen_nonneg b).
  inversion D as [| | | | | | |w u q U|w u q o x U N Dx| | | | | | |]; subst; [cbn [space]; lia|]. dstruct Dx F. dcons F D1. inversion F; subst.
  inversion D1 as [| | | | | | | | | | | | | | |? ? ? l L Dv]; subst. pose proof (DecFacts.uint_nonneg _ _ _ _ Hb U) as Ho.
  pose proof (elems_len b EntryFlag 2 o l ltac:(lia) (fun x p H => proj1 (bits_starts b p x H)) eq_refl Dv ltac:(lia)) as HL.
  cbn [space]. change (object_size (EntryFlags (zlen l)) (VStruct [VArr l])) with (zlen l * 2 + 0 + 0 + 0).
  assert (HS : space_list 16 EntryFlag l <= zlen l * 0).
  { apply list_space_le. intros y Hy. apply In_nth_error in Hy as (i & Hi). apply Dv in Hi. apply bits_starts in Hi as [_ ->]. lia. }
  unfold EntryFlags, aligned. rewrite space_struct. cbn [map space_fields space]. fold (space_list 16 EntryFlag l).
  pose proof (round_up_lt (zlen l * 2 + 0 + 0 + 0) 16 ltac:(lia)). lia.
Qed.

Lemma all_space b p v : bytes_ok b = true -> Dec b (TAbs 8 AllData) p v -> space 16 (TAbs 8 AllData) v <= zlen b + 48.
Proof.
  intros Hb D. pose proof (zlen_nonneg b).
  inversion D as [| | | | | | |w u q U|w u q o x U N Dx| | | | | | |]; subst; [cbn [space]; lia|]. dstruct Dx F. dcons F D1. dcons F D2. inversion F; subst.
  apply sphere_starts in D1 as [_ S]. apply cstr_space in D2; [|auto|lia].
  change (space 16 (TAbs 8 AllData) (VPtr (Some (VStruct [v; v0])))) with (round_up 24 16 + space 16 AllData (VStruct [v; v0])).
  change (round_up 24 16) with 32. unfold AllData, aligned. rewrite space_struct. cbn [map space_fields]. rewrite S. lia.
Qed.

Theorem loaded_meshex_space b x : bytes_ok b = true -> DecMeshEx b x ->
  meshex_space x <= 4 * zlen b + 224 + 2 * (zlen b / 32 + 1) * (zlen b + 16).
Proof.
  intros Hb D. pose proof D as (len & ne & ng & _ & Ne & Ng & Da & Dg & De & Df & _). pose proof (zlen_nonneg b). unfold meshex_space, groups_ty, entries_ty, flags_ty.
  apply all_space in Da; [|exact Hb].
  assert (Lg : groups_ty (opt_len (mx_groups x)) = groups_ty ng \/ mx_groups x = None).
  { destruct (mx_groups x) as [g|]; [left|now right]. inversion Dg as [| | | | | | |w u q U|w u q o y U N Dx| | | | | | |]; subst. inversion Dx; subst. reflexivity. }
  assert (Le : entries_ty (opt_len (mx_entries x)) = entries_ty ne \/ mx_entries x = None).
  { destruct (mx_entries x) as [g|]; [left|now right]. inversion De as [| | | | | | |w u q U|w u q o y U N Dx| | | | | | |]; subst. inversion Dx; subst. reflexivity. }
  assert (Lf : flags_ty (opt_len (mx_flags x)) = flags_ty ne \/ mx_flags x = None).
  { destruct (mx_flags x) as [g|]; [left|now right]. inversion Df as [| | | | | | |w u q U|w u q o y U N Dx| | | | | | |]; subst. dstruct Dx F. dcons F D1. inversion D1; subst. reflexivity. }
  apply (vec_space b ng MeshObjectGroup 32 (2 * (zlen b + 16))) in Dg; try reflexivity; auto; try lia; [|intros ? ? X; apply group_starts in X; [|exact Hb]; lia].
  apply (vec_space b ne MeshEntry 16 0) in De; try reflexivity; auto; try lia; [|intros ? ? X; apply entry_starts in X; lia].
  rewrite Z.mul_0_r in De. apply flags_space in Df; [|exact Hb].
  assert (Hq : 0 <= zlen b / 32) by (apply Z.div_pos; lia). assert (0 <= (zlen b / 32 + 1) * (2 * (zlen b + 16))) by nia.
  assert (G : space 16 (groups_ty (opt_len (mx_groups x))) (vec_ptr (mx_groups x)) <= zlen b + 32 + 16 + (zlen b / 32 + 1) * (2 * (zlen b + 16))).
  { destruct Lg as [-> | ->]; [exact Dg|]. cbn [space vec_ptr option_map groups_ty]. revert H H0. generalize ((zlen b / 32 + 1) * (2 * (zlen b + 16))). clear. intros; lia. }
  assert (E : space 16 (entries_ty (opt_len (mx_entries x))) (vec_ptr (mx_entries x)) <= zlen b + 16 + 16).
  { destruct Le as [-> | ->]; [unfold entries_ty; clear - De; lia|cbn; clear - H; lia]. }
  assert (F : space 16 (flags_ty (opt_len (mx_flags x))) (flags_ptr (mx_flags x)) <= zlen b + 32).
  { destruct Lf as [-> | ->]; [unfold flags_ty; clear - Df; lia|cbn; clear - H; lia]. }
  unfold groups_ty, entries_ty, flags_ty in *. replace (2 * (zlen b / 32 + 1) * (zlen b + 16)) with ((zlen b / 32 + 1) * (2 * (zlen b + 16))) by ring. lia.
Qed.

(** Files of at most 4 GiB: the positions of what they contain fit into the pointers. *)
Theorem loaded_meshex_fits b x : bytes_ok b = true -> zlen b <= 2 ^ 32 -> DecMeshEx b x -> 64 + meshex_space x < 2 ^ 63.
Proof.
  intros Hb L D. pose proof (loaded_meshex_space b x Hb D) as S. pose proof (zlen_nonneg b).
  assert (Q : zlen b / 32 <= 2 ^ 27) by (apply Z.div_le_upper_bound; lia). assert (0 <= zlen b / 32) by (apply Z.div_pos; lia).
  assert (2 * (zlen b / 32 + 1) * (zlen b + 16) <= 2 * (2 ^ 27 + 1) * (2 ^ 32 + 16)) by nia. lia.
Qed.

Theorem check_meshex_small b : bytes_ok b = true -> zlen b <= 2 ^ 32 ->
  (check_read_write_meshex b = Panic <->
     exists x, DecMeshEx b x /\ ((mx_entries x = None /\ opt_len (mx_flags x) <> 0) \/ (mx_flags x = None /\ opt_len (mx_entries x) <> 0))).
Proof.
  intros Hb L. destruct (check_meshex b Hb) as [P _]. rewrite P. split; intros (x & D & H); exists x; (split; [exact D|]); [|tauto].
  destruct H as [H|[H|H]]; [now left|now right|]. exfalso. destruct (meshex_counts b x Hb D) as (X & Lg & Le & Lf & _).
  destruct (Z.eq_dec (opt_len (mx_entries x)) (opt_len (mx_flags x))) as [C|C].
  - pose proof (loaded_meshex_fits b x Hb L D). destruct (meshex_fits x X Lg Le Lf C) as (o & O); [lia|congruence].
  - destruct (meshex_errors x X Lg Le Lf) as [E _]. rewrite E in H by exact C. discriminate.
Qed.

Theorem fuzz_meshex_small x : meshex_ok x = true -> opt_len (mx_groups x) < 2 ^ 32 -> opt_len (mx_entries x) < 2 ^ 32 ->
  opt_len (mx_flags x) < 2 ^ 32 -> 64 + meshex_space x < 2 ^ 63 -> (fuzz_meshex x = Ok tt <-> opt_len (mx_entries x) = opt_len (mx_flags x)).
Proof.
  intros X Lg Le Lf L. apply fuzz_meshex_ok; auto.
  - intros out W. pose proof (meshex_size x out X W). lia.
  - intros H. destruct (Z.eq_dec (opt_len (mx_entries x)) (opt_len (mx_flags x))) as [C|C].
    + destruct (meshex_fits x X Lg Le Lf C) as (o & O); [lia|congruence].
    + destruct (meshex_errors x X Lg Le Lf) as [E _]. rewrite E in H by exact C. discriminate.
Qed.
