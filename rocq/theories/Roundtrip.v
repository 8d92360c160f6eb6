(** The writer/reader correspondence for every well-formed descriptor. *)
From Coq Require Import Lia ZifyBool ZifyNat ZifyN.
From Verif Require Import Bytes BytesFacts Ssbh Described SsbhFacts.
Ltac Zify.zify_post_hook ::= ZifyBool.elim_bool_cstr; Z.to_euclidean_division_equations.

Ltac ws := cbn [wdp wpos wbuf seek emit set_dp] in *.

Local Opaque two64 le_bytes put Z.max Z.sub Z.add.

(** Positions a write of [sz] inline bytes at [p] may touch: the inline bytes and the
    data region claimed by moving [data_ptr] to [d']. *)
Definition reg (p sz d d' i : Z) : Prop :=
  p <= i < p + sz \/ Z.max d (p + sz) <= i < d'.

Definition wreg (s s' : wst) (sz : Z) : Z -> Prop := reg (wpos s) sz (wdp s) (wdp s').

Record wspec (m : mode) (t : ty) (v : val) (s s' : wst) : Prop := {
  ws_pos : wpos s' = wpos s + csize t;
  ws_dp : wdp s <= wdp s';
  ws_frame : agree (fun i => ~ wreg s s' (csize t) i) (wbuf s) (wbuf s');
  ws_read : forall b, wdp s' < two64 -> agree (wreg s s' (csize t)) (wbuf s') b ->
    exists q, read t b (wpos s) = Ok (v, q) /\ (m = MInline -> q = wpos s + csize t)
}.

Lemma bump_pos n s : wpos (bump n s) = wpos s.
Proof. unfold bump. destruct (_ <? _); auto. Qed.
Lemma bump_buf n s : wbuf (bump n s) = wbuf s.
Proof. unfold bump. destruct (_ <? _); auto. Qed.
Lemma bump_dp n s : wdp (bump n s) = Z.max (wdp s) (wpos s + n).
Proof. unfold bump. destruct (Z.ltb_spec (wdp s) (wpos s + n)); cbn; lia. Qed.

Lemma bump_eq n s : bump n s = mkW (wbuf s) (wpos s) (Z.max (wdp s) (wpos s + n)).
Proof.
  destruct (bump n s) as [b p d] eqn:E. pose proof (bump_pos n s). pose proof (bump_buf n s).
  pose proof (bump_dp n s). rewrite E in *. cbn in *. congruence.
Qed.

Lemma read_int_agree w n s (R : Z -> Prop) b :
  0 < w -> 0 <= n < 256 ^ w -> 0 <= wpos s ->
  (forall i, wpos s <= i < wpos s + w -> R i) ->
  agree R (wbuf (emit (le_bytes (Z.to_nat w) n) s)) b ->
  read_int w b (wpos s) = Ok (n, wpos s + w).
Proof.
  intros Hw Hn Hp HR HA. unfold read_int.
  pose proof (get_put (wbuf s) (wpos s) (le_bytes (Z.to_nat w) n) Hp) as G.
  rewrite le_bytes_length in G.
  eapply (get_bytes_agree R) in G; [|intros i Hi; apply HR; lia|exact HA]. rewrite G.
  rewrite le_val_le_bytes; auto. rewrite Z2Nat.id; lia.
Qed.

Lemma emit_frame bs s (R : Z -> Prop) :
  0 <= wpos s -> (forall i, R i -> ~ (wpos s <= i < wpos s + zlen bs)) ->
  agree R (wbuf s) (wbuf (emit bs s)).
Proof. intros Hp HR i x Hi Hx. cbn. apply put_out; auto. Qed.

Lemma zlen_zeros n : 0 <= n -> zlen (zeros n) = n.
Proof. intros. unfold zeros, zlen. rewrite repeat_length. lia. Qed.

Lemma pow256_8 : 256 ^ 8 = two64.
Proof. reflexivity. Qed.

(** ** Targets of pointers *)
Definition tspec (rd : list Z -> Z -> res (val * Z)) (v : val) (s s3 : wst) : Prop :=
  wpos s <= wpos s3 /\ wdp s <= wdp s3 /\
  agree (fun i => ~ (wpos s <= i < Z.max (wpos s3) (wdp s3))) (wbuf s) (wbuf s3) /\
  forall b, Z.max (wpos s3) (wdp s3) < two64 ->
    agree (fun i => wpos s <= i < Z.max (wpos s3) (wdp s3)) (wbuf s3) b ->
    exists q, rd b (wpos s) = Ok (v, q).

Definition target_ok (wr : wst -> res wst) rd v : Prop :=
  forall s s3, 0 <= wpos s -> wpos s = wdp s -> wr s = Ok s3 -> tspec rd v s s3.

Lemma relptr_some a wr rd v s s' :
  0 < a -> 0 <= wpos s -> 0 <= wdp s -> target_ok wr rd v ->
  write_relptr a (Some wr) s = Ok s' ->
  wpos s' = wpos s + 8 /\ wdp s <= wdp s' /\ wpos s + 8 <= wdp s' /\
  agree (fun i => ~ wreg s s' 8 i) (wbuf s) (wbuf s') /\
  forall b, wdp s' < two64 -> agree (wreg s s' 8) (wbuf s') b ->
    exists off q, read_int 8 b (wpos s) = Ok (off, wpos s + 8) /\ off <> 0 /\
      absolute_offset_checked (wpos s) off = Ok (wpos s + off) /\
      rd b (wpos s + off) = Ok (v, q).
Proof.
  intros Ha Hp Hd HT H. unfold write_relptr, write_rel_ptr_aligned in H.
  rewrite bump_eq in H. ws.
  set (d0 := Z.max (wdp s) (wpos s + 8)) in *.
  set (du := round_up d0 a) in *.
  assert (Hdu : d0 <= du) by (apply round_up_ge; auto).
  apply bind_ok in H as (s2 & E2 & H). unfold write_relative_offset in E2.
  ws.
  destruct (Z.ltb_spec du (wpos s)); [discriminate|]. injection E2 as <-.
  apply bind_ok in H as (s3 & E3 & H). injection H as <-.
  ws. rewrite zlen_le_bytes in *.
  change (Z.of_nat 8) with 8 in *.
  apply HT in E3 as (T1 & T2 & T3 & T4); ws; try lia.
  rewrite ?zlen_le_bytes in *.
  set (s4 := if wdp s3 <? wpos s3 then set_dp (round_up (wpos s3) a) s3 else s3).
  assert (D4 : Z.max (wpos s3) (wdp s3) <= wdp s4).
  { unfold s4. destruct (Z.ltb_spec (wdp s3) (wpos s3)); cbn; [|lia].
    pose proof (round_up_ge (wpos s3) a Ha). lia. }
  assert (B4 : wbuf s4 = wbuf s3) by (unfold s4; destruct (_ <? _); auto).
  unfold wreg, reg. ws. rewrite B4. fold d0.
  repeat split; try lia.
  - eapply agree_trans; [|eapply agree_mono; [|exact T3]].
    + apply (emit_frame (le_bytes 8 (du - wpos s)) s); [lia|].
      cbn. rewrite zlen_le_bytes. lia.
    + cbn. lia.
  - intros b Hb HA.
    assert (R1 : read_int 8 b (wpos s) = Ok (du - wpos s, wpos s + 8)).
    { apply (read_int_agree 8 (du - wpos s) s (fun i => wpos s <= i < wpos s + 8)); try lia.
      - rewrite pow256_8. lia.
      - eapply agree_trans.
        + eapply agree_mono; [|exact T3]. cbn. lia.
        + eapply agree_mono; [|exact HA]. cbv beta. lia. }
    destruct (T4 b) as (q & Hq); [lia| |].
    { eapply agree_mono; [|exact HA]. cbv beta. lia. }
    exists (du - wpos s), q. repeat split; auto; try lia.
    + unfold absolute_offset_checked. replace (wpos s + (du - wpos s) <? two64) with true by lia. auto.
    + replace (wpos s + (du - wpos s)) with du by lia. auto.
Qed.

Lemma absptr_some w a wr rd v s s' :
  0 < w -> 0 < a -> 0 <= wpos s -> 0 <= wdp s -> target_ok wr rd v ->
  write_absptr w a (Some wr) s = Ok s' ->
  wpos s' = wpos s + w /\ wdp s <= wdp s' /\ wpos s + w <= wdp s' /\
  agree (fun i => ~ wreg s s' w i) (wbuf s) (wbuf s') /\
  forall b, wdp s' < two64 -> agree (wreg s s' w) (wbuf s') b ->
    exists off q, read_int w b (wpos s) = Ok (off, wpos s + w) /\ off <> 0 /\
      rd b off = Ok (v, q) /\ off = round_up (Z.max (wdp s) (wpos s + w)) a.
Proof.
  intros Hw Ha Hp Hd HT H. unfold write_absptr in H.
  rewrite !bump_eq in H. ws.
  replace (Z.max (Z.max (wdp s) (wpos s + w)) (wpos s + w))
    with (Z.max (wdp s) (wpos s + w)) in H by lia.
  set (d0 := Z.max (wdp s) (wpos s + w)) in *.
  set (du := round_up d0 a) in *.
  assert (Hdu : d0 <= du) by (apply round_up_ge; auto).
  destruct (Z.ltb_spec du (256 ^ w)); [|discriminate].
  apply bind_ok in H as (s3 & E3 & H). injection H as <-.
  ws. rewrite zlen_le_bytes in *.
  assert (Z.of_nat (Z.to_nat w) = w) as Hww by lia. rewrite Hww in *.
  apply HT in E3 as (T1 & T2 & T3 & T4); ws; try lia.
  rewrite ?zlen_le_bytes in *.
  set (s4 := if wdp s3 <? wpos s3 then set_dp (round_up (wpos s3) a) s3 else s3).
  assert (D4 : Z.max (wpos s3) (wdp s3) <= wdp s4).
  { unfold s4. destruct (Z.ltb_spec (wdp s3) (wpos s3)); cbn; [|lia].
    pose proof (round_up_ge (wpos s3) a Ha). lia. }
  assert (B4 : wbuf s4 = wbuf s3) by (unfold s4; destruct (_ <? _); auto).
  unfold wreg, reg. ws. rewrite B4. fold d0.
  repeat split; try lia.
  - eapply agree_trans; [|eapply agree_mono; [|exact T3]].
    + apply (emit_frame (le_bytes (Z.to_nat w) du) s); [lia|].
      cbn. rewrite zlen_le_bytes. lia.
    + cbn. lia.
  - intros b Hb HA.
    assert (R1 : read_int w b (wpos s) = Ok (du, wpos s + w)).
    { apply (read_int_agree w du s (fun i => wpos s <= i < wpos s + w)); try lia.
      eapply agree_trans.
      + eapply agree_mono; [|exact T3]. cbn. lia.
      + eapply agree_mono; [|exact HA]. cbv beta. lia. }
    destruct (T4 b) as (q & Hq); [lia| |].
    { eapply agree_mono; [|exact HA]. cbv beta. lia. }
    exists du, q. repeat split; auto. lia.
Qed.

(** ** Type specifications *)
Definition wok (m : mode) (t : ty) : Prop :=
  forall v s s', wt t v = true -> 0 <= wpos s -> 0 <= wdp s ->
    write t v s = Ok s' -> wspec m t v s s'.

Lemma wok_target m t v :
  0 <= csize t -> wok m t -> wt t v = true -> target_ok (write t v) (read t) v.
Proof.
  intros Hc HW W s s3 Hp Hpd E. destruct (HW v s s3 W Hp ltac:(lia) E) as [A B C D].
  unfold wreg, reg in *. repeat split; try lia.
  - eapply agree_mono; [|exact C]. cbn. lia.
  - intros b Hb HA. destruct (D b) as (q & Hq & _); [lia| |eauto].
    eapply agree_mono; [|exact HA]. cbv beta. lia.
Qed.

(** C strings *)
Lemma read_cstr_get bs b p n :
  get_bytes (length bs + 1) b p = Some (bs ++ [0]) ->
  Forall (fun x => x <> 0) bs -> (length bs < n)%nat ->
  read_cstr n b p = Ok (bs, p + zlen bs + 1).
Proof.
  revert p n; induction bs as [|x r IH]; intros p n G HF Hn.
  - destruct n; [cbn in Hn; lia|]. cbn in G |- *.
    destruct (byte_at b p); [|discriminate]. injection G as ->. cbn. f_equal. f_equal. lia.
  - destruct n; [lia|]. cbn [get_bytes read_cstr length app Nat.add] in G |- *.
    destruct (byte_at b p); [|discriminate].
    destruct (get_bytes (length r + 1) b (p + 1)) eqn:G'; [|discriminate].
    injection G as -> ->. inversion HF; subst.
    replace (x =? 0) with false by lia.
    rewrite (IH (p + 1) n); auto; [|cbn in Hn; lia]. cbn [bind]. f_equal. f_equal.
    rewrite zlen_cons. lia.
Qed.

Lemma cstr_target n bs :
  0 < n -> wt (TCStr n) (VBytes bs) = true ->
  target_ok (write (TCStr n) (VBytes bs)) (read (TCStr n)) (VBytes bs).
Proof.
  intros Hn W s s3 Hp Hpd E. cbn [write] in E. injection E as <-.
  cbn [wt] in W.
  assert (HF : Forall (fun x => x <> 0) bs).
  { apply Forall_forall. intros x Hx. rewrite forallb_forall in W. apply W in Hx. lia. }
  set (k := match bs with [] => n | _ => zlen bs + 1 end).
  assert (Hk : 0 < k) by (unfold k; destruct bs; [lia|pose proof (zlen_nonneg (z :: bs)); lia]).
  assert (Hk' : zlen bs + 1 <= k) by (unfold k; destruct bs; rewrite ?zlen_nil; lia).
  assert (E1 : wpos (write_cstring n bs s) = wpos s + k).
  { unfold write_cstring, k. destruct bs; cbn [emit wpos].
    - rewrite zlen_zeros; lia.
    - change (zlen [0]) with 1. lia. }
  assert (E2 : wdp (write_cstring n bs s) = wdp s) by (destruct bs; reflexivity).
  unfold tspec. rewrite E1, E2. repeat split; try lia.
  - unfold write_cstring. destruct bs as [|z r].
    + assert (k = n) as -> by reflexivity. apply emit_frame; [lia|]. rewrite zlen_zeros; lia.
    + set (bs := z :: r) in *. apply (agree_trans _ _ (wbuf (emit bs s))).
      * apply emit_frame; [lia|]. intros i Hi. lia.
      * apply emit_frame; cbn [emit wpos]; [pose proof (zlen_nonneg bs); lia|].
        change (zlen [0]) with 1. intros i Hi. pose proof (zlen_nonneg bs). lia.
  - intros b Hb HA.
    assert (G : get_bytes (length bs + 1) (wbuf (write_cstring n bs s)) (wpos s) = Some (bs ++ [0])).
    { apply get_bytes_spec. split; [rewrite app_length; cbn; lia|].
      intros j Hj. unfold write_cstring. destruct bs as [|z r].
      - cbn in Hj. replace j with 0%nat by lia. cbn [emit wbuf].
        rewrite put_in; [|lia|rewrite zlen_zeros; lia].
        replace (wpos s + Z.of_nat 0 - wpos s) with 0 by lia. unfold zeros.
        rewrite byte_at_nth by lia. destruct (Z.to_nat n) eqn:E; [lia|]. reflexivity.
      - set (bs := z :: r) in *. cbn [emit wbuf wpos].
        destruct (Z.ltb_spec (Z.of_nat j) (zlen bs)).
        + rewrite nth_error_app1 by (unfold zlen in *; lia).
          assert (exists x, nth_error bs j = Some x) as [x Hx].
          { destruct (nth_error bs j) eqn:E; eauto. apply nth_error_None in E. unfold zlen in *. lia. }
          rewrite Hx. apply put_out; [pose proof (zlen_nonneg bs); lia|lia|].
          rewrite put_in by lia. rewrite byte_at_nth by lia.
          replace (Z.to_nat (wpos s + Z.of_nat j - wpos s)) with j by lia. auto.
        + assert (Z.of_nat j = zlen bs) by (unfold zlen in *; lia).
          rewrite put_in; [|lia|change (zlen [0]) with 1; lia].
          rewrite nth_error_app2 by (unfold zlen in *; lia).
          replace (j - length bs)%nat with 0%nat by (unfold zlen in *; lia).
          replace (wpos s + Z.of_nat j - (wpos s + zlen bs)) with 0 by lia. reflexivity. }
    eapply get_bytes_agree in G; [| |exact HA].
    2:{ intros i Hi. cbn. unfold zlen in *. lia. }
    cbn [read]. pose proof (get_bytes_bound _ _ _ _ G ltac:(lia)).
    rewrite (read_cstr_get bs); auto; [cbn; eauto|]. lia.
Qed.

Lemma target_of t v :
  twf MPtr t = true -> (twf MTail t = true -> wok MTail t) -> wt t v = true ->
  target_ok (write t v) (read t) v.
Proof.
  intros E HW W. destruct t; try (apply (wok_target MTail); auto; eapply csize_nonneg; exact E; fail).
  all: try (apply (wok_target MTail); [eapply csize_nonneg; exact E| |exact W];
    apply HW; exact E).
  destruct v; try discriminate W. apply cstr_target; auto. cbn in E. lia.
Qed.

(** Slices *)
Lemma write_list_spec t vs : twf MInline t = true -> wok MInline t ->
  forall s s', forallb (wt t) vs = true -> 0 <= wpos s -> 0 <= wdp s ->
  wpos s + zlen vs * csize t <= wdp s ->
  write_list (fun v' => write t v') vs s = Ok s' ->
  wpos s' = wpos s + zlen vs * csize t /\ wdp s <= wdp s' /\
  agree (fun i => ~ wreg s s' (zlen vs * csize t) i) (wbuf s) (wbuf s') /\
  forall b, wdp s' < two64 -> agree (wreg s s' (zlen vs * csize t)) (wbuf s') b ->
    read_n (length vs) (read t b) (wpos s) = Ok (vs, wpos s + zlen vs * csize t).
Proof.
  intros E HW. pose proof (csize_nonneg _ _ E) as HC. set (c := csize t) in *.
  induction vs as [|v r IH]; intros s s' W Hp Hd Hle H.
  - cbn in H. injection H as <-. change (zlen (@nil val)) with 0. repeat split; try lia.
    + apply agree_refl.
    + intros. cbn. f_equal. f_equal. lia.
  - cbn [write_list] in H. apply bind_ok in H as (s1 & E1 & H). cbn in W. bsplit W.
    rewrite zlen_cons in *. pose proof (zlen_nonneg r) as HL.
    replace ((1 + zlen r) * c) with (c + zlen r * c) in * by lia.
    assert (0 <= zlen r * c) by nia.
    destruct (HW v s s1 W Hp Hd E1) as [A B C D]. fold c in A, C, D.
    destruct (IH s1 s') as (IA & IB & IC & ID); auto; try lia.
    unfold wreg, reg in *. repeat split; try lia.
    + eapply agree_trans; [eapply agree_mono; [|exact C]|eapply agree_mono; [|exact IC]]; cbv beta; lia.
    + intros b Hb HA. cbn [length read_n].
      destruct (D b) as (q & Hq & Hq'); [lia| |].
      { eapply agree_trans; [eapply agree_mono; [|exact IC]|eapply agree_mono; [|exact HA]]; cbv beta; lia. }
      rewrite Hq, Hq' by auto. cbn [bind]. rewrite <- A.
      rewrite (ID b); auto.
      { cbn. f_equal. f_equal. lia. }
      eapply agree_mono; [|exact HA]. cbv beta; lia.
Qed.

(** Fields *)
Lemma write_fields_spec m spad fs :
  m <> MPtr -> 0 <= spad ->
  Forall (fun f => forall m, m <> MPtr -> twf m (fst f) = true -> wok m (fst f)) fs ->
  twf_fields m spad fs = true ->
  forall vs s s', wt_fields fs vs = true -> 0 <= wpos s -> 0 <= wdp s ->
  wpos s + csize_fields fs + spad <= wdp s ->
  write_fields fs vs s = Ok s' ->
  wpos s' = wpos s + csize_fields fs /\ wdp s <= wdp s' /\
  agree (fun i => ~ wreg s s' (csize_fields fs) i) (wbuf s) (wbuf s') /\
  forall b, wdp s' < two64 -> agree (wreg s s' (csize_fields fs)) (wbuf s') b ->
    exists q, read_fields fs b (wpos s) = Ok (vs, q) /\
      (m = MInline -> q = wpos s + csize_fields fs + spad).
Proof.
  intros Hm Hs. induction fs as [|[t [wp rp]] r IH]; intros HF E vs s s' W Hp Hd Hle H.
  - destruct vs; [|discriminate W]. cbn in H. injection H as <-.
    cbn [csize_fields]. repeat split; try lia.
    + apply agree_refl.
    + intros b Hb HA. exists (wpos s). cbn. split; auto. cbn in E. destruct m; try discriminate. lia.
  - destruct vs as [|v vr]; [discriminate W|].
    cbn [wt_fields] in W. bsplit W. cbn [write_fields] in H.
    apply bind_ok in H as (s1 & E1 & H).
    inversion HF as [|? ? Ht Hr]; subst. cbn [fst] in Ht.
    cbn [csize_fields] in *. cbn [twf_fields] in E. bsplit E.
    assert (Et : exists m', m' <> MPtr /\ twf m' t = true /\ (r <> [] -> m' = MInline) /\
                (m = MInline -> m' = MInline)).
    { destruct r.
      - destruct m; [exists MInline|exists MTail|congruence]; bsplit H1; repeat split; auto; try congruence.
      - exists MInline. bsplit H1. repeat split; auto; congruence. }
    destruct Et as (m' & Hm' & Et & Em1 & Em2).
    pose proof (csize_nonneg _ _ Et) as HC.
    assert (HR : 0 <= csize_fields r).
    { clear - H1 Hm. destruct r as [|f r']; [cbn; lia|]. bsplit H1.
      pose proof (csize_nonneg m (TStruct (f :: r') spad 0 None)) as X.
      rewrite twf_struct, csize_struct in X.
      revert H. generalize (f :: r'). intros fs H. clear - H.
      induction fs as [|[t [wp rp]] r IH]; [cbn; lia|]. cbn [twf_fields csize_fields] in *. bsplit H.
      destruct r.
      - cbn. assert (0 <= csize t); [|lia]. destruct m; bsplit H0; eapply csize_nonneg; eauto.
      - bsplit H0. specialize (IH H1). pose proof (csize_nonneg _ _ H0). lia. }
    destruct (Ht m' Hm' Et v s s1 W Hp Hd E1) as [A B C D].
    set (s1' := emit (zeros wp) s1) in *.
    assert (P1 : wpos s1' = wpos s + csize t + wp) by (unfold s1'; cbn; rewrite zlen_zeros; lia).
    assert (D1 : wdp s1' = wdp s1) by reflexivity.
    assert (F1 : agree (fun i => ~ (wpos s1 <= i < wpos s1 + wp)) (wbuf s1) (wbuf s1')).
    { unfold s1'. apply emit_frame; [lia|]. rewrite zlen_zeros by lia. lia. }
    destruct r as [|f r'].
    { destruct vr; [|discriminate]. cbn in H. injection H as <-. cbn [csize_fields] in *.
      unfold wreg, reg in *.
      repeat split; try lia.
      - eapply agree_trans; [eapply agree_mono; [|exact C]|eapply agree_mono; [|exact F1]]; cbv beta; lia.
      - intros b Hb HA. destruct (D b) as (q & Hq & Hq'); [lia| |].
        { eapply agree_trans; [eapply agree_mono; [|exact F1]|eapply agree_mono; [|exact HA]]; cbv beta; lia. }
        cbn [read_fields]. rewrite Hq. cbn. eexists. split; [reflexivity|].
        intros ->. rewrite Hq' by auto. bsplit H1. lia. }
    set (r := f :: r') in *. assert (Hrn : r <> []) by discriminate. clearbody r s1'. bsplit H1. assert (m' = MInline) as -> by (apply Em1; exact Hrn).
    destruct (IH Hr H2 vr s1' s') as (IA & IB & IC & ID); auto; try lia.
    unfold wreg, reg in *. repeat split; try lia.
    + eapply agree_trans; [eapply agree_mono; [|exact C]|
      eapply agree_trans; [eapply agree_mono; [|exact F1]|eapply agree_mono; [|exact IC]]]; cbv beta; lia.
    + intros b Hb HA. destruct (D b) as (q & Hq & Hq'); [lia| |].
      { eapply agree_trans; [eapply agree_mono; [|exact F1]|
        eapply agree_trans; [eapply agree_mono; [|exact IC]|eapply agree_mono; [|exact HA]]]; cbv beta; lia. }
      cbn [read_fields]. rewrite Hq, Hq' by auto. cbn [bind].
      destruct (ID b) as (q2 & Hq2 & Hq2'); [lia| |].
      { eapply agree_mono; [|exact HA]. cbv beta. lia. }
      replace (wpos s + csize t + rp) with (wpos s1') by lia. rewrite Hq2. cbn.
      eexists. split; [reflexivity|]. intros Hmi. rewrite Hq2' by auto. lia.
Qed.
