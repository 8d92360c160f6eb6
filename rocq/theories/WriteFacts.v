(** The writer never panics on typed values, and [data_ptr] stays close to the
    end of the output. *)
From Coq Require Import Lia ZifyBool ZifyNat ZifyN.
From Verif Require Import Bytes BytesFacts Ssbh Described SsbhFacts Roundtrip RoundtripMain.
Ltac Zify.zify_post_hook ::= ZifyBool.elim_bool_cstr; Z.to_euclidean_division_equations.

Local Opaque two64 le_bytes put Z.max Z.sub Z.add.


Definition wres {A} (na : bool) (r : res A) : Prop :=
  (exists s', r = Ok s') \/ (na = false /\ r = Err EPtrRange).

Lemma wres_bind {A B} na (r : res A) (f : A -> res B) :
  wres na r -> (forall a, wres na (f a)) -> wres na (bind r f).
Proof. intros [(s & ->)|(H & ->)] HF; cbn; [apply HF|right; auto]. Qed.

Lemma wres_ok {A} na (a : A) : wres na (Ok a).
Proof. left; eauto. Qed.

Lemma wres_weaken {A} na na' (r : res A) : (na' = true -> na = true) -> wres na r -> wres na' r.
Proof.
  intros H [H'|(H1 & H2)]; [left; auto|]. right. split; auto. destruct na'; auto.
  rewrite H in H1; auto.
Qed.

Lemma offset_ok s : wpos s <= wdp s -> exists s', write_relative_offset s = Ok s' /\ wdp s' = wdp s.
Proof.
  intros. unfold write_relative_offset. destruct (Z.ltb_spec (wdp s) (wpos s)); [lia|]. eauto.
Qed.

Lemma relptr_wres na a w s : 0 < a ->
  (forall f, w = Some f -> forall s, wres na (f s)) -> wres na (write_relptr a w s).
Proof.
  intros Ha HF. unfold write_relptr, write_rel_ptr_aligned. destruct w as [f|]; [|apply wres_ok].
  rewrite bump_eq. ws.
  destruct (offset_ok (set_dp (round_up (Z.max (wdp s) (wpos s + 8)) a)
      (mkW (wbuf s) (wpos s) (Z.max (wdp s) (wpos s + 8))))) as (s2 & -> & _).
  { cbn. pose proof (round_up_ge (Z.max (wdp s) (wpos s + 8)) a Ha). lia. }
  cbn [bind]. apply wres_bind; [apply HF; auto|]. intros. apply wres_ok.
Qed.

Lemma write_list_wres na w vs s :
  (forall v, In v vs -> forall s, wres na (w v s)) -> wres na (write_list w vs s).
Proof.
  revert s; induction vs as [|v r IH]; intros s H; cbn; [apply wres_ok|].
  apply wres_bind; [apply H; left; auto|]. intros. apply IH. intros; apply H; right; auto.
Qed.

Lemma array_header_wres na c s : wpos s <= wdp s -> wres na (write_array_header c s).
Proof.
  intros H. unfold write_array_header. destruct (c =? 0); cbn [bind]; [apply wres_ok|].
  destruct (offset_ok (set_dp (round_up (wdp s) 8) s)) as (s2 & -> & _).
  { cbn. pose proof (round_up_ge (wdp s) 8 ltac:(lia)). lia. }
  apply wres_ok.
Qed.

Lemma bump_le n s : 0 <= n -> wpos (bump n s) <= wdp (bump n s).
Proof. intros. rewrite bump_eq. cbn. lia. Qed.

Theorem write_wres t : forall m v s,
  twf m t = true -> wt t v = true -> wres (noabs t) (write t v s).
Proof.
  induction t as [w|w ra tags|w| |fs spad aa al HF|t IHt|w t IHt|t IHt| |n|vs HF|n t IHt|n t IHt]
    using ty_ind'; intros m v s E W;
    destruct v; try discriminate W; try (cbn [write]; apply wres_ok).
  - destruct vs; [|discriminate W]. apply wres_ok.
  - rewrite write_struct. rewrite wt_struct in W. apply wres_bind; [|intros; apply wres_ok].
    generalize (bump (size_fields fs vs + spad) s). rewrite twf_struct in E.
    apply andb_true_iff in E as [E1 E]. clear E1 s.
    revert vs W E; induction fs as [|[t' [wp rp]] r IH]; intros [|v vr] W E s;
      cbn in W; try discriminate W; [apply wres_ok|].
    bsplit W. fold (wt_fields r vr) in H. inversion HF as [|? ? Ht Hr]; subst. cbn [fst] in Ht.
    cbn [twf_fields] in E. bsplit E. cbn [write_fields].
    apply wres_bind.
    + assert (X : wres (noabs t') (write t' v s))
        by (destruct r; [destruct m|]; bsplit H0; eapply Ht; eauto).
      eapply wres_weaken; [|exact X]. cbn [noabs]. intros Y. bsplit Y; auto.
    + intros s1. destruct r as [|f r'].
      * destruct vr; [|discriminate]. cbn. apply wres_ok.
      * bsplit H0. eapply wres_weaken; [|apply IH; auto].
        intros X; cbn in X |- *; bsplit X; auto.
  - cbn [write]. apply relptr_wres; [eapply ssbh_align_pos; exact E|].
    destruct o as [v|]; cbn; [|discriminate]. intros f [= <-] s1. eapply IHt; eauto.
  - cbn [write]. unfold write_absptr. destruct o as [v|]; cbn [option_map]; [|apply wres_ok].
    destruct (_ <? _); [|right; auto]. cbn [twf] in E. bsplit E. cbn [wt] in W.
    apply wres_bind; [|intros; apply wres_ok]. eapply wres_weaken; [|eapply IHt; eauto].
    discriminate.
  - cbn [write]. cbn [wt] in W. bsplit W. cbn [twf] in E.
    apply wres_bind; [apply array_header_wres, bump_le; lia|]. intros s1.
    apply wres_bind; [|intros; apply wres_ok].
    apply write_list_wres. intros v Hv s2. rewrite forallb_forall in H. eapply IHt; eauto.
  - cbn [write].
    apply wres_bind; [apply array_header_wres, bump_le; lia|]. intros s1. apply wres_ok.
  - destruct o as [v|].
    + destruct v; try discriminate W. rewrite wt_enum in W. rewrite write_enum.
      assert (E' : twf MInline (TEnum vs) = true) by exact E.
      destruct (find_case tag vs) as [t|] eqn:Ef; [|discriminate].
      destruct (find_case_twf _ _ _ E' Ef) as [_ Et].
      apply wres_bind; [|intros; apply wres_ok].
      apply relptr_wres; [apply enum_align_pos; auto|]. intros f [= <-] s1.
      apply find_case_in in Ef. pose proof Ef as Ef'. rewrite Forall_forall in HF. pose proof (HF _ Ef) as HX.
      eapply wres_weaken; [|eapply HX; eauto]. cbn [snd].
      clear - Ef'. cbn [noabs]. intros X. induction vs as [|[tg t'] r IH]; [destruct Ef'|].
      bsplit X. destruct Ef' as [[= -> ->]|]; auto.
    + cbn [write]. apply wres_bind; [|intros; apply wres_ok].
      apply relptr_wres; [apply enum_align_pos; exact E|discriminate].
  - cbn [write]. cbn [wt] in W. bsplit W. rewrite W. cbn [twf] in E. bsplit E.
    apply write_list_wres. intros v Hv s2. rewrite forallb_forall in H. eapply IHt; eauto.
  - cbn [write]. cbn [wt] in W. bsplit W. rewrite W. cbn [twf] in E. bsplit E.
    apply write_list_wres. intros v Hv s2. rewrite forallb_forall in H. eapply IHt; eauto.
Qed.

Corollary write_total m t v s :
  twf m t = true -> noabs t = true -> wt t v = true -> exists s', write t v s = Ok s'.
Proof.
  intros E N W. destruct (write_wres t m v s E W) as [H|[H _]]; auto. congruence.
Qed.

Corollary write_no_panic m t v s :
  twf m t = true -> wt t v = true -> write t v s <> Panic.
Proof.
  intros E W. destruct (write_wres t m v s E W) as [(s' & ->)|[_ ->]]; discriminate.
Qed.

(** ** [data_ptr] never runs ahead of the output by more than the alignment *)
Definition le16 (x y : Z) : Prop := x <= round_up y 16.

Lemma le16_le x y : x <= y -> le16 x y.
Proof. unfold le16. pose proof (round_up_ge y 16 ltac:(lia)). lia. Qed.

Lemma le16_trans x y z : le16 x y -> le16 y z -> le16 x z.
Proof. unfold le16, round_up. lia. Qed.

Lemma le16_mono x y y' : y <= y' -> le16 x y -> le16 x y'.
Proof. intros H H1. eapply le16_trans; [exact H1|]. apply le16_le; auto. Qed.

Lemma le16_max x y z : le16 x z -> le16 y z -> le16 (Z.max x y) z.
Proof. unfold le16. lia. Qed.

Lemma le16_round x y a : 0 < a -> 16 mod a = 0 -> le16 x y -> le16 (round_up x a) y.
Proof.
  unfold le16. intros Ha Hm H.
  apply round_up_least; auto. unfold round_up.
  apply Z.mod_divide in Hm as [k Hk]; [|lia].
  rewrite Hk. rewrite Z.mul_assoc. apply Z.mod_mul. lia.
Qed.


Definition dpspec (n : Z) (s s' : wst) : Prop :=
  zlen (wbuf s) <= zlen (wbuf s') /\
  wpos s <= wpos s' <= Z.max (wpos s) (zlen (wbuf s')) /\
  forall E, wpos s + n <= E -> le16 (wdp s) (Z.max (zlen (wbuf s)) E) ->
    le16 (wdp s') (Z.max (zlen (wbuf s')) E).

Lemma emit_len bs s : 0 <= wpos s ->
  zlen (wbuf s) <= zlen (wbuf (emit bs s)) /\
  wpos (emit bs s) <= Z.max (wpos s) (zlen (wbuf (emit bs s))) /\
  (0 < zlen bs -> wpos (emit bs s) <= zlen (wbuf (emit bs s))).
Proof.
  intros Hp. cbn. rewrite put_len by auto. destruct bs as [|x r]; [rewrite zlen_nil|]; repeat split; lia.
Qed.

Lemma emit_int_len w n s : 0 <= wpos s -> 0 < w ->
  zlen (wbuf s) <= zlen (wbuf (emit (le_bytes (Z.to_nat w) n) s)) /\
  wpos s + w <= zlen (wbuf (emit (le_bytes (Z.to_nat w) n) s)).
Proof.
  intros Hp Hw. destruct (emit_len (le_bytes (Z.to_nat w) n) s Hp) as (A & B & C).
  rewrite zlen_le_bytes in C. cbn [wpos emit] in C. rewrite zlen_le_bytes in C. lia.
Qed.

Lemma dpspec_bump n k s s' : 0 <= k <= n -> dpspec n (bump k s) s' -> dpspec n s s'.
Proof.
  rewrite bump_eq. unfold dpspec. cbn [wbuf wpos wdp]. intros Hk (A & B & C). repeat split; try lia.
  intros E H1 H2. apply C; auto. apply le16_max; auto. apply le16_le. lia.
Qed.

Lemma dpspec_trans n n' s s1 s2 :
  dpspec n s s1 -> dpspec n' s1 s2 -> wpos s1 + n' <= wpos s + n -> dpspec n s s2.
Proof.
  intros (A & B & C) (A' & B' & C') H. unfold dpspec. repeat split; try lia.
  intros E H1 H2. apply C'; [lia|]. apply C; auto.
Qed.

Lemma dpspec_emit n bs s : 0 <= wpos s -> dpspec n s (emit bs s).
Proof.
  intros Hp. destruct (emit_len bs s Hp) as (A & B & C). unfold dpspec.
  pose proof (zlen_nonneg bs). repeat split; auto.
  - cbn. lia.
  - intros E H1 H2. eapply le16_mono; [|exact H2]. lia.
Qed.

(** Target of a pointer, written at [data_ptr]. *)
Definition dptarget (wr : wst -> res wst) : Prop :=
  forall s s', 0 <= wpos s -> wpos s = wdp s -> wr s = Ok s' ->
    zlen (wbuf s) <= zlen (wbuf s') /\ wpos s <= wpos s' <= Z.max (wpos s) (zlen (wbuf s')) /\
    forall E, le16 (wdp s) (Z.max (zlen (wbuf s)) E) -> le16 (wdp s') (Z.max (zlen (wbuf s')) E).

Lemma dp_relptr a wr s s' :
  0 < a -> 16 mod a = 0 -> 0 <= wpos s -> 0 <= wdp s -> dptarget wr ->
  write_relptr a (Some wr) s = Ok s' -> dpspec 8 s s'.
Proof.
  intros Ha Hm Hp Hd HT H. unfold write_relptr, write_rel_ptr_aligned in H.
  rewrite bump_eq in H. ws.
  set (d0 := Z.max (wdp s) (wpos s + 8)) in *.
  pose proof (round_up_ge d0 a Ha) as Hdu.
  apply bind_ok in H as (s2 & E2 & H). unfold write_relative_offset in E2. ws.
  destruct (Z.ltb_spec (round_up d0 a) (wpos s)); [discriminate|]. injection E2 as <-.
  apply bind_ok in H as (s3 & E3 & H). injection H as <-.
  ws. change 8%nat with (Z.to_nat 8) in *.
  destruct (emit_int_len 8 (round_up d0 a - wpos s) s Hp ltac:(lia)) as (L1 & L2).
  cbn [emit wbuf] in L1, L2.
  apply HT in E3 as (T1 & T2 & T3); ws; try lia.
  set (s4 := if wdp s3 <? wpos s3 then set_dp (round_up (wpos s3) a) s3 else s3).
  assert (B4 : wbuf s4 = wbuf s3) by (unfold s4; destruct (_ <? _); auto).
  unfold dpspec. ws. rewrite B4, zlen_le_bytes. repeat split; try lia.
  intros E H1 H2.
  assert (HD : le16 (round_up d0 a) (Z.max (zlen (wbuf s)) E)).
  { apply le16_round; auto. apply le16_max; auto. apply le16_le. lia. }
  assert (H3 : le16 (wdp s3) (Z.max (zlen (wbuf s3)) E)).
  { apply T3. eapply le16_mono; [|exact HD]. lia. }
  unfold s4. destruct (Z.ltb_spec (wdp s3) (wpos s3)); cbn [set_dp wdp]; auto.
  apply le16_round; auto. eapply le16_trans; [apply le16_le, T2|].
  apply le16_max; [|apply le16_le; lia]. eapply le16_mono; [|exact HD]. lia.
Qed.

Lemma dp_absptr w a wr s s' :
  0 < w -> 0 < a -> 16 mod a = 0 -> 0 <= wpos s -> 0 <= wdp s -> dptarget wr ->
  write_absptr w a (Some wr) s = Ok s' -> dpspec w s s'.
Proof.
  intros Hw Ha Hm Hp Hd HT H. unfold write_absptr in H.
  rewrite !bump_eq in H. ws.
  replace (Z.max (Z.max (wdp s) (wpos s + w)) (wpos s + w))
    with (Z.max (wdp s) (wpos s + w)) in H by lia.
  set (d0 := Z.max (wdp s) (wpos s + w)) in *.
  pose proof (round_up_ge d0 a Ha) as Hdu.
  destruct (Z.ltb_spec (round_up d0 a) (256 ^ w)); [|discriminate].
  apply bind_ok in H as (s3 & E3 & H). injection H as <-. ws.
  destruct (emit_int_len w (round_up d0 a) s Hp ltac:(lia)) as (L1 & L2).
  cbn [emit wbuf] in L1, L2.
  apply HT in E3 as (T1 & T2 & T3); ws; try lia.
  set (s4 := if wdp s3 <? wpos s3 then set_dp (round_up (wpos s3) a) s3 else s3).
  assert (B4 : wbuf s4 = wbuf s3) by (unfold s4; destruct (_ <? _); auto).
  unfold dpspec. ws. rewrite B4, zlen_le_bytes. repeat split; try lia.
  intros E H1 H2.
  assert (HD : le16 (round_up d0 a) (Z.max (zlen (wbuf s)) E)).
  { apply le16_round; auto. apply le16_max; auto. apply le16_le. lia. }
  assert (H3 : le16 (wdp s3) (Z.max (zlen (wbuf s3)) E)).
  { apply T3. eapply le16_mono; [|exact HD]. lia. }
  unfold s4. destruct (Z.ltb_spec (wdp s3) (wpos s3)); cbn [set_dp wdp]; auto.
  apply le16_round; auto. eapply le16_trans; [apply le16_le, T2|].
  apply le16_max; [|apply le16_le; lia]. eapply le16_mono; [|exact HD]. lia.
Qed.

Lemma dp_target_of n t v :
  (forall s s', 0 <= wpos s -> 0 <= wdp s -> write t v s = Ok s' ->
     dpspec n s s' /\ wpos s' = wpos s + n) ->
  0 <= n -> dptarget (write t v).
Proof.
  intros HW Hn s s' Hp Hpd E. destruct (HW s s' Hp ltac:(lia) E) as [(A & B & C) P].
  repeat split; try lia. intros F HF.
  destruct (Z.eq_dec n 0) as [->|Hn0].
  - assert (X : le16 (wdp s') (Z.max (zlen (wbuf s')) (Z.max F (wdp s)))).
    { apply C; [lia|]. apply le16_le. lia. }
    eapply le16_trans; [exact X|]. apply le16_max; [apply le16_le; lia|].
    apply le16_max; [apply le16_le; lia|]. eapply le16_mono; [|exact HF]. lia.
  - assert (X : le16 (wdp s') (Z.max (zlen (wbuf s')) (Z.max F (wpos s + n)))).
    { apply C; [lia|]. apply le16_le. lia. }
    eapply le16_mono; [|exact X]. lia.
Qed.

Lemma cstr_dptarget n bs : 0 < n -> dptarget (write (TCStr n) (VBytes bs)).
Proof.
  intros Hn s s' Hp Hpd E. cbn [write] in E. injection E as <-.
  unfold write_cstring. destruct bs as [|x r].
  - destruct (emit_len (zeros n) s Hp) as (A & B & C). cbn [wpos emit] in *.
    rewrite zlen_zeros in * by lia. repeat split; try lia.
    intros E H. cbn [emit wdp]. eapply le16_mono; [|exact H]. cbn [emit wbuf] in A |- *. lia.
  - destruct (emit_len (x :: r) s Hp) as (A & B & C).
    destruct (emit_len [0] (emit (x :: r) s)) as (A' & B' & C').
    { cbn. pose proof (zlen_nonneg (x :: r)). lia. }
    pose proof (zlen_nonneg (x :: r)).
    assert (wpos (emit [0] (emit (x :: r) s)) = wpos s + zlen (x :: r) + 1) by reflexivity.
    assert (wpos (emit (x :: r) s) = wpos s + zlen (x :: r)) by reflexivity.
    repeat split; try lia.
    intros E HE. change (wdp (emit [0] (emit (x :: r) s))) with (wdp s).
    eapply le16_mono; [|exact HE]. lia.
Qed.

Lemma twf_ptr t : twf MPtr t = true -> twf MTail t = true \/ exists n, t = TCStr n /\ 0 < n.
Proof.
  intros E. destruct t; try (left; exact E).
  right. exists n. split; auto. cbn in E. lia.
Qed.

Lemma dp_target_any t v :
  twf MPtr t = true -> wt t v = true ->
  (forall s s', twf MTail t = true -> 0 <= wpos s -> 0 <= wdp s -> write t v s = Ok s' ->
     dpspec (csize t) s s') ->
  dptarget (write t v).
Proof.
  intros E W HW. destruct (twf_ptr t E) as [Et|(n & -> & Hn)].
  - apply (dp_target_of (csize t)); [|eapply csize_nonneg; exact Et].
    intros s s' Hp Hd Hw. split; [auto|].
    destruct (wok_all t MTail ltac:(discriminate) Et v s s' W Hp Hd Hw). auto.
  - destruct v; try discriminate W. apply cstr_dptarget. auto.
Qed.

Lemma dp_header count s s1 :
  0 <= wpos s -> 0 <= wdp s -> write_array_header count s = Ok s1 ->
  dpspec 16 s s1 /\ wpos s1 = wpos s + 16 /\ wpos s1 <= zlen (wbuf s1) /\ wdp s <= wdp s1 /\
  wdp s1 = round_up (wdp s) 8.
Proof.
  intros Hp Hd H. unfold write_array_header in H. apply bind_ok in H as (s2 & E2 & H).
  injection H as <-.
  assert (exists o, s2 = emit (le_bytes 8 o) (set_dp (round_up (wdp s) 8) s)) as (o & ->).
  { destruct (count =? 0); [injection E2 as <-; eauto|].
    unfold write_relative_offset in E2. destruct (_ <? _); [discriminate|]. injection E2 as <-. eauto. }
  change 8%nat with (Z.to_nat 8).
  pose proof (round_up_ge (wdp s) 8 ltac:(lia)).
  destruct (emit_int_len 8 o (set_dp (round_up (wdp s) 8) s) Hp ltac:(lia)) as (L1 & L2).
  set (s2 := emit (le_bytes (Z.to_nat 8) o) (set_dp (round_up (wdp s) 8) s)) in *.
  assert (P2 : wpos s2 = wpos s + 8) by (unfold s2; ws; rewrite zlen_le_bytes; lia).
  destruct (emit_int_len 8 count s2 ltac:(lia) ltac:(lia)) as (L3 & L4).
  set (s3 := emit (le_bytes (Z.to_nat 8) count) s2) in *.
  assert (P3 : wpos s3 = wpos s2 + 8) by (unfold s3; ws; rewrite zlen_le_bytes; lia).
  assert (D3 : wdp s3 = round_up (wdp s) 8) by reflexivity.
  change (wbuf (set_dp (round_up (wdp s) 8) s)) with (wbuf s) in *.
  change (wpos (set_dp (round_up (wdp s) 8) s)) with (wpos s) in *.
  clearbody s3 s2. unfold dpspec.
  repeat split; try lia. intros E H1 H2. rewrite D3. apply le16_round; auto; try lia.
  eapply le16_mono; [|exact H2]. lia.
Qed.

Lemma dp_list t c vs :
  (forall v, In v vs -> forall s s', 0 <= wpos s -> 0 <= wdp s -> write t v s = Ok s' ->
     dpspec c s s' /\ wpos s' = wpos s + c /\ wdp s <= wdp s') -> 0 <= c ->
  forall s s', 0 <= wpos s -> 0 <= wdp s -> write_list (fun v => write t v) vs s = Ok s' ->
  dpspec (zlen vs * c) s s' /\ wpos s' = wpos s + zlen vs * c /\ wdp s <= wdp s'.
Proof.
  intros HW Hc. induction vs as [|v r IH]; intros s s' Hp Hd H.
  - cbn in H. injection H as <-. change (zlen (@nil val)) with 0. unfold dpspec. repeat split; auto; lia.
  - cbn [write_list] in H. apply bind_ok in H as (s1 & E1 & H).
    destruct (HW v (or_introl eq_refl) s s1 Hp Hd E1) as (A & B & C).
    destruct (IH ltac:(intros; eapply HW; eauto; right; auto) s1 s') as (A' & B' & C'); auto; try lia.
    rewrite zlen_cons. pose proof (zlen_nonneg r).
    replace ((1 + zlen r) * c) with (c + zlen r * c) by lia.
    assert (0 <= zlen r * c) by nia.
    split; [|lia].
    apply (dpspec_trans _ (zlen r * c) s s1 s'); auto; [|lia].
    destruct A as (A1 & A2 & A3). split; [|split]; auto. intros E HE. apply A3. lia.
Qed.

Theorem dp_all t : forall m v s s', m <> MPtr -> twf m t = true -> al16 t = true ->
  wt t v = true -> 0 <= wpos s -> 0 <= wdp s -> write t v s = Ok s' -> dpspec (csize t) s s'.
Proof.
  induction t as [w|w ra tags|w| |fs spad aa al HF|t IHt|w t IHt|t IHt| |n|vs HF|n t IHt|n t IHt]
    using ty_ind'; intros m v s s' Hm E HA W Hp Hd H; pose proof E as E0;
    destruct v; try discriminate W.
  - cbn [write] in H. injection H as <-. apply dpspec_emit; auto.
  - cbn [write] in H. injection H as <-. cbn [csize]. cbn [twf] in E. bsplit E.
    apply (dpspec_bump _ w); [lia|]. apply dpspec_emit; auto. rewrite bump_pos; auto.
  - cbn [write] in H. injection H as <-. cbn [csize]. cbn [twf] in E.
    apply (dpspec_bump _ w); [lia|]. apply dpspec_emit; auto. rewrite bump_pos; auto.
  - destruct vs; [|discriminate W]. cbn in H. injection H as <-. unfold dpspec. repeat split; auto; lia.
  - rewrite wt_struct in W. rewrite write_struct in H. rewrite csize_struct.
    pose proof (csize_nonneg _ _ E) as HC. rewrite csize_struct in HC.
    rewrite twf_struct in E. apply andb_true_iff in E as [E HTF]. bsplit E.
    assert (aa = 0) as -> by lia.
    rewrite (size_fields_csize m spad) in H; auto.
    apply bind_ok in H as (s1 & E1 & H). injection H as <-.
    change (align_after 0 (emit (zeros spad) s1)) with (emit (zeros spad) s1).
    apply (dpspec_bump _ (csize_fields fs + spad)); [lia|].
    assert (Hp0 : 0 <= wpos (bump (csize_fields fs + spad) s)) by (rewrite bump_pos; auto).
    assert (Hd0 : 0 <= wdp (bump (csize_fields fs + spad) s)) by (rewrite bump_dp; lia).
    generalize dependent (bump (csize_fields fs + spad) s). clear Hp Hd s. intros s E1 Hp Hd.
    assert (X : dpspec (csize_fields fs) s s1 /\ wpos s1 = wpos s + csize_fields fs).
    { clear - HF HTF HA W E1 Hp Hd Hm.
      revert vs W s s1 E1 Hp Hd; induction fs as [|[t [wp rp]] r IH]; intros [|v vr] W s s1 E1 Hp Hd;
        cbn in W; try discriminate W.
      - cbn in E1. injection E1 as <-. cbn. unfold dpspec. repeat split; auto; lia.
      - bsplit W. fold (wt_fields r vr) in H. inversion HF as [|? ? Ht Hr]; subst. cbn [fst] in Ht.
        cbn [twf_fields] in HTF. bsplit HTF. cbn [write_fields] in E1.
        apply bind_ok in E1 as (s2 & E2 & E1). cbn [csize_fields].
        assert (Et : exists m', m' <> MPtr /\ twf m' t = true).
        { destruct r; [destruct m|]; bsplit H0; try congruence; eexists; (split; [|eauto]; discriminate). }
        destruct Et as (m' & Hm' & Et).
        cbn [al16] in HA. bsplit HA.
        pose proof (csize_nonneg _ _ Et) as HC.
        pose proof (Ht m' v s s2 Hm' Et HA W Hp Hd E2) as D1.
        destruct (wok_all t m' Hm' Et v s s2 W Hp Hd E2) as [P2 DP2 _ _].
        assert (HR : 0 <= csize_fields r /\ twf_fields m spad r = true \/ r = []).
        { destruct r; auto. bsplit H0. left. split; auto.
          pose proof (csize_nonneg m (TStruct (p :: r) (if match m with MInline => true | _ => false end then spad else 0) 0 None)) as X.
          revert H2. clear - Hm. generalize (p :: r). intros fs H.
          induction fs as [|[t [wp rp]] r0 IH]; [cbn; lia|]. cbn [twf_fields csize_fields] in *. bsplit H.
          destruct r0.
          - cbn. assert (0 <= csize t); [|lia]. destruct m; bsplit H0; eapply csize_nonneg; eauto.
          - bsplit H0. specialize (IH H1). pose proof (csize_nonneg _ _ H0). lia. }
        pose proof (dpspec_emit wp (zeros wp) s2 ltac:(lia)) as D2.
        assert (P2' : wpos (emit (zeros wp) s2) = wpos s + csize t + wp)
          by (cbn; rewrite zlen_zeros; lia).
        assert (Q2' : wdp (emit (zeros wp) s2) = wdp s2) by reflexivity.
        set (s2' := emit (zeros wp) s2) in *. clearbody s2'.
        assert (D12 : forall n, csize t + wp <= n -> dpspec n s s2').
        { intros n Hn. apply (dpspec_trans _ wp s s2 s2'); auto; [|lia].
          destruct D1 as (X1 & X2 & X3). split; [|split]; auto. intros E HE. apply X3. lia. }
        destruct HR as [[HR HTR]|Hnil]; [|subst r].
        + destruct (IH Hr HTR ltac:(assumption) vr H s2' s1 E1) as (D3 & P3); try lia.
          split; [|lia]. apply (dpspec_trans _ (csize_fields r) s s2' s1); auto; [|lia].
          apply D12. lia.
        + destruct vr; [|discriminate]. cbn in E1. injection E1 as <-. cbn [csize_fields].
          split; [|lia]. apply D12. lia. }
    destruct X as [X1 X2].
    assert (HCF : 0 <= csize_fields fs).
    { destruct X1 as (_ & X & _). lia. }
    apply (dpspec_trans _ spad s s1); [|apply dpspec_emit; lia|lia].
    destruct X1 as (Y1 & Y2 & Y3). split; [|split]; auto. intros F HF'. apply Y3. lia.
  - cbn [wt] in W. cbn [write] in H. cbn [twf] in E. cbn [al16] in HA. bsplit HA. cbn [csize].
    destruct o as [v|]; cbn [option_map] in H.
    + eapply dp_relptr; eauto; try lia; [eapply ssbh_align_pos; eauto|].
      apply dp_target_any; auto. intros s1 s1' Et. apply (IHt MTail); auto. discriminate.
    + unfold write_relptr, write_rel_ptr_aligned in H. injection H as <-.
      apply (dpspec_bump _ 8); [lia|]. apply dpspec_emit. rewrite bump_pos; auto.
  - cbn [wt] in W. cbn [write] in H. cbn [twf] in E. bsplit E. cbn [al16] in HA. bsplit HA. cbn [csize].
    destruct o as [v|]; cbn [option_map] in H.
    + eapply dp_absptr; eauto; try lia; [eapply ssbh_align_pos; eauto|].
      apply dp_target_any; auto. intros s1 s1' Et. apply (IHt MTail); auto. discriminate.
    + unfold write_absptr in H. injection H as <-.
      apply (dpspec_bump _ w); [lia|]. apply dpspec_emit. rewrite bump_pos; auto.
  - cbn [wt] in W. bsplit W. cbn [write] in H. cbn [twf] in E. cbn [al16] in HA. cbn [csize].
    apply bind_ok in H as (s1 & E1 & H). apply bind_ok in H as (s3 & E3 & H). injection H as <-.
    apply (dpspec_bump _ 16); [lia|].
    apply dp_header in E1 as (D1 & P1 & L1 & Q1 & _); rewrite ?bump_pos, ?bump_dp in *; try lia.
    rewrite slice_size_csize in E3 by auto.
    pose proof (csize_nonneg _ _ E) as HC. pose proof (zlen_nonneg vs) as HL.
    assert (HS : 0 <= zlen vs * csize t) by nia.
    destruct (dp_list t (csize t) vs) with (s := bump (zlen vs * csize t) (seek (wdp s1) s1)) (s' := s3)
      as (D2 & P2 & Q2); auto.
    { intros v Hv s2 s2' Hp2 Hd2 Hw. rewrite forallb_forall in H0.
      destruct (wok_all t MInline ltac:(discriminate) E v s2 s2' (H0 _ Hv) Hp2 Hd2 Hw) as [X Y _ _].
      split; auto. eapply (IHt MInline); eauto. discriminate. }
    { rewrite bump_pos. cbn. lia. }
    { rewrite bump_dp. cbn. lia. }
    apply dpspec_bump in D2; [|lia]. rewrite bump_pos, bump_dp in *. ws.
    destruct D1 as (X1 & X2 & X3). destruct D2 as (Y1 & Y2 & Y3).
    unfold dpspec. ws. repeat split; try lia.
    intros F HF1 HF2. specialize (X3 F HF1 HF2).
    destruct (Z.eq_dec (zlen vs * csize t) 0) as [Z0|Z0].
    + assert (Z : le16 (wdp s3) (Z.max (zlen (wbuf s3)) (Z.max F (wdp s1)))).
      { apply Y3; [lia|]. apply le16_le. lia. }
      eapply le16_trans; [exact Z|]. apply le16_max; [apply le16_le; lia|].
      apply le16_max; [apply le16_le; lia|]. eapply le16_mono; [|exact X3]. lia.
    + assert (Z : le16 (wdp s3) (Z.max (zlen (wbuf s3)) (Z.max F (wdp s1 + zlen vs * csize t)))).
      { apply Y3; [lia|]. apply le16_le. lia. }
      eapply le16_mono; [|exact Z]. lia.
  - cbn [write] in H. cbn [csize].
    apply bind_ok in H as (s1 & E1 & H). injection H as <-.
    apply (dpspec_bump _ 16); [lia|].
    apply dp_header in E1 as (D1 & P1 & L1 & Q1 & _); rewrite ?bump_pos, ?bump_dp in *; try lia.
    destruct (emit_len bs (seek (wdp s1) s1)) as (A & B & C); [cbn; lia|].
    destruct D1 as (X1 & X2 & X3). unfold dpspec. ws. pose proof (zlen_nonneg bs).
    repeat split; try lia. intros F HF1 HF2. specialize (X3 F HF1 HF2).
    destruct (Z.eq_dec (zlen bs) 0) as [Z0|Z0].
    + rewrite Z0. replace (wdp s1 + 0) with (wdp s1) by lia. eapply le16_mono; [|exact X3]. lia.
    + apply le16_le. lia.
  - cbn in E. destruct m; try discriminate. congruence.
  - cbn [csize]. cbn [al16] in HA. bsplit HA. rename H0 into HA2.
    destruct o as [v|].
    + destruct v; try discriminate W. rewrite wt_enum in W. rewrite write_enum in H.
      destruct (find_case tag vs) as [t|] eqn:Ef; [|discriminate].
      assert (E' : twf MInline (TEnum vs) = true) by exact E.
      destruct (find_case_twf _ _ _ E' Ef) as [Htag Et].
      apply bind_ok in H as (s1 & E1 & H). injection H as <-.
      apply (dpspec_bump _ 16); [lia|].
      assert (Hp0 : 0 <= wpos (bump 16 s)) by (rewrite bump_pos; auto).
      assert (Hd0 : 0 <= wdp (bump 16 s)) by (rewrite bump_dp; lia).
      set (s0 := bump 16 s) in *.
      assert (T : target_ok (write t v) (read t) v).
      { apply (wok_target MTail); auto; [eapply csize_nonneg; eauto|]. apply wok_all; auto. discriminate. }
      destruct (relptr_some _ _ _ _ _ _ (enum_align_pos _ E') Hp0 Hd0 T E1) as (P1 & _).
      apply dp_relptr in E1; auto; try lia.
      2:{ apply enum_align_pos; auto. }
      2:{ apply (dp_target_of (csize t)); [|eapply csize_nonneg; eauto].
          intros s2 s2' Hp2 Hd2 Hw.
          destruct (wok_all t MTail ltac:(discriminate) Et v s2 s2' W Hp2 Hd2 Hw) as [X _ _ _].
          split; auto. apply find_case_in in Ef. pose proof Ef as Ef'. rewrite Forall_forall in HF.
          pose proof (HF _ Ef) as HX. cbn [snd] in HX. eapply (HX MTail); eauto; [discriminate|].
          clear - Ef' HA2. induction vs as [|[tg t'] r IH]; [destruct Ef'|].
          bsplit HA2. destruct Ef' as [[= -> ->]|]; auto. }
      apply (dpspec_trans _ 8 s0 s1); [|apply dpspec_emit; lia|lia].
      destruct E1 as (Y1 & Y2 & Y3). split; [|split]; auto. intros F HF'. apply Y3. lia.
    + cbn [write] in H. apply bind_ok in H as (s1 & E1 & H). injection H as <-.
      unfold write_relptr, write_rel_ptr_aligned in E1. injection E1 as <-.
      apply (dpspec_bump _ 16); [lia|].
      assert (Hp0 : 0 <= wpos (bump 16 s)) by (rewrite bump_pos; auto).
      set (s0 := bump 16 s) in *.
      apply (dpspec_bump _ 8); [lia|].
      assert (Hp1 : 0 <= wpos (bump 8 s0)) by (rewrite bump_pos; auto).
      apply (dpspec_trans _ 8 _ (emit (le_bytes 8 0) (bump 8 s0))).
      * apply dpspec_emit; auto.
      * apply dpspec_emit. cbn. rewrite zlen_le_bytes. lia.
      * cbn. rewrite zlen_le_bytes. lia.
  - cbn [wt] in W. bsplit W. cbn [write] in H. cbn [twf] in E. bsplit E. cbn [al16] in HA. cbn [csize].
    rewrite W in H. assert (n = zlen vs) as -> by lia.
    rewrite slice_size_csize in H by auto.
    pose proof (csize_nonneg _ _ H1) as HC. pose proof (zlen_nonneg vs).
    assert (0 <= zlen vs * csize t) by nia.
    apply (dpspec_bump _ (zlen vs * csize t)); [lia|].
    destruct (dp_list t (csize t) vs) with (s := bump (zlen vs * csize t) s) (s' := s') as (D2 & _); auto.
    { intros v Hv s2 s2' Hp2 Hd2 Hw. rewrite forallb_forall in H0.
      destruct (wok_all t MInline ltac:(discriminate) H1 v s2 s2' (H0 _ Hv) Hp2 Hd2 Hw) as [X Y _ _].
      split; auto. eapply (IHt MInline); eauto. discriminate. }
    { rewrite bump_pos. lia. }
    { rewrite bump_dp. lia. }
  - cbn [wt] in W. bsplit W. cbn [write] in H. cbn [twf] in E. bsplit E. cbn [al16] in HA. cbn [csize].
    rewrite W in H. assert (n = zlen vs) as -> by lia.
    rewrite slice_size_csize in H by auto.
    pose proof (csize_nonneg _ _ H1) as HC. pose proof (zlen_nonneg vs).
    assert (0 <= zlen vs * csize t) by nia.
    apply (dpspec_bump _ (zlen vs * csize t)); [lia|].
    destruct (dp_list t (csize t) vs) with (s := bump (zlen vs * csize t) s) (s' := s') as (D2 & _); auto.
    { intros v Hv s2 s2' Hp2 Hd2 Hw. rewrite forallb_forall in H0.
      destruct (wok_all t MInline ltac:(discriminate) H1 v s2 s2' (H0 _ Hv) Hp2 Hd2 Hw) as [X Y _ _].
      split; auto. eapply (IHt MInline); eauto. discriminate. }
    { rewrite bump_pos. lia. }
    { rewrite bump_dp. lia. }
Qed.
