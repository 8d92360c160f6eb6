(** How large written documents are. *)
From Coq Require Import Lia ZifyBool ZifyNat ZifyN.
From Verif Require Import Bytes BytesFacts Ssbh Described SsbhFacts Roundtrip RoundtripMain WriteFacts SsbhSpec DecFacts ExtFacts SizeSpec.
Ltac Zify.zify_post_hook ::= ZifyBool.elim_bool_cstr; Z.to_euclidean_division_equations.

Local Opaque two64 le_bytes put Z.max Z.sub Z.add.

(** ** Named versions of the inner loops *)
Definition space_list (A : Z) (t : ty) (vs : list val) : Z := fold_right (fun v n => space A t v + n) 0 vs.
Fixpoint space_fields (A : Z) (fs : list field) (vs : list val) : Z :=
  match fs, vs with (t', _) :: fr, v' :: vr => space A t' v' + space_fields A fr vr | _, _ => 0 end.
Lemma space_struct A fs spad aa al vs : space A (TStruct fs spad aa al) (VStruct vs) = space_fields A fs vs.
Proof. cbn. revert vs. induction fs as [|[t [wp rp]] r IH]; intros [|v vr]; cbn; auto. now rewrite IH. Qed.
Lemma space_enum A cs tag v : space A (TEnum cs) (VPtr (Some (VCase tag v))) =
  match find_case tag cs with Some t => round_up (object_size t v) A + space A t v | None => 0 end.
Proof. cbn. induction cs as [|[tg t] r IH]; cbn [find_case]; auto. destruct (tag =? tg); auto. Qed.

(** [lia] without the hypotheses that only cost time. *)
Ltac zl := repeat match goal with
  | H : twf _ _ = true |- _ => clear H | H : twf_fields _ _ _ = true |- _ => clear H | H : wt _ _ = true |- _ => clear H
  | H : wt_fields _ _ = true |- _ => clear H | H : aln _ _ = true |- _ => clear H | H : _ mod _ = 0 |- _ => clear H
  | H : _ && _ = true |- _ => clear H | H : write _ _ _ = Ok _ |- _ => clear H | H : write_fields _ _ _ = Ok _ |- _ => clear H
  | H : (if _ then _ else _) = true |- _ => clear H | H : match _ with _ => _ end = true |- _ => clear H
  | H : _ \/ _ |- _ => clear H | H : forall _, _ |- _ => clear H | H : Forall _ _ |- _ => clear H
  | H : exists _, _ |- _ => clear H
  end; lia.

Lemma object_size_nonneg t v : twf MPtr t = true -> 0 <= object_size t v.
Proof.
  intros E. destruct (twf_ptr t E) as [Et|(n & -> & Hn)].
  - pose proof (csize_nonneg _ _ Et). destruct t; try exact H. discriminate Et.
  - destruct v as [|[|x r]| | | |]; cbn; rewrite ?zlen_cons; try (pose proof (zlen_nonneg r)); lia.
Qed.

Section Size.
  Variable A : Z.
  Hypothesis (HA : 0 < A) (HA8 : A mod 8 = 0).

  Lemma ru_pos n : 0 <= n -> 0 <= round_up n A.
  Proof. intros. pose proof (round_up_ge n A HA). lia. Qed.

  Lemma add_mod x y : x mod A = 0 -> y mod A = 0 -> (x + y) mod A = 0.
  Proof. intros X Y. rewrite Z.add_mod, X, Y by lia. now rewrite Z.mod_0_l by lia. Qed.

  Lemma space_list_ok t vs : (forall v, In v vs -> 0 <= space A t v /\ space A t v mod A = 0) ->
    0 <= space_list A t vs /\ space_list A t vs mod A = 0.
  Proof.
    induction vs as [|v r IH]; intros H; cbn [space_list fold_right].
    - split; [lia|apply Z.mod_0_l; lia].
    - destruct (H v) as [P M]; [now left|]. destruct IH as [P' M']; [intros; apply H; now right|]. fold (space_list A t r). split; [lia|now apply add_mod].
  Qed.

  Lemma space_ok t : forall m v, twf m t = true -> wt t v = true -> 0 <= space A t v /\ space A t v mod A = 0.
  Proof.
    assert (ZZ : 0 <= 0 /\ 0 mod A = 0) by (split; [lia|apply Z.mod_0_l; lia]).
    assert (TT : forall t v, twf MPtr t = true -> (0 <= space A t v /\ space A t v mod A = 0) ->
      0 <= round_up (object_size t v) A + space A t v /\ (round_up (object_size t v) A + space A t v) mod A = 0).
    { intros u v E [P M]. pose proof (ru_pos _ (object_size_nonneg u v E)). split; [lia|]. apply add_mod; [now apply round_up_mod|exact M]. }
    induction t as [w|w ra tags|w| |fs spad aa al HF|t IHt|w t IHt|t IHt| |n|vs HF|n t IHt|n t IHt] using ty_ind';
      intros m v E W; try (destruct v; exact ZZ).
    - destruct v; try discriminate W. rewrite space_struct. rewrite wt_struct in W. rewrite twf_struct in E. apply andb_true_iff in E as [_ E].
      revert vs W E. induction fs as [|[t [wp rp]] r IH]; intros [|v vr] W E; cbn [space_fields]; auto.
      inversion HF as [|? ? Ht Hr]; subst. cbn [fst] in Ht. cbn [wt_fields] in W. bsplit W. cbn [twf_fields] in E. bsplit E.
      assert (X : 0 <= space A t v /\ space A t v mod A = 0).
      { destruct r; [destruct m|]; bsplit H0; eapply Ht; eauto. }
      assert (Y : 0 <= space_fields A r vr /\ space_fields A r vr mod A = 0).
      { destruct r as [|f r]; [destruct vr; exact ZZ|]. bsplit H0. apply IH; auto. }
      split; [lia|apply add_mod; tauto].
    - destruct v; try exact ZZ. destruct o as [v|]; [|exact ZZ]. cbn [space]. cbn [twf] in E. cbn [wt] in W. apply TT; eauto.
    - destruct v; try exact ZZ. destruct o as [v|]; [|exact ZZ]. cbn [space]. cbn [twf] in E. bsplit E. cbn [wt] in W. apply TT; eauto.
    - destruct v; try exact ZZ. cbn [space]. cbn [twf] in E. cbn [wt] in W. bsplit W. fold (space_list A t vs).
      destruct (space_list_ok t vs) as [P M]. { intros v Hv. rewrite forallb_forall in H. eapply IHt; eauto. }
      rewrite isize_csize by exact E. pose proof (csize_nonneg _ _ E). pose proof (zlen_nonneg vs). pose proof (ru_pos (zlen vs * csize t) ltac:(nia)).
      split; [lia|apply add_mod; [now apply round_up_mod|exact M]].
    - destruct v; try exact ZZ. cbn [space]. pose proof (ru_pos (zlen bs) (zlen_nonneg bs)). split; [lia|now apply round_up_mod].
    - destruct v; try exact ZZ. destruct o as [v|]; [|exact ZZ]. destruct v; try exact ZZ. rewrite space_enum. rewrite wt_enum in W.
      destruct (find_case tag vs) as [t|] eqn:F; [|discriminate]. destruct (find_case_twf tag vs t E F) as [_ Et].
      rewrite Forall_forall in HF. pose proof (HF _ (find_case_in _ _ _ F) MTail v Et W) as X. cbn [snd] in X. apply TT; [|exact X].
      destruct t; try exact Et. discriminate Et.
    - destruct v; try exact ZZ. cbn [space]. fold (space_list A t vs). cbn [twf] in E. cbn [wt] in W. bsplit E. bsplit W.
      apply space_list_ok. intros v Hv. rewrite forallb_forall in H0. eapply IHt; eauto.
    - destruct v; try exact ZZ. cbn [space]. fold (space_list A t vs). cbn [twf] in E. cbn [wt] in W. bsplit E. bsplit W.
      apply space_list_ok. intros v Hv. rewrite forallb_forall in H0. eapply IHt; eauto.
  Qed.

  (** ** The main induction: [U] is a multiple of [A] behind everything written so far. *)
  Definition bounded (U n : Z) (s s' : wst) : Prop :=
    wdp s' <= U + n /\ zlen (wbuf s') <= Z.max (zlen (wbuf s)) (U + n).

  Lemma bounded_bump U n k s s' : wpos s + k <= U -> (wdp s <= U -> wdp (bump k s) <= U -> bounded U n (bump k s) s') -> wdp s <= U -> bounded U n s s'.
  Proof. intros Hk H D. unfold bounded in *. rewrite bump_buf in H. apply H; auto. rewrite bump_dp. lia. Qed.

  Lemma bounded_emit U bs s : 0 <= wpos s -> wdp s <= U -> wpos s + zlen bs <= U -> bounded U 0 s (emit bs s).
  Proof. intros Hp D L. unfold bounded. cbn. rewrite put_len by auto. destruct bs; lia. Qed.

  (** Target of a pointer, written at [data_ptr]; [n] is its own size. *)
  Definition btarget (n k : Z) (wr : wst -> res wst) : Prop :=
    forall U s s', 0 <= wpos s -> wpos s = wdp s -> U mod A = 0 -> wdp s + n <= U -> wr s = Ok s' ->
      bounded U k s s' /\ wpos s' = wpos s + n.

  Lemma round_below a d U : 0 < a -> A mod a = 0 -> U mod A = 0 -> d <= U -> round_up d a <= U.
  Proof.
    intros Ha Hm HU Hd. apply round_up_least; auto. apply Z.mod_divide in Hm as [k Hk]; [|lia]. apply Z.mod_divide in HU as [j Hj]; [|lia].
    rewrite Hj, Hk. rewrite Z.mul_assoc. apply Z.mod_mul. lia.
  Qed.

  Lemma bounded_after a n k U s1 s3 pos :
    0 < a -> A mod a = 0 -> U mod A = 0 -> 0 <= n -> 0 <= k -> k mod A = 0 -> 0 <= wpos s1 -> wpos s1 = wdp s1 -> wdp s1 <= U ->
    (bounded (U + round_up n A) k s1 s3 /\ wpos s3 = wpos s1 + n) ->
    bounded U (round_up n A + k) s1 (seek pos (if wdp s3 <? wpos s3 then set_dp (round_up (wpos s3) a) s3 else s3)).
  Proof.
    intros Ha Hm HU Hn Hk Hkm Hp Hpd Hd [[B1 B2] P]. unfold bounded. pose proof (round_up_ge n A HA). pose proof (round_up_mod n A HA).
    assert (R : round_up (wpos s3) a <= U + round_up n A + k).
    { apply round_below; auto; [|lia]. apply add_mod; [now apply add_mod|exact Hkm]. }
    destruct (Z.ltb_spec (wdp s3) (wpos s3)); cbn; lia.
  Qed.

  Lemma put_int_len w n b p : 0 <= p -> 0 < w -> zlen (put b p (le_bytes (Z.to_nat w) n)) = Z.max (zlen b) (p + w).
  Proof.
    intros Hp Hw. rewrite put_len by auto. pose proof (zlen_le_bytes (Z.to_nat w) n) as L.
    destruct (le_bytes (Z.to_nat w) n); [cbn in L; lia|]. rewrite L. lia.
  Qed.

  Lemma bounded_relptr a n k wr s s' U :
    0 < a -> A mod a = 0 -> U mod A = 0 -> 0 <= n -> 0 <= k -> k mod A = 0 -> 0 <= wpos s -> 0 <= wdp s -> wdp s <= U -> wpos s + 8 <= U ->
    btarget n k wr -> write_relptr a (Some wr) s = Ok s' -> bounded U (round_up n A + k) s s'.
  Proof.
    intros Ha Hm HU Hn Hk Hkm Hp Hd HdU HpU HT H. unfold write_relptr, write_rel_ptr_aligned in H. rewrite bump_eq in H. ws.
    set (d0 := Z.max (wdp s) (wpos s + 8)) in *. pose proof (round_up_ge d0 a Ha) as Hdu.
    assert (HR : round_up d0 a <= U) by (apply round_below; auto; lia).
    apply bind_ok in H as (s2 & E2 & H). unfold write_relative_offset in E2. ws.
    destruct (Z.ltb_spec (round_up d0 a) (wpos s)); [discriminate|]. injection E2 as <-.
    apply bind_ok in H as (s3 & E3 & H). injection H as <-. ws.
    pose proof (ru_pos n Hn).
    apply (HT (U + round_up n A)) in E3; ws; try lia; [|now apply add_mod; [|apply round_up_mod]|pose proof (round_up_ge n A HA); lia].
    eapply bounded_after in E3; ws; eauto; try lia.
    unfold bounded in *. destruct E3 as [B1 B2]. split; [exact B1|]. ws. change 8%nat with (Z.to_nat 8) in B2. rewrite put_int_len in B2; lia.
  Qed.

  Lemma bounded_absptr w a n k wr s s' U : 0 < w ->
    0 < a -> A mod a = 0 -> U mod A = 0 -> 0 <= n -> 0 <= k -> k mod A = 0 -> 0 <= wpos s -> 0 <= wdp s -> wdp s <= U -> wpos s + w <= U ->
    btarget n k wr -> write_absptr w a (Some wr) s = Ok s' -> bounded U (round_up n A + k) s s'.
  Proof.
    intros Hw Ha Hm HU Hn Hk Hkm Hp Hd HdU HpU HT H. unfold write_absptr in H. rewrite !bump_eq in H. ws.
    replace (Z.max (Z.max (wdp s) (wpos s + w)) (wpos s + w)) with (Z.max (wdp s) (wpos s + w)) in H by lia.
    set (d0 := Z.max (wdp s) (wpos s + w)) in *. pose proof (round_up_ge d0 a Ha) as Hdu.
    assert (HR : round_up d0 a <= U) by (apply round_below; auto; lia).
    destruct (Z.ltb_spec (round_up d0 a) (256 ^ w)); [|discriminate].
    apply bind_ok in H as (s3 & E3 & H). injection H as <-. ws.
    pose proof (ru_pos n Hn).
    apply (HT (U + round_up n A)) in E3; ws; try lia; [|now apply add_mod; [|apply round_up_mod]|pose proof (round_up_ge n A HA); lia].
    eapply bounded_after in E3; ws; eauto; try lia.
    unfold bounded in *. destruct E3 as [B1 B2]. split; [exact B1|]. ws. rewrite put_int_len in B2; lia.
  Qed.

  Lemma cstr_btarget n bs : 0 < n -> btarget (object_size (TCStr n) (VBytes bs)) 0 (write (TCStr n) (VBytes bs)).
  Proof.
    intros Hn U s s' Hp Hpd HU HL E. cbn [write] in E. injection E as <-. unfold write_cstring, bounded. destruct bs as [|x r]; cbn [object_size] in *.
    - ws. rewrite put_len by lia. rewrite zlen_zeros by lia. destruct (zeros n); lia.
    - set (bs := x :: r) in *. ws. pose proof (zlen_nonneg bs). rewrite !put_len by lia. change (zlen [0]) with 1. unfold bs in *. lia.
  Qed.

  Lemma target_bounded t v : twf MPtr t = true -> wt t v = true ->
    (forall s s' U, twf MTail t = true -> 0 <= wpos s -> 0 <= wdp s -> U mod A = 0 -> wdp s <= U -> wpos s + csize t <= U ->
       write t v s = Ok s' -> bounded U (space A t v) s s') ->
    btarget (object_size t v) (space A t v) (write t v).
  Proof.
    intros E W HW. destruct (twf_ptr t E) as [Et|(n & -> & Hn)].
    - assert (object_size t v = csize t) as -> by (destruct t; try reflexivity; discriminate Et).
      pose proof (csize_nonneg _ _ Et). intros U s s' Hp Hpd HU HL Hw. split; [apply HW; auto; lia|].
      destruct (wok_all t MTail ltac:(discriminate) Et v s s' W Hp ltac:(lia) Hw). auto.
    - destruct v; try discriminate W. now apply cstr_btarget.
  Qed.

  Lemma bounded_header count s s1 U : 0 <= wpos s -> 0 <= wdp s -> U mod A = 0 -> wdp s <= U -> wpos s + 16 <= U ->
    write_array_header count s = Ok s1 -> bounded U 0 s s1 /\ wpos s1 = wpos s + 16 /\ wdp s <= wdp s1.
  Proof.
    intros Hp Hd HU HdU HpU H. unfold write_array_header in H. apply bind_ok in H as (s2 & E2 & H). injection H as <-.
    assert (exists o, s2 = emit (le_bytes 8 o) (set_dp (round_up (wdp s) 8) s)) as (o & ->).
    { destruct (count =? 0); [injection E2 as <-; eauto|]. unfold write_relative_offset in E2. destruct (_ <? _); [discriminate|]. injection E2 as <-. eauto. }
    pose proof (round_up_ge (wdp s) 8 ltac:(lia)). assert (round_up (wdp s) 8 <= U) by (apply round_below; auto; lia).
    unfold bounded. ws. change 8%nat with (Z.to_nat 8). rewrite !put_int_len by (rewrite ?zlen_le_bytes; lia). rewrite !zlen_le_bytes. lia.
  Qed.

  Lemma bounded_list t vs : 0 <= csize t ->
    (forall v, In v vs -> 0 <= space A t v /\ space A t v mod A = 0 /\ forall s s' U, 0 <= wpos s -> 0 <= wdp s -> U mod A = 0 -> wdp s <= U -> wpos s + csize t <= U ->
       write t v s = Ok s' -> bounded U (space A t v) s s' /\ wpos s' = wpos s + csize t /\ wdp s <= wdp s') ->
    forall s s' U, 0 <= wpos s -> 0 <= wdp s -> U mod A = 0 -> wdp s <= U -> wpos s + zlen vs * csize t <= U ->
      write_list (fun v => write t v) vs s = Ok s' -> bounded U (space_list A t vs) s s'.
  Proof.
    intros Hc HW. induction vs as [|v r IH]; intros s s' U Hp Hd HU HdU HpU H.
    - cbn in H. injection H as <-. unfold bounded. cbn. lia.
    - cbn [write_list] in H. apply bind_ok in H as (s1 & E1 & H). rewrite zlen_cons in HpU. pose proof (zlen_nonneg r).
      assert (0 <= zlen r * csize t) by nia.
      destruct (HW v (or_introl eq_refl)) as (S0 & SM & HV). destruct (HV s s1 U Hp Hd HU HdU ltac:(lia) E1) as ([B1 B2] & P & D).
      apply (IH (fun v Hv => HW v (or_intror Hv)) s1 s' (U + space A t v)) in H; try lia; [|now apply add_mod].
      destruct (space_list_ok t r) as [N _]. { intros u Hu. destruct (HW u (or_intror Hu)) as (X & Y & _). auto. }
      unfold bounded in *. cbn [space_list fold_right]. fold (space_list A t r). lia.
  Qed.

  Theorem write_bounded t : forall m v s s' U, m <> MPtr -> twf m t = true -> aln A t = true -> wt t v = true ->
    0 <= wpos s -> 0 <= wdp s -> U mod A = 0 -> wdp s <= U -> wpos s + csize t <= U -> write t v s = Ok s' -> bounded U (space A t v) s s'.
  Proof.
    induction t as [w|w ra tags|w| |fs spad aa al HF|t IHt|w t IHt|t IHt| |n|vs HF|n t IHt|n t IHt] using ty_ind';
      intros m v s s' U Hm E HL W Hp Hd HU HdU HpU H; pose proof E as E0; destruct v; try discriminate W.
    - cbn [write] in H. injection H as <-. cbn [twf csize] in *. apply bounded_emit; auto. rewrite zlen_le_bytes. zl.
    - cbn [write] in H. injection H as <-. cbn [twf csize] in *. bsplit E. apply (bounded_bump U _ w); auto. intros _ D. apply bounded_emit; auto; rewrite bump_pos; auto. rewrite zlen_le_bytes. zl.
    - cbn [write] in H. injection H as <-. cbn [twf csize] in *. apply (bounded_bump U _ w); auto. intros _ D. apply bounded_emit; auto; rewrite bump_pos; auto. rewrite zlen_le_bytes. zl.
    - destruct vs; [|discriminate W]. cbn in H. injection H as <-. unfold bounded. cbn [space]. zl.
    - rewrite wt_struct in W. rewrite write_struct in H. rewrite csize_struct in HpU. rewrite space_struct.
      pose proof (csize_nonneg _ _ E) as HC. rewrite csize_struct in HC.
      rewrite twf_struct in E. apply andb_true_iff in E as [E HTF]. bsplit E. assert (aa = 0) as -> by zl.
      rewrite (size_fields_csize m spad) in H; auto. apply bind_ok in H as (s1 & E1 & H). injection H as <-.
      change (align_after 0 (emit (zeros spad) s1)) with (emit (zeros spad) s1).
      apply (bounded_bump U _ (csize_fields fs + spad)); auto. intros _ D.
      assert (Hp0 : 0 <= wpos (bump (csize_fields fs + spad) s)) by (rewrite bump_pos; auto).
      assert (Hd0 : 0 <= wdp (bump (csize_fields fs + spad) s)) by (rewrite bump_dp; zl).
      rewrite <- (bump_pos (csize_fields fs + spad) s) in HpU.
      generalize dependent (bump (csize_fields fs + spad) s). clear Hp Hd HdU s. intros s HpU E1 D Hp Hd.
      assert (X : bounded U (space_fields A fs vs) s s1 /\ wpos s1 = wpos s + csize_fields fs /\ 0 <= space_fields A fs vs).
      { clear HC. assert (HpU' : wpos s + csize_fields fs <= U) by zl. clear HpU. clear - HA HA8 HF HTF HL W E1 Hp Hd Hm HU D HpU'.
        revert vs W s s1 U E1 Hp Hd HU D HpU'; induction fs as [|[t [wp rp]] r IH]; intros [|v vr] W s s1 U E1 Hp Hd HU D HpU'; cbn in W; try discriminate W.
        - cbn in E1. injection E1 as <-. unfold bounded. cbn [space_fields csize_fields]. zl.
        - bsplit W. fold (wt_fields r vr) in H. inversion HF as [|? ? Ht Hr]; subst. cbn [fst] in Ht.
          cbn [twf_fields] in HTF. bsplit HTF. cbn [write_fields] in E1. apply bind_ok in E1 as (s2 & E2 & E1). cbn [csize_fields] in HpU' |- *.
          assert (Et : exists m', m' <> MPtr /\ twf m' t = true).
          { destruct r; [destruct m|]; bsplit H0; try congruence; eexists; (split; [|eauto]; discriminate). }
          destruct Et as (m' & Hm' & Et). cbn [aln] in HL. bsplit HL. pose proof (csize_nonneg _ _ Et) as HC.
          destruct (space_ok t m' v Et W) as [S0 SM].
          assert (HR : 0 <= csize_fields r /\ twf_fields m spad r = true \/ r = []).
          { destruct r; auto. bsplit H0. left. split; auto. revert H2. clear - Hm. generalize (p :: r). intros fs H.
            induction fs as [|[t [wp rp]] r0 IH]; [cbn; zl|]. cbn [twf_fields csize_fields] in *. bsplit H. destruct r0.
            - cbn. assert (0 <= csize t); [|zl]. destruct m; bsplit H0; eapply csize_nonneg; eauto.
            - bsplit H0. specialize (IH H1). pose proof (csize_nonneg _ _ H0). zl. }
          assert (HC2 : 0 <= csize_fields r) by (destruct HR as [[HR _]|HR]; [exact HR|rewrite HR; cbn; zl]).
          pose proof (Ht m' v s s2 U Hm' Et HL W Hp Hd HU D ltac:(zl) E2) as [B1 B2].
          destruct (wok_all t m' Hm' Et v s s2 W Hp Hd E2) as [P2 DP2 _ _].
          assert (B3 : bounded (U + space A t v) 0 s2 (emit (zeros wp) s2)) by (apply bounded_emit; [zl|zl|rewrite zlen_zeros; zl]).
          destruct B3 as [B3 B4].
          assert (P2' : wpos (emit (zeros wp) s2) = wpos s + csize t + wp) by (cbn; rewrite zlen_zeros; zl).
          assert (Q2' : wdp (emit (zeros wp) s2) = wdp s2) by reflexivity.
          set (s2' := emit (zeros wp) s2) in *. clearbody s2'. cbn [space_fields]. unfold bounded in *.
          destruct HR as [[_ HTR]|Hnil]; [|subst r].
          + destruct (IH Hr HTR ltac:(assumption) vr H s2' s1 (U + space A t v) E1) as (D3 & P3 & N3); try zl. now apply add_mod.
          + destruct vr; [|discriminate]. cbn in E1. injection E1 as <-. cbn [csize_fields space_fields]. zl. }
      destruct X as ([X1 X2] & X3 & X4).
      assert (HCF : 0 <= wpos s1).
      { rewrite X3. assert (0 <= csize_fields fs); [|zl]. clear - HTF Hm. induction fs as [|[t [wp rp]] r0 IH]; [cbn; zl|]. cbn [twf_fields csize_fields] in *. bsplit HTF. destruct r0.
        - cbn. assert (0 <= csize t); [|zl]. destruct m; bsplit H; eapply csize_nonneg; eauto.
        - bsplit H. specialize (IH H0). pose proof (csize_nonneg _ _ H). zl. }
      destruct (bounded_emit (U + space_fields A fs vs) (zeros spad) s1 HCF X1) as [Y1 Y2]; [rewrite zlen_zeros; zl|]. unfold bounded. zl.
    - cbn [wt] in W. cbn [write] in H. cbn [twf] in E. cbn [aln] in HL. bsplit HL. cbn [csize] in HpU.
      destruct o as [v|]; cbn [option_map] in H.
      + cbn [space]. destruct (space_ok t MPtr v E W). apply (bounded_relptr (ssbh_align t) (object_size t v) (space A t v) (write t v)); auto; try zl; [eapply ssbh_align_pos; eauto|now apply object_size_nonneg|].
        apply target_bounded; auto. intros. eapply (IHt MTail); eauto. discriminate.
      + unfold write_relptr, write_rel_ptr_aligned in H. injection H as <-. cbn [space].
        apply (bounded_bump U _ 8); auto. intros _ D. apply bounded_emit; auto; rewrite bump_pos; auto.
    - cbn [wt] in W. cbn [write] in H. cbn [twf] in E. bsplit E. cbn [aln] in HL. bsplit HL. cbn [csize] in HpU.
      destruct o as [v|]; cbn [option_map] in H.
      + cbn [space]. destruct (space_ok t MPtr v H0 W). apply (bounded_absptr w (ssbh_align t) (object_size t v) (space A t v) (write t v)); auto; try zl; [eapply ssbh_align_pos; eauto|now apply object_size_nonneg|].
        apply target_bounded; auto. intros. eapply (IHt MTail); eauto. discriminate.
      + unfold write_absptr in H. injection H as <-. cbn [space].
        apply (bounded_bump U _ w); auto. intros _ D. apply bounded_emit; auto; rewrite bump_pos; auto. rewrite zlen_le_bytes. zl.
    - cbn [wt] in W. bsplit W. cbn [write] in H. cbn [twf] in E. cbn [aln] in HL. cbn [csize] in HpU. cbn [space]. fold (space_list A t vs). rewrite isize_csize by exact E.
      apply bind_ok in H as (s1 & E1 & H). apply bind_ok in H as (s3 & E3 & H). injection H as <-.
      apply (bounded_bump U _ 16); auto. intros _ D.
      apply (bounded_header _ _ _ U) in E1 as ([D1 D2] & P1 & Q1); rewrite ?bump_pos, ?bump_dp in *; try zl; auto.
      rewrite slice_size_csize in E3 by auto. pose proof (csize_nonneg _ _ E) as HC. pose proof (zlen_nonneg vs) as HN.
      assert (HS : 0 <= zlen vs * csize t) by nia. pose proof (round_up_ge (zlen vs * csize t) A HA) as HG.
      apply (bounded_list t vs HC) with (U := U + round_up (zlen vs * csize t) A) in E3; rewrite ?bump_pos, ?bump_dp in *; ws; try zl.
      * destruct (space_list_ok t vs) as [N _]. { intros v Hv. rewrite forallb_forall in H0. apply (space_ok t MInline); auto. }
        unfold bounded in *. rewrite bump_buf in *. ws. zl.
      * intros v Hv. rewrite forallb_forall in H0. destruct (space_ok t MInline v E (H0 _ Hv)) as [S0 SM]. split; [exact S0|]. split; [exact SM|].
        intros s2 s2' U2 Hp2 Hd2 HU2 HdU2 HpU2 Hw. destruct (wok_all t MInline ltac:(discriminate) E v s2 s2' (H0 _ Hv) Hp2 Hd2 Hw) as [X Y _ _].
        split; [|split; auto]. eapply (IHt MInline); eauto. discriminate.
      * apply add_mod; [exact HU|now apply round_up_mod].
    - cbn [write] in H. cbn [csize] in HpU. cbn [space].
      apply bind_ok in H as (s1 & E1 & H). injection H as <-.
      apply (bounded_bump U _ 16); auto. intros _ D.
      apply (bounded_header _ _ _ U) in E1 as ([D1 D2] & P1 & Q1); rewrite ?bump_pos, ?bump_dp in *; try zl; auto.
      pose proof (zlen_nonneg bs). pose proof (round_up_ge (zlen bs) A HA).
      unfold bounded. ws. rewrite put_len by zl. destruct bs; [change (zlen (@nil Z)) with 0 in *|]; zl.
    - cbn in E. destruct m; try discriminate. congruence.
    - cbn [csize] in HpU. cbn [aln] in HL. bsplit HL. rename H0 into HL2.
      destruct o as [v|].
      + destruct v; try discriminate W. rewrite wt_enum in W. rewrite write_enum in H. rewrite space_enum.
        destruct (find_case tag vs) as [t|] eqn:Ef; [|discriminate].
        assert (E' : twf MInline (TEnum vs) = true) by exact E.
        destruct (find_case_twf _ _ _ E' Ef) as [Htag Et]. assert (Ep : twf MPtr t = true) by (destruct t; try exact Et; discriminate Et).
        assert (At : aln A t = true).
        { apply find_case_in in Ef. clear - HL2 Ef. induction vs as [|[tg u] r IH]; [destruct Ef|]. bsplit HL2. destruct Ef as [[= -> ->]|Ef]; auto. }
        destruct (space_ok t MPtr v Ep W) as [S0 SM].
        apply bind_ok in H as (s1 & E1 & H). injection H as <-.
        apply (bounded_bump U _ 16); auto. intros _ D.
        pose proof (bump_pos 16 s) as P0. pose proof (bump_dp 16 s) as Q0.
        pose proof (object_size_nonneg t v Ep) as ON. pose proof (ru_pos _ ON) as RN.
        assert (P1 : wpos s1 = wpos s + 8).
        { unfold write_relptr, write_rel_ptr_aligned in E1. apply bind_ok in E1 as (s2 & E2 & E1). apply bind_ok in E1 as (s3 & E3 & E1). injection E1 as <-.
          unfold write_relative_offset in E2. destruct (_ <? _); [discriminate|]. injection E2 as <-. ws. rewrite zlen_le_bytes, !bump_pos. zl. }
        apply (bounded_relptr (enum_align vs) (object_size t v) (space A t v) _ _ _ U) in E1; try zl; auto.
        * destruct (bounded_emit (U + (round_up (object_size t v) A + space A t v)) (le_bytes 8 tag) s1) as [Y1 Y2]; [zl|exact (proj1 E1)|rewrite zlen_le_bytes; zl|].
          unfold bounded in *. zl.
        * apply enum_align_pos; auto.
        * apply target_bounded; auto. intros. rewrite Forall_forall in HF. apply (HF _ (find_case_in _ _ _ Ef) MTail); auto. discriminate.
      + cbn [write] in H. apply bind_ok in H as (s1 & E1 & H). injection H as <-.
        unfold write_relptr, write_rel_ptr_aligned in E1. injection E1 as <-. cbn [space].
        apply (bounded_bump U _ 16); auto. intros _ D. pose proof (bump_pos 16 s) as P0. set (s0 := bump 16 s) in *. clearbody s0.
        rewrite bump_eq. unfold bounded. ws. change 8%nat with (Z.to_nat 8). rewrite !put_int_len by (rewrite ?zlen_le_bytes; zl). rewrite zlen_le_bytes. zl.
    - cbn [wt] in W. bsplit W. cbn [write] in H. cbn [twf] in E. bsplit E. cbn [aln] in HL. cbn [space]. fold (space_list A t vs). cbn [csize] in HpU.
      rewrite W in H. assert (n = zlen vs) as -> by zl. rewrite slice_size_csize in H by auto. pose proof (csize_nonneg _ _ H1) as HC. pose proof (zlen_nonneg vs) as HN.
      assert (HS : 0 <= zlen vs * csize t) by nia. apply (bounded_bump U _ (zlen vs * csize t)); auto. intros _ D.
      eapply (bounded_list t vs HC) with (U := U); eauto; rewrite ?bump_pos, ?bump_dp in *; try zl.
      intros v Hv. rewrite forallb_forall in H0. destruct (space_ok t MInline v H1 (H0 _ Hv)) as [S0 SM]. split; [exact S0|]. split; [exact SM|].
      intros s2 s2' U2 Hp2 Hd2 HU2 HdU2 HpU2 Hw. destruct (wok_all t MInline ltac:(discriminate) H1 v s2 s2' (H0 _ Hv) Hp2 Hd2 Hw) as [X Y _ _].
      split; [|split; auto]. eapply (IHt MInline); eauto. discriminate.
    - cbn [wt] in W. bsplit W. cbn [write] in H. cbn [twf] in E. bsplit E. cbn [aln] in HL. cbn [space]. fold (space_list A t vs). cbn [csize] in HpU.
      rewrite W in H. assert (n = zlen vs) as -> by zl. rewrite slice_size_csize in H by auto. pose proof (csize_nonneg _ _ H1) as HC. pose proof (zlen_nonneg vs) as HN.
      assert (HS : 0 <= zlen vs * csize t) by nia. apply (bounded_bump U _ (zlen vs * csize t)); auto. intros _ D.
      eapply (bounded_list t vs HC) with (U := U); eauto; rewrite ?bump_pos, ?bump_dp in *; try zl.
      intros v Hv. rewrite forallb_forall in H0. destruct (space_ok t MInline v H1 (H0 _ Hv)) as [S0 SM]. split; [exact S0|]. split; [exact SM|].
      intros s2 s2' U2 Hp2 Hd2 HU2 HdU2 HpU2 Hw. destruct (wok_all t MInline ltac:(discriminate) H1 v s2 s2' (H0 _ Hv) Hp2 Hd2 Hw) as [X Y _ _].
      split; [|split; auto]. eapply (IHt MInline); eauto. discriminate.
  Qed.

  (** ** Absolute pointers fit if the space does *)
  Variable K : Z.

  (** All absolute pointers of the type can store every position below [K]. *)
  Fixpoint absw (t : ty) : bool :=
    match t with
    | TStruct fs _ _ _ => (fix go (fs : list field) : bool := match fs with [] => true | (t', _) :: r => absw t' && go r end) fs
    | TRel t' | TArr t' | TFix _ t' | TVec _ t' => absw t'
    | TAbs w t' => (K <=? 256 ^ w) && absw t'
    | TEnum cs => (fix go (cs : list (Z * ty)) : bool := match cs with [] => true | (_, t') :: r => absw t' && go r end) cs
    | _ => true
    end.

  Definition fits (n k : Z) (wr : wst -> res wst) : Prop :=
    forall U s, 0 <= wpos s -> wpos s = wdp s -> U mod A = 0 -> wdp s + n <= U -> U + k < K -> exists s', wr s = Ok s'.

  Lemma fits_relptr a n k wr s U :
    0 < a -> A mod a = 0 -> U mod A = 0 -> 0 <= n -> 0 <= wpos s -> 0 <= wdp s -> wdp s <= U -> wpos s + 8 <= U ->
    fits n k wr -> U + (round_up n A + k) < K -> exists s', write_relptr a (Some wr) s = Ok s'.
  Proof.
    intros Ha Hm HU Hn Hp Hd HdU HpU HT HK. unfold write_relptr, write_rel_ptr_aligned. rewrite bump_eq. ws.
    set (d0 := Z.max (wdp s) (wpos s + 8)) in *. pose proof (round_up_ge d0 a Ha) as Hdu.
    assert (HR : round_up d0 a <= U) by (apply round_below; auto; zl). pose proof (round_up_ge n A HA).
    unfold write_relative_offset. ws. destruct (Z.ltb_spec (round_up d0 a) (wpos s)); [zl|]. cbn [bind]. ws.
    match goal with |- context [wr ?x] => destruct (HT (U + round_up n A) x) as (s3 & ->) end; ws; try zl; [now apply add_mod; [|apply round_up_mod]|].
    cbn [bind]. eauto.
  Qed.

  Lemma fits_absptr w a n k wr s U : 0 < w -> K <= 256 ^ w ->
    0 < a -> A mod a = 0 -> U mod A = 0 -> 0 <= n -> 0 <= k -> 0 <= wpos s -> 0 <= wdp s -> wdp s <= U -> wpos s + w <= U ->
    fits n k wr -> U + (round_up n A + k) < K -> exists s', write_absptr w a (Some wr) s = Ok s'.
  Proof.
    intros Hw HKw Ha Hm HU Hn Hk Hp Hd HdU HpU HT HK. unfold write_absptr. rewrite !bump_eq. ws.
    replace (Z.max (Z.max (wdp s) (wpos s + w)) (wpos s + w)) with (Z.max (wdp s) (wpos s + w)) by zl.
    set (d0 := Z.max (wdp s) (wpos s + w)) in *. pose proof (round_up_ge d0 a Ha) as Hdu.
    assert (HR : round_up d0 a <= U) by (apply round_below; auto; zl). pose proof (round_up_ge n A HA).
    destruct (Z.ltb_spec (round_up d0 a) (256 ^ w)); [|zl].
    match goal with |- context [wr ?x] => destruct (HT (U + round_up n A) x) as (s3 & ->) end; ws; try zl; [now apply add_mod; [|apply round_up_mod]|].
    cbn [bind]. eauto.
  Qed.

  Lemma target_fits t v : twf MPtr t = true -> wt t v = true ->
    (forall s U, twf MTail t = true -> 0 <= wpos s -> 0 <= wdp s -> U mod A = 0 -> wdp s <= U -> wpos s + csize t <= U -> U + space A t v < K ->
       exists s', write t v s = Ok s') ->
    fits (object_size t v) (space A t v) (write t v).
  Proof.
    intros E W HW. destruct (twf_ptr t E) as [Et|(n & -> & Hn)].
    - assert (object_size t v = csize t) as -> by (destruct t; try reflexivity; discriminate Et).
      pose proof (csize_nonneg _ _ Et). intros U s Hp Hpd HU HL HK. apply (HW s U); auto; zl.
    - destruct v; try discriminate W. intros U s _ _ _ _ _. cbn. eauto.
  Qed.

  Lemma fits_list t vs m : m <> MPtr -> twf m t = true -> aln A t = true -> 0 <= csize t -> Forall (fun v => wt t v = true) vs ->
    (forall v, In v vs -> forall s U, 0 <= wpos s -> 0 <= wdp s -> U mod A = 0 -> wdp s <= U -> wpos s + csize t <= U ->
       U + space A t v < K -> exists s', write t v s = Ok s') ->
    forall s U, 0 <= wpos s -> 0 <= wdp s -> U mod A = 0 -> wdp s <= U -> wpos s + zlen vs * csize t <= U ->
      U + space_list A t vs < K -> exists s', write_list (fun v => write t v) vs s = Ok s'.
  Proof.
    intros Hm E HL Hc W HW. induction vs as [|v r IH]; intros s U Hp Hd HU HdU HpU HK; [cbn; eauto|].
    inversion W as [|? ? Wv Wr]; subst. cbn [write_list space_list fold_right] in *. fold (space_list A t r) in HK. rewrite zlen_cons in HpU. pose proof (zlen_nonneg r).
    assert (0 <= zlen r * csize t) by nia. destruct (space_ok t m v E Wv) as [S0 SM].
    assert (SR : 0 <= space_list A t r). { apply space_list_ok. intros u Hu. apply (space_ok t m); auto. rewrite Forall_forall in Wr. auto. }
    destruct (HW v (or_introl eq_refl) s U) as (s1 & E1); auto; try zl. rewrite E1. cbn [bind].
    destruct (write_bounded t m v s s1 U Hm E HL Wv Hp Hd HU HdU ltac:(zl) E1) as [B1 _].
    destruct (wok_all t m Hm E v s s1 Wv Hp Hd E1) as [X Y _ _].
    apply (IH Wr (fun u Hu => HW u (or_intror Hu)) s1 (U + space A t v)); try zl. now apply add_mod.
  Qed.

  Theorem write_fits t : forall m v s U, m <> MPtr -> twf m t = true -> aln A t = true -> absw t = true -> wt t v = true ->
    0 <= wpos s -> 0 <= wdp s -> U mod A = 0 -> wdp s <= U -> wpos s + csize t <= U -> U + space A t v < K -> exists s', write t v s = Ok s'.
  Proof.
    induction t as [w|w ra tags|w| |fs spad aa al HF|t IHt|w t IHt|t IHt| |n|vs HF|n t IHt|n t IHt] using ty_ind';
      intros m v s U Hm E HL HW W Hp Hd HU HdU HpU HK; pose proof E as E0; destruct v; try discriminate W; try (cbn [write]; eauto; fail).
    - destruct vs; [|discriminate W]. cbn. eauto.
    - rewrite wt_struct in W. rewrite write_struct. rewrite csize_struct in HpU. rewrite space_struct in HK.
      pose proof (csize_nonneg _ _ E) as HC. rewrite csize_struct in HC.
      rewrite twf_struct in E. apply andb_true_iff in E as [E HTF]. bsplit E.
      rewrite (size_fields_csize m spad); auto. cut (exists s1, write_fields fs vs (bump (csize_fields fs + spad) s) = Ok s1). { intros (s1 & ->). cbn [bind]. eauto. }
      assert (HD : wdp (bump (csize_fields fs + spad) s) <= U) by (rewrite bump_dp; zl).
      assert (Hp0 : 0 <= wpos (bump (csize_fields fs + spad) s)) by (rewrite bump_pos; auto).
      assert (Hd0 : 0 <= wdp (bump (csize_fields fs + spad) s)) by (rewrite bump_dp; zl).
      rewrite <- (bump_pos (csize_fields fs + spad) s) in HpU.
      generalize dependent (bump (csize_fields fs + spad) s). clear Hp Hd HdU s. intros s HpU D Hp Hd.
      assert (HpU' : wpos s + csize_fields fs <= U) by zl. clear HpU HC. clear - HA HA8 HF HTF HL HW W Hp Hd Hm HU D HpU' HK.
      revert vs W s U Hp Hd HU D HpU' HK; induction fs as [|[t [wp rp]] r IH]; intros [|v vr] W s U Hp Hd HU D HpU' HK; cbn in W; try discriminate W; [cbn; eauto|].
      bsplit W. fold (wt_fields r vr) in H. inversion HF as [|? ? Ht Hr]; subst. cbn [fst] in Ht.
      cbn [twf_fields] in HTF. bsplit HTF. cbn [write_fields]. cbn [csize_fields] in HpU'. cbn [space_fields] in HK.
      assert (Et : exists m', m' <> MPtr /\ twf m' t = true).
      { destruct r; [destruct m|]; bsplit H0; try congruence; eexists; (split; [|eauto]; discriminate). }
      destruct Et as (m' & Hm' & Et). cbn [aln] in HL. bsplit HL. cbn [absw] in HW. bsplit HW. pose proof (csize_nonneg _ _ Et) as HC.
      destruct (space_ok t m' v Et W) as [S0 SM].
      assert (HR : 0 <= csize_fields r /\ twf_fields m spad r = true /\ 0 <= space_fields A r vr \/ r = []).
      { destruct r; auto. bsplit H0. left. split; [|split; [auto|]].
        - revert H3. clear - Hm. generalize (p :: r). intros fs H.
          induction fs as [|[t [wp rp]] r0 IH]; [cbn; zl|]. cbn [twf_fields csize_fields] in *. bsplit H. destruct r0.
          + cbn. assert (0 <= csize t); [|zl]. destruct m; bsplit H0; eapply csize_nonneg; eauto.
          + bsplit H0. specialize (IH H1). pose proof (csize_nonneg _ _ H0). zl.
        - revert H3 H. clear - HA HA8 Hm. generalize (p :: r). intros fs. revert vr.
          induction fs as [|[t [wp rp]] r0 IH]; intros [|v vr] H W; cbn [space_fields]; try zl. cbn [twf_fields wt_fields] in *. bsplit H. bsplit W. destruct r0.
          + destruct vr; [|discriminate]. cbn [space_fields]. assert (0 <= space A t v); [|zl]. assert (X : exists m', twf m' t = true) by (destruct m; bsplit H0; eauto).
            destruct X as (m' & X). now apply (space_ok t m').
          + bsplit H0. specialize (IH vr H2 H1). destruct (space_ok t MInline v H0 W). zl. }
      assert (HC2 : 0 <= csize_fields r /\ 0 <= space_fields A r vr) by (destruct HR as [HR|HR]; [tauto|subst r; destruct vr; cbn; zl]).
      destruct (Ht m' v s U) as (s2 & E2); auto; try zl. rewrite E2. cbn [bind].
      pose proof (write_bounded t m' v s s2 U Hm' Et HL W Hp Hd HU D ltac:(zl) E2) as [B1 B2].
      destruct (wok_all t m' Hm' Et v s s2 W Hp Hd E2) as [P2 DP2 _ _].
      assert (P2' : wpos (emit (zeros wp) s2) = wpos s + csize t + wp) by (cbn; rewrite zlen_zeros; zl).
      assert (Q2' : wdp (emit (zeros wp) s2) = wdp s2) by reflexivity.
      set (s2' := emit (zeros wp) s2) in *. clearbody s2'.
      destruct HR as [(_ & HTR & _)|Hnil]; [|subst r].
      + apply (IH Hr HTR) with (U := U + space A t v); auto; try zl. now apply add_mod.
      + destruct vr; [|discriminate]. cbn. eauto.
    - cbn [wt] in W. cbn [write]. cbn [twf] in E. cbn [aln] in HL. bsplit HL. cbn [csize] in HpU. cbn [absw] in HW.
      destruct o as [v|]; cbn [option_map]; [|unfold write_relptr, write_rel_ptr_aligned; eauto].
      cbn [space] in HK. apply (fits_relptr (ssbh_align t) (object_size t v) (space A t v) (write t v) s U); auto; try zl; [eapply ssbh_align_pos; eauto|now apply object_size_nonneg|].
      apply target_fits; auto. intros. eapply (IHt MTail); eauto. discriminate.
    - cbn [wt] in W. cbn [write]. cbn [twf] in E. bsplit E. cbn [aln] in HL. bsplit HL. cbn [csize] in HpU. cbn [absw] in HW. bsplit HW.
      destruct o as [v|]; cbn [option_map]; [|unfold write_absptr; eauto].
      cbn [space] in HK. destruct (space_ok t MPtr v H W).
      apply (fits_absptr w (ssbh_align t) (object_size t v) (space A t v) (write t v) s U); auto; try zl; [eapply ssbh_align_pos; eauto|now apply object_size_nonneg|].
      apply target_fits; auto. intros. eapply (IHt MTail); eauto. discriminate.
    - cbn [wt] in W. bsplit W. cbn [write]. cbn [twf] in E. cbn [aln] in HL. cbn [csize] in HpU. cbn [space] in HK. fold (space_list A t vs) in HK. rewrite isize_csize in HK by exact E.
      destruct (array_header_wres true (zlen vs) (bump 16 s)) as [(s1 & E1)|[? _]]; [apply bump_le; zl| |discriminate]. rewrite E1. cbn [bind].
      apply (bounded_header _ _ _ U) in E1 as ([D1 D2] & P1 & Q1); rewrite ?bump_pos, ?bump_dp in *; try zl; auto.
      rewrite slice_size_csize by auto. pose proof (csize_nonneg _ _ E) as HC. pose proof (zlen_nonneg vs) as HN.
      assert (HS : 0 <= zlen vs * csize t) by nia. pose proof (round_up_ge (zlen vs * csize t) A HA) as HG.
      rewrite forallb_forall in H.
      match goal with |- context [write_list ?f vs ?x] => destruct (fits_list t vs MInline) with (s := x) (U := U + round_up (zlen vs * csize t) A) as (s3 & ->) end;
        rewrite ?bump_pos, ?bump_dp in *; ws; try zl; try discriminate; auto.
      * apply Forall_forall. auto.
      * intros v Hv s2 U2 ? ? ? ? ? ?. eapply (IHt MInline); eauto. discriminate.
      * apply add_mod; [exact HU|now apply round_up_mod].
      * cbn [bind]. eauto.
    - cbn [write]. destruct (array_header_wres true (zlen bs) (bump 16 s)) as [(s1 & E1)|[? _]]; [apply bump_le; zl| |discriminate]. rewrite E1. cbn [bind]. eauto.
    - cbn [csize] in HpU. cbn [aln] in HL. bsplit HL. rename H into HL2.
      destruct o as [v|].
      + destruct v; try discriminate W. rewrite wt_enum in W. rewrite write_enum. rewrite space_enum in HK.
        destruct (find_case tag vs) as [t|] eqn:Ef; [|discriminate].
        assert (E' : twf MInline (TEnum vs) = true) by exact E.
        destruct (find_case_twf _ _ _ E' Ef) as [Htag Et]. assert (Ep : twf MPtr t = true) by (destruct t; try exact Et; discriminate Et).
        assert (At : aln A t = true /\ absw t = true).
        { apply find_case_in in Ef. cbn [absw] in HW. clear - HL2 HW Ef. induction vs as [|[tg u] r IH]; [destruct Ef|]. bsplit HL2. bsplit HW. destruct Ef as [[= -> ->]|Ef]; auto. }
        destruct At as [At Kt].
        cut (exists s1, write_relptr (enum_align vs) (Some (write t v)) (bump 16 s) = Ok s1). { intros (s1 & ->). cbn [bind]. eauto. }
        pose proof (bump_pos 16 s) as P0. pose proof (bump_dp 16 s) as Q0.
        apply (fits_relptr (enum_align vs) (object_size t v) (space A t v) _ _ U); try zl; auto.
        * apply enum_align_pos; auto.
        * now apply object_size_nonneg.
        * apply target_fits; auto. intros. rewrite Forall_forall in HF. apply (HF _ (find_case_in _ _ _ Ef) MTail v s0 U0); auto. discriminate.
      + cbn [write]. unfold write_relptr, write_rel_ptr_aligned. cbn [bind]. eauto.
    - cbn [wt] in W. bsplit W. cbn [write]. cbn [twf] in E. bsplit E. cbn [aln] in HL. cbn [absw] in HW. cbn [space] in HK. fold (space_list A t vs) in HK. cbn [csize] in HpU.
      rewrite W. assert (n = zlen vs) as -> by zl. rewrite slice_size_csize by auto. pose proof (csize_nonneg _ _ H0) as HC. pose proof (zlen_nonneg vs) as HN.
      assert (HS : 0 <= zlen vs * csize t) by nia. rewrite forallb_forall in H.
      apply (fits_list t vs MInline) with (U := U); rewrite ?bump_pos, ?bump_dp; try zl; try discriminate; auto.
      * apply Forall_forall. auto.
      * intros v Hv s2 U2 ? ? ? ? ? ?. eapply (IHt MInline); eauto. discriminate.
    - cbn [wt] in W. bsplit W. cbn [write]. cbn [twf] in E. bsplit E. cbn [aln] in HL. cbn [absw] in HW. cbn [space] in HK. fold (space_list A t vs) in HK. cbn [csize] in HpU.
      rewrite W. assert (n = zlen vs) as -> by zl. rewrite slice_size_csize by auto. pose proof (csize_nonneg _ _ H0) as HC. pose proof (zlen_nonneg vs) as HN.
      assert (HS : 0 <= zlen vs * csize t) by nia. rewrite forallb_forall in H.
      apply (fits_list t vs MInline) with (U := U); rewrite ?bump_pos, ?bump_dp; try zl; try discriminate; auto.
      * apply Forall_forall. auto.
      * intros v Hv s2 U2 ? ? ? ? ? ?. eapply (IHt MInline); eauto. discriminate.
  Qed.
End Size.
