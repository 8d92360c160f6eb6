(** Proofs about reading the data of tracks. *)
From Coq Require Import Lia ZifyBool ZifyNat ZifyN.
From Verif Require Import Bytes Ssbh Formats SsbhSpec Bits Float32 AnimComp AnimBuf AnimSpec
  BytesFacts SsbhFacts SsbhLemmas DecFacts BitsFacts AnimLemmas ShdrFacts TrackSpec.
Ltac Zify.zify_post_hook ::= ZifyBool.elim_bool_cstr; Z.to_euclidean_division_equations.

(** ** Values *)

(** A value [x] of type [t] is read at [p] if and only if it is there. *)
Definition reads {T} (t : ty) (enc : T -> val) (size : Z) (at_ : list Z -> Z -> T -> Prop) : Prop :=
  forall b p v q, read t b p = Ok (v, q) <-> exists x, v = enc x /\ at_ b p x /\ q = p + size.

Lemma reads_int w : 0 <= w -> reads (TInt w) VInt w (fun b p n => uint_at b p w n).
Proof.
  intros Hw b p v q. cbn [read]. split.
  - intros H. apply bind_inv in H as ([n q'] & E & [= <- <-]). apply read_int_at in E as [E ->]; eauto.
  - intros (x & -> & E & ->). destruct (read_int_at w b p x (p + w) Hw) as [_ R]. now rewrite R.
Qed.
Lemma reads_word : reads u32 VInt 4 word_at.
Proof. apply reads_int. lia. Qed.
Lemma reads_long : reads u64 VInt 8 (fun b p n => uint_at b p 8 n).
Proof. apply reads_int. lia. Qed.
Lemma reads_byte : reads u8 VInt 1 bool_at.
Proof. apply reads_int. lia. Qed.
Lemma reads_unused : reads (TInt 16) VInt 16 unused_at.
Proof. apply reads_int. lia. Qed.

Fixpoint read_list (ts : list ty) (b : list Z) (p : Z) : res (list val * Z) :=
  match ts with
  | [] => Ok ([], p)
  | t :: r => let* (v, p1) := read t b p in let* (vs, p2) := read_list r b (p1 + 0) in Ok (v :: vs, p2)
  end.
Lemma read_record ts b p : read (record ts) b p = let* (vs, q) := read_list ts b p in Ok (VStruct vs, q).
Proof.
  cbn [read record]. f_equal. revert p. induction ts as [|t ts IH]; intros p; cbn [map read_list]; auto.
  destruct (read t b p) as [[v p1]| |]; cbn [bind]; auto. now rewrite IH.
Qed.
Lemma list_nil b p vs q : read_list [] b p = Ok (vs, q) <-> vs = [] /\ q = p.
Proof. cbn. split; [intros [= <- <-]; auto|intros [-> ->]; auto]. Qed.
Lemma list_cons {T} t (enc : T -> val) size at_ ts b p vs q : reads t enc size at_ ->
  (read_list (t :: ts) b p = Ok (vs, q) <->
   exists x r, vs = enc x :: r /\ at_ b p x /\ read_list ts b (p + size) = Ok (r, q)).
Proof.
  intros R. cbn [read_list]. split.
  - intros H. apply bind_inv in H as ([v p1] & E & H). apply bind_inv in H as ([r p2] & E2 & [= <- <-]).
    apply R in E as (x & -> & A & ->). replace (p + size + 0) with (p + size) in E2 by lia. eauto.
  - intros (x & r & -> & A & E). assert (read t b p = Ok (enc x, p + size)) as -> by (apply R; eauto).
    cbn [bind]. replace (p + size + 0) with (p + size) by lia. now rewrite E.
Qed.

(** Records field by field; [fields l] with the lemmas for the fields in order *)
Lemma record_reads {T} ts (enc : T -> list val) size at_ :
  (forall b p vs q, read_list ts b p = Ok (vs, q) <-> exists x, vs = enc x /\ at_ b p x /\ q = p + size) ->
  reads (record ts) (fun x => VStruct (enc x)) size at_.
Proof.
  intros R b p v q. rewrite read_record. split.
  - intros H. apply bind_inv in H as ([vs p1] & E & [= <- <-]). apply R in E as (x & -> & A & ->). eauto.
  - intros (x & -> & A & ->). destruct (R b p (enc x) (p + size)) as [_ R']. rewrite R'; eauto.
Qed.

Ltac norm := repeat match goal with
  | |- context [?p + Zpos ?a + Zpos ?c] =>
      let d := eval compute in (Zpos a + Zpos c) in replace (p + Zpos a + Zpos c) with (p + d) by lia
  | H : context [?p + Zpos ?a + Zpos ?c] |- _ =>
      let d := eval compute in (Zpos a + Zpos c) in replace (p + Zpos a + Zpos c) with (p + d) in H by lia
  end.
Tactic Notation "take" uconstr(R) "as" ident(x) :=
  match goal with H : read_list (_ :: _) _ _ = _ |- _ =>
    let r := fresh "r" in let A := fresh "A" in
    apply (list_cons _ _ _ _ _ _ _ _ _ R) in H as (x & r & -> & A & H)
  end.
Ltac done_list := match goal with H : read_list [] _ _ = _ |- _ => apply list_nil in H as [-> ->] end; norm.
Tactic Notation "give" uconstr(R) :=
  apply (list_cons _ _ _ _ _ _ _ _ _ R); do 2 eexists; split; [reflexivity|]; norm; split; [eassumption|].
Ltac give_nil := apply list_nil; norm; split; reflexivity.

Lemma reads_vec3 : reads Vector3 vec3_val 12 vec3_at.
Proof.
  apply (record_reads _ (fun v => [VInt (v3x v); VInt (v3y v); VInt (v3z v)])). intros b p vs q. split.
  - intros H. take reads_word as x. take reads_word as y. take reads_word as z. done_list.
    exists (V3 x y z). unfold vec3_at. cbn [v3x v3y v3z]. auto.
  - intros ([x y z] & -> & (A1 & A2 & A3) & ->). cbn [v3x v3y v3z] in *.
    give reads_word. give reads_word. give reads_word. give_nil.
Qed.
Lemma reads_vec4 : reads Vector4 vec4_val 16 vec4_at.
Proof.
  apply (record_reads _ (fun v => [VInt (v4x v); VInt (v4y v); VInt (v4z v); VInt (v4w v)])). intros b p vs q. split.
  - intros H. take reads_word as x. take reads_word as y. take reads_word as z. take reads_word as w. done_list.
    exists (V4 x y z w). unfold vec4_at. cbn [v4x v4y v4z v4w]. auto 8.
  - intros ([x y z w] & -> & (A1 & A2 & A3 & A4) & ->). cbn [v4x v4y v4z v4w] in *.
    give reads_word. give reads_word. give reads_word. give reads_word. give_nil.
Qed.
Lemma reads_transform : reads UncompressedTransform utransform_val 44 transform_at.
Proof.
  apply (record_reads _ (fun t => [vec3_val (ut_scale t); vec4_val (ut_rot t); vec3_val (ut_trans t); VInt (ut_comp t)])).
  intros b p vs q. split.
  - intros H. take reads_vec3 as x. take reads_vec4 as y. take reads_vec3 as z. take reads_word as w. done_list.
    exists (UT x y z w). unfold transform_at. cbn [ut_scale ut_rot ut_trans ut_comp]. auto 8.
  - intros ([x y z w] & -> & (A1 & A2 & A3 & A4) & ->). cbn [ut_scale ut_rot ut_trans ut_comp] in *.
    give reads_vec3. give reads_vec4. give reads_vec3. give reads_word. give_nil.
Qed.
Lemma reads_uv : reads UvTransform uv_val 20 uv_at.
Proof.
  apply (record_reads _ (fun t => [VInt (uv_su t); VInt (uv_sv t); VInt (uv_rot t); VInt (uv_tu t); VInt (uv_tv t)])).
  intros b p vs q. split.
  - intros H. take reads_word as x. take reads_word as y. take reads_word as z. take reads_word as u. take reads_word as v. done_list.
    exists (Uv x y z u v). unfold uv_at. cbn [uv_su uv_sv uv_rot uv_tu uv_tv]. auto 8.
  - intros ([x y z u v] & -> & (A1 & A2 & A3 & A4 & A5) & ->). cbn [uv_su uv_sv uv_rot uv_tu uv_tv] in *.
    give reads_word. give reads_word. give reads_word. give reads_word. give reads_word. give_nil.
Qed.
Lemma reads_bool : reads Boolean bool_val 1 bool_at.
Proof.
  apply (record_reads _ (fun x => [VInt x])). intros b p vs q. split.
  - intros H. take reads_byte as x. done_list. eauto.
  - intros (x & -> & A & ->). give reads_byte. give_nil.
Qed.

(** Ranges before the check of the number of bits *)
Definition range_raw (b : list Z) (p : Z) (c : rangec) : Prop :=
  word_at b p (rc_min c) /\ word_at b (p + 4) (rc_max c) /\ uint_at b (p + 8) 8 (rc_bits c).
Definition raw3 (b : list Z) (p : Z) (c : vec3c) : Prop :=
  range_raw b p (cx c) /\ range_raw b (p + 16) (cy c) /\ range_raw b (p + 32) (cz c).
Definition raw4 (b : list Z) (p : Z) (c : vec4c) : Prop :=
  range_raw b p (c4x c) /\ range_raw b (p + 16) (c4y c) /\ range_raw b (p + 32) (c4z c) /\ range_raw b (p + 48) (c4w c).
Definition raw_transform (b : list Z) (p : Z) (c : transformc) : Prop :=
  raw3 b p (tc_scale c) /\ raw3 b (p + 48) (tc_rot c) /\ raw3 b (p + 96) (tc_trans c).
Definition raw_uv (b : list Z) (p : Z) (c : uvc) : Prop :=
  range_raw b p (uc_su c) /\ range_raw b (p + 16) (uc_sv c) /\ range_raw b (p + 32) (uc_rot c) /\
  range_raw b (p + 48) (uc_tu c) /\ range_raw b (p + 64) (uc_tv c).

Lemma reads_range : reads F32Compression range_val 16 range_raw.
Proof.
  apply (record_reads _ (fun c => [VInt (rc_min c); VInt (rc_max c); VInt (rc_bits c)])). intros b p vs q. split.
  - intros H. take reads_word as x. take reads_word as y. take reads_long as z. done_list.
    exists (Rc x y z). unfold range_raw. cbn [rc_min rc_max rc_bits]. auto.
  - intros ([x y z] & -> & (A1 & A2 & A3) & ->). cbn [rc_min rc_max rc_bits] in *.
    give reads_word. give reads_word. give reads_long. give_nil.
Qed.
Lemma reads_ranges3 : reads Vector3Compression vec3c_val 48 raw3.
Proof.
  apply (record_reads _ (fun c => [range_val (cx c); range_val (cy c); range_val (cz c)])). intros b p vs q. split.
  - intros H. take reads_range as x. take reads_range as y. take reads_range as z. done_list.
    exists (V3c x y z). unfold raw3. cbn [cx cy cz]. auto.
  - intros ([x y z] & -> & (A1 & A2 & A3) & ->). cbn [cx cy cz] in *.
    give reads_range. give reads_range. give reads_range. give_nil.
Qed.
Lemma reads_ranges4 : reads Vector4Compression vec4c_val 64 raw4.
Proof.
  apply (record_reads _ (fun c => [range_val (c4x c); range_val (c4y c); range_val (c4z c); range_val (c4w c)])).
  intros b p vs q. split.
  - intros H. take reads_range as x. take reads_range as y. take reads_range as z. take reads_range as w. done_list.
    exists (V4c x y z w). unfold raw4. cbn [c4x c4y c4z c4w]. auto 8.
  - intros ([x y z w] & -> & (A1 & A2 & A3 & A4) & ->). cbn [c4x c4y c4z c4w] in *.
    give reads_range. give reads_range. give reads_range. give reads_range. give_nil.
Qed.
Lemma reads_transform_ranges : reads TransformCompression transformc_val 144 raw_transform.
Proof.
  apply (record_reads _ (fun c => [vec3c_val (tc_scale c); vec3c_val (tc_rot c); vec3c_val (tc_trans c)])).
  intros b p vs q. split.
  - intros H. take reads_ranges3 as x. take reads_ranges3 as y. take reads_ranges3 as z. done_list.
    exists (Tc x y z). unfold raw_transform. cbn [tc_scale tc_rot tc_trans]. auto.
  - intros ([x y z] & -> & (A1 & A2 & A3) & ->). cbn [tc_scale tc_rot tc_trans] in *.
    give reads_ranges3. give reads_ranges3. give reads_ranges3. give_nil.
Qed.
Lemma reads_uv_ranges : reads UvTransformCompression uvc_val 80 raw_uv.
Proof.
  apply (record_reads _ (fun c => [range_val (uc_su c); range_val (uc_sv c); range_val (uc_rot c); range_val (uc_tu c);
                                   range_val (uc_tv c)])).
  intros b p vs q. split.
  - intros H. take reads_range as x. take reads_range as y. take reads_range as z. take reads_range as u. take reads_range as v. done_list.
    exists (Uvc x y z u v). unfold raw_uv. cbn [uc_su uc_sv uc_rot uc_tu uc_tv]. auto 8.
  - intros ([x y z u v] & -> & (A1 & A2 & A3 & A4 & A5) & ->). cbn [uc_su uc_sv uc_rot uc_tu uc_tv] in *.
    give reads_range. give reads_range. give reads_range. give reads_range. give reads_range. give_nil.
Qed.

(** ** Conversions of what was read *)
Lemma un_range_val c x : un_range (range_val c) = Ok x <-> x = c /\ rc_bits c <= 32.
Proof.
  destruct c as [a b n]. cbn. destruct (Z.leb_spec n 32); split.
  - intros [= <-]. auto.
  - intros [-> _]. auto.
  - discriminate.
  - intros [_ H']. lia.
Qed.
Lemma un_range_ok c : rc_bits c <= 32 -> un_range (range_val c) = Ok c.
Proof. intros. now apply un_range_val. Qed.

Ltac un_inv H := repeat (match type of H with
  | bind (un_range (range_val _)) _ = _ =>
      let E := fresh "E" in let L := fresh "L" in
      apply bind_inv in H as (? & E & H); apply un_range_val in E as [-> L]
  end).

Lemma un_vec3c_val c x : un_vec3c (vec3c_val c) = Ok x <-> x = c /\ rc_bits (cx c) <= 32 /\ rc_bits (cy c) <= 32 /\ rc_bits (cz c) <= 32.
Proof.
  destruct c as [a b d]. unfold un_vec3c, vec3c_val. cbn [cx cy cz]. split.
  - intros H. un_inv H. injection H as <-. auto.
  - intros (-> & L1 & L2 & L3). now rewrite !un_range_ok.
Qed.
Lemma un_vec4c_val c x : un_vec4c (vec4c_val c) = Ok x <->
  x = c /\ rc_bits (c4x c) <= 32 /\ rc_bits (c4y c) <= 32 /\ rc_bits (c4z c) <= 32 /\ rc_bits (c4w c) <= 32.
Proof.
  destruct c as [a b d e]. unfold un_vec4c, vec4c_val. cbn [c4x c4y c4z c4w]. split.
  - intros H. un_inv H. injection H as <-. auto.
  - intros (-> & L1 & L2 & L3 & L4). now rewrite !un_range_ok.
Qed.
Lemma un_uvc_val c x : un_uvc (uvc_val c) = Ok x <->
  x = c /\ rc_bits (uc_su c) <= 32 /\ rc_bits (uc_sv c) <= 32 /\ rc_bits (uc_rot c) <= 32 /\ rc_bits (uc_tu c) <= 32 /\
  rc_bits (uc_tv c) <= 32.
Proof.
  destruct c as [a b d e f]. unfold un_uvc, uvc_val. cbn [uc_su uc_sv uc_rot uc_tu uc_tv]. split.
  - intros H. un_inv H. injection H as <-. auto 8.
  - intros (-> & L1 & L2 & L3 & L4 & L5). now rewrite !un_range_ok.
Qed.
Lemma un_transformc_val c x : un_transformc (transformc_val c) = Ok x <->
  x = c /\ (rc_bits (cx (tc_scale c)) <= 32 /\ rc_bits (cy (tc_scale c)) <= 32 /\ rc_bits (cz (tc_scale c)) <= 32) /\
  (rc_bits (cx (tc_rot c)) <= 32 /\ rc_bits (cy (tc_rot c)) <= 32 /\ rc_bits (cz (tc_rot c)) <= 32) /\
  (rc_bits (cx (tc_trans c)) <= 32 /\ rc_bits (cy (tc_trans c)) <= 32 /\ rc_bits (cz (tc_trans c)) <= 32).
Proof.
  destruct c as [a b d]. unfold un_transformc, transformc_val. cbn [tc_scale tc_rot tc_trans]. split.
  - intros H. apply bind_inv in H as (x1 & E1 & H). apply bind_inv in H as (x2 & E2 & H). apply bind_inv in H as (x3 & E3 & H).
    apply un_vec3c_val in E1 as [-> L1], E2 as [-> L2], E3 as [-> L3]. injection H as <-. auto.
  - intros (-> & L1 & L2 & L3).
    destruct (un_vec3c_val a a) as [_ ->]; auto. destruct (un_vec3c_val b b) as [_ ->]; auto.
    destruct (un_vec3c_val d d) as [_ ->]; auto.
Qed.

(** ** Bits *)

Lemma bits_of_nth n : forall x j, (j < n)%nat -> nth_error (bits_of n x) j = Some (Z.testbit x (Z.of_nat j)).
Proof.
  induction n as [|n IH]; intros x j H; [lia|]. cbn [bits_of]. destruct j as [|j]; cbn [nth_error].
  - now rewrite Z.bit0_odd.
  - rewrite IH by lia. f_equal. replace (Z.of_nat (S j)) with (Z.succ (Z.of_nat j)) by lia.
    now rewrite Z.div2_bits by lia.
Qed.

Lemma bytes_bits_length bs : zlen (bits_of_bytes bs) = 8 * zlen bs.
Proof.
  unfold zlen. induction bs as [|x bs IH]; cbn [bits_of_bytes flat_map length]; auto.
  rewrite app_length, bits_of_length. unfold bits_of_bytes in IH. lia.
Qed.

Lemma bytes_bits_nth bs : forall i, nth_error (bits_of_bytes bs) i = stream_bit bs (Z.of_nat i).
Proof.
  unfold stream_bit. induction bs as [|x bs IH]; intros i.
  - cbn [bits_of_bytes flat_map]. rewrite byte_at_nth by lia. generalize (Z.to_nat (Z.of_nat i / 8)) as k. intros k. now destruct i, k.
  - unfold bits_of_bytes. cbn [flat_map]. destruct (Nat.ltb_spec i 8) as [Hi|Hi].
    + rewrite nth_error_app1 by (rewrite bits_of_length; lia). rewrite bits_of_nth by lia.
      rewrite byte_at_nth by lia. replace (Z.to_nat (Z.of_nat i / 8)) with 0%nat by lia. cbn [nth_error option_map].
      do 2 f_equal. lia.
    + rewrite nth_error_app2 by (rewrite bits_of_length; lia). rewrite bits_of_length.
      unfold bits_of_bytes in IH. rewrite IH. rewrite !byte_at_nth by lia.
      replace (Z.to_nat (Z.of_nat i / 8)) with (S (Z.to_nat (Z.of_nat (i - 8) / 8))) by lia. cbn [nth_error].
      do 2 f_equal. replace (Z.of_nat (i - 8) mod 8) with (Z.of_nat i mod 8) by lia. reflexivity.
Qed.

Lemma nth_skipn {A} n : forall (l : list A) i, nth_error (skipn n l) i = nth_error l (n + i).
Proof. induction n; intros [|x l] i; cbn; auto. now destruct i. Qed.

Lemma stream_skipn b n i : 0 <= n -> 0 <= i -> stream_bit (skipn (Z.to_nat n) b) i = stream_bit b (8 * n + i).
Proof.
  intros Hn Hi. unfold stream_bit. rewrite !byte_at_nth by lia. rewrite nth_skipn.
  replace (Z.to_nat ((8 * n + i) / 8)) with (Z.to_nat n + Z.to_nat (i / 8))%nat by lia.
  replace ((8 * n + i) mod 8) with (i mod 8) by lia. reflexivity.
Qed.

Lemma bits_val_bit l : forall j, 0 <= j < zlen l -> nth_error l (Z.to_nat j) = Some (Z.testbit (bits_val l) j).
Proof.
  intros j Hj. rewrite <- (bits_of_val l) at 1. unfold zlen in Hj. rewrite bits_of_nth by lia. do 2 f_equal. lia.
Qed.

Lemma nth_firstn {A} n : forall (l : list A) i, (i < n)%nat -> nth_error (firstn n l) i = nth_error l i.
Proof. induction n; intros [|x l] [|i] H; cbn; auto; try lia. apply IHn. lia. Qed.

Lemma high_bit w v i : 0 <= v < 2 ^ w -> 0 <= w <= i -> Z.testbit v i = false.
Proof. intros R H. rewrite <- (Z.mod_small v (2 ^ w)) by auto. now apply Z.mod_pow2_bits_high. Qed.

Lemma code_unique b p w v v' : 0 <= w -> code_at b p w v -> code_at b p w v' -> v = v'.
Proof.
  intros Hw [R H] [R' H']. apply Z.bits_inj'. intros i Hi. destruct (Z.ltb_spec i w) as [L|L].
  - specialize (H i ltac:(lia)). specialize (H' i ltac:(lia)). congruence.
  - rewrite !(high_bit w); auto; lia.
Qed.

Lemma stream_end b i : 0 <= i -> (stream_bit b i <> None <-> i < 8 * zlen b).
Proof.
  intros Hi. unfold stream_bit. rewrite byte_at_nth by lia.
  transitivity (nth_error b (Z.to_nat (i / 8)) <> None).
  { now destruct (nth_error b (Z.to_nat (i / 8))). }
  rewrite nth_error_Some. unfold zlen. lia.
Qed.

(** The reader of the bits from byte [n] of [b] on, at bit [i] *)
Definition reader (b : list Z) (n i : Z) : breader := mkBR (bits_of_bytes (skipn (Z.to_nat n) b)) i.

Lemma slice_code b n i w : 0 <= n -> 0 <= i -> 0 <= w ->
  match slice (bits_of_bytes (skipn (Z.to_nat n) b)) i w with
  | Some s => code_at b (8 * n + i) w (bits_val s) /\ (w = 0 \/ 8 * n + i + w <= 8 * zlen b)
  | None => 8 * zlen b < 8 * n + i + w
  end.
Proof.
  intros Hn Hi Hw. unfold slice. rewrite bytes_bits_length.
  assert (Ls : zlen (skipn (Z.to_nat n) b) = Z.max 0 (zlen b - n)) by (unfold zlen; rewrite skipn_length; lia).
  destruct (Z.leb_spec (i + w) (8 * zlen (skipn (Z.to_nat n) b))) as [L|L]; [|lia].
  set (l := bits_of_bytes (skipn (Z.to_nat n) b)) in *.
  assert (Ll : zlen l = 8 * zlen (skipn (Z.to_nat n) b)) by apply bytes_bits_length.
  set (s := firstn (Z.to_nat w) (skipn (Z.to_nat i) l)).
  assert (Lw : zlen s = w) by (unfold s, zlen; rewrite firstn_length, skipn_length; unfold zlen in *; lia).
  split; [|lia]. split; [rewrite <- Lw; apply bits_val_range|].
  intros j Hj. replace (8 * n + i + j) with (8 * n + (i + j)) by lia. rewrite <- stream_skipn by lia.
  rewrite <- (bits_val_bit s) by lia. unfold s. rewrite nth_firstn by lia. rewrite nth_skipn.
  unfold l. rewrite bytes_bits_nth. f_equal. lia.
Qed.

Lemma code_end b p w v : 0 <= p -> 0 < w -> code_at b p w v -> p + w <= 8 * zlen b.
Proof.
  intros Hp Hw [_ H]. specialize (H (w - 1) ltac:(lia)).
  assert (stream_bit b (p + (w - 1)) <> None) by congruence. apply stream_end in H0; lia.
Qed.

Lemma read_code m b n i w : 0 <= n -> 0 <= i -> 1 <= w <= m ->
  (forall v r, br_read m w (reader b n i) = Ok (v, r) <-> code_at b (8 * n + i) w v /\ r = reader b n (i + w)) /\
  ((exists e, br_read m w (reader b n i) = Err e) <-> 8 * zlen b < 8 * n + i + w).
Proof.
  intros Hn Hi Hw. pose proof (slice_code b n i w Hn Hi ltac:(lia)) as S.
  unfold br_read, reader. cbn [br_bits br_index].
  destruct (slice _ i w) as [s|].
  - destruct S as [C E]. replace ((1 <=? w) && (w <=? m)) with true by lia. split.
    + intros v r. split.
      * intros [= <- <-]. auto.
      * intros [C' ->]. do 2 f_equal. eapply code_unique; [|exact C|exact C']. lia.
    + split; [intros [e H]; discriminate|]. intros. exfalso. lia.
  - split; [|split; eauto].
    intros v r. split; [discriminate|]. intros [C _]. exfalso. apply code_end in C; lia.
Qed.

Lemma read_sign b n i : 0 <= n -> 0 <= i ->
  (forall v r, read_bit (reader b n i) = Ok (v, r) <-> stream_bit b (8 * n + i) = Some v /\ r = reader b n (i + 1)) /\
  ((exists e, read_bit (reader b n i) = Err e) <-> 8 * zlen b <= 8 * n + i).
Proof.
  intros Hn Hi. pose proof (slice_code b n i 1 Hn Hi ltac:(lia)) as S.
  unfold read_bit, reader. cbn [br_bits br_index]. unfold slice in *.
  destruct (Z.leb_spec (i + 1) (zlen (bits_of_bytes (skipn (Z.to_nat n) b)))) as [L|L].
  - destruct S as [[_ C] E].
    change (Z.to_nat 1) with 1%nat in *.
    destruct (skipn (Z.to_nat i) (bits_of_bytes (skipn (Z.to_nat n) b))) as [|x r0] eqn:K.
    { exfalso. apply (f_equal (@length bool)) in K. rewrite skipn_length in K. cbn in K. unfold zlen in L. lia. }
    cbn [firstn] in *. specialize (C 0 ltac:(lia)). rewrite Z.add_0_r in C.
    assert (X : stream_bit b (8 * n + i) = Some x) by (rewrite C; now destruct x).
    split.
    + intros v r. rewrite X. split; [intros [= <- <-]; auto|]. intros [[= <-] ->]. reflexivity.
    + split; [intros [e H]; discriminate|]. intros. exfalso. lia.
  - split; [|split; [intros _; lia|eauto]].
    intros v r. split; [discriminate|]. intros [C _]. exfalso.
    assert (stream_bit b (8 * n + i) <> None) by congruence. apply stream_end in H; lia.
Qed.

(** ** Frames *)

(** The number of bits from byte [n] on *)
Definition total (b : list Z) (n : Z) : Z := 8 * (Z.max n (zlen b) - n).

(** [f] reads the [w] bits at [i] if they exist, and its result is the only one with [P]. *)
Definition decodes {A} (b : list Z) (n i w : Z) (f : breader -> res (A * breader)) (P : A -> Prop) : Prop :=
  (i + w <= total b n -> exists x, P x /\ f (reader b n i) = Ok (x, reader b n (i + w))) /\
  (total b n < i + w -> (exists e, f (reader b n i) = Err e) /\ forall x, ~ P x) /\
  (forall x y, P x -> P y -> x = y).

Lemma decodes_ok {A} b n i w f (P : A -> Prop) : decodes b n i w f P ->
  forall x r, f (reader b n i) = Ok (x, r) <-> P x /\ r = reader b n (i + w).
Proof.
  intros (H1 & H2 & H3) x r. destruct (Z.leb_spec (i + w) (total b n)) as [L|L].
  - destruct (H1 L) as (y & Py & E). rewrite E. split; [intros [= <- <-]; auto|].
    intros [Px ->]. do 2 f_equal. auto.
  - destruct (H2 L) as ([e E] & N). rewrite E. split; [discriminate|]. intros [Px _]. now apply N in Px.
Qed.

Lemma decodes_fits {A} b n i w f (P : A -> Prop) x : decodes b n i w f P -> P x -> i + w <= total b n.
Proof.
  intros (H1 & H2 & H3) Px. destruct (Z.leb_spec (i + w) (total b n)) as [L|L]; auto.
  destruct (H2 L) as (_ & N). now apply N in Px.
Qed.

Lemma decodes_np {A} b n i w f (P : A -> Prop) : decodes b n i w f P -> f (reader b n i) <> Panic.
Proof.
  intros (H1 & H2 & H3) E. destruct (Z.leb_spec (i + w) (total b n)) as [L|L].
  - destruct (H1 L) as (y & Py & E'). congruence.
  - destruct (H2 L) as ([e E'] & N). congruence.
Qed.

Lemma decodes_ext {A} b n i w w' f f' (P Q : A -> Prop) : decodes b n i w f P -> w = w' ->
  (f (reader b n i) = f' (reader b n i)) -> (forall x, P x <-> Q x) -> decodes b n i w' f' Q.
Proof.
  intros (H1 & H2 & H3) <- E F. unfold decodes. rewrite <- E. split; [|split].
  - intros L. destruct (H1 L) as (x & Px & Ex). exists x. split; auto. now apply F.
  - intros L. destruct (H2 L) as (Ee & N). split; auto. intros x Q'. apply F in Q'. now apply (N x).
  - intros x y Qx Qy. apply H3; now apply F.
Qed.

Lemma decodes_bind {A B} b n i w w' f (g : A -> breader -> res (B * breader)) P Q : 0 <= w -> 0 <= w' ->
  decodes b n i w f P ->
  (i + w <= total b n -> forall x, P x -> decodes b n (i + w) w' (g x) (Q x)) ->
  decodes b n i (w + w') (fun r => let* (x, r1) := f r in g x r1) (fun y => exists x, P x /\ Q x y).
Proof.
  intros Hw Hw' D G. assert (D' := D). destruct D' as (H1 & H2 & H3). unfold decodes. rewrite Z.add_assoc. split; [|split].
  - intros L. destruct (H1 ltac:(lia)) as (x & Px & E). destruct (G ltac:(lia) x Px) as (G1 & _).
    destruct (G1 ltac:(lia)) as (y & Qy & Ey). exists y. split; [eauto|]. now rewrite E.
  - intros L. destruct (Z.leb_spec (i + w) (total b n)) as [L'|L'].
    + destruct (H1 L') as (x & Px & E). destruct (G ltac:(lia) x Px) as (_ & G2 & _).
      destruct (G2 ltac:(lia)) as (Ee & N). split; [rewrite E; exact Ee|].
      intros y (x' & Px' & Qy). assert (x' = x) as -> by auto. now apply N in Qy.
    + destruct (H2 L') as ([e E] & N). split; [exists e; now rewrite E|]. intros y (x' & Px' & _). now apply N in Px'.
  - intros y y' (x & Px & Qy) (x' & Px' & Qy'). assert (x' = x) as -> by auto.
    destruct (G (decodes_fits _ _ _ _ _ _ _ D Px) x Px) as (_ & _ & G3). auto.
Qed.

Lemma decodes_ret {A} b n i (x : A) : i <= total b n -> decodes b n i 0 (fun r => Ok (x, r)) (fun y => y = x).
Proof.
  intros H. split; [|split].
  - intros _. exists x. rewrite Z.add_0_r. auto.
  - lia.
  - congruence.
Qed.

(** Ranges that were read *)
Definition sound (c : rangec) : Prop := 0 <= rc_bits c <= 32.
Lemma width_sound c : sound c -> 0 <= width c <= 32.
Proof. unfold sound, width. destruct (f32_eqb _ _); lia. Qed.

Lemma decodes_component b n i c d : 0 <= n -> 0 <= i <= total b n -> sound c ->
  decodes b n i (width c) (f32_decompress c d) (component b (8 * n + i) c d).
Proof.
  intros Hn Hi Hs. assert (W := width_sound c Hs). unfold component.
  destruct (Z.eqb_spec (width c) 0) as [E|E].
  - rewrite E. apply (decodes_ext b n i 0 0 (fun r => Ok (d, r)) _ (fun y => y = d)); auto; [apply decodes_ret; lia| |tauto].
    unfold f32_decompress, width in *. destruct (rc_bits c =? 0) eqn:Ez; auto. destruct (f32_eqb _ _); auto. lia.
  - assert (Eb : width c = rc_bits c /\ f32_eqb (rc_min c) (rc_max c) = false).
    { unfold width in *. destruct (f32_eqb _ _); auto. lia. }
    destruct Eb as [Eb Ef]. rewrite Eb in *.
    assert (F : forall r, f32_decompress c d r = let* (v, r1) := read_u32_bits (rc_bits c) r in
              Ok (decompress_f32 v (rc_min c) (rc_max c) (rc_bits c), r1)).
    { intros r. unfold f32_decompress. rewrite Ef. destruct (Z.eqb_spec (rc_bits c) 0); [lia|reflexivity]. }
    unfold decodes. rewrite F. unfold read_u32_bits.
    destruct (read_code 32 b n i (rc_bits c) Hn ltac:(lia) ltac:(unfold sound in Hs; lia)) as [R1 R2].
    assert (T : total b n < i + rc_bits c <-> 8 * zlen b < 8 * n + i + rc_bits c) by (unfold total; lia).
    split; [|split].
    + intros L. destruct (br_read 32 (rc_bits c) (reader b n i)) as [[v r]|e|] eqn:E2.
      * destruct (R1 v r) as [R1' _]. destruct (R1' eq_refl) as [C ->]. eexists. split; [|reflexivity]. eauto.
      * exfalso. destruct R2 as [R2 _]. specialize (R2 (ex_intro _ e eq_refl)). lia.
      * exfalso. now apply br_read_np in E2; [|unfold sound in Hs; lia].
    + intros L. destruct R2 as [_ R2]. destruct (R2 ltac:(lia)) as [e Ee]. rewrite Ee. split; [cbn; eauto|].
      intros x (v & C & _). apply code_end in C; lia.
    + intros x y (v & C & ->) (v' & C' & ->). assert (v = v') as -> by (apply (code_unique b (8 * n + i) (rc_bits c)); auto; lia). reflexivity.
Qed.

Definition sound3 (c : vec3c) : Prop := sound (cx c) /\ sound (cy c) /\ sound (cz c).
Lemma width3_sound c : sound3 c -> 0 <= width3 c.
Proof. intros (X & Y & Z). apply width_sound in X, Y, Z. unfold width3. lia. Qed.

Lemma decodes_vec3 b n i c d : 0 <= n -> 0 <= i <= total b n -> sound3 c ->
  decodes b n i (width3 c) (vec3_decompress c d) (components3 b (8 * n + i) c d).
Proof.
  intros Hn Hi (X & Y & Z). assert (Wx := width_sound _ X). assert (Wy := width_sound _ Y). assert (Wz := width_sound _ Z).
  eapply decodes_ext.
  - apply (decodes_bind b n i (width (cx c)) (width (cy c) + (width (cz c) + 0)) (f32_decompress (cx c) (v3x d))
             (fun x r => let* (y, r) := f32_decompress (cy c) (v3y d) r in
                         let* (z, r) := f32_decompress (cz c) (v3z d) r in Ok (V3 x y z, r))); try lia.
    + apply decodes_component; auto.
    + intros L x Px.
      apply (decodes_bind b n (i + width (cx c)) (width (cy c)) (width (cz c) + 0) (f32_decompress (cy c) (v3y d))
               (fun y r => let* (z, r) := f32_decompress (cz c) (v3z d) r in Ok (V3 x y z, r))); try lia.
      * apply decodes_component; auto. lia.
      * intros L2 y Py. apply (decodes_bind b n (i + width (cx c) + width (cy c)) (width (cz c)) 0
          (f32_decompress (cz c) (v3z d)) (fun z r => Ok (V3 x y z, r))); try lia.
        -- apply decodes_component; auto. lia.
        -- intros L3 z Pz. apply decodes_ret. lia.
  - unfold width3. lia.
  - reflexivity.
  - intros [x y z]. unfold components3. cbn [v3x v3y v3z]. rewrite !Z.add_assoc. split.
    + intros (x' & Px & y' & Py & z' & Pz & [= -> -> ->]). auto.
    + intros (Px & Py & Pz). exists x. split; auto. exists y. split; auto. exists z. auto.
Qed.

Definition sound4 (c : vec4c) : Prop := sound (c4x c) /\ sound (c4y c) /\ sound (c4z c) /\ sound (c4w c).
Lemma decodes_vec4 b n i c d : 0 <= n -> 0 <= i <= total b n -> sound4 c ->
  decodes b n i (width4 c) (vec4_decompress c d) (vec4_frame b (8 * n + i) c d).
Proof.
  intros Hn Hi (X & Y & Z & W). assert (Wx := width_sound _ X). assert (Wy := width_sound _ Y). assert (Wz := width_sound _ Z).
  assert (Ww := width_sound _ W).
  eapply decodes_ext.
  - apply (decodes_bind b n i (width (c4x c)) (width (c4y c) + (width (c4z c) + (width (c4w c) + 0))) (f32_decompress (c4x c) (v4x d))
             (fun x r => let* (y, r) := f32_decompress (c4y c) (v4y d) r in
                         let* (z, r) := f32_decompress (c4z c) (v4z d) r in
                         let* (w, r) := f32_decompress (c4w c) (v4w d) r in Ok (V4 x y z w, r))); try lia.
    + apply decodes_component; auto.
    + intros L x Px.
      apply (decodes_bind b n (i + width (c4x c)) (width (c4y c)) (width (c4z c) + (width (c4w c) + 0)) (f32_decompress (c4y c) (v4y d))
               (fun y r => let* (z, r) := f32_decompress (c4z c) (v4z d) r in
                           let* (w, r) := f32_decompress (c4w c) (v4w d) r in Ok (V4 x y z w, r))); try lia.
      * apply decodes_component; auto. lia.
      * intros L2 y Py. apply (decodes_bind b n (i + width (c4x c) + width (c4y c)) (width (c4z c)) (width (c4w c) + 0)
          (f32_decompress (c4z c) (v4z d)) (fun z r => let* (w, r) := f32_decompress (c4w c) (v4w d) r in Ok (V4 x y z w, r))); try lia.
        -- apply decodes_component; auto. lia.
        -- intros L3 z Pz.
           apply (decodes_bind b n (i + width (c4x c) + width (c4y c) + width (c4z c)) (width (c4w c)) 0
             (f32_decompress (c4w c) (v4w d)) (fun w r => Ok (V4 x y z w, r))); try lia.
           ++ apply decodes_component; auto. lia.
           ++ intros L4 w Pw. apply decodes_ret. lia.
  - unfold width4. lia.
  - reflexivity.
  - intros [x y z w]. unfold vec4_frame. cbn [v4x v4y v4z v4w]. rewrite !Z.add_assoc. split.
    + intros (x' & Px & y' & Py & z' & Pz & w' & Pw & [= -> -> -> ->]). auto.
    + intros (Px & Py & Pz & Pw). exists x. split; auto. exists y. split; auto. exists z. split; auto. exists w. auto.
Qed.

Definition sound_uv (c : uvc) : Prop :=
  sound (uc_su c) /\ sound (uc_sv c) /\ sound (uc_rot c) /\ sound (uc_tu c) /\ sound (uc_tv c).
Lemma decodes_uv b n i c d flags : 0 <= n -> 0 <= i <= total b n -> sound_uv c ->
  decodes b n i (uv_width c flags) (uv_decompress c d flags) (fun t => uv_frame b (8 * n + i) c d flags t).
Proof.
  intros Hn Hi (A & B & C & D & E). assert (Wa := width_sound _ A). assert (Wb := width_sound _ B). assert (Wc := width_sound _ C).
  assert (Wd := width_sound _ D). assert (We := width_sound _ E).
  assert (Ws : 0 <= uv_scale_width c flags) by (unfold uv_scale_width; destruct (Z.testbit flags 1); lia).
  eapply decodes_ext.
  - apply (decodes_bind b n i (uv_scale_width c flags) (width (uc_rot c) + (width (uc_tu c) + (width (uc_tv c) + 0)))
      (fun r => if uniform_scale flags then
           let* (s, r) := f32_decompress (uc_su c) (uv_su d) r in Ok ((s, s), r)
         else
           let* (su, r) := f32_decompress (uc_su c) (uv_su d) r in
           let* (sv, r) := f32_decompress (uc_sv c) (uv_sv d) r in Ok ((su, sv), r))
      (fun s r => let* (rot, r) := f32_decompress (uc_rot c) (uv_rot d) r in
                  let* (tu, r) := f32_decompress (uc_tu c) (uv_tu d) r in
                  let* (tv, r) := f32_decompress (uc_tv c) (uv_tv d) r in
                  Ok (Uv (fst s) (snd s) rot tu tv, r))
      (fun s => component b (8 * n + i) (uc_su c) (uv_su d) (fst s) /\
                (if Z.testbit flags 1 then snd s = fst s
                 else component b (8 * n + i + width (uc_su c)) (uc_sv c) (uv_sv d) (snd s)))); try lia.
    + unfold uniform_scale, uv_scale_width. destruct (Z.testbit flags 1).
      * eapply decodes_ext.
        -- apply (decodes_bind b n i (width (uc_su c)) 0 (f32_decompress (uc_su c) (uv_su d)) (fun s r => Ok ((s, s), r))); try lia.
           ++ apply decodes_component; auto.
           ++ intros L s Ps. apply decodes_ret. lia.
        -- lia.
        -- reflexivity.
        -- intros [s s']. cbn [fst snd]. split; [intros (x & Px & [= -> ->]); auto|intros [P ->]; eauto].
      * eapply decodes_ext.
        -- apply (decodes_bind b n i (width (uc_su c)) (width (uc_sv c) + 0) (f32_decompress (uc_su c) (uv_su d))
             (fun su r => let* (sv, r) := f32_decompress (uc_sv c) (uv_sv d) r in Ok ((su, sv), r))); try lia.
           ++ apply decodes_component; auto.
           ++ intros L s Ps. apply (decodes_bind b n _ (width (uc_sv c)) 0 (f32_decompress (uc_sv c) (uv_sv d))
                (fun sv r => Ok ((s, sv), r))); try lia.
              ** apply decodes_component; auto. lia.
              ** intros L2 s' Ps'. apply decodes_ret. lia.
        -- lia.
        -- reflexivity.
        -- intros [s s']. cbn [fst snd]. rewrite !Z.add_assoc. split; [intros (x & Px & y & Py & [= -> ->]); auto|].
           intros [P P']. exists s. split; auto. exists s'. auto.
    + intros L s Ps.
      apply (decodes_bind b n (i + uv_scale_width c flags) (width (uc_rot c)) (width (uc_tu c) + (width (uc_tv c) + 0))
         (f32_decompress (uc_rot c) (uv_rot d))
         (fun rot r => let* (tu, r) := f32_decompress (uc_tu c) (uv_tu d) r in
                  let* (tv, r) := f32_decompress (uc_tv c) (uv_tv d) r in Ok (Uv (fst s) (snd s) rot tu tv, r))); try lia.
      * apply decodes_component; auto. lia.
      * intros L2 rot Pr.
        apply (decodes_bind b n _ (width (uc_tu c)) (width (uc_tv c) + 0) (f32_decompress (uc_tu c) (uv_tu d))
         (fun tu r => let* (tv, r) := f32_decompress (uc_tv c) (uv_tv d) r in Ok (Uv (fst s) (snd s) rot tu tv, r))); try lia.
        -- apply decodes_component; auto. lia.
        -- intros L3 tu Pt.
           apply (decodes_bind b n _ (width (uc_tv c)) 0 (f32_decompress (uc_tv c) (uv_tv d))
            (fun tv r => Ok (Uv (fst s) (snd s) rot tu tv, r))); try lia.
           ++ apply decodes_component; auto. lia.
           ++ intros L4 tv Pv. apply decodes_ret. lia.
  - unfold uv_width. lia.
  - unfold uv_decompress. destruct (uniform_scale flags).
    + destruct (f32_decompress (uc_su c) (uv_su d) (reader b n i)) as [[? ?]| |]; reflexivity.
    + destruct (f32_decompress (uc_su c) (uv_su d) (reader b n i)) as [[? r]| |]; cbn [bind]; auto.
      destruct (f32_decompress (uc_sv c) (uv_sv d) r) as [[? ?]| |]; reflexivity.
  - intros [su sv rot tu tv]. unfold uv_frame. cbn [uv_su uv_sv uv_rot uv_tu uv_tv]. rewrite !Z.add_assoc. split.
    + intros ([s s'] & [P1 P2] & r & Pr & t & Pt & v & Pv & [= -> -> -> -> ->]). cbn [fst snd] in *. auto.
    + intros (P1 & P2 & P3 & P4 & P5). exists (su, sv). cbn [fst snd]. split; auto. exists rot. split; auto.
      exists tu. split; auto. exists tv. auto.
Qed.

(** A frame of [w] bits at [i]: results with [P], panics with [bad] *)
Definition frame_reads {A} (b : list Z) (n w : Z) (f : breader -> res (A * breader)) (P : Z -> A -> Prop) (bad : Z -> Prop) : Prop :=
  forall i, 0 <= i <= total b n ->
    (forall x r, f (reader b n i) = Ok (x, r) <-> P i x /\ r = reader b n (i + w)) /\
    (f (reader b n i) = Panic <-> bad i) /\
    (forall x, P i x -> i + w <= total b n) /\
    (i + w <= total b n -> forall e, f (reader b n i) <> Err e).

Lemma decodes_frame {A} b n w f (P : Z -> A -> Prop) :
  (forall i, 0 <= i <= total b n -> decodes b n i w f (P i)) -> frame_reads b n w f P (fun _ => False).
Proof.
  intros D i Hi. specialize (D i Hi). split; [|split; [|split]].
  - now apply decodes_ok.
  - split; [|tauto]. now apply decodes_np in D.
  - intros x Px. eapply decodes_fits; eauto.
  - intros L e E. destruct D as (D & _). destruct (D L) as (x & _ & E'). congruence.
Qed.

Definition sound_transform (c : transformc) : Prop := sound3 (tc_scale c) /\ sound3 (tc_rot c) /\ sound3 (tc_trans c).

(** Scale, rotation without w and translation *)
Definition parts_decompress (c : transformc) (d : utransform) (flags : Z) (r : breader) : res ((vec3 * vec3 * vec3) * breader) :=
  let* (scale, r) :=
    match has_scale flags, uniform_scale flags with
    | true, true =>
        let* (s, r) := f32_decompress (cx (tc_scale c)) (v3x (ut_scale d)) r in Ok (V3 s s s, r)
    | true, false => vec3_decompress (tc_scale c) (ut_scale d) r
    | false, true => Ok (V3 (v3x (ut_scale d)) (v3x (ut_scale d)) (v3x (ut_scale d)), r)
    | false, false => Ok (ut_scale d, r)
    end in
  let* (rot, r) :=
    if has_rotation flags then vec3_decompress (tc_rot c) (xyz (ut_rot d)) r
    else Ok (xyz (ut_rot d), r) in
  let* (trans, r) :=
    if has_translation flags then vec3_decompress (tc_trans c) (ut_trans d) r
    else Ok (ut_trans d, r) in
  Ok ((scale, rot, trans), r).

Lemma transform_parts c d flags r : transform_decompress c d flags r =
  let* (p, r) := parts_decompress c d flags r in
  let* (w, r) :=
    if has_rotation flags then calculate_rotation_w (snd (fst p)) r else Ok (v4w (ut_rot d), r) in
  Ok (UT (fst (fst p)) (V4 (v3x (snd (fst p))) (v3y (snd (fst p))) (v3z (snd (fst p))) w) (snd p) (ut_comp d), r).
Proof.
  unfold transform_decompress, parts_decompress.
  destruct (match has_scale flags with true => _ | false => _ end) as [[s r1]| |]; cbn [bind]; auto.
  destruct (if has_rotation flags then vec3_decompress _ _ r1 else _) as [[q r2]| |]; cbn [bind]; auto.
  destruct (if has_translation flags then vec3_decompress _ _ r2 else _) as [[t r3]| |]; cbn [bind]; auto.
Qed.

Definition scale_part (b : list Z) (pos : Z) (c : transformc) (d : utransform) (flags : Z) (s : vec3) : Prop :=
  if Z.testbit flags 1 then
     v3y s = v3x s /\ v3z s = v3x s /\
     (if Z.testbit flags 0 then component b pos (cx (tc_scale c)) (v3x (ut_scale d)) (v3x s) else v3x s = v3x (ut_scale d))
   else if Z.testbit flags 0 then components3 b pos (tc_scale c) (ut_scale d) s
   else s = ut_scale d.

Lemma decodes_scale b n i c d flags : 0 <= n -> 0 <= i <= total b n -> sound3 (tc_scale c) ->
  decodes b n i (scale_width c flags)
    (fun r => match has_scale flags, uniform_scale flags with
    | true, true =>
        let* (s, r) := f32_decompress (cx (tc_scale c)) (v3x (ut_scale d)) r in Ok (V3 s s s, r)
    | true, false => vec3_decompress (tc_scale c) (ut_scale d) r
    | false, true => Ok (V3 (v3x (ut_scale d)) (v3x (ut_scale d)) (v3x (ut_scale d)), r)
    | false, false => Ok (ut_scale d, r)
    end) (scale_part b (8 * n + i) c d flags).
Proof.
  intros Hn Hi S. unfold has_scale, uniform_scale, scale_width, scale_part.
  destruct (Z.testbit flags 0), (Z.testbit flags 1).
  - destruct S as (S & _). assert (W := width_sound _ S). eapply decodes_ext.
    + apply (decodes_bind b n i (width (cx (tc_scale c))) 0 (f32_decompress (cx (tc_scale c)) (v3x (ut_scale d)))
        (fun s r => Ok (V3 s s s, r))); try lia.
      * apply decodes_component; auto.
      * intros L s Ps. apply decodes_ret. lia.
    + lia.
    + reflexivity.
    + intros [x y z]. cbn [v3x v3y v3z]. split; [intros (s & Ps & [= -> -> ->]); auto|]. intros (-> & -> & P). eauto.
  - now apply decodes_vec3.
  - eapply decodes_ext; [now apply (decodes_ret b n i)|auto|reflexivity|].
    intros [x y z]. cbn [v3x v3y v3z]. split; [intros [= -> -> ->]; auto|]. intros (-> & -> & ->). auto.
  - eapply decodes_ext; [now apply (decodes_ret b n i)|auto|reflexivity|]. tauto.
Qed.

Lemma decodes_opt3 b n i c d (flag : bool) : 0 <= n -> 0 <= i <= total b n -> sound3 c ->
  decodes b n i (if flag then width3 c else 0) (fun r => if flag then vec3_decompress c d r else Ok (d, r))
    (fun v => if flag then components3 b (8 * n + i) c d v else v = d).
Proof.
  intros Hn Hi S. destruct flag; [now apply decodes_vec3|]. now apply decodes_ret.
Qed.

Lemma scale_width_pos c flags : sound3 (tc_scale c) -> 0 <= scale_width c flags.
Proof.
  intros S. assert (W := width3_sound _ S). destruct S as (S & _). apply width_sound in S.
  unfold scale_width. destruct (Z.testbit flags 0), (Z.testbit flags 1); lia.
Qed.
Lemma rotation_width_pos c flags : sound3 (tc_rot c) -> 0 <= rotation_width c flags.
Proof. intros S. assert (W := width3_sound _ S). unfold rotation_width. destruct (Z.testbit flags 2); lia. Qed.
Lemma translation_width_pos c flags : sound3 (tc_trans c) -> 0 <= translation_width c flags.
Proof. intros S. assert (W := width3_sound _ S). unfold translation_width. destruct (Z.testbit flags 3); lia. Qed.

Lemma decodes_parts b n i c d flags : 0 <= n -> 0 <= i <= total b n -> sound_transform c ->
  decodes b n i (scale_width c flags + rotation_width c flags + translation_width c flags) (parts_decompress c d flags)
    (fun p => scale_part b (8 * n + i) c d flags (fst (fst p)) /\
       (if Z.testbit flags 2 then components3 b (8 * n + i + scale_width c flags) (tc_rot c) (xyz (ut_rot d)) (snd (fst p))
        else snd (fst p) = xyz (ut_rot d)) /\
       (if Z.testbit flags 3
        then components3 b (8 * n + i + scale_width c flags + rotation_width c flags) (tc_trans c) (ut_trans d) (snd p)
        else snd p = ut_trans d)).
Proof.
  intros Hn Hi (S1 & S2 & S3). assert (W1 := scale_width_pos c flags S1). assert (W2 := rotation_width_pos c flags S2).
  assert (W3 := translation_width_pos c flags S3).
  eapply decodes_ext.
  - apply (decodes_bind b n i (scale_width c flags) (rotation_width c flags + (translation_width c flags + 0))
     (fun r => match has_scale flags, uniform_scale flags with
      | true, true =>
          let* (s, r) := f32_decompress (cx (tc_scale c)) (v3x (ut_scale d)) r in Ok (V3 s s s, r)
      | true, false => vec3_decompress (tc_scale c) (ut_scale d) r
      | false, true => Ok (V3 (v3x (ut_scale d)) (v3x (ut_scale d)) (v3x (ut_scale d)), r)
      | false, false => Ok (ut_scale d, r)
      end)
     (fun scale r =>
        let* (rot, r) := if has_rotation flags then vec3_decompress (tc_rot c) (xyz (ut_rot d)) r else Ok (xyz (ut_rot d), r) in
        let* (trans, r) := if has_translation flags then vec3_decompress (tc_trans c) (ut_trans d) r else Ok (ut_trans d, r) in
        Ok ((scale, rot, trans), r))); try lia.
    + now apply decodes_scale.
    + intros L s Ps. apply (decodes_bind b n _ (rotation_width c flags) (translation_width c flags + 0)
        (fun r => if has_rotation flags then vec3_decompress (tc_rot c) (xyz (ut_rot d)) r else Ok (xyz (ut_rot d), r))
        (fun rot r =>
           let* (trans, r) := if has_translation flags then vec3_decompress (tc_trans c) (ut_trans d) r else Ok (ut_trans d, r) in
           Ok ((s, rot, trans), r))); try lia.
      * apply decodes_opt3; auto. lia.
      * intros L2 q Pq. apply (decodes_bind b n _ (translation_width c flags) 0
          (fun r => if has_translation flags then vec3_decompress (tc_trans c) (ut_trans d) r else Ok (ut_trans d, r))
          (fun trans r => Ok ((s, q, trans), r))); try lia.
        -- apply decodes_opt3; auto. lia.
        -- intros L3 t Pt. apply decodes_ret. lia.
  - lia.
  - reflexivity.
  - intros [[s q] t]. cbn [fst snd]. unfold has_rotation, has_translation. rewrite !Z.add_assoc. split.
    + intros (s' & Ps & q' & Pq & t' & Pt & [= -> -> ->]). auto.
    + intros (Ps & Pq & Pt). exists s. split; auto. exists q. split; auto. exists t. auto.
Qed.

Lemma frame_transform b n c d flags : 0 <= n -> sound_transform c ->
  frame_reads b n (transform_width c flags) (transform_decompress c d flags)
    (fun i t => transform_frame b (8 * n + i) c d flags t)
    (fun i => Z.testbit flags 2 = true /\ i + transform_width c flags = total b n + 1).
Proof.
  intros Hn S i Hi. assert (D := decodes_parts b n i c d flags Hn Hi S). destruct S as (S1 & S2 & S3).
  assert (W1 := scale_width_pos c flags S1). assert (W2 := rotation_width_pos c flags S2).
  assert (W3 := translation_width_pos c flags S3).
  set (w := scale_width c flags + rotation_width c flags + translation_width c flags) in *.
  assert (D' := decodes_ok _ _ _ _ _ _ D).
  assert (Hw : transform_width c flags = w + (if Z.testbit flags 2 then 1 else 0)) by (unfold transform_width, w; reflexivity).
  assert (F : forall t, transform_frame b (8 * n + i) c d flags t <->
     exists p, (scale_part b (8 * n + i) c d flags (fst (fst p)) /\
       (if Z.testbit flags 2 then components3 b (8 * n + i + scale_width c flags) (tc_rot c) (xyz (ut_rot d)) (snd (fst p))
        else snd (fst p) = xyz (ut_rot d)) /\
       (if Z.testbit flags 3
        then components3 b (8 * n + i + scale_width c flags + rotation_width c flags) (tc_trans c) (ut_trans d) (snd p)
        else snd p = ut_trans d)) /\
     exists x, (if Z.testbit flags 2 then exists negative, stream_bit b (8 * n + (i + w)) = Some negative /\
               x = rotation_w negative (snd (fst p)) else x = v4w (ut_rot d)) /\
     t = UT (fst (fst p)) (V4 (v3x (snd (fst p))) (v3y (snd (fst p))) (v3z (snd (fst p))) x) (snd p) (ut_comp d)).
  { intros [s q t m]. unfold transform_frame. cbn [ut_scale ut_rot ut_trans ut_comp]. fold (scale_part b (8 * n + i) c d flags s).
    replace (8 * n + i + scale_width c flags + rotation_width c flags + translation_width c flags) with (8 * n + (i + w)) by (unfold w; lia).
    split.
    - intros (A1 & A2 & A3 & ->). exists ((s, xyz q), t). cbn [fst snd]. destruct q as [x y z v]. unfold xyz in *.
      cbn [v3x v3y v3z v4x v4y v4z v4w] in *.
      destruct (Z.testbit flags 2).
      + destruct A2 as (A2 & neg & B1 & ->). split; [auto|]. exists (rotation_w neg (V3 x y z)). split; eauto.
      + subst. destruct (ut_rot d) as [x' y' z' v'] eqn:E. injection A2 as -> -> -> ->. cbn [v4x v4y v4z v4w]. split; auto. exists v'. auto.
    - intros ([[s' q'] t'] & (A1 & A2 & A3) & x & Bx & [= -> -> -> ->]). cbn [fst snd] in *. split; auto.
      destruct q' as [qx qy qz]. unfold xyz in *. cbn [v3x v3y v3z v4x v4y v4z v4w] in *.
      split; [|auto]. destruct (Z.testbit flags 2); [split; auto|].
      injection A2 as -> -> ->. rewrite Bx. now destruct (ut_rot d). }
  assert (T := transform_parts c d flags (reader b n i)). rewrite T. clear T.
  unfold has_rotation. destruct (Z.testbit flags 2) eqn:E2.
  - (* w is computed *)
    assert (R : forall p : vec3 * vec3 * vec3, i + w <= total b n ->
      (forall x r, calculate_rotation_w (snd (fst p)) (reader b n (i + w)) = Ok (x, r) <->
         (exists negative, stream_bit b (8 * n + (i + w)) = Some negative /\ x = rotation_w negative (snd (fst p))) /\
         r = reader b n (i + w + 1)) /\
      (calculate_rotation_w (snd (fst p)) (reader b n (i + w)) = Panic <-> i + w = total b n) /\
      forall e, calculate_rotation_w (snd (fst p)) (reader b n (i + w)) <> Err e).
    { intros p L. destruct (read_sign b n (i + w) Hn ltac:(lia)) as [R1 R2]. unfold calculate_rotation_w.
      destruct (read_bit (reader b n (i + w))) as [[v r]| |] eqn:Er.
      - destruct (R1 v r) as [R1' _]. destruct (R1' eq_refl) as [Eb ->]. split; [|split].
        + intros x r. split; [intros [= <- <-]; eauto|]. intros [(neg & Eb' & ->) ->]. congruence.
        + split; [discriminate|]. intros L'. exfalso.
          assert (B : stream_bit b (8 * n + (i + w)) <> None) by congruence. apply stream_end in B; [|lia]. unfold total in *. lia.
        + discriminate.
      - split; [|split].
        + intros x r. split; [discriminate|]. intros [(neg & Eb' & _) _].
          destruct R2 as [R2 _]. specialize (R2 (ex_intro _ _ eq_refl)).
          assert (B : stream_bit b (8 * n + (i + w)) <> None) by congruence. apply stream_end in B; lia.
        + split; auto. intros _. destruct R2 as [R2 _]. specialize (R2 (ex_intro _ _ eq_refl)). unfold total in *. lia.
        + discriminate.
      - exfalso. unfold read_bit in Er. destruct (slice _ _ 1) as [[|? [|? ?]]|]; discriminate. }
    rewrite Hw.
    destruct (Z.leb_spec (i + w) (total b n)) as [L|L].
    + destruct D as (D1 & _). destruct (D1 L) as (p & Pp & Ep). rewrite Ep. cbn [bind].
      destruct (R p L) as (R1 & R2 & R3). split; [|split; [|split]].
      * intros t r. rewrite F. split.
        -- intros H. apply bind_inv in H as ([x r'] & Ex & [= <- <-]). apply R1 in Ex as [Ex ->]. split; [|f_equal; lia].
           exists p. split; auto. exists x. auto.
        -- intros ((p' & Pp' & x & Ex & ->) & ->).
           assert (p' = p) as ->.
           { destruct (D' p (reader b n (i + w))) as [_ Dp], (D' p' (reader b n (i + w))) as [_ Dp'].
             specialize (Dp (conj Pp eq_refl)). specialize (Dp' (conj Pp' eq_refl)). congruence. }
           destruct (R1 x (reader b n (i + w + 1))) as [_ ->]; [|auto]. cbn [bind]. do 2 f_equal. f_equal. lia.
      * destruct (calculate_rotation_w _ _) as [[x r]| |]; cbn [bind].
        -- split; [discriminate|]. intros [_ H]. destruct R2 as [_ R2]. now discriminate R2; lia.
        -- split; [discriminate|]. intros [_ H]. destruct R2 as [_ R2]. now discriminate R2; lia.
        -- split; [|auto]. intros _. split; auto. destruct R2 as [R2 _]. specialize (R2 eq_refl). lia.
      * intros t Ft. apply F in Ft as (p' & _ & x & (neg & Eb & _) & _).
        assert (B : stream_bit b (8 * n + (i + w)) <> None) by congruence. apply stream_end in B; [|lia]. unfold total. lia.
      * intros L' e. destruct (calculate_rotation_w (snd (fst p)) (reader b n (i + w))) as [[x r]|e'|] eqn:Ec; cbn [bind]; try discriminate.
        now destruct (R3 e').  
    + destruct D as (_ & D2 & _). destruct (D2 L) as ([e Ee] & N). rewrite Ee. cbn [bind]. split; [|split; [|split]].
      * intros t r. split; [discriminate|]. intros [Ft _]. apply F in Ft as (p & Pp & _). now apply N in Pp.
      * split; [discriminate|]. intros [_ H]. lia.
      * intros t Ft. apply F in Ft as (p & Pp & _). now apply N in Pp.
      * lia.
  - rewrite Hw. split; [|split; [|split]].
    + intros t r. rewrite F. split.
      * intros H. apply bind_inv in H as ([p r'] & Ep & H). apply D' in Ep as [Pp ->]. cbn [bind] in H. injection H as <- <-.
        split; [|f_equal; lia]. exists p. split; auto. exists (v4w (ut_rot d)). auto.
      * intros ((p & Pp & x & -> & ->) & ->). destruct (D' p (reader b n (i + w))) as [_ Dp]. rewrite Dp by auto.
        cbn [bind]. do 2 f_equal. f_equal. lia.
    + split; [|intros [? _]; discriminate]. apply decodes_np in D. intros H. exfalso.
      destruct (parts_decompress c d flags (reader b n i)) as [[p r]| |]; try discriminate. now apply D.
    + intros t Ft. apply F in Ft as (p & Pp & _). apply (decodes_fits _ _ _ _ _ _ _ D) in Pp. lia.
    + intros L e. destruct D as (D1 & _). destruct (D1 ltac:(lia)) as (p & _ & Ep). rewrite Ep. discriminate.
Qed.

(** Indices and booleans *)
Lemma frame_index b n c : 0 <= n -> sound c -> 0 <= rc_min c < 2 ^ 32 ->
  frame_reads b n (rc_bits c) (u32_decompress c) (fun i x => index_frame b (8 * n + i) c x)
    (fun i => 0 < rc_bits c /\ exists v, code_at b (8 * n + i) (rc_bits c) v /\ 2 ^ 32 <= rc_min c + v).
Proof.
  intros Hn S Hm i Hi. unfold sound in S. unfold u32_decompress, index_frame. destruct (Z.eqb_spec (rc_bits c) 0) as [E|E].
  - rewrite E, Z.add_0_r. split; [|split; [|split]].
    + intros x r. split.
      * intros [= <- <-]. split; auto. exists 0. split; [split; [lia|intros; lia]|lia].
      * intros [(v & [R _] & -> & _) ->]. replace v with 0 by lia. now rewrite Z.add_0_r.
    + split; [discriminate|lia].
    + intros; lia.
    + discriminate.
  - destruct (read_code 32 b n i (rc_bits c) Hn ltac:(lia) ltac:(lia)) as [R1 R2]. unfold read_u32_bits.
    assert (T : total b n < i + rc_bits c <-> 8 * zlen b < 8 * n + i + rc_bits c) by (unfold total; lia).
    destruct (br_read 32 (rc_bits c) (reader b n i)) as [[v r]|e|] eqn:Er; cbn [bind].
    + destruct (R1 v r) as [R1' _]. destruct (R1' eq_refl) as [C ->]. assert (L := C). apply code_end in L; [|lia|lia].
      assert (U : forall v', code_at b (8 * n + i) (rc_bits c) v' -> v' = v).
      { intros v' C'. apply (code_unique b (8 * n + i) (rc_bits c)); auto; lia. }
      destruct (Z.ltb_spec (v + rc_min c) (2 ^ 32)) as [Lv|Lv].
      * split; [|split; [|split]].
        -- intros x r. split; [intros [= <- <-]; split; auto; exists v; repeat split; auto; try lia; now apply C|].
           intros [(v' & C' & -> & Lx) ->]. apply U in C' as ->. do 2 f_equal. lia.
        -- split; [discriminate|]. intros [_ (v' & C' & Lx)]. apply U in C' as ->. lia.
        -- intros. lia.
        -- discriminate.
      * split; [|split; [|split]].
        -- intros x r. split; [discriminate|]. intros [(v' & C' & -> & Lx) ->]. apply U in C' as ->. lia.
        -- split; auto. intros _. split; [lia|]. exists v. split; auto. lia.
        -- intros. lia.
        -- discriminate.
    + destruct R2 as [R2 _]. specialize (R2 (ex_intro _ e eq_refl)).
      assert (N : forall v, ~ code_at b (8 * n + i) (rc_bits c) v) by (intros v C; apply code_end in C; lia).
      split; [|split; [|split]].
      * intros x r. split; [discriminate|]. intros [(v' & C' & _) _]. now apply N in C'.
      * split; [discriminate|]. intros [_ (v' & C' & _)]. now apply N in C'.
      * intros x (v' & C' & _). now apply N in C'.
      * lia.
    + exfalso. now apply br_read_np in Er; [|lia].
Qed.

Lemma frame_bool b n : 0 <= n -> frame_reads b n 1 (bool_decompress 1) (fun i x => code_at b (8 * n + i) 1 x) (fun _ => False).
Proof.
  intros Hn i Hi. destruct (read_code 8 b n i 1 Hn ltac:(lia) ltac:(lia)) as [R1 R2].
  assert (T : total b n < i + 1 <-> 8 * zlen b < 8 * n + i + 1) by (unfold total; lia).
  unfold bool_decompress, read_u8_bits. split; [|split; [|split]].
  - exact R1.
  - split; [|tauto]. apply br_read_np. lia.
  - intros x C. apply code_end in C; [|lia|lia]. unfold total. lia.
  - intros L e E. destruct R2 as [R2 _]. specialize (R2 (ex_intro _ e E)). lia.
Qed.

(** ** Compressed tracks *)
Section Frames.
  Context {T C : Type} (cd : codec T C) (c : C) (d : T) (flags bpe : Z) (b : list Z) (n w : Z) (P : Z -> T -> Prop) (bad : Z -> Prop).
  Hypothesis frames : frame_reads b n w (cd_decompress cd c d flags bpe) P bad.
  Hypothesis w_pos : 0 <= w.
  Hypothesis bad_inside : forall i, bad i -> i <= total b n.

  Lemma all_ok m : forall i l, 0 <= i <= total b n ->
    (decompress_all cd c (Some d) flags bpe m (reader b n i) = Ok l <->
     length l = m /\ forall k x, nth_error l k = Some x -> P (i + w * Z.of_nat k) x).
  Proof.
    induction m as [|m IH]; intros i l Hi; cbn [decompress_all].
    - split; [intros [= <-]; split; auto; intros [|k] x; discriminate|]. intros [L _]. now destruct l.
    - destruct (frames i Hi) as (F1 & _ & F3 & _). split.
      + intros H. apply bind_inv in H as ([v r] & Ev & H). apply bind_inv in H as (vs & Es & [= <-]).
        apply F1 in Ev as [Pv ->]. assert (L := F3 v Pv). apply IH in Es as [Ls Ps]; [|lia]. split; [cbn; auto|].
        intros [|k] x; cbn [nth_error].
        * intros [= <-]. now replace (i + w * Z.of_nat 0) with i by lia.
        * intros Hk. apply Ps in Hk. now replace (i + w * Z.of_nat (S k)) with (i + w + w * Z.of_nat k) by lia.
      + intros [L H]. destruct l as [|v vs]; [discriminate|]. cbn in L.
        assert (Pv : P i v).
        { specialize (H 0%nat v eq_refl). now replace (i + w * Z.of_nat 0) with i in H by lia. }
        assert (Lw := F3 v Pv). destruct (F1 v (reader b n (i + w))) as [_ F1']. rewrite F1' by auto. cbn [bind].
        destruct (IH (i + w) vs ltac:(lia)) as [_ IH']. rewrite IH'; auto. split; [lia|].
        intros k x Hk. specialize (H (S k) x Hk). now replace (i + w + w * Z.of_nat k) with (i + w * Z.of_nat (S k)) by lia.
  Qed.

  Lemma all_panic m : forall i, 0 <= i <= total b n ->
    (decompress_all cd c (Some d) flags bpe m (reader b n i) = Panic <->
     exists k, 0 <= k < Z.of_nat m /\ bad (i + w * k)).
  Proof.
    induction m as [|m IH]; intros i Hi; cbn [decompress_all].
    - split; [discriminate|]. intros (k & Hk & _). lia.
    - destruct (frames i Hi) as (F1 & F2 & F3 & F4). split.
      + intros H. destruct (cd_decompress cd c d flags bpe (reader b n i)) as [[v r]| |] eqn:Ev.
        * destruct (F1 v r) as [F1' _]. destruct (F1' eq_refl) as [Pv ->]. assert (L := F3 v Pv). cbn [bind] in H.
          destruct (IH (i + w) ltac:(lia)) as [IH' _].
          destruct (decompress_all cd c (Some d) flags bpe m (reader b n (i + w))) eqn:Ea; try discriminate.
          destruct (IH' eq_refl) as (k & Hk & Bk). exists (k + 1). split; [lia|].
          now replace (i + w * (k + 1)) with (i + w + w * k) by lia.
        * discriminate.
        * exists 0. split; [lia|]. replace (i + w * 0) with i by lia. now apply F2.
      + intros (k & Hk & Bk). destruct (Z.eqb_spec k 0) as [->|Nk].
        * replace (i + w * 0) with i in Bk by lia. destruct F2 as [_ F2]. now rewrite F2.
        * assert (L := bad_inside _ Bk). assert (Lw : i + w <= total b n) by nia.
          destruct (cd_decompress cd c d flags bpe (reader b n i)) as [[v r]|e|] eqn:Ev; auto.
          -- destruct (F1 v r) as [F1' _]. destruct (F1' eq_refl) as [Pv ->]. cbn [bind].
             destruct (IH (i + w) ltac:(lia)) as [_ IH']. rewrite IH'; auto. exists (k - 1). split; [lia|].
             now replace (i + w + w * (k - 1)) with (i + w * k) by lia.
          -- exfalso. now apply (F4 Lw e).
  Qed.
End Frames.

Lemma uint_end b p w n : 0 <= p -> 0 < w -> uint_at b p w n -> p + w <= zlen b.
Proof.
  intros Hp Hw (bs & L & B & _). unfold zlen in L.
  destruct (nth_error bs (Z.to_nat (w - 1))) as [x|] eqn:E; [|apply nth_error_None in E; lia].
  apply B in E. rewrite byte_at_nth in E by lia.
  assert (N : nth_error b (Z.to_nat (p + Z.of_nat (Z.to_nat (w - 1)))) <> None) by congruence.
  apply nth_error_Some in N. unfold zlen. lia.
Qed.

Lemma uint_ex b p w : 0 <= p -> 0 <= w -> p + w <= zlen b -> exists n, uint_at b p w n.
Proof.
  intros Hp Hw H. destruct (get_bytes_some (Z.to_nat w) b p) as [l E]; [lia|lia|].
  exists (le_val l). apply (read_int_at w b p (le_val l) (p + w)); auto. unfold read_int. now rewrite E.
Qed.

Lemma ruint w b p n : 0 <= w -> uint_at b p w n -> read_int w b p = Ok (n, p + w).
Proof. intros Hw H. now apply read_int_at. Qed.

(** Header, default value and parameters *)
Definition read_head {T C} (cd : codec T C) (b : list Z) : res (Z * option T * Z * option (list Z) * C) :=
  let* (_, p) := read u16 b 0 in
  let* (flags, p) := read_int 2 b p in
  let* (default, p) := read (TAbs 2 (cd_ty cd)) b p in
  let* default :=
    match default with
    | VPtr None => Ok None
    | VPtr (Some v) => let* d := cd_un cd v in Ok (Some d)
    | _ => Err EType
    end in
  let* (bits_per_entry, p) := read_int 2 b p in
  let* (buffer, p) := read_buffer_ptr b p in
  let* (_, p) := read_int 4 b p in
  let* (c, p) := read (cd_cty cd) b p in
  let* compression := cd_cun cd c in
  Ok (flags, default, bits_per_entry, buffer, compression).

Lemma bind_assoc {A B D} (r : res A) (f : A -> res B) (g : B -> res D) :
  bind (bind r f) g = bind r (fun a => bind (f a) g).
Proof. now destruct r. Qed.

Lemma total_pos b n : 0 <= 0 <= total b n.
Proof. unfold total. lia. Qed.

Lemma compressed_head {T C} (cd : codec T C) b n : read_compressed cd b n =
  let* (flags, default, bits_per_entry, buffer, compression) := read_head cd b in
  let expected_bit_count := cd_bits cd compression flags in
  if negb (bits_per_entry =? expected_bit_count) then Err (EData DBitCount)
  else
    match buffer with
    | None => Err (EData DMalformed)
    | Some bytes =>
        let actual_count :=
          if (expected_bit_count =? 0) && (0 <? n) then 1 else n in
        decompress_all cd compression default flags bits_per_entry (Z.to_nat actual_count) (br_from_slice bytes)
    end.
Proof.
  unfold read_compressed, read_head.
  rewrite bind_assoc; destruct (read u16 b 0) as [[? p0]| |]; cbn [bind]; auto.
  rewrite bind_assoc; destruct (read_int 2 b p0) as [[? p1]| |]; cbn [bind]; auto.
  rewrite bind_assoc; destruct (read (TAbs 2 (cd_ty cd)) b p1) as [[dv p2]| |]; cbn [bind]; auto.
  rewrite bind_assoc. destruct (match dv with VPtr _ => _ | _ => _ end) as [df| |]; cbn [bind]; auto.
  rewrite bind_assoc; destruct (read_int 2 b p2) as [[? p3]| |]; cbn [bind]; auto.
  rewrite bind_assoc; destruct (read_buffer_ptr b p3) as [[? p4]| |]; cbn [bind]; auto.
  rewrite bind_assoc; destruct (read_int 4 b p4) as [[? p5]| |]; cbn [bind]; auto.
  rewrite bind_assoc; destruct (read (cd_cty cd) b p5) as [[cv p6]| |]; cbn [bind]; auto.
  rewrite bind_assoc; destruct (cd_cun cd cv) as [c| |]; cbn [bind]; auto.
Qed.

Section Head.
  Context {T C : Type} (cd : codec T C) (enc : T -> val) (size : Z) (value : list Z -> Z -> T -> Prop)
    (encc : C -> val) (sizec : Z) (raw params : list Z -> Z -> C -> Prop) (okc : C -> Prop).
  Hypothesis R : reads (cd_ty cd) enc size value.
  Hypothesis U : forall x, cd_un cd (enc x) = Ok x.
  Hypothesis RC : reads (cd_cty cd) encc sizec raw.
  Hypothesis UC : forall c x, cd_cun cd (encc c) = Ok x <-> x = c /\ okc c.
  Hypothesis PC : forall b p c, params b p c <-> raw b p c /\ okc c.
  Hypothesis NC : forall v, cd_cun cd v <> Panic.

  Lemma head_np b : read_head cd b <> Panic.
  Proof.
    unfold read_head. apply bind_np; [apply read_no_panic|]. intros [? ?]. apply bind_np; [apply read_int_np|]. intros [flags ?].
    apply bind_np'; [apply read_no_panic|]. intros [df ?] Ed.
    apply bind_np.
    { cbn [read] in Ed. apply bind_inv in Ed as ([o q] & Eo & Ed). destruct (o =? 0); [now injection Ed as <- _|].
      apply bind_inv in Ed as ([dv q'] & Ev & Ed). injection Ed as <- _. apply R in Ev as (x & -> & _). now rewrite U. }
    intros df'. apply bind_np; [apply read_int_np|]. intros [bits ?].
    apply bind_np.
    { unfold read_buffer_ptr. apply bind_np; [apply read_int_np|]. intros [? ?]. destruct (_ =? _); discriminate. }
    intros [buffer ?]. apply bind_np; [apply read_int_np|]. intros [? ?].
    apply bind_np; [apply read_no_panic|]. intros [c ?]. apply bind_np; [apply NC|]. discriminate.
  Qed.

  Lemma head_ok b flags dflt bits buffer c :
    read_head cd b = Ok (flags, dflt, bits, buffer, c) <->
    exists dpos bpos, header_at b flags dpos bits bpos /\ params b 16 c /\
      (buffer = if bpos =? 0 then None else Some (skipn (Z.to_nat bpos) b)) /\
      (if dpos =? 0 then dflt = None else exists d, dflt = Some d /\ value b dpos d).
  Proof.
    unfold read_head. split.
    - intros H. apply bind_inv in H as ([u p0] & E0 & H). cbn [read u16] in E0.
      apply bind_inv in E0 as ([n0 q0] & E0 & [= <- <-]). apply read_int_at in E0 as [_ ->]; [|lia].
      apply bind_inv in H as ([fl p1] & E1 & H). apply read_int_at in E1 as [E1 ->]; [|lia].
      apply bind_inv in H as ([dv p2] & E2 & H). cbn [read] in E2.
      apply bind_inv in E2 as ([dpos q2] & Ed & E2). apply read_int_at in Ed as [Ed ->]; [|lia].
      apply bind_inv in H as (df & E3 & H).
      apply bind_inv in H as ([bt p4] & E4 & H).
      apply bind_inv in H as ([bf p5] & E5 & H). unfold read_buffer_ptr in E5.
      apply bind_inv in E5 as ([bpos q5] & Eb & E5).
      apply bind_inv in H as ([ct p6] & E6 & H).
      apply bind_inv in H as ([cv p7] & E7 & H).
      apply bind_inv in H as (cc & E8 & [= -> -> -> -> ->]).
      assert (Hp2 : p2 = 6).
      { destruct (dpos =? 0); [now injection E2 as _ <-|]. apply bind_inv in E2 as ([v q] & _ & [= _ <-]). reflexivity. }
      subst p2. apply read_int_at in E4 as [E4 ->]; [|lia]. apply read_int_at in Eb as [Eb ->]; [|lia].
      assert (Hp5 : p5 = 12) by (destruct (bpos =? 0); now injection E5 as _ <-). subst p5.
      apply read_int_at in E6 as [E6 ->]; [|lia]. apply uint_end in E6; [|lia|lia].
      apply RC in E7 as (c0 & -> & Rc & ->). apply UC in E8 as [-> Oc].
      exists dpos, bpos. split; [|split; [|split]].
      + repeat split; auto.
      + now apply PC.
      + destruct (bpos =? 0); now injection E5 as <-.
      + destruct (dpos =? 0).
        * injection E2 as <-. now injection E3 as <-.
        * apply bind_inv in E2 as ([v q] & Ev & [= <-]). apply R in Ev as (x & -> & Vx & ->).
          rewrite U in E3. injection E3 as <-. eauto.
    - intros (dpos & bpos & (L & E1 & E2 & E3 & E4) & Pc & -> & Hd). apply PC in Pc as [Rc Oc].
      destruct (uint_ex b 0 2) as [u0 E0]; [lia|lia|lia|]. destruct (uint_ex b 12 4) as [ct E5]; [lia|lia|lia|].
      cbn [read u16]. rewrite (ruint 2 b 0 u0) by (auto; lia). cbn [bind]. rewrite (ruint 2 b (0 + 2) flags) by (auto; lia).
      cbn [bind]. rewrite (ruint 2 b (0 + 2 + 2) dpos) by (auto; lia). cbn [bind].
      assert (Ec : read (cd_cty cd) b 16 = Ok (encc c, 16 + sizec)) by (apply RC; eauto).
      assert (Eu : cd_cun cd (encc c) = Ok c) by (apply UC; auto).
      assert (tail : forall dflt : option T, (let* (bits_per_entry, p) := read_int 2 b (0 + 2 + 2 + 2) in
          let* (buffer, p) := read_buffer_ptr b p in
          let* (_, p) := read_int 4 b p in
          let* (c, p) := read (cd_cty cd) b p in
          let* compression := cd_cun cd c in
          Ok (flags, dflt, bits_per_entry, buffer, compression)) =
          Ok (flags, dflt, bits, if bpos =? 0 then None else Some (skipn (Z.to_nat bpos) b), c)).
      { intros df. rewrite (ruint 2 b (0 + 2 + 2 + 2) bits) by (auto; lia). cbn [bind]. unfold read_buffer_ptr.
        rewrite (ruint 4 b (0 + 2 + 2 + 2 + 2) bpos) by (auto; lia). cbn [bind].
        destruct (bpos =? 0); cbn [bind]; rewrite (ruint 4 b _ ct) by (auto; lia); cbn [bind];
          replace (0 + 2 + 2 + 2 + 2 + 4 + 4) with 16 by lia; rewrite Ec; cbn [bind]; rewrite Eu; reflexivity. }
      destruct (dpos =? 0).
      + subst dflt. cbn [bind]. apply tail.
      + destruct Hd as (d & -> & Vd). assert (read (cd_ty cd) b dpos = Ok (enc d, dpos + size)) as -> by (apply R; eauto).
        cbn [bind]. rewrite U. cbn [bind]. apply tail.
  Qed.

  Variables (bits : C -> Z -> Z) (frame : list Z -> Z -> C -> T -> Z -> T -> Prop) (bad : list Z -> Z -> C -> T -> Z -> Z -> Prop).
  Variable b : list Z.
  Hypothesis BC : forall c flags, params b 16 c -> cd_bits cd c flags = bits c flags /\ 0 <= bits c flags.
  Hypothesis FR : forall c d flags n, params b 16 c -> 0 <= n ->
    frame_reads b n (bits c flags) (cd_decompress cd c d flags (bits c flags))
      (fun i x => frame b (8 * n + i) c d flags x) (fun i => bad b n c d flags i).
  Hypothesis BI : forall c d flags n i, params b 16 c -> 0 <= n -> bad b n c d flags i -> i <= total b n.
  Hypothesis Hb : bytes_ok b = true.

  Lemma compressed_ok n l : 0 <= n ->
    (read_compressed cd b n = Ok l <-> compressed_at params value bits frame b n l).
  Proof.
    intros Hn. rewrite compressed_head. split.
    - intros H. apply bind_inv in H as ([[[[flags df] bt] bf] c] & Eh & H).
      apply head_ok in Eh as (dpos & bpos & Hh & Pc & -> & Hd). destruct (BC c flags Pc) as [Eb Lb].
      assert (Hbp : 0 <= bpos) by (destruct Hh as (_ & _ & _ & _ & X); apply DecFacts.uint_nonneg in X; auto; lia).
      cbv zeta in H. rewrite Eb in H. destruct (Z.eqb_spec bt (bits c flags)) as [->|]; cbn [negb] in H; [|discriminate].
      destruct (Z.eqb_spec bpos 0) as [|Nb]; [discriminate|].
      exists flags, dpos, bpos, c. split; [exact Hh|]. split; [exact Pc|]. split; [exact Nb|].
      set (m := if (bits c flags =? 0) && (0 <? n) then 1 else n) in H.
      assert (Hm : m = if bits c flags =? 0 then Z.min n 1 else n).
      { unfold m. destruct (bits c flags =? 0); cbn [andb]; auto. destruct (Z.ltb_spec 0 n); lia. }
      rewrite <- Hm. assert (Hm0 : 0 <= m) by (rewrite Hm; destruct (bits c flags =? 0); lia). clearbody m.
      destruct (Z.eqb_spec dpos 0) as [Ed|Nd].
      + subst df. destruct (Z.to_nat m) as [|m'] eqn:Em; cbn [decompress_all] in H; [|discriminate]. injection H as <-.
        split; [change (0 = m); clear - Em Hm0; lia|]. split; auto. intros []; auto.
      + destruct Hd as (d & -> & Vd). change (br_from_slice (skipn (Z.to_nat bpos) b)) with (reader b bpos 0) in H.
        apply (all_ok cd c d flags (bits c flags) b bpos (bits c flags) _ _ (FR c d flags bpos Pc Hbp) Lb
                 (fun i => BI c d flags bpos i Pc Hbp) _ 0 l (total_pos b bpos))
          in H as [L F].
        split; [unfold zlen; lia|]. split; [intros; lia|]. intros _. exists d. split; auto.
    - intros (flags & dpos & bpos & c & Hh & Pc & Nb & L & D0 & D1). destruct (BC c flags Pc) as [Eb Lb].
      assert (Hbp : 0 <= bpos) by (destruct Hh as (_ & _ & _ & _ & X); apply DecFacts.uint_nonneg in X; auto; lia).
      set (m := if (bits c flags =? 0) && (0 <? n) then 1 else n).
      assert (Hm : m = if bits c flags =? 0 then Z.min n 1 else n).
      { unfold m. destruct (bits c flags =? 0); cbn [andb]; auto. destruct (Z.ltb_spec 0 n); lia. }
      rewrite <- Hm in L.
      destruct (Z.eqb_spec dpos 0) as [Ed|Nd].
      + assert (Eh : read_head cd b = Ok (flags, None, bits c flags, Some (skipn (Z.to_nat bpos) b), c)).
        { apply head_ok. exists dpos, bpos. split; auto. split; auto. split; [now destruct (Z.eqb_spec bpos 0)|].
          destruct (Z.eqb_spec dpos 0); auto; lia. }
        rewrite Eh. cbn [bind]. cbv zeta. rewrite Eb, Z.eqb_refl. cbn [negb]. fold m. rewrite (D0 Ed) in *. cbn in L. now rewrite <- L.
      + destruct (D1 Nd) as (d & Vd & F).
        assert (Eh : read_head cd b = Ok (flags, Some d, bits c flags, Some (skipn (Z.to_nat bpos) b), c)).
        { apply head_ok. exists dpos, bpos. split; auto. split; auto. split; [now destruct (Z.eqb_spec bpos 0)|].
          destruct (Z.eqb_spec dpos 0); [lia|eauto]. }
        rewrite Eh. cbn [bind]. cbv zeta. rewrite Eb, Z.eqb_refl. cbn [negb]. fold m.
        change (br_from_slice (skipn (Z.to_nat bpos) b)) with (reader b bpos 0).
        apply (all_ok cd c d flags (bits c flags) b bpos (bits c flags) _ _ (FR c d flags bpos Pc Hbp) Lb
                 (fun i => BI c d flags bpos i Pc Hbp) _ 0 l (total_pos b bpos)).
        split; [unfold zlen in L; lia|]. intros k x Hk. rewrite Z.add_0_l. now apply F.
  Qed.

  Lemma compressed_panic n : 0 <= n ->
    (read_compressed cd b n = Panic <->
     exists flags dpos bpos c d k,
       header_at b flags dpos (bits c flags) bpos /\ params b 16 c /\ bpos <> 0 /\ dpos <> 0 /\ value b dpos d /\
       0 <= k < (if bits c flags =? 0 then Z.min n 1 else n) /\ bad b bpos c d flags (bits c flags * k)).
  Proof.
    intros Hn. rewrite compressed_head. split.
    - intros H. destruct (read_head cd b) as [[[[[flags df] bt] bf] c]| |] eqn:Eh; [|discriminate|now apply head_np in Eh].
      cbn [bind] in H.
      apply head_ok in Eh as (dpos & bpos & Hh & Pc & -> & Hd). destruct (BC c flags Pc) as [Eb Lb].
      assert (Hbp : 0 <= bpos) by (destruct Hh as (_ & _ & _ & _ & X); apply DecFacts.uint_nonneg in X; auto; lia).
      cbv zeta in H. rewrite Eb in H. destruct (Z.eqb_spec bt (bits c flags)) as [->|]; cbn [negb] in H; [|discriminate].
      destruct (Z.eqb_spec bpos 0) as [|Nb]; [discriminate|].
      set (m := if (bits c flags =? 0) && (0 <? n) then 1 else n) in H.
      assert (Hm : m = if bits c flags =? 0 then Z.min n 1 else n).
      { unfold m. destruct (bits c flags =? 0); cbn [andb]; auto. destruct (Z.ltb_spec 0 n); lia. }
      destruct (Z.eqb_spec dpos 0) as [Ed|Nd].
      + subst df. destruct (Z.to_nat m) as [|m'] eqn:Em; cbn [decompress_all] in H; discriminate.
      + destruct Hd as (d & -> & Vd). change (br_from_slice (skipn (Z.to_nat bpos) b)) with (reader b bpos 0) in H.
        apply (all_panic cd c d flags (bits c flags) b bpos (bits c flags) _ _ (FR c d flags bpos Pc Hbp) Lb
                 (fun i => BI c d flags bpos i Pc Hbp) _ 0 (total_pos b bpos)) in H as (k & Hk & Bk).
        exists flags, dpos, bpos, c, d, k. rewrite <- Hm. rewrite Z.add_0_l in Bk.
        split; [auto|]. split; [auto|]. split; [auto|]. split; [auto|]. split; [auto|]. split; [lia|auto].
    - intros (flags & dpos & bpos & c & d & k & Hh & Pc & Nb & Nd & Vd & Hk & Bk). destruct (BC c flags Pc) as [Eb Lb].
      assert (Hbp : 0 <= bpos) by (destruct Hh as (_ & _ & _ & _ & X); apply DecFacts.uint_nonneg in X; auto; lia).
      set (m := if (bits c flags =? 0) && (0 <? n) then 1 else n).
      assert (Hm : m = if bits c flags =? 0 then Z.min n 1 else n).
      { unfold m. destruct (bits c flags =? 0); cbn [andb]; auto. destruct (Z.ltb_spec 0 n); lia. }
      rewrite <- Hm in Hk.
      assert (Eh : read_head cd b = Ok (flags, Some d, bits c flags, Some (skipn (Z.to_nat bpos) b), c)).
      { apply head_ok. exists dpos, bpos. split; auto. split; auto. split; [now destruct (Z.eqb_spec bpos 0)|].
        destruct (Z.eqb_spec dpos 0); [lia|eauto]. }
      rewrite Eh. cbn [bind]. cbv zeta. rewrite Eb, Z.eqb_refl. cbn [negb]. fold m.
      change (br_from_slice (skipn (Z.to_nat bpos) b)) with (reader b bpos 0).
      apply (all_panic cd c d flags (bits c flags) b bpos (bits c flags) _ _ (FR c d flags bpos Pc Hbp) Lb
               (fun i => BI c d flags bpos i Pc Hbp) _ 0 (total_pos b bpos)). exists k. split; [lia|]. now rewrite Z.add_0_l.
  Qed.

  Lemma compressed_both n : 0 <= n ->
    (forall l, read_compressed cd b n = Ok l <-> compressed_at params value bits frame b n l) /\
    (read_compressed cd b n = Panic <->
     exists flags dpos bpos c d k,
       header_at b flags dpos (bits c flags) bpos /\ params b 16 c /\ bpos <> 0 /\ dpos <> 0 /\ value b dpos d /\
       0 <= k < (if bits c flags =? 0 then Z.min n 1 else n) /\ bad b bpos c d flags (bits c flags * k)).
  Proof. intros Hn. split; [intros l; now apply compressed_ok|now apply compressed_panic]. Qed.
End Head.

(** ** Tracks without compression *)
Lemma forall2_length {A B} (P : A -> B -> Prop) l m : Forall2 P l m -> length l = length m.
Proof. induction 1; cbn; auto. Qed.
Lemma nth_ext {A} (l : list A) : forall m, (forall k, nth_error l k = nth_error m k) -> l = m.
Proof.
  induction l as [|x l IH]; intros [|y m] H; auto; try (specialize (H 0%nat); discriminate).
  f_equal; [specialize (H 0%nat); cbn in H; congruence|]. apply IH. intros k. exact (H (S k)).
Qed.

Lemma uncompressed_ok {T} t (un : val -> res T) enc size value b n l : 0 <= size -> 0 <= n ->
  reads t enc size value -> (forall x, un (enc x) = Ok x) ->
  (read_uncompressed t un b n = Ok l <-> plain_at value size b n l).
Proof.
  intros Hs Hn R U.
  assert (St : forall p v q, 0 <= p -> read t b p = Ok (v, q) -> q = p + size).
  { intros p v q _ E. apply R in E as (x & _ & _ & ->). reflexivity. }
  unfold read_uncompressed, plain_at. split.
  - intros H. apply bind_inv in H as ([vs q] & E & H). apply (table_read _ size St Hs) in E as [L F]; [|lia|lia].
    apply un_list_forall2 in H. split.
    + rewrite <- L. unfold zlen. f_equal. symmetry. eapply forall2_length; eauto.
    + intros k x Hk. destruct (nth_error vs k) as [v|] eqn:Ev.
      * specialize (F k v Ev). apply R in F as (y & -> & Vy & _).
        assert (un (enc y) = Ok x) as Ex.
        { clear - H Hk Ev. revert k Hk Ev. induction H; intros [|k]; cbn [nth_error]; try discriminate.
          - intros [= <-] [= <-]. auto.
          - eauto. }
        rewrite U in Ex. injection Ex as <-. exact Vy.
      * exfalso. apply nth_error_None in Ev. apply forall2_length in H. assert (nth_error l k <> None) by congruence.
        apply nth_error_Some in H0. lia.
  - intros [L F].
    assert (Ex : forall k, 0 <= k < n -> exists x, nth_error l (Z.to_nat k) = Some x /\ read t b (0 + size * k) = Ok (enc x, 0 + size * k + size)).
    { intros k Hk. destruct (nth_error l (Z.to_nat k)) as [x|] eqn:E.
      - exists x. split; auto. apply R. exists x. split; auto. split; auto. specialize (F _ _ E).
        replace (0 + size * k) with (size * Z.of_nat (Z.to_nat k)) by lia. exact F.
      - exfalso. apply nth_error_None in E. unfold zlen in L. lia. }
    destruct (table_total (read t b) size St Hs n 0) as (vs & q & E); [lia| |].
    + intros k Hk. destruct (Ex k Hk) as (x & _ & E). eauto.
    + rewrite E. cbn [bind]. apply (table_read _ size St Hs) in E as [L' F']; [|lia|lia].
      assert (vs = map enc l) as ->.
      { apply nth_ext. intros k. rewrite nth_error_map. destruct (nth_error vs k) as [v|] eqn:Ev.
        - assert (Hk : (k < length vs)%nat) by (apply nth_error_Some; congruence). unfold zlen in L'.
          destruct (Ex (Z.of_nat k) ltac:(lia)) as (x & Hx & Er). rewrite Nat2Z.id in Hx. rewrite Hx. cbn.
          specialize (F' k v Ev). rewrite F' in Er. congruence.
        - apply nth_error_None in Ev. destruct (nth_error l k) eqn:E'; auto.
          assert (Hk : (k < length l)%nat) by (apply nth_error_Some; congruence). unfold zlen in *. lia. }
      clear - U. induction l as [|x l IH]; cbn [map un_list]; auto. now rewrite U, IH.
Qed.

(** ** Tracks *)
Lemma un_range_safe v : un_range v <> Panic.
Proof.
  unfold un_range. destruct v as [| |l| | |]; try discriminate.
  destruct l as [|[] [|[] [|[] [|? ?]]]]; try discriminate. destruct (_ <=? _); discriminate.
Qed.
Lemma un_vec3c_safe v : un_vec3c v <> Panic.
Proof.
  unfold un_vec3c. destruct v as [| |l| | |]; try discriminate. destruct l as [|x [|y [|z [|? ?]]]]; try discriminate.
  repeat (apply bind_np; [apply un_range_safe|intros ?]). discriminate.
Qed.
Lemma un_vec4c_safe v : un_vec4c v <> Panic.
Proof.
  unfold un_vec4c. destruct v as [| |l| | |]; try discriminate. destruct l as [|x [|y [|z [|w [|? ?]]]]]; try discriminate.
  repeat (apply bind_np; [apply un_range_safe|intros ?]). discriminate.
Qed.
Lemma un_uvc_safe v : un_uvc v <> Panic.
Proof.
  unfold un_uvc. destruct v as [| |l| | |]; try discriminate. destruct l as [|x [|y [|z [|w [|u [|? ?]]]]]]; try discriminate.
  repeat (apply bind_np; [apply un_range_safe|intros ?]). discriminate.
Qed.
Lemma un_transformc_safe v : un_transformc v <> Panic.
Proof.
  unfold un_transformc. destruct v as [| |l| | |]; try discriminate. destruct l as [|x [|y [|z [|? ?]]]]; try discriminate.
  repeat (apply bind_np; [apply un_vec3c_safe|intros ?]). discriminate.
Qed.

Lemma range_split b p c : range_at b p c <-> range_raw b p c /\ rc_bits c <= 32.
Proof. unfold range_at, range_raw. tauto. Qed.
Lemma range_sound b p c : bytes_ok b = true -> range_at b p c -> sound c /\ 0 <= rc_min c < 2 ^ 32.
Proof.
  intros Hb (A & B & C & D). unfold sound, word_at in *.
  apply (DecFacts.uint_nonneg _ _ _ _ Hb) in A, C. change (256 ^ 4) with (2 ^ 32) in A. lia.
Qed.
Lemma ranges3_sound b p c : bytes_ok b = true -> ranges3_at b p c -> sound3 c.
Proof.
  intros Hb (A & B & C). apply (range_sound _ _ _ Hb) in A, B, C. unfold sound3. tauto.
Qed.

Section Track.
  Variables (b : list Z) (n : Z).
  Hypothesis Hb : bytes_ok b = true.
  Hypothesis Hn : 0 <= n.

  Lemma transforms_read :
    (forall l, read_compressed transform_codec b n = Ok l <->
       compressed_at transform_ranges_at transform_at transform_width transform_frame b n l) /\
    (read_compressed transform_codec b n = Panic <-> sign_missing b n).
  Proof.
    destruct (compressed_both transform_codec utransform_val 44 transform_at transformc_val 144 raw_transform transform_ranges_at
      (fun c => (rc_bits (cx (tc_scale c)) <= 32 /\ rc_bits (cy (tc_scale c)) <= 32 /\ rc_bits (cz (tc_scale c)) <= 32) /\
        (rc_bits (cx (tc_rot c)) <= 32 /\ rc_bits (cy (tc_rot c)) <= 32 /\ rc_bits (cz (tc_rot c)) <= 32) /\
        (rc_bits (cx (tc_trans c)) <= 32 /\ rc_bits (cy (tc_trans c)) <= 32 /\ rc_bits (cz (tc_trans c)) <= 32)))
      with (bits := transform_width) (frame := transform_frame) (b := b) (n := n)
           (bad := fun b n c (d : utransform) flags i => Z.testbit flags 2 = true /\ i + transform_width c flags = total b n + 1)
      as [A P].
    - exact reads_transform.
    - now intros [[] [] [] ?].
    - exact reads_transform_ranges.
    - exact un_transformc_val.
    - intros. unfold transform_ranges_at, raw_transform, ranges3_at, raw3. rewrite !range_split. tauto.
    - exact un_transformc_safe.
    - intros c flags (S1 & S2 & S3). apply (ranges3_sound _ _ _ Hb) in S1, S2, S3.
      assert (W1 := scale_width_pos c flags S1). assert (W2 := rotation_width_pos c flags S2).
      assert (W3 := translation_width_pos c flags S3). unfold transform_width. split.
      + cbn [cd_bits transform_codec]. unfold transformc_bits, scale_width, rotation_width, translation_width.
        unfold has_scale, uniform_scale, has_rotation, has_translation.
        change f32c_bits with width. change vec3c_bits with width3.
        destruct (Z.testbit flags 0), (Z.testbit flags 1), (Z.testbit flags 2), (Z.testbit flags 3); lia.
      + destruct (Z.testbit flags 2); lia.
    - intros c d flags m (S1 & S2 & S3) Hm. apply (ranges3_sound _ _ _ Hb) in S1, S2, S3.
      apply (frame_transform b m c d flags Hm). unfold sound_transform. auto.
    - intros c d flags m i (S1 & S2 & S3) Hm [B E]. apply (ranges3_sound _ _ _ Hb) in S1, S2, S3.
      assert (W1 := scale_width_pos c flags S1). assert (W2 := rotation_width_pos c flags S2).
      assert (W3 := translation_width_pos c flags S3). unfold transform_width in E. rewrite B in E. lia.
    - exact Hb.
    - exact Hn.
    - split; [exact A|]. rewrite P. unfold sign_missing. split.
      + intros (flags & dpos & bpos & c & d & k & H1 & H2 & H3 & H4 & H5 & H6 & H7 & H8).
        exists flags, dpos, bpos, c, d, k. split; [exact H1|]. split; [exact H2|]. split; [exact H3|]. split; [exact H4|].
        split; [exact H5|]. split; [exact H7|].
        destruct H2 as (S1 & S2 & S3). apply (ranges3_sound _ _ _ Hb) in S1, S2, S3.
        assert (W1 := scale_width_pos c flags S1). assert (W2 := rotation_width_pos c flags S2).
        assert (W3 := translation_width_pos c flags S3).
        assert (W : 1 <= transform_width c flags) by (unfold transform_width; rewrite H7; lia).
        destruct (Z.eqb_spec (transform_width c flags) 0); [lia|]. split; [lia|]. unfold total in H8. lia.
      + intros (flags & dpos & bpos & c & d & k & H1 & H2 & H3 & H4 & H5 & H7 & H6 & H8).
        exists flags, dpos, bpos, c, d, k. split; [exact H1|]. split; [exact H2|]. split; [exact H3|]. split; [exact H4|].
        split; [exact H5|]. destruct H2 as (S1 & S2 & S3). apply (ranges3_sound _ _ _ Hb) in S1, S2, S3.
        assert (W1 := scale_width_pos c flags S1). assert (W2 := rotation_width_pos c flags S2).
        assert (W3 := translation_width_pos c flags S3).
        assert (W : 1 <= transform_width c flags) by (unfold transform_width; rewrite H7; lia).
        destruct (Z.eqb_spec (transform_width c flags) 0); [lia|]. split; [lia|]. split; [exact H7|]. unfold total. lia.
  Qed.

  Lemma indices_read :
    (forall l, read_compressed u32_codec b n = Ok l <->
       compressed_at range_at word_at (fun c _ => rc_bits c) (fun b pos c _ _ => index_frame b pos c) b n l) /\
    (read_compressed u32_codec b n = Panic <-> index_too_large b n).
  Proof.
    destruct (compressed_both u32_codec VInt 4 word_at range_val 16 range_raw range_at (fun c => rc_bits c <= 32))
      with (bits := fun (c : rangec) (_ : Z) => rc_bits c) (frame := fun b pos c (_ : Z) (_ : Z) => index_frame b pos c) (b := b) (n := n)
           (bad := fun b n c (_ : Z) (_ : Z) i => 0 < rc_bits c /\
               exists v, code_at b (8 * n + i) (rc_bits c) v /\ 2 ^ 32 <= rc_min c + v)
      as [A P].
    - exact reads_word.
    - reflexivity.
    - exact reads_range.
    - exact un_range_val.
    - intros. apply range_split.
    - exact un_range_safe.
    - intros c flags S. apply (range_sound _ _ _ Hb) in S as [S _]. unfold sound in S. cbn. lia.
    - intros c d flags m S Hm. apply (range_sound _ _ _ Hb) in S as [S M]. now apply frame_index.
    - intros c d flags m i S Hm [W (v & C & _)]. apply (range_sound _ _ _ Hb) in S as [S M].
      destruct (Z.leb_spec 0 (8 * m + i)) as [L|L].
      + apply code_end in C; auto. unfold total. lia.
      + unfold total. lia.
    - exact Hb.
    - exact Hn.
    - split; [exact A|]. rewrite P. unfold index_too_large. split.
      + intros (flags & dpos & bpos & c & d & k & H1 & H2 & H3 & H4 & H5 & H6 & H7 & v & H8 & H9).
        exists flags, dpos, bpos, c, d, k, v. destruct (Z.eqb_spec (rc_bits c) 0); [lia|]. auto 10.
      + intros (flags & dpos & bpos & c & d & k & v & H1 & H2 & H3 & H4 & H5 & H7 & H6 & H8 & H9).
        exists flags, dpos, bpos, c, d, k. destruct (Z.eqb_spec (rc_bits c) 0); [lia|].
        split; [exact H1|]. split; [exact H2|]. split; [exact H3|]. split; [exact H4|]. split; [exact H5|].
        split; [exact H6|]. split; [exact H7|]. eauto.
  Qed.

  Lemma floats_read l : read_compressed f32_codec b n = Ok l <->
    compressed_at range_at word_at (fun c _ => width c) (fun b pos c d _ => component b pos c d) b n l.
  Proof.
    apply (compressed_both f32_codec VInt 4 word_at range_val 16 range_raw range_at (fun c => rc_bits c <= 32))
      with (bits := fun (c : rangec) (_ : Z) => width c) (frame := fun b pos c d (_ : Z) => component b pos c d) (b := b) (n := n)
           (bad := fun _ _ _ _ _ _ => False).
    - exact reads_word.
    - reflexivity.
    - exact reads_range.
    - exact un_range_val.
    - intros. apply range_split.
    - exact un_range_safe.
    - intros c flags S. apply (range_sound _ _ _ Hb) in S as [S _]. split; [reflexivity|]. now apply width_sound.
    - intros c d flags m S Hm. apply (range_sound _ _ _ Hb) in S as [S M].
      apply (decodes_frame b m (width c) (f32_decompress c d) (fun i => component b (8 * m + i) c d)).
      intros i Hi. now apply decodes_component.
    - tauto.
    - exact Hb.
    - exact Hn.
  Qed.

  Lemma vec4s_read l : read_compressed vec4_codec b n = Ok l <->
    compressed_at ranges4_at vec4_at (fun c _ => width4 c) (fun b pos c d _ => vec4_frame b pos c d) b n l.
  Proof.
    apply (compressed_both vec4_codec vec4_val 16 vec4_at vec4c_val 64 raw4 ranges4_at
        (fun c => rc_bits (c4x c) <= 32 /\ rc_bits (c4y c) <= 32 /\ rc_bits (c4z c) <= 32 /\ rc_bits (c4w c) <= 32))
      with (bits := fun c (_ : Z) => width4 c) (frame := fun b pos c d (_ : Z) => vec4_frame b pos c d) (b := b) (n := n)
           (bad := fun _ _ _ _ _ _ => False).
    - exact reads_vec4.
    - now intros [].
    - exact reads_ranges4.
    - exact un_vec4c_val.
    - intros. unfold ranges4_at, raw4. rewrite !range_split. tauto.
    - exact un_vec4c_safe.
    - intros c flags (S1 & S2 & S3 & S4). apply (range_sound _ _ _ Hb) in S1, S2, S3, S4.
      destruct S1 as [S1 _], S2 as [S2 _], S3 as [S3 _], S4 as [S4 _]. apply width_sound in S1, S2, S3, S4.
      split; [reflexivity|]. unfold width4. lia.
    - intros c d flags m (S1 & S2 & S3 & S4) Hm. apply (range_sound _ _ _ Hb) in S1, S2, S3, S4.
      apply (decodes_frame b m (width4 c) (vec4_decompress c d) (fun i => vec4_frame b (8 * m + i) c d)).
      intros i Hi. apply decodes_vec4; auto. unfold sound4. tauto.
    - tauto.
    - exact Hb.
    - exact Hn.
  Qed.

  Lemma uvs_read l : read_compressed uv_codec b n = Ok l <->
    compressed_at uv_ranges_at uv_at uv_width uv_frame b n l.
  Proof.
    apply (compressed_both uv_codec uv_val 20 uv_at uvc_val 80 raw_uv uv_ranges_at
        (fun c => rc_bits (uc_su c) <= 32 /\ rc_bits (uc_sv c) <= 32 /\ rc_bits (uc_rot c) <= 32 /\ rc_bits (uc_tu c) <= 32 /\
                  rc_bits (uc_tv c) <= 32))
      with (bits := uv_width) (frame := uv_frame) (b := b) (n := n) (bad := fun _ _ _ _ _ _ => False).
    - exact reads_uv.
    - now intros [].
    - exact reads_uv_ranges.
    - exact un_uvc_val.
    - intros. unfold uv_ranges_at, raw_uv. rewrite !range_split. tauto.
    - exact un_uvc_safe.
    - intros c flags (S1 & S2 & S3 & S4 & S5). apply (range_sound _ _ _ Hb) in S1, S2, S3, S4, S5.
      destruct S1 as [S1 _], S2 as [S2 _], S3 as [S3 _], S4 as [S4 _], S5 as [S5 _]. apply width_sound in S1, S2, S3, S4, S5.
      split; [reflexivity|]. unfold uv_width, uv_scale_width. destruct (Z.testbit flags 1); lia.
    - intros c d flags m (S1 & S2 & S3 & S4 & S5) Hm. apply (range_sound _ _ _ Hb) in S1, S2, S3, S4, S5.
      apply (decodes_frame b m (uv_width c flags) (uv_decompress c d flags) (fun i t => uv_frame b (8 * m + i) c d flags t)).
      intros i Hi. apply decodes_uv; auto. unfold sound_uv. tauto.
    - tauto.
    - exact Hb.
    - exact Hn.
  Qed.

  Lemma bools_read l : read_compressed bool_codec b n = Ok l <->
    compressed_at unused_at bool_at (fun _ _ => 1) (fun b pos _ _ _ => code_at b pos 1) b n l.
  Proof.
    apply (compressed_both bool_codec bool_val 1 bool_at VInt 16 unused_at unused_at (fun _ => True))
      with (bits := fun (_ _ : Z) => 1) (frame := fun b pos (_ _ _ : Z) => code_at b pos 1) (b := b) (n := n)
           (bad := fun _ _ _ _ _ _ => False).
    - exact reads_bool.
    - reflexivity.
    - exact reads_unused.
    - intros c x. cbn. split; [intros [= ->]; auto|intros [-> _]; auto].
    - tauto.
    - now intros [].
    - intros. cbn. lia.
    - intros c d flags m _ Hm. now apply frame_bool.
    - tauto.
    - exact Hb.
    - exact Hn.
  Qed.

  Lemma first_comp us compensate : compensate = first_compensate us <-> (compensate = true <-> exists u r, us = u :: r /\ ut_comp u <> 0).
  Proof.
    destruct us as [|u r]; cbn [first_compensate].
    - split; [intros ->; split; [discriminate|intros (u & r & [=] & _)]|].
      destruct compensate; auto. intros [H _]. destruct (H eq_refl) as (u & r & [=] & _).
    - split.
      + intros ->. destruct (Z.eqb_spec (ut_comp u) 0) as [E|E]; cbn [negb]; split; auto; try discriminate; eauto.
        intros (u' & r' & [= <- <-] & N). contradiction.
      + intros [H1 H2]. destruct (Z.eqb_spec (ut_comp u) 0) as [E|E]; cbn [negb].
        * destruct compensate; auto. destruct (H1 eq_refl) as (u' & r' & [= <- <-] & N). contradiction.
        * apply H2. eauto.
  Qed.

  Theorem track_read t c v compensate :
    read_track_values b t c n = Ok (v, compensate) <-> track_at b t c n v compensate.
  Proof.
    unfold read_track_values, track_at, transforms_at, uvs_at, floats_at, indices_at, bools_at, vec4s_at.
    assert (B : forall {A} (r : res (list A)) f, bind r (fun l => Ok (f l)) = Ok (v, compensate) <-> exists l, r = Ok l /\ f l = (v, compensate)).
    { intros A r f. destruct r as [a|e|]; cbn; (split; [try discriminate|intros (l & E & H); try discriminate]).
      - intros [= H]. eauto.
      - injection E as ->. now rewrite H. }
    destruct (Z.eqb_spec c Compressed) as [Ec|Ec].
    - destruct (Z.eq_dec t 1) as [->|N1].
      { rewrite B. split.
        - intros (l & E & [= <- <-]). apply transforms_read in E. split; auto. exists l. split; auto. split; auto. now apply first_comp.
        - destruct v; intros [E H]; try discriminate. destruct H as (us & U & -> & F). exists us. split; [now apply transforms_read|].
          f_equal. symmetry. now apply first_comp. }
      destruct (Z.eq_dec t 2) as [->|N2].
      { rewrite B. split.
        - intros (l & E & [= <- <-]). apply uvs_read in E. auto.
        - destruct v; intros [E H]; try discriminate. destruct H as (U & ->). exists l. split; auto. now apply uvs_read. }
      destruct (Z.eq_dec t 3) as [->|N3].
      { rewrite B. split.
        - intros (l & E & [= <- <-]). apply floats_read in E. auto.
        - destruct v; intros [E H]; try discriminate. destruct H as (U & ->). exists l. split; auto. now apply floats_read. }
      destruct (Z.eq_dec t 5) as [->|N5].
      { rewrite B. split.
        - intros (l & E & [= <- <-]). apply indices_read in E. auto.
        - destruct v; intros [E H]; try discriminate. destruct H as (U & ->). exists l. split; auto. now apply indices_read. }
      destruct (Z.eq_dec t 8) as [->|N8].
      { rewrite B. split.
        - intros (l & E & [= <- <-]). apply bools_read in E. split; auto. exists l. auto.
        - destruct v; intros [E H]; try discriminate. destruct H as (us & U & -> & ->). exists us. split; auto. now apply bools_read. }
      destruct (Z.eq_dec t 9) as [->|N9].
      { rewrite B. split.
        - intros (l & E & [= <- <-]). apply vec4s_read in E. auto.
        - destruct v; intros [E H]; try discriminate. destruct H as (U & ->). exists l. split; auto. now apply vec4s_read. }
      split; [|destruct v; intros [E _]; contradiction].
      destruct t as [|p|p]; try discriminate. do 4 (try (destruct p as [p|p|]; try discriminate; try contradiction)).
    - destruct (Z.eq_dec t 1) as [->|N1].
      { rewrite B. split.
        - intros (l & E & [= <- <-]). apply (uncompressed_ok _ _ utransform_val 44 transform_at) in E; auto using reads_transform; try lia.
          + split; auto. exists l. split; auto. split; auto. now apply first_comp.
          + now intros [[] [] [] ?].
        - destruct v; intros [E H]; try discriminate. destruct H as (us & U & -> & F). exists us. split.
          + apply (uncompressed_ok _ _ utransform_val 44 transform_at); auto using reads_transform; try lia. now intros [[] [] [] ?].
          + f_equal. symmetry. now apply first_comp. }
      destruct (Z.eq_dec t 2) as [->|N2].
      { rewrite B. split.
        - intros (l & E & [= <- <-]). apply (uncompressed_ok _ _ uv_val 20 uv_at) in E; auto using reads_uv; try lia. now intros [].
        - destruct v; intros [E H]; try discriminate. destruct H as (U & ->). exists l. split; auto.
          apply (uncompressed_ok _ _ uv_val 20 uv_at); auto using reads_uv; try lia. now intros []. }
      destruct (Z.eq_dec t 3) as [->|N3].
      { rewrite B. split.
        - intros (l & E & [= <- <-]). apply (uncompressed_ok _ _ VInt 4 word_at) in E; auto using reads_word; try lia.
        - destruct v; intros [E H]; try discriminate. destruct H as (U & ->). exists l. split; auto.
          apply (uncompressed_ok _ _ VInt 4 word_at); auto using reads_word; try lia. }
      destruct (Z.eq_dec t 5) as [->|N5].
      { rewrite B. split.
        - intros (l & E & [= <- <-]). apply (uncompressed_ok _ _ VInt 4 word_at) in E; auto using reads_word; try lia.
        - destruct v; intros [E H]; try discriminate. destruct H as (U & ->). exists l. split; auto.
          apply (uncompressed_ok _ _ VInt 4 word_at); auto using reads_word; try lia. }
      destruct (Z.eq_dec t 8) as [->|N8].
      { rewrite B. split.
        - intros (l & E & [= <- <-]). apply (uncompressed_ok _ _ bool_val 1 bool_at) in E; auto using reads_bool; try lia.
          split; auto. exists l. auto.
        - destruct v; intros [E H]; try discriminate. destruct H as (us & U & -> & ->). exists us. split; auto.
          apply (uncompressed_ok _ _ bool_val 1 bool_at); auto using reads_bool; try lia. }
      destruct (Z.eq_dec t 9) as [->|N9].
      { rewrite B. split.
        - intros (l & E & [= <- <-]). apply (uncompressed_ok _ _ vec4_val 16 vec4_at) in E; auto using reads_vec4; try lia. now intros [].
        - destruct v; intros [E H]; try discriminate. destruct H as (U & ->). exists l. split; auto.
          apply (uncompressed_ok _ _ vec4_val 16 vec4_at); auto using reads_vec4; try lia. now intros []. }
      split; [|destruct v; intros [E _]; contradiction].
      destruct t as [|p|p]; try discriminate. do 4 (try (destruct p as [p|p|]; try discriminate; try contradiction)).
  Qed.

  Theorem track_panics t c :
    read_track_values b t c n = Panic <->
    c = Compressed /\ (t = 1 /\ sign_missing b n \/ t = 5 /\ index_too_large b n).
  Proof.
    split.
    - intros H. destruct (track_panic b t c n Hb H) as [-> T]. split; auto. unfold read_track_values in H.
      rewrite Z.eqb_refl in H. destruct T as [->| ->]; [left|right]; split; auto.
      + apply transforms_read. destruct (read_compressed transform_codec b n); try discriminate; auto.
      + apply indices_read. destruct (read_compressed u32_codec b n); try discriminate; auto.
    - intros [-> [[-> S]|[-> S]]]; unfold read_track_values; rewrite Z.eqb_refl.
      + apply transforms_read in S. now rewrite S.
      + apply indices_read in S. now rewrite S.
  Qed.
End Track.
