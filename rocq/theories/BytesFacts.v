(** Lemmas about bytes, positions and the in-memory cursor. *)
From Coq Require Import Lia ZifyBool ZifyNat ZifyN.
From Verif Require Import Bytes.
Ltac Zify.zify_post_hook ::= ZifyBool.elim_bool_cstr; Z.to_euclidean_division_equations.

Lemma zlen_nonneg {A} (l : list A) : 0 <= zlen l.
Proof. unfold zlen; lia. Qed.

Lemma zlen_app {A} (l r : list A) : zlen (l ++ r) = zlen l + zlen r.
Proof. unfold zlen; rewrite app_length; lia. Qed.

Lemma zlen_cons {A} (x : A) (l : list A) : zlen (x :: l) = 1 + zlen l.
Proof. unfold zlen; cbn [length]; lia. Qed.

Lemma zlen_nil {A} : zlen (@nil A) = 0.
Proof. reflexivity. Qed.

Lemma bind_ok {A B} (r : res A) (f : A -> res B) b :
  bind r f = Ok b -> exists a, r = Ok a /\ f a = Ok b.
Proof. destruct r; cbn; intros; try discriminate; eauto. Qed.

(** ** Loops *)
Fixpoint iter_nat {S} (n : nat) (f : S -> res S) (s : S) : res S :=
  match n with
  | O => Ok s
  | Datatypes.S n' => bind (f s) (iter_nat n' f)
  end.

Lemma iter_nat_add {S} n m (f : S -> res S) s :
  iter_nat (n + m) f s = bind (iter_nat n f s) (iter_nat m f).
Proof.
  revert s; induction n as [|n IH]; intros s; cbn; [reflexivity|].
  destruct (f s); cbn; auto.
Qed.

Lemma iter_pos_nat {S} p (f : S -> res S) s :
  iter_pos p f s = iter_nat (Pos.to_nat p) f s.
Proof.
  revert s; induction p as [p IH|p IH|]; intros s.
  - replace (Pos.to_nat p~1) with (1 + (Pos.to_nat p + Pos.to_nat p))%nat by lia.
    cbn -[Nat.add]. rewrite iter_nat_add. cbn.
    destruct (f s); cbn; try reflexivity.
    rewrite iter_nat_add, IH. destruct (iter_nat (Pos.to_nat p) f a); cbn; auto.
  - replace (Pos.to_nat p~0) with (Pos.to_nat p + Pos.to_nat p)%nat by lia.
    cbn. rewrite iter_nat_add, IH. destruct (iter_nat (Pos.to_nat p) f s); cbn; auto.
  - change (Pos.to_nat 1) with 1%nat. cbn. destruct (f s); reflexivity.
Qed.

Lemma iter_z_nat {S} n (f : S -> res S) s :
  iter_z n f s = iter_nat (Z.to_nat n) f s.
Proof. destruct n; cbn; auto. apply iter_pos_nat. Qed.

(** ** Little endian integers *)
Lemma le_bytes_length w x : length (le_bytes w x) = w.
Proof. revert x; induction w; intros; cbn; auto. Qed.

Lemma zlen_le_bytes w x : zlen (le_bytes w x) = Z.of_nat w.
Proof. unfold zlen; now rewrite le_bytes_length. Qed.

Lemma pow256_S w : 256 ^ Z.of_nat (S w) = 256 * 256 ^ Z.of_nat w.
Proof. rewrite Nat2Z.inj_succ, Z.pow_succ_r; lia. Qed.

Lemma pow256_pos w : 0 < 256 ^ w \/ w < 0.
Proof. destruct (Z.ltb_spec w 0); [right; lia|left; apply Z.pow_pos_nonneg; lia]. Qed.

Lemma le_val_le_bytes w x : 0 <= x < 256 ^ Z.of_nat w -> le_val (le_bytes w x) = x.
Proof.
  revert x; induction w as [|w IH]; intros x H.
  - cbn in *. lia.
  - rewrite pow256_S in H. cbn [le_bytes le_val]. rewrite IH; lia.
Qed.

Lemma le_bytes_ok w x : bytes_ok (le_bytes w x) = true.
Proof.
  revert x; induction w as [|w IH]; intros x; cbn; auto.
  fold (bytes_ok (le_bytes w (x / 256))). rewrite IH, andb_true_r.
  unfold is_byte. lia.
Qed.

Lemma le_val_range bs : bytes_ok bs = true -> 0 <= le_val bs < 256 ^ zlen bs.
Proof.
  induction bs as [|x r IH]; intros H.
  - cbn; lia.
  - cbn in H. apply andb_true_iff in H as [Hx Hr]. specialize (IH Hr).
    unfold is_byte in Hx. unfold zlen in *. cbn [length le_val]. rewrite pow256_S.
    generalize dependent (256 ^ Z.of_nat (length r)). intros P HP. lia.
Qed.

Lemma le_bytes_le_val bs : bytes_ok bs = true -> le_bytes (length bs) (le_val bs) = bs.
Proof.
  induction bs as [|x r IH]; intros H; cbn [length le_bytes le_val]; auto.
  cbn in H. apply andb_true_iff in H as [Hx Hr]. unfold is_byte in Hx.
  f_equal; [lia|]. replace ((x + 256 * le_val r) / 256) with (le_val r) by lia. auto.
Qed.

(** ** Positions *)
Lemma byte_at_some b i x : byte_at b i = Some x -> 0 <= i < zlen b.
Proof. unfold byte_at. destruct ((0 <=? i) && (i <? zlen b)) eqn:E; [lia|discriminate]. Qed.

Lemma byte_at_ex b i : 0 <= i < zlen b -> exists x, byte_at b i = Some x.
Proof.
  intros H. unfold byte_at.
  replace ((0 <=? i) && (i <? zlen b)) with true by lia.
  destruct (nth_error b (Z.to_nat i)) eqn:E; [eauto|].
  apply nth_error_None in E. unfold zlen in H. lia.
Qed.

Lemma byte_at_none b i : ~ (0 <= i < zlen b) -> byte_at b i = None.
Proof. intros. unfold byte_at. replace ((0 <=? i) && (i <? zlen b)) with false by lia. auto. Qed.

Lemma byte_at_nth b i : 0 <= i -> byte_at b i = nth_error b (Z.to_nat i).
Proof.
  intros. unfold byte_at. destruct ((0 <=? i) && (i <? zlen b)) eqn:E; auto.
  symmetry. apply nth_error_None. unfold zlen in E. lia.
Qed.

Lemma byte_at_ok b i x : bytes_ok b = true -> byte_at b i = Some x -> 0 <= x < 256.
Proof.
  intros Hb H. pose proof (byte_at_some _ _ _ H). rewrite byte_at_nth in H by lia.
  apply nth_error_In in H. unfold bytes_ok in Hb. rewrite forallb_forall in Hb.
  apply Hb in H. unfold is_byte in H. lia.
Qed.

Lemma byte_at_ext b1 b2 :
  (forall i, byte_at b1 i = byte_at b2 i) -> b1 = b2.
Proof.
  revert b2; induction b1 as [|x r IH]; intros [|y r2] H; auto.
  - specialize (H 0). unfold byte_at in H. rewrite zlen_cons in H.
    pose proof (zlen_nonneg r2).
    replace ((0 <=? 0) && (0 <? 1 + zlen r2)) with true in H by lia. discriminate.
  - specialize (H 0). unfold byte_at in H. rewrite zlen_cons in H.
    pose proof (zlen_nonneg r).
    replace ((0 <=? 0) && (0 <? 1 + zlen r)) with true in H by lia. discriminate.
  - assert (x = y).
    { specialize (H 0). rewrite !byte_at_nth in H by lia. cbn in H. congruence. }
    subst; f_equal. apply IH. intros i.
    destruct (Z.ltb_spec i 0).
    { rewrite !byte_at_none by lia; auto. }
    specialize (H (i + 1)). rewrite !byte_at_nth in * by lia.
    replace (Z.to_nat (i + 1)) with (S (Z.to_nat i)) in H by lia. auto.
Qed.

Lemma get_bytes_spec n b p l :
  get_bytes n b p = Some l <->
  length l = n /\ forall k, (k < n)%nat -> byte_at b (p + Z.of_nat k) = nth_error l k.
Proof.
  revert p l; induction n as [|n IH]; intros p l; cbn.
  - split.
    + intros [= <-]. split; auto. lia.
    + intros [H _]. destruct l; cbn in *; auto; lia.
  - split.
    + destruct (byte_at b p) eqn:E1; [|discriminate].
      destruct (get_bytes n b (p + 1)) eqn:E2; [|discriminate].
      intros [= <-]. apply IH in E2 as [H1 H2]. cbn. split; [lia|].
      intros [|k] Hk; cbn.
      * rewrite Z.add_0_r; auto.
      * rewrite <- H2 by lia. f_equal. lia.
    + intros [H1 H2]. destruct l as [|x l]; cbn in H1; [lia|].
      pose proof (H2 0%nat ltac:(lia)) as H0. cbn in H0. rewrite Z.add_0_r in H0. rewrite H0.
      assert (get_bytes n b (p + 1) = Some l) as ->; auto.
      apply IH. split; [lia|]. intros k Hk.
      specialize (H2 (S k) ltac:(lia)). cbn in H2. rewrite <- H2. f_equal. lia.
Qed.

Lemma get_bytes_length n b p l : get_bytes n b p = Some l -> length l = n.
Proof. intros H; now apply get_bytes_spec in H. Qed.

Lemma get_bytes_ok n b p l :
  bytes_ok b = true -> get_bytes n b p = Some l -> bytes_ok l = true.
Proof.
  intros Hb H. apply get_bytes_spec in H as [H1 H2].
  unfold bytes_ok. apply forallb_forall. intros x Hx.
  apply In_nth_error in Hx as [k Hk].
  assert (k < n)%nat. { rewrite <- H1. apply nth_error_Some. congruence. }
  rewrite <- H2 in Hk by lia.
  apply byte_at_ok in Hk; auto. unfold is_byte. lia.
Qed.

Lemma get_bytes_some n b p : 0 <= p -> p + Z.of_nat n <= zlen b -> exists l, get_bytes n b p = Some l.
Proof.
  revert p; induction n as [|n IH]; intros p H1 H2; cbn; [eauto|].
  destruct (byte_at_ex b p) as [x ->]; [lia|].
  destruct (IH (p + 1)) as [l ->]; [lia|lia|]. eauto.
Qed.

Lemma get_bytes_bound n b p l :
  get_bytes n b p = Some l -> n <> O -> 0 <= p /\ p + Z.of_nat n <= zlen b.
Proof.
  intros H Hn. apply get_bytes_spec in H as [H1 H2].
  destruct n as [|n]; [lia|].
  assert (forall k, (k < S n)%nat -> 0 <= p + Z.of_nat k < zlen b) as HH.
  { intros k Hk. specialize (H2 k Hk).
    destruct (nth_error l k) eqn:E.
    - eapply byte_at_some; eauto.
    - apply nth_error_None in E. lia. }
  pose proof (HH 0%nat ltac:(lia)). pose proof (HH n ltac:(lia)). lia.
Qed.

(** [agree R b b']: every byte present in [b] at a position in [R] is present in [b']. *)
Definition agree (R : Z -> Prop) (b b' : list Z) : Prop :=
  forall i x, R i -> byte_at b i = Some x -> byte_at b' i = Some x.

Lemma agree_mono (R R' : Z -> Prop) b b' :
  (forall i, R' i -> R i) -> agree R b b' -> agree R' b b'.
Proof. unfold agree; eauto. Qed.

Lemma agree_trans R b1 b2 b3 : agree R b1 b2 -> agree R b2 b3 -> agree R b1 b3.
Proof. unfold agree; eauto. Qed.

Lemma agree_refl R b : agree R b b.
Proof. unfold agree; auto. Qed.

Lemma get_bytes_agree (R : Z -> Prop) n b b' p l :
  (forall i, p <= i < p + Z.of_nat n -> R i) ->
  agree R b b' -> get_bytes n b p = Some l -> get_bytes n b' p = Some l.
Proof.
  intros HR HA H. apply get_bytes_spec in H as [H1 H2]. apply get_bytes_spec. split; auto.
  intros k Hk. rewrite <- H2 by lia.
  specialize (H2 k Hk).
  destruct (nth_error l k) eqn:E.
  - rewrite H2. apply HA; auto. apply HR. lia.
  - apply nth_error_None in E. lia.
Qed.

(** ** Cursor writes *)
Lemma put_len b p bs :
  0 <= p -> zlen (put b p bs) = match bs with [] => zlen b | _ => Z.max (zlen b) (p + zlen bs) end.
Proof.
  intros Hp. unfold put. destruct bs as [|x r]; auto.
  unfold zlen. rewrite !app_length, firstn_length, repeat_length, skipn_length. cbn [length]. lia.
Qed.

Lemma put_len_ge b p bs : 0 <= p -> zlen b <= zlen (put b p bs).
Proof. intros. rewrite put_len by auto. destruct bs; lia. Qed.

Lemma nth_error_repeat0 n k : (k < n)%nat -> nth_error (repeat 0 n) k = Some 0.
Proof. revert k; induction n; intros [|k] H; cbn; auto; try lia. apply IHn. lia. Qed.

Lemma nth_error_skipn {A} (n k : nat) (l : list A) :
  nth_error (skipn n l) k = nth_error l (n + k).
Proof. revert l; induction n; intros [|x l]; cbn; auto. destruct k; auto. Qed.

Lemma nth_error_firstn {A} (n k : nat) (l : list A) :
  (k < n)%nat -> nth_error (firstn n l) k = nth_error l k.
Proof.
  revert l k; induction n; intros [|x l] [|k] H; cbn; auto; try lia. apply IHn. lia.
Qed.

Lemma put_at b p bs i :
  0 <= p -> 0 <= i ->
  byte_at (put b p bs) i =
    if (p <=? i) && (i <? p + zlen bs) then byte_at bs (i - p)
    else if i <? zlen b then byte_at b i
    else if (i <? p) && negb (match bs with [] => true | _ => false end) then Some 0
    else None.
Proof.
  intros Hp Hi.
  destruct bs as [|x r].
  { cbn [put]. rewrite zlen_nil.
    replace ((p <=? i) && (i <? p + 0)) with false by lia.
    cbn. rewrite andb_false_r. destruct (i <? zlen b) eqn:E; auto.
    apply byte_at_none. lia. }
  unfold put. set (bs := x :: r).
  assert (Hbs : 0 < zlen bs) by (unfold bs; rewrite zlen_cons; pose proof (zlen_nonneg r); lia).
  unfold negb. rewrite andb_true_r.
  rewrite byte_at_nth by lia.
  destruct (Z.ltb_spec i p) as [Hip|Hip].
  { replace ((p <=? i) && (i <? p + zlen bs)) with false by lia.
    destruct (Z.ltb_spec i (zlen b)) as [Hb|Hb].
    - rewrite nth_error_app1.
      2:{ rewrite firstn_length. unfold zlen in *. lia. }
      rewrite nth_error_firstn by lia. rewrite byte_at_nth by lia. auto.
    - rewrite nth_error_app2.
      2:{ rewrite firstn_length. unfold zlen in *. lia. }
      rewrite nth_error_app1.
      2:{ rewrite firstn_length, repeat_length. unfold zlen in *. lia. }
      apply nth_error_repeat0. rewrite firstn_length. unfold zlen in *. lia. }
  rewrite nth_error_app2 by (rewrite firstn_length; lia).
  rewrite nth_error_app2 by (rewrite firstn_length, repeat_length; lia).
  rewrite firstn_length, repeat_length.
  destruct (Z.ltb_spec i (p + zlen bs)).
  { replace ((p <=? i) && true) with true by lia.
    rewrite nth_error_app1 by (unfold zlen in *; lia).
    rewrite byte_at_nth by lia. f_equal. lia. }
  rewrite andb_false_r.
  rewrite nth_error_app2 by (unfold zlen in *; lia).
  rewrite nth_error_skipn.
  replace (Z.to_nat p + length bs +
      (Z.to_nat i - Nat.min (Z.to_nat p) (length b) - (Z.to_nat p - length b) - length bs))%nat
    with (Z.to_nat i) by (unfold zlen in *; lia).
  destruct (Z.ltb_spec i (zlen b)).
  - rewrite byte_at_nth by lia. auto.
  - apply nth_error_None. unfold zlen in *. lia.
Qed.

Lemma put_in b p bs i : 0 <= p -> p <= i < p + zlen bs -> byte_at (put b p bs) i = byte_at bs (i - p).
Proof.
  intros. rewrite put_at by lia. replace ((p <=? i) && (i <? p + zlen bs)) with true by lia. auto.
Qed.

Lemma put_out b p bs i x :
  0 <= p -> ~ (p <= i < p + zlen bs) -> byte_at b i = Some x -> byte_at (put b p bs) i = Some x.
Proof.
  intros Hp Hi H. pose proof (byte_at_some _ _ _ H).
  rewrite put_at by lia. replace ((p <=? i) && (i <? p + zlen bs)) with false by lia.
  replace (i <? zlen b) with true by lia. auto.
Qed.

Lemma get_put b p bs : 0 <= p -> get_bytes (length bs) (put b p bs) p = Some bs.
Proof.
  intros. apply get_bytes_spec. split; auto. intros k Hk.
  rewrite put_in by (unfold zlen; lia). rewrite byte_at_nth by lia. f_equal. lia.
Qed.

Lemma bytes_ok_app a b : bytes_ok (a ++ b) = bytes_ok a && bytes_ok b.
Proof. apply forallb_app. Qed.

Lemma bytes_ok_firstn n b : bytes_ok b = true -> bytes_ok (firstn n b) = true.
Proof.
  intros H. rewrite <- (firstn_skipn n b), bytes_ok_app in H.
  now apply andb_true_iff in H.
Qed.

Lemma bytes_ok_skipn n b : bytes_ok b = true -> bytes_ok (skipn n b) = true.
Proof.
  intros H. rewrite <- (firstn_skipn n b), bytes_ok_app in H.
  now apply andb_true_iff in H.
Qed.

Lemma bytes_ok_repeat0 n : bytes_ok (repeat 0 n) = true.
Proof. induction n; cbn; auto. Qed.

Lemma put_bytes_ok b p bs : bytes_ok b = true -> bytes_ok bs = true -> bytes_ok (put b p bs) = true.
Proof.
  intros H1 H2. unfold put. destruct bs; auto.
  rewrite !bytes_ok_app, bytes_ok_firstn, bytes_ok_repeat0, bytes_ok_skipn by auto.
  rewrite H2; auto.
Qed.

(** ** Rounding *)
Lemma round_up_eq v n : 0 < n -> exists r, 0 <= r < n /\ round_up v n = v + r.
Proof.
  intros Hn. unfold round_up. exists (n - 1 - (v + n - 1) mod n).
  pose proof (Z.mod_pos_bound (v + n - 1) n Hn).
  pose proof (Z_div_mod_eq_full (v + n - 1) n).
  split; [lia|]. rewrite Z.mul_comm. lia.
Qed.

Lemma round_up_ge v n : 0 < n -> v <= round_up v n.
Proof. intros Hn. destruct (round_up_eq v n Hn) as (r & ? & ->). lia. Qed.

Lemma round_up_lt v n : 0 < n -> round_up v n < v + n.
Proof. intros Hn. destruct (round_up_eq v n Hn) as (r & ? & ->). lia. Qed.

Lemma round_up_mod v n : 0 < n -> round_up v n mod n = 0.
Proof. intros. unfold round_up. apply Z_mod_mult. Qed.

Lemma round_up_least v n m : 0 < n -> v <= m -> m mod n = 0 -> round_up v n <= m.
Proof.
  intros Hn Hv Hm. apply Z_div_exact_full_2 in Hm; [|lia].
  unfold round_up. rewrite Hm, Z.mul_comm.
  apply Z.mul_le_mono_nonneg_l; [lia|].
  apply Z.lt_succ_r. apply Z.div_lt_upper_bound; [lia|]. lia.
Qed.

Lemma round_up_id v n : 0 < n -> v mod n = 0 -> round_up v n = v.
Proof.
  intros Hn H. pose proof (round_up_ge v n Hn).
  pose proof (round_up_least v n v Hn ltac:(lia) H). lia.
Qed.
