(** Facts about bit streams. *)
From Coq Require Import Lia ZifyBool ZifyNat ZifyN.
From Verif Require Import Bytes BytesFacts Bits.
Ltac Zify.zify_post_hook ::= ZifyBool.elim_bool_cstr; Z.to_euclidean_division_equations.

Lemma bits_of_length n : forall x, length (bits_of n x) = n.
Proof. induction n; intros; cbn [bits_of length]; auto. Qed.

Lemma zlen_bits_of n x : zlen (bits_of n x) = Z.of_nat n.
Proof. unfold zlen. now rewrite bits_of_length. Qed.

Lemma odd_half x : x = Z.b2z (Z.odd x) + 2 * (x / 2).
Proof. rewrite (Z.div2_odd x) at 1. rewrite Z.div2_div. lia. Qed.

Lemma bits_val_of n : forall x, bits_val (bits_of n x) = x mod 2 ^ Z.of_nat n.
Proof.
  induction n as [|n IH]; intros x.
  - cbn. rewrite Z.mod_1_r. reflexivity.
  - cbn [bits_of bits_val]. rewrite IH, Nat2Z.inj_succ, Z.pow_succ_r by lia.
    assert (0 < 2 ^ Z.of_nat n) by (apply Z.pow_pos_nonneg; lia).
    rewrite (Z.rem_mul_r x 2) by lia. f_equal. rewrite (odd_half x) at 2.
    rewrite Z.mul_comm, Z.mod_add by lia. destruct (Z.odd x); reflexivity.
Qed.

Lemma bits_val_range l : 0 <= bits_val l < 2 ^ zlen l.
Proof.
  induction l as [|b l IH]; [cbn; lia|]. rewrite zlen_cons. cbn [bits_val].
  rewrite Z.pow_add_r by (pose proof (zlen_nonneg l); lia). change (2 ^ 1) with 2. destruct b; cbn [Z.b2z]; lia.
Qed.

Lemma bits_of_val l : bits_of (length l) (bits_val l) = l.
Proof.
  induction l as [|b l IH]; [reflexivity|]. cbn [length bits_of bits_val].
  replace (Z.b2z b + 2 * bits_val l) with (bits_val l * 2 + Z.b2z b) by lia.
  rewrite Z.div_add_l by lia. replace (Z.b2z b / 2) with 0 by (destruct b; reflexivity).
  rewrite Z.add_0_r, IH. f_equal.
  rewrite Z.add_comm, Z.mul_comm, Z.odd_add_mul_2. destruct b; reflexivity.
Qed.

Lemma bits_of_ge n : forall k x, 0 <= x < 2 ^ Z.of_nat n ->
  bits_of (n + k) x = bits_of n x ++ repeat false k.
Proof.
  induction n as [|n IH]; intros k x H.
  - cbn in H. replace x with 0 by lia. cbn [bits_of app Nat.add].
    induction k; cbn [bits_of repeat]; [reflexivity|]. now rewrite <- IHk.
  - cbn [Nat.add bits_of app]. f_equal. apply IH. rewrite Nat2Z.inj_succ, Z.pow_succ_r in H by lia. lia.
Qed.

(** ** Packing into bytes *)
Lemma pack_bits n : forall l, (length l <= n)%nat -> exists k, (k < 8)%nat /\
  bits_of_bytes (pack n l) = l ++ repeat false k /\ zlen (pack n l) = (zlen l + 7) / 8 /\
  bytes_ok (pack n l) = true.
Proof.
  induction n as [|n IH]; intros l H.
  - destruct l; [|cbn in H; lia]. exists 0%nat. repeat split. lia.
  - destruct l as [|b l]; [exists 0%nat; repeat split; lia|].
    set (x := b :: l) in *. cbn [pack]. fold x. replace (match x with [] => [] | _ :: _ => bits_val (firstn 8 x) :: pack n (skipn 8 x) end)
      with (bits_val (firstn 8 x) :: pack n (skipn 8 x)) by reflexivity.
    assert (L : length x = S (length l)) by reflexivity.
    destruct (IH (skipn 8 x)) as (k & Hk & Hb & Hl & Ho); [rewrite skipn_length; lia|].
    assert (Hr := bits_val_range (firstn 8 x)).
    assert (L8 : zlen (firstn 8 x) = Z.min 8 (zlen x)) by (unfold zlen; rewrite firstn_length; lia).
    assert (B : 0 <= bits_val (firstn 8 x) < 256).
    { assert (2 ^ zlen (firstn 8 x) <= 2 ^ 8) by (apply Z.pow_le_mono_r; lia). lia. }
    assert (BO : bytes_ok (bits_val (firstn 8 x) :: pack n (skipn 8 x)) = true).
    { unfold bytes_ok in *. cbn [forallb]. rewrite Ho. unfold is_byte. lia. }
    destruct (Nat.le_gt_cases 8 (length x)) as [G|G].
    + exists k. split; [auto|]. split.
      * unfold bits_of_bytes in *. cbn [flat_map]. rewrite Hb.
        replace 8%nat with (length (firstn 8 x)) at 1 by (rewrite firstn_length; lia).
        rewrite bits_of_val, app_assoc, firstn_skipn. reflexivity.
      * split; [|auto]. rewrite zlen_cons, Hl. unfold zlen. rewrite skipn_length. lia.
    + exists (8 - length x)%nat. split; [lia|]. split.
      * unfold bits_of_bytes in *. cbn [flat_map]. rewrite skipn_all2 by lia. rewrite skipn_all2 in Hb by lia.
        replace (flat_map (bits_of 8) (pack n [])) with (@nil bool) by (destruct n; reflexivity).
        rewrite app_nil_r. rewrite firstn_all2 in * by lia.
        replace 8%nat with (length x + (8 - length x))%nat at 1 by lia.
        rewrite bits_of_ge, bits_of_val; [reflexivity|]. exact Hr.
      * split; [|auto]. rewrite zlen_cons. rewrite skipn_all2 in * by lia.
        replace (pack n []) with (@nil Z) by (destruct n; reflexivity).
        unfold zlen in *. rewrite L in *. cbn [length] in *. lia.
Qed.

Lemma bytes_of_bits_spec l : exists k, (k < 8)%nat /\
  bits_of_bytes (bytes_of_bits l) = l ++ repeat false k /\ zlen (bytes_of_bits l) = (zlen l + 7) / 8 /\
  bytes_ok (bytes_of_bits l) = true.
Proof. apply pack_bits. lia. Qed.

(** ** Writers: what is written so far, followed by zeros *)
Definition writing (done : list bool) (total : Z) (w : bwriter) : Prop :=
  zlen done <= total /\ w = mkBW (done ++ repeat false (Z.to_nat (total - zlen done))) (zlen done).

Lemma writing_new n : 0 <= n -> writing [] n (bw_new (repeat false (Z.to_nat n))).
Proof. intros H. split; [exact H|]. cbn. rewrite Z.sub_0_r. reflexivity. Qed.

Lemma replace_end d new total : zlen d + zlen new <= total ->
  replace (d ++ repeat false (Z.to_nat (total - zlen d))) (zlen d) new =
  (d ++ new) ++ repeat false (Z.to_nat (total - zlen (d ++ new))).
Proof.
  intros H. unfold replace. rewrite zlen_app. unfold zlen in *. rewrite Nat2Z.id.
  rewrite firstn_app, Nat.sub_diag, firstn_all, firstn_O, app_nil_r.
  rewrite skipn_app, (skipn_all2 d) by lia. cbn [app].
  replace (length d + length new - length d)%nat with (length new) by lia.
  rewrite <- app_assoc. do 2 f_equal.
  assert (S : forall m k, skipn k (repeat false m) = repeat false (m - k)).
  { induction m; intros [|k]; cbn; auto. }
  rewrite S. f_equal. lia.
Qed.

Lemma writing_total d total w : writing d total w -> zlen (bw_bits w) = total.
Proof.
  intros [H ->]. cbn [bw_bits]. rewrite zlen_app. unfold zlen at 2. rewrite repeat_length. lia.
Qed.

Lemma bw_write_ok v n d total w : writing d total w -> 1 <= n <= 32 -> zlen d + n <= total ->
  exists w', bw_write v n w = Ok w' /\ writing (d ++ bits_of (Z.to_nat n) v) total w'.
Proof.
  intros H Hn Ht. pose proof (writing_total _ _ _ H) as L. destruct H as [H ->].
  unfold bw_write. rewrite L. cbn [bw_index bw_bits].
  replace (zlen d + n <=? total) with true by lia. replace ((1 <=? n) && (n <=? 32)) with true by lia.
  eexists. split; [reflexivity|]. split; [rewrite zlen_app, zlen_bits_of; lia|].
  rewrite replace_end by (rewrite zlen_bits_of; lia). f_equal. rewrite zlen_app, zlen_bits_of. lia.
Qed.

Lemma bw_write_bit_ok v d total w : writing d total w -> zlen d + 1 <= total ->
  exists w', bw_write_bit v w = Ok w' /\ writing (d ++ [v]) total w'.
Proof.
  intros H Ht. pose proof (writing_total _ _ _ H) as L. destruct H as [H ->].
  unfold bw_write_bit. rewrite L. cbn [bw_index bw_bits].
  replace (zlen d + 1 <=? total) with true by lia.
  eexists. split; [reflexivity|]. split; [rewrite zlen_app; cbn; lia|].
  rewrite replace_end by (cbn; lia). f_equal. rewrite zlen_app. reflexivity.
Qed.

Lemma writing_done d w : writing d (zlen d) w -> bw_into_bytes w = bytes_of_bits d.
Proof. intros [_ ->]. unfold bw_into_bytes. cbn [bw_bits]. now rewrite Z.sub_diag, app_nil_r. Qed.

(** ** Readers: the bits still to come *)
Definition reading (rest : list bool) (r : breader) : Prop :=
  exists d, r = mkBR (d ++ rest) (zlen d).

Lemma reading_start l : exists k, reading (l ++ repeat false k) (br_from_slice (bytes_of_bits l)).
Proof.
  destruct (bytes_of_bits_spec l) as (k & _ & H & _). exists k, []. unfold br_from_slice. rewrite H. reflexivity.
Qed.

Lemma slice_mid d s r : slice (d ++ s ++ r) (zlen d) (zlen s) = Some s.
Proof.
  unfold slice. rewrite !zlen_app. pose proof (zlen_nonneg r). replace (_ <=? _) with true by lia.
  unfold zlen. rewrite !Nat2Z.id. f_equal.
  rewrite skipn_app, skipn_all, Nat.sub_diag. cbn [skipn app].
  rewrite firstn_app, firstn_all, Nat.sub_diag. cbn. apply app_nil_r.
Qed.

Lemma br_read_ok w n s rest r : zlen s = n -> reading (s ++ rest) r -> 1 <= n <= w ->
  exists r', br_read w n r = Ok (bits_val s, r') /\ reading rest r'.
Proof.
  intros <- (d & ->) H. unfold br_read. cbn [br_bits br_index]. rewrite slice_mid.
  replace ((1 <=? zlen s) && (zlen s <=? w)) with true by lia.
  eexists. split; [reflexivity|]. exists (d ++ s). rewrite zlen_app, app_assoc. reflexivity.
Qed.

Lemma read_bit_ok b rest r : reading (b :: rest) r ->
  exists r', read_bit r = Ok (b, r') /\ reading rest r'.
Proof.
  intros (d & ->). unfold read_bit. cbn [br_bits br_index].
  pose proof (slice_mid d [b] rest) as H. cbn in H. rewrite H.
  eexists. split; [reflexivity|]. exists (d ++ [b]). rewrite zlen_app, <- app_assoc. reflexivity.
Qed.
