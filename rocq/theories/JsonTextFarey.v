(** Decimals close to a number halfway between two floats: a search, its correctness and its result.

    A decimal m * 10^k differs from c * 2^f by at most 1 part in 2^52 - 1 only if m / c is close
    to 2^f / 10^k.  The fractions with denominators below 2^25 in an interval are found by
    descending the Stern-Brocot tree. *)
From Coq Require Import Lia.
From Verif Require Import Bytes Float32 Json JsonText.
Open Scope Z_scope.

(** ** The search *)

(** [l1 / l2] and [u1 / u2] are the ends of the interval; [a / b] and [c / d] are neighbours in
    the tree with the interval between them.  Steps in one direction are taken at once. *)
Fixpoint walk (fuel : nat) (l1 l2 u1 u2 a b c d : Z) : option (list (Z * Z)) :=
  match fuel with
  | O => None
  | S n =>
      if 2 ^ 25 <=? b + d then Some []
      else
        let i := (b * l1 - a * l2 - 1) / (c * l2 - d * l1) in
        if (0 <? i) && ((a + i * c) * l2 <? (b + i * d) * l1) then walk n l1 l2 u1 u2 (a + i * c) (b + i * d) c d
        else
          let j := (c * u2 - d * u1 - 1) / (b * u1 - a * u2) in
          if (0 <? j) && ((d + j * b) * u1 <? (c + j * a) * u2) then walk n l1 l2 u1 u2 a b (c + j * a) (d + j * b)
          else
            match walk n l1 l2 u1 u2 a b (a + c) (b + d), walk n l1 l2 u1 u2 (a + c) (b + d) c d with
            | Some x, Some y => Some ((a + c, b + d) :: x ++ y)
            | _, _ => None
            end
  end.

Lemma walk_spec l1 l2 u1 u2 : 0 < l2 -> 0 < u2 -> forall fuel a b c d l,
  walk fuel l1 l2 u1 u2 a b c d = Some l -> c * b - a * d = 1 -> 0 <= a -> 0 <= b -> 0 <= c -> 0 <= d ->
  forall m q, 0 < q < 2 ^ 25 -> l1 * q <= m * l2 -> m * u2 <= u1 * q -> a * q < m * b -> m * d < c * q ->
  exists p r t, In (p, r) l /\ 0 < t /\ m = t * p /\ q = t * r.
Proof.
  intros L2 U2. induction fuel as [|n IH]; intros a b c d l W D A B C E m q Q Lo Up La Rc; [discriminate|].
  cbn [walk] in W. destruct (2 ^ 25 <=? b + d) eqn:S.
  - exfalso. apply Z.leb_le in S.
    assert (X : q = (m * b - a * q) * d + (c * q - m * d) * b) by (replace ((m * b - a * q) * d + (c * q - m * d) * b) with (q * (c * b - a * d)) by ring; rewrite D; lia).
    assert (1 * d <= (m * b - a * q) * d) by (apply Z.mul_le_mono_nonneg_r; lia). assert (1 * b <= (c * q - m * d) * b) by (apply Z.mul_le_mono_nonneg_r; lia). lia.
  - set (i := (b * l1 - a * l2 - 1) / (c * l2 - d * l1)) in W. destruct ((0 <? i) && _) eqn:R.
    + apply andb_prop in R as [I R]. apply Z.ltb_lt in I, R. eapply IH; eauto; try nia.
      assert ((a + i * c) * q * l2 < m * (b + i * d) * l2); [|nia].
      assert ((b + i * d) * (l1 * q) <= (b + i * d) * (m * l2)) by (apply Z.mul_le_mono_nonneg_l; nia).
      assert ((a + i * c) * l2 * q < (b + i * d) * l1 * q) by (apply Z.mul_lt_mono_pos_r; lia). lia.
    + clear R. set (j := (c * u2 - d * u1 - 1) / (b * u1 - a * u2)) in W. destruct ((0 <? j) && _) eqn:R.
      * apply andb_prop in R as [J R]. apply Z.ltb_lt in J, R. eapply IH; eauto; try nia.
        assert (m * (d + j * b) * u2 < (c + j * a) * q * u2); [|nia].
        assert ((d + j * b) * (m * u2) <= (d + j * b) * (u1 * q)) by (apply Z.mul_le_mono_nonneg_l; nia).
        assert ((d + j * b) * u1 * q < (c + j * a) * u2 * q) by (apply Z.mul_lt_mono_pos_r; lia). lia.
      * destruct (walk n l1 l2 u1 u2 a b (a + c) (b + d)) as [x|] eqn:W1; [|discriminate].
        destruct (walk n l1 l2 u1 u2 (a + c) (b + d) c d) as [y|] eqn:W2; [|discriminate]. injection W as <-.
        destruct (Z.lt_trichotomy (m * (b + d)) ((a + c) * q)) as [H|[H|H]].
        -- destruct (IH _ _ _ _ _ W1 ltac:(lia) ltac:(lia) ltac:(lia) ltac:(lia) ltac:(lia) m q Q Lo Up La H) as (p & r & t & I & T).
           exists p, r, t. split; auto. right. apply in_or_app. now left.
        -- exists (a + c), (b + d), (c * q - m * d). split; [now left|]. split; [lia|].
           assert (Xs : m * b - a * q = c * q - m * d) by lia. split.
           ++ replace ((c * q - m * d) * (a + c)) with ((m * b - a * q) * c + (c * q - m * d) * a) by (rewrite Xs; ring).
              replace ((m * b - a * q) * c + (c * q - m * d) * a) with (m * (c * b - a * d)) by ring. rewrite D. lia.
           ++ replace ((c * q - m * d) * (b + d)) with ((m * b - a * q) * d + (c * q - m * d) * b) by (rewrite Xs; ring).
              replace ((m * b - a * q) * d + (c * q - m * d) * b) with (q * (c * b - a * d)) by ring. rewrite D. lia.
        -- destruct (IH _ _ _ _ _ W2 ltac:(lia) ltac:(lia) ltac:(lia) ltac:(lia) ltac:(lia) m q Q Lo Up ltac:(lia) Rc) as (p & r & t & I & T).
           exists p, r, t. split; auto. right. apply in_or_app. now right.
Qed.

(** ** The floats beside the numbers found *)

(** The arguments of the search for the decimal of a float, as in [shortest] *)
Definition spot (a : Z) : Z * Z :=
  let e := (a / 2 ^ 23) mod 2 ^ 8 in let m := a mod 2 ^ 23 in if e =? 0 then (m, -149) else (m + 2 ^ 23, e - 150).
Definition spot_low (s : Z * Z) : Z := let (m, e) := s in if (m =? 2 ^ 23) && (-149 <? e) then 4 * m - 1 else 4 * m - 2.
Definition spot_at (s : Z * Z) (k : Z) : option Z :=
  shortest_at (Z.even (fst s)) (spot_low s) (4 * fst s) (4 * fst s + 2) (snd s - 2) k.

Definition is_float (j : option json) (n : Z) : bool := match j with Some (JFloat m) => m =? n | _ => false end.
(** The decimal is not that of the float, or it is read as the float. *)
Definition read_back (a m k : Z) : bool :=
  if (255 * 2 ^ 23 <=? a) || (a =? 0) ||
     negb (match spot_at (spot a) k with Some m' => m' =? m | None => false end) then true
  else forallb (fun neg : bool =>
    let n := if neg then a + 2 ^ 31 else a in
    is_float (float_value neg m k) n && (if k <? 0 then true else is_float (float_value neg (m * 10 ^ (k + 1)) (-1)) n)) [false; true].

(** c * 2^f is halfway between the floats with these patterns. *)
Definition before (f c : Z) : Z := (f + 150) * 2 ^ 23 + (c - 1) / 2.
Definition pair_ok (f k m c : Z) : bool :=
  if negb (Z.odd c) || negb ((f =? -150) || (2 ^ 24 <=? c)) then true
  else read_back (before f c) m k && read_back (before f c + 1) m k.
Fixpoint multiples_ok (fuel : nat) (f k p r t : Z) : bool :=
  match fuel with
  | O => false
  | S n => if 2 ^ 25 <=? t * r then true else pair_ok f k (t * p) (t * r) && multiples_ok n f k p r (t + 1)
  end.

Definition num (f k : Z) : Z := 2 ^ Z.max f 0 * 10 ^ Z.max (- k) 0.
Definition den (f k : Z) : Z := 10 ^ Z.max k 0 * 2 ^ Z.max (- f) 0.
Definition eps : Z := 2 ^ 52.
Definition close_pairs (fuel : nat) (f k : Z) : option (list (Z * Z)) :=
  walk fuel (num f k * (eps - 1)) (den f k * eps) (num f k * (eps - 1)) (den f k * (eps - 2)) 0 1 1 0.

(** Exponents that can occur together *)
Definition window (f k : Z) : bool := (num f (k + 1) <? den f (k + 1)) && (den f k <? 2 ^ 26 * num f k).
Definition check_one (f k : Z) : bool :=
  if negb (window f k) || ((-12 <=? k) && (k <=? 9)) then true
  else match close_pairs 100 f k with Some l => forallb (fun x => multiples_ok 20 f k (fst x) (snd x) 1) l | None => false end.
Lemma check_passes : forallb (fun i => forallb (fun j => check_one (Z.of_nat i - 150) (Z.of_nat j - 46)) (seq 0 86)) (seq 0 254) = true.
Proof. vm_cast_no_check (eq_refl true). Qed.

Lemma multiples_all f k p r : 0 < r -> forall fuel t0, multiples_ok fuel f k p r t0 = true -> 0 < t0 ->
  forall t, t0 <= t -> t * r < 2 ^ 25 -> pair_ok f k (t * p) (t * r) = true.
Proof.
  intros R. induction fuel as [|n IH]; intros t0 H T0 t T L; [discriminate|]. cbn [multiples_ok] in H.
  destruct (2 ^ 25 <=? t0 * r) eqn:H0; [apply Z.leb_le in H0; nia|]. apply andb_prop in H as [H1 H2].
  destruct (Z.eq_dec t t0) as [->|N]; [exact H1|]. apply (IH (t0 + 1)); auto; lia.
Qed.

Lemma check_one_pairs f k : check_one f k = true -> window f k = true -> ~ -12 <= k <= 9 ->
  exists fuel fuel' l, close_pairs fuel f k = Some l /\ forallb (fun x => multiples_ok fuel' f k (fst x) (snd x) 1) l = true.
Proof.
  unfold check_one. intros H W N. exists 100%nat, 20%nat. revert H. generalize (close_pairs 100 f k) as o. generalize 20%nat as n. intros n o H. rewrite W in H.
  replace ((-12 <=? k) && (k <=? 9)) with false in H by lia. destruct o as [l|]; [|discriminate]. exists l. auto.
Qed.
Lemma all_checked f k : -150 <= f <= 103 -> -46 <= k <= 39 -> check_one f k = true.
Proof.
  intros F K. generalize check_passes. generalize check_one as g. intros g H. rewrite forallb_forall in H.
  specialize (H (Z.to_nat (f + 150)) ltac:(apply in_seq; lia)). cbv beta in H. rewrite forallb_forall in H.
  specialize (H (Z.to_nat (k + 46)) ltac:(apply in_seq; lia)). cbv beta in H.
  replace (Z.of_nat (Z.to_nat (f + 150)) - 150) with f in H by lia. replace (Z.of_nat (Z.to_nat (k + 46)) - 46) with k in H by lia. exact H.
Qed.

(** All pairs that are close are fine. *)
Theorem close_ok f k m c : -150 <= f <= 103 -> -46 <= k <= 39 -> window f k = true -> ~ -12 <= k <= 9 ->
  0 < m -> 0 < c < 2 ^ 25 -> num f k * (eps - 1) * c <= m * (den f k * eps) -> m * (den f k * (eps - 2)) <= num f k * (eps - 1) * c ->
  pair_ok f k m c = true.
Proof.
  intros F K W NK M C Lo Up. destruct (check_one_pairs f k (all_checked f k F K) W NK) as (fuel & fuel' & l & E & H). unfold close_pairs in E.
  assert (D : 0 < den f k) by (apply Z.mul_pos_pos; apply Z.pow_pos_nonneg; lia).
  assert (P1 : 0 < den f k * eps) by (apply Z.mul_pos_pos; [exact D|reflexivity]).
  assert (P2 : 0 < den f k * (eps - 2)) by (apply Z.mul_pos_pos; [exact D|reflexivity]).
  assert (P3 : 0 * c < m * 1) by (clear - M; lia). assert (P4 : m * 0 < 1 * c) by (clear - C; lia).
  destruct (walk_spec _ _ _ _ P1 P2 _ _ _ _ _ _ E eq_refl (Z.le_refl 0) (Z.le_succ_diag_r 0) (Z.le_succ_diag_r 0) (Z.le_refl 0) m c C Lo Up P3 P4)
    as (p & r & t & I & T & -> & ->).
  rewrite forallb_forall in H. specialize (H _ I). cbn [fst snd] in H.
  assert (R0 : 0 < r) by (clear - T C; nia).
  apply (multiples_all f k p r R0 fuel' 1); [exact H|reflexivity|clear - T; lia|apply C].
Qed.
