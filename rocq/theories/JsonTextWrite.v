(** What the writer prints is in the grammar: proofs. *)
From Coq Require Import Lia ZifyBool ZifyNat ZifyN Ascii.
From Verif Require Import Bytes BytesFacts Strings Float32 Json JsonText JsonTextSpec JsonTextFacts.
Ltac Zify.zify_post_hook ::= ZifyBool.elim_bool_cstr; Z.to_euclidean_division_equations.
Open Scope Z_scope.
Open Scope list_scope.

(** ** Integers *)
Lemma value_snoc ds c : digits_value (ds ++ [c]) = 10 * digits_value ds + (c - 48).
Proof. unfold digits_value. now rewrite fold_left_app. Qed.

Lemma dec_spec fuel : forall n acc, 0 <= n < 10 ^ Z.of_nat fuel -> (1 <= fuel)%nat ->
  exists ds, dec fuel n acc = ds ++ acc /\ integer_part ds /\ digits_value ds = n.
Proof.
  induction fuel as [|f IH]; intros n acc N F; [lia|]. cbn [dec]. destruct (n <? 10) eqn:S.
  - exists [48 + n]. split; auto. split; [|unfold digits_value; cbn [fold_left]; lia].
    split; [discriminate|]. split; [constructor; auto; unfold digit; lia|]. intros c r H. discriminate.
  - assert (B : 0 <= n / 10 < 10 ^ Z.of_nat f).
    { rewrite Nat2Z.inj_succ, Z.pow_succ_r in N by lia. split; [apply Z.div_pos; lia|apply Z.div_lt_upper_bound; lia]. }
    assert (F' : (1 <= f)%nat) by (destruct f; [cbn in N; lia|lia]).
    destruct (IH (n / 10) (48 + n mod 10 :: acc) B F') as (ds & E & (D1 & D2 & D3) & V).
    exists (ds ++ [48 + n mod 10]). rewrite <- app_assoc. split; [exact E|]. split; [split; [|split]|].
    + destruct ds; discriminate.
    + apply Forall_app. split; auto. constructor; auto. unfold digit. pose proof (Z.mod_pos_bound n 10). lia.
    + intros c r H. destruct ds as [|a [|b ds]]; [congruence| |].
      * injection H as -> _. unfold digits_value in V. cbn in V. lia.
      * injection H as -> -> _. eapply D3; eauto.
    + rewrite value_snoc, V. pose proof (Z.div_mod n 10). lia.
Qed.

Lemma digits_spec n : 0 <= n -> integer_part (digits n) /\ digits_value (digits n) = n.
Proof.
  intros N. unfold digits. destruct (dec_spec (S (Z.to_nat (Z.log2 n))) n []) as (ds & E & P & V); [|lia|].
  - split; auto. pose proof (Z.log2_nonneg n). rewrite Nat2Z.inj_succ, Z2Nat.id by lia.
    destruct (Z.eq_dec n 0) as [->|]; [cbn; lia|]. destruct (Z.log2_spec n) as [_ U]; [lia|].
    eapply Z.lt_le_trans; [exact U|]. apply Z.pow_le_mono_l. lia.
  - rewrite app_nil_r in E. now rewrite E.
Qed.

Lemma fold_grows ds : forall a, Forall digit ds -> 0 <= a -> a <= fold_left (fun a c => 10 * a + (c - 48)) ds a.
Proof.
  induction ds as [|c ds IH]; intros a D A; cbn [fold_left]; [lia|]. inversion D as [|x y Dc Dr]; subst. unfold digit in Dc.
  etransitivity; [|apply IH; auto; lia]. lia.
Qed.

Lemma long_integer_fits ds : forall a e, Forall digit ds -> 0 <= a ->
  fold_left (fun a c => 10 * a + (c - 48)) ds a < two64 ->
  long_integer ds a false e = (fold_left (fun a c => 10 * a + (c - 48)) ds a, e).
Proof.
  induction ds as [|c ds IH]; intros a e D A L; cbn [fold_left long_integer] in *; auto.
  inversion D as [|x y Dc Dr]; subst. unfold digit in Dc.
  assert (G : 10 * a + (c - 48) <= fold_left (fun a c => 10 * a + (c - 48)) ds (10 * a + (c - 48))) by (apply fold_grows; auto; lia).
  unfold overflows. replace (two64 <=? 10 * a + (c - 48)) with false by (symmetry; apply Z.leb_gt; lia).
  cbn [orb]. apply IH; auto; lia.
Qed.

Lemma show_int_denotes n : - 2 ^ 63 <= n < two64 -> denotes (JInt n) (show_int n).
Proof.
  intros B. unfold show_int. destruct (n <? 0) eqn:S.
  - destruct (digits_spec (- n)) as [P V]; [lia|]. apply (de_number true (digits (- n)) [] None).
    + exists [], []. repeat split; try apply P; try constructor. rewrite !app_nil_r. reflexivity.
    + unfold number_value, digits_value in *. rewrite long_integer_fits; [|apply P|lia|rewrite V; unfold two64; lia].
      rewrite V. replace ((0 =? 0) && (0 <? - n) && (- n <=? 2 ^ 63)) with true by lia. do 2 f_equal. lia.
  - destruct (digits_spec n) as [P V]; [lia|]. apply (de_number false (digits n) [] None).
    + exists [], []. repeat split; try apply P; try constructor. rewrite !app_nil_r. reflexivity.
    + unfold number_value, digits_value in *. rewrite long_integer_fits; [|apply P|lia|rewrite V; lia].
      rewrite V. reflexivity.
Qed.

(** ** Strings *)
Lemma show_char_chars c s t : 0 <= c -> chars s t -> chars (c :: s) (show_char c ++ t).
Proof.
  intros C H. unfold show_char.
  destruct (Z.eqb_spec c 34) as [->|N1]; [apply ch_escape; auto; cbn; auto 20|].
  destruct (Z.eqb_spec c 92) as [->|N2]; [apply ch_escape; auto; cbn; auto 20|].
  destruct (Z.eqb_spec c 8) as [->|N3]; [apply ch_escape; auto; cbn; auto 20|].
  destruct (Z.eqb_spec c 9) as [->|N4]; [apply ch_escape; auto; cbn; auto 20|].
  destruct (Z.eqb_spec c 10) as [->|N5]; [apply ch_escape; auto; cbn; auto 20|].
  destruct (Z.eqb_spec c 12) as [->|N6]; [apply ch_escape; auto; cbn; auto 20|].
  destruct (Z.eqb_spec c 13) as [->|N7]; [apply ch_escape; auto; cbn; auto 20|].
  destruct (c <? 32) eqn:L; [|cbn [app]; apply ch_plain; auto; lia].
  assert (U : c :: s = utf8_char c ++ s) by (unfold utf8_char; replace (c <? 128) with true by lia; reflexivity).
  rewrite U. apply ch_unicode; auto; [|lia].
  assert (I : In c (map Z.of_nat (seq 0 32))) by (apply in_map_iff; exists (Z.to_nat c); split; [lia|apply in_seq; lia]).
  clear - I. cbn in I. repeat (destruct I as [<-|I]; [reflexivity|]). destruct I.
Qed.

Lemma show_str_chars s : Forall (fun c => 0 <= c) s -> chars s (flat_map show_char s).
Proof. induction 1; cbn [flat_map]; [constructor|now apply show_char_chars]. Qed.

Lemma text_of_nonneg x : Forall (fun c => 0 <= c) (text_of x).
Proof. induction x; cbn; constructor; auto. lia. Qed.

Lemma name_text x : name_of_text (text_of x) = x.
Proof. induction x as [|a x IH]; cbn; auto. rewrite IH, N2Z.id, ascii_N_embedding. reflexivity. Qed.

(** ** Values *)
Lemma line_blank d : blank (line d).
Proof.
  unfold blank, line. constructor; [cbn; auto|]. apply Forall_forall. intros c H. apply repeat_spec in H. subst. cbn. auto.
Qed.
Lemma nil_blank : blank [].
Proof. constructor. Qed.

Lemma entries_items d d' js xs : Forall2 denotes js xs -> js <> [] -> items js (entries d xs ++ line d').
Proof.
  induction 1 as [|j x js xs D Ds IH]; intros N; [congruence|]. destruct Ds as [|j' x' js xs D' Ds].
  - cbn [entries]. rewrite <- app_assoc. apply it_one; auto using line_blank.
  - change (entries d (x :: x' :: xs)) with (line d ++ x ++ 44 :: entries d (x' :: xs)). rewrite <- !app_assoc. cbn [app].
    apply (it_more (line d) [] j x); auto using line_blank, nil_blank. apply IH. discriminate.
Qed.

Definition member_denotes (m : string * json) (x : list Z) : Prop :=
  exists t, x = show_str (text_of (fst m)) ++ 58 :: 32 :: t /\ denotes (snd m) t.

Lemma space_blank : blank [32].
Proof. constructor; [cbn; auto|constructor]. Qed.

Lemma entries_members d d' ms xs : Forall2 member_denotes ms xs -> ms <> [] -> members ms (entries d xs ++ line d').
Proof.
  induction 1 as [|j x ms xs (t & -> & D) Ds IH]; intros N; [congruence|]. destruct j as [y j]. cbn [fst snd] in *.
  rewrite <- (name_text y) at 1. pose proof (show_str_chars _ (text_of_nonneg y)) as C.
  destruct Ds as [|j' x' ms xs D' Ds].
  - cbn [entries]. unfold show_str. repeat (rewrite <- !app_assoc; cbn [app]).
    apply (me_one (line d) [] [32] (line d')); auto using line_blank, nil_blank, space_blank.
  - change (entries d ((show_str (text_of y) ++ 58 :: 32 :: t) :: x' :: xs))
      with (line d ++ (show_str (text_of y) ++ 58 :: 32 :: t) ++ 44 :: entries d (x' :: xs)).
    unfold show_str. repeat (rewrite <- !app_assoc; cbn [app]).
    apply (me_more (line d) [] [32] []); auto using line_blank, nil_blank, space_blank. apply IH. discriminate.
Qed.

Lemma fold_and {A} (P : A -> Prop) l : fold_right and True (map P l) <-> Forall P l.
Proof.
  induction l as [|a l IH]; cbn; [split; auto|]. rewrite IH. split; [intros []; auto|intros H; inversion H; auto].
Qed.

Lemma json_ind' (P : json -> Prop) :
  P JNull -> (forall b, P (JBool b)) -> (forall n, P (JInt n)) -> (forall n, P (JFloat n)) -> (forall s, P (JStr s)) ->
  (forall js, Forall P js -> P (JArr js)) -> (forall ms, Forall (fun m => P (snd m)) ms -> P (JObj ms)) ->
  forall j, P j.
Proof.
  intros H1 H2 H3 H4 H5 H6 H7. fix IH 1. intros [|b|n|n|s|js|ms].
  - exact H1.
  - apply H2.
  - apply H3.
  - apply H4.
  - apply H5.
  - apply H6. induction js as [|j js IHj]; constructor; [apply IH|exact IHj].
  - apply H7. induction ms as [|[x j] ms IHm]; constructor; [apply IH|exact IHm].
Qed.

Lemma show_denotes j : printable j -> forall d, denotes j (show d j).
Proof.
  induction j as [|b|n|n|s|js IH|ms IH] using json_ind'; intros P d; cbn [show].
  - constructor.
  - destruct b; constructor.
  - now apply show_int_denotes.
  - cbn [printable] in P. unfold float_kept in P. apply read_number_sound in P as (neg & ints & fracs & exp & t & -> & N & V).
    rewrite app_nil_r. econstructor; eauto.
  - apply de_string. now apply show_str_chars.
  - cbn [printable] in P. apply fold_and in P.
    assert (D : Forall2 denotes js (map (show (S d)) js)).
    { clear - IH P. induction js; cbn; constructor; inversion IH; inversion P; subst; auto. }
    destruct js as [|j js]; [apply (de_array0 []); constructor|].
    change (block 91 93 d (map (show (S d)) (j :: js))) with (91 :: entries (S d) (map (show (S d)) (j :: js)) ++ line d ++ [93]).
    rewrite app_assoc. apply de_array. apply entries_items; auto. discriminate.
  - cbn [printable] in P. apply (fold_and (fun m => printable (snd m))) in P.
    set (g := fun m : string * json => show_str (text_of (fst m)) ++ 58 :: 32 :: show (S d) (snd m)).
    assert (D : Forall2 member_denotes ms (map g ms)).
    { clear - IH P. induction ms as [|m ms IHm]; cbn; constructor; inversion IH; inversion P; subst; auto.
      exists (show (S d) (snd m)). auto. }
    destruct ms as [|m ms]; [apply (de_object0 []); constructor|].
    change (block 123 125 d (map g (m :: ms))) with (123 :: entries (S d) (map g (m :: ms)) ++ line d ++ [125]).
    rewrite app_assoc. apply de_object. apply entries_members; auto. discriminate.
Qed.

Theorem to_text_denotes j : printable j -> denotes j (to_text j).
Proof. intros P. now apply show_denotes. Qed.

(** A text has one meaning. *)
Theorem denotes_unique j j' w1 t w2 t' : denotes j t' -> denotes j' t -> blank w1 -> blank w2 -> t' = w1 ++ t ++ w2 -> j = j'.
Proof.
  intros D D' B1 B2 E. set (f := (2 * List.length t' + 1)%nat). set (k := S (nesting j + nesting j')).
  assert (H1 : read_value f k ([] ++ t' ++ []) = Some (j, [])).
  { apply (proj1 complete); auto using nil_blank; try lia. exact I. }
  assert (H2 : read_value f k (w1 ++ t ++ w2) = Some (j', w2)).
  { apply (proj1 complete); auto; try lia; [|now apply stop_blank_end]. subst f t'. rewrite !app_length. lia. }
  rewrite app_nil_r in H1. cbn [app] in H1. rewrite E in H1. rewrite H2 in H1. congruence.
Qed.

Theorem text_roundtrip j : printable j ->
  from_text (to_text j) = if Nat.ltb (nesting j) 128 then Some j else None.
Proof.
  intros P. pose proof (to_text_denotes j P) as D. destruct (Nat.ltb_spec (nesting j) 128) as [L|L].
  - apply from_text_iff. exists [], (to_text j), []. rewrite app_nil_r. repeat split; auto using nil_blank.
  - destruct (from_text (to_text j)) as [j'|] eqn:E; auto. apply from_text_iff in E as (w1 & t & w2 & E & B1 & B2 & D' & L').
    rewrite (denotes_unique _ _ _ _ _ _ D D' B1 B2 E) in L. lia.
Qed.
