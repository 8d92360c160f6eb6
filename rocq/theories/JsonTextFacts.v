(** The reader accepts exactly the texts of the grammar; the writer's texts are among them. *)
From Coq Require Import Lia ZifyBool ZifyNat ZifyN Ascii.
From Verif Require Import Bytes BytesFacts Strings Float32 Json JsonText JsonTextSpec.
Ltac Zify.zify_post_hook ::= ZifyBool.elim_bool_cstr; Z.to_euclidean_division_equations.
Open Scope Z_scope.
Open Scope list_scope.

(** ** White space *)
Lemma is_ws_in c : is_ws c = true <-> In c [32; 9; 10; 13].
Proof. unfold is_ws. cbn. lia. Qed.

Lemma skip_blank w t : blank w -> skip_ws (w ++ t) = skip_ws t.
Proof. induction 1 as [|c w H _ IH]; cbn [skip_ws app]; auto. apply is_ws_in in H. now rewrite H. Qed.

Lemma skip_head c t : is_ws c = false -> skip_ws (c :: t) = c :: t.
Proof. intros H. cbn. now rewrite H. Qed.

Lemma skip_split t : exists w, blank w /\ t = w ++ skip_ws t.
Proof.
  induction t as [|c t (w & B & E)]; cbn [skip_ws]; [exists []; split; [constructor|auto]|].
  destruct (is_ws c) eqn:W.
  - exists (c :: w). split; [constructor; auto; now apply is_ws_in|]. cbn. now rewrite <- E.
  - exists []. split; [constructor|auto].
Qed.

Lemma skip_cons t c r : skip_ws t = c :: r -> exists w, blank w /\ t = w ++ c :: r.
Proof. intros H. destruct (skip_split t) as (w & B & E). exists w. rewrite H in E. auto. Qed.

Lemma skip_nil t : skip_ws t = [] -> blank t.
Proof. intros H. destruct (skip_split t) as (w & B & E). rewrite H, app_nil_r in E. now subst. Qed.

Lemma blank_skip w : blank w -> skip_ws w = [].
Proof. intros H. rewrite <- (app_nil_r w), (skip_blank w []) by auto. reflexivity. Qed.

(** ** Digits *)
Lemma is_digit_spec c : is_digit c = true <-> digit c.
Proof. unfold is_digit, digit. lia. Qed.

(** What may follow a number. *)
Definition stop (t : list Z) : Prop :=
  match t with [] => True | c :: _ => In c [32; 9; 10; 13; 44; 93; 125] end.
Definition no_digit (t : list Z) : Prop := match t with [] => True | c :: _ => is_digit c = false end.

Lemma span_app ds r : Forall digit ds -> no_digit r -> span_digits (ds ++ r) = (ds, r).
Proof.
  induction 1 as [|c ds D _ IH]; intros N; cbn [app].
  - destruct r as [|c r]; auto. cbn in N |- *. now rewrite N.
  - cbn [span_digits]. apply is_digit_spec in D. rewrite D, (IH N). reflexivity.
Qed.

Lemma span_split t : forall a b, span_digits t = (a, b) -> t = a ++ b /\ Forall digit a.
Proof.
  induction t as [|c t IH]; intros a b; cbn [span_digits]; [intros H; inversion H; auto|].
  destruct (is_digit c) eqn:D.
  - destruct (span_digits t) as [a' b'] eqn:E. intros H. inversion H; subst. destruct (IH a' b eq_refl) as [-> F].
    split; auto. constructor; auto. now apply is_digit_spec.
  - intros H. inversion H. auto.
Qed.

Lemma stop_digit r : stop r -> no_digit r.
Proof. destruct r as [|c r]; auto. cbn. unfold is_digit. lia. Qed.

Lemma read_exp_complete exp te r : exponent exp te -> stop r -> read_exp (te ++ r) = Some (exp, r).
Proof.
  intros E S. pose proof (stop_digit r S) as N. inversion E as [|e ds I D F|e ds I D F|e ds I D F]; subst; cbn [app].
  - destruct r as [|c r]; auto. unfold read_exp. cbn in S. replace ((c =? 101) || (c =? 69)) with false by lia. reflexivity.
  - destruct ds as [|d ds]; [congruence|]. unfold read_exp. replace ((e =? 101) || (e =? 69)) with true by (cbn in I; lia).
    cbn [app]. assert (digit d) as Dd by (now inversion F). unfold digit in Dd. replace (d =? 45) with false by lia.
    replace (d =? 43) with false by lia. rewrite (span_app (d :: ds) r F N : span_digits (d :: ds ++ r) = _). reflexivity.
  - destruct ds as [|d ds]; [congruence|]. unfold read_exp. replace ((e =? 101) || (e =? 69)) with true by (cbn in I; lia).
    cbn [app Z.eqb Pos.eqb]. rewrite (span_app (d :: ds) r F N : span_digits (d :: ds ++ r) = _). reflexivity.
  - destruct ds as [|d ds]; [congruence|]. unfold read_exp. replace ((e =? 101) || (e =? 69)) with true by (cbn in I; lia).
    cbn [app Z.eqb Pos.eqb]. rewrite (span_app (d :: ds) r F N : span_digits (d :: ds ++ r) = _). reflexivity.
Qed.

Lemma exp_no_digit exp te r : exponent exp te -> stop r -> no_digit (te ++ r).
Proof.
  intros E S. inversion E; subst; cbn [app]; [now apply stop_digit| | |]; cbn in H; unfold no_digit, is_digit; lia.
Qed.

Lemma exp_no_point exp te r : exponent exp te -> stop r -> match te ++ r with [] => True | c :: _ => c <> 46 end.
Proof.
  intros E S. inversion E; subst; cbn [app]; [destruct r; cbn in *; auto; lia| | |]; cbn in H; lia.
Qed.

Lemma read_frac_complete fracs tf exp te r : fraction fracs tf -> exponent exp te -> stop r ->
  read_frac (tf ++ te ++ r) = Some (fracs, te ++ r).
Proof.
  intros F E S. pose proof (exp_no_digit _ _ _ E S) as N. pose proof (exp_no_point _ _ _ E S) as P.
  inversion F as [|ds D G]; subst; cbn [app].
  - unfold read_frac. destruct (te ++ r) as [|c l]; auto. replace (c =? 46) with false by lia. reflexivity.
  - unfold read_frac. cbn [Z.eqb Pos.eqb]. rewrite (span_app _ _ G N). destruct fracs; [congruence|reflexivity].
Qed.

Lemma frac_no_digit fracs tf exp te r : fraction fracs tf -> exponent exp te -> stop r -> no_digit (tf ++ te ++ r).
Proof.
  intros F E S. inversion F; subst; cbn [app]; [now apply (exp_no_digit exp)|reflexivity].
Qed.

Lemma read_number_complete neg ints fracs exp t j r :
  number neg ints fracs exp t -> number_value neg ints fracs exp = Some j -> stop r ->
  read_number (t ++ r) = Some (j, r).
Proof.
  intros (tf & te & (N & D & Z0) & F & E & ->) V S. rewrite <- !app_assoc.
  destruct ints as [|c ds]; [congruence|]. assert (digit c) as Dc by (now inversion D).
  assert (X : (let '(neg', t') := match ((if neg then [45] else []) ++ (c :: ds) ++ tf ++ te ++ r) with
                                  | x :: l => if x =? 45 then (true, l) else (false, x :: l) | [] => (false, []) end in (neg', t')) =
              (neg, (c :: ds) ++ tf ++ te ++ r)).
  { destruct neg; cbn [app]; auto. unfold digit in Dc. replace (c =? 45) with false by lia. reflexivity. }
  unfold read_number.
  assert (Y : match ((if neg then [45] else []) ++ (c :: ds) ++ tf ++ te ++ r) with
              | x :: l => if x =? 45 then (true, l) else (false, (if neg then [45] else []) ++ (c :: ds) ++ tf ++ te ++ r)
              | [] => (false, (if neg then [45] else []) ++ (c :: ds) ++ tf ++ te ++ r) end =
              (neg, (c :: ds) ++ tf ++ te ++ r)).
  { destruct neg; cbn [app]; auto. unfold digit in Dc. replace (c =? 45) with false by lia. reflexivity. }
  rewrite Y. rewrite (span_app (c :: ds) (tf ++ te ++ r) D) by (eapply frac_no_digit; eauto).
  replace ((c =? 48) && match ds with [] => false | _ => true end) with false.
  2:{ destruct ds as [|d ds]; [now rewrite andb_false_r|]. destruct (Z.eqb_spec c 48) as [->|]; auto. exfalso. eapply Z0; eauto. }
  rewrite (read_frac_complete fracs tf exp te r F E S), (read_exp_complete exp te r E S), V. reflexivity.
Qed.

Lemma read_exp_sound t exp r : read_exp t = Some (exp, r) -> exists te, t = te ++ r /\ exponent exp te.
Proof.
  unfold read_exp. destruct t as [|c t]; [intros H; inversion H; exists []; split; auto; constructor|].
  destruct ((c =? 101) || (c =? 69)) eqn:C.
  2:{ intros H. inversion H. exists []. split; auto. constructor. }
  assert (I : In c [101; 69]) by (cbn; lia).
  destruct t as [|s t'].
  { cbn. discriminate. }
  destruct (Z.eqb_spec s 45) as [->|]; [|destruct (Z.eqb_spec s 43) as [->|]].
  - destruct (span_digits t') as [ds b] eqn:E. apply span_split in E as [-> F]. destruct ds as [|d ds]; [discriminate|].
    intros H. inversion H; subst. exists (c :: 45 :: d :: ds). split; auto. constructor; auto. discriminate.
  - destruct (span_digits t') as [ds b] eqn:E. apply span_split in E as [-> F]. destruct ds as [|d ds]; [discriminate|].
    intros H. inversion H; subst. exists (c :: 43 :: d :: ds). split; auto. constructor; auto. discriminate.
  - destruct (span_digits (s :: t')) as [ds b] eqn:E. apply span_split in E as [-> F]. destruct ds as [|d ds]; [discriminate|].
    intros H. inversion H; subst. exists (c :: d :: ds). split; auto. constructor; auto. discriminate.
Qed.

Lemma read_frac_sound t fracs r : read_frac t = Some (fracs, r) -> exists tf, t = tf ++ r /\ fraction fracs tf.
Proof.
  unfold read_frac. destruct t as [|c t]; [intros H; inversion H; exists []; split; auto; constructor|].
  destruct (Z.eqb_spec c 46) as [->|].
  - destruct (span_digits t) as [ds b] eqn:E. apply span_split in E as [-> F]. destruct ds as [|d ds]; [discriminate|].
    intros H. inversion H; subst. exists (46 :: d :: ds). split; auto. constructor; auto. discriminate.
  - intros H. inversion H. exists []. split; auto. constructor.
Qed.

Lemma read_number_sound t j r : read_number t = Some (j, r) -> exists neg ints fracs exp t',
  t = t' ++ r /\ number neg ints fracs exp t' /\ number_value neg ints fracs exp = Some j.
Proof.
  unfold read_number.
  assert (X : exists neg t0, match t with c :: r => if c =? 45 then (true, r) else (false, t) | [] => (false, t) end = (neg, t0) /\
              t = (if neg then [45] else []) ++ t0).
  { destruct t as [|c t]; [exists false, []; auto|]. destruct (Z.eqb_spec c 45) as [->|]; [exists true, t|exists false, (c :: t)]; auto. }
  destruct X as (neg & t0 & -> & ->). destruct (span_digits t0) as [ds b] eqn:E. apply span_split in E as [-> D].
  destruct ds as [|c ds]; [discriminate|].
  destruct ((c =? 48) && match ds with [] => false | _ => true end) eqn:Z0; [discriminate|].
  destruct (read_frac b) as [[fracs b1]|] eqn:F; [|discriminate]. apply read_frac_sound in F as (tf & -> & F).
  destruct (read_exp b1) as [[exp b2]|] eqn:X; [|discriminate]. apply read_exp_sound in X as (te & -> & X).
  destruct (number_value neg (c :: ds) fracs exp) as [j'|] eqn:V; [|discriminate]. intros H. inversion H; subst.
  exists neg, (c :: ds), fracs, exp, ((if neg then [45] else []) ++ (c :: ds) ++ tf ++ te).
  rewrite <- !app_assoc. split; auto. split; auto. exists tf, te. split; auto. split; [discriminate|]. split; auto.
  intros c' r' H'. inversion H'; subst. discriminate.
Qed.

(** ** Strings *)
Lemma read_str_complete s t r : chars s t -> read_str (t ++ 34 :: r) = Some (s, r).
Proof.
  induction 1 as [|c s t C1 C2 C3 _ IH|x e s t I _ IH|a b c d n s t H1 H2 _ IH|a b c d n a' b' c' d' m s t H1 H2 H3 H4 _ IH];
    cbn [app].
  - reflexivity.
  - cbn [read_str]. rewrite IH. replace (c =? 34) with false by lia. replace (c =? 92) with false by lia.
    replace (c <? 32) with false by lia. reflexivity.
  - cbn [read_str Z.eqb Pos.eqb]. rewrite IH. unfold simple_escape.
    cbn in I. repeat (destruct I as [I|I]; [injection I as <- <-; reflexivity|]). destruct I.
  - cbn [read_str Z.eqb Pos.eqb]. rewrite H1, IH. replace ((56320 <=? n) && (n <=? 57343)) with false by lia.
    replace ((55296 <=? n) && (n <=? 56319)) with false by lia. reflexivity.
  - cbn [read_str Z.eqb Pos.eqb andb]. rewrite H1, H3, IH. replace ((56320 <=? n) && (n <=? 57343)) with false by lia.
    replace ((55296 <=? n) && (n <=? 56319)) with true by lia. replace ((56320 <=? m) && (m <=? 57343)) with true by lia.
    reflexivity.
Qed.

Lemma simple_escape_in x e : simple_escape x = Some e ->
  In (x, e) [(34, 34); (92, 92); (47, 47); (98, 8); (102, 12); (110, 10); (114, 13); (116, 9)].
Proof.
  unfold simple_escape. intros H.
  repeat match type of H with (if ?c =? ?d then _ else _) = _ => destruct (Z.eqb_spec c d) as [->|]; [inversion H; cbn; tauto|] end.
  discriminate.
Qed.

Lemma some_pair {A B} (a c : A) (b d : B) : Some (a, b) = Some (c, d) -> a = c /\ b = d.
Proof. intros H. inversion H. auto. Qed.

Lemma read_str_sound n : forall t s r, (List.length t <= n)%nat -> read_str t = Some (s, r) ->
  exists t', t = t' ++ 34 :: r /\ chars s t'.
Proof.
  induction n as [|n IH]; intros t s r L H.
  { destruct t; [discriminate|cbn in L; lia]. }
  destruct t as [|c t]; [discriminate|]. cbn [read_str] in H. cbn [List.length] in L.
  destruct (Z.eqb_spec c 34) as [->|N34].
  { inversion H; subst. exists []. split; auto. constructor. }
  destruct (Z.eqb_spec c 92) as [->|N92].
  - destruct t as [|x t]; [discriminate|]. cbn [List.length] in L. destruct (Z.eqb_spec x 117) as [->|N117].
    + destruct t as [|a [|b [|c [|d t]]]]; try discriminate. cbn [List.length] in L.
      destruct (hex4 a b c d) as [u|] eqn:U; [|discriminate].
      destruct ((56320 <=? u) && (u <=? 57343)) eqn:U1; [discriminate|].
      destruct ((55296 <=? u) && (u <=? 56319)) eqn:U2.
      * destruct t as [|y [|z [|a' [|b' [|c' [|d' t]]]]]]; try discriminate. cbn [List.length] in L.
        destruct ((y =? 92) && (z =? 117)) eqn:Y; [|discriminate].
        destruct (hex4 a' b' c' d') as [m|] eqn:M; [|discriminate].
        destruct ((56320 <=? m) && (m <=? 57343)) eqn:M1; [|discriminate].
        destruct (read_str t) as [[s' r']|] eqn:R; [|discriminate]. apply some_pair in H as [<- <-].
        destruct (fun L' => IH t _ _ L' R) as (t' & -> & C); [clear - L; lia|]. assert (y = 92 /\ z = 117) as [-> ->] by (clear - Y; lia).
        exists (92 :: 117 :: a :: b :: c :: d :: 92 :: 117 :: a' :: b' :: c' :: d' :: t'). split; auto.
        apply ch_pair; [exact U|clear - U2; lia|exact M|clear - M1; lia|exact C].
      * destruct (read_str t) as [[s' r']|] eqn:R; [|discriminate]. apply some_pair in H as [<- <-].
        destruct (fun L' => IH t _ _ L' R) as (t' & -> & C); [clear - L; lia|].
        exists (92 :: 117 :: a :: b :: c :: d :: t'). split; auto. apply ch_unicode; auto; lia.
    + destruct (simple_escape x) as [e|] eqn:E; [|discriminate].
      destruct (read_str t) as [[s' r']|] eqn:R; [|discriminate]. apply some_pair in H as [<- <-].
      destruct (fun L' => IH t _ _ L' R) as (t' & -> & C); [clear - L; lia|]. exists (92 :: x :: t'). split; auto.
      apply ch_escape; auto. now apply simple_escape_in.
  - destruct (c <? 32) eqn:C32; [discriminate|].
    destruct (read_str t) as [[s' r']|] eqn:R; [|discriminate]. apply some_pair in H as [<- <-].
    destruct (fun L' => IH t _ _ L' R) as (t' & -> & C); [clear - L; lia|]. exists (c :: t'). split; auto. constructor; auto. lia.
Qed.

(** ** Values *)
Scheme denotes_mut := Induction for denotes Sort Prop
with items_mut := Induction for items Sort Prop
with members_mut := Induction for members Sort Prop.
Combined Scheme denotes_all from denotes_mut, items_mut, members_mut.

Definition deepest (js : list json) : nat := fold_right Nat.max O (map nesting js).
Definition deepest_m (ms : list (string * json)) : nat := fold_right Nat.max O (map (fun m => nesting (snd m)) ms).

Definition starts (c : Z) : Prop := digit c \/ In c [110; 116; 102; 45; 34; 91; 123].

Lemma number_starts neg ints fracs exp t : number neg ints fracs exp t ->
  exists c r, t = c :: r /\ (digit c \/ c = 45).
Proof.
  intros (tf & te & (N & D & _) & _ & _ & ->). destruct ints as [|c ds]; [congruence|].
  destruct neg; cbn [app]; eexists _, _; split; eauto. inversion D; auto.
Qed.

Lemma denotes_starts j t : denotes j t -> exists c r, t = c :: r /\ starts c.
Proof.
  unfold starts. destruct 1 as [| | |neg ints fracs exp t j N V| | | | | ].
  4:{ apply number_starts in N as (c & r & -> & [D| ->]); eexists _, _; (split; [reflexivity|]); auto. right. cbn. auto 20. }
  all: eexists _, _; (split; [reflexivity|]); right; cbn; auto 20.
Qed.

Lemma starts_no_ws c : starts c -> is_ws c = false.
Proof. unfold starts, digit, is_ws. cbn. lia. Qed.

Lemma stop_blank w c r : blank w -> In c [44; 93; 125] -> stop (w ++ c :: r).
Proof. destruct 1 as [|x w B _]; cbn; [cbn; tauto|]. intros _. cbn in B. tauto. Qed.
Lemma stop_blank_end w : blank w -> stop w.
Proof. destruct 1 as [|x w B _]; cbn; auto. cbn in B. tauto. Qed.

Lemma skip_blank_head w c r : blank w -> is_ws c = false -> skip_ws (w ++ c :: r) = c :: r.
Proof. intros B W. rewrite skip_blank by auto. now apply skip_head. Qed.

Lemma items_start js t : items js t -> exists w c r, blank w /\ t = w ++ c :: r /\ starts c.
Proof.
  destruct 1 as [w1 w2 j t B1 B2 D|w1 w2 j t js r B1 B2 D _]; apply denotes_starts in D as (c & r' & -> & S); exists w1, c.
  - exists (r' ++ w2). auto.
  - exists (r' ++ w2 ++ 44 :: r). auto.
Qed.

Lemma complete :
  (forall j t, denotes j t -> forall f k r w, blank w -> (nesting j < k)%nat -> (2 * List.length t + 1 <= f)%nat -> stop r ->
     read_value f k (w ++ t ++ r) = Some (j, r)) /\
  (forall js t, items js t -> forall f k r, (deepest js < k)%nat -> (2 * List.length t + 2 <= f)%nat ->
     read_items f k (t ++ 93 :: r) = Some (js, r)) /\
  (forall ms t, members ms t -> forall f k r, (deepest_m ms < k)%nat -> (2 * List.length t + 2 <= f)%nat ->
     read_members f k (t ++ 125 :: r) = Some (ms, r)).
Proof.
  apply denotes_all.
  - intros f k r w B K F _. destruct f as [|f]; [cbn in F; lia|]. cbn [read_value]. rewrite skip_blank by auto. reflexivity.
  - intros f k r w B K F _. destruct f as [|f]; [cbn in F; lia|]. cbn [read_value]. rewrite skip_blank by auto. reflexivity.
  - intros f k r w B K F _. destruct f as [|f]; [cbn in F; lia|]. cbn [read_value]. rewrite skip_blank by auto. reflexivity.
  - intros neg ints fracs exp t j N V f k r w B K F S. destruct f as [|f]; [lia|].
    pose proof (read_number_complete _ _ _ _ _ _ r N V S) as R. apply number_starts in N as (c & t' & -> & C).
    cbn [app] in R |- *. unfold digit in C.
    assert (W : is_ws c = false) by (unfold is_ws; clear - C; lia).
    cbn [read_value]. rewrite (skip_blank_head w c _ B W).
    replace (c =? 110) with false by (clear - C; lia). replace (c =? 116) with false by (clear - C; lia).
    replace (c =? 102) with false by (clear - C; lia). replace (c =? 34) with false by (clear - C; lia).
    replace (c =? 91) with false by (clear - C; lia). replace (c =? 123) with false by (clear - C; lia).
    replace ((c =? 45) || is_digit c) with true by (clear - C; unfold is_digit; lia). exact R.
  - intros s t C f k r w B K F _. destruct f as [|f]; [lia|]. cbn [read_value app].
    rewrite skip_blank_head by (auto; reflexivity). cbn [Z.eqb Pos.eqb]. rewrite <- app_assoc. cbn [app].
    rewrite (read_str_complete s t r C). reflexivity.
  - intros w0 B0 f k r w B K F _. destruct f as [|f]; [lia|]. destruct k as [|[|k]]; [cbn in K; lia| cbn in K; lia|].
    cbn [read_value app]. rewrite skip_blank_head by (auto; reflexivity). cbn [Z.eqb Pos.eqb]. rewrite <- app_assoc. cbn [app].
    rewrite skip_blank_head by (auto; reflexivity). reflexivity.
  - intros js t I IH f k r w B K F _. destruct f as [|f]; [lia|]. change (nesting (JArr js)) with (S (deepest js)) in K.
    destruct k as [|[|k]]; [lia|lia|]. cbn [List.length] in F. rewrite app_length in F. cbn [List.length] in F.
    cbn [read_value app]. rewrite skip_blank_head by (auto; reflexivity). cbn [Z.eqb Pos.eqb]. rewrite <- app_assoc. cbn [app].
    rewrite (IH f (S k) r) by lia.
    destruct (items_start _ _ I) as (w' & c & r' & B' & -> & S'). rewrite <- app_assoc. cbn [app].
    rewrite skip_blank_head by (auto using starts_no_ws).
    replace (c =? 93) with false by (clear - S'; unfold starts, digit in S'; cbn in S'; lia). reflexivity.
  - intros w0 B0 f k r w B K F _. destruct f as [|f]; [lia|]. destruct k as [|[|k]]; [cbn in K; lia| cbn in K; lia|].
    cbn [read_value app]. rewrite skip_blank_head by (auto; reflexivity). cbn [Z.eqb Pos.eqb]. rewrite <- app_assoc. cbn [app].
    rewrite skip_blank_head by (auto; reflexivity). reflexivity.
  - intros ms t M IH f k r w B K F _. destruct f as [|f]; [lia|]. change (nesting (JObj ms)) with (S (deepest_m ms)) in K.
    destruct k as [|[|k]]; [lia|lia|]. cbn [List.length] in F. rewrite app_length in F. cbn [List.length] in F.
    cbn [read_value app]. rewrite skip_blank_head by (auto; reflexivity). cbn [Z.eqb Pos.eqb]. rewrite <- app_assoc. cbn [app].
    rewrite (IH f (S k) r) by lia.
    assert (X : exists w' r', blank w' /\ t = w' ++ 34 :: r') by (destruct M; eauto).
    destruct X as (w' & r' & B' & ->). rewrite <- app_assoc. cbn [app].
    rewrite skip_blank_head by (auto; reflexivity). reflexivity.
  - intros w1 w2 j t B1 B2 D IH f k r K F. destruct f as [|f]; [lia|]. cbn in K. rewrite !app_length in F.
    cbn [read_items]. rewrite <- !app_assoc.
    rewrite (IH f k (w2 ++ 93 :: r) w1) by (auto; try lia; apply stop_blank; cbn; auto).
    rewrite skip_blank_head by (auto; reflexivity). reflexivity.
  - intros w1 w2 j t js r0 B1 B2 D IH I IHs f k r K F. destruct f as [|f]; [lia|].
    change (deepest (j :: js)) with (Nat.max (nesting j) (deepest js)) in K.
    rewrite !app_length in F. cbn [List.length] in F.
    cbn [read_items]. rewrite <- !app_assoc. cbn [app].
    rewrite (IH f k (w2 ++ 44 :: r0 ++ 93 :: r) w1) by (auto; try lia; apply stop_blank; cbn; auto).
    rewrite skip_blank_head by (auto; reflexivity). cbn [Z.eqb Pos.eqb]. rewrite (IHs f k r) by lia. reflexivity.
  - intros w1 w2 w3 w4 x n j t B1 B2 B3 B4 C D IH f k r K F. destruct f as [|f]; [lia|]. cbn in K.
    repeat (rewrite !app_length in F; cbn [List.length] in F).
    cbn [read_members]. repeat (rewrite <- !app_assoc; cbn [app]).
    rewrite skip_blank_head by (auto; reflexivity). cbn [Z.eqb Pos.eqb]. rewrite (read_str_complete n x _ C).
    rewrite skip_blank_head by (auto; reflexivity). cbn [Z.eqb Pos.eqb].
    rewrite (IH f k (w4 ++ 125 :: r) w3) by (auto; try lia; apply stop_blank; cbn; auto).
    rewrite skip_blank_head by (auto; reflexivity). reflexivity.
  - intros w1 w2 w3 w4 x n j t ms r0 B1 B2 B3 B4 C D IH I IHs f k r K F. destruct f as [|f]; [lia|].
    change (deepest_m ((name_of_text n, j) :: ms)) with (Nat.max (nesting j) (deepest_m ms)) in K.
    repeat (rewrite !app_length in F; cbn [List.length] in F).
    cbn [read_members]. repeat (rewrite <- !app_assoc; cbn [app]).
    rewrite skip_blank_head by (auto; reflexivity). cbn [Z.eqb Pos.eqb]. rewrite (read_str_complete n x _ C).
    rewrite skip_blank_head by (auto; reflexivity). cbn [Z.eqb Pos.eqb].
    rewrite (IH f k (w4 ++ 44 :: r0 ++ 125 :: r) w3) by (auto; try lia; apply stop_blank; cbn; auto).
    rewrite skip_blank_head by (auto; reflexivity). cbn [Z.eqb Pos.eqb]. rewrite (IHs f k r) by lia. reflexivity.
Qed.

Lemma strip_sound p : forall t r, strip p t = Some r -> t = p ++ r.
Proof.
  induction p as [|x p IH]; intros t r; cbn [strip]; [intros H; inversion H; auto|].
  destruct t as [|y t]; [discriminate|]. destruct (Z.eqb_spec x y) as [->|]; [|discriminate]. intros H.
  cbn. f_equal. auto.
Qed.

Lemma sound f :
  (forall k t j r, (1 <= k)%nat -> read_value f k t = Some (j, r) ->
     exists w t', t = w ++ t' ++ r /\ blank w /\ denotes j t' /\ (nesting j < k)%nat) /\
  (forall k t js r, (1 <= k)%nat -> read_items f k t = Some (js, r) ->
     exists t', t = t' ++ 93 :: r /\ items js t' /\ (deepest js < k)%nat) /\
  (forall k t ms r, (1 <= k)%nat -> read_members f k t = Some (ms, r) ->
     exists t', t = t' ++ 125 :: r /\ members ms t' /\ (deepest_m ms < k)%nat).
Proof.
  induction f as [|f (IHv & IHi & IHm)]; [repeat split; intros; discriminate|]. split; [|split].
  - intros k t j r K. cbn [read_value]. destruct (skip_ws t) as [|c t0] eqn:E; [discriminate|].
    apply skip_cons in E as (w & B & ->).
    destruct (Z.eqb_spec c 110) as [->|_].
    { destruct (strip _ t0) as [r0|] eqn:T; [|discriminate]. apply strip_sound in T as ->. intros H. inversion H; subst.
      exists w, [110; 117; 108; 108]. repeat split; auto; try constructor. }
    destruct (Z.eqb_spec c 116) as [->|_].
    { destruct (strip _ t0) as [r0|] eqn:T; [|discriminate]. apply strip_sound in T as ->. intros H. inversion H; subst.
      exists w, [116; 114; 117; 101]. repeat split; auto; try constructor. }
    destruct (Z.eqb_spec c 102) as [->|_].
    { destruct (strip _ t0) as [r0|] eqn:T; [|discriminate]. apply strip_sound in T as ->. intros H. inversion H; subst.
      exists w, [102; 97; 108; 115; 101]. repeat split; auto; try constructor. }
    destruct (Z.eqb_spec c 34) as [->|_].
    { destruct (read_str t0) as [[s r0]|] eqn:T; [|discriminate]. apply (read_str_sound _ _ _ _ (le_n _)) in T as (t1 & -> & C).
      intros H. inversion H; subst. exists w, (34 :: t1 ++ [34]). cbn [app]. rewrite <- app_assoc.
      repeat split; auto. now constructor. }
    destruct (Z.eqb_spec c 91) as [->|_].
    { destruct k as [|[|k]]; try discriminate. destruct (skip_ws t0) as [|c r0] eqn:E; [discriminate|].
      destruct (Z.eqb_spec c 93) as [->|_].
      - apply skip_cons in E as (w0 & B0 & ->). intros H. inversion H; subst. exists w, (91 :: w0 ++ [93]).
        cbn [app]. rewrite <- app_assoc. repeat split; auto. now constructor. cbn. lia.
      - destruct (read_items f (S k) t0) as [[js r1]|] eqn:I; [|discriminate]. intros H. inversion H; subst.
        apply IHi in I as (t1 & -> & I & L); [|lia]. exists w, (91 :: t1 ++ [93]). cbn [app]. rewrite <- app_assoc.
        repeat split; auto. now constructor. change (nesting (JArr js)) with (S (deepest js)). lia. }
    destruct (Z.eqb_spec c 123) as [->|_].
    { destruct k as [|[|k]]; try discriminate. destruct (skip_ws t0) as [|c r0] eqn:E; [discriminate|].
      destruct (Z.eqb_spec c 125) as [->|_].
      - apply skip_cons in E as (w0 & B0 & ->). intros H. inversion H; subst. exists w, (123 :: w0 ++ [125]).
        cbn [app]. rewrite <- app_assoc. repeat split; auto. now constructor. cbn. lia.
      - destruct (read_members f (S k) t0) as [[js r1]|] eqn:I; [|discriminate]. intros H. inversion H; subst.
        apply IHm in I as (t1 & -> & I & L); [|lia]. exists w, (123 :: t1 ++ [125]). cbn [app]. rewrite <- app_assoc.
        repeat split; auto. now constructor. change (nesting (JObj js)) with (S (deepest_m js)). lia. }
    destruct ((c =? 45) || is_digit c); [|discriminate]. intros H.
    apply read_number_sound in H as (neg & ints & fracs & exp & t' & -> & N & V). exists w, t'.
    repeat split; auto. econstructor; eauto.
    assert (X : nesting j = O); [|rewrite X; lia]. clear - V. unfold number_value in V.
    destruct (long_integer ints 0 false 0) as [sig e].
    assert (F : forall n s x, float_value n s x = Some j -> nesting j = O).
    { intros n s x. unfold float_value. destruct (f64_parts 10 _ x); [|discriminate]. intros H. inversion H. reflexivity. }
    destruct fracs as [|d fracs]; [destruct exp as [x|]|].
    + destruct (long_decimal [] sig e). eauto.
    + destruct neg.
      * destruct ((e =? 0) && (0 <? sig) && (sig <=? 2 ^ 63)); [inversion V; reflexivity|eauto].
      * destruct (e =? 0); [inversion V; reflexivity|eauto].
    + destruct (long_decimal (d :: fracs) sig e). eauto.
  - intros k t js r K. cbn [read_items]. destruct (read_value f k t) as [[j r0]|] eqn:V; [|discriminate].
    apply IHv in V as (w & t' & -> & B & D & L); auto. destruct (skip_ws r0) as [|c r1] eqn:E; [discriminate|].
    apply skip_cons in E as (w2 & B2 & ->). destruct (Z.eqb_spec c 44) as [->|_].
    + destruct (read_items f k r1) as [[js' r2]|] eqn:I; [|discriminate]. intros H. inversion H; subst.
      apply IHi in I as (t1 & -> & I & L1); auto. exists (w ++ t' ++ w2 ++ 44 :: t1).
      repeat (rewrite <- !app_assoc; cbn [app]). repeat split; auto; [now constructor|].
      change (deepest (j :: js')) with (Nat.max (nesting j) (deepest js')). lia.
    + destruct (Z.eqb_spec c 93) as [->|_]; [|discriminate]. intros H. inversion H; subst. exists (w ++ t' ++ w2).
      rewrite <- !app_assoc. repeat split; auto; [now constructor|]. cbn. lia.
  - intros k t ms r K. cbn [read_members]. destruct (skip_ws t) as [|c t0] eqn:E; [discriminate|].
    apply skip_cons in E as (w1 & B1 & ->). destruct (Z.eqb_spec c 34) as [->|_]; [|discriminate].
    destruct (read_str t0) as [[x t1]|] eqn:S; [|discriminate]. apply (read_str_sound _ _ _ _ (le_n _)) in S as (tx & -> & C).
    destruct (skip_ws t1) as [|c t2] eqn:E; [discriminate|]. apply skip_cons in E as (w2 & B2 & ->).
    destruct (Z.eqb_spec c 58) as [->|_]; [|discriminate].
    destruct (read_value f k t2) as [[j r0]|] eqn:V; [|discriminate].
    apply IHv in V as (w3 & t' & -> & B3 & D & L); auto. destruct (skip_ws r0) as [|c r1] eqn:E; [discriminate|].
    apply skip_cons in E as (w4 & B4 & ->). destruct (Z.eqb_spec c 44) as [->|_].
    + destruct (read_members f k r1) as [[ms' r2]|] eqn:I; [|discriminate]. intros H. inversion H; subst.
      apply IHm in I as (t3 & -> & I & L1); auto. exists (w1 ++ 34 :: tx ++ 34 :: w2 ++ 58 :: w3 ++ t' ++ w4 ++ 44 :: t3).
      repeat (rewrite <- !app_assoc; cbn [app]). repeat split; auto; [now constructor|].
      change (deepest_m ((name_of_text x, j) :: ms')) with (Nat.max (nesting j) (deepest_m ms')). lia.
    + destruct (Z.eqb_spec c 125) as [->|_]; [|discriminate]. intros H. inversion H; subst.
      exists (w1 ++ 34 :: tx ++ 34 :: w2 ++ 58 :: w3 ++ t' ++ w4).
      repeat (rewrite <- !app_assoc; cbn [app]). repeat split; auto; [now constructor|]. cbn. lia.
Qed.

(** from_text accepts the values of the grammar with white space around them, up to 127 arrays
    and objects inside each other, and nothing else. *)
Theorem from_text_iff t j : from_text t = Some j <->
  exists w1 t' w2, t = w1 ++ t' ++ w2 /\ blank w1 /\ blank w2 /\ denotes j t' /\ (nesting j < 128)%nat.
Proof.
  unfold from_text. split.
  - destruct (read_value _ 128 t) as [[j' r]|] eqn:V; [|discriminate]. destruct (skip_ws r) eqn:S; [|discriminate].
    intros H. inversion H; subst. apply (proj1 (sound _)) in V as (w & t' & -> & B & D & L); [|lia].
    exists w, t', r. auto using skip_nil.
  - intros (w1 & t' & w2 & -> & B1 & B2 & D & L).
    rewrite (proj1 complete j t' D _ 128%nat w2 w1 B1 L); [now rewrite blank_skip| |now apply stop_blank_end].
    rewrite !app_length. lia.
Qed.
