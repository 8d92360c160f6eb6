(** Texts of documents are UTF-8, and so are the strings read from them: proofs. *)
From Coq Require Import Lia ZifyBool ZifyNat ZifyN Ascii.
From Verif Require Import Bytes BytesFacts Strings Float32 Json JsonText JsonTextSpec JsonTextFacts JsonTextWrite JsonTextFloat.
Ltac Zify.zify_post_hook ::= ZifyBool.elim_bool_cstr; Z.to_euclidean_division_equations.
Open Scope Z_scope.
Open Scope list_scope.

(** ** UTF-8 *)
Ltac parts := repeat match goal with
  | H : (_ && _)%bool = true |- _ => lazymatch type of H with ((_ <=? _) && (_ <=? _)) = true => fail | _ => idtac end; apply andb_true_iff in H as [? ?]
  | |- (_ && _)%bool = true => apply andb_true_iff; split
  end.

Lemma utf8_app n : forall a b, (List.length a <= n)%nat -> utf8_valid a = true -> utf8_valid (a ++ b) = utf8_valid b.
Proof.
  induction n as [|n IH]; intros [|x a] b L H; auto; [cbn in L; lia|]. cbn [List.length] in L. cbn [utf8_valid app] in H |- *.
  destruct (x <=? 127). { parts. rewrite H. cbn. apply IH; [clear - L; lia|auto]. }
  destruct ((194 <=? x) && (x <=? 223)).
  { destruct a as [|y a]; [discriminate|]. cbn [app List.length] in *. parts. rewrite H. cbn. apply IH; [clear - L; lia|auto]. }
  destruct ((224 <=? x) && (x <=? 239)).
  { destruct a as [|y [|z a]]; try discriminate. cbn [app List.length] in *. parts. rewrite H, H1. cbn. apply IH; [clear - L; lia|auto]. }
  destruct ((240 <=? x) && (x <=? 244)); [|discriminate].
  destruct a as [|y [|z [|u a]]]; try discriminate. cbn [app List.length] in *. parts. rewrite H, H1, H2. cbn. apply IH; [clear - L; lia|auto].
Qed.
Lemma utf8_and a b : utf8_valid a = true -> utf8_valid b = true -> utf8_valid (a ++ b) = true.
Proof. intros A B. now rewrite (utf8_app _ a b (le_n _) A). Qed.

Definition ascii_head (b : list Z) : Prop := match b with [] => True | c :: _ => c <= 127 end.

Lemma utf8_split n : forall a b, (List.length a <= n)%nat -> ascii_head b -> utf8_valid (a ++ b) = true -> utf8_valid a = true.
Proof.
  assert (C : forall c, c <= 127 -> cont c = false) by (intros c; unfold cont; lia).
  induction n as [|n IH]; intros [|x a] b L A H; auto; [cbn in L; lia|]. cbn [List.length] in L. cbn [utf8_valid app] in H |- *.
  destruct (x <=? 127). { parts; auto. eapply IH; eauto. lia. }
  destruct ((194 <=? x) && (x <=? 223)).
  { destruct a as [|y a]; cbn [app List.length] in *.
    - destruct b as [|c b]; [discriminate|]. cbn in A. rewrite (C _ A) in H. discriminate.
    - parts; auto. eapply IH; eauto. lia. }
  destruct ((224 <=? x) && (x <=? 239)).
  { destruct a as [|y [|z a]]; cbn [app List.length] in *.
    - destruct b as [|c [|d b]]; try discriminate. cbn in A. parts. exfalso. clear - A H. unfold cont in H.
      destruct (x =? 224); [lia|]. destruct (x =? 237); lia.
    - destruct b as [|c b]; [discriminate|]. cbn in A. rewrite (C _ A), andb_false_r in H. discriminate.
    - parts; auto. eapply IH; eauto. lia. }
  destruct ((240 <=? x) && (x <=? 244)); [|discriminate].
  destruct a as [|y [|z [|u a]]]; cbn [app List.length] in *.
  - destruct b as [|c [|d [|e b]]]; try discriminate. cbn in A. parts. exfalso. clear - A H. unfold cont in H.
    destruct (x =? 240); [lia|]. destruct (x =? 244); lia.
  - destruct b as [|c [|d b]]; try discriminate. cbn in A. rewrite (C _ A), andb_false_r in H. discriminate.
  - destruct b as [|c b]; [discriminate|]. cbn in A. rewrite (C _ A), andb_false_r in H. discriminate.
  - parts; auto. eapply IH; eauto. lia.
Qed.
Lemma utf8_parts a b : ascii_head b -> utf8_valid (a ++ b) = true -> utf8_valid a = true /\ utf8_valid b = true.
Proof.
  intros A H. pose proof (utf8_split _ a b (le_n _) A H) as Ha. split; auto. now rewrite (utf8_app _ a b (le_n _) Ha) in H.
Qed.
Lemma utf8_cons c b : c <= 127 -> utf8_valid (c :: b) = true -> 0 <= c /\ utf8_valid b = true.
Proof. intros C H. cbn [utf8_valid] in H. replace (c <=? 127) with true in H by lia. parts. split; auto. lia. Qed.
Lemma utf8_cons_ok c b : 0 <= c <= 127 -> utf8_valid b = true -> utf8_valid (c :: b) = true.
Proof. intros C H. cbn [utf8_valid]. replace (c <=? 127) with true by lia. parts; auto. lia. Qed.

Lemma utf8_bytes n : forall s, (List.length s <= n)%nat -> utf8_valid s = true -> Forall (fun c => 0 <= c < 256) s.
Proof.
  assert (C : forall c, cont c = true -> 0 <= c < 256) by (intros c; unfold cont; lia).
  induction n as [|n IH]; intros [|x s] L H; auto; [cbn in L; lia|]. cbn [List.length] in L. cbn [utf8_valid] in H.
  destruct (x <=? 127) eqn:E. { parts. constructor; [lia|]. apply IH; [clear - L; lia|auto]. }
  destruct ((194 <=? x) && (x <=? 223)) eqn:E1.
  { destruct s as [|y s]; [discriminate|]. cbn [List.length] in *. parts. repeat (constructor; [auto; lia|]). apply IH; [clear - L; lia|auto]. }
  destruct ((224 <=? x) && (x <=? 239)) eqn:E2.
  { destruct s as [|y [|z s]]; try discriminate. cbn [List.length] in *. parts.
    assert (0 <= y < 256). { clear - H C. destruct (x =? 224); [lia|]. destruct (x =? 237); [lia|]. auto. }
    repeat (constructor; [auto; lia|]). apply IH; [clear - L; lia|auto]. }
  destruct ((240 <=? x) && (x <=? 244)) eqn:E3; [|discriminate].
  destruct s as [|y [|z [|u s]]]; try discriminate. cbn [List.length] in *. parts.
  assert (0 <= y < 256). { clear - H C. destruct (x =? 240); [lia|]. destruct (x =? 244); [lia|]. auto. }
  repeat (constructor; [auto; lia|]). apply IH; [clear - L; lia|auto].
Qed.
Lemma utf8_nonneg s : utf8_valid s = true -> Forall (fun c => 0 <= c) s.
Proof. intros H. eapply Forall_impl; [|apply (utf8_bytes _ s (le_n _) H)]. cbn. lia. Qed.

Lemma utf8_char_valid c : 0 <= c < 1114112 -> ~ 55296 <= c <= 57343 -> utf8_valid (utf8_char c) = true.
Proof.
  intros B S. unfold utf8_char. destruct (c <? 128) eqn:E1; [cbn [utf8_valid]; replace (c <=? 127) with true by lia; rewrite andb_true_r; lia|]. destruct (c <? 2048) eqn:E2.
  { cbn [utf8_valid]. replace (192 + c / 64 <=? 127) with false by lia. replace ((194 <=? 192 + c / 64) && (192 + c / 64 <=? 223)) with true by lia. unfold cont. lia. }
  destruct (c <? 65536) eqn:E3.
  - cbn [utf8_valid]. replace (224 + c / 4096 <=? 127) with false by lia.
    replace ((194 <=? 224 + c / 4096) && (224 + c / 4096 <=? 223)) with false by lia.
    replace ((224 <=? 224 + c / 4096) && (224 + c / 4096 <=? 239)) with true by lia.
    rewrite andb_true_r. apply andb_true_iff. split; [|unfold cont; lia].
    destruct (Z.eqb_spec (224 + c / 4096) 224); [lia|]. destruct (Z.eqb_spec (224 + c / 4096) 237); [lia|]. unfold cont. lia.
  - cbn [utf8_valid]. replace (240 + c / 262144 <=? 127) with false by lia.
    replace ((194 <=? 240 + c / 262144) && (240 + c / 262144 <=? 223)) with false by lia.
    replace ((224 <=? 240 + c / 262144) && (240 + c / 262144 <=? 239)) with false by lia.
    replace ((240 <=? 240 + c / 262144) && (240 + c / 262144 <=? 244)) with true by lia.
    rewrite andb_true_r. apply andb_true_iff. split; [apply andb_true_iff; split|unfold cont; lia]; [|unfold cont; lia].
    destruct (Z.eqb_spec (240 + c / 262144) 240); [lia|]. destruct (Z.eqb_spec (240 + c / 262144) 244); [lia|]. unfold cont. lia.
Qed.

(** ** Strings *)
Lemma chars_high b s t : 128 <= b -> chars s (b :: t) -> exists s', s = b :: s' /\ chars s' t.
Proof. intros B H. inversion H; subst; try lia. eauto. Qed.

Lemma hex_value_bound c n : hex_value c = Some n -> c <= 127 /\ 0 <= n < 16.
Proof.
  unfold hex_value. destruct ((48 <=? c) && (c <=? 57)) eqn:E1; [intros H; inversion H; lia|].
  destruct ((97 <=? c) && (c <=? 102)) eqn:E2; [intros H; inversion H; lia|].
  destruct ((65 <=? c) && (c <=? 70)) eqn:E3; [intros H; inversion H; lia|discriminate].
Qed.
Lemma hex4_bound a b c d n : hex4 a b c d = Some n -> a <= 127 /\ b <= 127 /\ c <= 127 /\ d <= 127 /\ 0 <= n < 65536.
Proof.
  unfold hex4. destruct (hex_value a) as [x|] eqn:A; [|discriminate]. destruct (hex_value b) as [y|] eqn:B; [|discriminate].
  destruct (hex_value c) as [z|] eqn:C; [|discriminate]. destruct (hex_value d) as [u|] eqn:D; [|discriminate].
  apply hex_value_bound in A, B, C, D. intros H. assert (E : n = ((x * 16 + y) * 16 + z) * 16 + u) by congruence. clear H. lia.
Qed.

Lemma chars_utf8 n : forall s t, (List.length t <= n)%nat -> chars s t -> utf8_valid t = true -> utf8_valid s = true.
Proof.
  induction n as [|n IH]; intros s t L C U.
  { destruct t; [|cbn in L; lia]. now inversion C. }
  inversion C as [|c s' t' C1 C2 C3 C'|x e s' t' I C'|a b c d u s' t' H1 H2 C'|a b c d u a' b' c' d' m s' t' H1 H2 H3 H4 C'];
    subst; auto; cbn [List.length] in L.
  - destruct (Z.leb_spec c 127) as [A|A].
    + apply utf8_cons in U as [U0 U]; auto. apply utf8_cons_ok; [lia|]. apply (IH s' t'); auto. clear - L; lia.
    + assert (K : forall x, cont x = true -> 128 <= x) by (intros x; unfold cont; lia).
      cbn [utf8_valid] in U. replace (c <=? 127) with false in U by lia.
      destruct ((194 <=? c) && (c <=? 223)) eqn:R1.
      { destruct t' as [|y t']; [discriminate|]. parts. cbn [List.length] in L.
        apply chars_high in C' as (s1 & -> & C'); auto. cbn [utf8_valid]. replace (c <=? 127) with false by lia. rewrite R1.
        parts; auto. apply (IH s1 t'); auto. clear - L; lia. }
      destruct ((224 <=? c) && (c <=? 239)) eqn:R2.
      { destruct t' as [|y [|z t']]; try discriminate. parts. cbn [List.length] in L.
        assert (Y : 128 <= y). { clear - H K. destruct (c =? 224); [lia|]. destruct (c =? 237); [lia|]. auto. }
        apply chars_high in C' as (s1 & -> & C'); auto. apply chars_high in C' as (s2 & -> & C'); auto.
        cbn [utf8_valid]. replace (c <=? 127) with false by lia. rewrite R1, R2.
        parts; auto. apply (IH s2 t'); auto. clear - L; lia. }
      destruct ((240 <=? c) && (c <=? 244)) eqn:R3; [|discriminate].
      destruct t' as [|y [|z [|w t']]]; try discriminate. parts. cbn [List.length] in L.
      assert (Y : 128 <= y). { clear - H K. destruct (c =? 240); [lia|]. destruct (c =? 244); [lia|]. auto. }
      apply chars_high in C' as (s1 & -> & C'); auto. apply chars_high in C' as (s2 & -> & C'); auto.
      apply chars_high in C' as (s3 & -> & C'); auto.
      cbn [utf8_valid]. replace (c <=? 127) with false by lia. rewrite R1, R2, R3.
      parts; auto. apply (IH s3 t'); auto. clear - L; lia.
  - apply utf8_cons in U as [_ U]; [|lia].
    assert (X : x <= 127 /\ 0 <= e <= 127).
    { cbn in I. clear - I. repeat (destruct I as [I|I]; [injection I as <- <-; lia|]). destruct I. }
    apply utf8_cons in U as [_ U]; [|lia]. apply utf8_cons_ok; [lia|]. apply (IH s' t'); auto. clear - L; lia.
  - pose proof (hex4_bound _ _ _ _ _ H1) as (A1 & A2 & A3 & A4 & B).
    do 6 (apply utf8_cons in U as [_ U]; [|lia]). apply utf8_and; [apply utf8_char_valid; auto; lia|].
    apply (IH s' t'); auto. clear - L; lia.
  - pose proof (hex4_bound _ _ _ _ _ H1) as (A1 & A2 & A3 & A4 & B).
    pose proof (hex4_bound _ _ _ _ _ H3) as (A5 & A6 & A7 & A8 & _).
    do 12 (apply utf8_cons in U as [_ U]; [|lia]). apply utf8_and; [apply utf8_char_valid; auto; lia|].
    apply (IH s' t'); auto. clear - L; lia.
Qed.

Lemma text_name n : Forall (fun c => 0 <= c < 256) n -> text_of (name_of_text n) = n.
Proof.
  induction 1 as [|c n B _ IH]; cbn [name_of_text text_of]; auto. rewrite IH, N_ascii_embedding by lia. f_equal. lia.
Qed.

(** ** Reading *)
Lemma long_integer_range ds : forall a o e sig x, Forall digit ds -> 0 <= a < two64 ->
  long_integer ds a o e = (sig, x) -> 0 <= sig < two64.
Proof.
  induction ds as [|c ds IH]; intros a o e sig x D B H; cbn [long_integer] in H; [congruence|].
  inversion D as [|y l Dc Dr]; subst. unfold digit in Dc. destruct (o || overflows a (c - 48)) eqn:O.
  - eapply IH; eauto.
  - eapply IH; [auto| |eassumption]. unfold overflows in O. lia.
Qed.

Lemma number_tree neg ints fracs exp t j : number neg ints fracs exp t -> number_value neg ints fracs exp = Some j ->
  tree_ok j = true.
Proof.
  intros (_ & _ & (_ & D & _) & _) V. unfold number_value in V. destruct (long_integer ints 0 false 0) as [sig e] eqn:L.
  apply long_integer_range in L; auto; [|unfold two64; lia].
  assert (F : forall b m x, float_value b m x = Some j -> tree_ok j = true).
  { intros b m x H. apply float_value_float in H as (n & -> & B). cbn [tree_ok]. lia. }
  assert (G : forall n, - 2 ^ 63 <= n < two64 -> Some (JInt n) = Some j -> tree_ok j = true).
  { intros n B H. injection H as <-. cbn [tree_ok]. lia. }
  destruct fracs as [|d fracs]; [destruct exp as [x|]|].
  - destruct (long_decimal [] sig e). eauto.
  - destruct neg.
    + destruct ((e =? 0) && (0 <? sig) && (sig <=? 2 ^ 63)) eqn:E; [|eauto].
      apply (G (- sig)); auto. clear - E. unfold two64. lia.
    + destruct (e =? 0); [|eauto]. apply (G sig); auto. clear - L. lia.
  - destruct (long_decimal (d :: fracs) sig e). eauto.
Qed.

Lemma starts_ascii c : starts c -> c <= 127.
Proof. unfold starts, digit. cbn. lia. Qed.
Lemma denotes_ascii j t r : denotes j t -> ascii_head (t ++ r).
Proof. intros D. apply denotes_starts in D as (c & r' & -> & S). cbn. now apply starts_ascii. Qed.
Lemma blank_ascii w r : blank w -> ascii_head r -> ascii_head (w ++ r).
Proof. destruct 1 as [|c w B _]; auto. intros _. cbn in *. lia. Qed.

Lemma text_tree :
  (forall j t, denotes j t -> utf8_valid t = true -> tree_ok j = true) /\
  (forall js t, items js t -> forall c, c <= 127 -> utf8_valid (t ++ [c]) = true -> forallb tree_ok js = true) /\
  (forall ms t, members ms t -> forall c, c <= 127 -> utf8_valid (t ++ [c]) = true ->
     forallb (fun m => utf8_valid (text_of (fst m)) && tree_ok (snd m)) ms = true).
Proof.
  assert (Q : forall n x, chars n x -> utf8_valid x = true -> utf8_valid n = true).
  { intros n x C U. exact (chars_utf8 _ n x (le_n _) C U). }
  assert (N : forall n x, chars n x -> utf8_valid x = true -> utf8_valid (text_of (name_of_text n)) = true).
  { intros n x C U. specialize (Q n x C U). rewrite text_name; auto. exact (utf8_bytes _ n (le_n _) Q). }
  apply denotes_all; auto.
  - intros neg ints fracs exp t j Nu V _. eapply number_tree; eauto.
  - intros s t C U. apply utf8_cons in U as [_ U]; [|lia]. apply utf8_parts in U as [U _]; [|cbn; lia]. cbn. eauto.
  - intros js t I IH U. apply utf8_cons in U as [_ U]; [|lia]. cbn [tree_ok]. apply (IH 93); auto. lia.
  - intros ms t I IH U. apply utf8_cons in U as [_ U]; [|lia]. cbn [tree_ok]. apply (IH 125); auto. lia.
  - intros w1 w2 j t B1 B2 D IH c C U. rewrite <- !app_assoc in U.
    apply utf8_parts in U as [_ U]; [|now apply (denotes_ascii j)].
    apply utf8_parts in U as [U _]; [|now apply blank_ascii]. cbn. now rewrite (IH U).
  - intros w1 w2 j t js r B1 B2 D IH I IHs c C U. repeat (rewrite <- !app_assoc in U; cbn [app] in U).
    apply utf8_parts in U as [_ U]; [|now apply (denotes_ascii j)].
    apply utf8_parts in U as [U1 U]; [|apply blank_ascii; auto; cbn; lia].
    apply utf8_parts in U as [_ U]; [|cbn; lia]. apply utf8_cons in U as [_ U]; [|lia].
    cbn. rewrite (IH U1). cbn. eauto.
  - intros w1 w2 w3 w4 x n j t B1 B2 B3 B4 C D IH c Hc U. repeat (rewrite <- !app_assoc in U; cbn [app] in U).
    apply utf8_parts in U as [_ U]; [|cbn; lia]. apply utf8_cons in U as [_ U]; [|lia].
    apply utf8_parts in U as [Ux U]; [|cbn; lia]. apply utf8_cons in U as [_ U]; [|lia].
    apply utf8_parts in U as [_ U]; [|cbn; lia]. apply utf8_cons in U as [_ U]; [|lia].
    apply utf8_parts in U as [_ U]; [|now apply (denotes_ascii j)].
    apply utf8_parts in U as [U _]; [|now apply blank_ascii]. cbn. now rewrite (N n x C Ux), (IH U).
  - intros w1 w2 w3 w4 x n j t ms r B1 B2 B3 B4 C D IH I IHs c Hc U. repeat (rewrite <- !app_assoc in U; cbn [app] in U).
    apply utf8_parts in U as [_ U]; [|cbn; lia]. apply utf8_cons in U as [_ U]; [|lia].
    apply utf8_parts in U as [Ux U]; [|cbn; lia]. apply utf8_cons in U as [_ U]; [|lia].
    apply utf8_parts in U as [_ U]; [|cbn; lia]. apply utf8_cons in U as [_ U]; [|lia].
    apply utf8_parts in U as [_ U]; [|now apply (denotes_ascii j)].
    apply utf8_parts in U as [U1 U]; [|apply blank_ascii; auto; cbn; lia].
    apply utf8_parts in U as [_ U]; [|cbn; lia]. apply utf8_cons in U as [_ U]; [|lia].
    cbn. rewrite (N n x C Ux), (IH U1). cbn. eauto.
Qed.

Theorem from_text_tree t j : utf8_valid t = true -> from_text t = Some j -> tree_ok j = true.
Proof.
  intros U H. apply from_text_iff in H as (w1 & t' & w2 & -> & B1 & B2 & D & _).
  apply utf8_parts in U as [_ U]; [|now apply (denotes_ascii j)].
  apply utf8_parts in U as [U _]; [|rewrite <- (app_nil_r w2); apply blank_ascii; auto; exact I].
  exact (proj1 text_tree _ _ D U).
Qed.

(** ** Writing *)
Lemma tree_printable j : tree_ok j = true -> Forall float_kept (tree_floats j) -> printable j.
Proof.
  induction j as [|b|n|n|s|js IH|ms IH] using json_ind'; cbn [tree_ok tree_floats printable]; intros T F; auto.
  - lia.
  - now inversion F.
  - now apply utf8_nonneg.
  - apply fold_and. rewrite forallb_forall in T. rewrite Forall_forall in *. intros j I.
    apply IH; auto. apply Forall_forall. intros x Ix. apply F. apply in_flat_map. eauto.
  - apply fold_and. rewrite forallb_forall in T. rewrite Forall_forall in *. intros m I. specialize (T m I). parts.
    apply IH; auto. apply Forall_forall. intros x Ix. apply F. apply in_flat_map. eauto.
Qed.

Definition ascii_text (t : list Z) : Prop := Forall (fun c => 0 <= c <= 127) t.
Lemma ascii_utf8 t : ascii_text t -> utf8_valid t = true.
Proof. induction 1 as [|c t B _ IH]; auto. now apply utf8_cons_ok. Qed.

Lemma digits_ascii ds : Forall digit ds -> ascii_text ds.
Proof. apply Forall_impl. unfold digit. intros; lia. Qed.
Lemma ascii_app a b : ascii_text a -> ascii_text b -> ascii_text (a ++ b).
Proof. intros A B. now apply Forall_app. Qed.
Lemma number_ascii neg ints fracs exp t : number neg ints fracs exp t -> ascii_text t.
Proof.
  intros (tf & te & (_ & D & _) & F & E & ->). repeat apply ascii_app.
  - destruct neg; repeat constructor; lia.
  - now apply digits_ascii.
  - destruct F; [constructor|constructor; [lia|now apply digits_ascii]].
  - destruct E as [|e ds I _ D'|e ds I _ D'|e ds I _ D']; [constructor|..]; cbn in I;
      repeat (constructor; [lia|]); now apply digits_ascii.
Qed.

Lemma show_char_ascii c : 0 <= c -> c <= 127 -> ascii_text (show_char c).
Proof.
  intros A B. unfold show_char, hex_digit. repeat match goal with |- context [if ?b then _ else _] => destruct b eqn:?; [repeat constructor; lia|] end.
  destruct (c <? 32) eqn:E; [|repeat constructor; lia].
  repeat (constructor; [lia|]). constructor; [destruct (c / 16 <? 10) eqn:?; lia|]. constructor; [destruct (c mod 16 <? 10) eqn:?; lia|constructor].
Qed.
Lemma show_char_high c : 128 <= c -> show_char c = [c].
Proof.
  intros H. unfold show_char. repeat match goal with |- context [if ?b then _ else _] => replace b with false by lia end. reflexivity.
Qed.

Lemma show_str_utf8 n : forall s, (List.length s <= n)%nat -> utf8_valid s = true -> utf8_valid (flat_map show_char s) = true.
Proof.
  assert (K : forall x, cont x = true -> 128 <= x) by (intros x; unfold cont; lia).
  induction n as [|n IH]; intros [|x s] L H; auto; [cbn in L; lia|]. cbn [List.length] in L. cbn [utf8_valid] in H. cbn [flat_map].
  destruct (x <=? 127) eqn:E.
  { parts. apply utf8_and; [apply ascii_utf8, show_char_ascii; lia|]. apply IH; [clear - L; lia|auto]. }
  rewrite (show_char_high x) by lia. cbn [app].
  destruct ((194 <=? x) && (x <=? 223)) eqn:R1.
  { destruct s as [|y s]; [discriminate|]. parts. cbn [List.length] in L. cbn [flat_map]. rewrite (show_char_high y) by auto.
    cbn [app utf8_valid]. rewrite E, R1. parts; auto. apply IH; [clear - L; lia|auto]. }
  destruct ((224 <=? x) && (x <=? 239)) eqn:R2.
  { destruct s as [|y [|z s]]; try discriminate. parts. cbn [List.length] in L.
    assert (Y : 128 <= y). { clear - H K. destruct (x =? 224); [lia|]. destruct (x =? 237); [lia|]. auto. }
    cbn [flat_map]. rewrite (show_char_high y), (show_char_high z) by auto.
    cbn [app utf8_valid]. rewrite E, R1, R2. parts; auto. apply IH; [clear - L; lia|auto]. }
  destruct ((240 <=? x) && (x <=? 244)) eqn:R3; [|discriminate].
  destruct s as [|y [|z [|w s]]]; try discriminate. parts. cbn [List.length] in L.
  assert (Y : 128 <= y). { clear - H K. destruct (x =? 240); [lia|]. destruct (x =? 244); [lia|]. auto. }
  cbn [flat_map]. rewrite (show_char_high y), (show_char_high z), (show_char_high w) by auto.
  cbn [app utf8_valid]. rewrite E, R1, R2, R3. parts; auto. apply IH; [clear - L; lia|auto].
Qed.
Lemma show_string_utf8 s : utf8_valid s = true -> utf8_valid (show_str s) = true.
Proof.
  intros H. unfold show_str. apply utf8_cons_ok; [lia|]. apply utf8_and; [exact (show_str_utf8 _ s (le_n _) H)|reflexivity].
Qed.

Lemma line_utf8 d : utf8_valid (line d) = true.
Proof. apply ascii_utf8. constructor; [lia|]. apply Forall_forall. intros c H. apply repeat_spec in H. lia. Qed.
Lemma entries_utf8 d xs : Forall (fun x => utf8_valid x = true) xs -> utf8_valid (entries d xs) = true.
Proof.
  induction 1 as [|x xs X Xs IH]; auto. destruct xs as [|y xs].
  - cbn [entries]. apply utf8_and; auto using line_utf8.
  - change (entries d (x :: y :: xs)) with (line d ++ x ++ 44 :: entries d (y :: xs)).
    apply utf8_and; [apply line_utf8|]. apply utf8_and; [exact X|]. apply utf8_cons_ok; [lia|exact IH].
Qed.
Lemma block_utf8 op cl d xs : 0 <= op <= 127 -> 0 <= cl <= 127 -> Forall (fun x => utf8_valid x = true) xs ->
  utf8_valid (block op cl d xs) = true.
Proof.
  intros O C H. unfold block. destruct xs as [|x xs]; [repeat (apply utf8_cons_ok; auto)|].
  apply utf8_cons_ok; auto. apply utf8_and; [now apply entries_utf8|]. apply utf8_and; [apply line_utf8|]. now apply utf8_cons_ok.
Qed.

Lemma show_utf8 j : tree_ok j = true -> Forall float_kept (tree_floats j) -> forall d, utf8_valid (show d j) = true.
Proof.
  induction j as [|b|n|n|s|js IH|ms IH] using json_ind'; intros T F d; cbn [show].
  - reflexivity.
  - now destruct b.
  - cbn in T. unfold show_int. destruct (n <? 0) eqn:S.
    + destruct (digits_spec (- n)) as ((_ & D & _) & _); [lia|]. apply utf8_cons_ok; [lia|]. now apply ascii_utf8, digits_ascii.
    + destruct (digits_spec n) as ((_ & D & _) & _); [lia|]. now apply ascii_utf8, digits_ascii.
  - inversion F as [|x l K _]; subst. unfold float_kept in K. apply read_number_sound in K as (neg & ints & fracs & exp & t & -> & N & _).
    rewrite app_nil_r. apply ascii_utf8. eapply number_ascii; eauto.
  - now apply show_string_utf8.
  - cbn [tree_ok tree_floats] in T, F. apply block_utf8; try lia. rewrite forallb_forall in T. rewrite Forall_forall in *.
    intros x I. apply in_map_iff in I as (j & <- & I). apply IH; auto. apply Forall_forall. intros y Iy. apply F. apply in_flat_map. eauto.
  - cbn [tree_ok tree_floats] in T, F. apply block_utf8; try lia. rewrite forallb_forall in T. rewrite Forall_forall in *.
    intros x I. apply in_map_iff in I as (m & <- & I). specialize (T m I). parts. apply utf8_and; [now apply show_string_utf8|].
    do 2 (apply utf8_cons_ok; [lia|]). apply IH; auto. apply Forall_forall. intros y Iy. apply F. apply in_flat_map. eauto.
Qed.

Theorem to_text_utf8 j : tree_ok j = true -> Forall float_kept (tree_floats j) -> utf8_valid (to_text j) = true.
Proof. intros T F. now apply show_utf8. Qed.
