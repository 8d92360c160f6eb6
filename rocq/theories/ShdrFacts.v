(** Proofs about shader metadata. *)
From Coq Require Import Lia ZifyBool ZifyNat ZifyN.
From Verif Require Import Bytes Ssbh Formats File Strings AnimBuf SmallData ShdrData ShdrSpec BytesFacts SsbhFacts SsbhLemmas.
Ltac Zify.zify_post_hook ::= ZifyBool.elim_bool_cstr; Z.to_euclidean_division_equations.

(** ** Stored numbers *)

Lemma skipn_nth (b : list Z) n : skipn n b = match nth_error b n with Some x => x :: skipn (S n) b | None => [] end.
Proof. revert b; induction n; intros [|x b]; cbn; auto. rewrite IHn. cbn. reflexivity. Qed.

Lemma raw_get b p raw : 0 <= p -> (get_bytes (length raw) b p = Some raw <-> raw_at b p raw).
Proof.
  revert p; induction raw as [|x raw IH]; intros p Hp; unfold raw_at; cbn [length get_bytes firstn].
  - split; auto.
  - rewrite byte_at_nth, skipn_nth by auto. specialize (IH (p + 1) ltac:(lia)). unfold raw_at in IH.
    replace (Z.to_nat (p + 1)) with (S (Z.to_nat p)) in IH by lia.
    destruct (nth_error b (Z.to_nat p)) as [y|]; [|split; [discriminate|intros [_ [=]]]].
    destruct (get_bytes (length raw) b (p + 1)) as [r|] eqn:E.
    + split.
      * intros [= -> ->]. split; auto. f_equal. now apply IH.
      * intros [_ [= -> H]]. f_equal. f_equal. assert (Some r = Some raw) by (apply IH; split; auto; lia). congruence.
    + split; [discriminate|]. intros [_ [= -> H]]. assert (None = Some raw) by (apply IH; split; auto; lia). discriminate.
Qed.

Lemma read_word b p n q : 0 <= p -> (read_int 4 b p = Ok (n, q) <-> word b p n /\ q = p + 4).
Proof.
  intros Hp. unfold read_int. change (Z.to_nat 4) with 4%nat. split.
  - destruct (get_bytes 4 b p) as [bs|] eqn:E; [|discriminate]. intros [= <- <-]. split; auto.
    pose proof (get_bytes_length _ _ _ _ E) as L. destruct bs as [|x0 [|x1 [|x2 [|x3 [|]]]]]; cbn in L; try lia.
    exists x0, x1, x2, x3. split; [now apply raw_get|]. cbn [le_val]. lia.
  - intros [(x0 & x1 & x2 & x3 & H & ->) ->]. apply raw_get in H; auto. cbn [length] in H. rewrite H. do 2 f_equal. cbn [le_val]. lia.
Qed.

Lemma word_nonneg b p n : word b p n -> 0 <= p.
Proof. intros (? & ? & ? & ? & [H _] & _). exact H. Qed.

Lemma word_bound b p n : word b p n -> 0 <= p /\ p + 4 <= zlen b.
Proof.
  intros (x0 & x1 & x2 & x3 & [H E] & _). split; auto. apply (f_equal (@length Z)) in E.
  rewrite firstn_length, skipn_length in E. cbn [length] in E. unfold zlen. lia.
Qed.

Lemma word_ex b p : 0 <= p -> p + 4 <= zlen b -> exists n, word b p n.
Proof.
  intros Hp H. destruct (get_bytes_some 4 b p) as [l E]; [lia|change (Z.of_nat 4) with 4; lia|].
  exists (le_val l). apply (read_word b p (le_val l) (p + 4)); auto. unfold read_int. change (Z.to_nat 4) with 4%nat. now rewrite E.
Qed.

Lemma word_fun b p n m : word b p n -> word b p m -> n = m.
Proof.
  intros H1 H2. pose proof (word_nonneg _ _ _ H1) as Hp.
  pose proof (proj2 (read_word b p n (p + 4) Hp) (conj H1 eq_refl)).
  pose proof (proj2 (read_word b p m (p + 4) Hp) (conj H2 eq_refl)). congruence.
Qed.

Lemma word_range b p n : bytes_ok b = true -> word b p n -> 0 <= n < 2 ^ 32.
Proof.
  intros Hb H. pose proof (word_nonneg _ _ _ H) as Hp.
  pose proof (proj2 (read_word b p n (p + 4) Hp) (conj H eq_refl)) as E. unfold read_int in E.
  destruct (get_bytes (Z.to_nat 4) b p) as [l|] eqn:G; [|discriminate]. injection E as E.
  pose proof (get_bytes_ok _ _ _ _ Hb G) as L. apply le_val_range in L. rewrite <- E.
  apply get_bytes_length in G. unfold zlen in L. rewrite G in L. exact L.
Qed.

Lemma to_i32_word b p n : bytes_ok b = true -> word b p n -> iword b p (to_i32 n).
Proof.
  intros Hb H. pose proof (word_range _ _ _ Hb H) as R. unfold iword, to_i32. split; [destruct (n <? 2 ^ 31) eqn:E; lia|].
  replace ((if n <? 2 ^ 31 then n else n - 2 ^ 32) mod 2 ^ 32) with n; auto. destruct (n <? 2 ^ 31) eqn:E.
  - rewrite Z.mod_small; auto.
  - replace (n - 2 ^ 32) with (n + (-1) * 2 ^ 32) by lia. rewrite Z_mod_plus_full. now rewrite Z.mod_small.
Qed.

(** ** Tables *)

Section Table.
  Variables (rd : Z -> res (val * Z)) (size : Z).
  Hypothesis stride : forall p v q, 0 <= p -> rd p = Ok (v, q) -> q = p + size.
  Hypothesis size_pos : 0 <= size.

  Lemma table_read count p vs q : 0 <= p -> 0 <= count -> read_elements rd count p = Ok (vs, q) ->
    zlen vs = count /\ forall k v, nth_error vs k = Some v -> rd (p + size * Z.of_nat k) = Ok (v, p + size * Z.of_nat k + size).
  Proof.
    intros Hp Hc. rewrite read_elements_n. remember (Z.to_nat count) as n eqn:En.
    assert (count = Z.of_nat n) as -> by lia. clear En Hc. revert p vs q Hp.
    induction n as [|n IH]; intros p vs q Hp; cbn [read_n].
    - intros [= <- <-]. split; auto. intros [|k] v; discriminate.
    - intros H. destruct (rd p) as [[v p1]| |] eqn:E; try discriminate. cbn [bind] in H.
      pose proof (stride _ _ _ Hp E) as ->.
      destruct (read_n n rd (p + size)) as [[r p2]| |] eqn:E2; try discriminate. cbn [bind] in H. injection H as <- <-.
      destruct (IH (p + size) r p2 ltac:(lia) E2) as [L F]. split; [rewrite zlen_cons; lia|].
      intros [|k] w; cbn [nth_error].
      + intros [= <-]. replace (p + size * Z.of_nat 0) with p by lia. exact E.
      + intros Hk. specialize (F k w Hk). replace (p + size * Z.of_nat (S k)) with (p + size + size * Z.of_nat k) by lia. exact F.
  Qed.

  Lemma table_total count p : 0 <= p ->
    (forall k, 0 <= k < count -> exists r, rd (p + size * k) = Ok r) -> exists vs q, read_elements rd count p = Ok (vs, q).
  Proof.
    intros Hp. rewrite read_elements_n. intros H.
    assert (H' : forall k, (k < Z.to_nat count)%nat -> exists r, rd (p + size * Z.of_nat k) = Ok r).
    { intros k Hk. apply H. lia. }
    clear H. revert H'. generalize (Z.to_nat count) as n. intros n. revert p Hp.
    induction n as [|n IH]; intros p Hp H; cbn [read_n]; [eauto|].
    destruct (H 0%nat ltac:(lia)) as [[v q] E]. replace (p + size * Z.of_nat 0) with p in E by lia. rewrite E. cbn [bind].
    pose proof (stride _ _ _ Hp E) as ->.
    destruct (IH (p + size) ltac:(lia)) as (vs & q & E2).
    - intros k Hk. destruct (H (S k) ltac:(lia)) as [r Er]. exists r.
      replace (p + size + size * Z.of_nat k) with (p + size * Z.of_nat (S k)) by lia. exact Er.
    - rewrite E2. cbn. eauto.
  Qed.
End Table.

Lemma bind_inv {A B} (r : res A) (f : A -> res B) b : bind r f = Ok b -> exists a, r = Ok a /\ f a = Ok b.
Proof. destruct r; cbn; try discriminate. eauto. Qed.

Lemma known_types n : existsb (Z.eqb n) data_types = true <-> known_type n.
Proof.
  unfold known_type. change data_types with [0; 4; 7; 20; 22; 36; 37; 38; 39; 50; 67; 68; 69; 73; 103].
  rewrite existsb_exists. split.
  - intros (x & I & E). apply Z.eqb_eq in E as ->. exact I.
  - intros I. exists n. split; auto. apply Z.eqb_refl.
Qed.


(** Takes apart a successful sequence of reads *)
Ltac invert :=
  repeat match goal with
  | H : bind _ _ = Ok _ |- _ => let r := fresh "r" in let E := fresh "E" in apply bind_inv in H as (r & E & H)
  | H : (let '(_, _) := ?x in _) = Ok _ |- _ => is_var x; destruct x
  | H : Ok _ = Ok _ |- _ => injection H as; subst
  | H : read_int 4 _ _ = Ok (_, _) |- _ => apply read_word in H as [? ->]; [|lia]
  end.
(** Performs reads whose results are known *)
Ltac perform :=
  repeat match goal with
  | W : word ?b ?p ?n |- context [read_int 4 ?b ?q] =>
      replace q with p by lia; rewrite (proj2 (read_word b p n (p + 4) ltac:(lia)) (conj W eq_refl)); cbn [bind]; clear W
  end.

Ltac at_ := match goal with H : word ?b ?q ?n |- word ?b ?p ?n => replace p with q by lia; exact H end.

Lemma buffer_entry b p v q : 0 <= p -> read BufferEntry b p = Ok (v, q) ->
  exists o l s c u4 u5 u6 u7 u8 u9 u10,
    v = VStruct [VStruct [VInt o; VInt l]; VInt s; VInt c; VInt u4; VInt u5; VInt u6; VInt u7; VInt u8; VInt u9; VInt u10] /\
    q = p + 108 /\ word b p o /\ word b (p + 4) l /\ word b (p + 40) s /\ word b (p + 44) c /\ word b (p + 48) u4 /\
    word b (p + 52) u5 /\ word b (p + 56) u6 /\ word b (p + 60) u7 /\ word b (p + 72) u10.
Proof.
  intros Hp H. cbn -[read_int Z.add] in H. invert.
  do 11 eexists. split; [reflexivity|]. split; [lia|]. repeat apply conj; at_.
Qed.

Ltac invert_type :=
  repeat (invert; match goal with
  | H : (if existsb (Z.eqb ?z) data_types then _ else _) = Ok _ |- _ =>
      let T := fresh "T" in destruct (existsb (Z.eqb z) data_types) eqn:T; [apply known_types in T|discriminate]
  end); invert.

Lemma uniform_entry b p v q : 0 <= p -> read UniformEntry b p = Ok (v, q) ->
  exists o l ty i f u4 u5 u6 u7 u8 u10 u11 r,
    v = VStruct (VStruct [VInt o; VInt l] :: VInt ty :: VInt i :: VInt f :: u4 :: u5 :: u6 :: u7 :: u8 :: u10 :: VInt u11 :: r) /\
    q = p + 164 /\ word b p o /\ word b (p + 4) l /\ word b (p + 40) ty /\ known_type ty /\ word b (p + 44) i /\
    word b (p + 48) f /\ word b (p + 76) u11 /\ p + 104 <= zlen b.
Proof.
  intros Hp H. cbn -[read_int Z.add data_types existsb] in H. invert_type.
  match goal with H : word b ?x _ |- _ => assert (x = p + 100) by lia; pose proof (word_bound _ _ _ H) end.
  do 13 eexists. split; [reflexivity|]. split; [lia|]. repeat apply conj; first [at_|assumption|lia].
Qed.

Lemma attribute_entry b p v q : 0 <= p -> read AttributeEntry b p = Ok (v, q) ->
  exists o l ty u2 loc u4 u5,
    v = VStruct [VStruct [VInt o; VInt l]; VInt ty; u2; VInt loc; u4; u5] /\
    q = p + 92 /\ word b p o /\ word b (p + 4) l /\ word b (p + 40) ty /\ known_type ty /\ word b (p + 48) loc /\ p + 60 <= zlen b.
Proof.
  intros Hp H. cbn -[read_int Z.add data_types existsb] in H. invert_type.
  match goal with H : word b ?x _ |- _ => assert (x = p + 56) by lia; pose proof (word_bound _ _ _ H) end.
  do 7 eexists. split; [reflexivity|]. split; [lia|]. repeat apply conj; first [at_|assumption|lia].
Qed.

(** Reads words that are inside the file *)
Ltac inside :=
  repeat (cbn [bind]; match goal with
  | W : word ?b ?p ?n |- context [read_int 4 ?b ?q] =>
      replace q with p by lia; rewrite (proj2 (read_word b p n (p + 4) ltac:(lia)) (conj W eq_refl))
  | |- context [read_int 4 ?b ?q] =>
      let n := fresh "n" in let W := fresh "W" in
      destruct (word_ex b q) as [n W]; [lia|lia|];
      rewrite (proj2 (read_word b q n (q + 4) ltac:(lia)) (conj W eq_refl)); clear W
  end); cbn [bind].

Lemma buffer_inside b p : 0 <= p -> p + 76 <= zlen b -> exists r, read BufferEntry b p = Ok r.
Proof. intros Hp H. cbn -[read_int Z.add]. inside. eauto. Qed.
Lemma uniform_inside b p : 0 <= p -> typed_entry b 104 p -> exists r, read UniformEntry b p = Ok r.
Proof.
  intros Hp (H & t & W & T). apply known_types in T. cbn -[read_int Z.add data_types existsb]. inside. rewrite T. clear W. inside. eauto.
Qed.
Lemma attribute_inside b p : 0 <= p -> typed_entry b 60 p -> exists r, read AttributeEntry b p = Ok r.
Proof.
  intros Hp (H & t & W & T). apply known_types in T. cbn -[read_int Z.add data_types existsb]. inside. rewrite T. clear W. inside. eauto.
Qed.

(** ** Text *)

Lemma encode_forms c : utf8_char c <->
  (exists a, c = [a] /\ 0 <= a <= 127) \/
  (exists a b0, c = [a; b0] /\ 194 <= a <= 223 /\ cont b0 = true) \/
  (exists a b0 b1, c = [a; b0; b1] /\ 224 <= a <= 239 /\
     (if a =? 224 then (160 <=? b0) && (b0 <=? 191) else if a =? 237 then (128 <=? b0) && (b0 <=? 159) else cont b0) = true /\
     cont b1 = true) \/
  (exists a b0 b1 b2, c = [a; b0; b1; b2] /\ 240 <= a <= 244 /\
     (if a =? 240 then (144 <=? b0) && (b0 <=? 191) else if a =? 244 then (128 <=? b0) && (b0 <=? 143) else cont b0) = true /\
     cont b1 = true /\ cont b2 = true).
Proof.
  unfold cont. split.
  - intros (cp & R & S & ->). unfold utf8_encode.
    destruct (cp <? 128) eqn:E1; [left; eexists; split; [reflexivity|lia]|].
    destruct (cp <? 2048) eqn:E2; [right; left; do 2 eexists; split; [reflexivity|lia]|].
    destruct (cp <? 65536) eqn:E3.
    + right; right; left. do 3 eexists. split; [reflexivity|]. split; [lia|].
      destruct (224 + cp / 4096 =? 224) eqn:A1; [lia|]. destruct (224 + cp / 4096 =? 237) eqn:A2; lia.
    + right; right; right. do 4 eexists. split; [reflexivity|]. split; [lia|].
      destruct (240 + cp / 262144 =? 240) eqn:A1; [lia|]. destruct (240 + cp / 262144 =? 244) eqn:A2; lia.
  - intros [(a & -> & H)|[(a & b0 & -> & H & H0)|[(a & b0 & b1 & -> & H & H0 & H1)|(a & b0 & b1 & b2 & -> & H & H0 & H1 & H2)]]].
    + exists a. unfold utf8_encode. destruct (a <? 128) eqn:E; [|lia]. split; [lia|]. split; [lia|reflexivity].
    + exists ((a - 192) * 64 + (b0 - 128)). unfold utf8_encode.
      destruct ((a - 192) * 64 + (b0 - 128) <? 128) eqn:E1; [lia|].
      destruct ((a - 192) * 64 + (b0 - 128) <? 2048) eqn:E2; [|lia].
      split; [lia|]. split; [lia|]. f_equal; [lia|]. f_equal; lia.
    + exists ((a - 224) * 4096 + (b0 - 128) * 64 + (b1 - 128)). set (cp := (a - 224) * 4096 + (b0 - 128) * 64 + (b1 - 128)).
      assert (128 <= b0 <= 191 /\ 2048 <= cp /\ ~ (55296 <= cp < 57344)) as (B0 & L & S).
      { unfold cp. destruct (a =? 224) eqn:A1; [lia|]. destruct (a =? 237) eqn:A2; lia. }
      unfold utf8_encode. destruct (cp <? 128) eqn:E1; [lia|]. destruct (cp <? 2048) eqn:E2; [lia|].
      destruct (cp <? 65536) eqn:E3; [|unfold cp in E3; clear H0 L S; lia].
      split; [lia|]. split; [exact S|]. clear H0 L S E1 E2 E3. unfold cp. f_equal; [lia|]. f_equal; [lia|]. f_equal; lia.
    + exists ((a - 240) * 262144 + (b0 - 128) * 4096 + (b1 - 128) * 64 + (b2 - 128)).
      set (cp := (a - 240) * 262144 + (b0 - 128) * 4096 + (b1 - 128) * 64 + (b2 - 128)).
      assert (128 <= b0 <= 191 /\ 65536 <= cp < 1114112) as (B0 & L).
      { unfold cp. destruct (a =? 240) eqn:A1; [lia|]. destruct (a =? 244) eqn:A2; lia. }
      unfold utf8_encode. destruct (cp <? 128) eqn:E1; [lia|]. destruct (cp <? 2048) eqn:E2; [lia|].
      destruct (cp <? 65536) eqn:E3; [lia|].
      split; [lia|]. split; [lia|]. clear H0 L E1 E2 E3. unfold cp. f_equal; [lia|]. f_equal; [lia|]. f_equal; [lia|]. f_equal; lia.
Qed.

Lemma lossy_from k keep r : utf8_lossy_from k keep r = (if keep then firstn k r else []) ++ utf8_lossy (skipn k r).
Proof.
  revert k; induction r as [|a r IH]; intros k.
  - destruct k, keep; reflexivity.
  - destruct k as [|k].
    + destruct keep; reflexivity.
    + cbn [utf8_lossy_from firstn skipn]. rewrite IH. destruct keep; reflexivity.
Qed.

Lemma lossy_cons a r : utf8_lossy (a :: r) =
  (if snd (utf8_step a r) then a :: firstn (fst (utf8_step a r)) r else replacement) ++ utf8_lossy (skipn (fst (utf8_step a r)) r).
Proof.
  unfold utf8_lossy at 1. cbn [utf8_lossy_from]. destruct (utf8_step a r) as [k ok]. cbn [fst snd].
  rewrite lossy_from. destruct ok; reflexivity.
Qed.

(** The second byte fits the first *)
Definition second (a b0 : Z) : bool :=
  if a <=? 239 then if a =? 224 then (160 <=? b0) && (b0 <=? 191) else if a =? 237 then (128 <=? b0) && (b0 <=? 159) else cont b0
  else if a =? 240 then (144 <=? b0) && (b0 <=? 191) else if a =? 244 then (128 <=? b0) && (b0 <=? 143) else cont b0.

Lemma step_second a r : utf8_step a r =
  if a <=? 127 then (0%nat, true)
  else if (194 <=? a) && (a <=? 223) then if cont (nth 0 r 0) then (1%nat, true) else (0%nat, false)
  else if (224 <=? a) && (a <=? 239) then
    if second a (nth 0 r 0) then if cont (nth 1 r 0) then (2%nat, true) else (1%nat, false) else (0%nat, false)
  else if (240 <=? a) && (a <=? 244) then
    if second a (nth 0 r 0)
    then if cont (nth 1 r 0) then if cont (nth 2 r 0) then (3%nat, true) else (2%nat, false) else (1%nat, false)
    else (0%nat, false)
  else (0%nat, false).
Proof.
  unfold utf8_step, second.
  destruct (a <=? 127) eqn:E1; [reflexivity|]. destruct ((194 <=? a) && (a <=? 223)) eqn:E2; [reflexivity|].
  destruct ((224 <=? a) && (a <=? 239)) eqn:E3.
  { replace (a <=? 239) with true by lia. reflexivity. }
  destruct ((240 <=? a) && (a <=? 244)) eqn:E4; [|reflexivity].
  replace (a <=? 239) with false by lia. reflexivity.
Qed.

Lemma char_forms c : utf8_char c <->
  (exists a, c = [a] /\ 0 <= a <= 127) \/
  (exists a b0, c = [a; b0] /\ 194 <= a <= 223 /\ cont b0 = true) \/
  (exists a b0 b1, c = [a; b0; b1] /\ 224 <= a <= 239 /\ second a b0 = true /\ cont b1 = true) \/
  (exists a b0 b1 b2, c = [a; b0; b1; b2] /\ 240 <= a <= 244 /\ second a b0 = true /\ cont b1 = true /\ cont b2 = true).
Proof.
  rewrite encode_forms. unfold second. split.
  - intros [H|[H|[(a & b0 & b1 & -> & H & H0)|(a & b0 & b1 & b2 & -> & H & H0)]]]; auto.
    + right; right; left. exists a, b0, b1. replace (a <=? 239) with true by lia. auto.
    + right; right; right. exists a, b0, b1, b2. replace (a <=? 239) with false by lia. auto.
  - intros [H|[H|[(a & b0 & b1 & -> & H & H0)|(a & b0 & b1 & b2 & -> & H & H0)]]]; auto.
    + right; right; left. exists a, b0, b1. replace (a <=? 239) with true in H0 by lia. auto.
    + right; right; right. exists a, b0, b1, b2. replace (a <=? 239) with false in H0 by lia. auto.
Qed.

Lemma begins_forms q : begins q ->
  length q = 1%nat \/
  (exists a b0, q = [a; b0] /\ 224 <= a <= 244 /\ second a b0 = true) \/
  (exists a b0 b1, q = [a; b0; b1] /\ 240 <= a <= 244 /\ second a b0 = true /\ cont b1 = true).
Proof.
  intros (Hq & t & Ht & C). destruct t as [|y t]; [congruence|]. clear Ht.
  destruct q as [|a [|b0 [|b1 q]]]; [congruence|auto| |].
  - right; left. exists a, b0. split; auto.
    apply char_forms in C as [(? & E & _)|[(? & ? & E & _)|[(? & ? & ? & E & H & S & _)|(? & ? & ? & ? & E & H & S & _)]]];
      cbn in E; try discriminate; injection E as; subst; split; auto; lia.
  - right; right. apply char_forms in C as [(? & E & _)|[(? & ? & E & _)|[(? & ? & ? & E & H & S & _)|(? & ? & ? & ? & E & H & S & T & _)]]];
      cbn in E; try discriminate.
    + injection E as; subst. destruct q; discriminate.
    + injection E as; subst. destruct q as [|? q]; [|destruct q; discriminate]. do 3 eexists. eauto.
Qed.

(** One step on any bytes *)
Lemma cont_0 : cont 0 = false. Proof. reflexivity. Qed.
Lemma second_0 a : second a 0 = false.
Proof. unfold second. repeat destruct (_ =? _); destruct (_ <=? _); reflexivity. Qed.

Lemma step_good a r : 0 <= a -> snd (utf8_step a r) = true ->
  utf8_char (a :: firstn (fst (utf8_step a r)) r).
Proof.
  intros Ha. rewrite step_second. intros H. apply char_forms.
  destruct (a <=? 127) eqn:E1; [left; exists a; cbn; split; auto; lia|].
  destruct ((194 <=? a) && (a <=? 223)) eqn:E2.
  { right; left. destruct r as [|b0 r]; cbn [nth] in *; [discriminate|]. destruct (cont b0) eqn:C0; [|discriminate].
    exists a, b0. cbn. split; auto. split; [lia|auto]. }
  destruct ((224 <=? a) && (a <=? 239)) eqn:E3.
  { right; right; left. destruct r as [|b0 r]; cbn [nth] in *; [rewrite second_0 in H; discriminate|].
    destruct (second a b0) eqn:S0; [|discriminate].
    destruct r as [|b1 r]; cbn [nth] in *; [discriminate|]. destruct (cont b1) eqn:C1; [|discriminate].
    exists a, b0, b1. cbn. split; auto. split; [lia|auto]. }
  destruct ((240 <=? a) && (a <=? 244)) eqn:E4; [|discriminate].
  right; right; right. destruct r as [|b0 r]; cbn [nth] in *; [rewrite second_0 in H; discriminate|].
  destruct (second a b0) eqn:S0; [|discriminate].
  destruct r as [|b1 r]; cbn [nth] in *; [discriminate|]. destruct (cont b1) eqn:C1; [|discriminate].
  destruct r as [|b2 r]; cbn [nth] in *; [discriminate|]. destruct (cont b2) eqn:C2; [|discriminate].
  exists a, b0, b1, b2. cbn. split; auto. split; [lia|auto].
Qed.

Lemma prefix_nth (l q t : list Z) : l = q ++ t -> forall i, (i < length q)%nat -> nth i q 0 = nth i l 0.
Proof. intros -> i H. now rewrite app_nth1. Qed.

Lemma step_bad a r : snd (utf8_step a r) = false ->
  (forall c t, a :: r = c ++ t -> ~ utf8_char c) /\
  (fst (utf8_step a r) <= length r)%nat /\
  (fst (utf8_step a r) = 0%nat \/ begins (a :: firstn (fst (utf8_step a r)) r)) /\
  (forall q t, a :: r = q ++ t -> begins q -> (length q <= S (fst (utf8_step a r)))%nat).
Proof.
  rewrite step_second. intros H.
  assert (C : forall c t, a :: r = c ++ t -> utf8_char c ->
    a <= 127 \/ (194 <= a <= 223 /\ cont (nth 0 r 0) = true) \/
    (224 <= a <= 239 /\ second a (nth 0 r 0) = true /\ cont (nth 1 r 0) = true) \/
    (240 <= a <= 244 /\ second a (nth 0 r 0) = true /\ cont (nth 1 r 0) = true /\ cont (nth 2 r 0) = true)).
  { intros c t E K. apply char_forms in K as [(? & -> & K)|[(? & ? & -> & K & K0)|[(? & ? & ? & -> & K & K0 & K1)|(? & ? & ? & ? & -> & K & K0 & K1 & K2)]]];
      cbn in E; injection E as; subst; cbn [nth]; [left; lia|..]; right; auto 8. }
  assert (B : forall q t, a :: r = q ++ t -> begins q ->
    length q = 1%nat \/ (length q = 2%nat /\ 224 <= a <= 244 /\ second a (nth 0 r 0) = true) \/
    (length q = 3%nat /\ 240 <= a <= 244 /\ second a (nth 0 r 0) = true /\ cont (nth 1 r 0) = true)).
  { intros q t E K. apply begins_forms in K as [K|[(? & ? & -> & K & K0)|(? & ? & ? & -> & K & K0 & K1)]]; auto;
      cbn in E; injection E as; subst; cbn [nth length]; auto 9. }
  destruct (a <=? 127) eqn:E1; [discriminate|].
  destruct ((194 <=? a) && (a <=? 223)) eqn:E2.
  { destruct (cont (nth 0 r 0)) eqn:C0; [discriminate|]. cbn [fst]. repeat split.
    - intros c t E K. destruct (C _ _ E K) as [?|[[_ ?]|[[? _]|[? _]]]]; try lia; try congruence.
    - lia.
    - auto.
    - intros q t E K. destruct (B _ _ E K) as [?|[[? [? _]]|[? [? _]]]]; lia. }
  destruct ((224 <=? a) && (a <=? 239)) eqn:E3.
  { destruct (second a (nth 0 r 0)) eqn:S0.
    - destruct r as [|b0 r]; cbn [nth] in *; [rewrite second_0 in S0; discriminate|].
      destruct (cont (nth 0 r 0)) eqn:C1; [discriminate|]. cbn [fst]. repeat split.
      + intros c t E K. destruct (C _ _ E K) as [?|[[? _]|[(_ & _ & ?)|[? _]]]]; try lia; congruence.
      + cbn; lia.
      + right. split; [discriminate|]. exists [128]. split; [discriminate|]. apply char_forms. right; right; left.
        exists a, b0, 128. cbn. split; auto. split; [lia|auto].
      + intros q t E K. destruct (B _ _ E K) as [?|[[? _]|[? [? _]]]]; lia.
    - cbn [fst]. repeat split.
      + intros c t E K. destruct (C _ _ E K) as [?|[[? _]|[(_ & ? & _)|[? _]]]]; try lia; congruence.
      + lia.
      + auto.
      + intros q t E K. destruct (B _ _ E K) as [?|[(? & _ & ?)|(? & _ & ? & _)]]; try lia; congruence. }
  destruct ((240 <=? a) && (a <=? 244)) eqn:E4.
  { destruct (second a (nth 0 r 0)) eqn:S0.
    - destruct r as [|b0 r]; cbn [nth] in *; [rewrite second_0 in S0; discriminate|].
      destruct (cont (nth 0 r 0)) eqn:C1.
      + destruct r as [|b1 r]; cbn [nth] in *; [discriminate|].
        destruct (cont (nth 0 r 0)) eqn:C2; [discriminate|]. cbn [fst]. repeat split.
        * intros c t E K. destruct (C _ _ E K) as [?|[[? _]|[(? & _ & _)|(_ & _ & _ & ?)]]]; try lia; congruence.
        * cbn; lia.
        * right. split; [discriminate|]. exists [128]. split; [discriminate|]. apply char_forms. right; right; right.
          exists a, b0, b1, 128. cbn. split; auto. split; [lia|auto].
        * intros q t E K. destruct (B _ _ E K) as [?|[[? _]|[? _]]]; lia.
      + cbn [fst]. repeat split.
        * intros c t E K. destruct (C _ _ E K) as [?|[[? _]|[(? & _ & _)|(_ & _ & ? & _)]]]; try lia; congruence.
        * cbn; lia.
        * right. split; [discriminate|]. exists [128; 128]. split; [discriminate|]. apply char_forms. right; right; right.
          exists a, b0, 128, 128. cbn. split; auto. split; [lia|auto].
        * intros q t E K. destruct (B _ _ E K) as [?|[[? _]|(? & _ & _ & ?)]]; try lia; congruence.
    - cbn [fst]. repeat split.
      + intros c t E K. destruct (C _ _ E K) as [?|[[? _]|[(? & _ & _)|(_ & ? & _)]]]; try lia; congruence.
      + lia.
      + auto.
      + intros q t E K. destruct (B _ _ E K) as [?|[(? & _ & ?)|(? & _ & ? & _)]]; try lia; congruence. }
  cbn [fst]. repeat split.
  - intros c t E K. destruct (C _ _ E K) as [?|[[? _]|[(? & _ & _)|(? & _)]]]; lia.
  - lia.
  - auto.
  - intros q t E K. destruct (B _ _ E K) as [?|[(? & ? & _)|(? & ? & _)]]; lia.
Qed.

Lemma lossy_decoded raw : bytes_ok raw = true -> decoded raw (utf8_lossy raw).
Proof.
  remember (length raw) as n eqn:En. revert raw En. induction n as [n IH] using lt_wf_ind. intros raw En Hb.
  destruct raw as [|a r]; [constructor|]. cbn in En. cbn in Hb. apply andb_true_iff in Hb as [Ha Hr].
  assert (0 <= a) by (unfold is_byte in Ha; lia).
  assert (IH' : forall k, decoded (skipn k r) (utf8_lossy (skipn k r))).
  { intros k. apply (IH (length (skipn k r))); auto; [rewrite skipn_length; lia|now apply bytes_ok_skipn]. }
  rewrite lossy_cons. set (k := fst (utf8_step a r)) in *. rewrite <- (firstn_skipn k r) at 1.
  change (a :: firstn k r ++ skipn k r) with ((a :: firstn k r) ++ skipn k r).
  destruct (snd (utf8_step a r)) eqn:E.
  - constructor; auto. now apply step_good.
  - destruct (step_bad a r E) as (B1 & B2 & B3 & B4). fold k in B2, B3, B4.
    change replacement with (utf8_encode 0xFFFD).
    assert (EQ : (a :: firstn k r) ++ skipn k r = a :: r) by (cbn; now rewrite firstn_skipn).
    apply decoded_bad; auto.
    + intros c t. rewrite EQ. apply B1.
    + destruct B3 as [->|B3]; auto.
    + intros q t. rewrite EQ. cbn [length]. rewrite firstn_length, Nat.min_l by auto. apply B4.
Qed.

Lemma char_nonempty c : utf8_char c -> exists a r, c = a :: r.
Proof. intros H. apply char_forms in H as [(? & -> & _)|[(? & ? & -> & _)|[(? & ? & ? & -> & _)|(? & ? & ? & ? & -> & _)]]]; eauto. Qed.

Lemma char_prefix c c' r r' : utf8_char c -> utf8_char c' -> c ++ r = c' ++ r' -> c = c' /\ r = r'.
Proof.
  intros H H' E.
  apply char_forms in H as [(? & -> & H)|[(? & ? & -> & H & H0)|[(? & ? & ? & -> & H & H0 & H1)|(? & ? & ? & ? & -> & H & H0 & H1 & H2)]]];
  apply char_forms in H' as [(? & -> & H')|[(? & ? & -> & H' & H0')|[(? & ? & ? & -> & H' & H0' & H1')|(? & ? & ? & ? & -> & H' & H0' & H1' & H2')]]];
  cbn in E; injection E as; subst; auto; exfalso; lia.
Qed.

Lemma decoded_unique raw s : decoded raw s -> forall s', decoded raw s' -> s = s'.
Proof.
  induction 1 as [|c r s C D IH|p r s N L M D IH]; intros s' H'.
  - remember [] as raw eqn:E. destruct H' as [|c r s C D|p r s N L M D]; auto.
    + apply char_nonempty in C as (? & ? & ->). discriminate.
    + destruct p as [|x p]; [|discriminate]. cbn in L. destruct L as [L|[L _]]; [lia|congruence].
  - remember (c ++ r) as raw eqn:E. destruct H' as [|c' r' s' C' D'|p r' s' N L M D'].
    + apply char_nonempty in C as (? & ? & ->). discriminate.
    + destruct (char_prefix _ _ _ _ C' C E) as [-> ->]. f_equal. auto.
    + destruct (N c r E C).
  - remember (p ++ r) as raw eqn:E. destruct H' as [|c' r' s' C' D'|p' r' s' N' L' M' D'].
    + destruct p as [|x p]; [|discriminate]. cbn in L. destruct L as [L|[L _]]; [lia|congruence].
    + destruct (N c' r' eq_refl C').
    + assert (forall x, length x = 1%nat \/ begins x -> (1 <= length x)%nat) as G.
      { intros x [K|[K _]]; [lia|]. destruct x; [congruence|cbn; lia]. }
      assert (length p = length p').
      { pose proof (G _ L). pose proof (G _ L').
        assert (length p' <= length p)%nat by (destruct L' as [K|K]; [lia|apply (M p' r' eq_refl); auto]).
        assert (length p <= length p')%nat by (destruct L as [K|K]; [lia|apply (M' p r E); auto]). lia. }
      assert (p = p' /\ r = r') as [-> ->].
      { clear - E H. revert p' E H. induction p as [|x p IHp]; intros [|y p'] E H; cbn in *; try lia; auto.
        injection E as -> E. destruct (IHp p' E ltac:(lia)) as [-> ->]. auto. }
      f_equal. auto.
Qed.

(** ** The header *)

Lemma table_inv t size b start count p vs q :
  (forall p v q, 0 <= p -> read t b p = Ok (v, q) -> q = p + size) -> 0 <= size ->
  bytes_ok b = true -> 0 <= p -> 0 <= start -> word b (p - 4) count ->
  read_table t b start count p = Ok (vs, q) ->
  q = p + 4 /\ table_at b start (p - 4) size (fun p v => 0 <= p /\ exists q, read t b p = Ok (v, q)) vs.
Proof.
  intros HS Hs Hb Hp Hst Wc H. unfold read_table in H. apply bind_inv in H as ((rel & sp) & W & H).
  apply read_word in W as [W ->]; auto. apply bind_inv in H as ((vs' & q') & R & H). injection H as -> <-.
  split; auto. exists count, rel. split; auto. split; [replace (p - 4 + 4) with p by lia; auto|].
  pose proof (word_range _ _ _ Hb W). pose proof (word_range _ _ _ Hb Wc).
  destruct (table_read (read t b) size HS Hs count (start + rel) vs q') as [L F]; auto; [lia|lia|].
  split; auto. intros k v Hk. split; [nia|]. eexists. apply F. exact Hk.
Qed.

Lemma table_ex t size b start count p (Q : Z -> Prop) :
  (forall p v q, 0 <= p -> read t b p = Ok (v, q) -> q = p + size) -> 0 <= size ->
  (forall p, 0 <= p -> Q p -> exists r, read t b p = Ok r) ->
  bytes_ok b = true -> 0 <= p -> 0 <= start -> word b (p - 4) count -> each_entry b start (p - 4) size Q ->
  exists vs, read_table t b start count p = Ok (vs, p + 4).
Proof.
  intros HS Hs HQ Hb Hp Hst Wc (count' & rel & Wc' & W & H). pose proof (word_fun _ _ _ _ Wc' Wc) as ->. clear Wc'.
  replace (p - 4 + 4) with p in W by lia. unfold read_table.
  rewrite (proj2 (read_word b p rel (p + 4) Hp) (conj W eq_refl)). cbn [bind].
  pose proof (word_range _ _ _ Hb W). pose proof (word_range _ _ _ Hb Wc).
  destruct (table_total (read t b) size HS Hs count (start + rel)) as (vs & q & E); [lia| |rewrite E; cbn; eauto].
  intros k Hk. apply HQ; [nia|]. now apply H.
Qed.

Lemma table_each {A} b start p size (P : Z -> A -> Prop) (Q : Z -> Prop) items :
  table_at b start p size P items -> (forall p x, P p x -> Q p) -> each_entry b start p size Q.
Proof.
  intros (count & rel & Wc & W & L & F) H. exists count, rel. split; auto. split; auto. intros k Hk.
  destruct (nth_error items (Z.to_nat k)) as [x|] eqn:E.
  - specialize (F _ _ E). rewrite Z2Nat.id in F by lia. eauto.
  - apply nth_error_None in E. unfold zlen in L. lia.
Qed.

Lemma table_map {A B} b start p size (P : Z -> A -> Prop) (P' : Z -> B -> Prop) (f : A -> res B) items xs :
  table_at b start p size P items -> Forall2 (fun v x => f v = Ok x) items xs ->
  (forall p v x, P p v -> f v = Ok x -> P' p x) -> table_at b start p size P' xs.
Proof.
  intros (count & rel & Wc & W & L & F) H2 H. exists count, rel. split; auto. split; auto. split.
  - rewrite <- L. unfold zlen. f_equal. clear - H2. induction H2; cbn; auto.
  - intros k x Hk. assert (exists v, nth_error items k = Some v /\ f v = Ok x) as (v & Hv & Hf).
    { clear - H2 Hk. revert k Hk. induction H2; intros [|k] Hk; cbn in *; try discriminate; eauto. injection Hk as <-. eauto. }
    eapply H; eauto.
Qed.

Definition header_at (b : list Z) (h : shader_header) : Prop :=
  let entry t p v := 0 <= p /\ exists q, read t b p = Ok (v, q) in
  word b 292 (sh_entry_offset h) /\ word b 392 (sh_strings h) /\
  table_at b (sh_entry_offset h) 332 108 (entry BufferEntry) (sh_buffers h) /\
  table_at b (sh_entry_offset h) 340 164 (entry UniformEntry) (sh_uniforms h) /\
  table_at b (sh_entry_offset h) 348 92 (entry AttributeEntry) (sh_inputs h) /\
  table_at b (sh_entry_offset h) 356 92 (entry AttributeEntry) (sh_outputs h).

Lemma buffer_stride b p v q : 0 <= p -> read BufferEntry b p = Ok (v, q) -> q = p + 108.
Proof. intros Hp H. now apply buffer_entry in H as (? & ? & ? & ? & ? & ? & ? & ? & ? & ? & ? & _ & -> & _). Qed.
Lemma uniform_stride b p v q : 0 <= p -> read UniformEntry b p = Ok (v, q) -> q = p + 164.
Proof. intros Hp H. now apply uniform_entry in H as (? & ? & ? & ? & ? & ? & ? & ? & ? & ? & ? & ? & ? & _ & -> & _). Qed.
Lemma attribute_stride b p v q : 0 <= p -> read AttributeEntry b p = Ok (v, q) -> q = p + 92.
Proof. intros Hp H. now apply attribute_entry in H as (? & ? & ? & ? & ? & ? & ? & _ & -> & _). Qed.

#[local] Strategy opaque [BufferEntry UniformEntry AttributeEntry].

Lemma header_inv b h : bytes_ok b = true -> read_header b 288 = Ok h -> header_at b h /\ 396 <= zlen b.
Proof.
  intros Hb H. unfold read_header in H.
  Ltac next H n W := apply bind_inv in H as ((n & ?q) & W & H); apply read_word in W as [W ->]; [|lia].
  next H n1 W1. next H eo We. next H n3 W3.
  pose proof (word_range _ _ _ Hb We) as Re.
  next H bc Wb. apply bind_inv in H as ((bs & ?q) & Tb & H).
  eapply (table_inv _ 108) in Tb as [-> Tb]; [|apply buffer_stride|lia|auto|lia|lia|match goal with |- word _ ?x _ => replace x with 332 by lia; exact Wb end].
  next H uc Wu. apply bind_inv in H as ((us & ?q) & Tu & H).
  eapply (table_inv _ 164) in Tu as [-> Tu]; [|apply uniform_stride|lia|auto|lia|lia|match goal with |- word _ ?x _ => replace x with 340 by lia; exact Wu end].
  next H ic Wi. apply bind_inv in H as ((is_ & ?q) & Ti & H).
  eapply (table_inv _ 92) in Ti as [-> Ti]; [|apply attribute_stride|lia|auto|lia|lia|match goal with |- word _ ?x _ => replace x with 348 by lia; exact Wi end].
  next H oc Wo. apply bind_inv in H as ((os & ?q) & To & H).
  eapply (table_inv _ 92) in To as [-> To]; [|apply attribute_stride|lia|auto|lia|lia|match goal with |- word _ ?x _ => replace x with 356 by lia; exact Wo end].
  next H n5 W5. next H n6 W6. next H n7 W7. next H n8 W8. next H n9 W9. next H n10 W10. next H n11 W11.
  next H st Ws. injection H as <-. unfold header_at. cbn [sh_entry_offset sh_strings sh_buffers sh_uniforms sh_inputs sh_outputs].
  split; [|apply word_bound in Ws; lia].
  repeat apply conj; auto.
Qed.

Lemma header_ex b start : bytes_ok b = true -> 396 <= zlen b -> word b 292 start ->
  each_entry b start 332 108 (fun p => p + 76 <= zlen b) ->
  each_entry b start 340 164 (typed_entry b 104) ->
  each_entry b start 348 92 (typed_entry b 60) ->
  each_entry b start 356 92 (typed_entry b 60) -> exists h, read_header b 288 = Ok h.
Proof.
  intros Hb HL W Tb Tu Ti To. unfold read_header.
  Ltac go b n W' := match goal with |- context [bind (read_int 4 b ?q) _] =>
      destruct (word_ex b q) as [n W']; [lia|lia|]; rewrite (proj2 (read_word b q n (q + 4) ltac:(lia)) (conj W' eq_refl)); cbn [bind] end.
  pose proof (word_range _ _ _ Hb W) as R.
  go b n1 W1. go b n2 W2. pose proof (word_fun _ _ _ _ W2 W) as ->. go b n3 W3.
  go b bc Wb. match goal with |- context [read_table _ b start bc ?q] =>
    destruct (table_ex BufferEntry 108 b start bc q (fun p => p + 76 <= zlen b)) as (bs & ->); auto; [apply buffer_stride|lia|apply buffer_inside|lia|lia|] end. cbn [bind].
  go b uc Wu. match goal with |- context [read_table _ b start uc ?q] =>
    destruct (table_ex UniformEntry 164 b start uc q (typed_entry b 104)) as (us & ->); auto; [apply uniform_stride|lia|apply uniform_inside|lia|lia|] end. cbn [bind].
  go b ic Wi. match goal with |- context [read_table _ b start ic ?q] =>
    destruct (table_ex AttributeEntry 92 b start ic q (typed_entry b 60)) as (is_ & ->); auto; [apply attribute_stride|lia|apply attribute_inside|lia|lia|] end. cbn [bind].
  go b oc Wo. match goal with |- context [read_table _ b start oc ?q] =>
    destruct (table_ex AttributeEntry 92 b start oc q (typed_entry b 60)) as (os & ->); auto; [apply attribute_stride|lia|apply attribute_inside|lia|lia|] end. cbn [bind].
  go b n5 W5. go b n6 W6. go b n7 W7. go b n8 W8. go b n9 W9. go b n10 W10. go b n11 W11. go b n12 W12. eauto.
Qed.

Lemma shader_inv b h code : bytes_ok b = true -> read_shader b = Ok (h, code) -> header_at b h /\ sound_tables b.
Proof.
  intros Hb H. unfold read_shader in H. apply bind_inv in H as (h' & E & H). apply header_inv in E as [E L]; auto.
  apply bind_inv in H as ((n & q) & W & H). apply read_word in W as [W ->]; [|lia].
  destruct (get_bytes (Z.to_nat n) b 2896) as [c|] eqn:G; [|discriminate]. injection H as -> ->. split; auto.
  destruct E as (We & Ws & Tb & Tu & Ti & To). split.
  - exists (sh_entry_offset h). repeat apply conj; auto.
    + eapply table_each; [exact Tb|]. intros p v [Hp [q R]].
      apply buffer_entry in R as (? & ? & ? & ? & ? & ? & ? & ? & ? & ? & ? & _ & _ & _ & _ & _ & _ & _ & _ & _ & _ & R); auto.
      apply word_bound in R. lia.
    + eapply table_each; [exact Tu|]. intros p v [Hp [q R]].
      apply uniform_entry in R as (? & ? & t & ? & ? & ? & ? & ? & ? & ? & ? & ? & ? & _ & _ & _ & _ & R & K & _ & _ & _ & B); auto.
      split; eauto.
    + eapply table_each; [exact Ti|]. intros p v [Hp [q R]].
      apply attribute_entry in R as (? & ? & t & ? & ? & ? & ? & _ & _ & _ & _ & R & K & _ & B); auto. split; eauto.
    + eapply table_each; [exact To|]. intros p v [Hp [q R]].
      apply attribute_entry in R as (? & ? & t & ? & ? & ? & ? & _ & _ & _ & _ & R & K & _ & B); auto. split; eauto.
  - exists n. split; auto. pose proof (word_range _ _ _ Hb W). destruct (Z.eq_dec n 0); auto. right.
    apply get_bytes_bound in G; lia.
Qed.

Lemma shader_ex b : bytes_ok b = true -> sound_tables b -> exists r, read_shader b = Ok r.
Proof.
  intros Hb ((start & L & W & Tb & Tu & Ti & To) & n & Wn & Hn). unfold read_shader.
  destruct (header_ex b start) as [h ->]; auto. cbn [bind].
  rewrite (proj2 (read_word b 2504 n (2504 + 4) ltac:(lia)) (conj Wn eq_refl)). cbn [bind].
  pose proof (word_range _ _ _ Hb Wn).
  destruct Hn as [->|Hn]; [cbn; eauto|].
  destruct (get_bytes_some (Z.to_nat n) b 2896) as [c ->]; [lia|lia|]. eauto.
Qed.

(** ** Names and metadata *)

Lemma un_list_forall2 {T} (f : val -> res T) vs xs : un_list f vs = Ok xs -> Forall2 (fun v x => f v = Ok x) vs xs.
Proof.
  revert xs; induction vs as [|v vs IH]; intros xs H; cbn in H; [injection H as <-; constructor|].
  apply bind_inv in H as (x & E & H). apply bind_inv in H as (r & E2 & H). injection H as <-. constructor; auto.
Qed.

Lemma un_list_total {T} (f : val -> res T) vs : (forall k v, nth_error vs k = Some v -> exists x, f v = Ok x) -> exists xs, un_list f vs = Ok xs.
Proof.
  induction vs as [|v vs IH]; intros H; cbn; [eauto|].
  destruct (H 0%nat v eq_refl) as [x ->]. destruct IH as [xs ->]; [intros k; apply (H (S k))|]. cbn. eauto.
Qed.

Lemma un_list_no_err {T} (f : val -> res T) vs e : (forall k v, nth_error vs k = Some v -> forall e, f v <> Err e) -> un_list f vs <> Err e.
Proof.
  induction vs as [|v vs IH]; intros H; cbn; [discriminate|]. specialize (IH (fun k => H (S k))).
  pose proof (H 0%nat v eq_refl) as H0. destruct (f v) as [x|e'|]; cbn; [|now destruct (H0 e')|discriminate].
  destruct (un_list f vs); cbn; try discriminate. exact IH.
Qed.

Lemma name_inv b h o l p name : bytes_ok b = true -> 0 <= sh_entry_offset h -> 0 <= sh_strings h -> word b p o -> word b (p + 4) l ->
  unwrap (read_entry_string b h o l) = Ok name -> named b (sh_entry_offset h + sh_strings h) p name.
Proof.
  intros Hb H1 H2 Wo Wl H. unfold read_entry_string in H.
  destruct (get_bytes _ b _) as [raw|] eqn:G; [|discriminate]. cbn in H. injection H as <-.
  pose proof (word_range _ _ _ Hb Wo). pose proof (get_bytes_length _ _ _ _ G) as L.
  exists o, l, raw. split; [auto|]. split; [auto|]. split; [unfold zlen; lia|]. split.
  - apply raw_get; [lia|]. rewrite L. exact G.
  - apply lossy_decoded. eapply get_bytes_ok; eauto.
Qed.

Lemma named_inside b s p name : named b s p name -> name_inside b s p.
Proof.
  intros (o & l & raw & Wo & Wl & L & [Hp R] & _). exists o, l. split; auto. split; auto.
  destruct (Z_le_gt_dec l 1); auto. right. apply (f_equal (@length Z)) in R. rewrite firstn_length, skipn_length in R.
  unfold zlen in *. lia.
Qed.

Lemma name_ex b h o l p : bytes_ok b = true -> 0 <= sh_entry_offset h -> 0 <= sh_strings h -> word b p o -> word b (p + 4) l ->
  name_inside b (sh_entry_offset h + sh_strings h) p -> exists name, unwrap (read_entry_string b h o l) = Ok name.
Proof.
  intros Hb H1 H2 Wo Wl (o' & l' & Wo' & Wl' & H). pose proof (word_fun _ _ _ _ Wo' Wo) as ->.
  pose proof (word_fun _ _ _ _ Wl' Wl) as ->. pose proof (word_range _ _ _ Hb Wo). unfold read_entry_string.
  destruct (Z_le_gt_dec l 1).
  - replace (Z.to_nat (Z.max 0 (l - 1))) with O by lia. cbn. eauto.
  - destruct (get_bytes_some (Z.to_nat (Z.max 0 (l - 1))) b (sh_entry_offset h + sh_strings h + o)) as [raw ->]; [lia|lia|].
    cbn. eauto.
Qed.

Lemma name_no_err b h o l e : unwrap (read_entry_string b h o l) <> Err e.
Proof. unfold unwrap. destruct (read_entry_string b h o l); discriminate. Qed.

Section Entries.
  Variables (b : list Z) (h : shader_header).
  Hypothesis Hb : bytes_ok b = true.
  Hypothesis H1 : 0 <= sh_entry_offset h.
  Hypothesis H2 : 0 <= sh_strings h.
  Let strings := sh_entry_offset h + sh_strings h.
  Let entry t p v := 0 <= p /\ exists q, read t b p = Ok (v, q).

  Lemma buffer_new_inv p v x : entry BufferEntry p v -> buffer_new b h v = Ok x -> buffer_at b strings p x.
  Proof.
    intros [Hp [q R]] H. apply buffer_entry in R as (o & l & s & c & u4 & u5 & u6 & u7 & u8 & u9 & u10 & -> & _ & W0 & W1 & W2 & W3 & W4 & W5 & W6 & W7 & _); auto.
    cbn [buffer_new] in H. apply bind_inv in H as (name & E & H). injection H as <-.
    unfold buffer_at. cbn. split; [eapply name_inv; eauto|]. auto 10 using to_i32_word.
  Qed.
  Lemma uniform_new_inv p v x : entry UniformEntry p v -> uniform_new b h v = Ok x -> uniform_at b strings p x.
  Proof.
    intros [Hp [q R]] H. apply uniform_entry in R as (o & l & t & i & f & ? & ? & ? & ? & ? & ? & u11 & r & -> & _ & W0 & W1 & W2 & K & W3 & W4 & W5 & _); auto.
    cbn [uniform_new] in H. apply bind_inv in H as (name & E & H). injection H as <-.
    unfold uniform_at. cbn [un_name un_type un_buffer un_offset un_unk11]. split; [eapply name_inv; eauto|]. auto 10 using to_i32_word.
  Qed.
  Lemma attribute_new_inv p v x : entry AttributeEntry p v -> attribute_new b h v = Ok x -> attribute_at b strings p x.
  Proof.
    intros [Hp [q R]] H. apply attribute_entry in R as (o & l & t & ? & loc & ? & ? & -> & _ & W0 & W1 & W2 & K & W3 & _); auto.
    cbn [attribute_new] in H. apply bind_inv in H as (name & E & H). injection H as <-.
    unfold attribute_at. cbn [at_name at_type at_location]. split; [eapply name_inv; eauto|]. auto 10 using to_i32_word.
  Qed.

  Lemma buffer_new_ex p v : entry BufferEntry p v -> name_inside b strings p -> exists x, buffer_new b h v = Ok x.
  Proof.
    intros [Hp [q R]] N. apply buffer_entry in R as (o & l & s & c & u4 & u5 & u6 & u7 & u8 & u9 & u10 & -> & _ & W0 & W1 & _); auto.
    cbn [buffer_new]. destruct (name_ex b h o l p) as [name ->]; auto. cbn. eauto.
  Qed.
  Lemma uniform_new_ex p v : entry UniformEntry p v -> name_inside b strings p -> exists x, uniform_new b h v = Ok x.
  Proof.
    intros [Hp [q R]] N. apply uniform_entry in R as (o & l & t & i & f & ? & ? & ? & ? & ? & ? & u11 & r & -> & _ & W0 & W1 & _); auto.
    cbn [uniform_new]. destruct (name_ex b h o l p) as [name ->]; auto. cbn. eauto.
  Qed.
  Lemma attribute_new_ex p v : entry AttributeEntry p v -> name_inside b strings p -> exists x, attribute_new b h v = Ok x.
  Proof.
    intros [Hp [q R]] N. apply attribute_entry in R as (o & l & t & ? & loc & ? & ? & -> & _ & W0 & W1 & _); auto.
    cbn [attribute_new]. destruct (name_ex b h o l p) as [name ->]; auto. cbn. eauto.
  Qed.

  Lemma buffer_new_no_err p v : entry BufferEntry p v -> forall e, buffer_new b h v <> Err e.
  Proof.
    intros [Hp [q R]] e. apply buffer_entry in R as (o & l & s & c & u4 & u5 & u6 & u7 & u8 & u9 & u10 & -> & _); auto.
    cbn [buffer_new]. pose proof (name_no_err b h o l). destruct (unwrap _); cbn; try discriminate. intros [= ->]. eapply H; eauto.
  Qed.
  Lemma uniform_new_no_err p v : entry UniformEntry p v -> forall e, uniform_new b h v <> Err e.
  Proof.
    intros [Hp [q R]] e. apply uniform_entry in R as (o & l & t & i & f & ? & ? & ? & ? & ? & ? & u11 & r & -> & _); auto.
    cbn [uniform_new]. pose proof (name_no_err b h o l). destruct (unwrap _); cbn; try discriminate. intros [= ->]. eapply H; eauto.
  Qed.
  Lemma attribute_new_no_err p v : entry AttributeEntry p v -> forall e, attribute_new b h v <> Err e.
  Proof.
    intros [Hp [q R]] e. apply attribute_entry in R as (o & l & t & ? & loc & ? & ? & -> & _); auto.
    cbn [attribute_new]. pose proof (name_no_err b h o l). destruct (unwrap _); cbn; try discriminate. intros [= ->]. eapply H; eauto.
  Qed.
End Entries.

Lemma table_un_list {T} b start p size (P : Z -> val -> Prop) (Q : Z -> Prop) (f : val -> res T) items :
  table_at b start p size P items -> each_entry b start p size Q ->
  (forall p v, P p v -> Q p -> exists x, f v = Ok x) -> exists xs, un_list f items = Ok xs.
Proof.
  intros (count & rel & Wc & W & L & F) (count' & rel' & Wc' & W' & G) H.
  pose proof (word_fun _ _ _ _ Wc Wc') as <-. pose proof (word_fun _ _ _ _ W W') as <-.
  apply un_list_total. intros k v Hk. apply (H (start + rel + size * Z.of_nat k)); [apply F, Hk|]. apply G.
  assert (k < length items)%nat by (apply nth_error_Some; congruence). unfold zlen in L. lia.
Qed.

Lemma meta_new_inv b h m : bytes_ok b = true -> header_at b h -> meta_new b h = Ok m -> meta_at b m.
Proof.
  intros Hb (We & Ws & Tb & Tu & Ti & To) H. pose proof (word_range _ _ _ Hb We). pose proof (word_range _ _ _ Hb Ws).
  unfold meta_new in H. apply bind_inv in H as (bs & Eb & H). apply bind_inv in H as (us & Eu & H).
  apply bind_inv in H as (is_ & Ei & H). apply bind_inv in H as (os & Eo & H). injection H as <-.
  apply un_list_forall2 in Eb, Eu, Ei, Eo.
  exists (sh_entry_offset h), (sh_strings h). cbn [mt_buffers mt_uniforms mt_inputs mt_outputs]. repeat apply conj; auto.
  - eapply table_map; [exact Tb|exact Eb|]. intros p v x. apply (buffer_new_inv b h); auto; lia.
  - eapply table_map; [exact Tu|exact Eu|]. intros p v x. apply (uniform_new_inv b h); auto; lia.
  - eapply table_map; [exact Ti|exact Ei|]. intros p v x. apply (attribute_new_inv b h); auto; lia.
  - eapply table_map; [exact To|exact Eo|]. intros p v x. apply (attribute_new_inv b h); auto; lia.
Qed.

Lemma meta_new_ex b h : bytes_ok b = true -> header_at b h -> sound_names b -> exists m, meta_new b h = Ok m.
Proof.
  intros Hb (We & Ws & Tb & Tu & Ti & To) (start & rel & We' & Ws' & Nb & Nu & Ni & No).
  pose proof (word_fun _ _ _ _ We' We) as ->. pose proof (word_fun _ _ _ _ Ws' Ws) as ->.
  pose proof (word_range _ _ _ Hb We). pose proof (word_range _ _ _ Hb Ws). unfold meta_new.
  destruct (table_un_list _ _ _ _ _ _ (buffer_new b h) _ Tb Nb) as [bs ->]; [intros p v; apply (buffer_new_ex b h); auto; lia|].
  destruct (table_un_list _ _ _ _ _ _ (uniform_new b h) _ Tu Nu) as [us ->]; [intros p v; apply (uniform_new_ex b h); auto; lia|].
  destruct (table_un_list _ _ _ _ _ _ (attribute_new b h) _ Ti Ni) as [is_ ->]; [intros p v; apply (attribute_new_ex b h); auto; lia|].
  destruct (table_un_list _ _ _ _ _ _ (attribute_new b h) _ To No) as [os ->]; [intros p v; apply (attribute_new_ex b h); auto; lia|].
  cbn. eauto.
Qed.

Lemma meta_new_no_err b h e : bytes_ok b = true -> header_at b h -> meta_new b h <> Err e.
Proof.
  intros Hb (We & Ws & (? & ? & _ & _ & _ & Tb) & (? & ? & _ & _ & _ & Tu) & (? & ? & _ & _ & _ & Ti) & (? & ? & _ & _ & _ & To)).
  unfold meta_new.
  assert (forall e, un_list (buffer_new b h) (sh_buffers h) <> Err e) as Nb
    by (intros; apply un_list_no_err; intros; eapply buffer_new_no_err; apply Tb; eauto).
  assert (forall e, un_list (uniform_new b h) (sh_uniforms h) <> Err e) as Nu
    by (intros; apply un_list_no_err; intros; eapply uniform_new_no_err; apply Tu; eauto).
  assert (forall e, un_list (attribute_new b h) (sh_inputs h) <> Err e) as Ni
    by (intros; apply un_list_no_err; intros; eapply attribute_new_no_err; apply Ti; eauto).
  assert (forall e, un_list (attribute_new b h) (sh_outputs h) <> Err e) as No
    by (intros; apply un_list_no_err; intros; eapply attribute_new_no_err; apply To; eauto).
  destruct (un_list (buffer_new b h) _); cbn; [|intros _; eapply Nb; reflexivity|discriminate].
  destruct (un_list (uniform_new b h) _); cbn; [|intros _; eapply Nu; reflexivity|discriminate].
  destruct (un_list (attribute_new b h) (sh_inputs h)); cbn; [|intros _; eapply Ni; reflexivity|discriminate].
  destruct (un_list (attribute_new b h) (sh_outputs h)); cbn; [discriminate|intros _; eapply No; reflexivity|discriminate].
Qed.

Lemma meta_at_names b m : meta_at b m -> sound_names b.
Proof.
  intros (start & rel & W & W' & Tb & Tu & Ti & To). exists start, rel. repeat apply conj; auto.
  - eapply table_each; [exact Tb|]. intros p x [N _]. eapply named_inside; eauto.
  - eapply table_each; [exact Tu|]. intros p x [N _]. eapply named_inside; eauto.
  - eapply table_each; [exact Ti|]. intros p x [N _]. eapply named_inside; eauto.
  - eapply table_each; [exact To|]. intros p x [N _]. eapply named_inside; eauto.
Qed.

Lemma shader_np b : read_shader b <> Panic.
Proof.
  unfold read_shader. apply bind_np; [|intros h; apply bind_np; [apply read_int_np|intros [n q]; destruct (get_bytes _ _ _); discriminate]].
  assert (T : forall t e c p, read_table t b e c p <> Panic).
  { intros. unfold read_table. apply bind_np; [apply read_int_np|]. intros [? ?].
    apply bind_np; [apply read_elements_np; intros; apply read_no_panic|]. intros [? ?]. discriminate. }
  unfold read_header.
  repeat (apply bind_np; [first [apply read_int_np|apply T]|intros [? ?]]). discriminate.
Qed.

Theorem meta_described b m : bytes_ok b = true -> meta_read b = Ok m -> meta_at b m.
Proof.
  intros Hb H. unfold meta_read in H. apply bind_inv in H as ((h & code) & E & H).
  apply shader_inv in E as [E _]; auto. eapply meta_new_inv; eauto.
Qed.

Theorem meta_outcome b : bytes_ok b = true ->
  ((exists m, meta_read b = Ok m) <-> sound_tables b /\ sound_names b) /\
  (meta_read b = Panic <-> sound_tables b /\ ~ sound_names b) /\
  ((exists e, meta_read b = Err e) <-> ~ sound_tables b).
Proof.
  intros Hb.
  assert (A : sound_tables b -> sound_names b -> exists m, meta_read b = Ok m).
  { intros T N. destruct (shader_ex b Hb T) as [[h code] E]. unfold meta_read. rewrite E. cbn [bind].
    apply shader_inv in E as [E _]; auto. eapply meta_new_ex; eauto. }
  assert (B : sound_tables b -> forall e, meta_read b <> Err e).
  { intros T e. destruct (shader_ex b Hb T) as [[h code] E]. unfold meta_read. rewrite E. cbn [bind].
    apply shader_inv in E as [E _]; auto. now apply meta_new_no_err. }
  assert (C : (exists m, meta_read b = Ok m) \/ meta_read b = Panic -> sound_tables b).
  { intros H. unfold meta_read in H. pose proof (shader_np b). destruct (read_shader b) as [[h code]|e|] eqn:E; cbn in H.
    - eapply shader_inv; eauto.
    - destruct H as [[m H]|H]; discriminate.
    - congruence. }
  assert (D : forall m, meta_read b = Ok m -> sound_names b).
  { intros m H. eapply meta_at_names, meta_described; eauto. }
  split; [|split]; split.
  - intros [m H]. split; eauto.
  - intros [T N]. auto.
  - intros H. split; auto. intros N. destruct (A (C (or_intror H)) N) as [m E]. congruence.
  - intros [T N]. destruct (meta_read b) as [m|e|] eqn:E; auto.
    + exfalso. apply N, (D m eq_refl).
    + destruct (B T e eq_refl).
  - intros [e H] T. destruct (B T e H).
  - intros N. destruct (meta_read b) as [m|e|] eqn:E; [destruct N; apply C; eauto|eauto|destruct N; apply C; auto].
Qed.

(** ** UTF-8 as the strings of the file formats understand it *)

Lemma valid_step a r : 0 <= a -> utf8_valid (a :: r) = snd (utf8_step a r) && utf8_valid (skipn (fst (utf8_step a r)) r).
Proof.
  intros Ha. cbn [utf8_valid]. unfold utf8_step.
  destruct (a <=? 127) eqn:E1; [cbn [fst snd skipn]; replace (0 <=? a) with true by lia; reflexivity|].
  destruct ((194 <=? a) && (a <=? 223)) eqn:E2.
  { destruct r as [|b0 r]; cbn [nth]; [reflexivity|]. destruct (cont b0); reflexivity. }
  destruct ((224 <=? a) && (a <=? 239)) eqn:E3.
  { destruct r as [|b0 r]; cbn [nth].
    - destruct (a =? 224); [reflexivity|]. destruct (a =? 237); reflexivity.
    - destruct (if a =? 224 then _ else _) eqn:S; [|destruct r; reflexivity].
      destruct r as [|b1 r]; cbn [nth]; [reflexivity|]. destruct (cont b1); reflexivity. }
  destruct ((240 <=? a) && (a <=? 244)) eqn:E4; [|reflexivity].
  destruct r as [|b0 r]; cbn [nth].
  - destruct (a =? 240); [reflexivity|]. destruct (a =? 244); reflexivity.
  - destruct (if a =? 240 then _ else _) eqn:S; [|destruct r as [|? [|? ?]]; reflexivity].
    destruct r as [|b1 r]; cbn [nth]; [reflexivity|]. destruct (cont b1) eqn:C1; [|destruct r; reflexivity].
    destruct r as [|b2 r]; cbn [nth]; [reflexivity|]. destruct (cont b2); reflexivity.
Qed.

Lemma char_step c t : utf8_char c -> exists a r, c = a :: r /\ 0 <= a /\ utf8_step a (r ++ t) = (length r, true).
Proof.
  intros H. apply char_forms in H as [(a & -> & H)|[(a & b0 & -> & H & H0)|[(a & b0 & b1 & -> & H & H0 & H1)|(a & b0 & b1 & b2 & -> & H & H0 & H1 & H2)]]];
    do 2 eexists; (split; [reflexivity|]); (split; [lia|]); rewrite step_second; cbn [app nth length].
  - replace (a <=? 127) with true by lia. reflexivity.
  - replace (a <=? 127) with false by lia. replace ((194 <=? a) && (a <=? 223)) with true by lia. now rewrite H0.
  - replace (a <=? 127) with false by lia. replace ((194 <=? a) && (a <=? 223)) with false by lia.
    replace ((224 <=? a) && (a <=? 239)) with true by lia. now rewrite H0, H1.
  - replace (a <=? 127) with false by lia. replace ((194 <=? a) && (a <=? 223)) with false by lia.
    replace ((224 <=? a) && (a <=? 239)) with false by lia. replace ((240 <=? a) && (a <=? 244)) with true by lia. now rewrite H0, H1, H2.
Qed.

Theorem utf8_valid_chars bs : bytes_ok bs = true -> (utf8_valid bs = true <-> exists cs, Forall utf8_char cs /\ bs = concat cs).
Proof.
  intros Hb. split.
  - remember (length bs) as n eqn:En. revert bs En Hb. induction n as [n IH] using lt_wf_ind. intros bs En Hb V.
    destruct bs as [|a r]; [exists []; auto|]. cbn in En, Hb. apply andb_true_iff in Hb as [Ha Hr].
    assert (0 <= a) by (unfold is_byte in Ha; lia). rewrite valid_step in V by auto. apply andb_true_iff in V as [S V].
    pose proof (step_good a r H S) as C. set (k := fst (utf8_step a r)) in *.
    destruct (IH (length (skipn k r)) ltac:(rewrite skipn_length; lia) (skipn k r) eq_refl (bytes_ok_skipn _ _ Hr) V) as (cs & F & E).
    exists ((a :: firstn k r) :: cs). split; [constructor; auto|]. cbn [concat]. rewrite <- E. cbn [app]. now rewrite firstn_skipn.
  - intros (cs & F & ->). clear Hb. induction F as [|c cs C F IH]; [reflexivity|]. cbn [concat].
    destruct (char_step c (concat cs) C) as (a & r & -> & Ha & S). cbn [app]. rewrite valid_step by auto. rewrite S. cbn [fst snd].
    rewrite skipn_app, skipn_all, Nat.sub_diag. exact IH.
Qed.

(** UTF-8 is kept as it is, and the result is always UTF-8. *)
Lemma decoded_chars raw s : decoded raw s -> exists cs, Forall utf8_char cs /\ s = concat cs.
Proof.
  induction 1 as [|c r s C D (cs & F & ->)|p r s N L M D (cs & F & ->)].
  - exists []. auto.
  - exists (c :: cs). auto.
  - exists (utf8_encode 0xFFFD :: cs). split; [|reflexivity]. constructor; auto. exists 0xFFFD. split; [lia|]. split; [lia|reflexivity].
Qed.
Lemma chars_decoded cs : Forall utf8_char cs -> decoded (concat cs) (concat cs).
Proof. induction 1; [constructor|]. cbn. constructor; auto. Qed.

Theorem decoded_total raw : bytes_ok raw = true -> exists s, decoded raw s /\ (forall s', decoded raw s' -> s' = s) /\
  (exists cs, Forall utf8_char cs /\ s = concat cs) /\ (forall cs, Forall utf8_char cs -> raw = concat cs -> s = raw).
Proof.
  intros Hb. pose proof (lossy_decoded raw Hb) as D. exists (utf8_lossy raw). split; auto. split; [|split].
  - intros s' D'. symmetry. eapply decoded_unique; eauto.
  - eapply decoded_chars; eauto.
  - intros cs F ->. eapply decoded_unique; eauto. now apply chars_decoded.
Qed.
