(** Facts about the cost of reading. *)
From Coq Require Import Lia ZifyBool ZifyNat ZifyN.
From Verif Require Import Bytes BytesFacts Ssbh Described SsbhFacts Formats File FileFacts MeshEx Work WorkSpec.
Ltac Zify.zify_post_hook ::= ZifyBool.elim_bool_cstr; Z.to_euclidean_division_equations.

(** ** The monad *)
Lemma cadd_0_l c : cadd (MkCost 0 0 0) c = c.
Proof. destruct c; reflexivity. Qed.
Lemma cadd_0_r c : cadd c (MkCost 0 0 0) = c.
Proof. destruct c; unfold cadd; cbn. f_equal; lia. Qed.
Lemma cadd_assoc a c d : cadd (cadd a c) d = cadd a (cadd c d).
Proof. unfold cadd; cbn. f_equal; lia. Qed.

Lemma cbind_ret {A B} (a : A) (f : A -> cres B) : cbind (cret (Ok a)) f = f a.
Proof. unfold cbind, cret; cbn [fst snd]. rewrite cadd_0_l. now destruct (f a). Qed.

Lemma cbind_assoc {A B C} (m : cres A) (f : A -> cres B) (g : B -> cres C) :
  cbind (cbind m f) g = cbind m (fun a => cbind (f a) g).
Proof.
  unfold cbind. destruct (fst m) eqn:E; cbn [fst snd]; auto.
  destruct (fst (f a)); cbn [fst snd]; auto. now rewrite cadd_assoc.
Qed.

Lemma cbind_ext {A B} (m : cres A) (f g : A -> cres B) : (forall a, f a = g a) -> cbind m f = cbind m g.
Proof. intros H. unfold cbind. destruct (fst m); auto. now rewrite H. Qed.

Lemma fst_cbind {A B} (m : cres A) (f : A -> cres B) : fst (cbind m f) = bind (fst m) (fun a => fst (f a)).
Proof. unfold cbind. destruct (fst m); reflexivity. Qed.

Fixpoint citer_nat {S} (n : nat) (f : S -> cres S) (s : S) : cres S :=
  match n with
  | O => cret (Ok s)
  | Datatypes.S n' => cbind (f s) (citer_nat n' f)
  end.

Lemma citer_nat_add {S} n m (f : S -> cres S) s :
  citer_nat (n + m) f s = cbind (citer_nat n f s) (citer_nat m f).
Proof.
  revert s; induction n as [|n IH]; intros s; cbn [citer_nat plus].
  - now rewrite cbind_ret.
  - rewrite cbind_assoc. apply cbind_ext. auto.
Qed.

Lemma citer_pos_nat {S} p (f : S -> cres S) s : citer_pos p f s = citer_nat (Pos.to_nat p) f s.
Proof.
  revert s; induction p as [p IH|p IH|]; intros s.
  - replace (Pos.to_nat p~1) with (Datatypes.S (Pos.to_nat p + Pos.to_nat p))%nat by lia.
    cbn [citer_pos citer_nat]. apply cbind_ext. intros a. rewrite citer_nat_add, IH.
    apply cbind_ext. auto.
  - replace (Pos.to_nat p~0) with (Pos.to_nat p + Pos.to_nat p)%nat by lia.
    cbn [citer_pos]. rewrite citer_nat_add, IH. apply cbind_ext. auto.
  - change (Pos.to_nat 1) with 1%nat. cbn [citer_pos citer_nat].
    unfold cbind. destruct (f s) as [[a| |] c]; cbn [fst snd cret]; auto. now rewrite cadd_0_r.
Qed.

Lemma citer_z_nat {S} n (f : S -> cres S) s : citer_z n f s = citer_nat (Z.to_nat n) f s.
Proof. destruct n; cbn; auto. apply citer_pos_nat. Qed.

Fixpoint cread_n (n : nat) (rd : Z -> cres (val * Z)) (p : Z) : cres (list val * Z) :=
  match n with
  | O => cret (Ok ([], p))
  | S n' =>
      let+ (v, p1) := rd p in
      let+ _ := steps 1 (Ok tt) in
      let+ (vs, p2) := cread_n n' rd p1 in
      cret (Ok (v :: vs, p2))
  end.

Lemma cread_elements_n rd count p : cread_elements rd count p = cread_n (Z.to_nat count) rd p.
Proof.
  unfold cread_elements. rewrite citer_z_nat.
  assert (forall n acc p,
    (let+ (acc', p') := citer_nat n (cread_push rd) (acc, p) in cret (Ok (rev acc', p')))
    = (let+ (vs, p') := cread_n n rd p in cret (Ok (rev acc ++ vs, p')))) as H.
  { induction n as [|n IH]; intros acc q; cbn [citer_nat cread_n].
    - now rewrite !cbind_ret, app_nil_r.
    - cbn [cread_push]. rewrite !cbind_assoc. apply cbind_ext. intros [v q1].
      rewrite !cbind_assoc. unfold steps at 1 2, cbind at 1 3. cbn [fst snd].
      rewrite IH. f_equal.
      + rewrite ?fst_cbind. destruct (fst (cread_n n rd q1)) as [[vs q2]| |]; cbn; auto.
        now rewrite <- app_assoc.
      + f_equal. unfold cbind. destruct (fst (cread_n n rd q1)) as [[vs q2]| |]; cbn; auto. }
  rewrite H. cbn [rev app]. unfold cbind. destruct (cread_n (Z.to_nat count) rd p) as [[[vs q]| |] c]; cbn; auto.
  now rewrite cadd_0_r.
Qed.

(** ** Counting does not change the result *)
Ltac cstep := repeat (rewrite fst_cbind; cbn [steps cret reserve_slots reserve_bytes fst bind]).
Lemma fst_cread_n n rd rd' p : (forall q, fst (rd' q) = rd q) -> fst (cread_n n rd' p) = read_n n rd p.
Proof.
  intros H. revert p. induction n as [|n IH]; intros p; cbn [cread_n read_n]; auto.
  rewrite ?fst_cbind, H. destruct (rd p) as [[v p1]| |]; cbn [bind]; auto.
  cstep. rewrite ?fst_cbind, IH.
  destruct (read_n n rd p1) as [[vs p2]| |]; reflexivity.
Qed.

Lemma fst_cread_elements rd rd' count p :
  (forall q, fst (rd' q) = rd q) -> fst (cread_elements rd' count p) = read_elements rd count p.
Proof. intros H. rewrite cread_elements_n, read_elements_n. now apply fst_cread_n. Qed.

Fixpoint cread_fields (fs : list field) (b : list Z) (p : Z) : cres (list val * Z) :=
  match fs with
  | [] => cret (Ok ([], p))
  | (t', (_, rp)) :: fr =>
      let+ (v, p1) := cread t' b p in
      let+ (vs, p2) := cread_fields fr b (p1 + rp) in
      cret (Ok (v :: vs, p2))
  end.
Lemma cread_struct fs spad aa al b p :
  cread (TStruct fs spad aa al) b p =
  let+ _ := steps 1 (Ok tt) in
  let+ (vs, p') := cread_fields fs b p in cret (Ok (VStruct vs, p')).
Proof.
  cbn [cread]. apply cbind_ext. intros _.
  enough (forall p, (fix go (fs : list (ty * (Z * Z))) (p : Z) : cres (list val * Z) :=
           match fs with
           | [] => cret (Ok ([], p))
           | (t', (_, rp)) :: fr =>
               let+ (v, p1) := cread t' b p in
               let+ (vs, p2) := go fr (p1 + rp) in
               cret (Ok (v :: vs, p2))
           end) fs p = cread_fields fs b p) as E by now rewrite E.
  clear p. induction fs as [|[t' [wp rp]] fr IH]; intros p; cbn; auto.
  apply cbind_ext. intros [v p1]. now rewrite IH.
Qed.

Lemma cread_case vs tag b p :
  (fix go (vs : list (Z * ty)) : cres (val * Z) :=
     match vs with
     | [] => cret (Err ENoVariant)
     | (tg, t') :: r => if tag =? tg then cread t' b p else go r
     end) vs
  = match find_case tag vs with Some t' => cread t' b p | None => cret (Err ENoVariant) end.
Proof. induction vs as [|[tg t'] r IH]; cbn; auto. destruct (tag =? tg); auto. Qed.

Lemma cread_enum vs b p :
  cread (TEnum vs) b p =
  let+ (relative_offset, p1) := steps 1 (read_int 8 b p) in
  let+ (data_type, saved_pos) := steps 1 (read_int 8 b p1) in
  if relative_offset =? 0 then cret (Ok (VPtr None, saved_pos))
  else
    let+ seek_pos := cret (absolute_offset_checked p relative_offset) in
    let+ (v, _) := match find_case data_type vs with
                   | Some t' => cread t' b seek_pos | None => cret (Err ENoVariant) end in
    cret (Ok (VPtr (Some (VCase data_type v)), saved_pos)).
Proof.
  cbn [cread]. apply cbind_ext. intros [ro p1]. apply cbind_ext. intros [dt sp].
  destruct (ro =? 0); auto. apply cbind_ext. intros sk. now rewrite cread_case.
Qed.

Lemma find_case_forall {P : ty -> Prop} tag vs t' :
  Forall (fun c => P (snd c)) vs -> find_case tag vs = Some t' -> P t'.
Proof.
  intros H F. apply find_case_in in F. rewrite Forall_forall in H. now apply (H (tag, t')).
Qed.

Theorem cread_read t : forall b p, fst (cread t b p) = read t b p.
Proof.
  induction t as [w|w ra tags|w| |fs spad aa al HF|t IHt|w t IHt|t IHt| |n|vs HF|n t IHt|n t IHt]
    using ty_ind'; intros b p; try reflexivity.
  - rewrite cread_struct, read_struct, !fst_cbind. cbn [steps fst bind]. rewrite ?fst_cbind.
    enough (fst (cread_fields fs b p) = read_fields fs b p) as ->.
    { destruct (read_fields fs b p) as [[]| |]; reflexivity. }
    revert p. induction HF as [|[t' [wp rp]] fr Ht _ IH]; intros p; auto.
    cbn [cread_fields read_fields fst] in *. rewrite ?fst_cbind, Ht.
    destruct (read t' b p) as [[v p1]| |]; cbn [bind]; auto. rewrite ?fst_cbind, IH.
    destruct (read_fields fr b (p1 + rp)) as [[]| |]; reflexivity.
  - cbn [cread read]. cstep.
    destruct (read_int 8 b p) as [[o sp]| |]; cbn [bind]; auto. destruct (o =? 0); auto.
    cstep. destruct (absolute_offset_checked p o) as [sk| |]; cbn [bind]; auto.
    rewrite ?fst_cbind, IHt. destruct (read t b sk) as [[]| |]; reflexivity.
  - cbn [cread read]. cstep.
    destruct (read_int w b p) as [[o sp]| |]; cbn [bind]; auto. destruct (o =? 0); auto.
    rewrite ?fst_cbind, IHt. destruct (read t b o) as [[]| |]; reflexivity.
  - cbn [cread read]. cstep.
    destruct (read_int 8 b p) as [[o p1]| |]; cbn [bind]; auto. cstep.
    destruct (read_int 8 b p1) as [[c sp]| |]; cbn [bind]; auto. cstep.
    destruct (absolute_offset_checked p o) as [sk| |]; cbn [bind]; auto.
    cstep. rewrite ?fst_cbind, (fst_cread_elements (read t b)) by auto.
    destruct (read_elements (read t b) c sk) as [[]| |]; reflexivity.
  - cbn [cread read]. cstep.
    destruct (read_int 8 b p) as [[o p1]| |]; cbn [bind]; auto. cstep.
    destruct (read_int 8 b p1) as [[c sp]| |]; cbn [bind]; auto. cstep.
    destruct (absolute_offset_checked p o) as [sk| |]; cbn [bind]; auto.
    cstep. rewrite ?fst_cbind. cbn [fst].
    destruct (read_buffer c b sk); reflexivity.
  - cbn [cread read]. cstep.
    destruct (read_cstr (Z.to_nat (zlen b - p)) b p) as [[]| |]; reflexivity.
  - rewrite cread_enum, read_enum, fst_cbind. cbn [steps fst].
    destruct (read_int 8 b p) as [[o p1]| |]; cbn [bind]; auto. cstep.
    destruct (read_int 8 b p1) as [[dt sp]| |]; cbn [bind]; auto. destruct (o =? 0); auto.
    cstep. destruct (absolute_offset_checked p o) as [sk| |]; cbn [bind]; auto.
    rewrite ?fst_cbind. destruct (find_case dt vs) as [t'|] eqn:F; auto.
    rewrite (find_case_forall (P := fun t => forall b p, fst (cread t b p) = read t b p) _ _ _ HF F).
    destruct (read t' b sk) as [[]| |]; reflexivity.
  - cbn [cread read]. cstep.
    rewrite ?fst_cbind, (fst_cread_elements (read t b)) by auto.
    destruct (read_elements (read t b) n p) as [[]| |]; reflexivity.
  - cbn [cread read]. cstep.
    rewrite ?fst_cbind, (fst_cread_elements (read t b)) by auto.
    destruct (read_elements (read t b) n p) as [[]| |]; reflexivity.
Qed.

(** ** What a successful read leaves behind *)
Lemma read_int_in w b p n q : 0 < w -> read_int w b p = Ok (n, q) -> q = p + w /\ 0 <= p /\ p + w <= zlen b.
Proof.
  intros Hw. unfold read_int. destruct (get_bytes (Z.to_nat w) b p) as [bs|] eqn:E; [|discriminate].
  intros [= <- <-]. apply get_bytes_bound in E; lia.
Qed.
Lemma read_int_nonneg w b p n q : bytes_ok b = true -> read_int w b p = Ok (n, q) -> 0 <= n.
Proof.
  intros Hb. unfold read_int. destruct (get_bytes (Z.to_nat w) b p) as [bs|] eqn:E; [|discriminate].
  intros [= <- <-]. apply get_bytes_ok in E; auto. apply le_val_range in E. lia.
Qed.

Lemma least_nonneg t : sane t = true -> 0 <= least t.
Proof.
  induction t as [w|w ra tags|w| |fs spad aa al HF|t IHt|w t IHt|t IHt| |n|vs HF|n t IHt|n t IHt]
    using ty_ind'; cbn [sane least]; intros E; try lia.
  - induction HF as [|[t' pr] fr Ht _ IH]; cbn [forallb fold_right fst snd] in *; [lia|].
    apply andb_true_iff in E as [E1 E2]. apply andb_true_iff in E1 as [E1 _].
    specialize (Ht E1). specialize (IH E2). lia.
Qed.

Lemma read_n_moves (rd : Z -> res (val * Z)) low n :
  0 <= low -> (forall p v q, 0 <= p -> rd p = Ok (v, q) -> p + low <= q /\ (0 < low -> p < n)) ->
  forall k p vs q, 0 <= p -> read_n k rd p = Ok (vs, q) ->
    p + Z.of_nat k * low <= q /\ (0 < Z.of_nat k * low -> p < n).
Proof.
  intros Hl H. induction k as [|k IH]; intros p vs q Hp R; cbn [read_n] in R.
  - injection R as <- <-. lia.
  - apply bind_ok in R as ([v p1] & E1 & R). apply bind_ok in R as ([vs2 p2] & E2 & R). injection R as <- <-.
    apply H in E1 as [A1 A2]; auto. apply IH in E2 as [B1 B2]; [|lia]. nia.
Qed.

Theorem read_moves b t : bytes_ok b = true -> sane t = true ->
  forall p v q, 0 <= p -> read t b p = Ok (v, q) -> p + least t <= q /\ (0 < least t -> p < zlen b).
Proof.
  intros Hb.
  induction t as [w|w ra tags|w| |fs spad aa al HF|t IHt|w t IHt|t IHt| |n|vs HF|n t IHt|n t IHt]
    using ty_ind'; cbn [sane least]; intros E p v q Hp R.
  - cbn [read] in R. apply bind_ok in R as ([x p'] & E1 & R). injection R as <- <-.
    apply read_int_in in E1; lia.
  - cbn [read] in R. apply bind_ok in R as ([x p'] & E1 & R).
    destruct (existsb (Z.eqb x) tags); [|discriminate]. injection R as <- <-.
    apply read_int_in in E1; lia.
  - cbn [read] in R. apply bind_ok in R as ([x p'] & E1 & R). injection R as <- <-.
    apply read_int_in in E1; lia.
  - cbn in R. injection R as <- <-. lia.
  - rewrite read_struct in R. apply bind_ok in R as ([xs p'] & E1 & R). injection R as <- <-.
    revert p Hp xs p' E1. induction HF as [|[t' [wp rp]] fr Ht _ IH]; intros p Hp xs p' R;
      cbn [forallb fold_right fst snd] in *.
    + cbn in R. injection R as <- <-. lia.
    + apply andb_true_iff in E as [E1 E2]. apply andb_true_iff in E1 as [E1 E3].
      cbn [read_fields] in R. apply bind_ok in R as ([v1 p1] & R1 & R).
      apply bind_ok in R as ([vs2 p2] & R2 & R). injection R as <- <-.
      pose proof (least_nonneg t' E1). apply Ht in R1; auto. apply IH in R2; auto; lia.
  - cbn [read] in R. apply bind_ok in R as ([o sp] & E1 & R). apply read_int_in in E1; [|lia].
    destruct (o =? 0); [injection R as <- <-; lia|].
    apply bind_ok in R as (sk & _ & R). apply bind_ok in R as ([v' q'] & _ & R). injection R as <- <-. lia.
  - apply andb_true_iff in E as [E1 E2].
    cbn [read] in R. apply bind_ok in R as ([o sp] & E3 & R). apply read_int_in in E3; [|lia].
    destruct (o =? 0); [injection R as <- <-; lia|].
    apply bind_ok in R as ([v' q'] & _ & R). injection R as <- <-. lia.
  - cbn [read] in R. apply bind_ok in R as ([o p1] & E1 & R). apply read_int_in in E1; [|lia].
    apply bind_ok in R as ([c sp] & E2 & R). apply read_int_in in E2; [|lia].
    apply bind_ok in R as (sk & _ & R). apply bind_ok in R as ([v' q'] & _ & R). injection R as <- <-. lia.
  - cbn [read] in R. apply bind_ok in R as ([o p1] & E1 & R). apply read_int_in in E1; [|lia].
    apply bind_ok in R as ([c sp] & E2 & R). apply read_int_in in E2; [|lia].
    apply bind_ok in R as (sk & _ & R). apply bind_ok in R as (bs & _ & R). injection R as <- <-. lia.
  - cbn [read] in R. apply bind_ok in R as ([bs p'] & E1 & R). injection R as <- <-.
    enough (forall k p bs p', 0 <= p -> read_cstr k b p = Ok (bs, p') -> p + 1 <= p' /\ p < zlen b) as L
      by (apply L in E1; lia).
    clear. induction k as [|k IH]; intros p bs p' Hp R; cbn [read_cstr] in R; [discriminate|].
    unfold byte_at in R. destruct ((0 <=? p) && (p <? zlen b)) eqn:P; [|discriminate].
    destruct (nth_error b (Z.to_nat p)); [|discriminate].
    destruct (z =? 0); [injection R as <- <-; lia|].
    apply bind_ok in R as ([r p2] & E1 & R). injection R as <- <-. apply IH in E1; lia.
  - rewrite read_enum in R. apply bind_ok in R as ([o p1] & E1 & R). apply read_int_in in E1; [|lia].
    apply bind_ok in R as ([c sp] & E2 & R). apply read_int_in in E2; [|lia].
    destruct (o =? 0); [injection R as <- <-; lia|].
    apply bind_ok in R as (sk & _ & R). apply bind_ok in R as ([v' q'] & _ & R). injection R as <- <-. lia.
  - apply andb_true_iff in E as [E1 E2]. apply andb_true_iff in E2 as [E2 _]. cbn [read] in R. rewrite read_elements_n in R.
    apply bind_ok in R as ([xs p'] & R & R'). injection R' as <- <-.
    pose proof (least_nonneg t E2).
    apply (read_n_moves (read t b) (least t) (zlen b)) in R; [|now auto|exact (IHt E2)|auto]. rewrite Z2Nat.id in R by lia. auto.
  - apply andb_true_iff in E as [E1 E2]. cbn [read] in R. rewrite read_elements_n in R.
    apply bind_ok in R as ([xs p'] & R & R'). injection R' as <- <-.
    pose proof (least_nonneg t E1).
    apply (read_n_moves (read t b) (least t) (zlen b)) in R; [|now auto|exact (IHt E1)|auto]. nia.
Qed.

(** ** Bounds *)
Definition is_ok {A} (r : res A) : bool := match r with Ok _ => true | _ => false end.
Ltac wcbn := cbn [steps cret fst snd is_ok cadd c_steps c_slots c_bytes reserve_slots reserve_bytes cbind].
Ltac wcbn_all := cbn [steps cret fst snd is_ok cadd c_steps c_slots c_bytes reserve_slots reserve_bytes cbind] in *.

(** [within B D m]: at most [B] steps; what is reserved was also filled if the outcome is a
    value, and otherwise exceeds the steps by at most [D] arrays and one buffer. *)
Record within {A} (B D : Z) (m : cres A) : Prop := MkWithin {
  w_pos : 0 <= c_steps (snd m);
  w_slots : 0 <= c_slots (snd m);
  w_bytes : 0 <= c_bytes (snd m);
  w_steps : c_steps (snd m) <= B;
  w_ok : is_ok (fst m) = true -> c_slots (snd m) + c_bytes (snd m) <= c_steps (snd m);
  w_any_slots : c_slots (snd m) <= c_steps (snd m) + max_slots * D;
  w_any_bytes : c_slots (snd m) + c_bytes (snd m) <= c_steps (snd m) + max_slots * D + max_bytes
}.

Lemma within_weaken {A} B B' D D' (m : cres A) : B <= B' -> D <= D' -> within B D m -> within B' D' m.
Proof. intros H1 H2 []. unfold max_slots, max_bytes in *. constructor; auto; unfold max_slots, max_bytes; lia. Qed.

Lemma within_steps {A} n D (r : res A) : 0 <= n -> 0 <= D -> within n D (steps n r).
Proof. intros. constructor; wcbn; unfold max_slots, max_bytes; lia. Qed.
Lemma within_ret {A} D (r : res A) : 0 <= D -> within 0 D (cret r).
Proof. apply (within_steps 0). lia. Qed.

Lemma within_bind {A B} b1 b2 D (m : cres A) (f : A -> cres B) :
  0 <= b2 -> within b1 D m -> (forall a, fst m = Ok a -> within b2 D (f a)) -> within (b1 + b2) D (cbind m f).
Proof.
  intros H2 Hm Hf. unfold cbind. destruct (fst m) eqn:E.
  - specialize (Hf a eq_refl). destruct Hm, Hf. rewrite E in *. specialize (w_ok0 eq_refl).
    unfold max_slots, max_bytes in *.
    constructor; wcbn; unfold max_slots, max_bytes; try lia.
  - apply (within_weaken b1 _ D); [lia|lia|]. destruct Hm. rewrite E in *. constructor; wcbn; auto.
  - apply (within_weaken b1 _ D); [lia|lia|]. destruct Hm. rewrite E in *. constructor; wcbn; auto.
Qed.

Lemma within_fail {A C} B D (m : cres A) (f : A -> cres C) : is_ok (fst m) = false -> within B D m ->
  within B D (cbind m f) /\ is_ok (fst (cbind m f)) = false.
Proof.
  intros E W. unfold cbind. destruct (fst m) eqn:F; [discriminate| |]; split; auto;
    destruct W; constructor; wcbn; auto; discriminate.
Qed.

(** The loop over elements: every success moves on within the file. *)
Lemma within_loop n B D (rd : Z -> cres (val * Z)) :
  0 <= B -> 0 <= D ->
  (forall p, 0 <= p -> within B D (rd p)) ->
  (forall p v q, 0 <= p -> fst (rd p) = Ok (v, q) -> p < n /\ p + 1 <= q) ->
  forall k p, 0 <= p -> within ((Z.max 0 (n - p) + 1) * (B + 1)) D (cread_n k rd p) /\
    (is_ok (fst (cread_n k rd p)) = true ->
     Z.of_nat k + c_slots (snd (cread_n k rd p)) + c_bytes (snd (cread_n k rd p)) <= c_steps (snd (cread_n k rd p))).
Proof.
  intros HB HD Hw Hm. induction k as [|k IH]; intros p Hp.
  - split; [|cbn; lia]. apply (within_weaken 0 _ D); [nia|lia|]. now apply within_ret.
  - specialize (Hw p Hp). destruct (is_ok (fst (rd p))) eqn:K.
    2:{ destruct (within_fail B D (rd p) (fun '(v, p1) => let+ _ := steps 1 (Ok tt) in
          let+ (vs, p2) := cread_n k rd p1 in cret (Ok (v :: vs, p2))) K Hw) as [W1 W2].
        cbn [cread_n]. rewrite W2. split; [|discriminate].
        apply (within_weaken B _ D); [nia|lia|exact W1]. }
    destruct (fst (rd p)) as [[v q]|e|] eqn:E; [clear K|discriminate|discriminate].
    destruct (Hm p v q Hp E) as [M1 M2]. destruct (IH q ltac:(lia)) as [I1 I2].
    split.
    + apply (within_weaken (B + (1 + (Z.max 0 (n - q) + 1) * (B + 1))) _ D); [nia|lia|].
      cbn [cread_n]. apply within_bind; [nia|auto|].
      rewrite E. intros [v' q'] [= <- <-].
      apply within_bind; [nia|apply within_steps; lia|]. intros _ _.
      apply (within_weaken ((Z.max 0 (n - q) + 1) * (B + 1) + 0) _ D); [lia|lia|].
      apply within_bind; [lia|auto|]. intros [vs q2] _. now apply within_ret.
    + cbn [cread_n]. unfold cbind at 1 4 7 10. rewrite E.
      destruct Hw. rewrite E in *. specialize (w_ok0 eq_refl).
      destruct (cread_n k rd q) as [[[vs q2]|e|] c] eqn:R; wcbn_all; [|discriminate|discriminate].
      intros _. specialize (I2 eq_refl). lia.
Qed.

(** A fixed number of elements, wherever they are *)
Lemma within_times B D (rd : Z -> cres (val * Z)) :
  0 <= B -> 0 <= D ->
  (forall p, 0 <= p -> within B D (rd p)) ->
  (forall p v q, 0 <= p -> fst (rd p) = Ok (v, q) -> 0 <= q) ->
  forall k p, 0 <= p -> within (Z.of_nat k * (B + 1)) D (cread_n k rd p).
Proof.
  intros HB HD Hw Hm. induction k as [|k IH]; intros p Hp; cbn [cread_n].
  - now apply within_ret.
  - apply (within_weaken (B + (1 + (Z.of_nat k * (B + 1) + 0))) _ D); [nia|lia|].
    apply within_bind; [nia|auto|]. intros [v q] E. apply Hm in E; auto.
    apply within_bind; [nia|apply within_steps; lia|]. intros _ _.
    apply within_bind; [lia|auto|]. intros [vs q2] _. now apply within_ret.
Qed.

Lemma budget_nonneg n t : 0 <= n -> sane t = true -> 1 <= budget n t.
Proof.
  intros Hn.
  induction t as [w|w ra tags|w| |fs spad aa al HF|t IHt|w t IHt|t IHt| |k|vs HF|k t IHt|k t IHt]
    using ty_ind'; cbn [sane budget]; intros E.
  1, 2, 3, 4, 9, 10: lia.
  - induction HF as [|[t' pr] fr Ht _ IH]; cbn [forallb fold_right fst snd] in *; [lia|].
    apply andb_true_iff in E as [E1 E2]. apply andb_true_iff in E1 as [E1 _].
    specialize (Ht E1). specialize (IH E2). lia.
  - specialize (IHt E). lia.
  - apply andb_true_iff in E as [_ E]. specialize (IHt E). lia.
  - apply andb_true_iff in E as [E _]. specialize (IHt E). nia.
  - enough (0 <= fold_right (fun c s => Z.max (budget n (snd c)) s) 0 vs) by lia.
    clear. induction vs; cbn; lia.
  - apply andb_true_iff in E as [E1 E2]. apply andb_true_iff in E2 as [E2 _]. specialize (IHt E2). nia.
  - apply andb_true_iff in E as [E _]. specialize (IHt E). nia.
Qed.

Lemma array_depth_nonneg t : 0 <= array_depth t.
Proof.
  induction t as [w|w ra tags|w| |fs spad aa al HF|t IHt|w t IHt|t IHt| |k|vs HF|k t IHt|k t IHt]
    using ty_ind'; cbn [array_depth]; try lia.
  - clear. induction fs; cbn; lia.
  - clear. induction vs; cbn; lia.
Qed.

Lemma find_case_budget n tag vs t' : find_case tag vs = Some t' ->
  budget n t' <= fold_right (fun c s => Z.max (budget n (snd c)) s) 0 vs /\
  array_depth t' <= fold_right (fun c s => Z.max (array_depth (snd c)) s) 0 vs.
Proof.
  induction vs as [|[tg t0] r IH]; cbn [find_case fold_right snd]; [discriminate|].
  destruct (tag =? tg); [intros [= <-]; lia|]. intros F. apply IH in F. lia.
Qed.

Lemma absolute_nonneg p o sk : 0 <= p -> 0 <= o -> absolute_offset_checked p o = Ok sk -> 0 <= sk.
Proof. unfold absolute_offset_checked. destruct (_ <? _); [|discriminate]. intros ? ? [= <-]. lia. Qed.

Theorem cread_within b t : bytes_ok b = true -> sane t = true ->
  forall p, 0 <= p -> within (budget (zlen b) t) (array_depth t) (cread t b p).
Proof.
  intros Hb. pose proof (zlen_nonneg b) as Hn.
  induction t as [w|w ra tags|w| |fs spad aa al HF|t IHt|w t IHt|t IHt| |k|vs HF|k t IHt|k t IHt]
    using ty_ind'; intros E p Hp;
    match goal with |- context [array_depth ?t] => pose proof (array_depth_nonneg t) as HD end;
    try (apply within_steps; cbn; lia).
  - rewrite cread_struct. cbn [sane budget array_depth] in *.
    apply within_bind; [|apply within_steps; lia|].
    { clear - E Hn. induction fs as [|[t' pr] fr IH]; cbn [forallb fold_right fst snd] in *; [lia|].
      apply andb_true_iff in E as [E1 E2]. apply andb_true_iff in E1 as [E1 _].
      pose proof (budget_nonneg (zlen b) t' Hn E1). specialize (IH E2). lia. }
    intros _ _.
    set (D := fold_right (fun f s => Z.max (array_depth (fst f)) s) 0 fs) in *.
    assert (fold_right (fun f s => Z.max (array_depth (fst f)) s) 0 fs <= D) as HL by lia.
    clearbody D.
    match goal with |- within ?B _ _ => apply (within_weaken (B + 0) _ D); [lia|lia|] end.
    apply within_bind; [lia| |intros [vs q] _; now apply within_ret].
    revert p Hp. induction HF as [|[t' [wp rp]] fr Ht _ IH]; intros p Hp; cbn [cread_fields].
    + now apply within_ret.
    + cbn [forallb fold_right fst snd] in *. apply andb_true_iff in E as [E1 E2].
      apply andb_true_iff in E1 as [E1 E3].
      match goal with |- within (_ + ?B) _ _ => assert (0 <= B) as HB end.
      { clear - E2 Hn. induction fr as [|[t' pr] fr IH]; cbn [forallb fold_right fst snd] in *; [lia|].
        apply andb_true_iff in E2 as [E1 E2]. apply andb_true_iff in E1 as [E1 _].
        pose proof (budget_nonneg (zlen b) t' Hn E1). specialize (IH E2). lia. }
      apply within_bind; [auto| |].
      * apply (within_weaken (budget (zlen b) t') _ (array_depth t')); [lia|lia|auto].
      * intros [v p1] R. rewrite cread_read in R. apply read_moves in R; auto.
        pose proof (least_nonneg t' E1).
        match goal with |- within ?B _ _ => apply (within_weaken (B + 0) _ D); [lia|lia|] end.
        apply within_bind; [lia|apply IH; auto; lia|]. intros [vs p2] _. now apply within_ret.
  - cbn [cread sane budget array_depth] in *. pose proof (budget_nonneg (zlen b) t Hn E).
    apply within_bind; [lia|apply within_steps; lia|]. cbn [steps fst]. intros [o sp] R.
    apply read_int_nonneg in R; auto.
    destruct (o =? 0); [apply (within_weaken 0 _ (array_depth t)); [lia|lia|now apply within_ret]|].
    apply (within_weaken (0 + (budget (zlen b) t + 0)) _ (array_depth t)); [lia|lia|].
    apply within_bind; [lia|now apply within_ret|]. cbn [cret fst]. intros sk A. apply absolute_nonneg in A; auto.
    apply within_bind; [lia|auto|]. intros [v q] _. now apply within_ret.
  - cbn [cread sane budget array_depth] in *. apply andb_true_iff in E as [E1 E2].
    pose proof (budget_nonneg (zlen b) t Hn E2).
    apply within_bind; [lia|apply within_steps; lia|]. cbn [steps fst]. intros [o sp] R.
    apply read_int_nonneg in R; auto.
    destruct (o =? 0); [apply (within_weaken 0 _ (array_depth t)); [lia|lia|now apply within_ret]|].
    apply (within_weaken (budget (zlen b) t + 0) _ (array_depth t)); [lia|lia|].
    apply within_bind; [lia|auto|]. intros [v q] _. now apply within_ret.
  - cbn [cread sane budget array_depth] in *. apply andb_true_iff in E as [E1 E2].
    pose proof (budget_nonneg (zlen b) t Hn E1). pose proof (array_depth_nonneg t) as HD'.
    apply (within_weaken (1 + (1 + (0 + (zlen b + 1) * (budget (zlen b) t + 1)))) _ (1 + array_depth t)); [lia|lia|].
    apply within_bind; [nia|apply within_steps; lia|]. cbn [steps fst]. intros [o p1] R1.
    apply within_bind; [nia|apply within_steps; lia|]. cbn [steps fst]. intros [c sp] R2.
    apply within_bind; [nia|now apply within_ret|]. cbn [cret fst]. intros sk A.
    apply read_int_nonneg in R1; auto. apply read_int_nonneg in R2; auto. apply absolute_nonneg in A; auto.
    rewrite cread_elements_n.
    destruct (within_loop (zlen b) (budget (zlen b) t) (array_depth t) (cread t b)) with (k := Z.to_nat c) (p := sk)
      as [W1 W2]; auto; try lia.
    { intros q v q' Hq R. rewrite cread_read in R. apply read_moves in R; auto. lia. }
    rewrite Z2Nat.id in W2 by lia.
    apply (within_weaken _ ((zlen b + 1) * (budget (zlen b) t + 1)) _ (array_depth t)) in W1; [|nia|lia].
    destruct (cread_n (Z.to_nat c) (cread t b) sk) as [[[vs q]|e|] [s1 s2 s3]]; destruct W1; wcbn_all;
      unfold max_slots, max_bytes in *; constructor; wcbn; unfold max_slots, max_bytes; try lia.
  - cbn [cread budget array_depth] in *.
    apply (within_weaken (1 + (1 + (0 + zlen b))) _ 0); [lia|lia|].
    apply within_bind; [lia|apply within_steps; lia|]. cbn [steps fst]. intros [o p1] R1.
    apply within_bind; [lia|apply within_steps; lia|]. cbn [steps fst]. intros [c sp] R2.
    apply within_bind; [lia|apply within_ret; lia|]. cbn [cret fst]. intros sk A.
    apply read_int_nonneg in R1; auto. apply read_int_nonneg in R2; auto. apply absolute_nonneg in A; auto.
    unfold read_buffer. destruct (c <=? Z.max 0 (zlen b - sk)) eqn:C;
      [destruct (get_bytes (Z.to_nat c) b sk)|]; constructor; wcbn; unfold max_slots, max_bytes; lia.
  - cbn [cread budget array_depth] in *.
    destruct (read_cstr (Z.to_nat (zlen b - p)) b p) as [[bs q]|e|] eqn:R;
      [|constructor; wcbn; unfold max_slots, max_bytes; lia|constructor; wcbn; unfold max_slots, max_bytes; lia].
    enough (zlen bs + 1 <= Z.of_nat (Z.to_nat (zlen b - p))) as L.
    { pose proof (zlen_nonneg bs). constructor; wcbn; unfold max_slots, max_bytes; lia. }
    revert R. generalize (Z.to_nat (zlen b - p)) as m. intros m. clear. revert p bs q.
    induction m as [|m IH]; intros p bs q R; cbn [read_cstr] in R; [discriminate|].
    destruct (byte_at b p); [|discriminate]. destruct (z =? 0); [injection R as <- <-; cbn; lia|].
    apply bind_ok in R as ([r p2] & E1 & R). injection R as <- <-. apply IH in E1. rewrite zlen_cons. lia.
  - rewrite cread_enum. cbn [sane budget array_depth] in *.
    set (D := fold_right (fun c s => Z.max (array_depth (snd c)) s) 0 vs) in *.
    set (B := fold_right (fun c s => Z.max (budget (zlen b) (snd c)) s) 0 vs) in *.
    assert (0 <= B) as HB. { subst B. clear. induction vs; cbn; lia. }
    apply (within_weaken (1 + (1 + B)) _ D); [lia|lia|].
    apply within_bind; [lia|apply within_steps; lia|]. cbn [steps fst]. intros [o p1] R1.
    apply within_bind; [lia|apply within_steps; lia|]. cbn [steps fst]. intros [c sp] R2.
    destruct (o =? 0); [apply (within_weaken 0 _ D); [lia|lia|now apply within_ret]|].
    apply (within_weaken (0 + (B + 0)) _ D); [lia|lia|].
    apply within_bind; [lia|apply within_ret; lia|]. cbn [cret fst]. intros sk A.
    apply read_int_nonneg in R1; auto. apply absolute_nonneg in A; auto.
    apply within_bind; [lia| |intros [v q] _; now apply within_ret].
    destruct (find_case c vs) as [t'|] eqn:F; [|apply (within_weaken 0 _ D); [lia|lia|now apply within_ret]].
    pose proof (find_case_budget (zlen b) _ _ _ F) as [L1 L2]. fold B in L1. fold D in L2.
    apply (within_weaken (budget (zlen b) t') _ (array_depth t')); [lia|lia|].
    apply find_case_in in F. rewrite Forall_forall in HF. rewrite forallb_forall in E.
    apply (HF (c, t') F); auto.
  - cbn [cread sane budget array_depth] in *. apply andb_true_iff in E as [E1 E2]. apply andb_true_iff in E2 as [E2 _].
    pose proof (budget_nonneg (zlen b) t Hn E2).
    apply within_bind; [nia|apply within_steps; lia|]. intros _ _.
    match goal with |- within ?B ?D _ => apply (within_weaken (B + 0) _ D); [lia|lia|] end.
    apply within_bind; [lia| |intros [xs q] _; now apply within_ret].
    rewrite cread_elements_n. rewrite <- (Z2Nat.id k) at 1 by lia.
    apply within_times; auto; try lia.
    intros q v q' Hq R. rewrite cread_read in R. apply read_moves in R; auto.
    pose proof (least_nonneg t E2). lia.
  - cbn [cread sane budget array_depth] in *. apply andb_true_iff in E as [E1 E2].
    pose proof (budget_nonneg (zlen b) t Hn E1).
    match goal with |- within _ ?D _ => apply (within_weaken (1 + ((zlen b + 1) * (budget (zlen b) t + 1) + 0)) _ D); [lia|lia|] end.
    apply within_bind; [nia|apply within_steps; lia|]. intros _ _.
    apply within_bind; [lia| |intros [xs q] _; now apply within_ret].
    rewrite cread_elements_n.
    apply (within_weaken ((Z.max 0 (zlen b - p) + 1) * (budget (zlen b) t + 1)) _ (array_depth t)); [nia|lia|].
    apply within_loop; auto; try lia.
    intros q v q' Hq R. rewrite cread_read in R. apply read_moves in R; auto. lia.
Qed.

(** ** The bound as a polynomial *)
Lemma fold_max_nonneg {A} (f : A -> Z) l : 0 <= fold_right (fun c s => Z.max (f c) s) 0 l.
Proof. induction l; cbn; lia. Qed.

Lemma degree_nonneg t : 0 <= degree t.
Proof.
  induction t using ty_ind'; cbn [degree]; try lia; apply (fold_max_nonneg (fun f => degree (_ f))).
Qed.

Lemma pow_mono m d d' : 1 <= m -> 0 <= d <= d' -> 1 <= m ^ d <= m ^ d'.
Proof.
  intros Hm Hd. split.
  - rewrite <- (Z.pow_0_r m). apply Z.pow_le_mono_r; lia.
  - apply Z.pow_le_mono_r; lia.
Qed.

Theorem budget_poly n t : 0 <= n -> sane t = true -> budget n t <= budget 0 t * (n + 1) ^ degree t.
Proof.
  intros Hn.
  induction t as [w|w ra tags|w| |fs spad aa al HF|t IHt|w t IHt|t IHt| |k|vs HF|k t IHt|k t IHt]
    using ty_ind'; cbn [sane budget degree]; intros E.
  1, 2, 3, 4: rewrite Z.pow_0_r; lia.
  - set (D := fold_right (fun f s => Z.max (degree (fst f)) s) 0 fs).
    assert (0 <= D) as HD by apply (fold_max_nonneg (fun f => degree (fst f))).
    assert (fold_right (fun f s => Z.max (degree (fst f)) s) 0 fs <= D) as HL by (subst D; lia).
    clearbody D. pose proof (pow_mono (n + 1) 0 D ltac:(lia) ltac:(lia)) as HP. rewrite Z.pow_0_r in HP.
    enough (fold_right (fun f s => budget n (fst f) + s) 0 fs <=
            fold_right (fun f s => budget 0 (fst f) + s) 0 fs * (n + 1) ^ D) by nia.
    induction HF as [|[t' pr] fr Ht _ IH]; cbn [forallb fold_right fst snd] in *; [lia|].
    apply andb_true_iff in E as [E1 E2]. apply andb_true_iff in E1 as [E1 _].
    specialize (Ht E1). specialize (IH E2 ltac:(lia)). pose proof (degree_nonneg t').
    pose proof (pow_mono (n + 1) (degree t') D ltac:(lia) ltac:(lia)).
    pose proof (budget_nonneg 0 t' ltac:(lia) E1). nia.
  - specialize (IHt E). pose proof (degree_nonneg t).
    pose proof (pow_mono (n + 1) 0 (degree t) ltac:(lia) ltac:(lia)) as HP. rewrite Z.pow_0_r in HP. lia.
  - apply andb_true_iff in E as [_ E]. specialize (IHt E). pose proof (degree_nonneg t).
    pose proof (pow_mono (n + 1) 0 (degree t) ltac:(lia) ltac:(lia)) as HP. rewrite Z.pow_0_r in HP. lia.
  - apply andb_true_iff in E as [E _]. specialize (IHt E). pose proof (degree_nonneg t).
    pose proof (pow_mono (n + 1) 0 (degree t) ltac:(lia) ltac:(lia)) as HP. rewrite Z.pow_0_r in HP.
    rewrite Z.pow_add_r, Z.pow_1_r by lia. nia.
  - rewrite Z.pow_1_r. lia.
  - rewrite Z.pow_1_r. lia.
  - set (D := fold_right (fun f s => Z.max (degree (snd f)) s) 0 vs).
    assert (0 <= D) as HD by apply (fold_max_nonneg (fun f => degree (snd f))).
    assert (fold_right (fun f s => Z.max (degree (snd f)) s) 0 vs <= D) as HL by (subst D; lia).
    clearbody D. pose proof (pow_mono (n + 1) 0 D ltac:(lia) ltac:(lia)) as HP. rewrite Z.pow_0_r in HP.
    enough (fold_right (fun c s => Z.max (budget n (snd c)) s) 0 vs <=
            fold_right (fun c s => Z.max (budget 0 (snd c)) s) 0 vs * (n + 1) ^ D) by nia.
    induction HF as [|[tg t'] fr Ht _ IH]; cbn [forallb fold_right snd] in *; [lia|].
    apply andb_true_iff in E as [E1 E2].
    specialize (Ht E1). specialize (IH E2 ltac:(lia)). pose proof (degree_nonneg t').
    pose proof (pow_mono (n + 1) (degree t') D ltac:(lia) ltac:(lia)).
    pose proof (budget_nonneg 0 t' ltac:(lia) E1).
    rewrite <- Z.mul_max_distr_nonneg_r by lia. apply Z.max_le_compat; nia.
  - apply andb_true_iff in E as [E1 E2]. apply andb_true_iff in E2 as [E2 _]. specialize (IHt E2). pose proof (degree_nonneg t).
    pose proof (pow_mono (n + 1) 0 (degree t) ltac:(lia) ltac:(lia)) as HP. rewrite Z.pow_0_r in HP. nia.
  - apply andb_true_iff in E as [E _]. specialize (IHt E). pose proof (degree_nonneg t).
    pose proof (pow_mono (n + 1) 0 (degree t) ltac:(lia) ltac:(lia)) as HP. rewrite Z.pow_0_r in HP.
    rewrite Z.pow_add_r, Z.pow_1_r by lia. nia.
Qed.

(** ** Files *)
Theorem cfile_read_file b : fst (cfile_read b) = file_read b.
Proof.
  unfold cfile_read, file_read, read_file. change (0 + 4) with 4. change (round_up 4 16) with 16. change (16 + 4) with 20.
  destruct (get_bytes 4 b 0) as [m|]; auto. destruct (list_eqb m hbss); auto.
  destruct (get_bytes 4 b 16) as [m'|]; auto. destruct (find_kind m' kinds) as [k|]; auto.
  cstep. destruct (read_int 2 b 20) as [[major p2]| |]; cbn [bind]; auto.
  cstep. destruct (read_int 2 b p2) as [[minor p3]| |]; cbn [bind]; auto.
  destruct (format k (major, minor)) as [t|]; auto. rewrite fst_cbind, cread_read.
  destruct (read t b p3) as [[]| |]; reflexivity.
Qed.

(** The largest bounds of the formats *)
Definition formats_within (k : kind) : bool :=
  forallb (fun x => sane (snd x) && (budget 0 (snd x) <=? 180) && (degree (snd x) <=? 4) && (array_depth (snd x) <=? 3))
    (versions k).
Lemma formats_all_within k : formats_within k = true.
Proof. destruct k; vm_compute; reflexivity. Qed.

Lemma format_within k v t : format k v = Some t ->
  sane t = true /\ budget 0 t <= 180 /\ degree t <= 4 /\ array_depth t <= 3.
Proof.
  intros F. apply lookup_in in F. pose proof (formats_all_within k) as H. unfold formats_within in H.
  rewrite forallb_forall in H. apply H in F. cbn [snd] in F. rewrite !andb_true_iff, !Z.leb_le in F. tauto.
Qed.

Theorem cfile_within b : bytes_ok b = true -> within (4 + 180 * (zlen b + 1) ^ 4) 3 (cfile_read b).
Proof.
  intros Hb. pose proof (zlen_nonneg b) as Hn.
  pose proof (pow_mono (zlen b + 1) 0 4 ltac:(lia) ltac:(lia)) as HP. rewrite Z.pow_0_r in HP.
  unfold cfile_read.
  assert (forall A n (r : res A), 0 <= n <= 4 -> within (4 + 180 * (zlen b + 1) ^ 4) 3 (steps n r)) as S.
  { intros A n r Hr. apply (within_weaken n _ 3); [lia|lia|]. apply within_steps; lia. }
  destruct (get_bytes 4 b 0) as [m|]; [|apply S; lia]. destruct (list_eqb m hbss); [|apply S; lia].
  destruct (get_bytes 4 b 16) as [m'|]; [|apply S; lia]. destruct (find_kind m' kinds) as [k|]; [|apply S; lia].
  apply (within_weaken (2 + (1 + (1 + (180 * (zlen b + 1) ^ 4 + 0)))) _ 3); [lia|lia|].
  apply within_bind; [lia|apply within_steps; lia|]. intros _ _.
  apply within_bind; [lia|apply within_steps; lia|]. cbn [steps fst]. intros [major p2] R1.
  apply within_bind; [lia|apply within_steps; lia|]. cbn [steps fst]. intros [minor p3] R2.
  apply read_int_in in R1; [|lia]. apply read_int_in in R2; [|lia].
  destruct (format k (major, minor)) as [t|] eqn:F; [|apply (within_weaken 0 _ 3); [lia|lia|apply within_ret; lia]].
  apply format_within in F as (F1 & F2 & F3 & F4).
  apply within_bind; [lia| |intros [v q] _; apply within_ret; lia].
  apply (within_weaken (budget (zlen b) t) _ (array_depth t)); [|lia|apply cread_within; auto; lia].
  pose proof (budget_poly (zlen b) t Hn F1). pose proof (budget_nonneg 0 t ltac:(lia) F1).
  pose proof (pow_mono (zlen b + 1) (degree t) 4 ltac:(lia) ltac:(pose proof (degree_nonneg t); lia)). nia.
Qed.

Theorem cmeshex_read_meshex b : fst (cmeshex_read b) = meshex_read b.
Proof.
  unfold cmeshex_read, meshex_read.
  Ltac bnd := match goal with |- bind ?r _ = bind ?r _ => destruct r as [[? ?]| |]; cbn [bind]; auto end.
  do 3 (rewrite fst_cbind; cbn [steps fst]; bnd).
  do 5 (rewrite fst_cbind, cread_read; bnd).
Qed.

Theorem cmeshex_within b : bytes_ok b = true -> within (64 * (zlen b + 1) ^ 2) 0 (cmeshex_read b).
Proof.
  intros Hb. pose proof (zlen_nonneg b) as Hn.
  set (n := zlen b) in *.
  assert (forall t p, 0 <= p -> sane t = true -> array_depth t = 0 -> budget 0 t <= 15 -> degree t <= 2 ->
            within (15 * (n + 1) ^ 2) 0 (cread t b p)) as W.
  { intros t p Hp S AD B0 DG.
    apply (within_weaken (budget n t) _ (array_depth t)); [|lia|apply cread_within; auto].
    pose proof (budget_poly n t Hn S). pose proof (budget_nonneg 0 t ltac:(lia) S).
    pose proof (pow_mono (n + 1) (degree t) 2 ltac:(lia) ltac:(pose proof (degree_nonneg t); lia)). nia. }
  pose proof (pow_mono (n + 1) 0 2 ltac:(lia) ltac:(lia)) as HP. rewrite Z.pow_0_r in HP.
  set (K := (n + 1) ^ 2) in *. clearbody K.
  apply (within_weaken (1 + (1 + (1 + (15 * K + (15 * K + (15 * K + (15 * K + (1 + 0)))))))) _ 0); [lia|lia|].
  unfold cmeshex_read.
  apply within_bind; [lia|apply within_steps; lia|]. cbn [steps fst]. intros [? p1] R1.
  apply within_bind; [lia|apply within_steps; lia|]. cbn [steps fst]. intros [ec p2] R2.
  apply within_bind; [lia|apply within_steps; lia|]. cbn [steps fst]. intros [gc p3] R3.
  apply read_int_in in R1; [|lia]. apply read_int_in in R2; [|lia]. apply read_int_in in R3; [|lia].
  assert (forall t p v q, sane t = true -> 0 <= p -> fst (cread t b p) = Ok (v, q) -> 0 <= q) as Q.
  { intros t p v q S Hp R. rewrite cread_read in R. apply read_moves in R; auto.
    pose proof (least_nonneg t S). lia. }
  apply within_bind; [lia|apply W; try reflexivity; try lia; vm_compute; discriminate|]. intros [v4 p4] R4.
  apply Q in R4; [|reflexivity|lia].
  apply within_bind; [lia|apply W; try reflexivity; try lia; vm_compute; discriminate|]. intros [v5 p5] R5.
  apply Q in R5; [|reflexivity|lia].
  apply within_bind; [lia|apply W; try reflexivity; try lia; vm_compute; discriminate|]. intros [v6 p6] R6.
  apply Q in R6; [|reflexivity|lia].
  apply within_bind; [lia|apply W; try reflexivity; try lia; vm_compute; discriminate|]. intros [v7 p7] R7.
  apply Q in R7; [|reflexivity|lia].
  apply within_bind; [lia|apply within_steps; lia|]. intros [v8 p8] R8. apply within_ret. lia.
Qed.

Theorem cadj_read_adj b : fst (cadj_read b) = adj_read b.
Proof.
  unfold cadj_read, adj_read. rewrite fst_cbind. cbn [steps fst].
  destruct (read_int 4 b 0) as [[c p]| |]; cbn [bind]; auto.
  rewrite fst_cbind, (fst_cread_elements (read AdjEntry b)) by apply cread_read.
  destruct (read_elements (read AdjEntry b) c p) as [[vs q]| |]; cbn [bind]; auto.
  rewrite fst_cbind. cbn [cret fst]. destruct (un_entries vs); reflexivity.
Qed.

Lemma until_eof_short b n : forall p, 0 <= p -> zlen (until_eof n b p) <= Z.max 0 (zlen b - p).
Proof.
  induction n as [|n IH]; intros p Hp; cbn [until_eof]; [cbn; lia|].
  destruct (read_int 2 b p) as [[x q]| |] eqn:R; [|cbn; lia|cbn; lia].
  apply read_int_in in R; [|lia]. rewrite zlen_cons. specialize (IH q ltac:(lia)). lia.
Qed.

Theorem cadj_within b : bytes_ok b = true -> within (6 * (zlen b + 1)) 0 (cadj_read b).
Proof.
  intros Hb. pose proof (zlen_nonneg b) as Hn. unfold cadj_read.
  destruct (read_int 4 b 0) as [[c p]| |] eqn:R; cycle 1.
  { constructor; wcbn; unfold max_slots, max_bytes; lia. }
  { constructor; wcbn; unfold max_slots, max_bytes; lia. }
  pose proof R as R0. apply read_int_in in R0 as (-> & _ & R0); [|lia]. change (0 + 4) with 4 in *.
  apply (within_weaken (1 + (4 * (zlen b - 3) + (0 + (zlen b + 1)))) _ 0); [lia|lia|].
  apply within_bind; [lia|apply within_steps; lia|]. cbn [steps fst]. intros [c' p'] [= <- <-].
  rewrite cread_elements_n.
  assert (sane AdjEntry = true) as S by reflexivity.
  apply within_bind; [lia| |].
  { apply (within_weaken ((Z.max 0 (zlen b - 4) + 1) * (budget (zlen b) AdjEntry + 1)) _ 0); [cbn [AdjEntry budget]|lia|].
    - change (budget (zlen b) AdjEntry) with 3. lia.
    - apply within_loop; [cbn; lia|lia| | |lia].
      + intros q Hq. apply (cread_within b AdjEntry); auto.
      + intros q v q' Hq R1. rewrite cread_read in R1. apply read_moves in R1; auto.
        change (least AdjEntry) with 8 in R1. lia. }
  intros [vs q] R1. rewrite (fst_cread_n _ (read AdjEntry b)) in R1 by apply cread_read.
  apply (read_n_moves (read AdjEntry b) (least AdjEntry) (zlen b)) in R1;
    [|apply least_nonneg; auto|apply read_moves; auto|lia].
  change (least AdjEntry) with 8 in R1.
  apply within_bind; [lia|apply within_ret; lia|]. intros es _.
  pose proof (until_eof_short b (length b) q ltac:(lia)). pose proof (zlen_nonneg (until_eof (length b) b q)).
  apply (within_weaken (zlen (until_eof (length b) b q) + 1) _ 0); [lia|lia|]. apply within_steps; lia.
Qed.
