(** Lemmas about AdjData. *)
From Coq Require Import Lia ZifyBool ZifyNat ZifyN.
From Verif Require Import Bytes BytesFacts Ssbh File MeshEx MeshExFacts AdjData AdjSpec.
Ltac Zify.zify_post_hook ::= ZifyBool.elim_bool_cstr; Z.to_euclidean_division_equations.

(** ** Conversion *)
Lemma flat_removelast (d : list adj_entry) e : 
  zlen (flat_map ae_adjacency (removelast (e :: d))) = match d with [] => 0 | _ => zlen (ae_adjacency e) + zlen (flat_map ae_adjacency (removelast d)) end.
Proof.
  destruct d as [|e' d]; [reflexivity|]. change (removelast (e :: e' :: d)) with (e :: removelast (e' :: d)).
  cbn [flat_map]. now rewrite zlen_app.
Qed.

Lemma un_entries_back d : forall pre, 
  forallb (fun e => u32_ok (ae_object e)) d = true -> 2 * (zlen pre + zlen (flat_map ae_adjacency (removelast d))) < 2 ^ 32 ->
  un_adj_entries (pre ++ flat_map ae_adjacency d) (adj_entries_from (2 * zlen pre) d) = Ok d.
Proof.
  induction d as [|e d IH]; intros pre F L; [reflexivity|].
  cbn [forallb] in F. apply andb_true_iff in F as [F1 F2]. rewrite flat_removelast in L.
  pose proof (zlen_nonneg pre) as N1. unfold u32_ok in F1. 
  cbn [adj_entries_from flat_map un_adj_entries].
  specialize (IH (pre ++ ae_adjacency e) F2). rewrite zlen_app, <- app_assoc in IH.
  assert (M : ae_object e mod 2 ^ 32 = ae_object e) by (apply Z.mod_small; lia). rewrite M.
  destruct d as [|e' d].
  - cbn [adj_entries_from flat_map un_adj_entries]. rewrite app_nil_r. rewrite Z.mod_small by lia.
    replace (2 * zlen pre / 2) with (zlen pre) by lia. unfold slice_from. rewrite zlen_app.
    pose proof (zlen_nonneg (ae_adjacency e)). replace (zlen pre <=? _) with true by lia.
    replace (Z.to_nat (zlen pre)) with (length pre) by (unfold zlen; lia).
    rewrite skipn_app, skipn_all, Nat.sub_diag. cbn [skipn app bind]. now destruct e.
  - specialize (IH ltac:(lia)). set (d' := e' :: d) in *.
    replace (2 * (zlen pre + zlen (ae_adjacency e))) with (2 * zlen pre + zlen (ae_adjacency e) * 2) in IH by lia.
    rewrite IH. unfold d'. cbn [adj_entries_from]. 
    pose proof (zlen_nonneg (flat_map ae_adjacency (removelast d'))). pose proof (zlen_nonneg (ae_adjacency e)).
    rewrite !(Z.mod_small (2 * zlen pre)), (Z.mod_small (2 * zlen pre + _)) by lia.
    replace (2 * zlen pre / 2) with (zlen pre) by lia.
    replace ((2 * zlen pre + zlen (ae_adjacency e) * 2) / 2) with (zlen pre + zlen (ae_adjacency e)) by lia.
    unfold slice_get. rewrite !zlen_app. pose proof (zlen_nonneg (flat_map ae_adjacency (e' :: d))).
    match goal with |- context [if ?c then Some _ else None] => replace c with true by lia end.
    replace (Z.to_nat (zlen pre)) with (length pre) by (unfold zlen; lia).
    replace (Z.to_nat (zlen pre + zlen (ae_adjacency e) - zlen pre)) with (length (ae_adjacency e)) by (unfold zlen; lia).
    rewrite skipn_app, skipn_all, Nat.sub_diag. cbn [skipn app bind].
    rewrite firstn_app, firstn_all, Nat.sub_diag. cbn [firstn]. rewrite app_nil_r. now destruct e.
Qed.

Lemma adj_of_entries d : forall o, 0 <= o -> 
  forallb (fun e => u32_ok (fst e) && u32_ok (snd e)) (adj_entries_from o d) = true /\ zlen (adj_entries_from o d) = zlen d.
Proof.
  induction d as [|e d IH]; intros o O; [auto|]. cbn [adj_entries_from forallb fst snd].
  pose proof (zlen_nonneg (ae_adjacency e)). destruct (IH (o + zlen (ae_adjacency e) * 2)) as [I1 I2]; [lia|].
  rewrite I1, !zlen_cons, I2. split; [|reflexivity]. unfold u32_ok. lia.
Qed.
Lemma adj_of_ok d : adj_data_ok d = true -> adj_ok (adj_of d) = true /\ zlen (ad_entries (adj_of d)) < 2 ^ 32.
Proof.
  unfold adj_data_ok. intros H. apply andb_true_iff in H as [H _]. apply andb_true_iff in H as [H L].
  destruct (adj_of_entries d 0) as [E1 E2]; [lia|]. unfold adj_ok, adj_of. cbn [ad_entries ad_indices].
  rewrite E1, E2. split; [|lia]. cbn [andb]. apply forallb_forall. intros x Hx. apply in_flat_map in Hx as (e & He & Hx).
  rewrite forallb_forall in H. apply H in He. apply andb_true_iff in He as [_ He]. rewrite forallb_forall in He. auto.
Qed.

Theorem adj_data_back d : adj_data_ok d = true -> un_adj (adj_of d) = Ok d.
Proof.
  unfold adj_data_ok. intros H. apply andb_true_iff in H as [H L2]. apply andb_true_iff in H as [H L].
  apply (un_entries_back d []).
  - rewrite forallb_forall in *. intros e He. apply H in He. now apply andb_true_iff in He as [He _].
  - rewrite zlen_nil. lia.
Qed.
Theorem adj_save_load d : adj_data_ok d = true ->
  exists out, adj_data_write d = Ok out /\ adj_data_read out = Ok d.
Proof.
  intros H. destruct (adj_of_ok d H) as [K L]. destruct (adj_roundtrip _ K L) as (out & W & R).
  exists out. split; [exact W|]. unfold adj_data_read. rewrite R. cbn [bind]. now apply adj_data_back.
Qed.

(** Any Adj value *)
Lemma increasing_last : forall l a n, increasing (a :: l ++ [n]) = true -> a <= n.
Proof.
  induction l as [|b l IH]; intros a n H.
  - cbn in H. lia.
  - change (increasing (a :: (b :: l) ++ [n])) with ((a <=? b) && increasing (b :: l ++ [n])) in H.
    apply andb_true_iff in H as [H1 H2]. apply IH in H2. lia.
Qed.

Lemma un_entries_any buffer : forall es,
  if increasing (map (fun e => snd e / 2) es ++ [zlen buffer]) then
    exists d, un_adj_entries buffer es = Ok d /\ map ae_object d = map fst es /\
      forall k e a b, nth_error d k = Some e ->
        nth_error (map (fun e => snd e / 2) es ++ [zlen buffer]) k = Some a ->
        nth_error (map (fun e => snd e / 2) es ++ [zlen buffer]) (S k) = Some b -> ae_adjacency e = between buffer a b
  else un_adj_entries buffer es = Err (EData DAdjRange).
Proof.
  induction es as [|[o s] es IH].
  - cbn [map app increasing]. exists []. split; [reflexivity|]. split; [reflexivity|]. intros [|k] e a b H; discriminate H.
  - destruct es as [|[o' s'] es].
    + cbn [map app increasing un_adj_entries snd]. rewrite andb_true_r. unfold slice_from.
      destruct (s / 2 <=? zlen buffer) eqn:C; [|reflexivity]. eexists. split; [reflexivity|]. split; [reflexivity|].
      intros [|k] e a b H Ha Hb; [|destruct k; discriminate H]. injection H as <-. injection Ha as <-. injection Hb as <-.
      cbn [ae_adjacency]. unfold between. rewrite firstn_all2; [reflexivity|]. rewrite skipn_length. unfold zlen in *. lia.
    + set (es' := (o', s') :: es) in *.
      assert (Step : increasing (map (fun e => snd e / 2) ((o, s) :: es') ++ [zlen buffer]) =
                     (s / 2 <=? s' / 2) && increasing (map (fun e => snd e / 2) es' ++ [zlen buffer])) by reflexivity.
      rewrite Step. clear Step.
      assert (Un : un_adj_entries buffer ((o, s) :: es') =
         match slice_get buffer (s / 2) (s' / 2) with None => Err (EData DAdjRange)
         | Some l => let* rest := un_adj_entries buffer es' in Ok (AE o l :: rest) end) by reflexivity.
      rewrite Un. clear Un. unfold slice_get.
      destruct (s / 2 <=? s' / 2) eqn:C1; [|reflexivity]. cbn [andb].
      destruct (increasing (map (fun e => snd e / 2) es' ++ [zlen buffer])) eqn:I.
      * assert (Ls : s' / 2 <= zlen buffer) by exact (increasing_last _ _ _ I).
        rewrite (proj2 (Z.leb_le _ _) Ls). destruct IH as (d & -> & Eo & Ea). cbn [bind].
        eexists. split; [reflexivity|]. split; [cbn [map ae_object fst]; now rewrite Eo|].
        intros [|k] e a b H Ha Hb.
        -- injection H as <-. injection Ha as <-. injection Hb as <-. reflexivity.
        -- exact (Ea k e a b H Ha Hb).
      * destruct (s' / 2 <=? zlen buffer); [|reflexivity]. now rewrite IH.
Qed.

Theorem adj_data_any x :
  (increasing (bounds x) = true -> exists d, un_adj x = Ok d /\ map ae_object d = map fst (ad_entries x) /\
     forall k e a b, nth_error d k = Some e -> nth_error (bounds x) k = Some a -> nth_error (bounds x) (S k) = Some b ->
       ae_adjacency e = between (ad_indices x) a b) /\
  (increasing (bounds x) = false -> un_adj x = Err (EData DAdjRange)).
Proof.
  pose proof (un_entries_any (ad_indices x) (ad_entries x)) as H. unfold bounds, un_adj.
  destruct (increasing _); split; intros C; try discriminate C; exact H.
Qed.

(** ** Triangles *)
Lemma push_at_spec l v x : 0 <= v ->
  if v <? zlen l then
    exists l', push_at l v x = Ok l' /\ length l' = length l /\
      forall j, nth j l' [] = if Z.of_nat j =? v then nth j l [] ++ [x mod 2 ^ 16] else nth j l []
  else push_at l v x = Panic.
Proof.
  intros V. unfold push_at. destruct (v <? zlen l) eqn:C.
  - assert (Lv : (Z.to_nat v < length l)%nat) by (unfold zlen in C; lia).
    destruct (nth_error l (Z.to_nat v)) as [row|] eqn:E; [|apply nth_error_None in E; lia].
    eexists. split; [reflexivity|].
    split; [rewrite app_length, firstn_length; cbn [length]; rewrite skipn_length; lia|].
    intros j. pose proof (nth_error_nth _ _ [] E) as En.
    destruct (Z.eqb_spec (Z.of_nat j) v) as [E0|N]; [subst v|].
    + rewrite Nat2Z.id in *. rewrite app_nth2 by (rewrite firstn_length; lia). rewrite firstn_length.
      replace (j - Nat.min j (length l))%nat with O by lia. cbn [nth]. now rewrite En.
    + destruct (Nat.lt_ge_cases j (Z.to_nat v)).
      * rewrite app_nth1 by (rewrite firstn_length; lia).
        rewrite <- (firstn_skipn (Z.to_nat v) l) at 2. now rewrite app_nth1 by (rewrite firstn_length; lia).
      * rewrite app_nth2 by (rewrite firstn_length; lia). rewrite firstn_length.
        replace (j - Nat.min (Z.to_nat v) (length l))%nat with (S (j - S (Z.to_nat v))) by lia. cbn [nth].
        rewrite <- (firstn_skipn (S (Z.to_nat v)) l) at 2. rewrite app_nth2 by (rewrite firstn_length; lia).
        rewrite firstn_length. f_equal. lia.
  - destruct (nth_error l (Z.to_nat v)) eqn:E; [|reflexivity].
    assert (Z.to_nat v < length l)%nat by (apply nth_error_Some; congruence). unfold zlen in C. lia.
Qed.

(** A list of pushes *)
Definition pushes (ps : list (Z * Z)) (j : nat) : list Z :=
  flat_map (fun p => if Z.of_nat j =? fst p then [snd p mod 2 ^ 16] else []) ps.
Fixpoint push_all (ps : list (Z * Z)) (l : list (list Z)) : res (list (list Z)) :=
  match ps with
  | [] => Ok l
  | (v, x) :: r => let* l := push_at l v x in push_all r l
  end.
Lemma push_all_spec ps : forall l, forallb (fun p => 0 <=? fst p) ps = true ->
  if forallb (fun p => fst p <? zlen l) ps then
    exists l', push_all ps l = Ok l' /\ length l' = length l /\ forall j, nth j l' [] = nth j l [] ++ pushes ps j
  else push_all ps l = Panic.
Proof.
  induction ps as [|[v x] ps IH]; intros l P.
  - exists l. split; [reflexivity|]. split; [reflexivity|]. intros j. now rewrite app_nil_r.
  - cbn [forallb fst] in *. apply andb_true_iff in P as [P1 P2]. pose proof (push_at_spec l v x ltac:(lia)) as S1.
    cbn [push_all]. destruct (v <? zlen l); cbn [andb]; [|now rewrite S1].
    destruct S1 as (l1 & -> & L1 & N1). cbn [bind]. specialize (IH l1 P2).
    assert (zlen l1 = zlen l) as E by (unfold zlen; congruence). rewrite E in IH.
    destruct (forallb _ ps); [|exact IH]. destruct IH as (l2 & -> & L2 & N2). exists l2. split; [reflexivity|].
    split; [congruence|]. intros j. rewrite N2, N1. unfold pushes. cbn [flat_map fst snd].
    destruct (Z.of_nat j =? v); [now rewrite <- app_assoc|reflexivity].
Qed.

Definition face_pushes (t : Z * Z * Z) : list (Z * Z) :=
  let '(a, b, c) := t in [(a, b); (a, c); (b, c); (b, a); (c, a); (c, b)].

Lemma push_all_app p q l : push_all (p ++ q) l = let* l := push_all p l in push_all q l.
Proof.
  revert l. induction p as [|[v x] p IH]; intros l; [reflexivity|]. cbn [app push_all].
  destruct (push_at l v x); cbn [bind]; auto.
Qed.
Lemma add_faces_pushes : forall n indices l, (length indices <= n)%nat ->
  add_faces indices l = push_all (flat_map face_pushes (triangles indices)) l.
Proof.
  induction n as [|n IH]; intros indices l L.
  - destruct indices; [reflexivity|cbn in L; lia].
  - destruct indices as [|a [|b [|c r]]]; try reflexivity. cbn [triangles flat_map]. rewrite push_all_app.
    cbn [add_faces face_pushes push_all].
    repeat (match goal with |- (let* a := push_at ?l ?v ?x in _) = _ => destruct (push_at l v x) end; cbn [bind]; try reflexivity).
    apply IH. cbn [length] in L. lia.
Qed.
Lemma pushes_corners ts j :
  pushes (flat_map face_pushes ts) j = map (fun x => x mod 2 ^ 16) (flat_map (other_corners (Z.of_nat j)) ts).
Proof.
  induction ts as [|[[a b] c] ts IH]; [reflexivity|]. cbn [flat_map]. unfold pushes in *. rewrite flat_map_app, IH, map_app. f_equal.
  cbn [face_pushes flat_map fst snd app other_corners].
  destruct (Z.of_nat j =? a), (Z.of_nat j =? b), (Z.of_nat j =? c); reflexivity.
Qed.
Lemma faces_range ts n : forallb (fun p : Z * Z => fst p <? n) (flat_map face_pushes ts) =
  forallb (fun t : Z * Z * Z => let '(a, b, c) := t in (a <? n) && (b <? n) && (c <? n)) ts.
Proof.
  induction ts as [|[[a b] c] ts IH]; [reflexivity|]. cbn [flat_map forallb]. rewrite forallb_app, IH. f_equal.
  cbn. destruct (a <? n), (b <? n), (c <? n); reflexivity.
Qed.
Lemma triangles_in : forall n l a b c, (length l <= n)%nat -> In (a, b, c) (triangles l) -> In a l /\ In b l /\ In c l.
Proof.
  induction n as [|n IH]; intros l a b c L H.
  - destruct l; [destruct H|cbn in L; lia].
  - destruct l as [|x [|y [|z r]]]; try (now destruct H). cbn [triangles In] in *. destruct H as [H|H].
    + injection H as -> -> ->. tauto.
    + apply IH in H; [tauto|cbn [length] in L; lia].
Qed.

Lemma seams_spec {T} (eq : T -> T -> bool) p ts n : forall positions adjacent,
  length positions = length adjacent ->
  (forall j, (j < length adjacent)%nat -> nth j adjacent [] =
     map (fun x => x mod 2 ^ 16) (flat_map (other_corners (Z.of_nat (n + j))) ts)) ->
  seams eq p positions adjacent =
  map (fun x => x mod 2 ^ 16)
    (flat_map (fun vq => if eq (snd vq) p then flat_map (other_corners (Z.of_nat (fst vq))) ts else [])
       (combine (seq n (length positions)) positions)).
Proof.
  intros positions. revert n. induction positions as [|q ps IH]; intros n adjacent L N; [reflexivity|].
  destruct adjacent as [|row rows]; [discriminate L|]. cbn [seams length seq combine flat_map fst snd].
  rewrite map_app. f_equal.
  - specialize (N O ltac:(cbn; lia)). cbn [nth] in N. rewrite Nat.add_0_r in N. destruct (eq q p); [auto|reflexivity].
  - apply IH; [now injection L|]. intros j J. specialize (N (S j) ltac:(cbn; lia)). cbn [nth] in N. rewrite N.
    do 4 f_equal. lia.
Qed.

Lemma nth_map_lt {A B} (f : A -> B) l i a b : (i < length l)%nat -> nth i (map f l) b = f (nth i l a).
Proof. intros H. rewrite (nth_indep _ b (f a)) by now rewrite map_length. apply map_nth. Qed.

Lemma resize_row n l : is_row n l (resize n (map (fun x => x mod 2 ^ 16) l)).
Proof.
  unfold is_row, resize. set (m := map _ l). split.
  - rewrite app_length, firstn_length, repeat_length. lia.
  - intros i I. destruct (Nat.lt_ge_cases i (length m)).
    + rewrite nth_error_app1 by (rewrite firstn_length; lia).
      rewrite (nth_error_nth' _ 65535) by (rewrite firstn_length; lia). f_equal.
      rewrite <- (firstn_skipn n m) at 2. now rewrite app_nth1 by (rewrite firstn_length; lia).
    + rewrite nth_error_app2 by (rewrite firstn_length; lia). rewrite (nth_overflow m) by lia.
      rewrite (nth_error_nth' _ 65535) by (rewrite repeat_length, firstn_length; lia). f_equal. apply nth_repeat.
Qed.

Lemma Forall2_map_r {A B} (P : A -> B -> Prop) (f : A -> B) l : (forall a, P a (f a)) -> Forall2 P l (map f l).
Proof. intros H. induction l as [|a l IH]; constructor; auto. Qed.

Theorem adjacency {T} (eq : T -> T -> bool) object positions indices :
  Forall (fun v => 0 <= v) indices ->
  (forallb (fun t : Z * Z * Z => let '(a, b, c) := t in (a <? zlen positions) && (b <? zlen positions) && (c <? zlen positions))
     (triangles indices) = true ->
   exists rows, from_triangle_faces eq object positions indices = Ok (AE object (concat rows)) /\
     Forall2 (fun p row => is_row 18 (touching eq positions (triangles indices) p) row) positions rows) /\
  (forallb (fun t : Z * Z * Z => let '(a, b, c) := t in (a <? zlen positions) && (b <? zlen positions) && (c <? zlen positions))
     (triangles indices) = false ->
   from_triangle_faces eq object positions indices = Panic).
Proof.
  intros P. unfold from_triangle_faces, triangle_adjacency.
  rewrite (add_faces_pushes (length indices)) by lia.
  assert (Pos : forallb (fun p => 0 <=? fst p) (flat_map face_pushes (triangles indices)) = true).
  { apply forallb_forall. intros [v x] H. apply in_flat_map in H as ([[a b] c] & Ht & H).
    apply (triangles_in (length indices)) in Ht as (Ha & Hb & Hc); [|lia].
    rewrite Forall_forall in P. apply P in Ha, Hb, Hc. cbn in H.
    repeat (destruct H as [H|H]; [injection H as <- <-; cbn [fst]; lia|]). destruct H. }
  pose proof (push_all_spec _ (repeat [] (length positions)) Pos) as S1.
  replace (zlen (repeat [] (length positions))) with (zlen positions) in S1 by (unfold zlen; now rewrite repeat_length).
  rewrite faces_range in S1. destruct (forallb _ (triangles indices)); split; intros C; try discriminate C.
  - destruct S1 as (l & -> & L & N). cbn [bind]. rewrite repeat_length in L.
    exists (map (fun p => resize 18 (seams eq p positions l)) positions). rewrite <- flat_map_concat_map. split; [reflexivity|].
    assert (R : forall p, seams eq p positions l = map (fun x => x mod 2 ^ 16) (touching eq positions (triangles indices) p)).
    { intros p. apply seams_spec; [auto|]. intros j J. rewrite N, nth_repeat, pushes_corners. reflexivity. }
    apply Forall2_map_r. intros p. rewrite R. apply resize_row.
  - now rewrite S1.
Qed.

Theorem adj_large a b : zlen a = 2 ^ 31 -> b <> [] -> un_adj (adj_of [AE 0 a; AE 1 b]) <> Ok [AE 0 a; AE 1 b].
Proof.
  intros L B. unfold un_adj, adj_of. cbn [adj_entries_from ad_entries ad_indices flat_map ae_object ae_adjacency un_adj_entries].
  rewrite L. change (0 mod 2 ^ 32 / 2) with 0. change ((0 + 2 ^ 31 * 2) mod 2 ^ 32 / 2) with 0.
  unfold slice_get, slice_from. destruct (_ && _); [|discriminate]. destruct (0 <=? _); [|discriminate].
  cbn [bind]. change (Z.to_nat 0) with O. change (Z.to_nat (0 - 0)) with O. cbn [firstn skipn]. intros H.
  injection H as H _. subst a. discriminate L.
Qed.
Lemma forallb_repeat {A} (f : A -> bool) x n : f x = true -> forallb f (repeat x n) = true.
Proof. intros H. induction n as [|n IH]; [reflexivity|]. cbn [repeat forallb]. now rewrite H, IH. Qed.
Theorem adj_large_exists : exists d,
  forallb (fun e => u32_ok (ae_object e) && forallb u16_ok (ae_adjacency e)) d = true /\ zlen d = 2 /\
  un_adj (adj_of d) <> Ok d.
Proof.
  assert (X : exists n, n = 2 ^ 31) by eauto. destruct X as [n E].
  exists [AE 0 (repeat 0 (Z.to_nat n)); AE 1 [5]]. split; [|split].
  - cbn [forallb ae_object ae_adjacency]. now rewrite forallb_repeat.
  - reflexivity.
  - apply adj_large; [|discriminate]. unfold zlen. rewrite repeat_length, Z2Nat.id by lia. exact E.
Qed.
