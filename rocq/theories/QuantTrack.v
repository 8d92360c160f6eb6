(** The error of whole compressed tracks. *)
From Coq Require Import ZArith Reals SpecFloat Lia Lra.
From Flocq Require Import Core BinarySingleNaN.
From Verif Require Import Bytes Ssbh Float32 AnimComp AnimBuf AnimSpec AnimFacts CodecFacts AnimLemmas QuantSpec FlocqFacts QuantFacts.
Local Open Scope R_scope.

(** ** Comparisons *)
Lemma ltb_real x y : finite x = true -> finite y = true -> f32_ltb x y = true <-> real x < real y.
Proof.
  intros Hx Hy. apply finite_rep in Hx, Hy. apply (rep_B prec32 emax32) in Hx as (bx & Ex & Fx & Rx). apply (rep_B prec32 emax32) in Hy as (b & Ey & Fy & Ry).
  unfold f32_ltb. rewrite <- Ex, <- Ey, <- Rx, <- Ry. change (SFltb (B2SF bx) (B2SF b)) with (Bltb bx b).
  rewrite Bltb_correct by auto. case Rlt_bool_spec; split; auto; try discriminate; lra.
Qed.
Lemma eqb_real x y : finite x = true -> finite y = true -> f32_eqb x y = true <-> real x = real y.
Proof.
  intros Hx Hy. apply finite_rep in Hx, Hy. apply (rep_B prec32 emax32) in Hx as (bx & Ex & Fx & Rx). apply (rep_B prec32 emax32) in Hy as (b & Ey & Fy & Ry).
  unfold f32_eqb. rewrite <- Ex, <- Ey, <- Rx, <- Ry. change (SFeqb (B2SF bx) (B2SF b)) with (Beqb bx b).
  rewrite Beqb_correct by auto. case Req_bool_spec; split; auto; try discriminate; congruence.
Qed.
Lemma finite_nan x : finite x = true -> is_nan x = false.
Proof. intros H. apply andb_prop in H as [_ H]. unfold is_nan. now destruct (f32_of x). Qed.
Lemma min_real x y : finite x = true -> finite y = true -> real (f32_min x y) <= real x /\ real (f32_min x y) <= real y.
Proof.
  intros Hx Hy. unfold f32_min. rewrite !finite_nan by auto. destruct (f32_ltb y x) eqn:E.
  - apply ltb_real in E; auto. lra.
  - assert (~ real y < real x) by (rewrite <- ltb_real by auto; congruence). lra.
Qed.
Lemma max_real x y : finite x = true -> finite y = true -> real x <= real (f32_max x y) /\ real y <= real (f32_max x y).
Proof.
  intros Hx Hy. unfold f32_max. rewrite !finite_nan by auto. destruct (f32_ltb x y) eqn:E.
  - apply ltb_real in E; auto. lra.
  - assert (~ real x < real y) by (rewrite <- ltb_real by auto; congruence). lra.
Qed.
Lemma fold_min l : forall a, finite a = true -> (forall x, In x l -> finite x = true) ->
  finite (fold_left f32_min l a) = true /\ forall x, In x (a :: l) -> real (fold_left f32_min l a) <= real x.
Proof.
  induction l as [|b l IH]; intros a Ha Hl; cbn [fold_left].
  - split; auto. intros x [<-|[]]. lra.
  - assert (Hb : finite b = true) by (apply Hl; left; auto).
    assert (Hm : finite (f32_min a b) = true) by (destruct (f32_min_or a b) as [-> | ->]; auto).
    destruct (IH (f32_min a b) Hm) as [F L]; [intros x Hx; apply Hl; right; auto|]. split; auto.
    pose proof (L _ (or_introl eq_refl)). destruct (min_real a b Ha Hb). intros x [<-|[<-|Hx]]; try lra. apply L. right; auto.
Qed.
Lemma fold_max l : forall a, finite a = true -> (forall x, In x l -> finite x = true) ->
  finite (fold_left f32_max l a) = true /\ forall x, In x (a :: l) -> real x <= real (fold_left f32_max l a).
Proof.
  induction l as [|b l IH]; intros a Ha Hl; cbn [fold_left].
  - split; auto. intros x [<-|[]]. lra.
  - assert (Hb : finite b = true) by (apply Hl; left; auto).
    assert (Hm : finite (f32_max a b) = true) by (destruct (f32_max_or a b) as [-> | ->]; auto).
    destruct (IH (f32_max a b) Hm) as [F L]; [intros x Hx; apply Hl; right; auto|]. split; auto.
    pose proof (L _ (or_introl eq_refl)). destruct (max_real a b Ha Hb). intros x [<-|[<-|Hx]]; try lra. apply L. right; auto.
Qed.
(** [find_min] and [find_max] give a range of a column. *)
Lemma find_range l : l <> [] -> (forall x, In x l -> finite x = true) -> column_range l (find_min l) (find_max l).
Proof.
  intros N F. split; [apply reduce_in; auto using f32_min_or|]. split; [apply reduce_in; auto using f32_max_or|].
  destruct l as [|a l]; [congruence|]. cbn [find_min find_max reduce or_default].
  destruct (fold_min l a) as [_ A]; [apply F; left; auto|intros x Hx; apply F; right; auto|].
  destruct (fold_max l a) as [_ B]; [apply F; left; auto|intros x Hx; apply F; right; auto|].
  intros x Hx. split; [apply A|apply B]; auto.
Qed.
Lemma range_real l lo hi lo' hi' : column_range l lo hi -> column_range l lo' hi' -> real lo = real lo' /\ real hi = real hi'.
Proof.
  intros (A & B & C) (A' & B' & C'). pose proof (C _ A'). pose proof (C _ B'). pose proof (C' _ A). pose proof (C' _ B). lra.
Qed.

(** ** One component *)
Definition close (lo hi x y : Z) : Prop := finite y = true /\ real lo <= real y <= real hi /\ Rabs (real y - real x) <= column_error lo hi /\
  (real x = real lo -> real y = real lo) /\ (real x = real hi -> real y = real hi).
Lemma error_nonneg lo hi : real lo <= real hi -> 0 <= column_error lo hi.
Proof.
  intros H. unfold column_error, step, magnitude. change (2 ^ 24 - 1)%Z with 16777215%Z.
  assert (0 <= Rmax (Rabs (real lo)) (Rabs (real hi))) by (eapply Rle_trans; [apply Rabs_pos|apply Rmax_l]).
  assert (0 < / IZR (2 ^ 150)) by (apply Rinv_0_lt_compat, IZR_lt; reflexivity). lra.
Qed.
Lemma value_close l x lo hi : column_finite l -> In x l -> column_range l lo hi -> close lo hi x (cvalue (fun x => x) l x).
Proof.
  intros F Hx R. assert (N : l <> []) by (intros ->; contradiction). unfold cvalue. rewrite map_id.
  assert (Fi : forall y, In y l -> finite y = true) by (intros y Hy; apply (F y y); auto).
  pose proof (find_range l N Fi) as R'. destruct (range_real _ _ _ _ _ R R') as [E1 E2].
  assert (CE : column_error lo hi = column_error (find_min l) (find_max l)).
  { unfold column_error, step, magnitude. now rewrite E1, E2. }
  unfold close. rewrite CE, E1, E2. clear CE E1 E2 R. destruct R' as (Hn & Hm & B).
  set (mn := find_min l) in *. set (mx := find_max l) in *. pose proof (B x Hx) as Bx. pose proof (error_nonneg mn mx ltac:(lra)).
  unfold comp_value. destruct (f32_eqb mn mx) eqn:E.
  - apply eqb_real in E; auto. split; [auto|]. split; [lra|]. replace (real mn - real x) with 0 by lra. rewrite Rabs_R0. split; [lra|]. split; intros; lra.
  - assert (NE : real mn <> real mx) by (rewrite <- eqb_real by auto; congruence).
    pose proof (quantise x mn mx 24 (Fi x Hx) (Fi _ Hn) (Fi _ Hm) Bx ltac:(lra) (proj2 (F mx mn Hm Hn)) ltac:(lia)) as Q.
    cbv zeta in Q. destruct Q as (Qc & Qf & Qr & Qe). unfold comp_code. rewrite Z.mod_small by exact Qc.
    split; [exact Qf|]. split; [exact Qr|].
    split; [|exact (quantise_ends x mn mx 24 (Fi x Hx) (Fi _ Hn) (Fi _ Hm) Bx ltac:(lra) (proj2 (F mx mn Hm Hn)) ltac:(lia))].
    eapply Rle_trans; [exact Qe|]. unfold column_error.
    assert (0 <= step mn mx 24) by (unfold step; change (2 ^ 24 - 1)%Z with 16777215%Z; lra).
    change (2 ^ 24 - 1)%Z with 16777215%Z. nra.
Qed.

(** ** Tracks *)
Definition column_close (col col' : list Z) : Prop := forall i x y lo hi,
  nth_error col i = Some x -> nth_error col' i = Some y -> column_range col lo hi -> close lo hi x y.

Lemma map_close {T} (f : T -> Z) l : column_finite (map f l) -> column_close (map f l) (map (cvalue f l) l).
Proof.
  intros F i x y lo hi Hx Hy R. rewrite nth_error_map in Hx, Hy. destruct (nth_error l i) as [t|] eqn:E; try discriminate.
  cbn in Hx, Hy. injection Hx as <-. injection Hy as <-.
  replace (cvalue f l t) with (cvalue (fun x => x) (map f l) (f t)) by (unfold cvalue; now rewrite map_id).
  apply value_close; auto. apply in_map, (nth_error_In _ _ E).
Qed.
(** A column whose numbers equal those of another *)
Lemma same_close {T} (f g : T -> Z) l : column_finite (map f l) -> (forall t, In t l -> real (g t) = real (f t)) ->
  column_close (map g l) (map (cvalue f l) l).
Proof.
  intros F E i x y lo hi Hx Hy (A & B & C). apply in_map_iff in A as (tl & <- & Hl). apply in_map_iff in B as (th & <- & Hh).
  rewrite nth_error_map in Hx. destruct (nth_error l i) as [t|] eqn:Et; try discriminate. cbn in Hx. injection Hx as <-.
  assert (Ht := nth_error_In _ _ Et).
  assert (R : column_range (map f l) (f tl) (f th)).
  { split; [now apply in_map|]. split; [now apply in_map|]. intros z Hz. apply in_map_iff in Hz as (u & <- & Hu).
    rewrite <- !E by auto. apply C. now apply in_map. }
  pose proof (map_close f l F i (f t) y (f tl) (f th)) as M. unfold close, column_error, step, magnitude in *. rewrite !E by auto.
  apply M; auto. rewrite nth_error_map, Et. reflexivity.
Qed.

Lemma columns_close v : (forall col, In col (columns v) -> column_finite col) -> Forall2 column_close (columns v) (columns (stored_values v)).
Proof.
  intros F. assert (FI : forall col, In col (columns v) -> forall x, In x col -> finite x = true).
  { intros col Hc x Hx. apply (F col Hc x x Hx Hx). }
  destruct v as [l|l|l|l|l|l]; cbn [columns stored_values] in *; rewrite ?map_map.
  - assert (U : tr_uniform l = true -> forall t, In t l -> real (sy t) = real (sx t) /\ real (sz t) = real (sx t)).
    { unfold tr_uniform. rewrite forallb_forall. intros U t Ht. specialize (U t Ht). apply andb_prop in U as [U1 U2].
      assert (Fx : finite (v3x (tr_scale t)) = true) by (apply (FI (map sx l)); [left; auto|apply (in_map sx); auto]).
      assert (Fy : finite (v3y (tr_scale t)) = true) by (apply (FI (map sy l)); [right; left; auto|apply (in_map sy); auto]).
      assert (Fz : finite (v3z (tr_scale t)) = true) by (apply (FI (map sz l)); [right; right; left; auto|apply (in_map sz); auto]).
      apply eqb_real in U1; auto. apply eqb_real in U2; auto. unfold sx, sy, sz. split; congruence. }
    constructor; [|constructor; [|constructor]].
    4: repeat (constructor; [apply (map_close _ l); apply F; cbn; auto 10|]); constructor.
    + replace (map (fun x => sx (stored_transform l x)) l) with (map (cvalue sx l) l).
      2:{ apply map_ext. intros t. unfold stored_transform, sx. cbn. now destruct (tr_uniform l). }
      apply (map_close sx). apply F; cbn; auto.
    + destruct (tr_uniform l) eqn:E.
      * replace (map (fun x => sy (stored_transform l x)) l) with (map (cvalue sx l) l).
        2:{ apply map_ext. intros t. unfold stored_transform, sy. cbn. now rewrite E. }
        apply same_close; [apply F; cbn; auto|]. intros t Ht. apply (U eq_refl t Ht).
      * replace (map (fun x => sy (stored_transform l x)) l) with (map (cvalue sy l) l).
        2:{ apply map_ext. intros t. unfold stored_transform. rewrite E. reflexivity. }
        apply map_close. apply F; cbn; auto.
    + destruct (tr_uniform l) eqn:E.
      * replace (map (fun x => sz (stored_transform l x)) l) with (map (cvalue sx l) l).
        2:{ apply map_ext. intros t. unfold stored_transform, sz. cbn. now rewrite E. }
        apply same_close; [apply F; cbn; auto|]. intros t Ht. apply (U eq_refl t Ht).
      * replace (map (fun x => sz (stored_transform l x)) l) with (map (cvalue sz l) l).
        2:{ apply map_ext. intros t. unfold stored_transform. rewrite E. reflexivity. }
        apply map_close. apply F; cbn; auto.
  - assert (U : uv_uniform l = true -> forall t, In t l -> real (uv_sv t) = real (uv_su t)).
    { unfold uv_uniform. rewrite forallb_forall. intros U t Ht. specialize (U t Ht).
      apply eqb_real in U; [congruence| |].
      - apply (FI (map uv_su l)); [left; auto|apply (in_map uv_su); auto].
      - apply (FI (map uv_sv l)); [right; left; auto|apply (in_map uv_sv); auto]. }
    constructor; [|constructor].
    3: repeat (constructor; [apply (map_close _ l); apply F; cbn; auto 10|]); constructor.
    + apply (map_close uv_su). apply F; cbn; auto.
    + destruct (uv_uniform l) eqn:E.
      * replace (map (fun x => uv_sv (stored_uv l x)) l) with (map (cvalue uv_su l) l).
        2:{ apply map_ext. intros t. unfold stored_uv. cbn. now rewrite E. }
        apply same_close; [apply F; cbn; auto|]. apply (U eq_refl).
      * replace (map (fun x => uv_sv (stored_uv l x)) l) with (map (cvalue uv_sv l) l).
        2:{ apply map_ext. intros t. unfold stored_uv. cbn. now rewrite E. }
        apply map_close. apply F; cbn; auto.
  - constructor; [|constructor]. pose proof (map_close (fun x => x) l) as M. rewrite map_id in M. apply M. apply F; cbn; auto.
  - constructor.
  - constructor.
  - repeat (constructor; [apply (map_close _ l); apply F; cbn; auto 10|]); constructor.
Qed.

Lemma nth_firstn1 {A} (l : list A) i y : nth_error (firstn 1 l) i = Some y -> nth_error l i = Some y.
Proof. destruct l as [|a l]; [now destruct i|]. destruct i as [|[|i]]; cbn; auto; discriminate. Qed.
Lemma first_columns v : columns (first_frame v) = map (firstn 1) (columns v).
Proof. destruct v as [[|? l]|[|? l]|[|? l]|[|? l]|[|? l]|[|? l]]; reflexivity. Qed.
Lemma Forall2_nth {A B} (P : A -> B -> Prop) l m : Forall2 P l m -> forall k a b, nth_error l k = Some a -> nth_error m k = Some b -> P a b.
Proof. induction 1; intros [|k] a b; cbn; try discriminate; intros; [congruence|eauto]. Qed.
Lemma Forall2_len {A B} (P : A -> B -> Prop) l m : Forall2 P l m -> length l = length m.
Proof. induction 1; cbn; auto. Qed.

Theorem track_error v cs : values_ok v = true -> (forall col, In col (columns v) -> column_finite col) ->
  exists b w c, tv_write v Compressed cs = Ok b /\ read_track_values b (track_type v) Compressed (tv_len v) = Ok (w, c) /\
  length (columns w) = length (columns v) /\
  forall k i col col' x y lo hi, nth_error (columns v) k = Some col -> nth_error (columns w) k = Some col' ->
    nth_error col i = Some x -> nth_error col' i = Some y -> column_range col lo hi ->
    finite y = true /\ real lo <= real y <= real hi /\ Rabs (real y - real x) <= column_error lo hi /\
    (real x = real lo -> real y = real lo) /\ (real x = real hi -> real y = real hi).
Proof.
  intros W F. destruct (compressed_values v cs W) as (b & E & _ & _ & R). exists b. pose proof (columns_close v F) as C.
  destruct (frame_bits v =? 0)%Z.
  - eexists. eexists. split; [exact E|]. split; [exact R|]. rewrite first_columns. split; [rewrite map_length; symmetry; eapply Forall2_len, C|].
    intros k i col col' x y lo hi Hc Hc' Hx Hy Hr. rewrite nth_error_map in Hc'.
    destruct (nth_error (columns (stored_values v)) k) as [c2|] eqn:E2; try discriminate. cbn in Hc'. injection Hc' as <-.
    apply (Forall2_nth _ _ _ C k _ _ Hc E2 i); auto. now apply nth_firstn1.
  - eexists. eexists. split; [exact E|]. split; [exact R|]. split; [symmetry; eapply Forall2_len, C|].
    intros k i col col' x y lo hi Hc Hc' Hx Hy Hr. apply (Forall2_nth _ _ _ C k _ _ Hc Hc' i); auto.
Qed.
