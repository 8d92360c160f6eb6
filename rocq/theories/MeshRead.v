(** Proofs about loading mesh files. *)
From Coq Require Import Lia ZifyBool ZifyNat ZifyN.
From Verif Require Import Bytes BytesFacts Ssbh File SsbhSpec SsbhFacts Formats FileFacts Strings AnimComp AnimBuf SsbhLemmas FileSpec.
From Verif Require Import ReloadFacts ShdrFacts DecFacts TrackRead AnimRead VecData MeshData VecFacts RigFacts MeshFacts MeshReadSpec.
Ltac Zify.zify_post_hook ::= ZifyBool.elim_bool_cstr; Z.to_euclidean_division_equations.

#[local] Strategy opaque [typed_write typed_read].

(** ** Numbers *)
Lemma list_ext {A} (l m : list A) : length l = length m ->
  (forall k x y, nth_error l k = Some x -> nth_error m k = Some y -> x = y) -> l = m.
Proof.
  revert m; induction l as [|a l IH]; intros [|c m] L H; try discriminate L; auto.
  f_equal; [apply (H 0%nat); reflexivity|]. apply IH; [now injection L|]. intros k. apply (H (S k)).
Qed.

Lemma rcomp n w b : 0 <= w -> forall p l, read_components n w b p = Ok l <->
  length l = n /\ forall j x, nth_error l j = Some x -> uint_at b (p + w * Z.of_nat j) w x.
Proof.
  intros Hw. induction n as [|n IH]; intros p l; cbn [read_components].
  - split; [intros [= <-]; split; auto; intros [|j]; discriminate|]. intros [L _]. now destruct l.
  - split.
    + intros H. apply bind_inv in H as ([x q] & E & H). apply read_int_at in E as [E ->]; auto.
      apply bind_inv in H as (xs & E2 & [= <-]). apply IH in E2 as [L F]. split; [cbn; lia|].
      intros [|j] y; cbn [nth_error]; [intros [= <-]; now replace (p + w * Z.of_nat 0) with p by lia|].
      intros N. apply F in N. now replace (p + w * Z.of_nat (S j)) with (p + w + w * Z.of_nat j) by lia.
    + intros [L F]. destruct l as [|x l]; [discriminate L|]. pose proof (F 0%nat x eq_refl) as X.
      replace (p + w * Z.of_nat 0) with p in X by lia. rewrite (ruint w b p x Hw X). cbn [bind].
      assert (R : read_components n w b (p + w) = Ok l).
      { apply IH. split; [now injection L|]. intros j y N. specialize (F (S j) y N).
        now replace (p + w + w * Z.of_nat j) with (p + w * Z.of_nat (S j)) by lia. }
      now rewrite R.
Qed.
Lemma rcomp_total n w b p : 0 <= p -> 0 < w -> ((exists l, read_components n w b p = Ok l) <-> n = 0%nat \/ p + w * Z.of_nat n <= zlen b).
Proof.
  intros Hp Hw. split.
  - intros [l H]. apply rcomp in H as [L F]; [|lia]. destruct n as [|n]; [now left|right].
    destruct (nth_error l n) as [x|] eqn:N; [|apply nth_error_None in N; lia].
    apply F in N. apply uint_end in N; lia.
  - revert p Hp. induction n as [|n IH]; intros p Hp H; cbn [read_components]; [eauto|].
    destruct (uint_ex b p w) as [x X]; [lia|lia|lia|]. rewrite (ruint w b p x) by (auto; lia). cbn [bind].
    destruct (IH (p + w)) as [l ->]; [lia|lia|]. cbn [bind]. eauto.
Qed.
Lemma rcomp_np n w b p : read_components n w b p <> Panic.
Proof.
  revert p; induction n as [|n IH]; intros p; cbn [read_components]; [discriminate|].
  apply bind_np; [apply read_int_np|]. intros [x q]. apply bind_np; auto. discriminate.
Qed.

Lemma rrows count n w b stride offset : 0 <= w -> forall i rows, read_rows count n w b i offset stride = Ok rows <->
  length rows = count /\ forall k row, nth_error rows k = Some row -> length row = n /\
    forall j x, nth_error row j = Some x -> uint_at b (offset + (i + Z.of_nat k) * stride + w * Z.of_nat j) w x.
Proof.
  intros Hw. induction count as [|count IH]; intros i rows; cbn [read_rows].
  - split; [intros [= <-]; split; auto; intros [|j]; discriminate|]. intros [L _]. now destruct rows.
  - split.
    + intros H. apply bind_inv in H as (row & E & H). apply rcomp in E; auto.
      apply bind_inv in H as (rs & E2 & [= <-]). apply IH in E2 as [L F]. split; [cbn; lia|].
      intros [|k] y; cbn [nth_error]; [intros [= <-]; now replace (i + Z.of_nat 0) with i by lia|].
      intros N. apply F in N. now replace (i + Z.of_nat (S k)) with (i + 1 + Z.of_nat k) by lia.
    + intros [L F]. destruct rows as [|row rows]; [discriminate L|]. pose proof (F 0%nat row eq_refl) as X.
      replace (i + Z.of_nat 0) with i in X by lia. apply rcomp in X; auto. rewrite X. cbn [bind].
      assert (R : read_rows count n w b (i + 1) offset stride = Ok rows).
      { apply IH. split; [now injection L|]. intros k r N. specialize (F (S k) r N).
        now replace (i + 1 + Z.of_nat k) with (i + Z.of_nat (S k)) by lia. }
      now rewrite R.
Qed.
Lemma rrows_total count n w b stride offset : 0 <= offset -> 0 <= stride -> 0 < w -> (0 < n)%nat -> forall i, 0 <= i ->
  ((exists rows, read_rows count n w b i offset stride = Ok rows) <->
   count = 0%nat \/ offset + (i + Z.of_nat count - 1) * stride + w * Z.of_nat n <= zlen b).
Proof.
  intros Ho Hs Hw Hn. induction count as [|count IH]; intros i Hi; cbn [read_rows]; [split; eauto|].
  assert (P : 0 <= offset + i * stride) by nia. split.
  - intros [rows H]. right. apply bind_inv in H as (row & E & H). apply bind_inv in H as (rs & E2 & _).
    assert (X : exists l, read_components n w b (offset + i * stride) = Ok l) by eauto. apply rcomp_total in X; [|auto|auto].
    assert (Y : exists rows, read_rows count n w b (i + 1) offset stride = Ok rows) by eauto. apply IH in Y; [|lia].
    destruct Y as [-> |Y]; [replace (i + Z.of_nat 1 - 1) with i by lia; lia|].
    now replace (i + Z.of_nat (S count) - 1) with (i + 1 + Z.of_nat count - 1) by lia.
  - intros [[=]|H].
    destruct (proj2 (rcomp_total n w b (offset + i * stride) P Hw)) as [row ->].
    { right. assert (i * stride <= (i + Z.of_nat (S count) - 1) * stride) by (apply Z.mul_le_mono_nonneg_r; lia). lia. }
    cbn [bind]. destruct (proj2 (IH (i + 1) ltac:(lia))) as [rows ->]; [|cbn [bind]; eauto].
    right. now replace (i + 1 + Z.of_nat count - 1) with (i + Z.of_nat (S count) - 1) by lia.
Qed.
Lemma rrows_np count n w b stride offset i : read_rows count n w b i offset stride <> Panic.
Proof.
  revert i; induction count as [|count IH]; intros i; cbn [read_rows]; [discriminate|].
  apply bind_np; [apply rcomp_np|]. intros row. apply bind_np; auto. discriminate.
Qed.

(** ** Vectors *)
Definition vectors_inside (b : list Z) (start stride count : Z) (t : data_type) : Prop :=
  0 < count -> stride <> 0 /\ let '(d, w, _) := layout t in start + stride * (count - 1) + components d * w <= zlen b.

Lemma layout_eq t : layout t = (type_dim t, component_size t, snd (layout t)) /\ (forall n, snd (layout t) n = decode t n) /\
  components (type_dim t) = Z.of_nat (dim_count (type_dim t)).
Proof. destruct t; repeat split. Qed.
Lemma dims_pos d : (0 < dim_count d)%nat.
Proof. destruct d; cbn; lia. Qed.

Lemma vectors_fun b start stride count t v v' : vectors_at b start stride count t v -> vectors_at b start stride count t v' -> v = v'.
Proof.
  unfold vectors_at. destruct (layout t) as [[d w] value]. intros (D & L & _ & F) (D' & L' & _ & F').
  destruct v as [vd rows], v' as [vd' rows']. cbn in *. subst. f_equal. unfold zlen in *. apply list_ext; [lia|].
  intros k r r' N N'. destruct (F _ _ N) as [Lr G], (F' _ _ N') as [Lr' G']. unfold zlen in *. apply list_ext; [lia|].
  intros j x x' M M'. destruct (G _ _ M) as (n & U & ->), (G' _ _ M') as (n' & U' & ->). f_equal. now apply (uint_fun _ _ _ _ _ U).
Qed.
Lemma map_nth {A B} (f : A -> B) l k y : nth_error (map f l) k = Some y <-> exists x, nth_error l k = Some x /\ y = f x.
Proof.
  rewrite nth_error_map. destruct (nth_error l k); cbn; split; try discriminate; [intros [= <-]; eauto|intros (x & [= <-] & ->); auto|intros (x & [=] & _)].
Qed.

Section Vectors.
  Variables (b : list Z) (start stride count : Z) (t : data_type).
  Hypothesis Hstart : 0 <= start.
  Hypothesis Hstride : 0 <= stride.
  Hypothesis Hcount : 0 <= count.

  Lemma vector_read_at v : vector_read b count start stride t = Ok v -> vectors_at b start stride count t v.
  Proof.
    unfold vector_read, vectors_at. destruct (layout_eq t) as (Ey & V & C). rewrite Ey, C.
    destruct ((0 <? count) && (stride =? 0)) eqn:Z0; [discriminate|]. intros H. apply bind_inv in H as (rows & E & [= <-]).
    pose proof (component_size_pos t) as W. apply rrows in E as [L F]; [|lia]. cbn [vec_dim vec_rows]. split; [reflexivity|].
    unfold zlen. rewrite map_length. split; [lia|]. split; [lia|]. intros i row N. apply map_nth in N as (r & N & ->).
    apply F in N as [Lr G]. rewrite map_length. split; [lia|]. intros j x M. apply map_nth in M as (n & M & ->).
    exists n. rewrite V. split; auto. apply G in M. now replace (start + stride * Z.of_nat i) with (start + (0 + Z.of_nat i) * stride) by lia.
  Qed.
  Lemma vector_read_total : (exists v, vector_read b count start stride t = Ok v) <-> vectors_inside b start stride count t.
  Proof.
    unfold vector_read, vectors_inside. destruct (layout_eq t) as (Ey & _ & C). rewrite Ey, C.
    pose proof (component_size_pos t) as W. pose proof (dims_pos (type_dim t)) as D.
    pose proof (rrows_total (Z.to_nat count) (dim_count (type_dim t)) (component_size t) b stride start Hstart Hstride W D 0 ltac:(lia)) as R.
    destruct ((0 <? count) && (stride =? 0)) eqn:Z0; [split; [intros [v [=]]|intros H; lia]|]. split.
    - intros [v H] P. apply bind_inv in H as (rows & E & _). destruct R as [R _]. destruct R as [R|R]; [eauto|lia|].
      split; [lia|]. replace (stride * (count - 1)) with ((0 + Z.of_nat (Z.to_nat count) - 1) * stride); [lia|].
      rewrite Z2Nat.id by lia. lia.
    - intros H. destruct R as [_ R]. destruct R as [rows ->]; [|cbn [bind]; eauto].
      destruct (Z.eq_dec count 0); [left; lia|right]. destruct H as [_ H]; [lia|].
      replace ((0 + Z.of_nat (Z.to_nat count) - 1) * stride) with (stride * (count - 1)); [lia|].
      rewrite Z2Nat.id by lia. lia.
  Qed.
  Lemma vectors_at_inside v : vectors_at b start stride count t v -> vectors_inside b start stride count t.
  Proof.
    unfold vectors_at, vectors_inside. destruct (layout_eq t) as (Ey & _ & C). rewrite Ey, C.
    pose proof (component_size_pos t) as W. pose proof (dims_pos (type_dim t)) as D.
    intros (_ & L & S & F) P. split; [auto|]. unfold zlen in L.
    destruct (nth_error (vec_rows v) (Z.to_nat (count - 1))) as [row|] eqn:N; [|apply nth_error_None in N; lia].
    apply F in N as [Lr G]. unfold zlen in Lr.
    destruct (nth_error row (dim_count (type_dim t) - 1)) as [x|] eqn:M; [|apply nth_error_None in M; lia].
    apply G in M as (n & U & _). apply uint_end in U; [|nia|lia].
    replace (Z.of_nat (Z.to_nat (count - 1))) with (count - 1) in U by lia.
    replace (Z.of_nat (dim_count (type_dim t) - 1)) with (Z.of_nat (dim_count (type_dim t)) - 1) in U by lia. lia.
  Qed.
  Lemma vector_read_iff v : vector_read b count start stride t = Ok v <-> vectors_at b start stride count t v.
  Proof.
    split; [apply vector_read_at|]. intros H. destruct (proj2 vector_read_total (vectors_at_inside v H)) as [v' E].
    rewrite E. f_equal. apply vector_read_at in E. now apply (vectors_fun _ _ _ _ _ _ _ E).
  Qed.
  Lemma vector_read_np : vector_read b count start stride t <> Panic.
  Proof. unfold vector_read. destruct (_ && _); [discriminate|]. apply bind_np; [apply rrows_np|]. discriminate. Qed.
End Vectors.

(** ** Fields *)
Ltac open_match H := repeat match type of H with context [match ?x with _ => _ end] => destruct x; try discriminate H end.
Lemma un_raw_iff v r : un_raw v = Ok r <-> object_fields v r.
Proof.
  split.
  - intros H. unfold un_raw in H. open_match H. injection H as <-. unfold object_fields. cbn. do 12 eexists. repeat split; reflexivity.
  - intros (u1 & o0 & o1 & o2 & o3 & s0 & s1 & s2 & s3 & u2 & rg & bo & E1 & E2 & ->). destruct r. cbn in *. now subst.
Qed.
Lemma usage_iff ver n u : un_usage ver n = Ok u <-> In (n, u) (usages ver).
Proof.
  unfold un_usage, usages. split.
  - intros H. destruct ver; repeat match type of H with context [if ?c then _ else _] => destruct c eqn:? end; try discriminate H;
      injection H as <-; match goal with E : (n =? ?k) = true |- _ => assert (n = k) as -> by lia end; cbn; tauto.
  - destruct ver; intros H; cbn [In] in H; repeat (destruct H as [[= <- <-]|H]; [reflexivity|]); destruct H.
Qed.
Lemma type_iff ver n u : un_type ver n = Ok u <-> In (n, u) (types ver).
Proof.
  unfold un_type, types. split.
  - intros H. destruct ver; repeat match type of H with context [if ?c then _ else _] => destruct c eqn:? end; try discriminate H;
      injection H as <-; match goal with E : (n =? ?k) = true |- _ => assert (n = k) as -> by lia end; cbn; tauto.
  - destruct ver; intros H; cbn [In] in H; repeat (destruct H as [[= <- <-]|H]; [reflexivity|]); destruct H.
Qed.
Lemma un_attribute_iff ver v a : un_attribute ver v = Ok a <-> attribute_fields ver v a.
Proof.
  unfold attribute_fields. split.
  - intros H. unfold un_attribute in H.
    destruct ver; open_match H; apply bind_inv in H as (u & E & H); apply bind_inv in H as (t & E2 & [= <-]);
      apply usage_iff in E; apply type_iff in E2; cbn [a_usage a_type a_buffer a_offset a_sub a_name]; do 2 eexists;
      (split; [exact E|split; [exact E2|]]); [auto|do 2 eexists; split; [reflexivity|reflexivity]..].
  - intros (u & t & Hu & Ht & H). apply usage_iff in Hu. apply type_iff in Ht. destruct a as [nm sub bi us ty of]. cbn in *.
    destruct ver; [destruct H as [-> ->]|destruct H as (x & xs & -> & ->)..]; unfold un_attribute; rewrite Hu, Ht; reflexivity.
Qed.
Lemma un_list_iff {A} (f : val -> res A) (P : val -> A -> Prop) vs : (forall v x, In v vs -> (f v = Ok x <-> P v x)) ->
  forall xs, un_list f vs = Ok xs <-> Forall2 P vs xs.
Proof.
  induction vs as [|v vs IH]; intros H xs; cbn [un_list].
  - split; [intros [= <-]; constructor|intros F; now inversion F].
  - split.
    + intros E. apply bind_inv in E as (x & E1 & E). apply bind_inv in E as (r & E2 & [= <-]). constructor.
      * apply H; [left|]; auto.
      * apply IH; auto. intros. apply H. now right.
    + intros F. inversion F as [|? x ? r Fx Fr]; subst. apply H in Fx; [|now left]. rewrite Fx. cbn [bind].
      apply IH in Fr; [|intros; apply H; now right]. now rewrite Fr.
Qed.
Lemma un_list_ex {A} (f : val -> res A) vs : (exists xs, un_list f vs = Ok xs) <-> Forall (fun v => exists x, f v = Ok x) vs.
Proof.
  induction vs as [|v vs IH]; cbn [un_list]; [split; eauto|]. split.
  - intros [xs E]. apply bind_inv in E as (x & E1 & E). apply bind_inv in E as (r & E2 & [= <-]). constructor; [eauto|]. apply IH. eauto.
  - intros F. inversion F as [|? ? [x Fx] Fr]; subst. rewrite Fx. apply IH in Fr as [r ->]. cbn. eauto.
Qed.
Lemma un_list_np {A} (f : val -> res A) vs : (forall v, f v <> Panic) -> un_list f vs <> Panic.
Proof.
  intros H. induction vs as [|v vs IH]; cbn [un_list]; [discriminate|]. apply bind_np; auto. intros x. apply bind_np; auto. discriminate.
Qed.

(** ** Attributes *)
Definition raw_sound (r : raw_object) : Prop :=
  0 <= r_count r /\ 0 <= r_index_count r /\ 0 <= r_index_offset r /\
  length (r_offsets r) = 4%nat /\ length (r_strides r) = 4%nat /\
  Forall (fun x => 0 <= x) (r_offsets r) /\ Forall (fun x => 0 <= x) (r_strides r).
Definition attribute_sound (a : attribute) : Prop := 0 <= a_buffer a /\ 0 <= a_offset a.

Section Object.
  Variables (bufs : list (list Z)) (r : raw_object).
  Hypothesis Hr : raw_sound r.

  Lemma offset_stride a : attribute_sound a ->
    (forall b, nth_error bufs (Z.to_nat (a_buffer a)) = Some b -> a_buffer a < 4 ->
     let start := a_offset a + nth (Z.to_nat (a_buffer a)) (r_offsets r) 0 in
     let stride := nth (Z.to_nat (a_buffer a)) (r_strides r) 0 in
     0 <= start /\ 0 <= stride /\ read_attribute_data bufs r a = vector_read b (r_count r) start stride (a_type a)) /\
    (nth_error bufs (Z.to_nat (a_buffer a)) = None \/ 4 <= a_buffer a -> exists e, read_attribute_data bufs r a = Err e).
  Proof.
    intros [Hb Ho]. destruct Hr as (Hc & _ & _ & Lo & Ls & Fo & Fs).
    assert (N : forall l, Forall (fun x => 0 <= x) l -> forall k, 0 <= nth k l 0).
    { induction 1 as [|x l Hx F IH]; intros [|k]; cbn; auto; lia. }
    unfold read_attribute_data, calculate_offset_stride. split.
    - intros b -> L. cbn zeta. specialize (N _ Fo (Z.to_nat (a_buffer a))) as No. specialize (N _ Fs (Z.to_nat (a_buffer a))) as Ns.
      split; [lia|]. split; [lia|].
      rewrite (nth_error_nth' (r_offsets r) 0) by lia. rewrite (nth_error_nth' (r_strides r) 0) by lia. reflexivity.
    - intros [->|L]; [eauto|]. destruct (nth_error bufs _); [|eauto].
      destruct (nth_error (r_offsets r) (Z.to_nat (a_buffer a))) eqn:E; [|cbn; eauto].
      assert (Z.to_nat (a_buffer a) < length (r_offsets r))%nat by (apply nth_error_Some; congruence). lia.
  Qed.

  Lemma attribute_loads a d : attribute_sound a ->
    (bind (read_attribute_data bufs r a) (fun x => Ok (MkAttr (a_name a) x)) = Ok d <-> loaded_attribute bufs r a d).
  Proof.
    intros S. destruct (offset_stride a S) as [O1 O2]. unfold loaded_attribute. destruct S as [Hb Ho].
    destruct Hr as (Hc & _). split.
    - intros H. apply bind_inv in H as (x & E & [= <-]). cbn [attr_name attr_data]. split; auto.
      destruct (nth_error bufs (Z.to_nat (a_buffer a))) as [b|] eqn:N; [|destruct O2 as [e E']; [auto|congruence]].
      destruct (Z_lt_le_dec (a_buffer a) 4) as [L|L]; [|destruct O2 as [e E']; [auto|congruence]].
      split; [lia|]. exists b. split; auto. destruct (O1 b eq_refl L) as (P1 & P2 & P3). rewrite P3 in E. now apply vector_read_iff in E.
    - intros (N & [_ L] & b & B & V). destruct (O1 b B L) as (P1 & P2 & P3). rewrite P3.
      apply vector_read_iff in V; auto. rewrite V. cbn [bind]. rewrite <- N. now destruct d.
  Qed.
  Lemma attribute_total a : attribute_sound a -> ((exists d, read_attribute_data bufs r a = Ok d) <-> attribute_inside bufs r a).
  Proof.
    intros S. destruct (offset_stride a S) as [O1 O2]. unfold attribute_inside. destruct S as [Hb Ho].
    destruct Hr as (Hc & _). split.
    - intros [x E].
      destruct (nth_error bufs (Z.to_nat (a_buffer a))) as [b|] eqn:N; [|destruct O2 as [e E']; [auto|congruence]].
      destruct (Z_lt_le_dec (a_buffer a) 4) as [L|L]; [|destruct O2 as [e E']; [auto|congruence]].
      split; [lia|]. exists b. split; auto. destruct (O1 b eq_refl L) as (P1 & P2 & P3). rewrite P3 in E.
      apply (vector_read_total b _ _ _ (a_type a) P1 P2 Hc). eauto.
    - intros ([_ L] & b & B & V). destruct (O1 b B L) as (P1 & P2 & P3). rewrite P3.
      apply (vector_read_total b _ _ _ (a_type a) P1 P2 Hc). exact V.
  Qed.
  Lemma attribute_np a : attribute_sound a -> read_attribute_data bufs r a <> Panic.
  Proof.
    intros S. destruct (offset_stride a S) as [O1 O2].
    destruct (nth_error bufs (Z.to_nat (a_buffer a))) as [b|] eqn:N; [|destruct O2 as [e E']; [auto|congruence]].
    destruct (Z_lt_le_dec (a_buffer a) 4) as [L|L]; [|destruct O2 as [e E']; [auto|congruence]].
    destruct (O1 b eq_refl L) as (P1 & P2 & P3). rewrite P3. apply vector_read_np.
  Qed.

  Lemma each_loads l ds : Forall attribute_sound l -> (read_each bufs r l = Ok ds <-> Forall2 (loaded_attribute bufs r) l ds).
  Proof.
    intros F. revert ds. induction F as [|a l S F IH]; intros ds; cbn [read_each].
    - split; [intros [= <-]; constructor|intros H; now inversion H].
    - split.
      + intros H. apply bind_inv in H as (x & E1 & H). apply bind_inv in H as (rest & E2 & [= <-]). constructor.
        * apply attribute_loads; auto. now rewrite E1.
        * now apply IH.
      + intros H. inversion H as [|? d ? rest Ha Hl]; subst. apply attribute_loads in Ha; auto.
        apply bind_inv in Ha as (x & E1 & [= <-]). rewrite E1. cbn [bind]. apply IH in Hl. now rewrite Hl.
  Qed.
  Lemma each_total l : Forall attribute_sound l -> ((exists ds, read_each bufs r l = Ok ds) <-> Forall (attribute_inside bufs r) l).
  Proof.
    induction 1 as [|a l S F IH]; cbn [read_each]; [split; eauto|]. split.
    - intros [ds H]. apply bind_inv in H as (x & E1 & H). apply bind_inv in H as (rest & E2 & _). constructor.
      + apply attribute_total; eauto.
      + apply IH; eauto.
    - intros H. inversion H as [|? ? Ha Hl]; subst. apply attribute_total in Ha as [x ->]; auto. cbn [bind].
      apply IH in Hl as [ds ->]. cbn. eauto.
  Qed.
  Lemma each_np l : Forall attribute_sound l -> read_each bufs r l <> Panic.
  Proof.
    induction 1 as [|a l S F IH]; cbn [read_each]; [discriminate|].
    apply bind_np; [now apply attribute_np|]. intros x. apply bind_np; auto. discriminate.
  Qed.
  Lemma sound_filter l f : Forall attribute_sound l -> Forall attribute_sound (filter f l).
  Proof. rewrite !Forall_forall. intros H x I. apply filter_In in I as [I _]. auto. Qed.
  Lemma usage_loads l u ds : Forall attribute_sound l -> (read_attributes bufs r l u = Ok ds <-> loaded_usage bufs r l u ds).
  Proof.
    intros F. unfold read_attributes, loaded_usage. rewrite each_loads by now apply sound_filter. split; [eauto|]. intros (l' & H & ->). exact H.
  Qed.
  Lemma usage_np l u : Forall attribute_sound l -> read_attributes bufs r l u <> Panic.
  Proof. intros F. apply each_np. now apply sound_filter. Qed.
  Lemma usages_total l : Forall attribute_sound l ->
    ((forall u, exists ds, read_attributes bufs r l u = Ok ds) <-> Forall (attribute_inside bufs r) l).
  Proof.
    intros F. unfold read_attributes. split.
    - intros H. apply Forall_forall. intros a I. specialize (H (a_usage a)). apply each_total in H; [|now apply sound_filter].
      rewrite Forall_forall in H. apply H. apply filter_In. split; auto. now destruct (a_usage a).
    - intros H u. apply each_total; [now apply sound_filter|]. rewrite Forall_forall in *. intros a I. apply filter_In in I as [I _]. auto.
  Qed.

  (** ** Indices *)
  Lemma indices_loads ib l : read_vertex_indices ib r = Ok l <-> indices_at ib r l.
  Proof.
    destruct Hr as (Hc & Hi & _). unfold read_vertex_indices, read_data, indices_at, index_size, zlen.
    destruct (r_type r =? 0); rewrite rcomp by lia; split; intros [L F]; (split; [lia|exact F]).
  Qed.
  Lemma indices_total ib : (exists l, read_vertex_indices ib r = Ok l) <-> indices_inside ib r.
  Proof.
    destruct Hr as (Hc & Hi & Ho & _). unfold read_vertex_indices, read_data, indices_inside, index_size.
    destruct (r_type r =? 0); rewrite rcomp_total by lia; rewrite Z2Nat.id by lia; split; (intros [H|H]; [left; lia|right; lia]).
  Qed.
  Lemma indices_np ib : read_vertex_indices ib r <> Panic.
  Proof. unfold read_vertex_indices, read_data. destruct (_ =? _); apply rcomp_np. Qed.
End Object.

(** ** Influences *)
Lemma uint_shift l b p w n : 0 <= p -> uint_at b p w n -> uint_at (l ++ b) (zlen l + p) w n.
Proof.
  intros Hp (bs & L & B & E). exists bs. repeat split; auto. intros i x N. specialize (B i x N).
  rewrite byte_at_nth in * by (unfold zlen; lia). rewrite nth_error_app2 by (unfold zlen; lia).
  now replace (Z.to_nat (zlen l + p + Z.of_nat i) - length l)%nat with (Z.to_nat (p + Z.of_nat i)) by (unfold zlen; lia).
Qed.
Lemma uint_first l b : uint_at (l ++ b) 0 (zlen l) (le_val l).
Proof. exists l. repeat split; auto. apply (bytes_at_mid [] l b). Qed.
Lemma weights_bytes n : forall bs, (length bs <= n)%nat -> zlen (weights_of_bytes bs) = zlen bs / 6 /\
  forall k w, nth_error (weights_of_bytes bs) k = Some w ->
    uint_at bs (6 * Z.of_nat k) 2 (wt_index w) /\ uint_at bs (6 * Z.of_nat k + 2) 4 (wt_weight w).
Proof.
  assert (S0 : forall bs, (length bs < 6)%nat -> weights_of_bytes bs = []).
  { intros bs H. do 6 (destruct bs as [|? bs]; [reflexivity|]). cbn in H. lia. }
  induction n as [|n IH]; intros bs L.
  - rewrite S0 by lia. split; [unfold zlen; cbn; lia|]. intros [|k]; discriminate.
  - destruct (le_lt_dec 6 (length bs)) as [G|G]; [|rewrite S0 by lia; split; [unfold zlen; cbn; lia|intros [|k]; discriminate]].
    do 6 (destruct bs as [|? bs]; [cbn in G; lia|]). cbn [length] in *. cbn [weights_of_bytes].
    destruct (IH bs ltac:(lia)) as [IL IF]. split; [unfold zlen in *; cbn [length] in *; lia|].
    intros [|k] w; cbn [nth_error].
    + intros [= <-]. cbn [wt_index wt_weight]. split; [apply (uint_first [z; z0])|].
      apply (uint_shift [z; z0] _ 0 4); [lia|]. apply (uint_first [z1; z2; z3; z4]).
    + intros N. apply IF in N as [N1 N2]. apply (uint_shift [z; z0; z1; z2; z3; z4]) in N1, N2; [|lia|lia].
      cbn [app] in N1, N2. change (zlen [z; z0; z1; z2; z3; z4]) with 6 in *.
      replace (6 * Z.of_nat (S k)) with (6 + 6 * Z.of_nat k) by lia.
      replace (6 + 6 * Z.of_nat k + 2) with (6 + (6 * Z.of_nat k + 2)) by lia. auto.
Qed.
Lemma weights_iff ver v l : to_weights ver v = Ok l <-> stored_weights ver v l.
Proof.
  assert (A : forall vs, un_list un_weight vs = Ok l <-> vs = map (fun w => VStruct [VInt (wt_index w); VInt (wt_weight w)]) l).
  { intros vs. revert l. induction vs as [|x vs IH]; intros l; cbn [un_list].
    - split; [intros [= <-]; auto|]. now destruct l.
    - split.
      + intros H. apply bind_inv in H as (w & E & H). apply bind_inv in H as (ws & E2 & [= <-]). cbn [map]. apply IH in E2 as <-.
        f_equal. unfold un_weight in E. open_match E. now injection E as <-.
      + destruct l as [|[i w] l]; cbn [map]; [discriminate|]. intros [= -> H]. cbn [un_weight bind wt_index wt_weight].
        rewrite (proj2 (IH l) H). reflexivity. }
  unfold stored_weights, to_weights. destruct ver.
  1,2: split; [intros H; destruct v; try discriminate H; f_equal; now apply A|intros ->; now apply A].
  split.
  - intros H. destruct v; try discriminate H. injection H as <-. exists bs. split; auto. apply (weights_bytes (length bs)). lia.
  - intros (bs & -> & L & F). f_equal. destruct (weights_bytes (length bs) bs) as [L' F']; [lia|]. unfold zlen in *. apply list_ext; [lia|].
    intros k [i w] [i' w'] N N'. apply F' in N as [N1 N2]. apply F in N' as [N1' N2']. cbn in *.
    f_equal; [now apply (uint_fun _ _ _ _ _ N1)|now apply (uint_fun _ _ _ _ _ N2)].
Qed.
Lemma influence_iff ver v i : un_influence ver v = Ok i <-> loaded_influence ver v i.
Proof.
  unfold un_influence, loaded_influence. split.
  - intros H. destruct v as [| |[|n [|w [|? ?]]]| | |]; try discriminate H. destruct (ssbh_to_str n) eqn:E; [|discriminate H].
    apply bind_inv in H as (ws & W & [= <-]). apply weights_iff in W. eauto 6.
  - intros (n & w & -> & E & W). rewrite E. apply weights_iff in W. rewrite W. now destruct i.
Qed.

Definition group_shape (ver : mesh_version) (g : val) : Prop :=
  exists n i f bufs, g = VStruct [n; VInt i; f; VArr bufs] /\
    Forall (fun v => exists bone w ws, v = VStruct [bone; w] /\ to_weights ver w = Ok ws) bufs.
Lemma owner_iff n i name subindex f bufs bufs' :
  group_of_object (VStruct [n; VInt i; f; VArr bufs]) name subindex bufs' <->
  match ssbh_to_str n with Some s => list_eqb s name | None => false end && (i =? subindex) = true /\ bufs' = bufs.
Proof.
  unfold group_of_object. split.
  - intros (n' & f' & [= <- -> <- ->] & ->). rewrite (proj2 (list_eqb_eq name name) eq_refl), Z.eqb_refl. auto.
  - intros [H ->]. apply andb_true_iff in H as [H1 H2]. exists n, f. split; [f_equal; repeat f_equal; lia|].
    destruct (ssbh_to_str n); [|discriminate]. f_equal. now apply list_eqb_eq.
Qed.
Lemma rigging_iff ver groups name subindex l : Forall (group_shape ver) groups ->
  (read_rigging_data ver groups name subindex = Ok l <-> loaded_influences ver groups name subindex l).
Proof.
  unfold loaded_influences. intros F. revert l. induction F as [|g groups (n & i & f & bufs & -> & _) F IH]; intros l; cbn [read_rigging_data].
  - split; [intros [= <-]; exists []; auto|]. intros (parts & -> & H). now inversion H.
  - pose proof (owner_iff n i name subindex f bufs) as O.
    destruct (match ssbh_to_str n with Some s => list_eqb s name | None => false end && (i =? subindex)) eqn:C.
    + split.
      * intros H. apply bind_inv in H as (p & E1 & H). apply bind_inv in H as (rest & E2 & [= <-]). apply IH in E2 as (parts & -> & G).
        exists (p :: parts). split; auto. constructor; auto. left. exists bufs. split; [now apply O|].
        apply (un_list_iff _ (loaded_influence ver)) in E1; auto. intros. apply influence_iff.
      * intros (parts & -> & G). inversion G as [|? p ? ps H1 H2]; subst. destruct H1 as [(b' & H3 & H4)|[H3 _]].
        -- apply O in H3 as [_ ->]. apply (un_list_iff (un_influence ver)) in H4; [|intros; apply influence_iff]. rewrite H4. cbn [bind].
           rewrite (proj2 (IH (concat ps))) by eauto. reflexivity.
        -- exfalso. apply (H3 bufs). now apply O.
    + split.
      * intros H. apply IH in H as (parts & -> & G). exists ([] :: parts). split; auto. constructor; auto. right. split; auto.
        intros b' H. apply O in H as [[=] _].
      * intros (parts & -> & G). inversion G as [|? p ? ps H1 H2]; subst. destruct H1 as [(b' & H3 & H4)|[_ ->]].
        -- apply O in H3 as [[=] _].
        -- cbn [concat app]. apply IH. eauto.
Qed.
Lemma rigging_total ver groups name subindex : Forall (group_shape ver) groups ->
  ((exists l, read_rigging_data ver groups name subindex = Ok l) <-> bones_named groups name subindex).
Proof.
  intros F. unfold bones_named. induction F as [|g groups (n & i & f & bufs & -> & S) F IH]; cbn [read_rigging_data].
  - split; [intros _ g bufs []|]. eauto.
  - pose proof (owner_iff n i name subindex f bufs) as O.
    destruct (match ssbh_to_str n with Some s => list_eqb s name | None => false end && (i =? subindex)) eqn:C.
    + split.
      * intros [l H]. apply bind_inv in H as (p & E1 & H). apply bind_inv in H as (rest & E2 & _).
        intros g b' [<-|I] G bone w J; [|now apply (proj1 IH (ex_intro _ _ E2) g b' I G bone w)].
        apply O in G as [_ ->]. assert (X : exists xs, un_list (un_influence ver) bufs = Ok xs) by eauto.
        apply un_list_ex in X. rewrite Forall_forall in X. destruct (X _ J) as [x E]. cbn in E. destruct (ssbh_to_str bone); congruence.
      * intros H. assert (X : exists xs, un_list (un_influence ver) bufs = Ok xs).
        { apply un_list_ex. apply Forall_forall. intros v I. rewrite Forall_forall in S. destruct (S v I) as (bone & w & ws & -> & W).
          cbn [un_influence]. destruct (ssbh_to_str bone) eqn:E; [rewrite W; cbn; eauto|].
          exfalso. apply (H (VStruct [n; VInt i; f; VArr bufs]) bufs (or_introl eq_refl) (proj2 (O bufs) (conj eq_refl eq_refl)) bone w I E). }
        destruct X as [xs ->]. cbn [bind]. destruct (proj2 IH) as [l ->]; [|cbn; eauto]. intros g b' I. apply H. now right.
    + rewrite IH. split.
      * intros H g b' [<-|I]; [|now apply H]. intros G. apply O in G as [[=] _].
      * intros H g b' I. apply H. now right.
Qed.
Ltac cases_np := repeat match goal with |- context [match ?x with _ => _ end] => destruct x end; discriminate.
Lemma weights_np ver v : to_weights ver v <> Panic.
Proof. destruct ver, v; cbn; try discriminate; apply un_list_np; intros w; unfold un_weight; cases_np. Qed.
Lemma rigging_np ver groups name subindex : read_rigging_data ver groups name subindex <> Panic.
Proof.
  induction groups as [|g groups IH]; cbn [read_rigging_data]; [discriminate|].
  destruct g as [| |[|n [|[i| | | | |] [|f [|[| | | |bufs|] [|? ?]]]]]| | |]; try discriminate.
  destruct (_ && _); auto. apply bind_np; [|intros l; apply bind_np; auto; discriminate].
  apply un_list_np. intros v. unfold un_influence. destruct v as [| |[|m [|w [|? ?]]]| | |]; try discriminate.
  destruct (ssbh_to_str m); [|discriminate]. apply bind_np; [apply weights_np|]. discriminate.
Qed.

(** ** Objects *)
Lemma fields_sound v r r' : object_fields v r -> object_fields v r' -> r = r'.
Proof. intros H1 H2. apply un_raw_iff in H1, H2. congruence. Qed.
Lemma attributes_fun ver vs l l' : Forall2 (attribute_fields ver) vs l -> Forall2 (attribute_fields ver) vs l' -> l = l'.
Proof.
  intros F. revert l'. induction F as [|v a vs l H F IH]; intros l' G; inversion G as [|? a' ? m H' G']; subst; auto.
  f_equal; auto. apply un_attribute_iff in H, H'. congruence.
Qed.

Section Objects.
  Variables (ver : mesh_version) (bufs : list (list Z)) (ib : list Z) (groups : list val).
  Hypothesis Hg : Forall (group_shape ver) groups.

  Definition object_sound (v : val) : Prop :=
    exists r l, object_fields v r /\ raw_sound r /\ Forall2 (attribute_fields ver) (r_attributes r) l /\ Forall attribute_sound l.

  Lemma object_loads v o : object_sound v -> (read_mesh_object ver bufs ib groups v = Ok o <-> loaded_object ver bufs ib groups v o).
  Proof.
    intros (r & l & Fr & Sr & Fl & Sl). pose proof (proj2 (un_raw_iff v r) Fr) as Ur.
    assert (Ul : un_list (un_attribute ver) (r_attributes r) = Ok l).
    { apply (un_list_iff _ (attribute_fields ver)); auto. intros. apply un_attribute_iff. }
    unfold read_mesh_object. rewrite Ur. cbn [bind]. rewrite Ul. cbn [bind]. split.
    - intros H.
      apply bind_inv in H as (ix & E0 & H). apply bind_inv in H as (ps & E1 & H). apply bind_inv in H as (ns & E2 & H).
      apply bind_inv in H as (ts & E3 & H). apply bind_inv in H as (bs & E4 & H). apply bind_inv in H as (us & E5 & H).
      apply bind_inv in H as (cs & E6 & H). apply bind_inv in H as (is & E7 & [= <-]).
      apply (indices_loads r Sr) in E0. apply (usage_loads bufs r Sr l) in E1, E2, E3, E4, E5, E6; auto. apply rigging_iff in E7; auto.
      exists r, l. cbn [ob_name ob_subindex ob_parent ob_bias ob_no_write ob_no_test ob_indices ob_positions ob_normals ob_binormals ob_tangents ob_texcoords ob_colors ob_influences].
      repeat (apply conj; auto); lia.
    - intros (r' & l' & Fr' & Fl' & H1 & H2 & H3 & H4 & H5 & H6 & E0 & E1 & E2 & E4 & E3 & E5 & E6 & E7).
      rewrite <- (fields_sound _ _ _ Fr Fr') in *. rewrite <- (attributes_fun _ _ _ _ Fl Fl') in *.
      apply (indices_loads r Sr) in E0. apply (usage_loads bufs r Sr l) in E1, E2, E3, E4, E5, E6; auto. apply rigging_iff in E7; auto.
      rewrite H1, H2 in E7. rewrite E0. cbn [bind]. rewrite E1. cbn [bind]. rewrite E2. cbn [bind]. rewrite E3. cbn [bind]. rewrite E4. cbn [bind].
      rewrite E5. cbn [bind]. rewrite E6. cbn [bind]. rewrite E7. cbn [bind].
      destruct o as [nm si pa bi nw nt ix ps ns bs ts us cs is].
      cbn [ob_name ob_subindex ob_parent ob_bias ob_no_write ob_no_test ob_indices ob_positions ob_normals ob_binormals ob_tangents ob_texcoords ob_colors ob_influences] in *.
      subst nm si pa bi. repeat f_equal.
      + destruct nw, (r_no_write r =? 0) eqn:?; cbn; auto; lia.
      + destruct nt, (r_no_test r =? 0) eqn:?; cbn; auto; lia.
  Qed.
  Lemma object_total v : object_sound v -> ((exists o, read_mesh_object ver bufs ib groups v = Ok o) <-> object_inside ver bufs ib groups v).
  Proof.
    intros (r & l & Fr & Sr & Fl & Sl). pose proof (proj2 (un_raw_iff v r) Fr) as Ur.
    assert (Ul : un_list (un_attribute ver) (r_attributes r) = Ok l).
    { apply (un_list_iff _ (attribute_fields ver)); auto. intros. apply un_attribute_iff. }
    unfold read_mesh_object. rewrite Ur. cbn [bind]. rewrite Ul. cbn [bind]. split.
    - intros [o H].
      apply bind_inv in H as (ix & E0 & H). apply bind_inv in H as (ps & E1 & H). apply bind_inv in H as (ns & E2 & H).
      apply bind_inv in H as (ts & E3 & H). apply bind_inv in H as (bs & E4 & H). apply bind_inv in H as (us & E5 & H).
      apply bind_inv in H as (cs & E6 & H). apply bind_inv in H as (is & E7 & _).
      exists r, l. split; auto. split; auto. split; [|split].
      + apply usages_total; auto. intros []; eauto.
      + apply (indices_total r Sr). eauto.
      + apply (rigging_total ver); eauto.
    - intros (r' & l' & Fr' & Fl' & A & I & B).
      rewrite <- (fields_sound _ _ _ Fr Fr') in *. rewrite <- (attributes_fun _ _ _ _ Fl Fl') in *.
      pose proof (proj2 (usages_total bufs r Sr l Sl) A) as U. apply (indices_total r Sr) in I as [ix ->]. cbn [bind].
      destruct (U Position) as [? ->], (U Normal) as [? ->], (U Tangent) as [? ->], (U Binormal) as [? ->], (U TextureCoordinate) as [? ->], (U ColorSet) as [? ->].
      cbn [bind]. apply (rigging_total ver) in B as [? ->]; auto. cbn. eauto.
  Qed.
  Lemma object_np v : object_sound v -> read_mesh_object ver bufs ib groups v <> Panic.
  Proof.
    intros (r & l & Fr & Sr & Fl & Sl). pose proof (proj2 (un_raw_iff v r) Fr) as Ur.
    assert (Ul : un_list (un_attribute ver) (r_attributes r) = Ok l).
    { apply (un_list_iff _ (attribute_fields ver)); auto. intros. apply un_attribute_iff. }
    unfold read_mesh_object. rewrite Ur. cbn [bind]. rewrite Ul. cbn [bind].
    apply bind_np; [apply indices_np|]. intros ?. do 6 (apply bind_np; [now apply usage_np|]; intros ?).
    apply bind_np; [apply rigging_np|]. discriminate.
  Qed.
End Objects.

(** ** Files *)
Lemma flag_pair n v : wt (padded [u8] u8 n) v = true -> exists x y, v = VStruct [VInt x; VInt y].
Proof.
  intros H. destruct v as [| |vs| | |]; try discriminate H. unfold padded in H. rewrite wt_struct in H. cbn [map app wt_fields fst] in H.
  destruct vs as [|a [|c [|? ?]]]; try (cbn [wt_fields] in H; rewrite ?andb_false_r in H; discriminate H).
  cbn [wt_fields] in H. repeat rewrite andb_true_iff in H. destruct H as (Ha & Hc & _).
  destruct a; try discriminate Ha. destruct c; try discriminate Hc. eauto.
Qed.
Definition attribute_ty (ver : mesh_version) : ty := match ver with MV8 => AttributeV8 | MV9 => AttributeV9 | MV10 => AttributeV10 end.
Definition weight_ty (ver : mesh_version) : ty := match ver with MV10 => TBuf | _ => TArr VertexWeightV8 end.

Lemma usages_any ver u : In u (match ver with MV8 => [0; 1; 3; 4; 8] | _ => [0; 1; 2; 3; 4; 5] end) -> exists u', In (u, u') (usages ver).
Proof. destruct ver; cbn; intros H; repeat (destruct H as [<-|H]; [eexists; intuition reflexivity|]); destruct H. Qed.
Lemma types_any ver t : In t (match ver with MV10 => [0; 2; 4; 5; 7; 8] | _ => [820; 1024; 1076; 1077; 1079] end) -> exists t', In (t, t') (types ver).
Proof. destruct ver; cbn; intros H; repeat (destruct H as [<-|H]; [eexists; intuition reflexivity|]); destruct H. Qed.
Lemma attribute_any ver v : wt (attribute_ty ver) v = true -> exists a, attribute_fields ver v a /\ attribute_sound a.
Proof.
  destruct ver; cbn [attribute_ty]; intros H; apply struct_inv in H as (vs & -> & F); inv2; ints.
  - match goal with H : wt AttributeUsageV8 _ = true |- _ => apply AnimRead.repr_any in H as (u & -> & Hu) end.
    match goal with H : wt AttributeDataTypeV8 _ = true |- _ => apply AnimRead.repr_any in H as (t & -> & Ht) end.
    destruct (usages_any MV8 u Hu) as [u' Hu']. destruct (types_any MV8 t Ht) as [t' Ht'].
    eexists (MkAttribute _ _ _ u' t' _). unfold attribute_fields, attribute_sound. cbn [a_name a_sub a_buffer a_usage a_type a_offset].
    split; [exists u, t; split; [exact Hu'|split; [exact Ht'|split; reflexivity]]|lia].
  - match goal with H : wt AttributeUsageV9 _ = true |- _ => apply AnimRead.repr_any in H as (u & -> & Hu) end.
    match goal with H : wt AttributeDataTypeV8 _ = true |- _ => apply AnimRead.repr_any in H as (t & -> & Ht) end.
    match goal with H : wt (TArr _) _ = true |- _ => apply arr_inv in H as (ns & -> & _) end.
    destruct (usages_any MV9 u Hu) as [u' Hu']. destruct (types_any MV9 t Ht) as [t' Ht'].
    eexists (MkAttribute _ _ _ u' t' _). unfold attribute_fields, attribute_sound. cbn [a_name a_sub a_buffer a_usage a_type a_offset].
    split; [exists u, t; split; [exact Hu'|split; [exact Ht'|do 2 eexists; split; reflexivity]]|lia].
  - match goal with H : wt AttributeUsageV9 _ = true |- _ => apply AnimRead.repr_any in H as (u & -> & Hu) end.
    match goal with H : wt AttributeDataTypeV10 _ = true |- _ => apply AnimRead.repr_any in H as (t & -> & Ht) end.
    match goal with H : wt (TArr _) _ = true |- _ => apply arr_inv in H as (ns & -> & _) end.
    destruct (usages_any MV10 u Hu) as [u' Hu']. destruct (types_any MV10 t Ht) as [t' Ht'].
    eexists (MkAttribute _ _ _ u' t' _). unfold attribute_fields, attribute_sound. cbn [a_name a_sub a_buffer a_usage a_type a_offset].
    split; [exists u, t; split; [exact Hu'|split; [exact Ht'|do 2 eexists; split; reflexivity]]|lia].
Qed.
Lemma object_any ver v : wt (MeshObject (attribute_ty ver)) v = true -> object_sound ver v.
Proof.
  intros H. apply struct_inv in H as (vs & -> & F). inv2.
  match goal with H : wt DepthFlags _ = true |- _ => apply flag_pair in H as (nw & nt & ->) end.
  match goal with H : wt DrawElementType _ = true |- _ => apply AnimRead.repr_any in H as (dt & -> & _) end.
  match goal with H : wt i32 _ = true |- _ => apply int_any in H as (bi & -> & _) end.
  match goal with H : wt (TArr _) _ = true |- _ => apply arr_inv in H as (l & -> & _ & H) end.
  match goal with H : forallb _ _ = true |- _ => apply (forallb_ex _ _ _ (attribute_any ver)) in H as (m & H); apply forall2_and in H as [A1 A2] end.
  ints.
  eexists (MkRaw _ _ _ _ _ [_; _; _; _] [_; _; _; _] _ dt bi nw nt l), m. unfold object_fields, raw_sound. cbn.
  split; [do 12 eexists; split; [reflexivity|split; reflexivity]|].
  split; [|auto]. repeat apply conj; try lia; repeat constructor; lia.
Qed.
Lemma weights_any ver v : wt (weight_ty ver) v = true -> exists ws, to_weights ver v = Ok ws.
Proof.
  destruct ver; cbn [weight_ty]; intros H.
  3: { apply bytes_any in H as (bs & -> & _). cbn. eauto. }
  all: apply arr_inv in H as (ws & -> & _ & H); rewrite forallb_forall in H; cbn [to_weights]; apply un_list_ex, Forall_forall;
    intros w I; apply H in I; apply struct_inv in I as (vs & -> & F); inv2; ints; cbn; eauto.
Qed.
Lemma group_any ver v : wt (RiggingGroup (weight_ty ver)) v = true -> group_shape ver v.
Proof.
  intros H. apply struct_inv in H as (vs & -> & F). inv2.
  match goal with H : wt (TArr _) _ = true |- _ => apply arr_inv in H as (l & -> & _ & H) end.
  ints. unfold group_shape. do 4 eexists. split; [reflexivity|].
  match goal with H : forallb _ _ = true |- _ => rewrite forallb_forall in H; rename H into A end.
  apply Forall_forall. intros b I. apply A in I. apply struct_inv in I as (vs & -> & F). inv2.
  match goal with H : wt (weight_ty ver) _ = true |- _ => apply weights_any in H as [ws W] end. eauto.
Qed.

Lemma mesh_value t version v : format Mesh version = Some t -> wt t v = true ->
  exists ver os bufs ib groups, In (version, ver) layouts /\ mesh_fields v os bufs ib groups /\
    version_of (fst version) (snd version) = Some ver /\ Forall (object_sound ver) os /\ Forall (group_shape ver) groups.
Proof.
  intros F W.
  assert (X : exists ver, In (version, ver) layouts /\ version_of (fst version) (snd version) = Some ver /\
    t = Mesh_variant (MeshInner (attribute_ty ver) (weight_ty ver))).
  { destruct version as [ma mi]. cbn in F. unfold ver_eqb in F. cbn [fst snd] in F.
    destruct ((ma =? 1) && (mi =? 8)) eqn:E1; [injection F as <-; exists MV8; assert (ma = 1 /\ mi = 8) as [-> ->] by lia; cbn; auto|].
    destruct ((ma =? 1) && (mi =? 9)) eqn:E2; [injection F as <-; exists MV9; assert (ma = 1 /\ mi = 9) as [-> ->] by lia; cbn; auto|].
    destruct ((ma =? 1) && (mi =? 10)) eqn:E3; [injection F as <-; exists MV10; assert (ma = 1 /\ mi = 10) as [-> ->] by lia; cbn; auto|discriminate F]. }
  destruct X as (ver & L & V & ->). apply (struct_inv [MeshInner (attribute_ty ver) (weight_ty ver)] 16 8 None) in W as (vs & -> & G). inv2.
  match goal with H : wt (MeshInner _ _) _ = true |- _ => apply struct_inv in H as (vs & -> & G) end. inv2.
  match goal with H : wt (TArr (MeshObject _)) _ = true |- _ => apply arr_inv in H as (os & -> & _ & Ho) end.
  match goal with H : wt (TArr (RiggingGroup _)) _ = true |- _ => apply arr_inv in H as (gs & -> & _ & Hg) end.
  match goal with H : wt (TArr TBuf) _ = true |- _ => apply arr_inv in H as (bl & -> & _ & Hbl) end.
  match goal with H : wt TBuf _ = true |- _ => apply bytes_any in H as (ib & -> & _) end.
  apply (forallb_ex _ (fun v b => v = VBytes b /\ True)) in Hbl as (bufs & Hbl); [|intros x Hx; apply bytes_any in Hx as (bb & -> & _); exists bb; auto].
  apply forall2_map in Hbl as [-> _].
  exists ver, os, bufs, ib, gs. split; auto. split; [unfold mesh_fields; do 5 eexists; reflexivity|]. split; auto.
  rewrite forallb_forall in Ho, Hg. split; apply Forall_forall; intros x I; [apply object_any; auto|apply group_any; auto].
Qed.

Lemma mesh_any b version v : bytes_ok b = true -> typed_read Mesh b = Ok (version, v) ->
  exists ver os bufs ib groups, In (version, ver) layouts /\ mesh_fields v os bufs ib groups /\
    version_of (fst version) (snd version) = Some ver /\ Forall (object_sound ver) os /\ Forall (group_shape ver) groups.
Proof. intros Hb E. apply typed_read_ok in E as (t & F & W); [|exact Hb]. cbn [fkind fver fbody] in *. eapply mesh_value; eauto. Qed.

Lemma un_buffers bufs : un_list un_bytes (map VBytes bufs) = Ok bufs.
Proof. induction bufs as [|x bufs IH]; cbn [map un_list un_bytes bind]; [reflexivity|]. now rewrite IH. Qed.

Theorem mesh_converts t version v : format Mesh version = Some t -> wt t v = true ->
  exists ver os bufs ib groups, In (version, ver) layouts /\ mesh_fields v os bufs ib groups /\
    (forall d, un_mesh version v = Ok d <->
       (mesh_major d, mesh_minor d) = version /\ Forall2 (loaded_object ver bufs ib groups) os (mesh_objects d)) /\
    ((exists d, un_mesh version v = Ok d) <-> Forall (object_inside ver bufs ib groups) os) /\
    un_mesh version v <> Panic.
Proof.
  intros Hb E. destruct (mesh_value _ _ _ Hb E) as (ver & os & bufs & ib & groups & L & M & V & So & Sg).
  exists ver, os, bufs, ib, groups. split; auto. split; auto.
  destruct M as (n & bo & u & sz & si & ->). unfold un_mesh. rewrite V, un_buffers. cbn [bind].
  rewrite Forall_forall in So. split; [|split].
  - intros d. rewrite <- (un_list_iff (read_mesh_object ver bufs ib groups)) by (intros; apply object_loads; auto). split.
    + intros H. apply bind_inv in H as (l & U & [= <-]). cbn. split; auto. now destruct version.
    + intros [<- U]. rewrite U. cbn. now destruct d.
  - assert (X : (exists d, bind (un_list (read_mesh_object ver bufs ib groups) os) (fun objects => Ok (MkMesh (fst version) (snd version) objects)) = Ok d)
      <-> exists l, un_list (read_mesh_object ver bufs ib groups) os = Ok l).
    { destruct (un_list _ os); cbn; split; intros [x H]; eauto; discriminate. }
    rewrite X, un_list_ex, !Forall_forall. split; intros H x I; apply (object_total ver bufs ib groups Sg x (So x I)); auto.
  - apply bind_np; [|discriminate]. clear - So Sg. induction os as [|o os IH]; cbn [un_list]; [discriminate|].
    apply bind_np; [apply object_np; auto; apply So; now left|]. intros x. apply bind_np; [|discriminate]. apply IH. intros y I. apply So. now right.
Qed.
Theorem mesh_file b version v : bytes_ok b = true -> typed_read Mesh b = Ok (version, v) ->
  exists ver os bufs ib groups, In (version, ver) layouts /\ mesh_fields v os bufs ib groups /\
    (forall d, mesh_data_read b = Ok d <->
       (mesh_major d, mesh_minor d) = version /\ Forall2 (loaded_object ver bufs ib groups) os (mesh_objects d)) /\
    ((exists d, mesh_data_read b = Ok d) <-> Forall (object_inside ver bufs ib groups) os) /\
    mesh_data_read b <> Panic.
Proof.
  intros Hb E. unfold mesh_data_read. rewrite E. cbn [bind]. apply typed_read_ok in E as (t & F & W); [|exact Hb]. cbn [fkind fver fbody] in *.
  eapply mesh_converts; eauto.
Qed.
