(** Everything that is loaded is as short as the file. *)
From Coq Require Import Lia ZifyBool ZifyNat ZifyN Permutation.
From Verif Require Import Bytes BytesFacts Ssbh SsbhFacts SsbhSpec Described DecFacts Formats File FileFacts Strings MeshEx AdjData
  Bits Float32 AnimComp AnimBuf AnimFile AnimSpec TrackSpec TrackRead AnimReadSpec AnimRead
  VecData MeshData MeshSpec MeshReadSpec MeshRead MeshFacts MeshReload ResaveFacts Work WorkSpec WorkFacts.
Ltac Zify.zify_post_hook ::= ZifyBool.elim_bool_cstr; Z.to_euclidean_division_equations.

(** ** Values *)
Lemma bytes_at_short b p bs : bytes_at b p bs -> zlen bs <= zlen b.
Proof.
  intros H. destruct bs as [|x r]; [rewrite zlen_nil; apply zlen_nonneg|].
  assert (H0 := H O x eq_refl). apply byte_at_some in H0.
  destruct (nth_error (x :: r) (length r)) as [y|] eqn:E; [|apply nth_error_None in E; cbn in E; lia].
  apply H in E. apply byte_at_some in E. unfold zlen in *. cbn [length]. lia.
Qed.

Lemma read_n_short b t (IH : forall p v q, 0 <= p -> read t b p = Ok (v, q) -> short (zlen b) v = true) :
  bytes_ok b = true -> sane t = true -> 0 < least t ->
  forall k p vs q, 0 <= p -> read_n k (read t b) p = Ok (vs, q) ->
    zlen vs <= Z.max 0 (zlen b - p) /\ forallb (short (zlen b)) vs = true.
Proof.
  intros Hb Hs Hl. induction k as [|k IHk]; intros p vs q Hp R; cbn [read_n] in R.
  - injection R as <- <-. cbn. lia.
  - apply bind_ok in R as ([v p1] & E1 & R). apply bind_ok in R as ([vs2 p2] & E2 & R). injection R as <- <-.
    pose proof (read_moves b t Hb Hs _ _ _ Hp E1) as [M1 M2]. apply IH in E1; auto. apply IHk in E2 as [L F]; [|lia].
    rewrite zlen_cons. cbn [forallb]. rewrite E1, F. split; [lia|reflexivity].
Qed.

Theorem read_short b t : bytes_ok b = true -> sane t = true ->
  forall p v q, 0 <= p -> read t b p = Ok (v, q) -> short (zlen b) v = true.
Proof.
  intros Hb. pose proof (zlen_nonneg b) as Hn.
  induction t as [w|w ra tags|w| |fs spad aa al HF|t IHt|w t IHt|t IHt| |n|vs HF|n t IHt|n t IHt]
    using ty_ind'; cbn [sane]; intros E p v q Hp R.
  - cbn [read] in R. apply bind_ok in R as ([x p'] & E1 & R). injection R as <- <-. reflexivity.
  - cbn [read] in R. apply bind_ok in R as ([x p'] & E1 & R).
    destruct (existsb (Z.eqb x) tags); [|discriminate]. injection R as <- <-. reflexivity.
  - cbn [read] in R. apply bind_ok in R as ([x p'] & E1 & R). injection R as <- <-. reflexivity.
  - cbn in R. injection R as <- <-. reflexivity.
  - rewrite read_struct in R. apply bind_ok in R as ([xs p'] & E1 & R). injection R as <- <-. cbn [short].
    revert p Hp xs p' E1. induction HF as [|[t' [wp rp]] fr Ht _ IH]; intros p Hp xs p' R;
      cbn [forallb fst snd] in *.
    + cbn in R. injection R as <- <-. reflexivity.
    + apply andb_true_iff in E as [E1 E2]. apply andb_true_iff in E1 as [E1 E3].
      cbn [read_fields] in R. apply bind_ok in R as ([v1 p1] & R1 & R).
      apply bind_ok in R as ([vs2 p2] & R2 & R). injection R as <- <-.
      pose proof (read_moves b t' Hb E1 _ _ _ Hp R1) as [M _]. pose proof (least_nonneg t' E1).
      apply Ht in R1; auto. apply IH in R2; auto; [|lia]. cbn [forallb]. now rewrite R1, R2.
  - cbn [read] in R. apply bind_ok in R as ([o sp] & E1 & R).
    destruct (o =? 0); [injection R as <- <-; reflexivity|].
    apply bind_ok in R as (sk & A & R). apply bind_ok in R as ([v' q'] & E2 & R). injection R as <- <-. cbn [short].
    apply read_int_nonneg in E1; auto. apply absolute_nonneg in A; auto. eapply IHt; eauto.
  - apply andb_true_iff in E as [_ E].
    cbn [read] in R. apply bind_ok in R as ([o sp] & E1 & R).
    destruct (o =? 0); [injection R as <- <-; reflexivity|].
    apply bind_ok in R as ([v' q'] & E2 & R). injection R as <- <-. cbn [short].
    apply read_int_nonneg in E1; auto. eapply IHt; eauto.
  - apply andb_true_iff in E as [E0 E]. cbn [read] in R. apply bind_ok in R as ([o p1] & E1 & R).
    apply bind_ok in R as ([c sp] & E2 & R).
    apply bind_ok in R as (sk & A & R). apply bind_ok in R as ([xs q'] & E3 & R). injection R as <- <-. cbn [short].
    apply read_int_nonneg in E1; auto. apply absolute_nonneg in A; auto. rewrite read_elements_n in E3.
    apply (read_n_short b t (IHt E0) Hb E0 ltac:(lia)) in E3 as [L F]; auto. rewrite F. lia.
  - cbn [read] in R. apply bind_ok in R as ([o p1] & E1 & R).
    apply bind_ok in R as ([c sp] & E2 & R).
    apply bind_ok in R as (sk & A & R). apply bind_ok in R as (bs & E3 & R). injection R as <- <-. cbn [short].
    apply read_int_nonneg in E2; auto. apply read_buffer_at in E3 as [_ E3]; auto. apply bytes_at_short in E3. lia.
  - cbn [read] in R. apply bind_ok in R as ([bs p'] & E1 & R). injection R as <- <-. cbn [short].
    apply read_cstr_at in E1 as (E1 & _). apply bytes_at_short in E1. rewrite zlen_app in E1. change (zlen [0]) with 1 in E1. lia.
  - rewrite read_enum in R. apply bind_ok in R as ([o p1] & E1 & R).
    apply bind_ok in R as ([c sp] & E2 & R).
    destruct (o =? 0); [injection R as <- <-; reflexivity|].
    apply bind_ok in R as (sk & A & R). apply bind_ok in R as ([v' q'] & E3 & R). injection R as <- <-. cbn [short].
    destruct (find_case c vs) as [t'|] eqn:F; [|discriminate E3].
    apply read_int_nonneg in E1; auto. apply absolute_nonneg in A; auto.
    apply find_case_in in F. rewrite Forall_forall in HF. rewrite forallb_forall in E.
    refine (HF (c, t') F _ _ _ _ A E3). exact (E _ F).
  - apply andb_true_iff in E as [_ E]. apply andb_true_iff in E as [E0 E]. cbn [read] in R. rewrite read_elements_n in R.
    apply bind_ok in R as ([xs p'] & R & R'). injection R' as <- <-. cbn [short].
    apply (read_n_short b t (IHt E0) Hb E0 ltac:(lia)) in R as [L F]; auto. rewrite F. lia.
  - apply andb_true_iff in E as [E0 E]. cbn [read] in R. rewrite read_elements_n in R.
    apply bind_ok in R as ([xs p'] & R & R'). injection R' as <- <-. cbn [short].
    apply (read_n_short b t (IHt E0) Hb E0 ltac:(lia)) in R as [L F]; auto. rewrite F. lia.
Qed.

Theorem file_short b f : bytes_ok b = true -> file_read b = Ok f -> short (zlen b) (fbody f) = true.
Proof.
  intros Hb R. unfold file_read in R. apply bind_ok in R as ([f0 q0] & R & R0). injection R0 as ->. unfold read_file in R.
  destruct (get_bytes 4 b 0) as [m|]; [|discriminate R]. destruct (list_eqb m hbss); [|discriminate R].
  match type of R with context [get_bytes 4 b ?p] => destruct (get_bytes 4 b p) as [m'|]; [|discriminate R] end.
  destruct (find_kind m' kinds) as [k|]; [|discriminate R].
  apply bind_ok in R as ([ma p1] & R1 & R). apply bind_ok in R as ([mi p2] & R2 & R).
  apply read_int_in in R1, R2; try lia.
  destruct (format k (ma, mi)) as [t|] eqn:F; [|discriminate R].
  apply bind_ok in R as ([v q] & R3 & R). injection R as <- <-. cbn [fbody].
  apply format_within in F as (S & _). eapply (read_short b t); eauto; lia.
Qed.
Lemma typed_short k b version v : bytes_ok b = true -> typed_read k b = Ok (version, v) -> short (zlen b) v = true.
Proof.
  intros Hb R. unfold typed_read in R. apply bind_ok in R as (f & E & R). apply file_short in E; auto.
  destruct (fkind f), k; try discriminate R; injection R as <- <-; exact E.
Qed.

(** ** Tracks *)
Lemma uint_nonneg b p w n : bytes_ok b = true -> uint_at b p w n -> 0 <= n.
Proof. intros Hb (bs & _ & H & ->). apply bytes_at_ok in H; auto. apply le_val_range in H. lia. Qed.
Lemma uint_inside b p w n : 0 < w -> uint_at b p w n -> p + w <= zlen b.
Proof.
  intros Hw (bs & L & H & _). destruct (nth_error bs (length bs - 1)) as [x|] eqn:E.
  - apply H in E. apply byte_at_some in E. unfold zlen in *. lia.
  - apply nth_error_None in E. unfold zlen in L. lia.
Qed.

(** There is a bit at the position or behind it. *)
Definition more (b : list Z) (pos : Z) : Prop := exists i, pos <= i /\ stream_bit b i <> None.
Lemma more_bound b pos : 0 <= pos -> more b pos -> pos < 8 * zlen b.
Proof.
  intros Hp (i & Hi & H). unfold stream_bit in H. destruct (byte_at b (i / 8)) as [x|] eqn:E; [|now destruct H].
  apply byte_at_some in E. lia.
Qed.
Lemma more_le b pos pos' : pos' <= pos -> more b pos -> more b pos'.
Proof. intros H (i & Hi & S). exists i. split; [lia|auto]. Qed.
Lemma code_more b pos w v : 0 < w -> code_at b pos w v -> more b pos.
Proof. intros Hw [_ H]. exists pos. split; [lia|]. specialize (H 0 ltac:(lia)). rewrite Z.add_0_r in H. congruence. Qed.
Lemma component_more b pos c d x : 0 < width c -> component b pos c d x -> more b pos.
Proof.
  intros Hw. unfold component. destruct (Z.eqb_spec (width c) 0); [lia|]. intros (v & H & _). now apply code_more in H.
Qed.
Lemma width_nonneg b p c : bytes_ok b = true -> range_at b p c -> 0 <= width c /\ 0 <= rc_bits c.
Proof.
  intros Hb (_ & _ & H & _). apply uint_nonneg in H; auto. unfold width. destruct (f32_eqb _ _); lia.
Qed.

Lemma compressed_short {T C} (params : list Z -> Z -> C -> Prop) (value : list Z -> Z -> T -> Prop) bits
  (frame : list Z -> Z -> C -> T -> Z -> T -> Prop) b n l :
  bytes_ok b = true ->
  (forall c flags d pos x, params b 16 c -> 0 < bits c flags -> frame b pos c d flags x -> more b pos) ->
  compressed_at params value bits frame b n l -> zlen l <= 8 * zlen b.
Proof.
  intros Hb H (flags & default & bits_at & c & (L & _ & _ & Bi & Ba) & P & _ & N & D0 & D).
  pose proof (zlen_nonneg b) as Hn. destruct (Z.eqb_spec (bits c flags) 0) as [E|E]; [lia|].
  apply uint_nonneg in Bi, Ba; auto.
  destruct (Z.eqb_spec default 0) as [->|E0]; [rewrite D0 by reflexivity; rewrite zlen_nil; lia|].
  destruct (D E0) as (d & _ & F).
  destruct l as [|x0 r]; [rewrite zlen_nil; lia|]. set (l := x0 :: r) in *.
  destruct (nth_error l (length r)) as [x|] eqn:Ex; [|apply nth_error_None in Ex; cbn in Ex; lia].
  apply F in Ex. apply H in Ex; auto; [|lia]. apply more_bound in Ex; [|nia].
  replace (zlen l) with (Z.of_nat (length r) + 1) by (unfold zlen, l; cbn [length]; lia). nia.
Qed.
Lemma plain_short {T} (value : list Z -> Z -> T -> Prop) size b n l : 0 < size ->
  (forall p x, value b p x -> p < zlen b) -> plain_at value size b n l -> zlen l <= zlen b.
Proof.
  intros Hs H [L F]. pose proof (zlen_nonneg b) as Hn. destruct l as [|x0 r]; [rewrite zlen_nil; lia|]. set (l := x0 :: r) in *.
  destruct (nth_error l (length r)) as [x|] eqn:Ex; [|apply nth_error_None in Ex; cbn in Ex; lia].
  apply F, H in Ex. replace (zlen l) with (Z.of_nat (length r) + 1) by (unfold zlen, l; cbn [length]; lia). nia.
Qed.

Ltac widths Hb := repeat match goal with H : range_at _ _ _ |- _ => apply (width_nonneg _ _ _ Hb) in H end.
Lemma transform_more b : bytes_ok b = true -> forall c flags d pos x, transform_ranges_at b 16 c ->
  0 < transform_width c flags -> transform_frame b pos c d flags x -> more b pos.
Proof.
  intros Hb c flags d pos x ((A1 & A2 & A3) & (B1 & B2 & B3) & (C1 & C2 & C3)). widths Hb.
  unfold transform_width, transform_frame, scale_width, rotation_width, translation_width, width3. cbn zeta.
  intros P (F1 & F2 & F3 & _).
  assert (Z2 : Z.testbit flags 2 = true -> more b pos).
  { intros E. rewrite E in *. destruct F2 as (_ & s & S & _). eexists. split; [|rewrite S; discriminate].
    destruct (Z.testbit flags 0), (Z.testbit flags 1), (Z.testbit flags 3); lia. }
  destruct (Z.testbit flags 2) eqn:E2; [auto|]. clear F2 Z2.
  destruct (Z.testbit flags 3) eqn:E3.
  - destruct F3 as (G1 & G2 & G3).
    destruct (Z_lt_le_dec 0 (width (cx (tc_trans c)))); [apply component_more in G1; auto; eapply more_le; [|exact G1]; destruct (Z.testbit flags 0), (Z.testbit flags 1); lia|].
    destruct (Z_lt_le_dec 0 (width (cy (tc_trans c)))); [apply component_more in G2; auto; eapply more_le; [|exact G2]; destruct (Z.testbit flags 0), (Z.testbit flags 1); lia|].
    destruct (Z_lt_le_dec 0 (width (cz (tc_trans c)))); [apply component_more in G3; auto; eapply more_le; [|exact G3]; destruct (Z.testbit flags 0), (Z.testbit flags 1); lia|].
    clear G1 G2 G3. destruct (Z.testbit flags 0); [|lia]. destruct (Z.testbit flags 1).
    + destruct F1 as (_ & _ & F1). apply component_more in F1; auto; lia.
    + destruct F1 as (G1 & G2 & G3).
      destruct (Z_lt_le_dec 0 (width (cx (tc_scale c)))); [apply component_more in G1; auto|].
      destruct (Z_lt_le_dec 0 (width (cy (tc_scale c)))); [apply component_more in G2; auto; eapply more_le; [|exact G2]; lia|].
      apply component_more in G3; [|lia]. eapply more_le; [|exact G3]. lia.
  - clear F3. destruct (Z.testbit flags 0); [|lia]. destruct (Z.testbit flags 1).
    + destruct F1 as (_ & _ & F1). apply component_more in F1; auto; lia.
    + destruct F1 as (G1 & G2 & G3).
      destruct (Z_lt_le_dec 0 (width (cx (tc_scale c)))); [apply component_more in G1; auto|].
      destruct (Z_lt_le_dec 0 (width (cy (tc_scale c)))); [apply component_more in G2; auto; eapply more_le; [|exact G2]; lia|].
      apply component_more in G3; [|lia]. eapply more_le; [|exact G3]. lia.
Qed.
Lemma uv_more b : bytes_ok b = true -> forall c flags d pos x, uv_ranges_at b 16 c ->
  0 < uv_width c flags -> uv_frame b pos c d flags x -> more b pos.
Proof.
  intros Hb c flags d pos x (A1 & A2 & A3 & A4 & A5). widths Hb.
  unfold uv_width, uv_frame, uv_scale_width. cbn zeta. intros P (F1 & F2 & F3 & F4 & F5).
  destruct (Z_lt_le_dec 0 (width (uc_su c))); [apply component_more in F1; auto|].
  destruct (Z_lt_le_dec 0 (width (uc_rot c))); [apply component_more in F3; auto; eapply more_le; [|exact F3]; destruct (Z.testbit flags 1); lia|].
  destruct (Z_lt_le_dec 0 (width (uc_tu c))); [apply component_more in F4; auto; eapply more_le; [|exact F4]; destruct (Z.testbit flags 1); lia|].
  destruct (Z_lt_le_dec 0 (width (uc_tv c))); [apply component_more in F5; auto; eapply more_le; [|exact F5]; destruct (Z.testbit flags 1); lia|].
  destruct (Z.testbit flags 1); [lia|]. apply component_more in F2; [|lia]. eapply more_le; [|exact F2]. lia.
Qed.
Lemma vec4_more b : bytes_ok b = true -> forall c (flags : Z) d pos x, ranges4_at b 16 c ->
  0 < width4 c -> vec4_frame b pos c d x -> more b pos.
Proof.
  intros Hb c flags d pos x (A1 & A2 & A3 & A4). widths Hb. unfold width4. intros P (F1 & F2 & F3 & F4).
  destruct (Z_lt_le_dec 0 (width (c4x c))); [apply component_more in F1; auto|].
  destruct (Z_lt_le_dec 0 (width (c4y c))); [apply component_more in F2; auto; eapply more_le; [|exact F2]; lia|].
  destruct (Z_lt_le_dec 0 (width (c4z c))); [apply component_more in F3; auto; eapply more_le; [|exact F3]; lia|].
  apply component_more in F4; [|lia]. eapply more_le; [|exact F4]. lia.
Qed.
Lemma word_inside b p x : word_at b p x -> p < zlen b.
Proof. intros H. apply uint_inside in H; lia. Qed.

Theorem track_short b t c n v compensate : bytes_ok b = true -> track_at b t c n v compensate -> tv_len v <= 8 * zlen b.
Proof.
  intros Hb H. pose proof (zlen_nonneg b) as Hn. destruct v as [l|l|l|l|l|l]; cbn [track_at tv_len] in *.
  - destruct H as (_ & us & H & -> & _). unfold zlen at 1. rewrite map_length. fold (zlen us). unfold transforms_at in H.
    destruct (c =? Compressed).
    + eapply compressed_short; [exact Hb|exact (transform_more b Hb)|exact H].
    + eapply plain_short in H; [lia|lia|]. intros p x (X & _). destruct X as (X & _). now apply word_inside in X.
  - destruct H as (_ & H & _). unfold uvs_at in H. destruct (c =? Compressed).
    + eapply compressed_short; [exact Hb|exact (uv_more b Hb)|exact H].
    + eapply plain_short in H; [lia|lia|]. intros p x (X & _). now apply word_inside in X.
  - destruct H as (_ & H & _). unfold floats_at in H. destruct (c =? Compressed).
    + eapply compressed_short; [exact Hb| |exact H]. intros ? ? ? ? ? _. apply component_more.
    + eapply plain_short in H; [lia|lia|]. intros p x X. now apply word_inside in X.
  - destruct H as (_ & H & _). unfold TrackSpec.indices_at in H. destruct (c =? Compressed).
    + eapply compressed_short; [exact Hb| |exact H]. intros ? ? ? ? ? _ P (y & X & _). now apply code_more in X.
    + eapply plain_short in H; [lia|lia|]. intros p x X. now apply word_inside in X.
  - destruct H as (_ & us & H & -> & _). unfold zlen at 1. rewrite map_length. fold (zlen us). unfold bools_at in H.
    destruct (c =? Compressed).
    + eapply compressed_short; [exact Hb| |exact H]. intros ? ? ? ? ? _ _ X. apply code_more in X; auto; lia.
    + eapply plain_short in H; [lia|lia|]. intros p x X. apply uint_inside in X; lia.
  - destruct H as (_ & H & _). unfold vec4s_at in H. destruct (c =? Compressed).
    + refine (compressed_short _ _ _ _ _ _ _ Hb _ H). exact (vec4_more b Hb).
    + eapply plain_short in H; [lia|lia|]. intros p x (X & _). now apply word_inside in X.
Qed.

Theorem track_values_short b n t c v compensate : bytes_ok b = true -> 0 <= n ->
  read_track_values b t c n = Ok (v, compensate) -> tv_len v <= 8 * zlen b.
Proof. intros Hb Hn H. apply (track_read b n Hb Hn) in H. now apply track_short in H. Qed.

(** ** Animations *)
Lemma zlen_map {A B} (f : A -> B) l : zlen (map f l) = zlen l.
Proof. unfold zlen. now rewrite map_length. Qed.
Lemma zlen2 {A B} (P : A -> B -> Prop) l m : Forall2 P l m -> zlen l = zlen m.
Proof. intros H. unfold zlen. f_equal. induction H; cbn; congruence. Qed.
Lemma filter_short {A} (f : A -> bool) l : zlen (filter f l) <= zlen l.
Proof. induction l as [|x l IH]; cbn [filter]; [lia|]. destruct (f x); rewrite ?zlen_cons in *; lia. Qed.
Lemma map_short {A} (f : A -> val) n l : forallb (short n) (map f l) = true -> forall x, In x l -> short n (f x) = true.
Proof. intros H x I. rewrite forallb_forall in H. apply H. now apply in_map. Qed.
Lemma typed_long k b r : typed_read k b = Ok r -> 4 <= zlen b.
Proof.
  intros R. unfold typed_read, file_read in R. apply bind_ok in R as (f & R & _). apply bind_ok in R as (f0 & R & _).
  unfold read_file in R. destruct (get_bytes 4 b 0) as [m|] eqn:E; [|discriminate R]. apply get_bytes_bound in E; [lia|discriminate].
Qed.

Theorem anim_data_short order b d : (forall l, Permutation l (order l)) -> bytes_ok b = true ->
  anim_data_read order b = Ok d -> anim_short (zlen b) d.
Proof.
  intros O Hb R. pose proof (zlen_nonneg b) as Hn.
  destruct (typed_read Anim b) as [[version v]|e|] eqn:E; [|unfold anim_data_read in R; rewrite E in R; discriminate R..].
  pose proof (typed_short _ _ _ _ Hb E) as S. pose proof (typed_long _ _ _ E) as L4.
  destruct (anim_version _ _ _ Hb E) as [[-> W]|X].
  - destruct (anim_file_v12 _ _ Hb E) as (a & Va & I). destruct (I order O) as (_ & I2 & _). apply I2 in R. clear I I2.
    destruct R as (_ & _ & _ & ND & G & _). destruct Va as (nm & u1 & u2 & u3 & ts & -> & F).
    cbn [short forallb] in S. rewrite !andb_true_iff in S. assert (Lt : zlen ts <= zlen b) by lia. apply zlen2 in F.
    split.
    + assert (incl (map gd_type (ad_groups d)) [1; 4; 2]) as In3.
      { intros x Hx. apply in_map_iff in Hx as (g & <- & Hg). apply G in Hg as (t & name & Hk & _).
        cbn [v12_kinds In] in Hk. cbn [In]. intuition congruence. }
      apply (NoDup_incl_length ND) in In3. rewrite map_length in In3. unfold zlen at 1. cbn [length] in In3. lia.
    + intros g Hg. apply G in Hg as (t & name & _ & _ & ->). split.
      * rewrite zlen_map. pose proof (filter_short (fun x => v1_type x =? t) (av1_tracks a)). lia.
      * intros x Hx. apply in_map_iff in Hx as (y & <- & _). cbn [nd_tracks]. split; [change (1 <= zlen b); lia|].
        intros t' [<-|[]]. change (0 <= 8 * zlen b). lia.
  - assert (Y : exists m, version = (2, m)) by (destruct X as [[-> _]|[-> _]]; eauto). destruct Y as [m ->].
    destruct (anim_file _ _ _ Hb E) as (a & -> & _ & I). destruct (I order) as [I1 _]. apply I1 in R. clear I I1.
    destruct R as (_ & _ & _ & G).
    assert (S' : zlen (map group_val (an_groups a)) <= zlen b /\ forallb (short (zlen b)) (map group_val (an_groups a)) = true /\ zlen (an_buffer a) <= zlen b).
    { unfold anim_val in S. cbn [short app forallb] in S. rewrite !andb_true_iff, !Z.leb_le in S. tauto. }
    destruct S' as (S1 & S2 & S3). rewrite zlen_map in S1. clear S.
    assert (Bb : bytes_ok (an_buffer a) = true).
    { destruct (anim_any _ _ _ Hb E) as (a' & Va & _ & _ & _ & Bb & _). unfold anim_val in Va. injection Va as _ _ _ _ _ Eb _. now rewrite Eb. }
    pose proof (zlen2 _ _ _ G) as LG. split; [lia|]. intros g Ig.
    apply (SkelFacts.forall2_in_r _ _ _ G) in Ig as (x & Ix & _ & N). apply (map_short _ _ _ S2) in Ix. clear S2 G.
    unfold group_val in Ix. cbn [short forallb] in Ix. rewrite !andb_true_iff, Z.leb_le, zlen_map in Ix. destruct Ix as (_ & (T1 & T2) & _).
    pose proof (zlen2 _ _ _ N) as LN. split; [lia|]. intros n In'.
    apply (SkelFacts.forall2_in_r _ _ _ N) in In' as (y & Iy & _ & K). apply (map_short _ _ _ T2) in Iy. clear T2 N.
    unfold node_val in Iy. cbn [short forallb] in Iy. rewrite !andb_true_iff, Z.leb_le, zlen_map in Iy. destruct Iy as (_ & (U1 & U2) & _).
    pose proof (zlen2 _ _ _ K) as LK. split; [lia|]. intros t It.
    apply (SkelFacts.forall2_in_r _ _ _ K) in It as (z & Iz & _ & _ & data & (Ld & be & af & Eb & _) & A).
    assert (bytes_ok data = true).
    { rewrite Eb in Bb. unfold bytes_ok in *. rewrite !forallb_app, !andb_true_iff in Bb. tauto. }
    apply track_short in A; auto. rewrite Eb, !zlen_app in S3. pose proof (zlen_nonneg be). pose proof (zlen_nonneg af). lia.
Qed.

(** ** Meshes *)
Lemma concat_short {A} n (ls : list (list A)) : 0 <= n -> (forall l, In l ls -> zlen l <= n) -> zlen (List.concat ls) <= zlen ls * n.
Proof.
  intros Hn. induction ls as [|l ls IH]; intros H; cbn [List.concat]; [cbn; lia|].
  rewrite zlen_app, zlen_cons. pose proof (H l (or_introl eq_refl)). specialize (IH (fun x I => H x (or_intror I))). nia.
Qed.
Lemma usages_short l : zlen (filter (fun a => usage_eqb (a_usage a) Position) l) + zlen (filter (fun a => usage_eqb (a_usage a) Normal) l) +
  zlen (filter (fun a => usage_eqb (a_usage a) Binormal) l) + zlen (filter (fun a => usage_eqb (a_usage a) Tangent) l) +
  zlen (filter (fun a => usage_eqb (a_usage a) TextureCoordinate) l) + zlen (filter (fun a => usage_eqb (a_usage a) ColorSet) l) = zlen l.
Proof.
  induction l as [|a l IH]; [reflexivity|]. cbn [filter]. rewrite zlen_cons.
  destruct (a_usage a); cbn [usage_eqb]; rewrite ?zlen_cons; lia.
Qed.

Theorem mesh_data_short b d : bytes_ok b = true -> mesh_data_read b = Ok d -> mesh_short (zlen b) d.
Proof.
  intros Hb R. pose proof (zlen_nonneg b) as Hn.
  destruct (typed_read Mesh b) as [[version v]|e|] eqn:E; [|unfold mesh_data_read in R; rewrite E in R; discriminate R..].
  pose proof (typed_short _ _ _ _ Hb E) as S.
  destruct (mesh_file _ _ _ Hb E) as (ver & os & bufs & ib & groups & L & M & I1 & I2 & _).
  assert (So : Forall (object_sound ver) os).
  { destruct (mesh_any _ _ _ Hb E) as (ver' & os' & bufs' & ib' & groups' & L' & M' & _ & So & _).
    assert (ver' = ver) as -> by (clear - L L'; cbn [layouts In] in L, L'; intuition congruence).
    destruct M as (n1 & n2 & n3 & n4 & n5 & ->), M' as (m1 & m2 & m3 & m4 & m5 & EM). injection EM as _ _ _ -> _ _ _ _ _. exact So. }
  assert (Ins : Forall (object_inside ver bufs ib groups) os) by (apply I2; eauto).
  apply I1 in R as [_ F]. clear I1 I2 E.
  destruct M as (n1 & n2 & n3 & n4 & n5 & ->). cbn [short forallb] in S. rewrite !andb_true_iff, !Z.leb_le, zlen_map in S.
  destruct S as ((_ & _ & _ & (Lo & So') & _ & _ & (_ & Sb) & Li & (Lg & Sg) & _) & _).
  pose proof (zlen2 _ _ _ F) as LF. split; [lia|]. intros o Io.
  apply (SkelFacts.forall2_in_r _ _ _ F) in Io as (x & Ix & r & l & Fr & Fl & _ & _ & _ & _ & _ & _ & Ind & U1 & U2 & U3 & U4 & U5 & U6 & Inf).
  rewrite Forall_forall in So, Ins. rewrite forallb_forall in So', Sg.
  destruct (So x Ix) as (r' & l' & Fr' & Sr & Fl' & Sl). rewrite <- (fields_sound _ _ _ Fr Fr') in *. rewrite <- (attributes_fun _ _ _ _ Fl Fl') in *.
  destruct (Ins x Ix) as (r'' & l'' & Fr'' & Fl'' & At & Ii & _). rewrite <- (fields_sound _ _ _ Fr Fr'') in *. rewrite <- (attributes_fun _ _ _ _ Fl Fl'') in *.
  clear Fr' Fl' Fr'' Fl''. pose proof Sr as (Hc & Hic & Hio & Ho4 & Hs4 & Fo & Fs).
  assert (Nn : forall l, Forall (fun x => 0 <= x) l -> forall k, 0 <= nth k l 0).
  { induction 1 as [|y m Hy Fm IH]; intros [|k]; cbn; auto; lia. }
  assert (Hx : zlen (r_attributes r) <= zlen b).
  { apply So' in Ix. destruct Fr as (? & ? & ? & ? & ? & ? & ? & ? & ? & ? & ? & ? & _ & _ & ->).
    cbn [short forallb] in Ix. rewrite !andb_true_iff, !Z.leb_le in Ix. tauto. }
  assert (At' : forall a da, In a l -> loaded_attribute bufs r a da -> zlen (vec_rows (attr_data da)) <= zlen b).
  { intros a da Ia (_ & _ & bf & Nb & V). rewrite Forall_forall in At, Sl. destruct (At a Ia) as (_ & bf' & Nb' & P).
    rewrite Nb in Nb'. injection Nb' as <-. destruct (Sl a Ia) as [_ Sa].
    assert (Lb : zlen bf <= zlen b).
    { apply nth_error_In in Nb. apply (map_short _ _ _ Sb) in Nb. cbn in Nb. lia. }
    pose proof (Nn _ Fo (Z.to_nat (a_buffer a))) as N1. pose proof (Nn _ Fs (Z.to_nat (a_buffer a))) as N2.
    unfold vectors_at in V. destruct (layout (a_type a)) as [[di w] value] eqn:EL. destruct V as (_ & -> & _).
    assert (0 < w) by (destruct (a_type a); cbn in EL; injection EL as <- <- <-; lia).
    destruct (Z_lt_le_dec 0 (r_count r)) as [C|C]; [|lia]. destruct (P C) as [P1 P2].
    assert (0 < components di) by (destruct di; cbn; lia). nia. }
  split; [|split; [|split; [|split]]].
  - destruct Ind as [-> _]. unfold indices_inside, index_size in Ii. destruct Ii as [->|Ii]; [lia|]. destruct (r_type r =? 0); lia.
  - pose proof (usages_short l) as US. unfold all_attributes. rewrite !zlen_app.
    destruct U1 as (l1 & V1 & ->), U2 as (l2 & V2 & ->), U3 as (l3 & V3 & ->), U4 as (l4 & V4 & ->), U5 as (l5 & V5 & ->), U6 as (l6 & V6 & ->).
    apply zlen2 in V1, V2, V3, V4, V5, V6. apply zlen2 in Fl. lia.
  - destruct Inf as (parts & -> & FP). pose proof (zlen2 _ _ _ FP) as LP.
    assert (zlen (List.concat parts) <= zlen parts * zlen b); [|nia]. apply concat_short; [lia|]. intros part Ip.
    apply (SkelFacts.forall2_in_r _ _ _ FP) in Ip as (g & Ig & [(bl & Gg & FI)|[_ ->]]); [|rewrite zlen_nil; lia].
    apply Sg in Ig. destruct Gg as (n & fl & -> & _). cbn [short forallb] in Ig. rewrite !andb_true_iff, !Z.leb_le in Ig.
    apply zlen2 in FI. lia.
  - intros a Ia. unfold all_attributes in Ia. rewrite !in_app_iff in Ia.
    assert (Y : exists u ds, loaded_usage bufs r l u ds /\ In a ds) by (repeat destruct Ia as [Ia|Ia]; eauto).
    destruct Y as (u & ds & (l0 & V & ->) & Ia'). apply (SkelFacts.forall2_in_r _ _ _ V) in Ia' as (a0 & Ia0 & LA).
    apply filter_In in Ia0 as [Ia0 _]. eauto.
  - intros i Hi. destruct Inf as (parts & EP & FP). rewrite EP in Hi. apply in_concat in Hi as (part & Ip & Hi).
    apply (SkelFacts.forall2_in_r _ _ _ FP) in Ip as (g & Ig & [(bl & Gg & FI)|[_ ->]]); [|destruct Hi].
    apply Sg in Ig. destruct Gg as (n & fl & -> & _). cbn [short forallb] in Ig. rewrite !andb_true_iff in Ig.
    destruct Ig as (_ & _ & _ & (_ & Ib) & _). rewrite forallb_forall in Ib.
    apply (SkelFacts.forall2_in_r _ _ _ FI) in Hi as (w & Iw & nm & wv & -> & _ & St). apply Ib in Iw. cbn [short forallb] in Iw.
    rewrite !andb_true_iff in Iw. destruct Iw as (_ & Iw & _). destruct ver; cbn [stored_weights] in St.
    3: { destruct St as (bs & -> & -> & _). cbn [short] in Iw. pose proof (zlen_nonneg bs). lia. }
    all: subst wv; cbn [short] in Iw; rewrite andb_true_iff, zlen_map in Iw; lia.
Qed.

(** What was loaded from a file of less than 256 MiB satisfies the condition on lists of C52. *)
Lemma mesh_lists_fit b d : bytes_ok b = true -> mesh_data_read b = Ok d -> zlen b < 2 ^ 28 -> Forall lists_fit (mesh_objects d).
Proof.
  intros Hb R L. apply mesh_data_short in R as [_ R]; auto. apply Forall_forall. intros o I. apply R in I as (_ & H1 & H2 & _ & H3).
  change (2 ^ 28) with 268435456 in L. pose proof (zlen_nonneg b). split; [lia|]. split.
  - assert (zlen b * zlen b <= 268435456 * 268435456) by nia. lia.
  - intros i Hi. apply H3 in Hi. lia.
Qed.

Theorem mesh_reload_file bounding b d : bounding_ok bounding -> bytes_ok b = true -> mesh_data_read b = Ok d ->
  zlen b < 2 ^ 28 -> mesh_fits (mesh_version_of d) (mesh_objects d) ->
  (saveable d -> exists out, mesh_data_write bounding d = Ok out /\ (zlen out < 2 ^ 63 -> mesh_data_read out = Ok (stored_mesh d))) /\
  (~ saveable d -> exists e, mesh_data_write bounding d = Err (EData e) /\ mesh_violation d (EData e) /\
     In e [DDuplicate; DNotTriangles; DIndexRange]).
Proof. intros Bo Hb R L. apply (mesh_reload bounding b d Bo Hb R). now apply (mesh_lists_fit b). Qed.

(** ** Adjacency *)
Lemma until_eof_two b n : forall p, 0 <= p -> 2 * zlen (until_eof n b p) <= Z.max 0 (zlen b - p).
Proof.
  induction n as [|n IH]; intros p Hp; cbn [until_eof]; [cbn; lia|].
  destruct (read_int 2 b p) as [[x q]| |] eqn:R; [|cbn; lia|cbn; lia].
  apply read_int_in in R; [|lia]. rewrite zlen_cons. specialize (IH q ltac:(lia)). lia.
Qed.
Lemma slices_short buffer es : forall d, un_adj_entries buffer es = Ok d ->
  zlen d = zlen es /\ forall o off r, es = (o, off) :: r -> zlen (flat_map ae_adjacency d) <= zlen buffer - off / 2.
Proof.
  induction es as [|[o off] r IH]; intros d H; cbn [un_adj_entries] in H.
  - injection H as <-. split; [reflexivity|discriminate].
  - destruct r as [|[o' next] r'].
    + unfold slice_from in H. destruct (off / 2 <=? zlen buffer) eqn:E; [|discriminate H]. injection H as <-.
      split; [reflexivity|]. intros ? ? ? [= <- <- <-]. cbn [flat_map ae_adjacency]. rewrite app_nil_r. unfold zlen in *.
      rewrite skipn_length. lia.
    + unfold slice_get in H. destruct ((off / 2 <=? next / 2) && (next / 2 <=? zlen buffer)) eqn:E; [|discriminate H].
      apply bind_ok in H as (rest & R & H). injection H as <-. apply IH in R as [R1 R2]. split; [rewrite !zlen_cons in *; lia|].
      intros ? ? ? [= <- <- <-]. specialize (R2 _ _ _ eq_refl). cbn [flat_map ae_adjacency]. rewrite zlen_app.
      match goal with |- zlen (firstn ?n ?l) + _ <= _ => pose proof (firstn_le_length n l) as F1; pose proof (firstn_length n l) as F2 end.
      unfold zlen in *. lia.
Qed.
Lemma un_entries_len vs : forall es, un_entries vs = Ok es -> zlen es = zlen vs.
Proof.
  induction vs as [|v r IH]; intros es H; cbn [un_entries] in H; [now injection H as <-|].
  apply bind_ok in H as (e & _ & H). apply bind_ok in H as (es' & E & H). injection H as <-. rewrite !zlen_cons. now rewrite (IH _ E).
Qed.
Lemma read_n_count rd k : forall p vs q, read_n k rd p = Ok (vs, q) -> length vs = k.
Proof.
  induction k as [|k IH]; intros p vs q H; cbn [read_n] in H; [now injection H as <- <-|].
  apply bind_ok in H as ([v p1] & _ & H). apply bind_ok in H as ([vs' p2] & E & H). injection H as <- <-. cbn. f_equal. eauto.
Qed.
Lemma un_entries_nonneg b k : bytes_ok b = true -> forall p vs q es, read_n k (read AdjEntry b) p = Ok (vs, q) -> un_entries vs = Ok es ->
  forall e, In e es -> 0 <= snd e.
Proof.
  intros Hb. induction k as [|k IH]; intros p vs q es H U; cbn [read_n] in H.
  - injection H as <- <-. cbn in U. injection U as <-. intros e [].
  - apply bind_ok in H as ([v p1] & R & H). apply bind_ok in H as ([vs' p2] & E & H). injection H as <- <-.
    cbn [un_entries] in U. apply bind_ok in U as (e0 & U1 & U). apply bind_ok in U as (es' & U2 & U). injection U as <-.
    intros e [<-|I]; [|eapply IH; eauto]. clear - Hb R U1. unfold AdjEntry, record in R. rewrite read_struct in R.
    apply bind_ok in R as ([xs p'] & R & H). injection H as <- <-. cbn [map read_fields] in R.
    apply bind_ok in R as ([x q1] & R1 & R). apply bind_ok in R as ([ys q2] & R2 & R). injection R as <- <-.
    apply bind_ok in R2 as ([y q3] & R3 & R2). apply bind_ok in R2 as ([zs q4] & R4 & R2). injection R2 as <- <-. injection R4 as <- <-.
    cbn [read] in R1, R3. apply bind_ok in R1 as ([n1 ?] & R1 & K1). injection K1 as <- <-.
    apply bind_ok in R3 as ([n3 ?] & R3 & K3). injection K3 as <- <-. cbn [un_entry] in U1. injection U1 as <-. cbn [snd].
    eapply read_int_nonneg; eauto.
Qed.

(** The entries of an adjacency file divide its indices among them. *)
Theorem adj_data_short b d : bytes_ok b = true -> adj_data_read b = Ok d ->
  4 + 8 * zlen d + 2 * zlen (flat_map ae_adjacency d) <= zlen b.
Proof.
  intros Hb R. unfold adj_data_read in R. apply bind_ok in R as (x & R & U).
  unfold adj_read in R. apply bind_ok in R as ([c p] & R1 & R). apply bind_ok in R as ([vs q] & R2 & R). apply bind_ok in R as (es & R3 & R).
  injection R as <-. unfold un_adj in U. cbn [ad_indices ad_entries] in U.
  pose proof (read_int_nonneg _ _ _ _ _ Hb R1) as Hc. apply read_int_in in R1 as (-> & _ & P); [|lia].
  rewrite read_elements_n in R2. pose proof (un_entries_nonneg _ _ Hb _ _ _ _ R2 R3) as Nn.
  pose proof (read_n_count _ _ _ _ _ R2) as Lv. apply un_entries_len in R3.
  assert (K : forall k p vs q, 0 <= p <= zlen b -> read_n k (read AdjEntry b) p = Ok (vs, q) -> q = p + 8 * Z.of_nat k /\ q <= zlen b).
  { clear - Hb. induction k as [|k IH]; intros p vs q Hp H; cbn [read_n] in H; [injection H as <- <-; lia|].
    apply bind_ok in H as ([v p1] & R & H). apply bind_ok in H as ([vs' p2] & E & H). injection H as <- <-.
    unfold AdjEntry, record in R. rewrite read_struct in R.
    apply bind_ok in R as ([xs p'] & R & H). injection H as <- <-. cbn [map read_fields] in R.
    apply bind_ok in R as ([x q1] & R1 & R). apply bind_ok in R as ([ys q2] & R2 & R). injection R as <- <-.
    apply bind_ok in R2 as ([y q3] & R3 & R2). apply bind_ok in R2 as ([zs q4] & R4 & R2). injection R2 as <- <-. injection R4 as <- <-.
    cbn [read] in R1, R3. apply bind_ok in R1 as ([n1 ?] & R1 & K1). injection K1 as <- <-.
    apply bind_ok in R3 as ([n3 ?] & R3 & K3). injection K3 as <- <-.
    apply read_int_in in R1, R3; try lia. apply IH in E; lia. }
  apply K in R2 as [-> Q]; [|lia]. apply slices_short in U as [L S].
  destruct es as [|[o off] r].
  - destruct d; [|unfold zlen in L; cbn in L; lia]. cbn. pose proof (zlen_nonneg vs). unfold zlen in *. cbn [length] in *. lia.
  - specialize (S _ _ _ eq_refl). specialize (Nn _ (or_introl eq_refl)). cbn [snd] in Nn.
    pose proof (until_eof_two b (length b) (0 + 4 + 8 * Z.of_nat (Z.to_nat c)) ltac:(lia)) as T. unfold zlen in R3, L. unfold zlen at 1. lia.
Qed.
