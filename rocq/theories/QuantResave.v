(** Loading and saving animations repeatedly. *)
From Coq Require Import ZArith Reals SpecFloat Lia Lra ZifyBool.
From Flocq Require Import Core BinarySingleNaN.
From Verif Require Import Bytes Ssbh Float32 AnimComp AnimBuf AnimFile AnimSpec AnimFacts CodecFacts AnimDataFacts AnimLemmas AnimReload QuantSpec FlocqFacts QuantFacts QuantTrack ResaveSpec AnimAgain.
Local Open Scope R_scope.

(** ** Columns after some saves *)
Record near (e : R) (col col' : list Z) : Prop := {
  near_len : (length col' <= length col)%nat;
  near_values : forall i x y lo hi, nth_error col i = Some x -> nth_error col' i = Some y -> column_range col lo hi ->
    finite y = true /\ real lo <= real y <= real hi /\ Rabs (real y - real x) <= e * column_error lo hi /\
    (real x = real lo -> real y = real lo) /\ (real x = real hi -> real y = real hi)
}.

Lemma near_refl col : column_finite col -> near 0 col col.
Proof.
  intros F. constructor; auto. intros i x y lo hi Hx Hy (_ & _ & R). assert (y = x) by congruence. subst y. apply nth_error_In in Hx.
  destruct (F x x Hx Hx) as [Fx _]. split; auto. split; [auto|]. split; [|auto].
  replace (real x - real x) with 0 by lra. rewrite Rabs_R0. lra.
Qed.

Lemma in_other {A} (l l' : list A) y : (length l' <= length l)%nat -> In y l' -> exists i x, nth_error l i = Some x /\ nth_error l' i = Some y.
Proof.
  intros L H. apply In_nth_error in H as [i H]. exists i. destruct (nth_error l i) as [x|] eqn:E; eauto.
  apply nth_error_None in E. assert (i < length l')%nat by (apply nth_error_Some; congruence). lia.
Qed.
Lemma range_ex col : column_finite col -> col <> [] -> exists lo hi, column_range col lo hi.
Proof. intros F N. exists (find_min col), (find_max col). apply find_range; auto. intros x H. apply (F x x H H). Qed.
Lemma near_in e col col' y lo hi : near e col col' -> column_range col lo hi -> In y col' -> finite y = true /\ real lo <= real y <= real hi.
Proof.
  intros [L V] R H. destruct (in_other col col' y L H) as (i & x & Hx & Hy). destruct (V i x y lo hi Hx Hy R) as (A & B & _). auto.
Qed.

(** Differences inside a range are finite. *)
Lemma diff_finite lo hi x y : finite lo = true -> finite hi = true -> finite x = true -> finite y = true ->
  real lo <= real x <= real hi -> real lo <= real y <= real hi -> finite_f (sub32 (f32_of hi) (f32_of lo)) = true ->
  finite_f (sub32 (f32_of x) (f32_of y)) = true.
Proof.
  intros Fl Fh Fx Fy Bx By D. apply finite_rep in Fl, Fh, Fx, Fy. unfold sub32 in *.
  assert (D' : is_finite_SF (SFsub prec32 emax32 (f32_of hi) (f32_of lo)) = true) by (destruct (SFsub prec32 emax32 (f32_of hi) (f32_of lo)); auto).
  destruct (rep_sub_finite prec32 emax32 _ _ _ _ _ _ Fh Fl D') as [_ B].
  assert (E := rep_sub prec32 emax32 _ _ _ _ _ _ Fx Fy).
  assert (M1 : rnd prec32 emax32 (real x - real y) <= rnd prec32 emax32 (real hi - real lo)) by (apply rnd_mono; [apply prec32_pos|lra]).
  assert (M2 : rnd prec32 emax32 (- (real hi - real lo)) <= rnd prec32 emax32 (real x - real y)) by (apply rnd_mono; [apply prec32_pos|lra]).
  unfold rnd in M2 at 1. rewrite round_NE_opp in M2. fold (rnd prec32 emax32 (real hi - real lo)) in M2.
  destruct E as (_ & E & _).
  { apply Rabs_lt. apply Rabs_lt_inv in B. lra. }
  unfold finite_f. destruct (SFsub prec32 emax32 (f32_of x) (f32_of y)); auto.
Qed.
Lemma near_finite e col col' : column_finite col -> near e col col' -> column_finite col'.
Proof.
  intros F N. destruct col as [|c0 col0] eqn:Ec.
  - destruct N as [L _]. destruct col'; [intros ? ? []|cbn in L; lia].
  - rewrite <- Ec in *. destruct (range_ex col F ltac:(subst; discriminate)) as (lo & hi & R). intros x y Hx Hy.
    destruct (near_in _ _ _ _ _ _ N R Hx) as [Fx Bx]. destruct (near_in _ _ _ _ _ _ N R Hy) as [Fy By]. split; auto.
    destruct R as (Il & Ih & _). apply (diff_finite lo hi); auto; try (apply (F _ _ Il Il)); try (apply (F _ _ Ih Ih)). apply (F hi lo Ih Il).
Qed.

Lemma error_mono lo hi lo' hi' : real lo <= real lo' -> real lo' <= real hi' -> real hi' <= real hi -> column_error lo' hi' <= column_error lo hi.
Proof.
  intros A B C. unfold column_error, step, magnitude. change (2 ^ 24 - 1)%Z with 16777215%Z.
  assert (Rmax (Rabs (real lo')) (Rabs (real hi')) <= Rmax (Rabs (real lo)) (Rabs (real hi))).
  { apply Rmax_case; unfold Rmax, Rabs; repeat (destruct (Rle_dec _ _) || destruct (Rcase_abs _)); lra. }
  lra.
Qed.

Lemma near_trans e col col1 col2 : 0 <= e -> column_finite col -> near e col col1 -> near 1 col1 col2 -> near (e + 1) col col2.
Proof.
  intros He F N1 N2. pose proof (near_finite _ _ _ F N1) as F1. destruct N1 as [L1 V1] eqn:En1. destruct N2 as [L2 V2].
  constructor; [lia|]. intros i x y lo hi Hx Hy R.
  destruct (in_other col1 col2 y L2 (nth_error_In _ _ Hy)) as (_ & _ & _ & _).
  assert (exists z, nth_error col1 i = Some z) as [z Hz].
  { destruct (nth_error col1 i) as [z|] eqn:E; eauto. apply nth_error_None in E. assert (i < length col2)%nat by (apply nth_error_Some; congruence). lia. }
  assert (Iz := nth_error_In _ _ Hz).
  destruct (range_ex col1 F1 ltac:(intros ->; destruct Iz)) as (lo1 & hi1 & R1).
  destruct (V1 i x z lo hi Hx Hz R) as (Fz & Bz & Ez & Zl & Zh). destruct (V2 i z y lo1 hi1 Hz Hy R1) as (Fy & By & Ey & Yl & Yh).
  pose proof R1 as (Il & Ih & A1). destruct (near_in _ _ _ _ _ _ N1 R Il) as [_ Bl]. destruct (near_in _ _ _ _ _ _ N1 R Ih) as [_ Bh].
  pose proof (A1 z Iz) as Az. pose proof (error_mono lo hi lo1 hi1 ltac:(lra) ltac:(lra) ltac:(lra)) as M.
  split; auto. split; [lra|]. split; [|split; intros E].
  - replace (real y - real x) with ((real y - real z) + (real z - real x)) by ring. eapply Rle_trans; [apply Rabs_triang|]. lra.
  - specialize (Zl E). rewrite Yl; lra.
  - specialize (Zh E). rewrite Yh; lra.
Qed.

(** ** One save *)
Lemma stored_lengths v : map (@length Z) (columns (stored_values v)) = map (@length Z) (columns v).
Proof. destruct v; cbn [columns stored_values map]; rewrite ?map_length; reflexivity. Qed.
Lemma close_near col col' : length col' = length col -> column_close col col' -> near 1 col col'.
Proof.
  intros L C. constructor; [lia|]. intros i x y lo hi Hx Hy R. destruct (C i x y lo hi Hx Hy R) as (A & B & D & E). rewrite Rmult_1_l. auto.
Qed.
Lemma near_first e col col' : near e col col' -> near e col (firstn 1 col').
Proof.
  intros [L V]. constructor; [rewrite firstn_length; lia|]. intros i x y lo hi Hx Hy. apply (V i); auto. now apply nth_firstn1.
Qed.
Lemma forall2_mono {A B} (P Q : A -> B -> Prop) l m : (forall a b, In a l -> P a b -> Q a b) -> Forall2 P l m -> Forall2 Q l m.
Proof. intros H F. induction F; constructor; auto using in_eq. apply IHF. intros; apply H; auto. now right. Qed.



Lemma near_more col col' : column_finite col -> near 0 col col' -> near 1 col col'.
Proof.
  intros F [L V]. constructor; auto. intros i x y lo hi Hx Hy R. destruct (V i x y lo hi Hx Hy R) as (A & B & C & D & E).
  repeat split; auto; try apply B. pose proof (error_nonneg lo hi ltac:(lra)). lra.
Qed.
Lemma stored_near v : values_finite v -> Forall2 (near 1) (columns v) (columns (stored_track_values v)).
Proof.
  intros F. unfold stored_track_values.
  assert (S : Forall2 (near 1) (columns v) (columns (stored_values v))).
  { pose proof (columns_close v F) as C. pose proof (stored_lengths v) as L. revert L C. generalize (columns (stored_values v)).
    generalize (columns v). intros l m L C. induction C; constructor; cbn [map] in L; injection L as L1 L2; auto using close_near. }
  destruct (compressed v).
  - destruct (frame_bits v =? 0)%Z; auto. rewrite first_columns. clear F.
    induction S as [|c c' l l' N S IH]; cbn [map]; constructor; auto. now apply near_first.
  - clear S. revert F. unfold values_finite. generalize (columns v). intros l F. induction l as [|col l IH]; constructor.
    + apply near_more; [apply F; now left|]. apply near_refl. apply F. now left.
    + apply IH. intros c H. apply F. now right.
Qed.
Lemma stored_finite v : values_finite v -> values_finite (stored_track_values v).
Proof.
  intros F col H. pose proof (stored_near v F) as N. apply (SkelFacts.forall2_in_r _ _ _ N) in H as (c & I & H).
  eapply near_finite; eauto.
Qed.

(** *** Sizes do not grow *)
Lemma cbits_le {T U} (f : T -> Z) (g : U -> Z) l l' : column_finite (map f l) -> map g l' = map (cvalue f l) l -> (cbits g l' <= cbits f l)%Z.
Proof.
  intros F E. unfold cbits, comp_bits. destruct (f32_eqb (find_min (map f l)) (find_max (map f l))) eqn:Q.
  2:{ destruct (f32_eqb (find_min (map g l')) _); lia. }
  rewrite E. destruct l as [|t l]; [reflexivity|]. remember (t :: l) as l0.
  assert (C := map_close f l0 F).
  assert (N : near 1 (map f l0) (map (cvalue f l0) l0)) by (apply close_near; [now rewrite !map_length|exact C]).
  pose proof (near_finite _ _ _ F N) as F'.
  assert (R := find_range (map f l0) ltac:(subst; discriminate) ltac:(intros x I; apply (F x x I I))).
  assert (R' := find_range (map (cvalue f l0) l0) ltac:(subst; discriminate) ltac:(intros x I; apply (F' x x I I))).
  pose proof R as (I1 & I2 & _). pose proof R' as (J1 & J2 & _).
  destruct (near_in _ _ _ _ _ _ N R J1) as [G1 B1]. destruct (near_in _ _ _ _ _ _ N R J2) as [G2 B2].
  apply eqb_real in Q; [|apply (F _ _ I1 I1)|apply (F _ _ I2 I2)].
  assert (X : f32_eqb (find_min (map (cvalue f l0) l0)) (find_max (map (cvalue f l0) l0)) = true) by (apply eqb_real; auto; lra).
  rewrite X. lia.
Qed.
Lemma cbits_range {T} (f : T -> Z) l : (0 <= cbits f l)%Z.
Proof. unfold cbits, comp_bits. destruct (f32_eqb _ _); lia. Qed.
Lemma eqb_self x : finite x = true -> f32_eqb x x = true.
Proof. intros H. apply eqb_real; auto. Qed.

Lemma frame_bits_le v : values_finite v -> (frame_bits (stored_values v) <= frame_bits v)%Z.
Proof.
  intros F. pose proof (columns_close v F) as C. destruct v as [l|l|l|l|l|l]; cbn [stored_values frame_bits]; try lia.
  - unfold values_finite in F. cbn [columns] in F.
    assert (K : forall (f g : transform -> Z), In (map f l) [map sx l; map sy l; map sz l; map rx l; map ry l; map rz l; map tx l; map ty_ l; map tz l] ->
      (forall t, In t l -> g (stored_transform l t) = cvalue f l t) -> (cbits g (map (stored_transform l) l) <= cbits f l)%Z).
    { intros f g I H. apply cbits_le; [apply F; exact I|]. rewrite map_map. apply map_ext_in. exact H. }
    assert (X1 : (cbits rx (map (stored_transform l) l) <= cbits rx l)%Z) by (apply K; [cbn; auto 12|reflexivity]).
    assert (X2 : (cbits ry (map (stored_transform l) l) <= cbits ry l)%Z) by (apply K; [cbn; auto 12|reflexivity]).
    assert (X3 : (cbits rz (map (stored_transform l) l) <= cbits rz l)%Z) by (apply K; [cbn; auto 12|reflexivity]).
    assert (X4 : (cbits tx (map (stored_transform l) l) <= cbits tx l)%Z) by (apply K; [cbn; auto 12|reflexivity]).
    assert (X5 : (cbits ty_ (map (stored_transform l) l) <= cbits ty_ l)%Z) by (apply K; [cbn; auto 12|reflexivity]).
    assert (X6 : (cbits tz (map (stored_transform l) l) <= cbits tz l)%Z) by (apply K; [cbn; auto 12|reflexivity]).
    assert (S1 : (cbits sx (map (stored_transform l) l) <= cbits sx l)%Z).
    { apply K; [cbn; auto|]. intros t _. unfold stored_transform, sx. cbn. now destruct (tr_uniform l). }
    destruct (tr_uniform l) eqn:U.
    + assert (U' : tr_uniform (map (stored_transform l) l) = true).
      { unfold tr_uniform. apply forallb_forall. intros t I. apply in_map_iff in I as (u & <- & I). unfold stored_transform. rewrite U. cbn.
        assert (Fi : finite (cvalue sx l u) = true).
        { assert (N : near 1 (map sx l) (map (cvalue sx l) l)) by (apply close_near; [now rewrite !map_length|]; apply map_close, F; cbn; auto).
          pose proof (near_finite _ _ _ (F (map sx l) ltac:(cbn; auto)) N) as F'. assert (J := in_map (cvalue sx l) _ _ I). apply (F' _ _ J J). }
        now rewrite eqb_self. }
      rewrite U'. lia.
    + assert (S2 : (cbits sy (map (stored_transform l) l) <= cbits sy l)%Z) by (apply K; [cbn; auto|]; intros t _; unfold stored_transform; rewrite U; reflexivity).
      assert (S3 : (cbits sz (map (stored_transform l) l) <= cbits sz l)%Z) by (apply K; [cbn; auto|]; intros t _; unfold stored_transform; rewrite U; reflexivity).
      pose proof (cbits_range sy l). pose proof (cbits_range sz l). destruct (tr_uniform (map (stored_transform l) l)); lia.
  - unfold values_finite in F. cbn [columns] in F.
    assert (K : forall (f g : uvtransform -> Z), In (map f l) [map uv_su l; map uv_sv l; map uv_rot l; map uv_tu l; map uv_tv l] ->
      (forall t, In t l -> g (stored_uv l t) = cvalue f l t) -> (cbits g (map (stored_uv l) l) <= cbits f l)%Z).
    { intros f g I H. apply cbits_le; [apply F; exact I|]. rewrite map_map. apply map_ext_in. exact H. }
    assert (X1 : (cbits uv_rot (map (stored_uv l) l) <= cbits uv_rot l)%Z) by (apply K; [cbn; auto 12|reflexivity]).
    assert (X2 : (cbits uv_tu (map (stored_uv l) l) <= cbits uv_tu l)%Z) by (apply K; [cbn; auto 12|reflexivity]).
    assert (X3 : (cbits uv_tv (map (stored_uv l) l) <= cbits uv_tv l)%Z) by (apply K; [cbn; auto 12|reflexivity]).
    assert (S1 : (cbits uv_su (map (stored_uv l) l) <= cbits uv_su l)%Z) by (apply K; [cbn; auto|reflexivity]).
    destruct (uv_uniform l) eqn:U.
    + assert (U' : uv_uniform (map (stored_uv l) l) = true).
      { unfold uv_uniform. apply forallb_forall. intros t I. apply in_map_iff in I as (u & <- & I). unfold stored_uv. rewrite U. cbn.
        assert (Fi : finite (cvalue uv_su l u) = true).
        { assert (N : near 1 (map uv_su l) (map (cvalue uv_su l) l)) by (apply close_near; [now rewrite !map_length|]; apply map_close, F; cbn; auto).
          pose proof (near_finite _ _ _ (F (map uv_su l) ltac:(cbn; auto)) N) as F'. assert (J := in_map (cvalue uv_su l) _ _ I). apply (F' _ _ J J). }
        now rewrite eqb_self. }
      rewrite U'. lia.
    + assert (S2 : (cbits uv_sv (map (stored_uv l) l) <= cbits uv_sv l)%Z) by (apply K; [cbn; auto|]; intros t _; unfold stored_uv; rewrite U; reflexivity).
      pose proof (cbits_range uv_sv l). destruct (uv_uniform (map (stored_uv l) l)); lia.
  - apply cbits_le; [apply F; cbn; rewrite map_id; auto|now rewrite map_id].
  - unfold values_finite in F. cbn [columns] in F.
    assert (K : forall (f : vec4 -> Z), In (map f l) [map v4x l; map v4y l; map v4z l; map v4w l] ->
      (forall t, In t l -> f (stored_vec4 l t) = cvalue f l t) -> (cbits f (map (stored_vec4 l) l) <= cbits f l)%Z).
    { intros f I H. apply cbits_le; [apply F; exact I|]. rewrite map_map. apply map_ext_in. exact H. }
    pose proof (K v4x ltac:(cbn; auto) ltac:(reflexivity)). pose proof (K v4y ltac:(cbn; auto) ltac:(reflexivity)).
    pose proof (K v4z ltac:(cbn; auto) ltac:(reflexivity)). pose proof (K v4w ltac:(cbn; auto) ltac:(reflexivity)). lia.
Qed.

Lemma zlen_map' {A B} (f : A -> B) l : zlen (map f l) = zlen l.
Proof. unfold zlen. now rewrite map_length. Qed.
Lemma stored_len v : tv_len (stored_values v) = tv_len v.
Proof. destruct v; cbn [stored_values tv_len]; now rewrite ?zlen_map'. Qed.
Lemma stored_infer v : infer_compression (stored_values v) = infer_compression v.
Proof.
  pose proof (stored_len v) as L. destruct v; cbn [stored_values] in *; unfold infer_compression; try rewrite L; reflexivity.
Qed.
Lemma stored_sizes v : value_size (stored_values v) = value_size v /\ params_size (stored_values v) = params_size v.
Proof. destruct v; auto. Qed.
Lemma first_len v : (0 <= tv_len (first_frame v) <= 1)%Z /\ (tv_len (first_frame v) <= tv_len v)%Z.
Proof. destruct v as [l|l|l|l|l|l]; cbn [first_frame tv_len]; unfold zlen; rewrite firstn_length; lia. Qed.
Lemma first_size v : value_size (first_frame v) = value_size v.
Proof. destruct v; reflexivity. Qed.
Lemma sizes_pos v : (0 < value_size v)%Z /\ (0 < params_size v)%Z.
Proof. destruct v; cbn; lia. Qed.
Lemma frame_bits_nonneg v : (0 <= frame_bits v)%Z.
Proof.
  destruct v as [l|l|l|l|l|l]; cbn [frame_bits]; try lia;
    repeat match goal with |- context [cbits ?f l] => lazymatch goal with H : (0 <= cbits f l)%Z |- _ => fail | _ => pose proof (cbits_range f l) end end;
    try destruct (tr_uniform l); try destruct (uv_uniform l); lia.
Qed.
Lemma tv_len_nonneg v : (0 <= tv_len v)%Z.
Proof. destruct v; cbn; unfold zlen; lia. Qed.
Lemma short_plain v : (tv_len v <= 1)%Z -> compressed v = false.
Proof.
  intros H. apply Z.leb_le in H. rewrite compressed_infer. unfold infer_compression. destruct v; rewrite H; reflexivity.
Qed.

Lemma track_size_le v : values_finite v -> (track_size (stored_track_values v) <= track_size v)%Z.
Proof.
  intros F. unfold stored_track_values. destruct (compressed v) eqn:C; [|lia]. destruct (sizes_pos v) as [P1 P2].
  pose proof (tv_len_nonneg v) as P3. pose proof (frame_bits_nonneg v) as P4.
  assert (P5 : (0 <= (tv_len v * frame_bits v + 7) / 8)%Z) by (apply Z.div_pos; [|lia]; apply Z.add_nonneg_nonneg; [now apply Z.mul_nonneg_nonneg|lia]).
  destruct (stored_sizes v) as [S1 S2]. destruct (frame_bits v =? 0)%Z.
  - destruct (first_len (stored_values v)) as [L _]. unfold track_size. rewrite C, (short_plain (first_frame (stored_values v))) by lia.
    rewrite first_size, S1. nia.
  - unfold track_size. rewrite (compressed_infer (stored_values v)), stored_infer, <- compressed_infer, C, S1, S2, stored_len. pose proof (frame_bits_le v F) as B.
    assert ((tv_len v * frame_bits (stored_values v) + 7) / 8 <= (tv_len v * frame_bits v + 7) / 8)%Z by (apply Z.div_le_mono; nia). lia.
Qed.
Lemma stored_track_len v : (tv_len (stored_track_values v) <= tv_len v)%Z.
Proof.
  unfold stored_track_values. destruct (compressed v); [|lia]. destruct (frame_bits v =? 0)%Z.
  - destruct (first_len (stored_values v)) as [_ L]. rewrite stored_len in L. exact L.
  - rewrite stored_len. lia.
Qed.

(** *** Everything stays 32 bits wide *)
Lemma cvalue_32 {T} (f : T -> Z) l x : (forall t, In t l -> is32 (f t) = true) -> is32 (cvalue f l x) = true.
Proof.
  intros H. unfold cvalue, comp_value. destruct (f32_eqb _ _); [|apply decompress_32]. apply find_min_ok.
  apply forallb_forall. intros y I. apply in_map_iff in I as (t & <- & I). auto.
Qed.
Lemma and_all {T} (p q : T -> bool) l : forallb (fun x => p x && q x) l = true -> forallb p l = true /\ forallb q l = true.
Proof. rewrite !forallb_forall. intros H. split; intros x I; apply H in I; apply andb_prop in I; tauto. Qed.
Lemma stored_values_ok v : values_ok v = true -> values_ok (stored_values v) = true.
Proof.
  destruct v as [l|l|l|l|l|l]; cbn [values_ok stored_values]; intros H; auto; apply forallb_forall; intros y I; apply in_map_iff in I as (t & <- & I).
  - unfold vec3_ok, vec4_ok in H. 
    assert (K : forall f, In f [sx; sy; sz; rx; ry; rz; tx; ty_; tz] -> is32 (cvalue f l t) = true).
    { intros f If. apply cvalue_32. intros u Iu. rewrite forallb_forall in H. specialize (H u Iu). clear - H If.
      repeat match goal with H : (_ && _)%bool = true |- _ => apply andb_prop in H as [? ?] | H : is32 _ = true |- _ => idtac end.
      fold (sx u) (sy u) (sz u) (rx u) (ry u) (rz u) (tx u) (ty_ u) (tz u) in *.
      cbn in If. repeat destruct If as [<-|If]; auto; contradiction. }
    unfold stored_transform, vec3_ok, vec4_ok. cbn [tr_scale tr_rot tr_trans v3x v3y v3z v4x v4y v4z v4w].
    rewrite rotation_32. destruct (tr_uniform l); cbn [v3x v3y v3z]; rewrite !K by (cbn; auto 12); reflexivity.
  - assert (K : forall f, In f [uv_su; uv_sv; uv_rot; uv_tu; uv_tv] -> is32 (cvalue f l t) = true).
    { intros f If. apply cvalue_32. intros u Iu. rewrite forallb_forall in H. specialize (H u Iu). clear - H If.
      do 4 (apply andb_prop in H as [H ?]). cbn in If. repeat destruct If as [<-|If]; auto; contradiction. }
    unfold stored_uv. cbn. destruct (uv_uniform l); rewrite !K by (cbn; auto 12); reflexivity.
  - apply cvalue_32. rewrite forallb_forall in H. exact H.
  - rewrite forallb_forall in H. assert (N : l <> []) by (intros ->; destruct I). pose proof (H _ (lowest_in l N)) as Hl. pose proof (H _ I) as Ht. 
    pose proof (lowest_le l t I). unfold stored_index, is32 in *.
    assert (0 <= (t - lowest l) mod 2 ^ 24 <= t - lowest l)%Z by (split; [apply Z.mod_pos_bound; lia|apply Z.mod_le; lia]). lia.
  - assert (K : forall f, In f [v4x; v4y; v4z; v4w] -> is32 (cvalue f l t) = true).
    { intros f If. apply cvalue_32. intros u Iu. rewrite forallb_forall in H. specialize (H u Iu). unfold vec4_ok in H. clear - H If.
      do 3 (apply andb_prop in H as [H ?]). cbn in If. repeat destruct If as [<-|If]; auto; contradiction. }
    unfold stored_vec4, vec4_ok. cbn. rewrite !K by (cbn; auto); reflexivity.
Qed.
Lemma first_values_ok v : values_ok v = true -> values_ok (first_frame v) = true.
Proof. destruct v as [[|]|[|]|[|]|[|]|[|]|[|]]; cbn; auto; intros H; apply andb_prop in H as [-> _]; reflexivity. Qed.
Lemma stored_track_ok t : track_ok t = true -> track_ok (stored_track t) = true.
Proof.
  unfold track_ok, stored_track. cbn [td_name td_values]. intros H. apply andb_prop in H as [H L]. apply andb_prop in H as [-> V].
  pose proof (stored_track_len (td_values t)) as S. replace (_ <? 2 ^ 32)%Z with true by lia. rewrite andb_true_r. cbn [andb].
  unfold stored_track_values. destruct (compressed _); auto. destruct (_ =? 0)%Z; auto using first_values_ok, stored_values_ok.
Qed.
Lemma forallb_map_ok {A} (p : A -> bool) f l : (forall x, p x = true -> p (f x) = true) -> forallb p l = true -> forallb p (map f l) = true.
Proof. rewrite !forallb_forall. intros H K y I. apply in_map_iff in I as (x & <- & I). auto. Qed.
Lemma stored_anim_ok d : anim_ok d = true -> anim_ok (stored_anim d) = true.
Proof.
  unfold anim_ok, stored_anim. cbn [ad_final ad_groups]. rewrite zlen_map'. intros H. apply andb_prop in H as [-> H]. cbn [andb].
  apply forallb_map_ok; auto. clear. intros g H. unfold group_ok, stored_group in *. cbn [gd_type gd_nodes]. rewrite zlen_map'.
  apply andb_prop in H as [-> H]. cbn [andb]. apply forallb_map_ok; auto. clear. intros n H. unfold node_ok, stored_node in *. cbn [nd_name nd_tracks].
  rewrite zlen_map'. apply andb_prop in H as [-> H]. cbn [andb]. apply forallb_map_ok; auto using stored_track_ok.
Qed.


Lemma stored_anim_finite d : anim_finite d -> anim_finite (stored_anim d).
Proof. intros F t I. rewrite stored_tracks in I. apply in_map_iff in I as (u & <- & I). cbn. apply stored_finite, F, I. Qed.
Lemma anim_size_le d : anim_finite d -> (anim_size (stored_anim d) <= anim_size d)%Z.
Proof.
  unfold anim_size, anim_finite. rewrite stored_tracks, map_map. generalize (tracks_of d). intros l. induction l as [|t l IH]; intros F; cbn [map fold_right]; [lia|].
  assert (track_size (td_values (stored_track t)) <= track_size (td_values t))%Z by (cbn; apply track_size_le, F; now left).
  assert (fold_right Z.add 0 (map (fun x => track_size (td_values (stored_track x))) l) <= fold_right Z.add 0 (map (fun x => track_size (td_values x)) l))%Z
    by (apply IH; intros; apply F; now right). lia.
Qed.

(** *** The final frame still reaches the last frame *)
Lemma leb_mono f a b ra rb : rep32 a ra -> rep32 b rb -> rb <= ra -> valid_binary prec32 emax32 f = true -> SFleb a f = true -> SFleb b f = true.
Proof.
  intros Ha Hb L V H. destruct f as [s|[]| |s m e].
  2:{ destruct Ha as (_ & Fa & _). destruct a as [[]|[]| |[] ? ?]; discriminate. }
  2:{ destruct Hb as (_ & Fb & _). destruct b as [[]|[]| |[] ? ?]; try discriminate; reflexivity. }
  2:{ destruct a as [[]|[]| |[] ? ?]; discriminate. }
  all: apply (rep_B prec32 emax32) in Ha as (ba & <- & Fa & <-); apply (rep_B prec32 emax32) in Hb as (bb & <- & Fb & <-);
    pose proof (B2SF_SF2B prec32 emax32 _ V) as E; rewrite <- E in *; set (bf := SF2B _ V) in *;
    assert (Ff : is_finite bf = true) by (unfold bf; rewrite is_finite_SF2B; reflexivity);
    change (SFleb (B2SF ba) (B2SF bf)) with (Bleb ba bf) in H; change (SFleb (B2SF bb) (B2SF bf)) with (Bleb bb bf);
    rewrite Bleb_correct in * by auto; revert H; case Rle_bool_spec; intros; try discriminate; apply Rle_bool_true; lra.
Qed.
Lemma frames_rep m : (0 <= m < 2 ^ 32)%Z -> rep32 (sub32 (int_to_f32 m) (int_to_f32 1)) (rnd32 (rnd32 (IZR m) - 1)).
Proof.
  intros H.
  assert (F32 : format32 (IZR (2 ^ 32))).
  { apply (generic_format_bpow radix2 (SpecFloat.fexp prec32 emax32) 32). vm_compute; discriminate. }
  assert (Fm : format32 (IZR (-1))) by (apply (int_format prec32 emax32); [reflexivity|vm_compute; discriminate]).
  assert (B1 : 0 <= rnd32 (IZR m) <= IZR (2 ^ 32)).
  { apply rnd_between; auto using format_0; [apply prec32_pos|]. split; apply IZR_le; lia. }
  assert (B2 : IZR (-1) <= rnd32 (rnd32 (IZR m) - 1) <= IZR (2 ^ 32)) by (apply rnd_between; auto; [apply prec32_pos|lra]).
  assert (O : IZR (2 ^ 32) < bpow radix2 emax32) by (change (IZR (2 ^ 32)) with (bpow radix2 32); now apply bpow_lt).
  change (IZR (2 ^ 32)) with 4294967296 in *.
  assert (R1 : rep32 (int_to_f32 m) (rnd32 (IZR m))).
  { pose proof (rep_normalize prec32 emax32 _ _ m 0 false) as N. replace (F2R (Float radix2 m 0)) with (IZR m) in N by (unfold F2R; cbn; lra).
    apply N. apply Rabs_lt. lra. }
  pose proof (rep_int prec32 emax32 _ _ 1%Z ltac:(reflexivity) ltac:(vm_compute; discriminate)) as R2.
  apply (rep_sub prec32 emax32); [typeclasses eauto|typeclasses eauto|exact R1|exact R2|]. apply Rabs_lt. lra.
Qed.
Lemma max_frames_range d : anim_ok d = true -> (0 <= max_frames d < 2 ^ 32)%Z.
Proof.
  intros H. assert (T : forall t, In t (tracks_of d) -> (0 <= tv_len (td_values t) < 2 ^ 32)%Z).
  { intros t I. split; [apply tv_len_nonneg|]. unfold tracks_of in I. apply in_flat_map in I as (g & Ig & I). apply in_flat_map in I as (n & In' & It).
    unfold anim_ok in H. apply andb_prop in H as [_ H]. rewrite forallb_forall in H. specialize (H g Ig). unfold group_ok in H.
    apply andb_prop in H as [_ H]. rewrite forallb_forall in H. specialize (H n In'). unfold node_ok in H.
    apply andb_prop in H as [_ H]. rewrite forallb_forall in H. specialize (H t It). unfold track_ok in H. apply andb_prop in H as [_ H]. lia. }
  unfold max_frames. clear H. revert T. generalize (tracks_of d). intros l. induction l as [|t l IH]; intros T; cbn [map fold_right]; [lia|].
  specialize (IH ltac:(intros; apply T; now right)). specialize (T t (or_introl eq_refl)). lia.
Qed.
Lemma max_frames_le d : (max_frames (stored_anim d) <= max_frames d)%Z.
Proof.
  unfold max_frames. rewrite stored_tracks, map_map. generalize (tracks_of d). intros l. induction l as [|t l IH]; cbn [map fold_right]; [lia|].
  assert (tv_len (td_values (stored_track t)) <= tv_len (td_values t))%Z by apply stored_track_len. lia.
Qed.
Lemma stored_final d : anim_ok d = true -> final_ok d = true -> final_ok (stored_anim d) = true.
Proof.
  intros W H. unfold final_ok in *. cbn [ad_final stored_anim]. apply andb_prop in H as [-> H]. cbn [andb].
  pose proof (max_frames_range d W). pose proof (max_frames_range _ (stored_anim_ok d W)). pose proof (max_frames_le d).
  apply (leb_mono _ _ _ _ _ (frames_rep _ H0) (frames_rep _ H1)); [|apply f32_of_valid|exact H].
  - apply rnd_mono; [apply prec32_pos|]. assert (rnd32 (IZR (max_frames (stored_anim d))) <= rnd32 (IZR (max_frames d))); [|lra].
    apply rnd_mono; [apply prec32_pos|]. now apply IZR_le.
  - unfold anim_ok in W. apply andb_prop in W as [W _]. apply andb_prop in W as [W _]. unfold is32 in W. lia.
Qed.

(** ** Any number of saves *)
Theorem resave_error order n d d' : anim_ok d = true -> (anim_size d < 2 ^ 32)%Z -> anim_finite d -> saves order n d d' ->
  (final_ok d = true -> ad_major d = 2%Z -> ad_minor d = 0%Z \/ ad_minor d = 1%Z -> exists out, anim_data_write d' = Ok out) /\
  length (tracks_of d') = length (tracks_of d) /\
  forall j t t', nth_error (tracks_of d) j = Some t -> nth_error (tracks_of d') j = Some t' ->
  td_name t' = td_name t /\ td_flags t' = td_flags t /\ length (columns (td_values t')) = length (columns (td_values t)) /\
  forall k i col col' x y lo hi, nth_error (columns (td_values t)) k = Some col -> nth_error (columns (td_values t')) k = Some col' ->
    nth_error col i = Some x -> nth_error col' i = Some y -> column_range col lo hi ->
    finite y = true /\ real lo <= real y <= real hi /\ Rabs (real y - real x) <= INR n * column_error lo hi /\
    (real x = real lo -> real y = real lo) /\ (real x = real hi -> real y = real hi).
Proof.
  intros W S F H.
  assert (X : anim_ok d' = true /\ (anim_size d' < 2 ^ 32)%Z /\ anim_finite d' /\ (final_ok d = true -> final_ok d' = true) /\
    ad_major d' = ad_major d /\ ad_minor d' = ad_minor d /\
    Forall2 (fun t t' => td_name t' = td_name t /\ td_flags t' = td_flags t /\
      Forall2 (near (INR n)) (columns (td_values t)) (columns (td_values t'))) (tracks_of d) (tracks_of d')).
  { induction H as [d|n d d1 d2 out H IH E L R].
    - do 6 (split; [now auto|]). assert (G : forall t, In t (tracks_of d) -> values_finite (td_values t)) by exact F. clear - G. revert G.
      generalize (tracks_of d). intros l. induction l as [|t l IH]; intros G; constructor; [|apply IH; intros; apply G; now right].
      split; auto. split; auto. specialize (G t (or_introl eq_refl)). unfold values_finite in G. revert G. generalize (columns (td_values t)). intros m.
      induction m as [|c m IHm]; intros G; constructor; [apply near_refl, G; now left|]. apply IHm. intros; apply G; now right.
    - destruct (IH W S F) as (W1 & S1 & F1 & Fi1 & M1 & N1 & T1). rewrite (anim_save_load order d1 out W1 S1 E L) in R. injection R as <-.
      split; [now apply stored_anim_ok|]. split; [pose proof (anim_size_le d1 F1); lia|]. split; [now apply stored_anim_finite|].
      split; [intros; apply stored_final; auto|]. split; auto. split; auto. rewrite stored_tracks.
      clear - F F1 T1. unfold anim_finite in F, F1. revert F F1. induction T1 as [|t t1 l l1 (A & B & C) T1 IH]; intros F F1; cbn [map]; constructor.
      + split; [auto|]. split; [auto|]. cbn [stored_track td_values]. specialize (F t (or_introl eq_refl)). specialize (F1 t1 (or_introl eq_refl)).
        pose proof (stored_near _ F1) as N. rewrite S_INR. clear - F C N. unfold values_finite in F. revert N F. generalize (columns (stored_track_values (td_values t1))).
        induction C as [|c c1 m m1 K C IH]; intros p N F; inversion N; subst; constructor.
        * apply (near_trans _ c c1); auto; [apply pos_INR|apply F; now left].
        * apply IH; auto. intros; apply F; now right.
      + apply IH; intros; [apply F|apply F1]; now right. }
  destruct X as (W1 & S1 & F1 & Fi & Ma & Mi & T). split; [|split].
  - intros Hf Hm Hn. destruct (anim_write_total d' W1 ltac:(congruence) ltac:(rewrite Mi; exact Hn) S1) as [K _]. apply K, Fi, Hf.
  - symmetry. eapply Forall2_len, T.
  - intros j t t' Hj Hj'. destruct (Forall2_nth _ _ _ T j t t' Hj Hj') as (A & B & C). split; auto. split; auto. split; [symmetry; eapply Forall2_len, C|].
    intros k i col col' x y lo hi Hc Hc' Hx Hy R. destruct (Forall2_nth _ _ _ C k col col' Hc Hc') as [_ V]. exact (V i x y lo hi Hx Hy R).
Qed.

(** ** The error does grow *)
Fixpoint save_times (n : nat) (d : anim_data) : res anim_data :=
  match n with
  | O => Ok d
  | S n => let* d1 := save_times n d in
           let* out := anim_data_write d1 in
           if zlen out <? 2 ^ 63 then anim_data_read (fun l => l) out else Err EType
  end%Z.
Lemma save_times_spec n : forall d d', save_times n d = Ok d' -> saves (fun l => l) n d d'.
Proof.
  induction n as [|n IH]; cbn [save_times]; intros d d' H; [injection H as <-; constructor|].
  destruct (save_times n d) as [d1| |] eqn:E1; try discriminate H. cbn [bind] in H.
  destruct (anim_data_write d1) as [out| |] eqn:E2; try discriminate H. cbn [bind] in H.
  destruct (zlen out <? 2 ^ 63)%Z eqn:L; try discriminate H. econstructor; eauto. lia.
Qed.
Definition drifting (x : Z) : anim_data :=
  AD 2 0 0x41200000 [GD 4 [ND [97] [TD [98] false (TF false false false false) (TvFloat ([0xbf736a99; 0x4058b5b7] ++ repeat x 9))]]]%Z.
Lemma drift_refuted : exists d d' lo hi x y,
  anim_ok d = true /\ (anim_size d < 2 ^ 32)%Z /\ anim_finite d /\ saves (fun l => l) 100 d d' /\
  map td_values (tracks_of d) = [TvFloat ([lo; hi] ++ repeat x 9)] /\ map td_values (tracks_of d') = [TvFloat ([lo; hi] ++ repeat y 9)] /\
  column_range ([lo; hi] ++ repeat x 9) lo hi /\ real x - real y > 13 * column_error lo hi.
Proof.
  exists (drifting 0x402de99f), (drifting 0x402de933), 0xbf736a99%Z, 0x4058b5b7%Z, 0x402de99f%Z, 0x402de933%Z.
  assert (A : real 0xbf736a99 = -15952537 * / 16777216).
  { change (real 0xbf736a99) with (IZR (-15952537) * powerRZ 2 (-24)). rewrite power_neg. reflexivity. }
  assert (B : real 0x4058b5b7 = 14202295 * / 4194304).
  { change (real 0x4058b5b7) with (IZR 14202295 * powerRZ 2 (-22)). rewrite power_neg. reflexivity. }
  assert (C : real 0x402de99f = 11397535 * / 4194304).
  { change (real 0x402de99f) with (IZR 11397535 * powerRZ 2 (-22)). rewrite power_neg. reflexivity. }
  assert (D : real 0x402de933 = 11397427 * / 4194304).
  { change (real 0x402de933) with (IZR 11397427 * powerRZ 2 (-22)). rewrite power_neg. reflexivity. }
  split; [vm_compute; reflexivity|]. split; [vm_compute; reflexivity|]. split; [|split; [|split; [reflexivity|split; [reflexivity|split]]]].
  - intros t I. cbn in I. destruct I as [<-|[]]. intros col I. cbn in I. destruct I as [<-|[]]. intros x y Hx Hy.
    assert (K : forall z, In z [0xbf736a99; 0x4058b5b7; 0x402de99f; 0x402de99f; 0x402de99f; 0x402de99f; 0x402de99f; 0x402de99f; 0x402de99f; 0x402de99f; 0x402de99f]%Z ->
      z = 0xbf736a99%Z \/ z = 0x4058b5b7%Z \/ z = 0x402de99f%Z) by (cbn; intuition auto).
    apply K in Hx, Hy. destruct Hx as [->|[->| ->]], Hy as [->|[->| ->]]; vm_compute; auto.
  - apply save_times_spec. vm_compute. reflexivity.
  - split; [now left|]. split; [right; now left|]. intros z Hz.
    assert (K : z = 0xbf736a99%Z \/ z = 0x4058b5b7%Z \/ z = 0x402de99f%Z) by (cbn in Hz; intuition auto).
    destruct K as [->|[->| ->]]; rewrite ?A, ?B, ?C; lra.
  - unfold column_error, step, magnitude. rewrite A, B, C, D.
    change (2 ^ 24 - 1)%Z with 16777215%Z. change (2 ^ 150)%Z with 1427247692705959881058285969449495136382746624%Z.
    unfold Rmax. rewrite (Rabs_left (-15952537 * / 16777216)), (Rabs_pos_eq (14202295 * / 4194304)) by lra.
    destruct (Rle_dec _ _); lra.
Qed.
