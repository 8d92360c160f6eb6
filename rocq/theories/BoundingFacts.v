(** Proofs about vectors and bounding boxes. *)
From Coq Require Import ZArith Reals SpecFloat Lia Lra.
From Flocq Require Import Core BinarySingleNaN Mult_error.
From Verif Require Import Bytes Ssbh Formats Float32 FloatFacts FlocqFacts AnimComp AnimSpec AnimFacts SmallDataFacts SkelData VecData MeshData MeshSpec QuantSpec QuantFacts
  CodecFacts QuantTrack MeshFacts MeshLemmas RoundFacts RotFacts TransformData TransformSpec TransformFacts Bounding BoundingSpec.
Local Open Scope R_scope.

(** ** Halves *)
Lemma half_dist x : format32 x -> Rabs (rnd32 (x / 2) - x / 2) <= bpow radix2 (-150).
Proof.
  intros F. destruct (Z_le_gt_dec (-124) (mag radix2 x)) as [L|L].
  - rewrite rnd_id; [rewrite Rminus_diag_eq, Rabs_R0 by reflexivity; apply bpow_ge_0|].
    replace (x / 2) with (x * bpow radix2 (-1)) by (cbn; lra).
    apply (mult_bpow_exact_FLT radix2 (-149) 24); [exact F|lia].
  - unfold rnd. eapply Rle_trans; [apply error_le_half_ulp; apply fexp_correct; typeclasses eauto|].
    assert (U : ulp radix2 (SpecFloat.fexp prec32 emax32) (x / 2) = bpow radix2 (-149)).
    { apply (ulp_FLT_small radix2 (-149) 24). assert (A : Rabs x < bpow radix2 (-125 + 1)).
      { destruct (Req_dec x 0) as [->|N]; [rewrite Rabs_R0; apply bpow_gt_0|]. eapply Rlt_le_trans; [apply bpow_mag_gt|apply bpow_le; lia]. }
      replace (-149 + 24)%Z with (-125)%Z by reflexivity. rewrite bpow_plus in A. change (bpow radix2 1) with 2 in A.
      unfold Rdiv. rewrite Rabs_mult, (Rabs_pos_eq (/ 2)) by lra. lra. }
    rewrite U. change (-149)%Z with (-150 + 1)%Z. rewrite bpow_plus. change (bpow radix2 1) with 2. lra.
Qed.
Lemma two_rep : rep32 (f32_of 0x40000000) 2.
Proof. assert (F : finite 0x40000000 = true) by reflexivity. apply finite_rep in F. replace 2 with (real 0x40000000); [exact F|]. unfold real. rewrite real_of_SF2R. cbn. unfold F2R. cbn. lra. Qed.
Lemma rnd_le_bpow x e : (-149 <= e)%Z -> Rabs x <= bpow radix2 e -> Rabs (rnd32 x) <= bpow radix2 e.
Proof. intros H L. apply abs_round_le_generic; [apply fexp_correct; typeclasses eauto|apply valid_rnd_N|apply generic_format_bpow; change (Z.max (e + 1 - 24) (-149) <= e)%Z; lia|exact L]. Qed.

Section Box.
Variables (a b : Z).
Hypothesis (Fa : finite a = true) (Fb : finite b = true).
Hypothesis (La : Rabs (real a) <= bpow radix2 126) (Lb : Rabs (real b) <= bpow radix2 126).
Let ra := real a. Let rb := real b.

Lemma half_of x r : rep32 (f32_of x) r -> Rabs r <= bpow radix2 127 -> finite (half_bits x) = true /\ real (half_bits x) = rnd32 (r / 2).
Proof.
  intros R L. assert (D : rep32 (div32 (f32_of x) (f32_of 0x40000000)) (rnd32 (r / 2))).
  { apply (rep_div prec32 emax32 _ _); [exact R|exact two_rep|lra|]. eapply Rle_lt_trans; [apply (rnd_le_bpow _ 127); [lia|]|apply bpow_lt; reflexivity].
    unfold Rdiv. rewrite Rabs_mult, (Rabs_pos_eq (/ 2)) by lra. pose proof (Rabs_pos r). lra. }
  apply bits32_finite; [exact D|]. apply bits_range, D.
Qed.
Lemma bpow127' : bpow radix2 127 = 2 * bpow radix2 126.
Proof. change 127%Z with (126 + 1)%Z. rewrite bpow_plus. change (bpow radix2 1) with 2. ring. Qed.
Lemma sum_rep : rep32 (f32_of (add_bits a b)) (rnd32 (ra + rb)) /\ Rabs (rnd32 (ra + rb)) <= bpow radix2 127.
Proof.
  assert (B : Rabs (rnd32 (ra + rb)) <= bpow radix2 127).
  { apply rnd_le_bpow; [lia|]. rewrite bpow127'. eapply Rle_trans; [apply Rabs_triang|]. unfold ra, rb. lra. }
  split; [|exact B]. destruct (add_bits_of a b (finite_valid _ Fa) (finite_valid _ Fb)) as [E _]. rewrite E.
  apply (rep_add prec32 emax32 _ _); [now apply finite_rep|now apply finite_rep|]. eapply Rle_lt_trans; [exact B|apply bpow_lt; reflexivity].
Qed.
Lemma diff_rep : rep32 (f32_of (sub_bits b a)) (rnd32 (rb - ra)) /\ Rabs (rnd32 (rb - ra)) <= bpow radix2 127.
Proof.
  assert (B : Rabs (rnd32 (rb - ra)) <= bpow radix2 127).
  { apply rnd_le_bpow; [lia|]. rewrite bpow127'. unfold Rminus. eapply Rle_trans; [apply Rabs_triang|]. rewrite Rabs_Ropp. unfold ra, rb. lra. }
  split; [|exact B]. assert (R : rep32 (sub32 (f32_of b) (f32_of a)) (rnd32 (rb - ra))).
  { apply (rep_sub prec32 emax32 _ _); [now apply finite_rep|now apply finite_rep|]. eapply Rle_lt_trans; [exact B|apply bpow_lt; reflexivity]. }
  unfold sub_bits. rewrite f32_of_bits by apply R. exact R.
Qed.
Lemma center_spec : finite (half_bits (add_bits a b)) = true /\
  Rabs (real (half_bits (add_bits a b)) - (ra + rb) / 2) <= Rabs (ra + rb) / 2 / 16777216 + bpow radix2 (-150).
Proof.
  destruct sum_rep as [R B]. destruct (half_of _ _ R B) as [F E]. split; [exact F|]. rewrite E. clear F E B.
  assert (H := half_dist _ (rep_format _ _ _ _ R)).
  destruct (rnd_add_err prec32 emax32 _ ra rb) as (e & He & Ee); [exact (rep_format _ _ _ _ (finite_rep _ Fa))|exact (rep_format _ _ _ _ (finite_rep _ Fb))|].
  rewrite err32 in He. rewrite Ee in H |- *. clear R Ee. set (u := rnd32 _) in *. clearbody u.
  replace (u - (ra + rb) / 2) with ((u - (ra + rb) * (1 + e) / 2) + (ra + rb) * e / 2) by field.
  eapply Rle_trans; [apply Rabs_triang|]. assert (K : Rabs ((ra + rb) * e / 2) <= Rabs (ra + rb) / 2 / 16777216).
  { unfold Rdiv. rewrite !Rabs_mult, (Rabs_pos_eq (/ 2)) by lra. pose proof (Rabs_pos (ra + rb)).
    assert (Rabs (ra + rb) * Rabs e <= Rabs (ra + rb) * / 16777216) by now apply Rmult_le_compat_l. lra. }
  lra.
Qed.
Lemma size_spec : finite (half_bits (sub_bits b a)) = true /\
  Rabs (real (half_bits (sub_bits b a)) - (rb - ra) / 2) <= Rabs (rb - ra) / 2 / 16777216 + bpow radix2 (-150) /\
  (ra <= rb -> 0 <= real (half_bits (sub_bits b a))).
Proof.
  destruct diff_rep as [R B]. destruct (half_of _ _ R B) as [F E]. split; [exact F|]. rewrite E. clear F E B. split.
  - assert (H := half_dist _ (rep_format _ _ _ _ R)).
    destruct (rnd32_sub rb ra) as (e & He & Ee); [exact (rep_format _ _ _ _ (finite_rep _ Fb))|exact (rep_format _ _ _ _ (finite_rep _ Fa))|].
    rewrite Ee in H |- *. clear R Ee. set (u := rnd32 _) in *. clearbody u.
    replace (u - (rb - ra) / 2) with ((u - (rb - ra) * (1 + e) / 2) + (rb - ra) * e / 2) by field.
    eapply Rle_trans; [apply Rabs_triang|]. assert (K : Rabs ((rb - ra) * e / 2) <= Rabs (rb - ra) / 2 / 16777216).
    { unfold Rdiv. rewrite !Rabs_mult, (Rabs_pos_eq (/ 2)) by lra. pose proof (Rabs_pos (rb - ra)).
      assert (Rabs (rb - ra) * Rabs e <= Rabs (rb - ra) * / 16777216) by now apply Rmult_le_compat_l. lra. }
    lra.
  - intros L. pose proof (rnd_mono prec32 emax32 _ 0 (rb - ra) ltac:(lra)) as M. rewrite rnd_0 in M.
    pose proof (rnd_mono prec32 emax32 _ 0 (rnd32 (rb - ra) / 2) ltac:(lra)) as M2. now rewrite rnd_0 in M2.
Qed.
Theorem box_spec : ra <= rb -> side_covers a b (half_bits (add_bits a b)) (half_bits (sub_bits b a)).
Proof.
  intros L. destruct center_spec as [Fc C]. destruct size_spec as (Fs & S & P). unfold side_covers, side_error. fold ra rb. split; auto. split; auto. split; [auto|].
  apply Rabs_le_inv in C, S. set (c := real (half_bits (add_bits a b))) in *. set (s := real (half_bits (sub_bits b a))) in *.
  assert (M : Rabs (ra + rb) / 2 + Rabs (rb - ra) / 2 <= Rmax (Rabs ra) (Rabs rb)).
  { unfold Rmax, Rabs. destruct (Rle_dec _ _); destruct (Rcase_abs ra), (Rcase_abs rb), (Rcase_abs (ra + rb)), (Rcase_abs (rb - ra)); lra. }
  assert (H : / IZR (2 ^ 149) = bpow radix2 (-150) + bpow radix2 (-150)).
  { change (/ IZR (2 ^ 149)) with (bpow radix2 (-149)). change (-149)%Z with (-150 + 1)%Z. rewrite bpow_plus. change (bpow radix2 1) with 2. ring. }
  rewrite H. change (IZR (2 ^ 24)) with 16777216. set (M' := Rmax _ _) in *. set (h := bpow radix2 (-150)) in *. clearbody M' h c s. split; [|split]; [..|intros x X]; apply Rabs_le; split; lra.
Qed.
End Box.

(** ** The value *)
Lemma sub_valid f g : valid_binary prec32 emax32 f = true -> valid_binary prec32 emax32 g = true -> valid_binary prec32 emax32 (sub32 f g) = true.
Proof.
  intros Vf Vg. rewrite <- (B2SF_SF2B _ _ f Vf), <- (B2SF_SF2B _ _ g Vg). unfold sub32. rewrite (sub_equiv prec32 emax32 _ _). apply valid_binary_B2SF.
Qed.
Lemma div_valid f g : valid_binary prec32 emax32 f = true -> valid_binary prec32 emax32 g = true -> valid_binary prec32 emax32 (div32 f g) = true.
Proof.
  intros Vf Vg. rewrite <- (B2SF_SF2B _ _ f Vf), <- (B2SF_SF2B _ _ g Vg). unfold div32. rewrite (div_equiv prec32 emax32 _ _). apply valid_binary_B2SF.
Qed.
Lemma is32_valid x : is32 x = true -> valid32 x.
Proof. intros H. apply f32_of_valid. unfold is32 in H. lia. Qed.
Lemma is32_bits f : valid_binary prec32 emax32 f = true -> is32 (bits_of_f32 f) = true.
Proof. intros V. pose proof (bits_range f V). unfold is32. lia. Qed.
Lemma half_is32 x : is32 x = true -> is32 (half_bits x) = true.
Proof. intros H. apply is32_bits, div_valid; [now apply is32_valid|reflexivity]. Qed.
Lemma zip_half_is32 u v : vec3_ok u = true -> vec3_ok v = true ->
  vec3_ok (vec3_half (vec3_zip add_bits u v)) = true /\ vec3_ok (vec3_half (vec3_zip sub_bits u v)) = true.
Proof.
  intros H K. unfold vec3_ok in *. apply andb_true_iff in H as [H H3]. apply andb_true_iff in H as [H1 H2]. apply andb_true_iff in K as [K K3]. apply andb_true_iff in K as [K1 K2].
  cbn [vec3_half vec3_zip v3x v3y v3z].
  rewrite !half_is32; auto; apply is32_bits; first [apply add_valid|apply sub_valid]; now apply is32_valid.
Qed.
Theorem info_typed sphere aabb ps : vec4_ok (sphere ps) = true -> vec3_ok (fst (aabb ps)) = true -> vec3_ok (snd (aabb ps)) = true ->
  wt BoundingInfo (calculate_bounding_info sphere aabb ps) = true.
Proof.
  intros S L H. unfold calculate_bounding_info. destruct (aabb ps) as [lo hi]. cbn [fst snd] in *.
  assert (S3 : vec3_ok (V3 (v4x (sphere ps)) (v4y (sphere ps)) (v4z (sphere ps))) = true /\ is32 (v4w (sphere ps)) = true).
  { unfold vec4_ok in S. unfold vec3_ok. cbn. apply andb_true_iff in S as [S ->]. split; auto. }
  destruct S3 as [S3 Sw]. destruct (zip_half_is32 lo hi L H) as [C _]. destruct (zip_half_is32 hi lo H L) as [_ Z].
  unfold BoundingInfo, BoundingSphere, BoundingVolume, OrientedBoundingBox. rewrite !wt_record_cons, !wt_record_nil.
  rewrite !wt_vec3 by auto. rewrite wt_f32 by auto. reflexivity.
Qed.

(** ** Boxes *)
Lemma comp_center lo hi i : (i < 3)%nat -> comp (obb_center lo hi) i = half_bits (add_bits (comp lo i) (comp hi i)).
Proof. intros H. destruct i as [|[|[|i]]]; [reflexivity..|lia]. Qed.
Lemma comp_size lo hi i : (i < 3)%nat -> comp (obb_size lo hi) i = half_bits (sub_bits (comp hi i) (comp lo i)).
Proof. intros H. destruct i as [|[|[|i]]]; [reflexivity..|lia]. Qed.
Theorem info_boxes sphere aabb ps : aabb_exact aabb -> boxes_around (calculate_bounding_info sphere aabb ps) ps.
Proof.
  intros A. destruct (A ps) as (L & H & R). unfold calculate_bounding_info. destruct (aabb ps) as [lo hi]. cbn [fst snd] in *.
  exists lo, hi, (obb_center lo hi), (obb_size lo hi). split; [eexists; reflexivity|]. intros [N M] i Hi.
  assert (C : column_range (column i ps) (comp lo i) (comp hi i)) by (apply R; auto; intros j x Hj Hx; now apply (M j)).
  split; [exact C|]. destruct C as (I1 & I2 & C). destruct (M i _ Hi I1) as [F1 B1]. destruct (M i _ Hi I2) as [F2 B2].
  rewrite comp_center, comp_size by auto. change (IZR (2 ^ 126)) with (bpow radix2 126) in *. apply box_spec; auto. apply (C _ I1).
Qed.
Lemma chain_infos bounding ver os s vs s' : chain bounding ver os s vs s' ->
  map (fun o => match o with VStruct fields => nth 20 fields (VInt 0) | _ => VInt 0 end) vs = map (fun o => bounding (first_positions o)) os.
Proof. induction 1 as [|o n os s vs s' V C IH]; [reflexivity|]. cbn [map]. rewrite IH. reflexivity. Qed.
Theorem mesh_boxes sphere aabb d v : aabb_exact aabb -> mesh_ok d = true -> create_mesh (calculate_bounding_info sphere aabb) d = Ok v ->
  boxes_around (mesh_info v) (flat_map first_positions (mesh_objects d)) /\
  Forall2 (fun o info => boxes_around info (first_positions o)) (mesh_objects d) (object_infos v).
Proof.
  intros A M E. unfold create_mesh in E. destruct (validate_mesh_object_subindices (mesh_objects d)) as [u|e|]; cbn [bind] in E; try discriminate E.
  destruct (version_of (mesh_major d) (mesh_minor d)) as [ver|]; [|discriminate E].
  destruct (mesh_ok_facts d M) as [F _]. pose proof (create_inner_spec (calculate_bounding_info sphere aabb) ver (mesh_objects d) F) as S. rewrite E in S.
  destruct S as (vs & s & rig & _ & _ & C & _ & ->). cbn [mesh_info object_infos]. split; [now apply info_boxes|].
  rewrite (chain_infos _ _ _ _ _ _ C). clear - A. induction (mesh_objects d) as [|o os IH]; constructor; auto. now apply info_boxes.
Qed.

(** The smallest and largest coordinates as [find_min3] and [find_max3] compute them *)
Definition simple_aabb (ps : list (list Z)) : vec3 * vec3 :=
  let vs := map (fun row => let x n := if is32 (nth n row 0%Z) then nth n row 0%Z else 0%Z in V3 (x 0%nat) (x 1%nat) (x 2%nat)) ps in (find_min3 vs, find_max3 vs).
Lemma simple_exact : aabb_exact simple_aabb.
Proof.
  intros ps. unfold simple_aabb. set (vs := map _ ps). cbn [fst snd].
  assert (K : forall (f : vec3 -> Z) n, (forall a b c, f (V3 a b c) = nth n [a; b; c] 0%Z) -> (n < 3)%nat -> forallb is32 (map f vs) = true /\
    ((forall x, In x (column n ps) -> finite x = true) -> map f vs = column n ps)).
  { intros f n Hf Hn. unfold vs. rewrite map_map. split.
    - apply forallb_forall. intros x Hx. apply in_map_iff in Hx as (row & <- & _). rewrite Hf. destruct n as [|[|[|n]]]; [..|lia]; cbn [nth]; now destruct (is32 (nth _ row 0%Z)) eqn:I.
    - intros Fx. apply map_ext_in. intros row Hr. rewrite Hf.
      assert (I : is32 (nth n row 0%Z) = true).
      { assert (In (nth n row 0%Z) (column n ps)) as J by (apply in_map_iff; eauto). apply Fx in J. unfold finite in J. apply andb_prop in J as [J _]. exact J. }
      destruct n as [|[|[|n]]]; [..|lia]; cbn [nth]; now rewrite I. }
  destruct (K v3x 0%nat) as [X1 X2]; [reflexivity|lia|]. destruct (K v3y 1%nat) as [Y1 Y2]; [reflexivity|lia|]. destruct (K v3z 2%nat) as [Z1 Z2]; [reflexivity|lia|].
  rewrite min3, max3. unfold vec3_ok. cbn [v3x v3y v3z]. split; [|split].
  - unfold find_min. now rewrite !extreme_ok by auto using f32_min_or.
  - unfold find_max. now rewrite !extreme_ok by auto using f32_max_or.
  - intros N Fi i Hi. assert (R : column_range (column i ps) (find_min (column i ps)) (find_max (column i ps))).
    { apply find_range; [destruct ps; [congruence|discriminate]|]. intros x Hx. now apply (Fi i). }
    destruct i as [|[|[|i]]]; [..|lia]; cbn [comp vec3_array nth v3x v3y v3z]; [rewrite X2|rewrite Y2|rewrite Z2]; auto; intros x Hx; eapply Fi; eauto.
Qed.

(** ** Minima and maxima *)
Lemma compare_swap f g : SFcompare g f = match SFcompare f g with Some c => Some (CompOpp c) | None => None end.
Proof.
  destruct f as [s|s| |s m e], g as [t|t| |t n q]; try destruct s; try destruct t; cbn; auto.
  - rewrite (Z.compare_antisym e q). destruct (e ?= q)%Z; cbn; auto. rewrite (Pos.compare_cont_antisym n m Eq). cbn. now rewrite CompOpp_involutive.
  - rewrite (Z.compare_antisym e q). destruct (e ?= q)%Z; cbn; auto. now rewrite (Pos.compare_cont_antisym m n Eq).
Qed.
Lemma compare_nan f g : SFcompare f g = None -> f = S754_nan \/ g = S754_nan.
Proof. destruct f as [s|s| |s m e], g as [t|t| |t n q]; cbn; auto; try destruct s; try destruct t; try discriminate; destruct (_ ?= _)%Z; discriminate. Qed.
Lemma leb_refl x : is_nan x = false -> f32_leb x x = true.
Proof.
  unfold is_nan, f32_leb, SFleb. intros H. pose proof (compare_swap (f32_of x) (f32_of x)) as S. pose proof (compare_nan (f32_of x) (f32_of x)) as N.
  destruct (SFcompare (f32_of x) (f32_of x)) as [[]|]; auto; try discriminate S. destruct N as [N|N]; auto; rewrite N in H; discriminate.
Qed.
Lemma ltb_leb x y : f32_ltb x y = true -> f32_leb x y = true.
Proof. unfold f32_ltb, f32_leb, SFltb, SFleb. now destruct (SFcompare _ _) as [[]|]. Qed.
Lemma nltb_leb x y : is_nan x = false -> is_nan y = false -> f32_ltb y x = false -> f32_leb x y = true.
Proof.
  unfold is_nan, f32_ltb, f32_leb, SFltb, SFleb. intros Hx Hy H. rewrite (compare_swap (f32_of y) (f32_of x)).
  destruct (SFcompare (f32_of y) (f32_of x)) as [[]|] eqn:E; auto; try discriminate. apply compare_nan in E as [E|E]; rewrite E in *; discriminate.
Qed.
Lemma min_least x y : least (f32_min x y) x y.
Proof.
  unfold least, f32_min. destruct (is_nan x) eqn:Hx; [destruct (is_nan y) eqn:Hy|destruct (is_nan y) eqn:Hy; [|destruct (f32_ltb y x) eqn:L]];
    rewrite ?Hx, ?Hy; repeat split; auto; try discriminate; intros _; auto using leb_refl, ltb_leb, nltb_leb.
Qed.
Lemma max_greatest x y : greatest (f32_max x y) x y.
Proof.
  unfold greatest, f32_max. destruct (is_nan x) eqn:Hx; [destruct (is_nan y) eqn:Hy|destruct (is_nan y) eqn:Hy; [|destruct (f32_ltb x y) eqn:L]];
    rewrite ?Hx, ?Hy; repeat split; auto; try discriminate; intros _; auto using leb_refl, ltb_leb, nltb_leb.
Qed.
Theorem vectors_extremes :
  (forall u v i, (i < 3)%nat -> least (comp (vec3_min u v) i) (comp u i) (comp v i) /\ greatest (comp (vec3_max u v) i) (comp u i) (comp v i)) /\
  (forall u v i, (i < 4)%nat -> let c w := nth i (vec4_array w) 0%Z in least (c (vec4_min u v)) (c u) (c v) /\ greatest (c (vec4_max u v)) (c u) (c v)).
Proof.
  split; intros u v i H; destruct i as [|[|[|[|i]]]]; try lia; (split; [apply min_least|apply max_greatest]).
Qed.
Theorem vectors_convert :
  (forall v, array_vec3 (vec3_array v) = v) /\ (forall l, length l = 3%nat -> vec3_array (array_vec3 l) = l) /\
  (forall v, array_vec4 (vec4_array v) = v) /\ (forall l, length l = 4%nat -> vec4_array (array_vec4 l) = l) /\
  (forall v w, xyz (extend v w) = v) /\ (forall v, extend (xyz v) (v4w v) = v) /\
  (forall m, from_cols (to_cols m) = m) /\ (forall l, length l = 4%nat -> (forall c, In c l -> length c = 4%nat) -> to_cols (from_cols l) = l) /\
  (forall m, from_cols3 (to_cols3 m) = m) /\ (forall l, length l = 3%nat -> (forall c, In c l -> length c = 3%nat) -> to_cols3 (from_cols3 l) = l).
Proof.
  assert (A3 : forall l, length l = 3%nat -> vec3_array (array_vec3 l) = l) by (intros [|x [|y [|z [|]]]] H; try discriminate H; reflexivity).
  assert (A4 : forall l, length l = 4%nat -> vec4_array (array_vec4 l) = l) by (intros [|x [|y [|z [|w [|]]]]] H; try discriminate H; reflexivity).
  repeat split; auto; try (intros []; reflexivity).
  - intros [[] [] [] []]. reflexivity.
  - intros [|x [|y [|z [|w [|]]]]] H F; try discriminate H. unfold to_cols, from_cols. cbn [col1 col2 col3 col4 nth]. rewrite !A4 by (apply F; cbn; auto). reflexivity.
  - intros [[] [] []]. reflexivity.
  - intros [|x [|y [|z [|]]]] H F; try discriminate H. unfold to_cols3, from_cols3. cbn [c31 c32 c33 nth]. rewrite !A3 by (apply F; cbn; auto). reflexivity.
Qed.

(** Numbers of the examples *)
Ltac number := unfold real; rewrite real_of_SF2R; cbn; unfold F2R; cbn; lra.
Lemma number_after_one : real 0x3f800001 = 8388609 / 8388608. Proof. number. Qed.
Lemma number_minus_one : real 0xbf800000 = -1. Proof. number. Qed.
Lemma number_tiny : real 0x33800000 = / 16777216. Proof. number. Qed.
Lemma number_one : real 0x3f800000 = 1. Proof. number. Qed.
