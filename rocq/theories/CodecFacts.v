(** The codecs of the six track types. *)
From Coq Require Import Lia ZifyBool ZifyNat ZifyN.
From Verif Require Import Bytes BytesFacts Ssbh Formats Bits BitsFacts Float32 AnimComp AnimBuf AnimSpec.
From Verif Require Import PlainFacts TrackFacts.
Ltac Zify.zify_post_hook ::= ZifyBool.elim_bool_cstr; Z.to_euclidean_division_equations.

(** ** One component *)
Definition ebits (mn mx x : Z) : list bool :=
  if f32_eqb mn mx then [] else bits_of 24 (compress_f32 x mn mx 24).

Lemma ebits_len mn mx x : zlen (ebits mn mx x) = comp_bits mn mx.
Proof. unfold ebits, comp_bits. destruct (f32_eqb mn mx); [reflexivity|apply zlen_bits_of]. Qed.

Lemma f32c_bits_range mn mx : f32c_bits (f32_range mn mx) = comp_bits mn mx.
Proof. unfold f32c_bits, f32_range, comp_bits. cbn [rc_min rc_max rc_bits]. destruct (f32_eqb mn mx); reflexivity. Qed.

Lemma comp_write mn mx x done total w : writing done total w -> zlen done + comp_bits mn mx <= total ->
  exists w', f32_compress x (f32_range mn mx) w = Ok w' /\ writing (done ++ ebits mn mx x) total w'.
Proof.
  intros H Ht. unfold f32_compress, f32_range, ebits, comp_bits in *. cbn [rc_min rc_max rc_bits].
  destruct (f32_eqb mn mx).
  - exists w. rewrite app_nil_r. auto.
  - unfold default_bits. cbn [Z.eqb]. apply bw_write_ok; auto. lia.
Qed.

Lemma comp_read mn mx x rest r : reading (ebits mn mx x ++ rest) r ->
  exists r', f32_decompress (f32_range mn mx) mn r = Ok (comp_value mn mx x, r') /\ reading rest r'.
Proof.
  intros H. unfold f32_decompress, f32_range, ebits, comp_value, comp_code in *. cbn [rc_min rc_max rc_bits].
  destruct (f32_eqb mn mx) eqn:E.
  - exists r. auto.
  - unfold default_bits. cbn [Z.eqb].
    destruct (br_read_ok 32 24 _ rest r (zlen_bits_of 24 _) H) as (r' & R & Hr); [lia|].
    exists r'. unfold read_u32_bits. rewrite R. cbn [bind]. rewrite bits_val_of. auto.
Qed.

Ltac cstep L := match goal with
  | |- exists _, bind _ _ = _ /\ _ => edestruct L as (?w & -> & ?W); [eassumption| |cbn [bind]]
  end.

(** ** Extremes of the components *)
Lemma reduce_map {A} (f : A -> Z) (g : A -> A -> A) (h : Z -> Z -> Z) (d : A) l :
  (forall a b, f (g a b) = h (f a) (f b)) -> f d = 0 ->
  f (or_default d (reduce g l)) = or_default 0 (reduce h (map f l)).
Proof.
  intros H H0. destruct l as [|a l]; [exact H0|]. cbn [reduce or_default map].
  revert a. induction l as [|b l IH]; intros a; cbn [fold_left map]; [reflexivity|]. rewrite IH, H. reflexivity.
Qed.

Lemma fold_in (h : Z -> Z -> Z) l : (forall a b, h a b = a \/ h a b = b) -> forall a, In (fold_left h l a) (a :: l).
Proof.
  intros H. induction l as [|b l IH]; intros a; cbn [fold_left]; [left; auto|].
  destruct (IH (h a b)) as [E|E]; [|right; right; auto].
  rewrite <- E. destruct (H a b) as [-> | ->]; [left|right; left]; auto.
Qed.

Lemma reduce_in h l : (forall a b, h a b = a \/ h a b = b) -> l <> [] -> In (or_default 0 (reduce h l)) l.
Proof. intros H N. destruct l as [|a l]; [congruence|]. apply (fold_in h l H a). Qed.

Lemma f32_min_or a b : f32_min a b = a \/ f32_min a b = b.
Proof. unfold f32_min. destruct (is_nan a), (is_nan b), (f32_ltb b a); auto. Qed.
Lemma f32_max_or a b : f32_max a b = a \/ f32_max a b = b.
Proof. unfold f32_max. destruct (is_nan a), (is_nan b), (f32_ltb a b); auto. Qed.

Lemma extreme_ok h l : (forall a b, h a b = a \/ h a b = b) -> forallb is32 l = true ->
  is32 (or_default 0 (reduce h l)) = true.
Proof.
  intros H F. destruct l as [|a l]; [reflexivity|]. rewrite forallb_forall in F. apply F, reduce_in; [auto|discriminate].
Qed.
Lemma find_min_ok l : forallb is32 l = true -> is32 (find_min l) = true.
Proof. apply extreme_ok, f32_min_or. Qed.
Lemma find_max_ok l : forallb is32 l = true -> is32 (find_max l) = true.
Proof. apply extreme_ok, f32_max_or. Qed.

Lemma forallb_map {A} (f : A -> Z) (p : A -> bool) l :
  (forall a, p a = true -> is32 (f a) = true) -> forallb p l = true -> forallb is32 (map f l) = true.
Proof.
  intros H F. rewrite forallb_forall in *. intros x Hx. apply in_map_iff in Hx as (a & <- & Ha). auto.
Qed.

Lemma min3 l : find_min3 l = V3 (find_min (map v3x l)) (find_min (map v3y l)) (find_min (map v3z l)).
Proof.
  unfold find_min3, find_min.
  rewrite <- (reduce_map v3x (vec3_zip f32_min) f32_min (V3 0 0 0)), <- (reduce_map v3y (vec3_zip f32_min) f32_min (V3 0 0 0)),
    <- (reduce_map v3z (vec3_zip f32_min) f32_min (V3 0 0 0)) by reflexivity. now destruct (or_default _ _).
Qed.
Lemma max3 l : find_max3 l = V3 (find_max (map v3x l)) (find_max (map v3y l)) (find_max (map v3z l)).
Proof.
  unfold find_max3, find_max.
  rewrite <- (reduce_map v3x (vec3_zip f32_max) f32_max (V3 0 0 0)), <- (reduce_map v3y (vec3_zip f32_max) f32_max (V3 0 0 0)),
    <- (reduce_map v3z (vec3_zip f32_max) f32_max (V3 0 0 0)) by reflexivity. now destruct (or_default _ _).
Qed.
Lemma min4 l : find_min4 l =
  V4 (find_min (map v4x l)) (find_min (map v4y l)) (find_min (map v4z l)) (find_min (map v4w l)).
Proof.
  unfold find_min4, find_min.
  rewrite <- (reduce_map v4x (vec4_zip f32_min) f32_min (V4 0 0 0 0)), <- (reduce_map v4y (vec4_zip f32_min) f32_min (V4 0 0 0 0)),
    <- (reduce_map v4z (vec4_zip f32_min) f32_min (V4 0 0 0 0)), <- (reduce_map v4w (vec4_zip f32_min) f32_min (V4 0 0 0 0))
    by reflexivity. now destruct (or_default _ _).
Qed.
Lemma max4 l : find_max4 l =
  V4 (find_max (map v4x l)) (find_max (map v4y l)) (find_max (map v4z l)) (find_max (map v4w l)).
Proof.
  unfold find_max4, find_max.
  rewrite <- (reduce_map v4x (vec4_zip f32_max) f32_max (V4 0 0 0 0)), <- (reduce_map v4y (vec4_zip f32_max) f32_max (V4 0 0 0 0)),
    <- (reduce_map v4z (vec4_zip f32_max) f32_max (V4 0 0 0 0)), <- (reduce_map v4w (vec4_zip f32_max) f32_max (V4 0 0 0 0))
    by reflexivity. now destruct (or_default _ _).
Qed.

(** ** Stored forms *)
Ltac pc := constructor; try reflexivity; vm_compute; split; (reflexivity || discriminate).
Lemma transform_pc : plain_codec transform_codec. Proof. pc. Qed.
Lemma uv_pc : plain_codec uv_codec. Proof. pc. Qed.
Lemma vec4_pc : plain_codec vec4_codec. Proof. pc. Qed.
Lemma u32_pc : plain_codec u32_codec. Proof. pc. Qed.
Lemma f32_pc : plain_codec f32_codec. Proof. pc. Qed.
Lemma bool_pc : plain_codec bool_codec. Proof. pc. Qed.

(** ** Floats *)
Lemma f32_frames mn mx flags : frames_ok f32_codec flags (f32_range mn mx) mn (fun _ => True)
  (ebits mn mx) (comp_value mn mx).
Proof.
  constructor.
  - intros v. cbn [cd_bits f32_codec]. now rewrite ebits_len, f32c_bits_range.
  - intros v done total w _ H Ht. cbn [cd_compress f32_codec]. rewrite ebits_len in Ht. now apply comp_write.
  - intros v rest r _ H. cbn [cd_decompress f32_codec]. now apply comp_read.
Qed.

Lemma vec3_write mn mx v done total w : writing done total w ->
  zlen done + (comp_bits (v3x mn) (v3x mx) + comp_bits (v3y mn) (v3y mx) + comp_bits (v3z mn) (v3z mx)) <= total ->
  exists w', vec3_compress v (vec3_range mn mx) w = Ok w' /\
    writing (done ++ ebits (v3x mn) (v3x mx) (v3x v) ++ ebits (v3y mn) (v3y mx) (v3y v) ++ ebits (v3z mn) (v3z mx) (v3z v))
      total w'.
Proof.
  intros H Ht. unfold vec3_compress, vec3_range. cbn [cx cy cz].
  assert (B : forall a b, 0 <= comp_bits a b) by (intros a b; unfold comp_bits; destruct (f32_eqb a b); lia).
  pose proof (B (v3x mn) (v3x mx)). pose proof (B (v3y mn) (v3y mx)). pose proof (B (v3z mn) (v3z mx)).
  destruct (comp_write (v3x mn) (v3x mx) (v3x v) done total w H) as (w1 & -> & W1); [lia|]. cbn [bind].
  destruct (comp_write (v3y mn) (v3y mx) (v3y v) _ total w1 W1) as (w2 & -> & W2);
    [rewrite zlen_app, ebits_len; lia|]. cbn [bind].
  destruct (comp_write (v3z mn) (v3z mx) (v3z v) _ total w2 W2) as (w3 & -> & W3);
    [rewrite !zlen_app, !ebits_len; lia|].
  exists w3. rewrite <- !app_assoc in W3. auto.
Qed.

Lemma vec3_read mn mx v rest r :
  reading (ebits (v3x mn) (v3x mx) (v3x v) ++ ebits (v3y mn) (v3y mx) (v3y v) ++ ebits (v3z mn) (v3z mx) (v3z v) ++ rest) r ->
  exists r', vec3_decompress (vec3_range mn mx) mn r =
    Ok (V3 (comp_value (v3x mn) (v3x mx) (v3x v)) (comp_value (v3y mn) (v3y mx) (v3y v))
           (comp_value (v3z mn) (v3z mx) (v3z v)), r') /\ reading rest r'.
Proof.
  intros H. unfold vec3_decompress, vec3_range. cbn [cx cy cz].
  destruct (comp_read _ _ _ _ _ H) as (r1 & -> & H1). cbn [bind].
  destruct (comp_read _ _ _ _ _ H1) as (r2 & -> & H2). cbn [bind].
  destruct (comp_read _ _ _ _ _ H2) as (r3 & -> & H3). cbn [bind]. eauto.
Qed.

Lemma comp_bits_bound a b : 0 <= comp_bits a b <= 24.
Proof. unfold comp_bits; destruct (f32_eqb a b); lia. Qed.

(** ** Vectors *)
Lemma vec4_frames mn mx flags : frames_ok vec4_codec flags (vec4_range mn mx) mn (fun _ => True)
  (fun v => ebits (v4x mn) (v4x mx) (v4x v) ++ ebits (v4y mn) (v4y mx) (v4y v) ++
            ebits (v4z mn) (v4z mx) (v4z v) ++ ebits (v4w mn) (v4w mx) (v4w v))
  (fun v => V4 (comp_value (v4x mn) (v4x mx) (v4x v)) (comp_value (v4y mn) (v4y mx) (v4y v))
               (comp_value (v4z mn) (v4z mx) (v4z v)) (comp_value (v4w mn) (v4w mx) (v4w v))).
Proof.
  pose proof (comp_bits_bound (v4x mn) (v4x mx)). pose proof (comp_bits_bound (v4y mn) (v4y mx)).
  pose proof (comp_bits_bound (v4z mn) (v4z mx)). pose proof (comp_bits_bound (v4w mn) (v4w mx)).
  constructor.
  - intros v. cbn [cd_bits vec4_codec]. unfold vec4c_bits, vec4_range. cbn [c4x c4y c4z c4w].
    rewrite !zlen_app, !ebits_len, !f32c_bits_range. lia.
  - intros v done total w _ W Ht. rewrite !zlen_app, !ebits_len in Ht.
    cbn [cd_compress vec4_codec]. unfold vec4_compress, vec4_range. cbn [c4x c4y c4z c4w].
    destruct (comp_write (v4x mn) (v4x mx) (v4x v) done total w W) as (w1 & -> & H1'); [lia|]. cbn [bind].
    destruct (comp_write (v4y mn) (v4y mx) (v4y v) _ total w1 H1') as (w2 & -> & H2');
      [rewrite zlen_app, ebits_len; lia|]. cbn [bind].
    destruct (comp_write (v4z mn) (v4z mx) (v4z v) _ total w2 H2') as (w3 & -> & H3');
      [rewrite !zlen_app, !ebits_len; lia|]. cbn [bind].
    destruct (comp_write (v4w mn) (v4w mx) (v4w v) _ total w3 H3') as (w4 & -> & H4');
      [rewrite !zlen_app, !ebits_len; lia|].
    exists w4. rewrite <- !app_assoc in H4'. auto.
  - intros v rest r _ R. rewrite <- !app_assoc in R. cbn [cd_decompress vec4_codec].
    unfold vec4_decompress, vec4_range. cbn [c4x c4y c4z c4w].
    destruct (comp_read _ _ _ _ _ R) as (r1 & -> & R1). cbn [bind].
    destruct (comp_read _ _ _ _ _ R1) as (r2 & -> & R2). cbn [bind].
    destruct (comp_read _ _ _ _ _ R2) as (r3 & -> & R3). cbn [bind].
    destruct (comp_read _ _ _ _ _ R3) as (r4 & -> & R4). cbn [bind]. eauto.
Qed.

(** ** UV transforms *)
Lemma uv_frames mn mx flags :
  let c := Uvc (f32_range (uv_su mn) (uv_su mx)) (f32_range (uv_sv mn) (uv_sv mx)) (f32_range (uv_rot mn) (uv_rot mx))
               (f32_range (uv_tu mn) (uv_tu mx)) (f32_range (uv_tv mn) (uv_tv mx)) in
  let u := uniform_scale flags in
  frames_ok uv_codec flags c mn (fun _ => True)
  (fun v => ebits (uv_su mn) (uv_su mx) (uv_su v) ++ (if u then [] else ebits (uv_sv mn) (uv_sv mx) (uv_sv v)) ++
            ebits (uv_rot mn) (uv_rot mx) (uv_rot v) ++ ebits (uv_tu mn) (uv_tu mx) (uv_tu v) ++
            ebits (uv_tv mn) (uv_tv mx) (uv_tv v))
  (fun v => Uv (comp_value (uv_su mn) (uv_su mx) (uv_su v))
               (if u then comp_value (uv_su mn) (uv_su mx) (uv_su v) else comp_value (uv_sv mn) (uv_sv mx) (uv_sv v))
               (comp_value (uv_rot mn) (uv_rot mx) (uv_rot v)) (comp_value (uv_tu mn) (uv_tu mx) (uv_tu v))
               (comp_value (uv_tv mn) (uv_tv mx) (uv_tv v))).
Proof.
  intros c u.
  pose proof (comp_bits_bound (uv_su mn) (uv_su mx)). pose proof (comp_bits_bound (uv_sv mn) (uv_sv mx)).
  pose proof (comp_bits_bound (uv_rot mn) (uv_rot mx)). pose proof (comp_bits_bound (uv_tu mn) (uv_tu mx)).
  pose proof (comp_bits_bound (uv_tv mn) (uv_tv mx)).
  constructor.
  - intros v. cbn [cd_bits uv_codec]. unfold uvc_bits, c. cbn [uc_su uc_sv uc_rot uc_tu uc_tv]. fold u.
    rewrite !zlen_app, !ebits_len, !f32c_bits_range. destruct u; rewrite ?ebits_len, ?zlen_nil; cbn [zlen length Z.of_nat]; lia.
  - intros v done total w _ W Ht. rewrite !zlen_app, !ebits_len in Ht.
    cbn [cd_compress uv_codec]. unfold uv_compress, c. cbn [uc_su uc_sv uc_rot uc_tu uc_tv]. fold u.
    assert (S : exists w', (if u then f32_compress (uv_su v) (f32_range (uv_su mn) (uv_su mx)) w
            else let* w := f32_compress (uv_su v) (f32_range (uv_su mn) (uv_su mx)) w in
                 f32_compress (uv_sv v) (f32_range (uv_sv mn) (uv_sv mx)) w) = Ok w' /\
        writing (done ++ ebits (uv_su mn) (uv_su mx) (uv_su v) ++
                 (if u then [] else ebits (uv_sv mn) (uv_sv mx) (uv_sv v))) total w').
    { destruct (comp_write (uv_su mn) (uv_su mx) (uv_su v) done total w W) as (w1 & -> & H1').
      { destruct u; rewrite ?ebits_len in Ht; cbn [zlen length Z.of_nat] in Ht; lia. }
      cbn [bind]. destruct u.
      - exists w1. rewrite app_nil_r. auto.
      - rewrite ebits_len in Ht.
        destruct (comp_write (uv_sv mn) (uv_sv mx) (uv_sv v) _ total w1 H1') as (w2 & -> & H2');
          [rewrite zlen_app, ebits_len; lia|].
        exists w2. rewrite <- !app_assoc in H2'. auto. }
    destruct S as (w2 & -> & H2'). cbn [bind].
    assert (Lu : zlen (if u then [] else ebits (uv_sv mn) (uv_sv mx) (uv_sv v)) =
      if u then 0 else comp_bits (uv_sv mn) (uv_sv mx)) by (destruct u; [reflexivity|apply ebits_len]).
    rewrite Lu in Ht.
    destruct (comp_write (uv_rot mn) (uv_rot mx) (uv_rot v) _ total w2 H2') as (w3 & -> & H3');
      [rewrite !zlen_app, !ebits_len, Lu; lia|]. cbn [bind].
    destruct (comp_write (uv_tu mn) (uv_tu mx) (uv_tu v) _ total w3 H3') as (w4 & -> & H4');
      [rewrite !zlen_app, !ebits_len, Lu; lia|]. cbn [bind].
    destruct (comp_write (uv_tv mn) (uv_tv mx) (uv_tv v) _ total w4 H4') as (w5 & -> & H5');
      [rewrite !zlen_app, !ebits_len, Lu; lia|].
    exists w5. rewrite <- !app_assoc in H5'. auto.
  - intros v rest r _ R. rewrite <- !app_assoc in R. cbn [cd_decompress uv_codec].
    unfold uv_decompress, c. cbn [uc_su uc_sv uc_rot uc_tu uc_tv]. fold u. destruct u.
    + cbn [app] in R. destruct (comp_read _ _ _ _ _ R) as (r1 & -> & R1). cbn [bind].
      destruct (comp_read _ _ _ _ _ R1) as (r2 & -> & R2). cbn [bind].
      destruct (comp_read _ _ _ _ _ R2) as (r3 & -> & R3). cbn [bind].
      destruct (comp_read _ _ _ _ _ R3) as (r4 & -> & R4). cbn [bind]. eauto.
    + destruct (comp_read _ _ _ _ _ R) as (r1 & -> & R1). cbn [bind].
      destruct (comp_read _ _ _ _ _ R1) as (r2 & -> & R2). cbn [bind].
      destruct (comp_read _ _ _ _ _ R2) as (r3 & -> & R3). cbn [bind].
      destruct (comp_read _ _ _ _ _ R3) as (r4 & -> & R4). cbn [bind].
      destruct (comp_read _ _ _ _ _ R4) as (r5 & -> & R5). cbn [bind]. eauto.
Qed.

(** ** Transforms, for the flags set by the writer *)
Lemma transform_frames u mn mx cs :
  let flags := flags_of true u true true in
  let c := Tc (vec3_range (tr_scale mn) (tr_scale mx)) (vec3_range (xyz (tr_rot mn)) (xyz (tr_rot mx)))
              (vec3_range (tr_trans mn) (tr_trans mx)) in
  let b f x := ebits (f mn) (f mx) (f x) in
  let q f x := comp_value (f mn) (f mx) (f x) in
  frames_ok transform_codec flags c (from_transform cs mn) (fun t => ut_comp t = if cs then 1 else 0)
  (fun v => let v := to_transform v in
            (if u then b sx v else b sx v ++ b sy v ++ b sz v) ++
            (b rx v ++ b ry v ++ b rz v) ++ (b tx v ++ b ty_ v ++ b tz v) ++ [sign_negative (v4w (tr_rot v))])
  (fun v => let v := to_transform v in
            let rot := V3 (q rx v) (q ry v) (q rz v) in
            from_transform cs (Tr (if u then V3 (q sx v) (q sx v) (q sx v) else V3 (q sx v) (q sy v) (q sz v))
              (V4 (q rx v) (q ry v) (q rz v) (rotation_w (sign_negative (v4w (tr_rot v))) rot))
              (V3 (q tx v) (q ty_ v) (q tz v)))).
Proof.
  intros flags c b q.
  assert (FU : uniform_scale flags = u) by (unfold flags; destruct u; reflexivity).
  assert (FR : has_rotation flags = true) by (unfold flags; destruct u; reflexivity).
  assert (FT : has_translation flags = true) by (unfold flags; destruct u; reflexivity).
  assert (FS : has_scale flags = true) by (unfold flags; destruct u; reflexivity).
  assert (L3 : forall f g h v, zlen (b f v ++ b g v ++ b h v) =
    comp_bits (f mn) (f mx) + comp_bits (g mn) (g mx) + comp_bits (h mn) (h mx)).
  { intros. unfold b. rewrite !zlen_app, !ebits_len. lia. }
  assert (P3 : forall f g h v, 0 <= zlen (b f v ++ b g v ++ b h v)) by (intros; apply zlen_nonneg).
  constructor.
  - intros v. cbv zeta. cbn [cd_bits transform_codec]. unfold transformc_bits. rewrite FU, FR, FT, FS.
    rewrite !zlen_app. unfold c, b. cbn [tc_scale tc_rot tc_trans].
    unfold vec3c_bits, vec3_range. cbn [cx cy cz]. rewrite !f32c_bits_range, ?zlen_app, !ebits_len.
    change (zlen [sign_negative (v4w (tr_rot (to_transform v)))]) with 1.
    unfold sx, sy, sz, rx, ry, rz, tx, ty_, tz, xyz. cbn [v3x v3y v3z].
    destruct u; rewrite ?zlen_app, !ebits_len; lia.
  - intros v done total w _ W. cbv zeta. set (t := to_transform v). intros Ht.
    cbn [cd_compress transform_codec]. unfold transform_compress. rewrite FU, FR, FT.
    rewrite !zlen_app in Ht.
    change (zlen [sign_negative (v4w (tr_rot t))]) with 1 in Ht.
    assert (Lb : forall f, zlen (b f t) = comp_bits (f mn) (f mx))
      by (intros; apply ebits_len).
    clear P3. pose proof (zlen_nonneg (b rx t)). pose proof (zlen_nonneg (b ry t)). pose proof (zlen_nonneg (b rz t)).
    pose proof (zlen_nonneg (b tx t)). pose proof (zlen_nonneg (b ty_ t)). pose proof (zlen_nonneg (b tz t)).
    assert (S : exists w', (if u then f32_compress (v3x (ut_scale v)) (cx (tc_scale c)) w
              else vec3_compress (ut_scale v) (tc_scale c) w) = Ok w' /\
        writing (done ++ (if u then b sx t else b sx t ++ b sy t ++ b sz t)) total w').
    { unfold c. cbn [tc_scale]. destruct u.
      - unfold vec3_range. cbn [cx]. apply comp_write; auto.
        unfold b in Ht at 1. rewrite ebits_len in Ht. unfold sx in Ht. lia.
      - apply (vec3_write (tr_scale mn) (tr_scale mx) (ut_scale v) done total w W).
        rewrite L3 in Ht. unfold sx, sy, sz in Ht. lia. }
    destruct S as (w1 & -> & W1). cbn [bind].
    destruct (vec3_write (xyz (tr_rot mn)) (xyz (tr_rot mx)) (xyz (ut_rot v)) _ total w1 W1) as (w2 & E2 & W2).
    { rewrite zlen_app. rewrite (Lb rx), (Lb ry), (Lb rz), (Lb tx), (Lb ty_), (Lb tz) in Ht. cbn [xyz v3x v3y v3z]. unfold rx, ry, rz in Ht.
      pose proof (comp_bits_bound (tx mn) (tx mx)). pose proof (comp_bits_bound (ty_ mn) (ty_ mx)).
      pose proof (comp_bits_bound (tz mn) (tz mx)). lia. }
    unfold c. cbn [tc_rot tc_trans]. rewrite E2. cbn [bind].
    destruct (vec3_write (tr_trans mn) (tr_trans mx) (ut_trans v) _ total w2 W2) as (w3 & E3 & W3).
    { rewrite !zlen_app, !ebits_len. rewrite (Lb rx), (Lb ry), (Lb rz), (Lb tx), (Lb ty_), (Lb tz) in Ht. cbn [xyz v3x v3y v3z].
      unfold rx, ry, rz, tx, ty_, tz in Ht. lia. }
    rewrite E3. cbn [bind].
    destruct (bw_write_bit_ok (sign_negative (v4w (ut_rot v))) _ total w3 W3) as (w4 & -> & W4).
    { rewrite !zlen_app, !ebits_len. rewrite (Lb rx), (Lb ry), (Lb rz), (Lb tx), (Lb ty_), (Lb tz) in Ht. cbn [xyz v3x v3y v3z].
      unfold rx, ry, rz, tx, ty_, tz in Ht. lia. }
    exists w4. split; [reflexivity|]. rewrite <- !app_assoc in W4. rewrite <- !app_assoc. exact W4.
  - intros v rest r Hv. cbv zeta. set (t := to_transform v). intros R. rewrite <- !app_assoc in R.
    cbn [cd_decompress transform_codec]. unfold transform_decompress. rewrite FU, FR, FT, FS.
    rewrite <- ?app_assoc in R.
    set (more := b rx t ++ b ry t ++ b rz t ++ b tx t ++ b ty_ t ++ b tz t ++ [sign_negative (v4w (tr_rot t))] ++ rest) in *.
    assert (S : exists r', (if u then let* (s, r) := f32_decompress (cx (tc_scale c)) (v3x (ut_scale (from_transform cs mn))) r in Ok (V3 s s s, r)
        else vec3_decompress (tc_scale c) (ut_scale (from_transform cs mn)) r) =
        Ok (if u then V3 (q sx t) (q sx t) (q sx t) else V3 (q sx t) (q sy t) (q sz t), r') /\ reading more r').
    { unfold c. cbn [tc_scale from_transform ut_scale]. destruct u.
      - unfold vec3_range. cbn [cx]. destruct (comp_read _ _ _ _ _ R) as (r1 & E1 & R1).
        change (v3x (tr_scale mn)) with (sx mn). change (v3x (tr_scale mx)) with (sx mx). rewrite E1. cbn [bind]. eauto.
      - rewrite <- ?app_assoc in R. apply (vec3_read (tr_scale mn) (tr_scale mx) (ut_scale v)). exact R. }
    destruct S as (r1 & E1 & R1).
    replace (match true, u with
      | true, true => let* (s, r) := f32_decompress (cx (tc_scale c)) (v3x (ut_scale (from_transform cs mn))) r in Ok (V3 s s s, r)
      | true, false => vec3_decompress (tc_scale c) (ut_scale (from_transform cs mn)) r
      | false, true => Ok (V3 (v3x (ut_scale (from_transform cs mn))) (v3x (ut_scale (from_transform cs mn))) (v3x (ut_scale (from_transform cs mn))), r)
      | false, false => Ok (ut_scale (from_transform cs mn), r)
      end) with (if u then let* (s, r) := f32_decompress (cx (tc_scale c)) (v3x (ut_scale (from_transform cs mn))) r in Ok (V3 s s s, r)
        else vec3_decompress (tc_scale c) (ut_scale (from_transform cs mn)) r) by (destruct u; reflexivity).
    rewrite E1. cbn [bind].
    destruct (vec3_read (xyz (tr_rot mn)) (xyz (tr_rot mx)) (xyz (ut_rot v)) _ r1 R1) as (r2 & E2 & R2).
    unfold c. cbn [tc_rot tc_trans from_transform ut_rot ut_trans]. rewrite E2. cbn [bind].
    destruct (vec3_read (tr_trans mn) (tr_trans mx) (ut_trans v) _ r2 R2) as (r3 & E3 & R3).
    rewrite E3. cbn [bind]. unfold calculate_rotation_w.
    destruct (read_bit_ok _ _ _ R3) as (r4 & -> & R4). cbn [bind].
    exists r4. split; [|exact R4]. reflexivity.
Qed.

(** ** Pattern indices *)
Lemma u32_frames mn mx flags : 0 <= mn < 2 ^ 32 ->
  frames_ok u32_codec flags (Rc mn mx default_bits) 0 (fun x => mn <= x < 2 ^ 32)
    (fun x => bits_of 24 (x - mn)) (fun x => mn + (x - mn) mod 2 ^ 24).
Proof.
  intros Hm. constructor.
  - intros v. rewrite zlen_bits_of. reflexivity.
  - intros v done total w Hv W Ht. cbn [cd_compress u32_codec]. unfold u32_compress. cbn [rc_min rc_bits].
    replace (v <? mn) with false by lia. rewrite zlen_bits_of in Ht.
    apply (bw_write_ok (v - mn) default_bits); auto; unfold default_bits; lia.
  - intros v rest r Hv R. cbn [cd_decompress u32_codec]. unfold u32_decompress. cbn [rc_min rc_bits].
    unfold default_bits. cbn [Z.eqb].
    destruct (br_read_ok 32 24 _ rest r (zlen_bits_of 24 _) R) as (r' & R' & Hr); [lia|].
    unfold read_u32_bits. rewrite R'. cbn [bind]. rewrite bits_val_of. change (Z.of_nat 24) with 24.
    assert ((v - mn) mod 2 ^ 24 <= v - mn) by (apply Z.mod_le; lia).
    replace (_ <? _) with true by lia. exists r'. split; [|auto]. do 2 f_equal. lia.
Qed.

(** ** Booleans *)
Lemma bool_frames flags : frames_ok bool_codec flags 0 0 (fun x => x = 0 \/ x = 1) (fun x => [negb (x =? 0)]) (fun x => x).
Proof.
  constructor.
  - reflexivity.
  - intros v done total w _ W Ht. cbn [cd_compress bool_codec]. unfold bool_compress. apply bw_write_bit_ok; auto.
  - intros v rest r Hv R. cbn [cd_decompress bool_codec cd_bits]. unfold bool_decompress, read_u8_bits.
    destruct (br_read_ok 8 1 [negb (v =? 0)] rest r eq_refl R) as (r' & -> & Hr); [lia|].
    exists r'. split; [|auto]. destruct Hv as [-> | ->]; reflexivity.
Qed.
