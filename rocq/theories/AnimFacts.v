(** Tracks of all types. *)
From Coq Require Import Lia ZifyBool ZifyNat ZifyN.
From Verif Require Import Bytes BytesFacts Ssbh File SsbhSpec SsbhFacts Formats Bits BitsFacts Float32 AnimComp AnimBuf AnimSpec.
From Verif Require Import PlainFacts TrackFacts CodecFacts.
Ltac Zify.zify_post_hook ::= ZifyBool.elim_bool_cstr; Z.to_euclidean_division_equations.

(** A compressed track of [n] frames: header, parameters, default and bits *)
Definition stored_as {T} (rd : list Z -> Z -> res T) (flags bits n psize dsize : Z) (b : list Z) : Prop :=
  exists params default data,
    b = compressed_track flags bits (n mod 2 ^ 32) params default data /\
    zlen params = psize /\ zlen default = dsize /\ zlen data = (n * bits + 7) / 8 /\
    bytes_ok b = true /\
    forall other m, 0 <= other < 2 ^ 16 -> other <> bits ->
      rd (compressed_track flags other (n mod 2 ^ 32) params default data) m = Err (EData DBitCount).

Lemma stored_roundtrip {T C} (cd : codec T C) values flags cs d c ok e q bits :
  plain_codec cd -> cd_default cd values cs = (d, c) -> frames_ok cd flags c d ok e q -> Forall ok values ->
  wt (cd_ty cd) (cd_val cd d) = true -> wt (cd_cty cd) (cd_cval cd c) = true ->
  cd_un cd (cd_val cd d) = Ok d -> cd_cun cd (cd_cval cd c) = Ok c ->
  0 <= flags < 2 ^ 16 -> cd_bits cd c flags = bits -> 0 <= bits < 2 ^ 16 ->
  exists b, write_compressed cd values flags cs = Ok b /\
    stored_as (read_compressed cd) flags bits (zlen values) (inline_size (cd_cty cd)) (inline_size (cd_ty cd)) b /\
    read_compressed cd b (zlen values) = Ok (map q (kept bits values)).
Proof.
  intros PC Ed F A Wd Wc Ud Uc Hf <- Hb.
  destruct (compressed_roundtrip cd values flags cs d c ok e q PC Ed F A Wd Wc Ud Uc Hf Hb) as (E1 & E2).
  eexists. split; [exact E1|]. split; [|exact E2].
  do 3 eexists. split; [reflexivity|].
  rewrite !enc_len by (auto; apply PC). split; [auto|]. split; [auto|].
  destruct (bytes_of_bits_spec (flat_map e values)) as (k & _ & _ & -> & BO).
  rewrite (flat_len e (cd_bits cd c flags) values (fr_len _ _ _ _ _ _ _ F)). split; [auto|].
  split; [unfold compressed_track; now rewrite !bytes_ok_app, !le_bytes_ok, !enc_ok, BO|].
  intros other m Ho No. rewrite read_compressed_bytes; auto; [|apply Z.mod_pos_bound; lia].
  now rewrite (proj2 (Z.eqb_neq _ _) No).
Qed.

Lemma is32_range x : is32 x = true -> 0 <= x < 2 ^ 32.
Proof. unfold is32. lia. Qed.
Lemma cbits_range {T} (f : T -> Z) l : 0 <= cbits f l <= 24.
Proof. apply comp_bits_bound. Qed.

Lemma un_range_ok mn mx : un_range (range_val (f32_range mn mx)) = Ok (f32_range mn mx).
Proof. unfold f32_range. cbn [range_val un_range rc_min rc_max rc_bits]. destruct (f32_eqb mn mx); reflexivity. Qed.

Lemma wt_range mn mx : is32 mn = true -> is32 mx = true -> wt F32Compression (range_val (f32_range mn mx)) = true.
Proof.
  intros A B. apply is32_range in A, B. unfold F32Compression, record, range_val, f32_range. rewrite wt_struct.
  cbn [map rc_min rc_max rc_bits wt_fields]. cbn [wt f32 u64]. rewrite !Bool.andb_true_iff.
  destruct (f32_eqb mn mx); unfold default_bits; lia.
Qed.

Lemma map_ext_forall {A B} (f g : A -> B) l : (forall x, In x l -> f x = g x) -> map f l = map g l.
Proof. intros H. induction l as [|x l IH]; cbn; [auto|]. rewrite H by (left; auto). rewrite IH; [auto|]. intros y Hy. apply H. right. auto. Qed.

Lemma kept_map {A B} (f : A -> B) bits l : map f (kept bits l) = kept bits (map f l).
Proof. unfold kept. destruct (bits =? 0); [|auto]. destruct l; reflexivity. Qed.

Lemma Forall_True {A} (l : list A) : Forall (fun _ => True) l.
Proof. induction l; auto. Qed.

(** *** Floats *)
Lemma float_track l cs : forallb is32 l = true ->
  exists b, write_compressed f32_codec l 0 cs = Ok b /\
    stored_as (read_compressed f32_codec) 0 (cbits (fun x => x) l) (zlen l) 16 4 b /\
    read_compressed f32_codec b (zlen l) = Ok (map (cvalue (fun x => x) l) (kept (cbits (fun x => x) l) l)).
Proof.
  intros W. unfold cbits, cvalue. rewrite map_id.
  pose proof (find_min_ok l W) as Hm. pose proof (find_max_ok l W) as HM.
  apply (stored_roundtrip f32_codec l 0 cs (find_min l) (f32_range (find_min l) (find_max l)) (fun _ => True)
    (ebits (find_min l) (find_max l)) (comp_value (find_min l) (find_max l)) (comp_bits (find_min l) (find_max l)));
    try reflexivity; try lia.
  - apply f32_pc.
  - apply f32_frames.
  - apply Forall_True.
  - cbn [cd_ty cd_val f32_codec wt f32]. apply is32_range in Hm. lia.
  - now apply wt_range.
  - apply un_range_ok.
  - cbn [cd_bits f32_codec]. apply f32c_bits_range.
  - pose proof (comp_bits_bound (find_min l) (find_max l)). lia.
Qed.

(** *** Vectors *)
Lemma wt_record_cons t ts v vs : wt (record (t :: ts)) (VStruct (v :: vs)) = wt t v && wt (record ts) (VStruct vs).
Proof. unfold record. rewrite !wt_struct. reflexivity. Qed.
Lemma wt_record_nil : wt (record []) (VStruct []) = true.
Proof. reflexivity. Qed.
Lemma wt_f32 x : is32 x = true -> wt f32 (VInt x) = true.
Proof. intros H. apply is32_range in H. cbn [wt f32]. lia. Qed.

Ltac wtr := cbv beta delta [Vector3 Vector4 UvTransform UncompressedTransform TransformCompression Vector3Compression
    Vector4Compression UvTransformCompression vec3_val vec4_val uv_val utransform_val transformc_val vec3c_val
    vec4c_val uvc_val vec3_range vec4_range];
  rewrite ?wt_record_cons, ?wt_record_nil, ?andb_true_r;
  cbn [cx cy cz c4x c4y c4z c4w tc_scale tc_rot tc_trans uc_su uc_sv uc_rot uc_tu uc_tv
       v3x v3y v3z v4x v4y v4z v4w uv_su uv_sv uv_rot uv_tu uv_tv ut_scale ut_rot ut_trans ut_comp xyz];
  rewrite ?wt_record_cons, ?wt_record_nil, ?andb_true_r;
  rewrite ?wt_range, ?wt_f32 by auto; cbn [andb]; auto.

Ltac unr := cbn [cd_un cd_val cd_cun cd_cval f32_codec vec4_codec uv_codec transform_codec
    un_vec4c un_vec3c un_uvc un_transformc vec4c_val vec3c_val uvc_val transformc_val
    cx cy cz c4x c4y c4z c4w tc_scale tc_rot tc_trans uc_su uc_sv uc_rot uc_tu uc_tv vec3_range vec4_range];
  rewrite ?un_range_ok; cbn [bind]; rewrite ?un_range_ok; reflexivity.

Lemma vec4_ok_and v : vec4_ok v = true -> is32 (v4x v) = true /\ is32 (v4y v) = true /\ is32 (v4z v) = true /\ is32 (v4w v) = true.
Proof. unfold vec4_ok. rewrite !andb_true_iff. tauto. Qed.
Lemma vec3_ok_and v : vec3_ok v = true -> is32 (v3x v) = true /\ is32 (v3y v) = true /\ is32 (v3z v) = true.
Proof. unfold vec3_ok. rewrite !andb_true_iff. tauto. Qed.

Lemma extremes_ok {T} (f : T -> Z) p l : forallb p l = true -> (forall a, p a = true -> is32 (f a) = true) ->
  is32 (find_min (map f l)) = true /\ is32 (find_max (map f l)) = true.
Proof. intros F H. pose proof (forallb_map f p l H F). auto using find_min_ok, find_max_ok. Qed.

Lemma vec4_track l cs : forallb vec4_ok l = true ->
  exists b, write_compressed vec4_codec l 0 cs = Ok b /\
    stored_as (read_compressed vec4_codec) 0 (frame_bits (TvVec4 l)) (zlen l) 64 16 b /\
    read_compressed vec4_codec b (zlen l) = Ok (map (stored_vec4 l) (kept (frame_bits (TvVec4 l)) l)).
Proof.
  intros W.
  destruct (extremes_ok v4x _ l W) as [A1 A2]; [intros a H; apply (vec4_ok_and a H)|].
  destruct (extremes_ok v4y _ l W) as [B1 B2]; [intros a H; apply (vec4_ok_and a H)|].
  destruct (extremes_ok v4z _ l W) as [C1 C2]; [intros a H; apply (vec4_ok_and a H)|].
  destruct (extremes_ok v4w _ l W) as [D1 D2]; [intros a H; apply (vec4_ok_and a H)|].
  assert (Ed : cd_default vec4_codec l cs = (find_min4 l, vec4_range (find_min4 l) (find_max4 l))) by reflexivity.
  rewrite min4, max4 in Ed.
  pose proof (cbits_range v4x l). pose proof (cbits_range v4y l). pose proof (cbits_range v4z l). pose proof (cbits_range v4w l).
  eapply (stored_roundtrip vec4_codec l 0 cs _ _ (fun _ => True) _ _ (frame_bits (TvVec4 l)) vec4_pc Ed).
  - apply vec4_frames.
  - apply Forall_True.
  - cbn [cd_ty cd_val vec4_codec]. wtr.
  - cbn [cd_cty cd_cval vec4_codec]. wtr.
  - unr.
  - unr.
  - lia.
  - cbn [cd_bits vec4_codec frame_bits]. unfold vec4c_bits, vec4_range. cbn [c4x c4y c4z c4w v4x v4y v4z v4w].
    rewrite !f32c_bits_range. reflexivity.
  - cbn [frame_bits]. lia.
Qed.

(** *** UV transforms *)
Lemma flags_range u : 0 <= flags_of true u true true < 2 ^ 16.
Proof. destruct u; vm_compute; split; (reflexivity || discriminate). Qed.

Lemma uv_bits_range l : 0 <= frame_bits (TvUv l) < 2 ^ 16.
Proof.
  cbn [frame_bits].
  pose proof (cbits_range uv_su l). pose proof (cbits_range uv_sv l). pose proof (cbits_range uv_rot l).
  pose proof (cbits_range uv_tu l). pose proof (cbits_range uv_tv l). destruct (uv_uniform l); lia.
Qed.
Lemma transform_bits_range l : 1 <= frame_bits (TvTransform l) < 2 ^ 16.
Proof.
  cbn [frame_bits].
  pose proof (cbits_range sx l). pose proof (cbits_range sy l). pose proof (cbits_range sz l).
  pose proof (cbits_range rx l). pose proof (cbits_range ry l). pose proof (cbits_range rz l).
  pose proof (cbits_range tx l). pose proof (cbits_range ty_ l). pose proof (cbits_range tz l).
  destruct (tr_uniform l); lia.
Qed.

Lemma uv_track l cs : values_ok (TvUv l) = true ->
  exists b, write_compressed uv_codec l (flags_from_track (TvUv l)) cs = Ok b /\
    stored_as (read_compressed uv_codec) (flags_from_track (TvUv l)) (frame_bits (TvUv l)) (zlen l) 80 20 b /\
    read_compressed uv_codec b (zlen l) = Ok (map (stored_uv l) (kept (frame_bits (TvUv l)) l)).
Proof.
  intros W. cbn [values_ok] in W.
  set (p := fun t => is32 (uv_su t) && is32 (uv_sv t) && is32 (uv_rot t) && is32 (uv_tu t) && is32 (uv_tv t)) in W.
  assert (P : forall a, p a = true -> is32 (uv_su a) = true /\ is32 (uv_sv a) = true /\ is32 (uv_rot a) = true /\
    is32 (uv_tu a) = true /\ is32 (uv_tv a) = true).
  { intros a. unfold p. rewrite !andb_true_iff. tauto. }
  destruct (extremes_ok uv_su _ l W) as [A1 A2]; [intros a H; apply (P a H)|].
  destruct (extremes_ok uv_sv _ l W) as [B1 B2]; [intros a H; apply (P a H)|].
  destruct (extremes_ok uv_rot _ l W) as [C1 C2]; [intros a H; apply (P a H)|].
  destruct (extremes_ok uv_tu _ l W) as [D1 D2]; [intros a H; apply (P a H)|].
  destruct (extremes_ok uv_tv _ l W) as [E1 E2]; [intros a H; apply (P a H)|].
  set (flags := flags_from_track (TvUv l)).
  assert (FU : uniform_scale flags = uv_uniform l)
    by (change flags with (flags_of true (uv_uniform l) true true); destruct (uv_uniform l); reflexivity).
  assert (FB : 0 <= flags < 2 ^ 16)
    by apply flags_range.
  pose (mn := Uv (find_min (map uv_su l)) (find_min (map uv_sv l)) (find_min (map uv_rot l)) (find_min (map uv_tu l)) (find_min (map uv_tv l))).
  pose (mx := Uv (find_max (map uv_su l)) (find_max (map uv_sv l)) (find_max (map uv_rot l)) (find_max (map uv_tu l)) (find_max (map uv_tv l))).
  pose proof (uv_frames mn mx flags) as FR. cbv zeta in FR. rewrite FU in FR.
  eapply (stored_roundtrip uv_codec l flags cs _ _ (fun _ => True) _ _ (frame_bits (TvUv l)) uv_pc eq_refl FR).
  - apply Forall_True.
  - cbn [cd_ty cd_val uv_codec]. unfold mn. wtr.
  - cbn [cd_cty cd_cval uv_codec]. wtr.
  - unr.
  - unr.
  - exact FB.
  - cbn [cd_bits uv_codec frame_bits]. unfold uvc_bits. unfold mn, mx. cbn [uc_su uc_sv uc_rot uc_tu uc_tv uv_su uv_sv uv_rot uv_tu uv_tv].
    rewrite FU, !f32c_bits_range. reflexivity.
  - apply uv_bits_range.
Qed.

(** *** Transforms *)
Lemma transform_track l cs : values_ok (TvTransform l) = true ->
  let v := TvTransform l in
  exists b, write_compressed transform_codec (map (from_transform cs) l) (flags_from_track v) cs = Ok b /\
    stored_as (read_compressed transform_codec) (flags_from_track v) (frame_bits v) (zlen l) 144 44 b /\
    read_compressed transform_codec b (zlen l) =
      Ok (map (from_transform cs) (map (stored_transform l) l)).
Proof.
  intros W v. cbn [values_ok] in W.
  set (p := fun t => vec3_ok (tr_scale t) && vec4_ok (tr_rot t) && vec3_ok (tr_trans t)) in W.
  assert (P : forall a, p a = true -> vec3_ok (tr_scale a) = true /\ vec4_ok (tr_rot a) = true /\ vec3_ok (tr_trans a) = true).
  { intros a. unfold p. rewrite !andb_true_iff. tauto. }
  destruct (extremes_ok sx _ l W) as [A1 A2]; [intros a H; apply (vec3_ok_and _ (proj1 (P a H)))|].
  destruct (extremes_ok sy _ l W) as [B1 B2]; [intros a H; apply (vec3_ok_and _ (proj1 (P a H)))|].
  destruct (extremes_ok sz _ l W) as [C1 C2]; [intros a H; apply (vec3_ok_and _ (proj1 (P a H)))|].
  destruct (extremes_ok rx _ l W) as [D1 D2]; [intros a H; apply (vec4_ok_and _ (proj1 (proj2 (P a H))))|].
  destruct (extremes_ok ry _ l W) as [E1 E2]; [intros a H; apply (vec4_ok_and _ (proj1 (proj2 (P a H))))|].
  destruct (extremes_ok rz _ l W) as [F1 F2]; [intros a H; apply (vec4_ok_and _ (proj1 (proj2 (P a H))))|].
  destruct (extremes_ok (fun t => v4w (tr_rot t)) _ l W) as [I1 I2]; [intros a H; apply (vec4_ok_and _ (proj1 (proj2 (P a H))))|].
  destruct (extremes_ok tx _ l W) as [J1 J2]; [intros a H; apply (vec3_ok_and _ (proj2 (proj2 (P a H))))|].
  destruct (extremes_ok ty_ _ l W) as [K1 K2]; [intros a H; apply (vec3_ok_and _ (proj2 (proj2 (P a H))))|].
  destruct (extremes_ok tz _ l W) as [L1 L2]; [intros a H; apply (vec3_ok_and _ (proj2 (proj2 (P a H))))|].
  pose (mn := Tr (V3 (find_min (map sx l)) (find_min (map sy l)) (find_min (map sz l)))
                 (V4 (find_min (map rx l)) (find_min (map ry l)) (find_min (map rz l)) (find_min (map (fun t => v4w (tr_rot t)) l)))
                 (V3 (find_min (map tx l)) (find_min (map ty_ l)) (find_min (map tz l)))).
  pose (mx := Tr (V3 (find_max (map sx l)) (find_max (map sy l)) (find_max (map sz l)))
                 (V4 (find_max (map rx l)) (find_max (map ry l)) (find_max (map rz l)) (find_max (map (fun t => v4w (tr_rot t)) l)))
                 (V3 (find_max (map tx l)) (find_max (map ty_ l)) (find_max (map tz l)))).
  set (flags := flags_from_track v).
  assert (FF : flags = flags_of true (tr_uniform l) true true) by reflexivity.
  assert (FU : uniform_scale flags = tr_uniform l) by (rewrite FF; destruct (tr_uniform l); reflexivity).
  assert (FS : has_scale flags = true) by (rewrite FF; destruct (tr_uniform l); reflexivity).
  assert (FT : has_translation flags = true) by (rewrite FF; destruct (tr_uniform l); reflexivity).
  assert (FO : has_rotation flags = true) by (rewrite FF; destruct (tr_uniform l); reflexivity).
  assert (FB : 0 <= flags < 2 ^ 16) by apply flags_range.
  assert (Ed : cd_default transform_codec (map (from_transform cs) l) cs =
    (from_transform cs mn,
     Tc (vec3_range (tr_scale mn) (tr_scale mx)) (vec3_range (xyz (tr_rot mn)) (xyz (tr_rot mx)))
        (vec3_range (tr_trans mn) (tr_trans mx)))).
  { cbn [cd_default transform_codec]. unfold transform_default.
    rewrite min4, max4, !min3, !max3, !map_map. reflexivity. }
  pose proof (transform_frames (tr_uniform l) mn mx cs) as FR. cbv zeta in FR. rewrite <- FF in FR.
  assert (NZ : frame_bits v =? 0 = false).
  { apply Z.eqb_neq. pose proof (transform_bits_range l) as H. unfold v. clear - H. lia. }
  edestruct (stored_roundtrip transform_codec (map (from_transform cs) l) flags cs _ _ _ _ _ (frame_bits v) transform_pc Ed FR)
    as (b & Eb & Sb & Rb).
  - rewrite Forall_map. apply Forall_forall. intros x _. reflexivity.
  - unfold from_transform, mn. cbn [cd_ty cd_val transform_codec tr_scale tr_rot tr_trans]. wtr. destruct cs; reflexivity.
  - unfold mn, mx. cbn [cd_cty cd_cval transform_codec tr_scale tr_rot tr_trans]. wtr.
  - unr.
  - unr.
  - exact FB.
  - cbn [cd_bits transform_codec frame_bits v]. unfold transformc_bits. rewrite FU, FT, FS, FO.
    unfold vec3c_bits, vec3_range. cbn [tc_trans tc_scale tc_rot cx cy cz]. rewrite !f32c_bits_range.
    unfold mn, mx. cbn [tr_scale tr_rot tr_trans xyz v3x v3y v3z v4x v4y v4z]. fold (cbits sx l) (cbits sy l) (cbits sz l)
      (cbits rx l) (cbits ry l) (cbits rz l) (cbits tx l) (cbits ty_ l) (cbits tz l).
    clear. destruct (tr_uniform l); lia.
  - pose proof (transform_bits_range l) as H. unfold v. clear - H. lia.
  - exists b. split; [exact Eb|]. replace (zlen (map (from_transform cs) l)) with (zlen l) in * by (unfold zlen; now rewrite map_length).
    split; [exact Sb|]. rewrite Rb. f_equal. unfold kept. rewrite NZ. rewrite !map_map. reflexivity.
Qed.

(** *** Pattern indices *)
Lemma lowest_le l : forall x, In x l -> lowest l <= x.
Proof.
  destruct l as [|a l]; [intros x []|]. unfold lowest. cbn [reduce or_default].
  assert (G : forall l a, fold_left Z.min l a <= a /\ forall x, In x l -> fold_left Z.min l a <= x).
  { clear. induction l as [|b l IH]; intros a; cbn [fold_left]; [split; [lia|intros x []]|].
    destruct (IH (Z.min a b)) as [I1 I2]. split; [lia|]. intros x [-> | Hx]; [lia|auto]. }
  intros x [<- | Hx]; [exact (proj1 (G l a))|exact (proj2 (G l a) x Hx)].
Qed.

Lemma Zmin_or a b : Z.min a b = a \/ Z.min a b = b. Proof. lia. Qed.
Lemma Zmax_or a b : Z.max a b = a \/ Z.max a b = b. Proof. lia. Qed.

Lemma pattern_track l cs : forallb is32 l = true ->
  exists b, write_compressed u32_codec l 0 cs = Ok b /\
    stored_as (read_compressed u32_codec) 0 24 (zlen l) 16 4 b /\
    read_compressed u32_codec b (zlen l) = Ok (map (stored_index l) l).
Proof.
  intros W. pose proof (extreme_ok Z.min l Zmin_or W) as Hm. pose proof (extreme_ok Z.max l Zmax_or W) as HM.
  fold (lowest l) in Hm. apply is32_range in Hm, HM.
  edestruct (stored_roundtrip u32_codec l 0 cs 0 (snd (u32_default l)) _ _ _ 24 u32_pc eq_refl
    (u32_frames (lowest l) _ 0 Hm)) as (b & Eb & Sb & Rb); try reflexivity; try lia.
  - apply Forall_forall. intros x Hx. split; [now apply lowest_le|].
    rewrite forallb_forall in W. apply W, is32_range in Hx. lia.
  - cbn [cd_cty cd_cval u32_codec snd u32_default]. unfold F32Compression, record, range_val.
    rewrite wt_struct. cbn [map rc_min rc_max rc_bits wt_fields]. cbn [wt f32 u64]. fold (lowest l).
    rewrite !Bool.andb_true_iff. unfold default_bits. lia.
  - exists b. split; [exact Eb|]. split; [exact Sb|]. exact Rb.
Qed.

(** *** Booleans *)
Lemma bool_track l cs :
  exists b, write_compressed bool_codec (map from_bool l) 0 cs = Ok b /\
    stored_as (read_compressed bool_codec) 0 1 (zlen l) 16 1 b /\
    read_compressed bool_codec b (zlen l) = Ok (map from_bool l).
Proof.
  edestruct (stored_roundtrip bool_codec (map from_bool l) 0 cs 0 0 _ _ _ 1 bool_pc eq_refl (bool_frames 0))
    as (b & Eb & Sb & Rb); try reflexivity; try lia.
  - rewrite Forall_map. apply Forall_forall. intros [] _; cbn; auto.
  - exists b. replace (zlen (map from_bool l)) with (zlen l) in * by (unfold zlen; now rewrite map_length).
    split; [exact Eb|]. split; [exact Sb|]. rewrite Rb. unfold kept. cbn [Z.eqb]. now rewrite map_id.
Qed.

(** ** All types *)
Lemma kept_first {A} bits (l : list A) : kept bits l = if bits =? 0 then firstn 1 l else l.
Proof. reflexivity. Qed.

Lemma to_from_transform cs l : map to_transform (map (from_transform cs) l) = l.
Proof. rewrite map_map. erewrite map_ext; [apply map_id|]. intros []; reflexivity. Qed.
Lemma to_from_bool l : map to_bool (map from_bool l) = l.
Proof. rewrite map_map. erewrite map_ext; [apply map_id|]. intros []; reflexivity. Qed.
Lemma first_from cs l : first_compensate (map (from_transform cs) l) = stored_compensation (TvTransform l) cs.
Proof. destruct l; [reflexivity|]. destruct cs; reflexivity. Qed.

Theorem compressed_values v cs : values_ok v = true ->
  exists b, tv_write v Compressed cs = Ok b /\ bytes_ok b = true /\
    (exists params default data,
       b = compressed_track (flags_from_track v) (frame_bits v) (tv_len v mod 2 ^ 32) params default data /\
       zlen params = params_size v /\ 16 + zlen params + zlen default = compressed_overhead v /\
       zlen data = (tv_len v * frame_bits v + 7) / 8 /\
       forall other m, 0 <= other < 2 ^ 16 -> other <> frame_bits v ->
         read_track_values (compressed_track (flags_from_track v) other (tv_len v mod 2 ^ 32) params default data)
           (track_type v) Compressed m = Err (EData DBitCount)) /\
    read_track_values b (track_type v) Compressed (tv_len v) =
      Ok (if frame_bits v =? 0 then first_frame (stored_values v) else stored_values v,
          stored_compensation v cs).
Proof.
  intros W.
  destruct v; cbn [tv_write Compressed Z.eqb Pos.eqb flags_from_track];
    unfold read_track_values, Compressed; cbn [Z.eqb Pos.eqb track_type tv_len].
  - destruct (transform_track l cs W) as (b & Eb & (pr & df & dt & Hb & L1 & L2 & L3 & BO & L4) & Rb).
    exists b. split; [exact Eb|]. split; [exact BO|]. split.
    { exists pr, df, dt. rewrite L1, L2, L3. repeat split; auto. intros; rewrite L4 by auto; reflexivity. }
    rewrite Rb. cbn [bind]. rewrite to_from_transform, first_from.
    replace (frame_bits (TvTransform l) =? 0) with false.
    2:{ symmetry. apply Z.eqb_neq. pose proof (transform_bits_range l). lia. }
    destruct l; reflexivity.
  - destruct (uv_track l cs W) as (b & Eb & (pr & df & dt & Hb & L1 & L2 & L3 & BO & L4) & Rb).
    exists b. split; [exact Eb|]. split; [exact BO|]. split.
    { exists pr, df, dt. rewrite L1, L2, L3. repeat split; auto. intros; rewrite L4 by auto; reflexivity. }
    rewrite Rb. cbn [bind]. rewrite kept_map, kept_first. cbn [stored_values first_frame stored_compensation].
    destruct (frame_bits (TvUv l) =? 0); reflexivity.
  - destruct (float_track l cs W) as (b & Eb & (pr & df & dt & Hb & L1 & L2 & L3 & BO & L4) & Rb).
    exists b. split; [exact Eb|]. split; [exact BO|]. split.
    { exists pr, df, dt. rewrite L1, L2, L3. repeat split; auto. intros; rewrite L4 by auto; reflexivity. }
    rewrite Rb. cbn [bind]. rewrite kept_map, kept_first. cbn [stored_values first_frame stored_compensation frame_bits].
    destruct (cbits _ l =? 0); reflexivity.
  - destruct (pattern_track l cs W) as (b & Eb & (pr & df & dt & Hb & L1 & L2 & L3 & BO & L4) & Rb).
    exists b. split; [exact Eb|]. split; [exact BO|]. split.
    { exists pr, df, dt. rewrite L1, L2, L3. repeat split; auto. intros; rewrite L4 by auto; reflexivity. }
    rewrite Rb. reflexivity.
  - destruct (bool_track l cs) as (b & Eb & (pr & df & dt & Hb & L1 & L2 & L3 & BO & L4) & Rb).
    exists b. split; [exact Eb|]. split; [exact BO|]. split.
    { exists pr, df, dt. rewrite L1, L2, L3. repeat split; auto. intros; rewrite L4 by auto; reflexivity. }
    rewrite Rb. cbn [bind]. rewrite to_from_bool. reflexivity.
  - destruct (vec4_track l cs W) as (b & Eb & (pr & df & dt & Hb & L1 & L2 & L3 & BO & L4) & Rb).
    exists b. split; [exact Eb|]. split; [exact BO|]. split.
    { exists pr, df, dt. rewrite L1, L2, L3. repeat split; auto. intros; rewrite L4 by auto; reflexivity. }
    rewrite Rb. cbn [bind]. rewrite kept_map, kept_first. cbn [stored_values first_frame stored_compensation].
    destruct (frame_bits (TvVec4 l) =? 0); reflexivity.
Qed.

(** ** Uncompressed tracks *)
Lemma put_nil d : put [] 0 d = d.
Proof. unfold put. cbn. rewrite skipn_nil, app_nil_r. destruct d; reflexivity. Qed.

Lemma flat_enc_len t vs : plain t = true -> forallb (wt t) vs = true -> zlen (flat_map (enc t) vs) = zlen vs * inline_size t.
Proof.
  intros P W. induction vs as [|v vs IH]; [reflexivity|]. cbn [flat_map forallb] in *.
  apply andb_true_iff in W as [W1 W2]. rewrite zlen_app, zlen_cons, IH, enc_len by auto. ring.
Qed.

Lemma write_uncompressed_ok t vs : plain t = true -> forallb (wt t) vs = true ->
  write_uncompressed t vs = Ok (flat_map (enc t) vs).
Proof.
  intros P W. unfold write_uncompressed.
  destruct (plain_write (TVec (zlen vs) t)) with (v := VArr vs) (s := fresh) as (s & -> & B & _ & _).
  - cbn [plain]. rewrite P. pose proof (zlen_nonneg vs). lia.
  - cbn [wt]. rewrite W. lia.
  - cbn. lia.
  - cbn [bind]. rewrite B. f_equal. cbn [wbuf wpos fresh enc]. apply put_nil.
Qed.

Lemma read_uncompressed_ok {T} t (un : val -> res T) (f : T -> val) l : plain t = true ->
  forallb (wt t) (map f l) = true -> (forall x, un (f x) = Ok x) ->
  read_uncompressed t un (flat_map (enc t) (map f l)) (zlen l) = Ok l.
Proof.
  intros P W U. unfold read_uncompressed. rewrite read_elements_n.
  replace (Z.to_nat (zlen l)) with (length (map f l)) by (unfold zlen; rewrite map_length; lia).
  pose proof (plain_read_n t (map f l) P (plain_read t P) W [] []) as E. rewrite app_nil_r in E. cbn [app] in E.
  change (zlen []) with 0 in E. rewrite E. cbn [bind]. clear E W.
  induction l as [|x l IH]; [reflexivity|]. cbn [map un_list]. rewrite U. cbn [bind]. rewrite IH. reflexivity.
Qed.

Lemma forallb_map2 {A B} (f : A -> B) p q l : (forall x, q x = true -> p (f x) = true) ->
  forallb q l = true -> forallb p (map f l) = true.
Proof. intros H. rewrite !forallb_forall. intros F x Hx. apply in_map_iff in Hx as (a & <- & Ha). auto. Qed.

Theorem uncompressed_values v compression cs : values_ok v = true -> compression <> Compressed ->
  exists b, tv_write v compression cs = Ok b /\ bytes_ok b = true /\ zlen b = tv_len v * data_size v /\
    read_track_values b (track_type v) compression (tv_len v) = Ok (v, stored_compensation v cs).
Proof.
  intros W NC. apply Z.eqb_neq in NC. unfold tv_write, read_track_values. rewrite NC.
  destruct v; cbn [track_type tv_len values_ok] in *.
  - assert (F : forallb (wt UncompressedTransform) (map utransform_val (map (from_transform cs) l)) = true).
    { rewrite map_map. eapply forallb_map2; [|exact W]. intros t H. cbv beta in H. rewrite !andb_true_iff in H.
      destruct H as [[H1 H2] H3]. apply vec3_ok_and in H1 as (A1 & A2 & A3). apply vec4_ok_and in H2 as (B1 & B2 & B3 & B4).
      apply vec3_ok_and in H3 as (C1 & C2 & C3). unfold from_transform. wtr. destruct cs; reflexivity. }
    eexists. split; [apply write_uncompressed_ok; [reflexivity|exact F]|].
    split; [apply flat_enc_ok; intros; apply enc_ok|].
    split; [rewrite flat_enc_len by (auto; reflexivity); unfold zlen; rewrite !map_length; reflexivity|].
    pose proof (read_uncompressed_ok UncompressedTransform un_utransform utransform_val (map (from_transform cs) l)
      eq_refl F) as E. unfold zlen in *. rewrite map_length in E. rewrite E by (intros [[] [] [] ?]; reflexivity).
    cbn [bind]. rewrite to_from_transform, first_from. reflexivity.
  - assert (F : forallb (wt UvTransform) (map uv_val l) = true).
    { eapply forallb_map2; [|exact W]. intros t H. cbv beta in H. rewrite !andb_true_iff in H.
      destruct H as [[[[H1 H2] H3] H4] H5]. wtr. }
    eexists. split; [apply write_uncompressed_ok; [reflexivity|exact F]|].
    split; [apply flat_enc_ok; intros; apply enc_ok|].
    split; [rewrite flat_enc_len by (auto; reflexivity); unfold zlen; rewrite !map_length; reflexivity|].
    rewrite (read_uncompressed_ok UvTransform un_uv uv_val l eq_refl F) by (intros []; reflexivity). reflexivity.
  - assert (F : forallb (wt f32) (map VInt l) = true) by (eapply forallb_map2; [|exact W]; apply wt_f32).
    eexists. split; [apply write_uncompressed_ok; [reflexivity|exact F]|].
    split; [apply flat_enc_ok; intros; apply enc_ok|].
    split; [rewrite flat_enc_len by (auto; reflexivity); unfold zlen; rewrite !map_length; reflexivity|].
    rewrite (read_uncompressed_ok f32 un_z VInt l eq_refl F) by reflexivity. reflexivity.
  - assert (F : forallb (wt u32) (map VInt l) = true) by (eapply forallb_map2; [|exact W]; apply wt_f32).
    eexists. split; [apply write_uncompressed_ok; [reflexivity|exact F]|].
    split; [apply flat_enc_ok; intros; apply enc_ok|].
    split; [rewrite flat_enc_len by (auto; reflexivity); unfold zlen; rewrite !map_length; reflexivity|].
    rewrite (read_uncompressed_ok u32 un_z VInt l eq_refl F) by reflexivity. reflexivity.
  - assert (F : forallb (wt Boolean) (map bool_val (map from_bool l)) = true).
    { rewrite map_map. apply forallb_forall. intros x Hx. apply in_map_iff in Hx as (a & <- & _). destruct a; reflexivity. }
    eexists. split; [apply write_uncompressed_ok; [reflexivity|exact F]|].
    split; [apply flat_enc_ok; intros; apply enc_ok|].
    split; [rewrite flat_enc_len by (auto; reflexivity); unfold zlen; rewrite !map_length; reflexivity|].
    pose proof (read_uncompressed_ok Boolean un_bool bool_val (map from_bool l) eq_refl F) as E.
    unfold zlen in *. rewrite map_length in E. rewrite E by reflexivity. cbn [bind]. rewrite to_from_bool. reflexivity.
  - assert (F : forallb (wt Vector4) (map vec4_val l) = true).
    { eapply forallb_map2; [|exact W]. intros t H. apply vec4_ok_and in H as (B1 & B2 & B3 & B4). wtr. }
    eexists. split; [apply write_uncompressed_ok; [reflexivity|exact F]|].
    split; [apply flat_enc_ok; intros; apply enc_ok|].
    split; [rewrite flat_enc_len by (auto; reflexivity); unfold zlen; rewrite !map_length; reflexivity|].
    rewrite (read_uncompressed_ok Vector4 un_vec4 vec4_val l eq_refl F) by (intros []; reflexivity). reflexivity.
Qed.
