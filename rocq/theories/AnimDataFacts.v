(** Conversion of whole animations. *)
From Coq Require Import Lia ZifyBool ZifyNat ZifyN.
From Verif Require Import Bytes BytesFacts Ssbh File SsbhSpec SsbhFacts Formats Strings Bits BitsFacts Float32 AnimComp AnimBuf AnimFile AnimSpec.
From Verif Require Import PlainFacts TrackFacts CodecFacts AnimFacts SsbhLemmas.
Ltac Zify.zify_post_hook ::= ZifyBool.elim_bool_cstr; Z.to_euclidean_division_equations.

(** ** Names *)
Lemma from_bytes_id s : forallb (fun x => negb (x =? 0)) s = true -> cstring_from_bytes s = s.
Proof.
  induction s as [|x s IH]; [reflexivity|]. cbn [forallb cstring_from_bytes]. intros H.
  apply andb_true_iff in H as [H1 H2]. destruct (x =? 0); [discriminate H1|]. now rewrite IH.
Qed.

Lemma text_roundtrip s : text_ok s = true -> ssbh_to_string_lossy (ssbh_string s) = s.
Proof.
  intros H. apply andb_true_iff in H as [U N]. unfold ssbh_string, ssbh_to_string_lossy, ssbh_to_str, cstring_to_str.
  rewrite from_bytes_id by auto. now rewrite U.
Qed.

Lemma utf8_bytes : forall n s, (length s <= n)%nat -> utf8_valid s = true -> bytes_ok s = true.
Proof.
  induction n as [|n IH]; intros s L H.
  - destruct s; [reflexivity|cbn in L; lia].
  - destruct s as [|a r]; [reflexivity|]. cbn [length] in L. cbn [utf8_valid] in H.
    unfold bytes_ok, is_byte in *. cbn [forallb].
    destruct (a <=? 127) eqn:E1.
    { apply andb_true_iff in H as [H1 H2]. rewrite (IH r) by (auto; lia). lia. }
    destruct ((194 <=? a) && (a <=? 223)) eqn:E2.
    { destruct r as [|b r]; [discriminate H|]. cbn [length forallb] in *. apply andb_true_iff in H as [H1 H2].
      rewrite (IH r) by (auto; lia). unfold cont in H1. lia. }
    destruct ((224 <=? a) && (a <=? 239)) eqn:E3.
    { destruct r as [|b [|c r]]; try discriminate H. cbn [length forallb] in *.
      apply andb_true_iff in H as [H1 H2]. apply andb_true_iff in H1 as [H0 H1].
      rewrite (IH r) by (auto; lia). unfold cont in *.
      assert (0 <= b < 256) by (destruct (a =? 224), (a =? 237); lia). lia. }
    destruct ((240 <=? a) && (a <=? 244)) eqn:E4; [|discriminate H].
    destruct r as [|b [|c [|d r]]]; try discriminate H. cbn [length forallb] in *.
    apply andb_true_iff in H as [H1 H2]. apply andb_true_iff in H1 as [H0 H1]. apply andb_true_iff in H0 as [H3 H0].
    rewrite (IH r) by (auto; lia). unfold cont in *.
    assert (0 <= b < 256) by (destruct (a =? 240), (a =? 244); lia). lia.
Qed.

Lemma wt_string n s : bytes_ok s = true -> wt (SsbhStringN n) (ssbh_string s) = true.
Proof.
  intros B. unfold SsbhStringN, ssbh_string. unfold record. rewrite wt_struct. cbn [map wt_fields wt fst].
  rewrite andb_true_r. unfold bytes_ok, is_byte in B.
  induction s as [|x s IH]; [reflexivity|]. cbn [forallb cstring_from_bytes] in *.
  apply andb_true_iff in B as [B1 B2]. destruct (Z.eqb_spec x 0); [reflexivity|]. cbn [forallb]. rewrite IH by auto. lia.
Qed.

Lemma wt_name s : text_ok s = true -> wt SsbhString (ssbh_string s) = true.
Proof. intros H. apply andb_true_iff in H as [U _]. apply wt_string. eapply utf8_bytes; [apply Nat.le_refl|auto]. Qed.

(** ** One track *)
Lemma compressed_overhead_size v : compressed_overhead v = 16 + params_size v + value_size v.
Proof. destruct v; reflexivity. Qed.
Lemma data_size_value v : data_size v = value_size v.
Proof. destruct v; reflexivity. Qed.

Lemma infer_choice v : infer_compression v =
  if compressed v then Compressed else if tv_len v <=? 1 then (match v with TvTransform _ => ConstTransform | _ => Constant end) else Direct.
Proof.
  unfold compressed. destruct v as [l|l|l|l|l|l]; unfold infer_compression; cbn [plain_frames].
  - change (compressed_overhead (TvTransform l) / data_size (TvTransform l) + 1) with 5.
    destruct (tv_len (TvTransform l) <=? 1) eqn:E; [|reflexivity]. now replace (5 <? _) with false by lia.
  - change (compressed_overhead (TvUv l) / data_size (TvUv l) + 1) with 6.
    destruct (tv_len (TvUv l) <=? 1) eqn:E; [|reflexivity]. now replace (6 <? _) with false by lia.
  - change (compressed_overhead (TvFloat l) / data_size (TvFloat l) + 1) with 10.
    destruct (tv_len (TvFloat l) <=? 1) eqn:E; [|reflexivity]. now replace (10 <? _) with false by lia.
  - change (compressed_overhead (TvPattern l) / data_size (TvPattern l) + 1) with 10.
    destruct (tv_len (TvPattern l) <=? 1) eqn:E; [|reflexivity]. now replace (10 <? _) with false by lia.
  - change (compressed_overhead (TvBool l) / data_size (TvBool l) + 1) with 34.
    destruct (tv_len (TvBool l) <=? 1) eqn:E; [|reflexivity]. now replace (34 <? _) with false by lia.
  - change (compressed_overhead (TvVec4 l) / data_size (TvVec4 l) + 1) with 7.
    destruct (tv_len (TvVec4 l) <=? 1) eqn:E; [|reflexivity]. now replace (7 <? _) with false by lia.
Qed.
Lemma compressed_infer v : compressed v = (infer_compression v =? Compressed).
Proof. rewrite infer_choice. destruct (compressed v); [reflexivity|]. destruct (tv_len v <=? 1), v; reflexivity. Qed.
Lemma track_data_ok t : track_ok t = true ->
  let v := td_values t in
  exists b, tv_write v (infer_compression v) (td_comp t) = Ok b /\ bytes_ok b = true /\ zlen b = track_size v /\
    read_track_values b (track_type v) (infer_compression v) (tv_len v) =
      Ok (stored_track_values v, stored_compensation v (td_comp t)).
Proof.
  intros H v. unfold track_ok in H. apply andb_true_iff in H as [H L]. apply andb_true_iff in H as [_ W]. fold v in W.
  unfold track_size, stored_track_values. rewrite compressed_infer. destruct (Z.eqb_spec (infer_compression v) Compressed) as [E|E].
  - rewrite E. destruct (compressed_values v (td_comp t) W) as (b & Eb & Bo & (pr & df & dt & Hb & _ & L1 & L2 & _) & R).
    exists b. split; [exact Eb|]. split; [exact Bo|]. split; [|exact R].
    rewrite <- compressed_overhead_size, <- L1, <- L2, Hb. unfold compressed_track.
    rewrite !zlen_app, !zlen_le_bytes. lia.
  - destruct (uncompressed_values v _ (td_comp t) W E) as (b & Eb & Bo & Lb & R).
    exists b. rewrite <- data_size_value. auto.
Qed.

Lemma tflags_roundtrip f : tflags_of (tflags_bits f) = f.
Proof. destruct f as [[] [] [] []]; reflexivity. Qed.

Lemma infer_cases v : In (infer_compression v) [1; 2; 4; 5].
Proof. unfold infer_compression. destruct v, (tv_len _ <=? 1); cbn; try (destruct (_ <? _)); cbn; tauto. Qed.

Definition stored_in (buffer : list Z) (t : track_data) (k : track) : Prop :=
  tk_offset k + tk_size k <= zlen buffer /\ create_track_data k buffer = Ok (stored_track t).

Lemma zlen_take n (l : list Z) : 0 <= n <= zlen l -> zlen (firstn (Z.to_nat n) l) = n.
Proof. intros H. unfold zlen in *. rewrite firstn_length. lia. Qed.

Lemma create_track_ok t buffer : track_ok t = true -> zlen buffer + track_size (td_values t) < 2 ^ 32 ->
  bytes_ok buffer = true ->
  exists k data, create_track t buffer = Ok (k, buffer ++ data) /\ bytes_ok data = true /\
    tk_offset k = zlen buffer /\ tk_size k = zlen data /\ zlen data = track_size (td_values t) /\
    tk_frames k = tv_len (td_values t) /\
    wt TrackV2 (track_val k) = true /\
    forall rest, zlen (buffer ++ data ++ rest) < two64 -> create_track_data k (buffer ++ data ++ rest) = Ok (stored_track t).
Proof.
  intros W L B. destruct (track_data_ok t W) as (data & Ed & Bd & Ld & R).
  unfold track_ok in W. apply andb_true_iff in W as [W TL]. apply andb_true_iff in W as [N W].
  pose proof (zlen_nonneg buffer). pose proof (zlen_nonneg data).
  assert (TN : 0 <= tv_len (td_values t)) by (destruct (td_values t); apply zlen_nonneg).
  unfold create_track. rewrite Ed. cbn [bind]. eexists _, data. split; [reflexivity|].
  cbn [tk_offset tk_size tk_frames]. rewrite (Z.mod_small (zlen buffer)) by lia.
  rewrite (Z.mod_small (tv_len _)) by lia.
  split; [auto|]. split; [auto|]. split; [rewrite zlen_app; lia|]. split; [auto|]. split; [auto|]. split.
  - unfold TrackV2, track_val. cbn [tk_name tk_type tk_comp tk_frames tk_flags tk_offset tk_size].
    rewrite !wt_record_cons, wt_record_nil, andb_true_r. rewrite wt_name by auto.
    replace (zlen (buffer ++ data) - zlen buffer) with (zlen data) by (rewrite zlen_app; lia).
    assert (T1 : wt TrackFlags (VStruct [VInt (track_type (td_values t)); VInt (infer_compression (td_values t))]) = true).
    { pose proof (infer_cases (td_values t)) as I.
      destruct (td_values t); destruct I as [<- | [<- | [<- | [<- | []]]]]; reflexivity. }
    rewrite T1. cbn [wt u32 u64 TransformFlags andb].
    assert (0 <= tflags_bits (td_flags t) < 16) by (destruct (td_flags t) as [[] [] [] []]; cbn; lia).
    change (256 ^ 8) with (2 ^ 64). change (256 ^ 4) with (2 ^ 32). lia.
  - intros rest Hr. unfold create_track_data. cbn [tk_offset tk_size tk_name tk_type tk_comp tk_frames tk_flags].
    rewrite !zlen_app in *. pose proof (zlen_nonneg rest). fold two64.
    replace (two64 <=? _) with false by lia. replace (_ <? _) with false by lia.
    replace (Z.to_nat (zlen buffer + zlen data - zlen buffer)) with (length data) by (unfold zlen; lia).
    unfold zlen at 1. rewrite Nat2Z.id. rewrite skipn_app, skipn_all, Nat.sub_diag. cbn [app skipn].
    rewrite firstn_app, firstn_all, Nat.sub_diag. cbn [firstn]. rewrite app_nil_r.
    rewrite R. cbn [bind]. rewrite tflags_roundtrip, text_roundtrip by auto. reflexivity.
Qed.

Lemma tiles_app a b c l1 l2 : tiles a b l1 -> tiles b c l2 -> tiles a c (l1 ++ l2).
Proof.
  revert a. induction l1 as [|t l IH]; intros a H1 H2; cbn [tiles app] in *.
  - now subst.
  - destruct H1 as (E1 & E2 & H1). auto.
Qed.

(** ** Lists of things that are stored one after the other *)
Definition frames_size (k : track) : Z * Z := (tk_frames k, tk_size k).
Definition expected (t : track_data) : Z * Z := (tv_len (td_values t), track_size (td_values t)).

Record stores {A B} (f : A -> list Z -> res (B * list Z)) (ok : A -> bool) (sz : A -> Z)
    (tracks : B -> list track) (frames : A -> list (Z * Z)) (good : B -> bool) (rd : B -> list Z -> res A) (q : A -> A) : Prop := {
  st_size : forall x, 0 <= sz x;
  st_ok : forall x buffer, ok x = true -> zlen buffer + sz x < 2 ^ 32 -> bytes_ok buffer = true ->
    exists y data, f x buffer = Ok (y, buffer ++ data) /\ bytes_ok data = true /\ zlen data = sz x /\
      tiles (zlen buffer) (zlen buffer + zlen data) (tracks y) /\
      map frames_size (tracks y) = frames x /\ good y = true /\
      forall rest, zlen (buffer ++ data ++ rest) < two64 -> rd y (buffer ++ data ++ rest) = Ok (q x)
}.

Definition total {A} (sz : A -> Z) (l : list A) : Z := fold_right Z.add 0 (map sz l).
Lemma total_nonneg {A} (sz : A -> Z) l : (forall x, 0 <= sz x) -> 0 <= total sz l.
Proof. intros H. induction l as [|x l IH]; cbn; [lia|]. specialize (H x). unfold total in IH. lia. Qed.

Lemma stores_list {A B} f ok sz tracks frames good rd q : @stores A B f ok sz tracks frames good rd q ->
  stores (map_buffer f) (forallb ok) (total sz) (flat_map tracks) (flat_map frames) (forallb good)
    (fun ys b => mapM (fun y => rd y b) ys) (map q).
Proof.
  intros [S1 S2]. constructor; [intros; now apply total_nonneg|].
  intros l. induction l as [|x l IH]; intros buffer W L BB; cbn [map_buffer forallb total map fold_right] in *.
  - exists [], []. rewrite app_nil_r. cbn. repeat split; auto. lia.
  - apply andb_true_iff in W as [W1 W2]. pose proof (S1 x). pose proof (total_nonneg sz l S1) as TN.
    unfold total in *. set (T := fold_right Z.add 0 (map sz l)) in *.
    destruct (S2 x buffer W1) as (y & d1 & -> & B1 & L1 & T1 & F1 & G1 & R1); [lia|auto|]. cbn [bind].
    destruct (IH (buffer ++ d1) W2) as (ys & d2 & -> & B2 & L2 & T2 & F2 & G2 & R2);
      [rewrite zlen_app; lia|now rewrite bytes_ok_app, BB, B1|].
    cbn [bind]. exists (y :: ys), (d1 ++ d2). rewrite app_assoc. split; [reflexivity|].
    rewrite bytes_ok_app, B1, B2, zlen_app. split; [auto|]. split; [lia|].
    cbn [flat_map forallb mapM]. split; [|split; [|split]].
    + eapply tiles_app; [exact T1|]. rewrite zlen_app in T2.
      replace (zlen buffer + (zlen d1 + zlen d2)) with (zlen buffer + zlen d1 + zlen d2) by lia. exact T2.
    + now rewrite map_app, F1, F2.
    + now rewrite G1, G2.
    + intros rest Hr. rewrite <- app_assoc in *. rewrite R1 by auto. cbn [bind].
      specialize (R2 rest). rewrite <- app_assoc in R2. rewrite R2 by auto. reflexivity.
Qed.

Lemma track_size_nonneg v : 0 <= track_size v.
Proof.
  unfold track_size. assert (0 <= tv_len v) by (destruct v; apply zlen_nonneg).
  assert (0 <= value_size v) by (destruct v; cbn; lia). assert (0 <= params_size v) by (destruct v; cbn; lia).
  assert (0 <= frame_bits v).
  { destruct v; try (cbn; lia).
    - pose proof (transform_bits_range l). lia.
    - pose proof (uv_bits_range l). lia.
    - apply cbits_range.
    - cbn [frame_bits]. pose proof (cbits_range v4x l). pose proof (cbits_range v4y l). pose proof (cbits_range v4z l).
      pose proof (cbits_range v4w l). lia. }
  destruct (compressed v); [|nia]. assert (0 <= tv_len v * frame_bits v) by nia. lia.
Qed.

Lemma track_stores : stores create_track track_ok (fun t => track_size (td_values t)) (fun k => [k])
  (fun t => [expected t]) (fun k => wt TrackV2 (track_val k)) create_track_data stored_track.
Proof.
  constructor; [intros; apply track_size_nonneg|].
  intros t buffer W L B. destruct (create_track_ok t buffer W L B) as (k & d & E & Bd & O & S & Z & F & G & R).
  exists k, d. rewrite E. split; [auto|]. split; [auto|]. split; [auto|].
  split; [cbn [tiles]; pose proof (zlen_nonneg d); lia|]. split; [cbn; unfold frames_size, expected; now rewrite F, S, Z|]. auto.
Qed.

Lemma node_stores : stores create_node node_ok (fun n => total (fun t => track_size (td_values t)) (nd_tracks n)) nd_tks
  (fun n => flat_map (fun t => [expected t]) (nd_tracks n)) (fun n => wt Node (node_val n))
  (fun n buffer => let* tracks := mapM (fun t => create_track_data t buffer) (nd_tks n) in
                   Ok (ND (ssbh_to_string_lossy (nd_nm n)) tracks)) stored_node.
Proof.
  pose proof (stores_list _ _ _ _ _ _ _ _ track_stores) as S. destruct S as [S1 S2].
  constructor; [intros; apply S1|].
  intros n buffer W L B. unfold node_ok in W. apply andb_true_iff in W as [W W3]. apply andb_true_iff in W as [W1 W2].
  unfold create_node. destruct (S2 (nd_tracks n) buffer W3 L B) as (ks & d & -> & Bd & Ld & T & F & G & R). cbn [bind].
  eexists _, d. split; [reflexivity|]. split; [auto|]. split; [auto|]. cbn [nd_tks nd_nm].
  replace (flat_map (fun k : track => [k]) ks) with ks in * by (clear; induction ks; cbn; congruence).
  split; [auto|]. split; [auto|]. split.
  - unfold Node, node_val. cbn [nd_tks nd_nm]. rewrite !wt_record_cons, wt_record_nil, andb_true_r, wt_name by auto.
    cbn [andb wt]. assert (LK : zlen ks = zlen (nd_tracks n)).
    { apply (f_equal zlen) in F. unfold zlen in *. rewrite map_length in F. rewrite F.
      clear. induction (nd_tracks n); cbn in *; [reflexivity|lia]. }
    replace (zlen (map track_val ks)) with (zlen ks) by (unfold zlen; now rewrite map_length).
    apply andb_true_intro; split; [change two64 with (2 ^ 64); lia|].
    rewrite forallb_forall in *. intros x Hx. apply in_map_iff in Hx as (k & <- & Hk). auto.
  - intros rest Hr. rewrite R by auto. cbn [bind]. now rewrite text_roundtrip.
Qed.

Lemma flat_map_length1 {A B} (f : A -> list B) l : (forall x, length (f x) = 1%nat) -> length (flat_map f l) = length l.
Proof. intros H. induction l as [|x l IH]; cbn; [auto|]. now rewrite app_length, H, IH. Qed.

Lemma map_buffer_length {A B} (f : A -> list Z -> res (B * list Z)) l : forall b ys b',
  map_buffer f l b = Ok (ys, b') -> zlen ys = zlen l.
Proof.
  induction l as [|x l IH]; intros b ys b' H; cbn [map_buffer] in H.
  - injection H as <- <-. reflexivity.
  - destruct (f x b) as [[y b1]| |]; try discriminate H. cbn [bind] in H.
    destruct (map_buffer f l b1) as [[ys' b2]| |] eqn:E; try discriminate H. cbn [bind] in H. injection H as <- <-.
    rewrite !zlen_cons. now rewrite (IH _ _ _ E).
Qed.

Definition node_total (n : node_data) : Z := total (fun t => track_size (td_values t)) (nd_tracks n).
Definition group_total (g : group_data) : Z := total node_total (gd_nodes g).

Lemma group_stores : stores create_group group_ok group_total (fun g => flat_map nd_tks (gr_nodes g))
  (fun g => flat_map (fun n => flat_map (fun t => [expected t]) (nd_tracks n)) (gd_nodes g))
  (fun g => wt Group (group_val g))
  (fun g buffer =>
    let* nodes := mapM (fun n =>
      let* tracks := mapM (fun t => create_track_data t buffer) (nd_tks n) in
      Ok (ND (ssbh_to_string_lossy (nd_nm n)) tracks)) (gr_nodes g) in
    Ok (GD (gr_type g) nodes)) stored_group.
Proof.
  pose proof (stores_list _ _ _ _ _ _ _ _ node_stores) as S. destruct S as [S1 S2].
  constructor; [intros; apply S1|].
  intros g buffer W L B. unfold group_ok in W. apply andb_true_iff in W as [W W3]. apply andb_true_iff in W as [W1 W2].
  unfold create_group. destruct (S2 (gd_nodes g) buffer W3 L B) as (ks & d & E & Bd & Ld & T & F & G & R).
  rewrite E. cbn [bind].
  eexists _, d. split; [reflexivity|]. split; [auto|]. split; [auto|]. cbn [gr_nodes gr_type].
  split; [auto|]. split; [auto|]. split.
  - unfold Group, group_val. cbn [gr_nodes gr_type]. rewrite !wt_record_cons, wt_record_nil, andb_true_r.
    pose proof (map_buffer_length _ _ _ _ _ E) as LK. cbn [wt]. change (wt GroupType (VInt (gd_type g))) with (existsb (Z.eqb (gd_type g)) [1;2;4;5]).
    rewrite W1.
    replace (zlen (map node_val ks)) with (zlen ks) by (unfold zlen; now rewrite map_length).
    apply andb_true_intro; split; [auto|].
    apply andb_true_intro; split; [change two64 with (2 ^ 64); lia|].
    rewrite forallb_forall in *. intros x Hx. apply in_map_iff in Hx as (k & <- & Hk). auto.
  - intros rest Hr. rewrite R by auto. reflexivity.
Qed.

(** ** Whole animations *)
Lemma total_flat {A B} (sz : B -> Z) (f : A -> list B) l :
  total sz (flat_map f l) = total (fun x => total sz (f x)) l.
Proof.
  unfold total. induction l as [|x l IH]; [reflexivity|]. cbn [flat_map map fold_right]. rewrite <- IH. clear IH.
  induction (f x) as [|y m IH]; cbn [app map fold_right]; [reflexivity|]. rewrite IH. lia.
Qed.

Lemma anim_size_groups d : anim_size d = total group_total (ad_groups d).
Proof.
  unfold anim_size, tracks_of. change (fold_right Z.add 0 (map (fun t => track_size (td_values t)) ?l))
    with (total (fun t => track_size (td_values t)) l).
  rewrite total_flat. unfold group_total, node_total, total. f_equal. apply map_ext. intros g.
  exact (total_flat (fun t => track_size (td_values t)) nd_tracks (gd_nodes g)).
Qed.

Lemma flat_map_flat {A B C} (f : A -> list B) (g : B -> list C) l :
  flat_map g (flat_map f l) = flat_map (fun x => flat_map g (f x)) l.
Proof.
  induction l as [|x l IH]; [reflexivity|]. cbn [flat_map]. rewrite <- IH. clear IH.
  induction (f x) as [|y m IH]; cbn [app flat_map]; [reflexivity|]. now rewrite IH, app_assoc.
Qed.
Lemma flat_single {A B} (f : A -> B) l : flat_map (fun x => [f x]) l = map f l.
Proof. induction l as [|x l IH]; cbn; congruence. Qed.

Lemma frames_tracks d :
  flat_map (fun g => flat_map (fun n => flat_map (fun t => [expected t]) (nd_tracks n)) (gd_nodes g)) (ad_groups d) =
  map expected (tracks_of d).
Proof.
  unfold tracks_of. rewrite <- flat_single, flat_map_flat. apply flat_map_ext. intros g.
  now rewrite flat_map_flat.
Qed.

Lemma reduce_max l : Forall (fun x => 0 <= x) l -> or_default 0 (reduce Z.max l) = fold_right Z.max 0 l.
Proof.
  intros H. destruct l as [|a l]; [reflexivity|]. cbn [reduce or_default fold_right].
  inversion H as [|? ? Ha Hl]; subst. clear H. revert a Ha.
  induction Hl as [|b l Hb Hl IH]; intros a Ha; cbn [fold_left fold_right]; [lia|].
  rewrite IH by lia. lia.
Qed.

Theorem convert_anim d : anim_ok d = true -> ad_major d = 2 -> ad_minor d = 0 \/ ad_minor d = 1 -> anim_size d < 2 ^ 32 ->
  if final_ok d then
    exists a, create_anim d = Ok a /\ an_minor a = ad_minor d /\ an_final a = ad_final d /\
      zlen (an_buffer a) = anim_size d /\
      tiles 0 (anim_size d) (all_tracks (an_groups a)) /\
      map frames_size (all_tracks (an_groups a)) = map expected (tracks_of d) /\
      read_anim a = Ok (stored_anim d) /\
      file_ok (mkFile Anim (2, an_minor a) (anim_val a)) /\
      un_anim (2, an_minor a) (anim_val a) = Ok a
  else create_anim d = Err (EData DFinalFrame).
Proof.
  intros W Ma Mi L. unfold anim_ok in W. apply andb_true_iff in W as [W W3]. apply andb_true_iff in W as [W1 W2].
  pose proof (stores_list _ _ _ _ _ _ _ _ group_stores) as [S1 S2].
  rewrite anim_size_groups in *.
  destruct (S2 (ad_groups d) [] W3) as (gs & buf & E & B & Lb & T & F & G & R); [cbn; lia|reflexivity|].
  cbn [app] in E. unfold create_anim. rewrite Ma. cbn [Z.eqb Pos.eqb andb].
  replace ((ad_minor d =? 0) || (ad_minor d =? 1)) with true by (destruct Mi as [-> | ->]; reflexivity).
  rewrite E. cbn [bind]. fold (all_tracks gs) in *.
  assert (MF : max_frame_count gs = max_frames d).
  { unfold max_frame_count, max_frames. apply (f_equal (map fst)) in F. rewrite frames_tracks, !map_map in F.
    change (map tk_frames (all_tracks gs) = map (fun t => tv_len (td_values t)) (tracks_of d)) in F.
    rewrite F. apply reduce_max.
    rewrite Forall_map. apply Forall_forall. intros t _. destruct (td_values t); apply zlen_nonneg. }
  unfold final_ok. rewrite MF.
  destruct (_ && _); [|reflexivity].
  eexists. split; [reflexivity|]. cbn [an_minor an_final an_buffer an_groups an_unk1 an_unk2 an_name an_unk_data].
  split; [auto|]. split; [auto|]. split; [auto|]. rewrite <- Lb. split; [exact T|].
  split; [now rewrite F, frames_tracks|].
  specialize (R []). cbn [app] in R. rewrite app_nil_r in R.
  assert (two64 = 2 ^ 64) by reflexivity.
  split.
  { unfold read_anim. cbn [an_groups an_buffer an_minor an_final]. unfold read_groups. rewrite R by lia. cbn [bind].
    unfold stored_anim. now rewrite Ma. }
  assert (WB : wt TBuf (VBytes buf) = true) by (cbn [wt]; rewrite B; lia).
  assert (WG : wt (TArr Group) (VArr (map group_val gs)) = true).
  { cbn [wt]. replace (zlen (map group_val gs)) with (zlen gs) by (unfold zlen; now rewrite map_length).
    rewrite (map_buffer_length _ _ _ _ _ E). apply andb_true_intro; split; [lia|].
    rewrite forallb_forall in *. intros x Hx. apply in_map_iff in Hx as (k & <- & Hk). auto. }
  assert (WF : wt f32 (VInt (ad_final d)) = true) by now apply wt_f32.
  assert (WE : wt SsbhString (ssbh_string []) = true) by reflexivity.
  split.
  - destruct Mi as [M|M]; rewrite M.
    + exists Anim_V20. split; [reflexivity|]. cbn [fbody]. unfold anim_val.
      cbn [an_minor an_final an_buffer an_groups an_unk1 an_unk2 an_name an_unk_data Z.eqb app].
      unfold Anim_V20. rewrite !wt_record_cons, wt_record_nil. now rewrite WB, WG, WF, WE.
    + exists Anim_V21. split; [reflexivity|]. cbn [fbody]. unfold anim_val.
      cbn [an_minor an_final an_buffer an_groups an_unk1 an_unk2 an_name an_unk_data Z.eqb Pos.eqb app].
      unfold Anim_V21. rewrite wt_struct. cbn [map wt_fields]. now rewrite WB, WG, WF, WE.
  - assert (UG : un_list un_group (map group_val gs) = Ok gs).
    { clear. induction gs as [|[ty ns] gs IH]; [reflexivity|]. cbn [map un_list].
      assert (E : un_group (group_val (Gr ty ns)) = Ok (Gr ty ns)).
      { cbn [group_val un_group gr_type gr_nodes].
        assert (UN : un_list un_node (map node_val ns) = Ok ns).
        { clear. induction ns as [|[nm ts] ns IH]; [reflexivity|]. cbn [map un_list].
          assert (E : un_node (node_val (Nd nm ts)) = Ok (Nd nm ts)).
          { cbn [node_val un_node nd_nm nd_tks].
            assert (UT : un_list un_track (map track_val ts) = Ok ts).
            { clear. induction ts as [|[n t c f fl o s] ts IH]; [reflexivity|]. cbn [map un_list track_val un_track bind].
              now rewrite IH. }
            now rewrite UT. }
          rewrite E. cbn [bind]. now rewrite IH. }
        now rewrite UN. }
      rewrite E. cbn [bind]. now rewrite IH. }
    destruct Mi as [M|M]; rewrite M; unfold anim_val, un_anim;
      cbn [an_minor an_final an_buffer an_groups an_unk1 an_unk2 an_name an_unk_data Z.eqb Pos.eqb app];
      rewrite UG; reflexivity.
Qed.

Theorem anim_save_load order d out : anim_ok d = true -> anim_size d < 2 ^ 32 ->
  anim_data_write d = Ok out -> zlen out < 2 ^ 63 -> anim_data_read order out = Ok (stored_anim d).
Proof.
  intros W L E HL. unfold anim_data_write in E.
  destruct (create_anim d) as [a| |] eqn:Ca; try discriminate E. cbn [bind] in E.
  assert (V : ad_major d = 2 /\ (ad_minor d = 0 \/ ad_minor d = 1)).
  { unfold create_anim in Ca. destruct ((ad_major d =? 2) && _) eqn:C; [|discriminate Ca]. clear - C. lia. }
  destruct V as [Ma Mi]. pose proof (convert_anim d W Ma Mi L) as C. destruct (final_ok d); [|congruence].
  destruct C as (a' & Ca' & _ & _ & _ & _ & _ & R & FO & U). assert (a' = a) by congruence. subst a'.
  pose proof (typed_roundtrip _ _ _ _ FO E HL) as T.
  unfold anim_data_read. rewrite T. cbn [bind fst snd Z.eqb Pos.eqb andb]. rewrite U. exact R.
Qed.

Theorem anim_write_total d : anim_ok d = true -> ad_major d = 2 -> ad_minor d = 0 \/ ad_minor d = 1 ->
  anim_size d < 2 ^ 32 ->
  (final_ok d = true -> exists out, anim_data_write d = Ok out) /\
  (final_ok d = false -> anim_data_write d = Err (EData DFinalFrame)).
Proof.
  intros W Ma Mi L. pose proof (convert_anim d W Ma Mi L) as C. unfold anim_data_write.
  destruct (final_ok d); (split; intros H; [|]); try discriminate H.
  - destruct C as (a & -> & _ & _ & _ & _ & _ & _ & FO & _). cbn [bind]. now apply typed_write_total.
  - now rewrite C.
Qed.

Lemma anim_version d : ad_major d <> 2 \/ (ad_minor d <> 0 /\ ad_minor d <> 1) ->
  create_anim d = Err (EData DVersion).
Proof.
  intros H. unfold create_anim. replace ((ad_major d =? 2) && _) with false; [reflexivity|].
  symmetry. destruct (ad_major d =? 2) eqn:E; [|reflexivity]. cbn [andb]. lia.
Qed.

(** ** Track data ranges *)
Theorem track_range t buffer : 0 <= tk_offset t -> 0 <= tk_size t ->
  zlen buffer < 2 ^ 64 -> zlen buffer < tk_offset t + tk_size t ->
  create_track_data t buffer = Err (EData DTrackRange).
Proof.
  intros O S Z H. unfold create_track_data. destruct (two64 <=? _); [reflexivity|].
  now replace (zlen buffer <? tk_offset t + tk_size t) with true by lia.
Qed.
