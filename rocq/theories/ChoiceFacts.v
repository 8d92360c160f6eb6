(** Lemmas about when the tracks of an animation are compressed. *)
From Coq Require Import Lia ZifyBool ZifyNat ZifyN.
From Verif Require Import Bytes BytesFacts Ssbh SsbhSpec SsbhFacts Formats Strings Bits Float32 AnimComp AnimBuf AnimFile AnimSpec.
From Verif Require Import SsbhLemmas AnimFacts AnimDataFacts AnimLemmas ChoiceSpec.
Ltac Zify.zify_post_hook ::= ZifyBool.elim_bool_cstr; Z.to_euclidean_division_equations.

Definition max_bits (v : track_values) : Z :=
  match v with TvTransform _ => 217 | TvUv _ => 120 | TvFloat _ | TvPattern _ => 24 | TvBool _ => 1 | TvVec4 _ => 96 end.
Lemma cbits_max {A} (f : A -> Z) l : 0 <= cbits f l <= 24.
Proof. unfold cbits, comp_bits. destruct (f32_eqb _ _); lia. Qed.
Lemma frame_bits_max v : 0 <= frame_bits v <= max_bits v.
Proof.
  destruct v as [l|l|l|l|l|l]; cbn [frame_bits max_bits]; try lia.
  - pose proof (cbits_max sx l). pose proof (cbits_max sy l). pose proof (cbits_max sz l).
    pose proof (cbits_max rx l). pose proof (cbits_max ry l). pose proof (cbits_max rz l).
    pose proof (cbits_max tx l). pose proof (cbits_max ty_ l). pose proof (cbits_max tz l). destruct (tr_uniform l); lia.
  - pose proof (cbits_max uv_su l). pose proof (cbits_max uv_sv l). pose proof (cbits_max uv_rot l).
    pose proof (cbits_max uv_tu l). pose proof (cbits_max uv_tv l). destruct (uv_uniform l); lia.
  - pose proof (cbits_max (fun x => x) l). lia.
  - pose proof (cbits_max v4x l). pose proof (cbits_max v4y l). pose proof (cbits_max v4z l). pose proof (cbits_max v4w l). lia.
Qed.

Theorem track_choice t buffer k buffer' : create_track t buffer = Ok (k, buffer') ->
  let n := tv_len (td_values t) in
  let transform := match td_values t with TvTransform _ => true | _ => false end in
  tk_comp k = if n <=? 1 then (if transform then 2 else 5) else if n <=? plain_frames (td_values t) then 1 else 4.
Proof.
  intros E n tr. unfold create_track in E. apply bind_ok in E as (b & _ & [= <- _]). cbn [tk_comp].
  rewrite infer_choice. unfold compressed. subst n tr. destruct (td_values t) as [l|l|l|l|l|l]; cbn [plain_frames];
    match goal with |- context [tv_len ?v] => generalize (tv_len v) end; intros n;
    destruct (n <=? 1) eqn:E1; [now replace (_ <? n) with false by lia|rewrite Z.leb_antisym; now destruct (_ <? n)|
                                now replace (_ <? n) with false by lia|rewrite Z.leb_antisym; now destruct (_ <? n)|
                                now replace (_ <? n) with false by lia|rewrite Z.leb_antisym; now destruct (_ <? n)|
                                now replace (_ <? n) with false by lia|rewrite Z.leb_antisym; now destruct (_ <? n)|
                                now replace (_ <? n) with false by lia|rewrite Z.leb_antisym; now destruct (_ <? n)|
                                now replace (_ <? n) with false by lia|rewrite Z.leb_antisym; now destruct (_ <? n)].
Qed.

(** The sizes of both forms of a track *)
Theorem both_sizes v cs : values_ok v = true ->
  exists plain packed, tv_write v 1 cs = Ok plain /\ tv_write v 4 cs = Ok packed /\
    zlen plain = tv_len v * value_size v /\ zlen packed = 16 + params_size v + value_size v + (tv_len v * frame_bits v + 7) / 8.
Proof.
  intros W. destruct (uncompressed_values v 1 cs W) as (a & Ea & _ & La & _); [discriminate|].
  destruct (compressed_values v cs W) as (b & Eb & _). exists a, b. split; [exact Ea|]. split; [exact Eb|]. split.
  - rewrite La, (data_size_value v). reflexivity.
  - exact (proj2 (proj2 (proj2 (proj2 (proj2 (compressed_layout v cs b W Eb)))))).
Qed.
Lemma len_nonneg v : 0 <= tv_len v.
Proof. destruct v; cbn [tv_len]; unfold zlen; lia. Qed.

Theorem packed_shorter v cs plain packed : values_ok v = true -> saving_frames v <= tv_len v ->
  tv_write v 1 cs = Ok plain -> tv_write v 4 cs = Ok packed -> zlen packed < zlen plain.
Proof.
  intros W S E1 E2. destruct (both_sizes v cs W) as (a & b & A & B & La & Lb).
  assert (plain = a) by congruence. assert (packed = b) by congruence. subst plain packed. rewrite La, Lb.
  pose proof (frame_bits_max v) as M. clear - M S. revert M S. generalize (tv_len v) (frame_bits v). intros n bits M S.
  assert (P : n * bits <= n * max_bits v) by (apply Z.mul_le_mono_nonneg_l; [destruct v; cbn in S; lia|lia]).
  assert (Q : (n * bits + 7) / 8 <= (n * max_bits v + 7) / 8) by (apply Z.div_le_mono; lia).
  clear - Q S. destruct v; cbn [max_bits saving_frames value_size params_size] in *; lia.
Qed.
(** The header and parameters of a compressed track are shorter than the values alone, and a
    track that is not compressed is less than one value longer than the compressed one. *)
Theorem choice_bounds v : (compressed v = true -> 16 + params_size v + value_size v < tv_len v * value_size v) /\
  (compressed v = false -> tv_len v * value_size v <= 16 + params_size v + 2 * value_size v).
Proof. unfold compressed. destruct v; cbn [plain_frames params_size value_size]; lia. Qed.

(** All tracks of an animation *)
Lemma map_buffer_flat {A B C D} (f : A -> list Z -> res (B * list Z)) (g : A -> list C) (h : B -> list D) (R : C -> D -> Prop) l :
  (forall a b x b', In a l -> f a b = Ok (x, b') -> Forall2 R (g a) (h x)) ->
  forall b xs b', map_buffer f l b = Ok (xs, b') -> Forall2 R (flat_map g l) (flat_map h xs).
Proof.
  induction l as [|a l IH]; intros H b xs b' E; cbn [map_buffer] in E.
  - injection E as <- _. constructor.
  - apply bind_ok in E as ([x b1] & E1 & E). apply bind_ok in E as ([ys b2] & E2 & E). injection E as <- _. cbn [flat_map].
    apply Forall2_app; [exact (H a b x b1 (or_introl eq_refl) E1)|]. apply (IH (fun a' b0 x' b0' I => H a' b0 x' b0' (or_intror I)) b1 ys b2 E2).
Qed.
Lemma flat_map_single {A} (l : list A) : flat_map (fun x => [x]) l = l.
Proof. induction l as [|a l IH]; [reflexivity|]. cbn [flat_map app]. now rewrite IH. Qed.
Theorem anim_choice d a : create_anim d = Ok a ->
  Forall2 (fun t k => tk_comp k = choice_of (td_values t)) (tracks_of d) (all_tracks (an_groups a)).
Proof.
  intros E. unfold create_anim in E. destruct (_ && _) in E; [|discriminate E].
  apply bind_ok in E as ([gs b] & E & F). destruct (_ && _) in F; [|discriminate F]. injection F as <-. cbn [an_groups].
  unfold tracks_of, all_tracks. revert E. apply map_buffer_flat. intros g b0 x b1 _ Eg. unfold create_group in Eg.
  apply bind_ok in Eg as ([ns b2] & Eg & [= <- _]). cbn [gr_nodes]. revert Eg. apply map_buffer_flat. intros n b3 y b4 _ En.
  unfold create_node in En. apply bind_ok in En as ([ts b5] & En & [= <- _]). cbn [nd_tks].
  rewrite <- (flat_map_single (nd_tracks n)), <- (flat_map_single ts). revert En. apply map_buffer_flat. intros t b6 k b7 _ Et.
  constructor; [|constructor]. rewrite (track_choice t b6 k b7 Et). unfold choice_of. now destruct (td_values t).
Qed.
