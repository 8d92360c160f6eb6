(** Animation data loaded from any file can be saved again. *)
From Coq Require Import Lia ZifyBool ZifyNat ZifyN.
From Verif Require Import Bytes BytesFacts Ssbh File SsbhSpec SsbhFacts Formats FileFacts Strings Float32 AnimComp AnimBuf AnimFile SsbhLemmas FileSpec AnimSpec DataSpec.
From Verif Require Import FloatFacts AnimFacts AnimDataFacts AnimLemmas ReloadFacts ShdrFacts DecFacts TrackSpec TrackRead AnimReadSpec AnimRead.
Ltac Zify.zify_post_hook ::= ZifyBool.elim_bool_cstr; Z.to_euclidean_division_equations.

Lemma zlen_map {A B} (f : A -> B) l : zlen (map f l) = zlen l.
Proof. unfold zlen. now rewrite map_length. Qed.

#[local] Strategy opaque [typed_write typed_read].

(** ** Numbers are 32 bits wide *)
Lemma is32_bound x : 0 <= x < 2 ^ 32 -> is32 x = true.
Proof. unfold is32. lia. Qed.
Lemma decompress_32 v mn mx bits : is32 (decompress_f32 v mn mx bits) = true.
Proof.
  apply is32_bound. unfold decompress_f32. apply bits32_bound. intros s m e E. apply convert_bound in E; [|reflexivity].
  unfold prec32, emax32 in E. lia.
Qed.
Lemma sqrt_core_nonneg m e : 0 < m -> 0 <= fst (fst (SFsqrt_core_binary prec32 emax32 m e)).
Proof.
  intros H. unfold SFsqrt_core_binary. destruct (Z.sqrtrem _) as [q r] eqn:E. cbn. 
  match type of E with Z.sqrtrem ?x = _ => pose proof (Z.sqrtrem_sqrt x) as S; rewrite E in S; cbn in S; rewrite S; apply Z.sqrt_nonneg end.
Qed.
Lemma rotation_32 flip r : is32 (rotation_w flip r) = true.
Proof.
  apply is32_bound. unfold rotation_w. cbv zeta.
  match goal with |- context [sqrt32 ?x] => generalize x; intros w end.
  apply bits32_bound. intros s m e E.
  assert (S : forall s m e, (if match w with S754_zero s | S754_infinity s | S754_finite s _ _ => s | S754_nan => false end then S754_zero false else sqrt32 w)
    = S754_finite s m e -> Zpos m < 2 ^ 24 /\ -149 <= e <= 104).
  { clear. intros s m e E. destruct w as [[]|[]| |[] m0 e0]; try discriminate E. unfold sqrt32, SFsqrt in E.
    pose proof (sqrt_core_nonneg (Zpos m0) e0 ltac:(lia)) as N. destruct (SFsqrt_core_binary _ _ _ _) as [[mz ez] lz]. cbn in N.
    apply binary_round_aux_bound in E; [|reflexivity|exact N]. unfold prec32, emax32 in E. lia. }
  destruct flip; [|eauto]. match type of E with SFopp ?x = _ => destruct x as [| | |s' m' e'] eqn:F; try discriminate E end.
  cbn in E. injection E as <- <- <-. eapply S. reflexivity.
Qed.

Section Data.
  Variable b : list Z.
  Hypothesis Hb : bytes_ok b = true.

  Lemma word_32 p n : word_at b p n -> is32 n = true.
  Proof. intros H. apply uint_nonneg in H; auto. now apply is32_bound. Qed.
  Lemma component_32 pos c d x : is32 d = true -> component b pos c d x -> is32 x = true.
  Proof. unfold component. destruct (width c =? 0); [now intros H ->|]. intros _ (v & _ & ->). apply decompress_32. Qed.
  Lemma vec3_32 p v : vec3_at b p v -> vec3_ok v = true.
  Proof. intros (H1 & H2 & H3). unfold vec3_ok. now rewrite (word_32 _ _ H1), (word_32 _ _ H2), (word_32 _ _ H3). Qed.
  Lemma vec4_32 p v : vec4_at b p v -> vec4_ok v = true.
  Proof. intros (H1 & H2 & H3 & H4). unfold vec4_ok. now rewrite (word_32 _ _ H1), (word_32 _ _ H2), (word_32 _ _ H3), (word_32 _ _ H4). Qed.
  Lemma components3_32 pos c d v : vec3_ok d = true -> components3 b pos c d v -> vec3_ok v = true.
  Proof.
    unfold vec3_ok. intros H (H1 & H2 & H3). apply andb_prop in H as [H D3]. apply andb_prop in H as [D1 D2].
    now rewrite (component_32 _ _ _ _ D1 H1), (component_32 _ _ _ _ D2 H2), (component_32 _ _ _ _ D3 H3).
  Qed.

  Definition transform_32 (t : utransform) : bool := vec3_ok (ut_scale t) && vec4_ok (ut_rot t) && vec3_ok (ut_trans t).
  Definition uv_32 (t : uvtransform) : bool := is32 (uv_su t) && is32 (uv_sv t) && is32 (uv_rot t) && is32 (uv_tu t) && is32 (uv_tv t).
  Lemma transform_at_32 p t : transform_at b p t -> transform_32 t = true.
  Proof. intros (H1 & H2 & H3 & _). unfold transform_32. now rewrite (vec3_32 _ _ H1), (vec4_32 _ _ H2), (vec3_32 _ _ H3). Qed.
  Lemma uv_at_32 p t : uv_at b p t -> uv_32 t = true.
  Proof.
    intros (H1 & H2 & H3 & H4 & H5). unfold uv_32.
    now rewrite (word_32 _ _ H1), (word_32 _ _ H2), (word_32 _ _ H3), (word_32 _ _ H4), (word_32 _ _ H5).
  Qed.
  Lemma transform_frame_32 pos c d flags t : transform_32 d = true -> transform_frame b pos c d flags t -> transform_32 t = true.
  Proof.
    unfold transform_32. intros D (S & R & T & _). apply andb_prop in D as [D D3]. apply andb_prop in D as [D1 D2].
    apply andb_true_intro. split; [apply andb_true_intro; split|].
    - destruct (Z.testbit flags 1).
      + destruct S as (Sy & Sz & Sx). unfold vec3_ok. rewrite Sy, Sz. 
        assert (X : is32 (v3x (ut_scale t)) = true).
        { unfold vec3_ok in D1. apply andb_prop in D1 as [D1 _]. apply andb_prop in D1 as [D1 _].
          destruct (Z.testbit flags 0); [exact (component_32 _ _ _ _ D1 Sx)|now rewrite Sx]. }
        now rewrite X.
      + destruct (Z.testbit flags 0); [exact (components3_32 _ _ _ _ D1 S)|now rewrite S].
    - destruct (Z.testbit flags 2); [|now rewrite R]. destruct R as (C & neg & _ & W).
      assert (X : vec3_ok (xyz (ut_rot d)) = true) by (unfold vec4_ok in D2; apply andb_prop in D2 as [D2 _]; exact D2).
      apply components3_32 in C; [|exact X]. unfold vec4_ok. rewrite W, rotation_32. unfold vec3_ok in C. cbn [xyz v3x v3y v3z] in C. now rewrite C.
    - destruct (Z.testbit flags 3); [exact (components3_32 _ _ _ _ D3 T)|now rewrite T].
  Qed.
  Lemma uv_frame_32 pos c d flags t : uv_32 d = true -> uv_frame b pos c d flags t -> uv_32 t = true.
  Proof.
    unfold uv_32. intros D (S & V & R & T & U). do 4 (apply andb_prop in D as [D ?]).
    assert (X0 : is32 (uv_su t) = true) by exact (component_32 _ _ _ _ D S).
    assert (X1 : is32 (uv_sv t) = true) by (destruct (Z.testbit flags 1); [now rewrite V|eapply component_32; [|exact V]; auto]).
    assert (X2 : is32 (uv_rot t) = true) by (eapply component_32; [|exact R]; auto).
    assert (X3 : is32 (uv_tu t) = true) by (eapply component_32; [|exact T]; auto).
    assert (X4 : is32 (uv_tv t) = true) by (eapply component_32; [|exact U]; auto).
    now rewrite X0, X1, X2, X3, X4.
  Qed.
  Lemma vec4_frame_32 pos c d t : vec4_ok d = true -> vec4_frame b pos c d t -> vec4_ok t = true.
  Proof.
    unfold vec4_ok. intros D (S & R & T & U). do 3 (apply andb_prop in D as [D ?]).
    assert (X0 : is32 (v4x t) = true) by exact (component_32 _ _ _ _ D S).
    assert (X1 : is32 (v4y t) = true) by (eapply component_32; [|exact R]; auto).
    assert (X2 : is32 (v4z t) = true) by (eapply component_32; [|exact T]; auto).
    assert (X3 : is32 (v4w t) = true) by (eapply component_32; [|exact U]; auto).
    now rewrite X0, X1, X2, X3.
  Qed.

  Lemma plain_32 {T} (value : list Z -> Z -> T -> Prop) (P : T -> bool) size n l :
    (forall p x, value b p x -> P x = true) -> plain_at value size b n l -> zlen l = n /\ forallb P l = true.
  Proof.
    intros H [L F]. split; auto. apply forallb_forall. intros x I. apply In_nth_error in I as [k I]. eauto.
  Qed.
  Lemma compressed_32 {T C} (params : list Z -> Z -> C -> Prop) (value : list Z -> Z -> T -> Prop) (P : T -> bool) bits
    (frame : list Z -> Z -> C -> T -> Z -> T -> Prop) n l : 0 <= n ->
    (forall p x, value b p x -> P x = true) -> (forall pos c d flags x, params b 16 c -> P d = true -> frame b pos c d flags x -> P x = true) ->
    compressed_at params value bits frame b n l -> zlen l <= n /\ forallb P l = true.
  Proof.
    intros Hn Hv Hf (flags & default & at_ & c & _ & Pc & _ & L & E & F). split; [destruct (bits c flags =? 0); lia|].
    destruct (Z.eq_dec default 0) as [D|D]; [now rewrite (E D)|]. destruct (F D) as (d & V & X).
    apply forallb_forall. intros x I. apply In_nth_error in I as [k I]. apply X in I. eauto.
  Qed.

  Lemma track_values_ok t compression n v c : 0 <= n < 2 ^ 32 -> track_at b t compression n v c -> values_ok v = true /\ tv_len v < 2 ^ 32.
  Proof.
    intros Hn. destruct v as [l|l|l|l|l|l]; cbn [track_at values_ok tv_len].
    - intros (_ & us & H & -> & _). assert (X : zlen us <= n /\ forallb transform_32 us = true).
      { unfold transforms_at in H. destruct (compression =? Compressed).
        - eapply compressed_32; [lia| | |exact H]; [apply transform_at_32|intros; eapply transform_frame_32; eauto].
        - apply (plain_32 _ transform_32) in H as [H1 H2]; [split; [lia|auto]|apply transform_at_32]. }
      destruct X as [X1 X2]. rewrite zlen_map. split; [|lia]. rewrite forallb_forall in *. intros x I. apply in_map_iff in I as (u & <- & I).
      cbn. now apply X2.
    - intros (_ & H & _). unfold uvs_at in H. destruct (compression =? Compressed).
      + apply (compressed_32 _ _ uv_32) in H as [H1 H2]; [split; [exact H2|lia]|lia|apply uv_at_32|intros; eapply uv_frame_32; eauto].
      + apply (plain_32 _ uv_32) in H as [H1 H2]; [split; [exact H2|lia]|apply uv_at_32].
    - intros (_ & H & _). unfold floats_at in H. destruct (compression =? Compressed).
      + apply (compressed_32 _ _ is32) in H as [H1 H2]; [split; [exact H2|lia]|lia|apply word_32|intros; eapply component_32; eauto].
      + apply (plain_32 _ is32) in H as [H1 H2]; [split; [exact H2|lia]|apply word_32].
    - intros (_ & H & _). unfold indices_at in H. destruct (compression =? Compressed).
      + apply (compressed_32 _ _ is32) in H as [H1 H2]; [split; [exact H2|lia]|lia|apply word_32|].
        intros pos c0 d fl x (M & _) _ (v & [Cv _] & -> & Lt). apply word_32 in M. unfold is32 in *. lia.
      + apply (plain_32 _ is32) in H as [H1 H2]; [split; [exact H2|lia]|apply word_32].
    - intros (_ & xs & H & -> & _). rewrite zlen_map. split; [reflexivity|]. unfold bools_at in H. destruct (compression =? Compressed).
      + apply (compressed_32 _ _ (fun _ => true)) in H as [H1 H2]; [lia|lia|reflexivity|reflexivity].
      + destruct H as [L _]. lia.
    - intros (_ & H & _). unfold vec4s_at in H. destruct (compression =? Compressed).
      + apply (compressed_32 _ _ vec4_ok) in H as [H1 H2]; [split; [exact H2|lia]|lia|apply vec4_32|intros; eapply vec4_frame_32; eauto].
      + apply (plain_32 _ vec4_ok) in H as [H1 H2]; [split; [exact H2|lia]|apply vec4_32].
  Qed.
End Data.

(** ** Files *)
Definition wide (a : anim) : Prop :=
  is32 (an_final a) = true /\ zlen (an_groups a) < 2 ^ 64 /\
  forall g, In g (an_groups a) -> In (gr_type g) [1; 2; 4; 5] /\ zlen (gr_nodes g) < 2 ^ 64 /\
  forall n, In n (gr_nodes g) -> text_ok (ssbh_to_string_lossy (nd_nm n)) = true /\ zlen (nd_tks n) < 2 ^ 64 /\
  forall t, In t (nd_tks n) -> text_ok (ssbh_to_string_lossy (tk_name t)) = true /\ 0 <= tk_frames t < 2 ^ 32.
Lemma int_wt w n : wt (TInt w) (VInt n) = true -> 0 <= n < 256 ^ w.
Proof. cbn [wt]. lia. Qed.
Lemma anim_wide v a : v = anim_val a -> wt Anim_V20 v = true \/ wt Anim_V21 v = true -> wide a.
Proof.
  intros -> H.
  assert (X : wt f32 (VInt (an_final a)) = true /\ wt (TArr Group) (VArr (map group_val (an_groups a))) = true).
  { destruct H as [H|H]; [apply struct_inv in H as (vs & E & F)|unfold Anim_V21 in H; apply struct_inv in H as (vs & E & F)];
      unfold anim_val in E; injection E as <-; inversion F; subst; repeat match goal with H : Forall2 _ (_ :: _) _ |- _ => inversion H; clear H; subst end; auto. }
  destruct X as [Xf Xg]. split; [apply (int_wt 4) in Xf; now apply is32_bound|].
  apply arr_inv in Xg as (l & [= <-] & L & G). rewrite zlen_map in L. split; [exact L|].
  rewrite forallb_forall in G. intros g Ig. specialize (G _ (in_map group_val _ _ Ig)). apply struct_inv in G as (vs & [= <-] & F). inv2.
  match goal with H : wt GroupType _ = true |- _ => apply AnimRead.repr_any in H as (y & [= <-] & Hy) end. split; [exact Hy|].
  match goal with H : wt (TArr Node) _ = true |- _ => apply arr_inv in H as (l & [= <-] & L2 & G) end. rewrite zlen_map in L2. split; [exact L2|].
  rewrite forallb_forall in G. intros n In'. specialize (G _ (in_map node_val _ _ In')). apply struct_inv in G as (vs & [= <-] & F). inv2.
  match goal with H : wt SsbhString _ = true |- _ => split; [exact (text_any 4 _ H)|clear H] end.
  match goal with H : wt (TArr TrackV2) _ = true |- _ => apply arr_inv in H as (l & [= <-] & L3 & G) end. rewrite zlen_map in L3. split; [exact L3|].
  rewrite forallb_forall in G. intros t It. specialize (G _ (in_map track_val _ _ It)). apply struct_inv in G as (vs & [= <-] & F). inv2.
  match goal with H : wt SsbhString _ = true |- _ => split; [exact (text_any 4 _ H)|clear H] end.
  match goal with H : wt _ (VInt (tk_frames t)) = true |- _ => exact (int_wt 4 _ H) end.
Qed.

Lemma part_bytes buffer o s data : bytes_ok buffer = true -> part_of buffer o s data -> bytes_ok data = true.
Proof.
  intros Hb (_ & before & after & -> & _). unfold bytes_ok in *. rewrite !forallb_app in Hb. apply andb_prop in Hb as [_ Hb]. now apply andb_prop in Hb as [Hb _].
Qed.
Lemma loaded_anim_ok a d : wide a -> bytes_ok (an_buffer a) = true -> loaded_anim a d -> anim_ok d = true.
Proof.
  intros (W1 & W2 & W3) Hb (_ & _ & F & G). unfold anim_ok. rewrite F, W1. cbn [andb].
  pose proof (forall2_length _ _ _ G) as L. apply andb_true_intro. split; [unfold zlen in *; lia|].
  apply forallb_forall. intros gd Ig. apply (SkelFacts.forall2_in_r _ _ _ G) in Ig as (g & Ig & T & N). destruct (W3 g Ig) as (V1 & V2 & V3).
  unfold group_ok. rewrite T. clear L. pose proof (forall2_length _ _ _ N) as L. apply andb_true_intro. split; [apply andb_true_intro; split|].
  - apply existsb_exists. exists (gr_type g). split; [exact V1|apply Z.eqb_refl].
  - unfold zlen in *; lia.
  - apply forallb_forall. intros nd In'. apply (SkelFacts.forall2_in_r _ _ _ N) in In' as (n & In' & Nn & K). destruct (V3 n In') as (U1 & U2 & U3).
    unfold node_ok. rewrite Nn, U1. clear L. pose proof (forall2_length _ _ _ K) as L. cbn [andb]. apply andb_true_intro. split; [unfold zlen in *; lia|].
    apply forallb_forall. intros td It. apply (SkelFacts.forall2_in_r _ _ _ K) in It as (t & It & Nt & _ & data & P & A). destruct (U3 t It) as [S1 S2].
    apply part_bytes in P; auto. destruct (track_values_ok data P _ _ _ _ _ S2 A) as [Q1 Q2]. unfold track_ok. rewrite Nt, S1, Q1. lia.
Qed.

Theorem anim_reload order b d : bytes_ok b = true -> anim_data_read order b = Ok d ->
  ((ad_major d, ad_minor d) = (1, 2) /\ anim_data_write d = Err (EData DVersion)) \/
  (ad_major d = 2 /\ (ad_minor d = 0 \/ ad_minor d = 1) /\ anim_ok d = true /\
   (anim_size d < 2 ^ 32 ->
    (final_ok d = true -> exists out, anim_data_write d = Ok out /\ (zlen out < 2 ^ 63 -> anim_data_read order out = Ok (stored_anim d))) /\
    (final_ok d = false -> anim_data_write d = Err (EData DFinalFrame)))).
Proof.
  intros Hb R. pose proof R as R0. unfold anim_data_read in R0. destruct (typed_read Anim b) as [[version v]|e|] eqn:E; try discriminate R0. clear R0.
  destruct (anim_version _ _ _ Hb E) as [[-> W]|X].
  - left. split; [|eapply v12_not_saved; eauto].
    unfold anim_data_read in R. rewrite E in R. cbn [bind fst snd Z.eqb Pos.eqb andb] in R.
    apply bind_inv in R as (a & _ & R). apply bind_inv in R as (gs & _ & R). injection R as <-. reflexivity.
  - right. assert (Y : exists m, version = (2, m) /\ (m = 0 \/ m = 1) /\ (wt Anim_V20 v = true \/ wt Anim_V21 v = true)).
    { destruct X as [[-> W]|[-> W]]; [exists 0|exists 1]; auto. }
    destruct Y as (m & -> & Hm & W). destruct (anim_file _ _ _ Hb E) as (a & Va & Ma & I). destruct (I order) as [I1 _]. apply I1 in R as K. clear I I1.
    destruct (anim_any _ _ _ Hb E) as (a' & Va' & _ & Ua' & Sa).
    assert (Bb : bytes_ok (an_buffer a) = true).
    { clear - Va W. destruct W as [W|W]; [apply struct_inv in W as (vs & Ev & F)|unfold Anim_V21 in W; apply struct_inv in W as (vs & Ev & F)];
        rewrite Va in Ev; unfold anim_val in Ev; injection Ev as <-; repeat match goal with H : Forall2 _ (_ :: _) _ |- _ => inversion H; clear H; subst end;
        match goal with H : wt TBuf _ = true |- _ => apply bytes_any in H as (bf & [= <-] & Bb & _); exact Bb end. }
    pose proof (loaded_anim_ok a d (anim_wide v a Va W) Bb K) as O. destruct K as (K1 & K2 & _).
    split; auto. split; [rewrite K2, Ma; exact Hm|]. split; auto. intros L.
    destruct (anim_errors d O L) as [_ N]. rewrite K2, Ma in N. destruct (N K1 Hm) as [N1 N2]. split; auto.
    intros Fo. destruct (N1 Fo) as [out Eo]. exists out. split; auto. intros Lo. eapply anim_save_load; eauto.
Qed.
