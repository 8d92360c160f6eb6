(** The documents of the two JSON programs agree: Anim. *)
From Coq Require Import Lia ZifyBool ZifyNat ZifyN.
From Verif Require Import Bytes BytesFacts Ssbh File SsbhSpec SsbhFacts Formats FileFacts Strings Bits Float32 AnimComp AnimBuf AnimFile.
From Verif Require Import AnimSpec SsbhLemmas AnimFacts AnimDataFacts SmallData DataSpec SmallDataFacts MatlData SkelData AdjData MeshEx VecData MeshData FileSpec DecFacts TrackSpec AnimReadSpec DataFuzz AnimRead ReloadFacts SizeDataFacts Json JsonSchema JsonFile DataJson AgreeSpec AgreeFacts.
Ltac Zify.zify_post_hook ::= ZifyBool.elim_bool_cstr; Z.to_euclidean_division_equations.
#[local] Strategy opaque [typed_write typed_read].

Lemma pairs_agree {A B} (P : A -> Prop) (L : A -> B -> Prop) (f : B -> json) (g : A -> json) (R : json -> json -> Prop) :
  (forall a b, P a -> L a b -> R (f b) (g a)) -> forall l m, Forall P l -> Forall2 L l m -> Forall2 R (map f m) (map g l).
Proof. intros H l m Fp F. induction F as [|a b l m Hab F IH]; [constructor|]. inversion_clear Fp. constructor; auto. Qed.
Lemma array_agree x d f (R : json -> json -> Prop) l m : get x d = Some (JArr l) -> get x f = Some (JArr m) -> Forall2 R l m -> agree_list x R d f.
Proof. intros. exists l, m. auto. Qed.

(** ** Lengths *)
Definition one_for_each (compression n : Z) {T} (l : list T) : Prop := zlen l = n \/ (compression = 4 /\ zlen l = 1 /\ 0 < n).
Lemma plain_length {T} value size b n (l : list T) c : plain_at value size b n l -> one_for_each c n l.
Proof. intros (H & _). now left. Qed.
Lemma compressed_length {T C} params value bits frame b n (l : list T) : 0 <= n ->
  @compressed_at T C params value bits frame b n l -> one_for_each 4 n l.
Proof.
  intros N (flags & default & at_ & c & _ & _ & _ & L & _). unfold one_for_each. destruct (bits c flags =? 0); [|now left].
  destruct (Z.eqb_spec n 0) as [->|]; [now left|right; split; [reflexivity|]]. revert N L n0. generalize (zlen l). clear. intros. lia.
Qed.
Lemma values_length {T} c n (compressed plain : list Z -> Z -> list T -> Prop) b l :
  (if c =? Compressed then compressed else plain) b n l -> (compressed b n l -> one_for_each 4 n l) -> (plain b n l -> one_for_each c n l) ->
  one_for_each c n l.
Proof. destruct (Z.eqb_spec c Compressed) as [->|]; auto. Qed.

(** ** Tracks *)
Lemma track_names t : wt TrackV2 (track_val t) = true -> wt SsbhString (tk_name t) = true /\ In (tk_type t) [1; 2; 3; 5; 8; 9] /\ In (tk_comp t) [1; 2; 4; 5].
Proof.
  intros W. apply struct_inv in W as (vs & E & F). unfold track_val in E. injection E as <-. inv2. split; [assumption|].
  match goal with H : wt TrackFlags _ = true |- _ => unfold TrackFlags, padded in H; rewrite wt_struct in H; cbn [map app wt_fields fst] in H; rewrite !andb_true_iff in H; destruct H as (Wt & Wc & _) end.
  apply AnimRead.repr_any in Wt as (x & [= ->] & Wt). apply AnimRead.repr_any in Wc as (y & [= ->] & Wc). auto.
Qed.
Lemma compressed_name c : In c [1; 2; 4; 5] -> exists t, to_json s_anim_CompressionType (VInt c) = JStr t /\ (c = 4 -> t = text_of "Compressed").
Proof. cbn [In]. intros [<-|[<-|[<-|[<-|[]]]]]; eexists; (split; [reflexivity|]); intros E; try discriminate E; reflexivity. Qed.
Lemma values_shown data t c n v comp : 0 <= n -> track_at data t c n v comp -> exists type l,
  to_json s_anim_TrackTypeV2 (VInt t) = JStr (text_of type) /\ to_json sd_track_values (track_values_doc v) = JObj [(type, JArr l)] /\
  one_for_each c n l.
Proof.
  intros N T.
  assert (M : forall {A} (l : list A) (f : A -> json), one_for_each c n l -> one_for_each c n (map f l)) by (intros A l f; unfold one_for_each; now rewrite zlen_map).
  destruct v as [l|l|l|l|l|l]; cbn [track_at] in T.
  - destruct T as (-> & us & T & -> & _). exists "Transform"%string. eexists. split; [reflexivity|]. split; [reflexivity|].
    unfold list_doc. apply M. unfold one_for_each. rewrite !zlen_map. unfold transforms_at in T. exact (values_length _ _ _ _ _ _ T (compressed_length _ _ _ _ _ _ _ N) (fun H => plain_length _ _ _ _ _ _ H)).
  - destruct T as (-> & T & _). exists "UvTransform"%string. eexists. split; [reflexivity|]. split; [reflexivity|].
    unfold list_doc. apply M. unfold one_for_each. rewrite !zlen_map. exact (values_length _ _ _ _ _ _ T (compressed_length _ _ _ _ _ _ _ N) (fun H => plain_length _ _ _ _ _ _ H)).
  - destruct T as (-> & T & _). exists "Float"%string. eexists. split; [reflexivity|]. split; [reflexivity|].
    unfold list_doc. apply M. unfold one_for_each. rewrite !zlen_map. exact (values_length _ _ _ _ _ _ T (compressed_length _ _ _ _ _ _ _ N) (fun H => plain_length _ _ _ _ _ _ H)).
  - destruct T as (-> & T & _). exists "PatternIndex"%string. eexists. split; [reflexivity|]. split; [reflexivity|].
    unfold list_doc. apply M. unfold one_for_each. rewrite !zlen_map. exact (values_length _ _ _ _ _ _ T (compressed_length _ _ _ _ _ _ _ N) (fun H => plain_length _ _ _ _ _ _ H)).
  - destruct T as (-> & xs & T & -> & _). exists "Boolean"%string. eexists. split; [reflexivity|]. split; [reflexivity|].
    unfold list_doc. apply M. unfold one_for_each. rewrite !zlen_map. exact (values_length _ _ _ _ _ _ T (compressed_length _ _ _ _ _ _ _ N) (fun H => plain_length _ _ _ _ _ _ H)).
  - destruct T as (-> & T & _). exists "Vector4"%string. eexists. split; [reflexivity|]. split; [reflexivity|].
    unfold list_doc. apply M. unfold one_for_each. rewrite !zlen_map. exact (values_length _ _ _ _ _ _ T (compressed_length _ _ _ _ _ _ _ N) (fun H => plain_length _ _ _ _ _ _ H)).
Qed.
Lemma bool_shown b : bool_json (Z.b2z b) = JBool b.
Proof. now destruct b. Qed.
Lemma tflags_shown n f : (forall i, 0 <= i < 4 -> Z.testbit n i =
     nth (Z.to_nat i) [override_translation f; override_rotation f; override_scale f; override_compensate_scale f] false) ->
  transform_flags_agree (to_json sd_tflags (tflags_doc f)) (to_json s_anim_TransformFlags (VInt n)).
Proof.
  intros H. exists (n mod 256). eexists. split; [reflexivity|]. change 256 with (2 ^ 8). rewrite !Z.mod_pow2_bits_low by lia.
  rewrite (H 0), (H 1), (H 2), (H 3) by lia. unfold members. cbn [nth Z.to_nat Pos.to_nat Pos.iter_op Nat.add]. 
  repeat (constructor; [cbn; f_equal; apply bool_shown|]). constructor.
Qed.
Definition track_json (t : track_data) : json := to_json sd_track (track_doc t).
Definition tracks_fit (t : track) : Prop := wt TrackV2 (track_val t) = true /\ track_sound t.
Lemma track_shown buffer t d : tracks_fit t -> loaded_track buffer t d -> track_agree (track_json d) (to_json s_anim_TrackV2 (track_val t)).
Proof.
  intros [W S] (N & Fl & data & _ & T). destruct (track_names t W) as (Wn & Tn & Cn).
  assert (N0 : 0 <= tk_frames t) by (unfold track_sound in S; lia).
  destruct (values_shown _ _ _ _ _ _ N0 T) as (type & l & E1 & E2 & L). destruct (compressed_name _ Cn) as (c & E3 & E4). split.
  { pick idtac. rewrite N. exact (text_shown 4 _ Wn). }
  split. { eexists. eexists. split; [reflexivity|]. split; [reflexivity|]. exact (tflags_shown _ _ Fl). }
  exists (JObj [("track_type", to_json s_anim_TrackTypeV2 (VInt (tk_type t))); ("compression_type", to_json s_anim_CompressionType (VInt (tk_comp t)))]%string), type, c, (tk_frames t), l.
  split; [reflexivity|]. rewrite E1, E3. split; [reflexivity|]. split; [reflexivity|]. split; [reflexivity|].
  split. { change (get "values" (track_json d)) with (Some (to_json sd_track_values (track_values_doc (td_values d)))). now rewrite E2. }
  destruct L as [L|(Ec & L)]; [now left|right; auto].
Qed.

(** ** Nodes, groups, files *)
Definition node_fits (n : node) : Prop := wt SsbhString (nd_nm n) = true /\ Forall tracks_fit (nd_tks n).
Definition group_fits (g : group) : Prop := Forall node_fits (gr_nodes g).
Lemma tracks_fit_all ts : forallb (wt TrackV2) (map track_val ts) = true -> Forall tracks_fit ts.
Proof.
  intros H. apply Forall_forall. intros t I. rewrite forallb_forall in H. specialize (H _ (in_map track_val _ _ I)). split; [exact H|].
  apply track_any in H as (t' & E & S). destruct t, t'. injection E as -> -> -> -> -> -> ->. exact S.
Qed.
Lemma node_fits_any n : wt Node (node_val n) = true -> node_fits n.
Proof.
  intros W. apply struct_inv in W as (vs & E & F). unfold node_val in E. injection E as <-. inv2.
  match goal with H : wt (TArr _) _ = true |- _ => apply arr_inv in H as (l & E & _ & H); injection E as <- end.
  split; [assumption|]. now apply tracks_fit_all.
Qed.
Lemma group_fits_any g : wt Group (group_val g) = true -> group_fits g.
Proof.
  intros W. apply struct_inv in W as (vs & E & F). unfold group_val in E. injection E as <-. inv2.
  match goal with H : wt (TArr _) _ = true |- _ => apply arr_inv in H as (l & E & _ & H); injection E as <-; rename H into A end.
  apply Forall_forall. intros n I. rewrite forallb_forall in A. specialize (A _ (in_map node_val _ _ I)). now apply node_fits_any.
Qed.
Lemma node_shown buffer n d : node_fits n -> loaded_node buffer n d -> node_agree (to_json sd_node (node_doc d)) (to_json s_anim_Node (node_val n)).
Proof.
  intros [W T] (N & L). split; [pick idtac; rewrite N; exact (text_shown 4 _ W)|].
  apply (array_agree _ _ _ _ (map track_json (nd_tracks d)) (map (fun t => to_json s_anim_TrackV2 (track_val t)) (nd_tks n))).
  - change (get "tracks" (to_json sd_node (node_doc d))) with (Some (JArr (map (to_json sd_track) (map track_doc (nd_tracks d))))). now rewrite map_map.
  - change (get "tracks" _) with (Some (JArr (map (to_json s_anim_TrackV2) (map track_val (nd_tks n))))). now rewrite map_map.
  - exact (pairs_agree tracks_fit (loaded_track buffer) _ _ _ (track_shown buffer) _ _ T L).
Qed.
Lemma group_shown buffer g d : group_fits g -> loaded_group buffer g d -> group_agree (to_json sd_group (group_doc d)) (to_json s_anim_Group (group_val g)).
Proof.
  intros T (N & L). split; [pick idtac; rewrite N; apply shown_same|].
  apply (array_agree _ _ _ _ (map (fun n => to_json sd_node (node_doc n)) (gd_nodes d)) (map (fun n => to_json s_anim_Node (node_val n)) (gr_nodes g))).
  - change (get "nodes" (to_json sd_group (group_doc d))) with (Some (JArr (map (to_json sd_node) (map node_doc (gd_nodes d))))). now rewrite map_map.
  - change (get "nodes" _) with (Some (JArr (map (to_json s_anim_Node) (map node_val (gr_nodes g))))). now rewrite map_map.
  - exact (pairs_agree node_fits (loaded_node buffer) _ _ _ (node_shown buffer) _ _ T L).
Qed.

Theorem anim_agrees order b dj fj : bytes_ok b = true -> data_to_json order "nuanmb" b = Some (Ok dj) -> file_to_json "nuanmb" b = Ok fj ->
  agree_at "final_frame_index" dj (content fj) /\ (version_name fj <> "V12"%string -> agree_list "groups" group_agree dj (content fj)).
Proof.
  intros Hb D Fj. apply (data_of_json _ _ DkAnim) in D as (d & L & ->); [|reflexivity]. cbn [load_as] in L. apply bind_ok in L as (m & L & E).
  injection E as <-. assert (R : exists version v, typed_read Anim b = Ok (version, v)).
  { rewrite anim_data_read_eq in L. apply bind_ok in L as ([version v] & R & _). eauto. }
  destruct R as (version & v & R). destruct (open_file _ _ _ _ _ _ Hb R Fj eq_refl eq_refl) as (-> & t & F & W). clear Fj.
  destruct (anim_formats _ _ _ F W) as [[-> Wv]|N].
  - split; [|intros H; now elim H]. destruct (anim_v1_value _ Wv) as (a & V & _). unfold anim_data_read in L. rewrite R in L. cbn [bind fst snd Z.eqb Pos.eqb andb] in L.
    rewrite (un_v1 _ _ V) in L. cbn [bind] in L. apply bind_ok in L as (gs & _ & E). injection E as <-.
    destruct V as (name & u1 & u2 & u3 & ts & -> & _). pick idtac. apply shown_same.
  - assert (M : exists mi, version = (2, mi)) by (destruct N as [[-> _]|[-> _]]; eauto). destruct M as (mi & ->).
    destruct (anim_file _ _ _ Hb R) as (a & -> & Em & H). destruct (H order) as [H1 _]. apply H1 in L as (_ & _ & Ef & G). clear H H1 R.
    assert (Fg : Forall group_fits (an_groups a) /\ (content (ssbh_to_json (mkFile Anim (2, mi) (anim_val a))) =
      JObj (("final_frame_index", to_json SF32 (VInt (an_final a))) :: skipn 1 (match content (ssbh_to_json (mkFile Anim (2, mi) (anim_val a))) with JObj l => l | _ => [] end))%string) /\
      get "groups" (content (ssbh_to_json (mkFile Anim (2, mi) (anim_val a)))) = Some (JArr (map (to_json s_anim_Group) (map group_val (an_groups a))))).
    { destruct a as [amin final u1 u2 name groups buffer unk]. cbn [an_minor] in Em. subst amin.
      destruct N as [[[= ->] Wv]|[[= ->] Wv]].
      - split; [|split; reflexivity]. apply struct_inv in Wv as (vs & E & F2). unfold anim_val in E. injection E as <-. inv2.
        match goal with H : wt (TArr _) _ = true |- _ => apply arr_inv in H as (l & E & _ & A); injection E as <- end.
        apply Forall_forall. intros g I. rewrite forallb_forall in A. specialize (A _ (in_map group_val _ _ I)). now apply group_fits_any.
      - split; [|split; reflexivity]. apply struct_inv in Wv as (vs & E & F2). unfold anim_val in E. injection E as <-. inv2.
        match goal with H : wt (TArr _) _ = true |- _ => apply arr_inv in H as (l & E & _ & A); injection E as <- end.
        apply Forall_forall. intros g I. rewrite forallb_forall in A. specialize (A _ (in_map group_val _ _ I)). now apply group_fits_any. }
    destruct Fg as (Fg & Ec & Eg). split.
    + exists (to_json SF32 (VInt (ad_final m))), (to_json SF32 (VInt (an_final a))). split; [reflexivity|]. rewrite Ec, Ef. split; [reflexivity|apply shown_same].
    + intros _. rewrite map_map in Eg. refine (array_agree _ _ _ _ (map (fun g => to_json sd_group (group_doc g)) (ad_groups m)) _ _ Eg _).
      * change (get "groups" (data_json (DtAnim m))) with (Some (JArr (map (to_json sd_group) (map group_doc (ad_groups m))))). now rewrite map_map.
      * exact (pairs_agree group_fits (loaded_group (an_buffer a)) _ _ _ (group_shown (an_buffer a)) _ _ Fg G).
Qed.
