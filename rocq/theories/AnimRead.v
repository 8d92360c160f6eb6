(** Proofs about loading animation files. *)
From Coq Require Import Lia ZifyBool ZifyNat ZifyN Permutation String.
From Verif Require Import Bytes BytesFacts Ssbh File SsbhSpec SsbhFacts Formats FileFacts Strings AnimComp AnimBuf AnimFile SsbhLemmas FileSpec.
From Verif Require Import ReloadFacts ShdrFacts DecFacts AnimSpec TrackSpec TrackRead AnimReadSpec DataFuzz.
Ltac Zify.zify_post_hook ::= ZifyBool.elim_bool_cstr; Z.to_euclidean_division_equations.

#[local] Strategy opaque [typed_write typed_read].

(** ** Loops *)
Lemma mapM_ok {A B} (f : A -> res B) l : forall r, mapM f l = Ok r <-> Forall2 (fun x y => f x = Ok y) l r.
Proof.
  induction l as [|x l IH]; intros r; cbn [mapM].
  - split; [intros [= <-]; constructor|intros H; now inversion H].
  - split.
    + intros H. apply bind_inv in H as (y & E & H). apply bind_inv in H as (ys & E2 & [= <-]). constructor; auto. now apply IH.
    + intros H. inversion H as [|? y ? ys E F]; subst. rewrite E. cbn [bind]. apply IH in F. now rewrite F.
Qed.

Lemma first_bad_nil {A} (good bad : A -> Prop) : ~ first_bad good bad [].
Proof. intros (be & x & af & E & _). destruct be; discriminate. Qed.
Lemma first_bad_cons {A} (good bad : A -> Prop) x l : first_bad good bad (x :: l) <-> bad x \/ good x /\ first_bad good bad l.
Proof.
  split.
  - intros (be & y & af & E & G & B). destruct be as [|z be]; cbn in E; injection E as -> ->; [left; exact B|].
    inversion G; subst. right. split; auto. exists be, y, af. auto.
  - intros [B|(G & be & y & af & -> & F & B)].
    + exists [], x, l. auto.
    + exists (x :: be), y, af. auto.
Qed.
Lemma first_bad_app {A} (good bad : A -> Prop) l m :
  first_bad good bad (l ++ m) <-> first_bad good bad l \/ Forall good l /\ first_bad good bad m.
Proof.
  induction l as [|x l IH]; cbn [app].
  - split; [auto|]. intros [H|[_ H]]; auto. now apply first_bad_nil in H.
  - rewrite !first_bad_cons, IH. split.
    + intros [B|[G [H|[F H]]]]; auto.
    + intros [[B|[G H]]|[F H]]; auto. inversion F; subst. auto.
Qed.

Lemma mapM_total {A B} (f : A -> res B) l : (exists r, mapM f l = Ok r) <-> Forall (fun x => exists y, f x = Ok y) l.
Proof.
  split.
  - intros [r H]. apply mapM_ok in H. induction H; constructor; eauto.
  - induction 1 as [|x l [y E] _ [r IH]]; cbn [mapM]; [eauto|]. rewrite E. cbn [bind]. rewrite IH. cbn [bind]. eauto.
Qed.
Lemma mapM_panic {A B} (f : A -> res B) l :
  mapM f l = Panic <-> first_bad (fun x => exists y, f x = Ok y) (fun x => f x = Panic) l.
Proof.
  induction l as [|x l IH]; cbn [mapM].
  - split; [discriminate|]. intros H. now apply first_bad_nil in H.
  - rewrite first_bad_cons, <- IH. destruct (f x) as [y|e|] eqn:E; cbn [bind].
    + destruct (mapM f l); cbn [bind]; split; auto; try discriminate; try (intros [[=]|[_ [=]]]).
      intros _. right. eauto.
    + split; [discriminate|]. intros [[=]|[[y [=]] _]].
    + split; auto.
Qed.
(** A loop inside a loop over the parts [sub x] *)
Lemma mapM_sub {A B C D} (g : B -> res C) (sub : A -> list B) (f : A -> list C -> D) l :
  let step := fun x => bind (mapM g (sub x)) (fun r => Ok (f x r)) in
  (Forall (fun x => exists y, step x = Ok y) l <-> Forall (fun x => exists y, g x = Ok y) (concat (map sub l))) /\
  (first_bad (fun x => exists y, step x = Ok y) (fun x => step x = Panic) l <->
   first_bad (fun x => exists y, g x = Ok y) (fun x => g x = Panic) (concat (map sub l))).
Proof.
  intros step.
  assert (O : forall x, (exists y, step x = Ok y) <-> Forall (fun x => exists y, g x = Ok y) (sub x)).
  { intros x. rewrite <- mapM_total. unfold step. destruct (mapM g (sub x)); cbn; split; intros [y H]; eauto; discriminate. }
  assert (P : forall x, step x = Panic <-> first_bad (fun x => exists y, g x = Ok y) (fun x => g x = Panic) (sub x)).
  { intros x. rewrite <- mapM_panic. unfold step. destruct (mapM g (sub x)); cbn; split; intros H; auto; discriminate. }
  split.
  - induction l as [|x l IH]; cbn [map concat]; [split; constructor|]. rewrite Forall_app, <- IH, <- O. split.
    + intros H. inversion H; auto.
    + intros [H1 H2]. auto.
  - induction l as [|x l IH]; cbn [map concat].
    + split; intros H; now apply first_bad_nil in H.
    + rewrite first_bad_cons, first_bad_app, <- IH, <- P, <- O. tauto.
Qed.

(** ** Tracks *)
Lemma part_of_slice buffer o s : 0 <= o -> 0 <= s ->
  forall data, part_of buffer o s data <-> o + s <= zlen buffer /\ data = firstn (Z.to_nat s) (skipn (Z.to_nat o) buffer).
Proof.
  intros Ho Hs data. unfold part_of, zlen. split.
  - intros (L & be & af & -> & B). rewrite !app_length. split; [lia|].
    rewrite skipn_app. replace (Z.to_nat o - length be)%nat with 0%nat by lia. rewrite (skipn_all2 be) by lia. cbn [app skipn].
    rewrite firstn_app. replace (Z.to_nat s - length data)%nat with 0%nat by lia. rewrite firstn_all2 by lia. cbn [firstn]. now rewrite app_nil_r.
  - intros [L ->]. rewrite firstn_length, skipn_length. split; [lia|].
    exists (firstn (Z.to_nat o) buffer), (skipn (Z.to_nat s) (skipn (Z.to_nat o) buffer)). rewrite !firstn_skipn, firstn_length. split; auto. lia.
Qed.

Lemma flags_bits x d : tflags_of x = d <-> forall i, 0 <= i < 4 -> Z.testbit x i =
  nth (Z.to_nat i) [override_translation d; override_rotation d; override_scale d; override_compensate_scale d] false.
Proof.
  unfold tflags_of. split.
  - intros <- i Hi. assert (i = 0 \/ i = 1 \/ i = 2 \/ i = 3) as [->|[->|[->| ->]]] by lia; reflexivity.
  - intros H. destruct d as [a b c e]. cbn in H. rewrite (H 0), (H 1), (H 2), (H 3) by lia. reflexivity.
Qed.

Definition track_sound (t : track) : Prop := 0 <= tk_frames t /\ 0 <= tk_offset t /\ 0 <= tk_size t.

Section Buffer.
  Variable buffer : list Z.
  Hypothesis Hb : bytes_ok buffer = true.
  Hypothesis Hl : zlen buffer < two64.

  Lemma slice_ok o s : bytes_ok (firstn (Z.to_nat s) (skipn (Z.to_nat o) buffer)) = true.
  Proof.
    unfold bytes_ok in *. rewrite forallb_forall in *. intros x H. apply Hb.
    rewrite <- (firstn_skipn (Z.to_nat o) buffer). apply in_or_app. right.
    rewrite <- (firstn_skipn (Z.to_nat s) (skipn _ buffer)). apply in_or_app. now left.
  Qed.

  Lemma track_loads t d : track_sound t -> (create_track_data t buffer = Ok d <-> loaded_track buffer t d).
  Proof.
    intros (Hf & Ho & Hs). unfold create_track_data, loaded_track.
    rewrite <- flags_bits. setoid_rewrite (part_of_slice buffer (tk_offset t) (tk_size t) Ho Hs).
    destruct (Z.leb_spec two64 (tk_offset t + tk_size t)) as [C|C].
    { split; [discriminate|]. intros (_ & _ & data & (L & _) & _). lia. }
    destruct (Z.ltb_spec (zlen buffer) (tk_offset t + tk_size t)) as [C'|C'].
    { split; [discriminate|]. intros (_ & _ & data & (L & _) & _). lia. }
    set (data := firstn _ _). pose proof (track_read data (tk_frames t) (slice_ok _ _) Hf (tk_type t) (tk_comp t)) as R. split.
    - intros H. apply bind_inv in H as ([v c] & E & [= <-]). cbn. split; auto. split; auto. exists data. split; auto. now apply R.
    - intros (N & F & data' & [_ ->] & T). fold data in T. apply R in T. rewrite T. cbn [bind]. rewrite F, <- N. now destruct d.
  Qed.

  Lemma track_panic_iff t : track_sound t -> (create_track_data t buffer = Panic <-> panicking_track buffer t).
  Proof.
    intros (Hf & Ho & Hs). unfold create_track_data, panicking_track.
    setoid_rewrite (part_of_slice buffer (tk_offset t) (tk_size t) Ho Hs).
    destruct (Z.leb_spec two64 (tk_offset t + tk_size t)) as [C|C].
    { split; [discriminate|]. intros (data & (L & _) & _). lia. }
    destruct (Z.ltb_spec (zlen buffer) (tk_offset t + tk_size t)) as [C'|C'].
    { split; [discriminate|]. intros (data & (L & _) & _). lia. }
    set (data := firstn _ _). pose proof (track_panics data (tk_frames t) (slice_ok _ _) Hf (tk_type t) (tk_comp t)) as R. split.
    - intros H. exists data. split; auto. apply R. destruct (read_track_values data _ _ _) as [[]| |]; try discriminate. auto.
    - intros (data' & [_ ->] & T). fold data in T. apply R in T. now rewrite T.
  Qed.

  Lemma forall2_iff {A B} (P Q : A -> B -> Prop) (S : A -> Prop) l : (forall x y, S x -> (P x y <-> Q x y)) -> Forall S l ->
    forall m, Forall2 P l m <-> Forall2 Q l m.
  Proof.
    intros H F. induction F as [|x l Sx F IH]; intros m; split; intros G; inversion G; subst; constructor.
    1, 3: now apply H. all: now apply IH.
  Qed.

  Lemma node_loads n d : Forall track_sound (nd_tks n) ->
    (bind (mapM (fun t => create_track_data t buffer) (nd_tks n)) (fun tracks => Ok (ND (ssbh_to_string_lossy (nd_nm n)) tracks)) = Ok d
     <-> loaded_node buffer n d).
  Proof.
    intros F. unfold loaded_node.
    rewrite <- (forall2_iff (fun t d => create_track_data t buffer = Ok d) _ track_sound _ track_loads F), <- mapM_ok. split.
    - intros H. apply bind_inv in H as (ts & E & [= <-]). auto.
    - intros [N E]. rewrite E. cbn. rewrite <- N. now destruct d.
  Qed.
  Lemma group_loads g d : Forall (fun n => Forall track_sound (nd_tks n)) (gr_nodes g) ->
    (bind (mapM (fun n => bind (mapM (fun t => create_track_data t buffer) (nd_tks n))
                               (fun tracks => Ok (ND (ssbh_to_string_lossy (nd_nm n)) tracks))) (gr_nodes g))
          (fun nodes => Ok (GD (gr_type g) nodes)) = Ok d
     <-> loaded_group buffer g d).
  Proof.
    intros F. unfold loaded_group. rewrite <- (forall2_iff _ _ _ _ node_loads F), <- mapM_ok. split.
    - intros H. apply bind_inv in H as (ts & E & [= <-]). auto.
    - intros [N E]. rewrite E. cbn. rewrite <- N. now destruct d.
  Qed.
End Buffer.

(** ** Values of the format types *)
Lemma flags_any v : wt TrackFlags v = true -> exists t c, v = VStruct [VInt t; VInt c].
Proof.
  intros H. destruct v as [| |vs| | |]; try discriminate H. unfold TrackFlags, padded in H. rewrite wt_struct in H. cbn [map app wt_fields fst] in H.
  destruct vs as [|a [|c [|? ?]]]; try (cbn [wt_fields] in H; rewrite ?andb_false_r in H; discriminate H).
  cbn [wt_fields] in H. repeat rewrite andb_true_iff in H. destruct H as (Ha & Hc & _).
  destruct a; try discriminate Ha. destruct c; try discriminate Hc. eauto.
Qed.
Lemma bits_any n v : wt (TBits n) v = true -> exists x, v = VInt x.
Proof. destruct v; try discriminate 1. eauto. Qed.
Lemma repr_any s w l v : wt (TRepr s w l) v = true -> exists x, v = VInt x /\ In x l.
Proof.
  destruct v; try discriminate 1. cbn [wt]. intros H. exists n. split; [reflexivity|].
  apply existsb_exists in H as (y & Hy & E). apply Z.eqb_eq in E. now subst.
Qed.
Lemma bytes_any v : wt TBuf v = true -> exists b, v = VBytes b /\ bytes_ok b = true /\ zlen b < two64.
Proof. destruct v; try discriminate 1. cbn [wt]. intros H. exists bs. split; [reflexivity|]. lia. Qed.
Lemma forallb_ex {A B} (f : A -> bool) (P : A -> B -> Prop) l : (forall x, f x = true -> exists y, P x y) -> forallb f l = true ->
  exists m, Forall2 P l m.
Proof.
  intros H. induction l as [|x l IH]; cbn [forallb]; intros F; [exists []; constructor|].
  apply andb_true_iff in F as [F1 F2]. destruct (H x F1) as [y Hy]. destruct (IH F2) as [m Hm]. exists (y :: m). now constructor.
Qed.
Lemma forall2_map {A B} (f : B -> A) (S : B -> Prop) l m : Forall2 (fun v y => v = f y /\ S y) l m -> l = map f m /\ Forall S m.
Proof. induction 1 as [|v y l m [-> Sy] F [-> IH]]; cbn; auto. Qed.

Ltac ints := repeat match goal with
  | H : wt u16 ?v = true |- _ => apply int_any in H as (? & -> & ?)
  | H : wt u32 ?v = true |- _ => apply int_any in H as (? & -> & ?)
  | H : wt u64 ?v = true |- _ => apply int_any in H as (? & -> & ?)
  | H : wt f32 ?v = true |- _ => apply int_any in H as (? & -> & ?)
  end.
Lemma track_any v : wt TrackV2 v = true -> exists t, v = track_val t /\ track_sound t.
Proof.
  intros H. apply struct_inv in H as (vs & -> & F). inv2.
  match goal with H : wt TrackFlags _ = true |- _ => apply flags_any in H as (t & c & ->) end.
  match goal with H : wt TransformFlags _ = true |- _ => apply bits_any in H as (fl & ->) end.
  ints.
  eexists (Tk _ _ _ _ _ _ _). split; [reflexivity|]. unfold track_sound. cbn. lia.
Qed.
Lemma node_any v : wt Node v = true -> exists n, v = node_val n /\ Forall track_sound (nd_tks n).
Proof.
  intros H. apply struct_inv in H as (vs & -> & F). inv2.
  match goal with H : wt (TArr _) _ = true |- _ => apply arr_inv in H as (l & -> & _ & H) end.
  match goal with H : forallb _ _ = true |- _ => apply (forallb_ex _ _ _ track_any) in H as (m & H); apply forall2_map in H as [-> S] end.
  eexists (Nd _ m). split; [reflexivity|exact S].
Qed.
Lemma group_any v : wt Group v = true -> exists g, v = group_val g /\ Forall (fun n => Forall track_sound (nd_tks n)) (gr_nodes g).
Proof.
  intros H. apply struct_inv in H as (vs & -> & F). inv2.
  match goal with H : wt GroupType _ = true |- _ => apply repr_any in H as (t & -> & _) end.
  match goal with H : wt (TArr _) _ = true |- _ => apply arr_inv in H as (l & -> & _ & H) end.
  match goal with H : forallb _ _ = true |- _ => apply (forallb_ex _ _ _ node_any) in H as (m & H); apply forall2_map in H as [-> S] end.
  eexists (Gr _ m). split; [reflexivity|exact S].
Qed.

Definition anim_sound (a : anim) : Prop :=
  Forall (fun g => Forall (fun n => Forall track_sound (nd_tks n)) (gr_nodes g)) (an_groups a) /\
  bytes_ok (an_buffer a) = true /\ zlen (an_buffer a) < two64.
Lemma anim_formats version t v : format Anim version = Some t -> wt t v = true ->
  version = (1, 2) /\ wt Anim_V12 v = true \/ version = (2, 0) /\ wt Anim_V20 v = true \/ version = (2, 1) /\ wt Anim_V21 v = true.
Proof.
  intros F W. destruct version as [ma mi]. cbn in F. unfold ver_eqb in F. cbn [fst snd] in F.
  destruct ((ma =? 1) && (mi =? 2)) eqn:E1; [injection F as <-; left; split; auto; f_equal; lia|].
  destruct ((ma =? 2) && (mi =? 0)) eqn:E2; [injection F as <-; right; left; split; auto; f_equal; lia|].
  destruct ((ma =? 2) && (mi =? 1)) eqn:E3; [injection F as <-; right; right; split; auto; f_equal; lia|discriminate F].
Qed.
Lemma anim_typed b version v : bytes_ok b = true -> typed_read Anim b = Ok (version, v) -> exists t, format Anim version = Some t /\ wt t v = true.
Proof. intros Hb E. apply typed_read_ok in E as (t & F & W); [|exact Hb]. cbn [fkind fver fbody] in *. eauto. Qed.
Lemma anim_version b version v : bytes_ok b = true -> typed_read Anim b = Ok (version, v) ->
  version = (1, 2) /\ wt Anim_V12 v = true \/ version = (2, 0) /\ wt Anim_V20 v = true \/ version = (2, 1) /\ wt Anim_V21 v = true.
Proof. intros Hb E. destruct (anim_typed _ _ _ Hb E) as (t & F & W). eapply anim_formats; eauto. Qed.

Lemma un_tracks ts : un_list un_track (map track_val ts) = Ok ts.
Proof. induction ts as [|[] ts IH]; [reflexivity|]. cbn [map un_list]. rewrite IH. reflexivity. Qed.
Lemma un_nodes ns : un_list un_node (map node_val ns) = Ok ns.
Proof. induction ns as [|[] ns IH]; [reflexivity|]. cbn [map un_list]. rewrite IH. cbn [node_val un_node AnimBuf.nd_nm AnimBuf.nd_tks]. now rewrite un_tracks. Qed.
Lemma un_groups gs : un_list un_group (map group_val gs) = Ok gs.
Proof. induction gs as [|[] gs IH]; [reflexivity|]. cbn [map un_list]. rewrite IH. cbn [group_val un_group AnimBuf.gr_type AnimBuf.gr_nodes]. now rewrite un_nodes. Qed.

Lemma anim_value t m v : format Anim (2, m) = Some t -> wt t v = true ->
  exists a, v = anim_val a /\ an_minor a = m /\ un_anim (2, m) v = Ok a /\ anim_sound a.
Proof.
  intros Hb E. pose proof (anim_formats _ _ _ Hb E) as E'. clear E. rename E' into E. destruct E as [[[=] _]|[[[= ->] W]|[[= ->] W]]]; auto.
  - apply struct_inv in W as (vs & -> & F). inv2.
    match goal with H : wt (TArr _) _ = true |- _ => apply arr_inv in H as (l & -> & _ & H) end.
    match goal with H : wt TBuf _ = true |- _ => apply bytes_any in H as (bf & -> & Bb & Bl) end.
    match goal with H : forallb _ _ = true |- _ => apply (forallb_ex _ _ _ group_any) in H as (gs & H); apply forall2_map in H as [-> S] end.
    ints.
    eexists (An 0 _ _ _ _ gs bf (VStruct [VArr []; VArr []])). split; [reflexivity|]. split; [reflexivity|].
    split; [cbn [un_anim]; now rewrite un_groups|]. repeat apply conj; auto.
  - apply struct_inv in W as (vs & -> & F). inv2.
    match goal with H : wt (TArr _) _ = true |- _ => apply arr_inv in H as (l & -> & _ & H) end.
    match goal with H : wt TBuf _ = true |- _ => apply bytes_any in H as (bf & -> & Bb & Bl) end.
    match goal with H : forallb _ _ = true |- _ => apply (forallb_ex _ _ _ group_any) in H as (gs & H); apply forall2_map in H as [-> S] end.
    ints.
    eexists (An 1 _ _ _ _ gs bf _). split; [reflexivity|]. split; [reflexivity|].
    split; [cbn [un_anim]; rewrite un_groups; reflexivity|]. repeat apply conj; auto.
Qed.

Lemma anim_any b m v : bytes_ok b = true -> typed_read Anim b = Ok ((2, m), v) ->
  exists a, v = anim_val a /\ an_minor a = m /\ un_anim (2, m) v = Ok a /\ anim_sound a.
Proof. intros Hb E. destruct (anim_typed _ _ _ Hb E) as (t & F & W). eapply anim_value; eauto. Qed.

(** ** Versions 2.0 and 2.1 *)
Lemma first_bad_iff {A} (G G' B B' : A -> Prop) l : Forall (fun x => (G x <-> G' x) /\ (B x <-> B' x)) l ->
  (first_bad G B l <-> first_bad G' B' l).
Proof.
  induction 1 as [|x l [H1 H2] F IH].
  - split; intros H; now apply first_bad_nil in H.
  - rewrite !first_bad_cons. tauto.
Qed.

Theorem anim_converts ty m v : format Anim (2, m) = Some ty -> wt ty v = true ->
  exists a, v = anim_val a /\ an_minor a = m /\ forall order,
    (forall d, anim_to_data order (2, m) v = Ok d <-> loaded_anim a d) /\
    (anim_to_data order (2, m) v = Panic <-> first_bad (readable_track (an_buffer a)) (panicking_track (an_buffer a)) (file_tracks a)).
Proof.
  intros Hb E. destruct (anim_value _ _ _ Hb E) as (a & -> & Hm & U & S & B & L). exists a. split; auto. split; auto. intros order.
  unfold anim_to_data. cbn [bind fst snd]. change ((2 =? 1) && (m =? 2)) with false. cbn [andb Z.eqb Pos.eqb].
  rewrite U. cbn [bind]. unfold read_anim, read_groups. split.
  - intros d. unfold loaded_anim. rewrite <- (forall2_iff _ _ _ _ (group_loads _ B L) S), <- mapM_ok. split.
    + intros H. apply bind_inv in H as (gs & G & [= <-]). auto.
    + intros (H1 & H2 & H3 & G). rewrite G. cbn [bind]. rewrite <- H2, <- H3, <- H1. now destruct d.
  - assert (R : forall r : res (list group_data), bind r (fun gs => Ok (AD 2 (an_minor a) (an_final a) gs)) = Panic <-> r = Panic).
    { intros []; cbn; split; auto; discriminate. }
    rewrite R, mapM_panic. unfold file_tracks.
    match goal with |- context [mapM ?f (nd_tks _)] => set (tr := f) end.
    destruct (mapM_sub (fun n => bind (mapM tr (nd_tks n)) (fun tracks => Ok (ND (ssbh_to_string_lossy (nd_nm n)) tracks)))
      gr_nodes (fun g nodes => GD (gr_type g) nodes) (an_groups a)) as [_ P1]. cbn in P1. rewrite P1. clear P1.
    destruct (mapM_sub tr nd_tks (fun n tracks => ND (ssbh_to_string_lossy (nd_nm n)) tracks) (concat (map gr_nodes (an_groups a)))) as [_ P2].
    cbn in P2. rewrite P2. clear P2.
    assert (C : concat (map nd_tks (concat (map gr_nodes (an_groups a)))) =
                concat (map (fun g => concat (map nd_tks (gr_nodes g))) (an_groups a))).
    { clear. induction (an_groups a) as [|g gs IH]; [reflexivity|]. cbn [map concat]. now rewrite map_app, concat_app, IH. }
    rewrite C. clear C. apply first_bad_iff. apply Forall_forall. intros t Ht.
    assert (T : track_sound t).
    { apply in_concat in Ht as (ts & H1 & H2). apply in_map_iff in H1 as (g & <- & Hg). apply in_concat in H2 as (us & H3 & H4).
      apply in_map_iff in H3 as (n & <- & Hn). rewrite Forall_forall in S. specialize (S _ Hg). rewrite Forall_forall in S.
      specialize (S _ Hn). rewrite Forall_forall in S. auto. }
    unfold tr, readable_track. split; [|now apply track_panic_iff].
    split; intros [d H]; exists d; now apply (track_loads _ B L).
Qed.
Theorem anim_file b m v : bytes_ok b = true -> typed_read Anim b = Ok ((2, m), v) ->
  exists a, v = anim_val a /\ an_minor a = m /\ forall order,
    (forall d, anim_data_read order b = Ok d <-> loaded_anim a d) /\
    (anim_data_read order b = Panic <-> first_bad (readable_track (an_buffer a)) (panicking_track (an_buffer a)) (file_tracks a)).
Proof.
  intros Hb E. destruct (anim_typed _ _ _ Hb E) as (t & F & W). destruct (anim_converts _ _ _ F W) as (a & V & M & H). exists a. split; auto. split; auto.
  intros order. rewrite anim_data_read_eq, E. cbn [bind]. apply H.
Qed.

(** ** Version 1.2 *)
Lemma property_any v : wt Property v = true -> exists i, property_val v i /\ 0 <= i.
Proof.
  intros H. apply struct_inv in H as (vs & -> & F). inv2.
  match goal with H : wt u64 _ = true |- _ => apply int_any in H as (i & -> & Hi) end.
  exists i. split; [|lia]. eexists. reflexivity.
Qed.
Definition v1_sound (t : track_v1) : Prop := In (v1_type t) [0; 2; 5] /\ Forall (fun i => 0 <= i) (v1_properties t).
Lemma forall2_and {A B} (P : A -> B -> Prop) (S : B -> Prop) l m : Forall2 (fun v y => P v y /\ S y) l m -> Forall2 P l m /\ Forall S m.
Proof. induction 1 as [|v y l m [Pv Sy] F [IH1 IH2]]; auto. Qed.
Lemma track_v1_any v : wt TrackV1 v = true -> exists t, track_v1_val v t /\ v1_sound t.
Proof.
  intros H. apply struct_inv in H as (vs & -> & F). inv2.
  match goal with H : wt TrackTypeV1 _ = true |- _ => apply repr_any in H as (t & -> & Ht) end.
  match goal with H : wt (TArr _) _ = true |- _ => apply arr_inv in H as (l & -> & _ & H) end.
  match goal with H : forallb _ _ = true |- _ => apply (forallb_ex _ _ _ property_any) in H as (m & H); apply forall2_and in H as [P1 P2] end.
  eexists (TV1 _ t m). split; [eexists; split; [reflexivity|exact P1]|]. split; auto.
Qed.
Definition anim_v1_sound (a : anim_v1) : Prop :=
  Forall v1_sound (av1_tracks a) /\ Forall (fun b => bytes_ok b = true) (av1_buffers a).
Lemma anim_v1_value v : wt Anim_V12 v = true -> exists a, anim_v1_val v a /\ anim_v1_sound a.
Proof.
  intros W.
  apply struct_inv in W as (vs & -> & F). inv2.
  match goal with H : wt (TArr TrackV1) _ = true |- _ => apply arr_inv in H as (l & -> & _ & H) end.
  match goal with H : forallb _ _ = true |- _ => apply (forallb_ex _ _ _ track_v1_any) in H as (ts & H); apply forall2_and in H as [T1 T2] end.
  match goal with H : wt (TArr TBuf) _ = true |- _ => apply arr_inv in H as (bl & -> & _ & H) end.
  match goal with H : forallb _ _ = true |- _ =>
    apply (forallb_ex _ (fun v b => v = VBytes b /\ bytes_ok b = true)) in H as (bs & H);
      [apply forall2_map in H as [-> S]|intros x Hx; apply bytes_any in Hx as (c & -> & Hc & _); eauto] end.
  ints.
  eexists (AV1 _ ts bs). split; [do 5 eexists; split; [reflexivity|exact T1]|]. split; auto.
Qed.

Lemma un_properties ps is : Forall2 property_val ps is -> un_list un_property ps = Ok is.
Proof. induction 1 as [|v i ps is [n ->] F IH]; [reflexivity|]. cbn [un_list un_property bind]. now rewrite IH. Qed.
Lemma un_tracks_v1 vs ts : Forall2 track_v1_val vs ts -> un_list un_track_v1 vs = Ok ts.
Proof.
  induction 1 as [|v t vs ts (ps & -> & P) F IH]; [reflexivity|]. cbn [un_list un_track_v1]. apply un_properties in P. rewrite P.
  cbn [bind]. rewrite IH. now destruct t.
Qed.
Lemma un_buffers bs : un_list un_bytes (map VBytes bs) = Ok bs.
Proof. induction bs as [|b bs IH]; [reflexivity|]. cbn [map un_list un_bytes bind]. now rewrite IH. Qed.
Lemma un_v1 v a : anim_v1_val v a -> un_anim_v1 v = Ok a.
Proof.
  intros (name & u1 & u2 & u3 & ts & -> & T). cbn [un_anim_v1]. apply un_tracks_v1 in T. rewrite T. cbn [bind].
  rewrite un_buffers. now destruct a.
Qed.

Lemma skip_ok b p n q : skip_bytes b p n = Ok q <-> p + n <= zlen b /\ q = p + n.
Proof.
  unfold skip_bytes. destruct (Z.ltb_spec (zlen b) (p + n)); split; try discriminate; try lia.
  - intros [= <-]. lia.
  - intros [_ ->]. reflexivity.
Qed.
Lemma skip_fits b p n : p + n <= zlen b -> skip_bytes b p n = Ok (p + n).
Proof. intros H. now apply skip_ok. Qed.

Ltac sizes := intros size HI; cbn [In v12_sizes] in HI;
  repeat match goal with H : _ \/ _ |- _ => destruct H as [H|H] end; try contradiction;
  match goal with H : (_, _) = (_, _) |- _ => injection H; intros; lia end.

Lemma read_property_ok buffers i : 0 <= i -> (read_property buffers i = Ok tt <-> property_sound buffers i).
Proof.
  intros Hi. unfold read_property, property_sound.
  destruct (Z.leb_spec (zlen buffers) i) as [L|L].
  { split; [discriminate|]. intros (d & h & N & _). exfalso. assert (S : nth_error buffers (Z.to_nat i) <> None) by congruence.
    apply nth_error_Some in S. unfold zlen in *. lia. }
  destruct (nth_error buffers (Z.to_nat i)) as [data|] eqn:N; [|apply nth_error_None in N; unfold zlen in *; lia].
  rewrite (nth_error_nth _ _ [] N). split.
  - intros H. apply bind_inv in H as ([header p] & E & H). apply read_int_at in E as [U ->]; [|lia].
    exists data, header. split; auto. split; auto.
    assert (Hl : 0 + 4 <= zlen data) by (eapply uint_end; eauto; lia). clear Hi L N U.
    destruct (Z.eqb_spec header 0x1003); [|destruct (Z.eqb_spec header 0x2003); [|destruct (Z.eqb_spec header 0x3003);
      [|destruct (Z.eqb_spec header 0x4003); [|destruct (Z.eqb_spec header 0x1013); [|destruct (Z.eqb_spec header 0x3409);
      [|destruct (Z.eqb_spec header 0x4308); [|destruct (Z.eqb_spec header 0x4409)]]]]]]];
      try (apply bind_inv in H as (q & E & _); apply skip_ok in E as [E _]; split; [sizes|lia]).
    + split; [sizes|]. intros _. apply bind_inv in H as ([count p] & E & H). apply read_int_at in E as [U ->]; [|lia].
      apply bind_inv in H as (q & E & H). apply skip_ok in E as [_ ->].
      apply bind_inv in H as (q & E & H). apply skip_ok in E as [_ ->].
      apply bind_inv in H as (q & E & H). apply skip_ok in E as [E _].
      destruct (Z.ltb_spec (zlen data) (72 + 4)); [discriminate|]. split; [lia|].
      exists count, ((0 + 4 + 4 + 4 + count + 3) / 4 * 4). split; [exact U|]. split; [exists ((0 + 4 + 4 + 4 + count + 3) / 4); lia|]. lia.
    + split; [sizes|lia].
  - intros (data' & header & [= <-] & U & S & X). rewrite (ruint 4 data 0 header) by (auto; lia). cbn [bind].
    assert (S' : forall k s, header = k -> In (k, s) v12_sizes -> skip_bytes data (0 + 4) s = Ok (0 + 4 + s)).
    { intros k s -> I. apply skip_fits. apply S in I. lia. }
    destruct (Z.eqb_spec header 0x1003); [erewrite S' by (eauto; cbn; auto 9); reflexivity|].
    destruct (Z.eqb_spec header 0x2003); [erewrite S' by (eauto; cbn; auto 9); reflexivity|].
    destruct (Z.eqb_spec header 0x3003); [erewrite S' by (eauto; cbn; auto 9); reflexivity|].
    destruct (Z.eqb_spec header 0x4003); [erewrite S' by (eauto; cbn; auto 9); reflexivity|].
    destruct (Z.eqb_spec header 0x1013); [erewrite S' by (eauto; cbn; auto 9); reflexivity|].
    destruct (Z.eqb_spec header 0x3409); [erewrite S' by (eauto; cbn; auto 9); reflexivity|].
    destruct (Z.eqb_spec header 0x4308) as [E|].
    { destruct (X E) as (L76 & count & al & C & [z Dz] & Al & End). rewrite (ruint 4 data (0 + 4) count) by (auto; lia). cbn [bind].
      rewrite skip_fits by lia. cbn [bind]. rewrite skip_fits by lia. cbn [bind].
      rewrite skip_fits by lia. cbn [bind]. destruct (Z.ltb_spec (zlen data) (72 + 4)); [lia|reflexivity]. }
    destruct (Z.eqb_spec header 0x4409); [erewrite S' by (eauto; cbn; auto 9); reflexivity|]. reflexivity.
Qed.

Definition v12_node (t : track_v1) : Z * node_data :=
  (group_type_v12 (v1_type t),
   ND (ssbh_to_string_lossy (v1_name t)) [TD (track_name_v12 (v1_type t)) false (TF false false false false) (TvFloat [])]).
Definition v12_step (buffers : list (list Z)) (t : track_v1) : res (Z * node_data) :=
  let* track := unwrap (create_track_data_v12 buffers t) in
  Ok (group_type_v12 (v1_type t), ND (ssbh_to_string_lossy (v1_name t)) [track]).

Lemma v12_step_node buffers t n : v12_step buffers t = Ok n -> n = v12_node t.
Proof.
  unfold v12_step, create_track_data_v12, v12_node. destruct (mapM _ _); cbn; try discriminate. now intros [= <-].
Qed.
Lemma v12_step_ok buffers t : Forall (fun i => 0 <= i) (v1_properties t) ->
  ((exists n, v12_step buffers t = Ok n) <-> Forall (property_sound buffers) (v1_properties t)).
Proof.
  intros P. transitivity (exists r, mapM (read_property buffers) (v1_properties t) = Ok r).
  - unfold v12_step, create_track_data_v12. destruct (mapM _ _); cbn; split; intros [x H]; eauto; discriminate.
  - rewrite mapM_total, !Forall_forall. rewrite Forall_forall in P. split; intros H i Hi.
    + destruct (H i Hi) as [[] E]. apply read_property_ok; auto.
    + exists tt. apply read_property_ok; auto.
Qed.
Lemma v12_step_err buffers t e : v12_step buffers t <> Err e.
Proof. unfold v12_step. destruct (create_track_data_v12 buffers t); discriminate. Qed.
Lemma mapM_no_err {A B} (f : A -> res B) l : (forall x e, f x <> Err e) -> forall e, mapM f l <> Err e.
Proof.
  intros H. induction l as [|x l IH]; intros e; cbn [mapM]; [discriminate|]. destruct (f x) eqn:E; cbn [bind]; try discriminate.
  - destruct (mapM f l) eqn:M; cbn; try discriminate. intros [= ->]. now apply (IH e).
  - now apply H in E.
Qed.

Lemma v12_nodes buffers ts ns : mapM (v12_step buffers) ts = Ok ns -> ns = map v12_node ts.
Proof.
  intros H. apply mapM_ok in H. induction H as [|t n ts ns E F IH]; [reflexivity|]. cbn [map]. now rewrite <- (v12_step_node _ _ _ E), IH.
Qed.

Lemma v12_kind t : In t [0; 2; 5] -> In (t, group_type_v12 t, track_name_v12 t) v12_kinds.
Proof. cbn [In]. intros [<-|[<-|[<-|[]]]]; vm_compute; auto. Qed.
Lemma v12_filter t ts : In t [0; 2; 5] -> Forall v1_sound ts ->
  map snd (filter (fun n => fst n =? group_type_v12 t) (map v12_node ts)) =
  map (fun x => ND (ssbh_to_string_lossy (v1_name x)) [TD (track_name_v12 t) false (TF false false false false) (TvFloat [])])
      (filter (fun x => v1_type x =? t) ts).
Proof.
  intros Ht. induction 1 as [|x ts [Hx _] F IH]; [reflexivity|]. cbn [map filter v12_node fst].
  assert (E : (group_type_v12 (v1_type x) =? group_type_v12 t) = (v1_type x =? t)).
  { cbn [In] in *. destruct Ht as [<-|[<-|[<-|[]]]], Hx as [<-|[<-|[<-|[]]]]; reflexivity. }
  rewrite E. destruct (Z.eqb_spec (v1_type x) t) as [T|T]; [|exact IH]. subst t. cbn [map snd]. rewrite IH. reflexivity.
Qed.

Theorem anim_converts_v12 v : wt Anim_V12 v = true ->
  exists a, anim_v1_val v a /\ forall order, (forall l, Permutation l (order l)) ->
    ((exists d, anim_to_data order (1, 2) v = Ok d) <->
       Forall (fun t => Forall (property_sound (av1_buffers a)) (v1_properties t)) (av1_tracks a)) /\
    (forall d, anim_to_data order (1, 2) v = Ok d -> loaded_v12 a d) /\
    (forall e, anim_to_data order (1, 2) v <> Err e).
Proof.
  intros W. destruct (anim_v1_value _ W) as (a & V & S & B). exists a. split; auto. intros order O.
  unfold anim_to_data. cbn [bind fst snd Z.eqb Pos.eqb andb]. rewrite (un_v1 _ _ V). cbn [bind].
  unfold read_groups_v12. fold (v12_step (av1_buffers a)). split; [|split].
  - transitivity (exists ns, mapM (v12_step (av1_buffers a)) (av1_tracks a) = Ok ns).
    + destruct (mapM _ _); cbn; split; intros [x H]; eauto; discriminate.
    + rewrite mapM_total, !Forall_forall. rewrite Forall_forall in S. split; intros H t Ht; destruct (S t Ht) as [_ P].
      * apply (v12_step_ok _ _ P). auto.
      * apply (v12_step_ok _ _ P). auto.
  - intros d H. apply bind_inv in H as (gs & G & [= <-]). apply bind_inv in G as (ns & N & [= <-]).
    apply v12_nodes in N as ->. split; [reflexivity|]. split; [reflexivity|]. split; [reflexivity|]. cbn [ad_groups].
    set (keys := nodup Z.eq_dec (map fst (map v12_node (av1_tracks a)))).
    assert (K : forall k, In k (order keys) <-> exists x, In x (av1_tracks a) /\ k = group_type_v12 (v1_type x)).
    { intros k. split.
      - intros H. apply (Permutation_in _ (Permutation_sym (O keys))) in H. unfold keys in H. apply nodup_In in H.
        rewrite map_map in H. apply in_map_iff in H as (x & <- & Hx). eauto.
      - intros (x & Hx & ->). apply (Permutation_in _ (O keys)). unfold keys. apply nodup_In. rewrite map_map.
        apply in_map_iff. exists x. auto. }
    rewrite Forall_forall in S. split; [|split].
    + rewrite map_map. cbn [gd_type]. rewrite map_id. eapply Permutation_NoDup; [apply O|]. apply NoDup_nodup.
    + intros g Hg. apply in_map_iff in Hg as (k & <- & Hk). apply K in Hk as (x & Hx & ->). destruct (S x Hx) as [T _].
      exists (v1_type x), (track_name_v12 (v1_type x)). cbn [gd_type gd_nodes]. split; [now apply v12_kind|].
      rewrite (v12_filter _ _ T) by now apply Forall_forall. split; [|reflexivity]. intros C. apply map_eq_nil in C.
      assert (I : In x (filter (fun y => v1_type y =? v1_type x) (av1_tracks a))) by (apply filter_In; split; auto; apply Z.eqb_refl).
      rewrite C in I. contradiction.
    + intros x Hx. destruct (S x Hx) as [T _]. eexists (track_name_v12 (v1_type x)), _. split.
      * apply in_map_iff. exists (group_type_v12 (v1_type x)). split; [reflexivity|]. apply K. eauto.
      * cbn [gd_type]. now apply v12_kind.
  - intros e. destruct (mapM (v12_step (av1_buffers a)) (av1_tracks a)) eqn:M; cbn; try discriminate.
    exfalso. revert M. apply mapM_no_err. intros. apply v12_step_err.
Qed.

Theorem anim_file_v12 b v : bytes_ok b = true -> typed_read Anim b = Ok ((1, 2), v) ->
  exists a, anim_v1_val v a /\ forall order, (forall l, Permutation l (order l)) ->
    ((exists d, anim_data_read order b = Ok d) <->
       Forall (fun t => Forall (property_sound (av1_buffers a)) (v1_properties t)) (av1_tracks a)) /\
    (forall d, anim_data_read order b = Ok d -> loaded_v12 a d) /\
    (forall e, anim_data_read order b <> Err e).
Proof.
  intros Hb E. pose proof (anim_version _ _ _ Hb E) as [[_ W]|[[[=] _]|[[=] _]]]. destruct (anim_converts_v12 _ W) as (a & V & H). exists a. split; auto.
  intros order O. rewrite anim_data_read_eq, E. cbn [bind]. now apply H.
Qed.

Theorem v12_not_saved order b v d : bytes_ok b = true -> typed_read Anim b = Ok ((1, 2), v) ->
  anim_data_read order b = Ok d -> anim_data_write d = Err (EData DVersion).
Proof.
  intros Hb E. unfold anim_data_read. rewrite E. cbn [bind fst snd Z.eqb Pos.eqb andb]. intros H.
  apply bind_inv in H as (a & _ & H). apply bind_inv in H as (gs & _ & E2). injection E2 as <-. reflexivity.
Qed.
