(** Rigging: weights, influences, groups. *)
From Coq Require Import Lia ZifyBool ZifyNat ZifyN Permutation Sorted.
From Verif Require Import Bytes BytesFacts Ssbh Formats File FileFacts Strings AnimBuf AnimSpec DataSpec VecData MeshData MeshSpec
  AnimFacts AnimDataFacts SmallDataFacts MeshFacts.
Ltac Zify.zify_post_hook ::= ZifyBool.elim_bool_cstr; Z.to_euclidean_division_equations.

(** ** Weights *)

Lemma weights_v10_iff l : (exists bs, create_vertex_weights_v10 l = Ok bs) <-> forall w, In w l -> wt_index w < 65536.
Proof.
  induction l as [|w l IH]; cbn [create_vertex_weights_v10]; [split; [intros _ ? []|eauto]|].
  change (2 ^ 16) with 65536. split.
  - intros [bs E]. destruct (Z.ltb_spec (wt_index w) 65536); [|discriminate]. apply bind_ok in E as (bs' & E & _).
    intros x [<-|Hx]; [auto|]. apply IH; eauto.
  - intros H. destruct (proj2 IH) as [bs E]; [intros; apply H; right; auto|]. rewrite E. cbn [bind].
    destruct (Z.ltb_spec (wt_index w) 65536); [eauto|]. specialize (H w (or_introl eq_refl)). lia.
Qed.
Lemma weights_v10_err l : create_vertex_weights_v10 l = Err (EData DWeightIndex) \/ exists bs, create_vertex_weights_v10 l = Ok bs.
Proof.
  induction l as [|w l IH]; cbn [create_vertex_weights_v10]; [eauto|]. destruct (wt_index w <? 2 ^ 16); [|auto].
  destruct IH as [->|[bs ->]]; cbn [bind]; eauto.
Qed.

Lemma le_bytes2 x : exists a b, le_bytes 2 x = [a; b].
Proof. cbn [le_bytes]. eauto. Qed.
Lemma le_bytes4 x : exists a b c d, le_bytes 4 x = [a; b; c; d].
Proof. cbn [le_bytes]. do 4 eexists. reflexivity. Qed.

Lemma weights_v10_read l bs : forallb weight_ok l = true -> create_vertex_weights_v10 l = Ok bs ->
  weights_of_bytes bs = l /\ zlen bs = 6 * zlen l.
Proof.
  revert bs; induction l as [|w l IH]; intros bs F E; cbn [create_vertex_weights_v10 forallb] in *; [injection E as <-; auto|].
  change (2 ^ 16) with 65536 in E. destruct (Z.ltb_spec (wt_index w) 65536); [|discriminate]. apply bind_ok in E as (r & E & E2).
  match type of E2 with Ok ?x = Ok _ => assert (Eb : bs = x) by congruence end. clear E2. subst bs. apply andb_prop in F as [Fw F]. destruct (IH r F E) as [IH1 IH2].
  unfold weight_ok in Fw. apply andb_prop in Fw as [F1 F2]. apply is32_range in F1. apply is32_range in F2.
  pose proof (le_val_le_bytes 2 (wt_index w)) as V2. pose proof (le_val_le_bytes 4 (wt_weight w)) as V4.
  destruct (le_bytes2 (wt_index w)) as (a & b & E2). destruct (le_bytes4 (wt_weight w)) as (c & d & e & f & E4).
  rewrite !zlen_app, !zlen_le_bytes, IH2, zlen_cons. split; [|lia].
  rewrite E2, E4 in *. cbn [app]. cbn [weights_of_bytes]. rewrite V2, V4, IH1; [now destruct w| |]; [change (256 ^ Z.of_nat 4) with (2 ^ 32)|change (256 ^ Z.of_nat 2) with 65536]; lia.
Qed.

Lemma from_weights_iff ver l : (exists v, from_weights ver l = Ok v) <-> (ver = MV10 -> forall w, In w l -> wt_index w < 65536).
Proof.
  unfold from_weights. destruct ver; [split; [intros _; discriminate|eauto]..|].
  - rewrite <- weights_v10_iff. split.
    + intros [v E] _. apply bind_ok in E as (bs & E & _). eauto.
    + intros H. destruct (H eq_refl) as [bs ->]. cbn [bind]. eauto.
Qed.
Lemma to_weights_from ver l v : forallb weight_ok l = true -> from_weights ver l = Ok v -> to_weights ver v = Ok l.
Proof.
  intros F E. unfold from_weights in E.
  assert (U : un_list un_weight (map (fun w => VStruct [VInt (wt_index w); VInt (wt_weight w)]) l) = Ok l).
  { apply un_list_map. intros w _. now destruct w. }
  destruct ver; [injection E as <-; exact U|injection E as <-; exact U|].
  apply bind_ok in E as (bs & E & [= <-]). cbn [to_weights]. now destruct (weights_v10_read l bs F E) as [-> _].
Qed.

(** ** Influences and groups *)

Lemma to_str_text s : text_ok s = true -> ssbh_to_str (ssbh_string s) = Some s.
Proof.
  intros H. apply andb_true_iff in H as [U N]. unfold ssbh_string, ssbh_to_str, cstring_to_str.
  rewrite from_bytes_id by auto. now rewrite U.
Qed.

Lemma bone_buffers_read ver l vs : forallb inf_ok l = true -> bone_buffers ver l = Ok vs -> un_list (un_influence ver) vs = Ok l.
Proof.
  revert vs; induction l as [|i l IH]; intros vs F E; cbn [bone_buffers forallb] in *; [injection E as <-; reflexivity|].
  apply andb_prop in F as [Fi F]. apply bind_ok in E as (w & Ew & E). apply bind_ok in E as (rest & Er & [= <-]).
  cbn [un_list un_influence]. unfold inf_ok in Fi. sp Fi. rewrite to_str_text by auto.
  rewrite (to_weights_from ver _ w Fi0 Ew). cbn [bind]. rewrite (IH rest F Er). cbn [bind]. now destruct i.
Qed.
Definition infs_fit (ver : mesh_version) (l : list bone_influence) : Prop :=
  ver = MV10 -> forall i w, In i l -> In w (inf_weights i) -> wt_index w < 65536.
Lemma bone_buffers_iff ver l : (exists vs, bone_buffers ver l = Ok vs) <-> infs_fit ver l.
Proof.
  unfold infs_fit. induction l as [|i l IH]; cbn [bone_buffers]; [split; [intros _ _ ? ? []|eauto]|]. split.
  - intros [vs E]. apply bind_ok in E as (w & Ew & E). apply bind_ok in E as (r & Er & _).
    intros V j x [<-|Hj] Hx; [|eapply (proj1 IH); eauto]. eapply (proj1 (from_weights_iff ver (inf_weights i))); eauto.
  - intros H. destruct (proj2 (from_weights_iff ver (inf_weights i))) as [w ->]; [intros V x; apply (H V i x); left; reflexivity|].
    cbn [bind]. destruct (proj2 IH) as [r ->]; [intros V j x Hj; apply (H V j x); right; auto|]. cbn [bind]. eauto.
Qed.
Lemma bone_buffers_err ver l : bone_buffers ver l = Err (EData DWeightIndex) \/ exists vs, bone_buffers ver l = Ok vs.
Proof.
  induction l as [|i l IH]; cbn [bone_buffers]; [eauto|].
  assert (W : from_weights ver (inf_weights i) = Err (EData DWeightIndex) \/ exists v, from_weights ver (inf_weights i) = Ok v).
  { unfold from_weights. destruct ver; eauto. destruct (weights_v10_err (inf_weights i)) as [->|[bs ->]]; cbn [bind]; eauto. }
  destruct W as [->|[w ->]]; cbn [bind]; [auto|]. destruct IH as [->|[r ->]]; cbn [bind]; eauto.
Qed.

Definition group_of (ver : mesh_version) (o : mesh_object) (g : val) : Prop :=
  exists bufs, bone_buffers ver (ob_influences o) = Ok bufs /\
    g = VStruct [ssbh_string (ob_name o); VInt (ob_subindex o);
                 VStruct [VInt (calculate_max_influences (ob_influences o) mod 2 ^ 8); VInt 1]; VArr bufs].

Lemma rigging_groups_inv ver os gs : rigging_groups ver os = Ok gs -> Forall2 (group_of ver) os gs.
Proof.
  revert gs; induction os as [|o os IH]; intros gs E; cbn [rigging_groups] in E; [injection E as <-; constructor|].
  apply bind_ok in E as (bufs & Eb & E). apply bind_ok in E as (rest & Er & [= <-]). constructor; [|auto].
  exists bufs. auto.
Qed.
Lemma rigging_groups_iff ver os : (exists gs, rigging_groups ver os = Ok gs) <-> forall o, In o os -> infs_fit ver (ob_influences o).
Proof.
  induction os as [|o os IH]; cbn [rigging_groups]; [split; [intros _ ? []|eauto]|]. split.
  - intros [gs E]. apply bind_ok in E as (bufs & Eb & E). apply bind_ok in E as (rest & Er & _).
    intros o' [<-|Ho]; [apply bone_buffers_iff; eauto|apply IH; eauto].
  - intros H. destruct (proj2 (bone_buffers_iff ver (ob_influences o))) as [b ->]; [apply H; left; reflexivity|]. cbn [bind].
    destruct (proj2 IH) as [r ->]; [intros; apply H; right; auto|]. cbn [bind]. eauto.
Qed.
Lemma rigging_groups_err ver os : rigging_groups ver os = Err (EData DWeightIndex) \/ exists gs, rigging_groups ver os = Ok gs.
Proof.
  induction os as [|o os IH]; cbn [rigging_groups]; [eauto|].
  destruct (bone_buffers_err ver (ob_influences o)) as [->|[b ->]]; cbn [bind]; [auto|].
  destruct IH as [->|[r ->]]; cbn [bind]; eauto.
Qed.

(** ** Sorting *)

Lemma insert_perm {A} (leb : A -> A -> bool) x l : Permutation (x :: l) (insert_by leb x l).
Proof.
  induction l as [|y l IH]; cbn [insert_by]; [auto|]. destruct (leb x y); [auto|].
  eapply perm_trans; [apply perm_swap|]. auto.
Qed.
Lemma sort_perm {A} (leb : A -> A -> bool) l : Permutation l (sort_by leb l).
Proof.
  unfold sort_by. induction l as [|x l IH]; cbn [fold_right]; [auto|]. eapply perm_trans; [apply perm_skip, IH|]. apply insert_perm.
Qed.
Lemma insert_sorted {A} (leb : A -> A -> bool) x l :
  (forall a b, leb a b = true \/ leb b a = true) -> (forall a b c, leb a b = true -> leb b c = true -> leb a c = true) ->
  StronglySorted (fun a b => leb a b = true) l -> StronglySorted (fun a b => leb a b = true) (insert_by leb x l).
Proof.
  intros T R. induction l as [|y l IH]; intros S; cbn [insert_by]; [repeat constructor|].
  inversion S as [|? ? S1 S2]; subst. destruct (leb x y) eqn:E.
  - constructor; auto. constructor; auto. rewrite Forall_forall in *. intros z Hz. eapply R; [exact E|auto].
  - constructor; auto. rewrite Forall_forall in *. intros z Hz.
    apply (Permutation_in _ (Permutation_sym (insert_perm leb x l))) in Hz. destruct Hz as [<-|Hz]; [|auto].
    destruct (T x y); congruence.
Qed.
Lemma sort_sorted {A} (leb : A -> A -> bool) l :
  (forall a b, leb a b = true \/ leb b a = true) -> (forall a b c, leb a b = true -> leb b c = true -> leb a c = true) ->
  StronglySorted (fun a b => leb a b = true) (sort_by leb l).
Proof. intros T R. unfold sort_by. induction l as [|x l IH]; cbn [fold_right]; [constructor|]. apply insert_sorted; auto. Qed.

Lemma text_leb_iff a b : text_leb a b = true <-> a = b \/ text_lt a b.
Proof.
  unfold text_lt. revert b; induction a as [|x a IH]; intros b; cbn [text_leb].
  - split; auto. intros _. destruct b as [|y b]; auto. right; left. exists y, b. reflexivity.
  - destruct b as [|y b].
    + split; [discriminate|]. intros [E|[(z & r & E)|(p & z & y & r & s & _ & E & _)]]; [discriminate E|discriminate E|].
      destruct p; discriminate E.
    + destruct (Z.eqb_spec x y) as [->|N].
      * rewrite IH. split.
        -- intros [->|[(z & r & ->)|(p & z & w & r & s & -> & -> & H)]]; auto.
           ++ right; left. exists z, r. reflexivity.
           ++ right; right. exists (y :: p), z, w, r, s. auto.
        -- intros [[= ->]|[(z & r & [= ->])|(p & z & w & r & s & E1 & E2 & H)]]; auto.
           ++ right; left. eauto.
           ++ destruct p as [|q p]; cbn [app] in E1, E2.
              ** injection E1 as -> _. injection E2 as -> _. lia.
              ** injection E1 as <- ->. injection E2 as ->. right; right. exists p, z, w, r, s. auto.
      * split.
        -- intros H. right; right. exists [], x, y, a, b. repeat split; lia.
        -- intros [[= -> _]|[(z & r & [= -> _])|(p & z & w & r & s & E1 & E2 & H)]]; try congruence.
           destruct p as [|q p]; cbn [app] in E1, E2.
           ** injection E1 as -> _. injection E2 as -> _. lia.
           ** injection E1 as <- _. injection E2 as -> _. congruence.
Qed.
Lemma text_leb_total a b : text_leb a b = true \/ text_leb b a = true.
Proof.
  revert b; induction a as [|x a IH]; intros [|y b]; cbn [text_leb]; auto.
  destruct (Z.eqb_spec x y) as [->|N]; [rewrite Z.eqb_refl; apply IH|].
  replace (y =? x) with false by lia. lia.
Qed.
Lemma text_leb_trans a b c : text_leb a b = true -> text_leb b c = true -> text_leb a c = true.
Proof.
  revert b c; induction a as [|x a IH]; intros [|y b] [|z c]; cbn [text_leb]; auto; try discriminate.
  destruct (Z.eqb_spec x y) as [->|N].
  - destruct (Z.eqb_spec y z) as [->|N2]; [apply IH|auto].
  - intros H. destruct (Z.eqb_spec y z) as [->|N2]; intros H2; [replace (x =? z) with false by lia; auto|].
    replace (x =? z) with false by lia. lia.
Qed.
Lemma text_leb_anti a b : text_leb a b = true -> text_leb b a = true -> a = b.
Proof.
  revert b; induction a as [|x a IH]; intros [|y b]; cbn [text_leb]; auto; try discriminate.
  destruct (Z.eqb_spec x y) as [->|N]; [rewrite Z.eqb_refl; intros; f_equal; auto|]. replace (y =? x) with false by lia. lia.
Qed.
Lemma key_leb_total a b : key_leb a b = true \/ key_leb b a = true.
Proof.
  unfold key_leb. destruct (list_eqb (fst a) (fst b)) eqn:E.
  - apply list_eqb_eq in E. rewrite E. replace (list_eqb (fst b) (fst b)) with true by (symmetry; now apply list_eqb_eq). lia.
  - destruct (list_eqb (fst b) (fst a)) eqn:E2; [apply list_eqb_eq in E2; rewrite E2 in E; assert (list_eqb (fst a) (fst a) = true) by (now apply list_eqb_eq); congruence|].
    apply text_leb_total.
Qed.
Lemma key_leb_iff a b : key_leb a b = true <-> a = b \/ key_lt a b.
Proof.
  destruct a as [a i], b as [b j]. unfold key_leb, key_lt; cbn [fst snd]. destruct (list_eqb a b) eqn:E.
  - apply list_eqb_eq in E. subst b. split.
    + intros H. destruct (Z.eq_dec i j) as [->|N]; [auto|]. right; right. split; [auto|lia].
    + intros [[= ->]|[H|[_ H]]]; [lia| |lia]. exfalso. destruct H as [(x & r & H)|(p & x & y & r & s & H1 & H2 & H3)].
      * apply (f_equal (@length Z)) in H. rewrite app_length in H. cbn in H. lia.
      * rewrite H1 in H2. apply app_inv_head in H2. injection H2 as -> _. lia.
  - assert (N : a <> b) by (intros ->; assert (list_eqb b b = true) by (now apply list_eqb_eq); congruence).
    rewrite text_leb_iff. split; [intros [->|H]; [congruence|auto]|]. intros [[= -> _]|[H|[-> _]]]; [congruence|auto|congruence].
Qed.
Lemma key_leb_trans a b c : key_leb a b = true -> key_leb b c = true -> key_leb a c = true.
Proof.
  destruct a as [a i], b as [b j], c as [c k]. unfold key_leb; cbn [fst snd].
  destruct (list_eqb a b) eqn:E1; [apply list_eqb_eq in E1; subst b|].
  - destruct (list_eqb a c); [lia|auto].
  - destruct (list_eqb b c) eqn:E2; [apply list_eqb_eq in E2; subst c; rewrite E1; auto|].
    destruct (list_eqb a c) eqn:E3; [apply list_eqb_eq in E3; subst c|eauto using text_leb_trans].
    intros H1 H2. pose proof (text_leb_anti _ _ H1 H2). subst b. assert (list_eqb a a = true) by (now apply list_eqb_eq). congruence.
Qed.

(** ** Looking up the influences of an object *)

Definition key_match (name : list Z) (sub : Z) (o : mesh_object) : bool := list_eqb (ob_name o) name && (ob_subindex o =? sub).
Lemma rigging_read ver os gs name sub : Forall object_facts os -> Forall2 (group_of ver) os gs ->
  read_rigging_data ver gs name sub = Ok (flat_map (fun o => if key_match name sub o then ob_influences o else []) os).
Proof.
  intros F H. induction H as [|o g os gs (bufs & Eb & ->) _ IH]; [reflexivity|]. inversion F as [|? ? Fo F']; subst.
  cbn [read_rigging_data flat_map]. rewrite to_str_text by apply (of_name o Fo). unfold key_match at 1.
  destruct (list_eqb (ob_name o) name && (ob_subindex o =? sub)); [|apply IH; auto].
  rewrite (bone_buffers_read ver _ _ (of_infs o Fo) Eb). cbn [bind]. rewrite IH by auto. reflexivity.
Qed.
Lemma lookup_unique os o : NoDup (map object_key os) -> In o os ->
  flat_map (fun x => if key_match (ob_name o) (ob_subindex o) x then ob_influences x else []) os = ob_influences o.
Proof.
  assert (K : forall x, key_match (ob_name o) (ob_subindex o) x = true <-> object_key x = object_key o).
  { intros x. unfold key_match, object_key. rewrite andb_true_iff, list_eqb_eq, Z.eqb_eq. split; [intros [-> ->]; auto|intros [= -> ->]; auto]. }
  induction os as [|x os IH]; intros N H; [destruct H|]. cbn [map] in N. inversion N as [|? ? N1 N2]; subst. cbn [flat_map].
  destruct H as [->|H].
  - rewrite (proj2 (K o) eq_refl).
    assert (E : flat_map (fun x => if key_match (ob_name o) (ob_subindex o) x then ob_influences x else []) os = []).
    { clear IH N N2. induction os as [|y os IH]; [reflexivity|]. cbn [flat_map]. destruct (key_match _ _ y) eqn:E.
      - apply K in E. exfalso. apply N1. cbn [map]. left. auto.
      - apply IH. intros H. apply N1. right. auto. }
    rewrite E, app_nil_r. reflexivity.
  - destruct (key_match _ _ x) eqn:E; [|apply IH; auto].
    apply K in E. exfalso. apply N1. rewrite E. now apply in_map.
Qed.

Lemma rigging_inv ver os rig : create_rigging_buffers ver os = Ok rig ->
  exists os', Permutation os os' /\ Forall2 (group_of ver) os' rig /\
              StronglySorted (fun a b => key_leb (group_key a) (group_key b) = true) rig.
Proof.
  intros E. unfold create_rigging_buffers in E. apply bind_ok in E as (gs & Eg & [= <-]). apply rigging_groups_inv in Eg.
  assert (P := sort_perm (fun a b => key_leb (group_key a) (group_key b)) gs).
  assert (Eg2 : Forall2 (fun g o => group_of ver o g) gs os) by (clear - Eg; induction Eg; constructor; auto).
  destruct (Permutation_Forall2 P Eg2) as (os' & P2 & F2). exists os'. repeat split; auto.
  - clear - F2. induction F2; constructor; auto.
  - apply sort_sorted; [intros; apply key_leb_total|intros; eapply key_leb_trans; eauto].
Qed.

Lemma rigging_lookup ver os rig o : Forall object_facts os -> NoDup (map object_key os) -> create_rigging_buffers ver os = Ok rig ->
  In o os -> read_rigging_data ver rig (ob_name o) (ob_subindex o) = Ok (ob_influences o).
Proof.
  intros F N E H. apply rigging_inv in E as (os' & P & G & _).
  assert (F' : Forall object_facts os') by (rewrite Forall_forall in *; intros x Hx; apply F; eapply Permutation_in; [apply Permutation_sym|]; eauto).
  rewrite (rigging_read ver os' rig _ _ F' G). f_equal. apply lookup_unique; [|eapply Permutation_in; eauto].
  eapply Permutation_NoDup; [apply Permutation_map; exact P|exact N].
Qed.

Lemma group_key_of ver o g : object_facts o -> group_of ver o g -> group_key g = object_key o.
Proof.
  intros F (bufs & _ & ->). cbn [group_key]. unfold object_key. now rewrite text_roundtrip by apply (of_name o F).
Qed.

Lemma bone_buffers_len ver l vs : bone_buffers ver l = Ok vs -> zlen vs = zlen l.
Proof.
  revert vs; induction l as [|i l IH]; intros vs E; cbn [bone_buffers] in E; [injection E as <-; reflexivity|].
  apply bind_ok in E as (w & _ & E). apply bind_ok in E as (r & Er & [= <-]). rewrite !zlen_cons. now rewrite (IH _ Er).
Qed.

(** ** The number of influences *)

Definition count_of (v : Z) (counts : list (Z * Z)) : Z :=
  match find (fun p => fst p =? v) counts with Some (_, n) => n | None => 0 end.
Definition counts_ok (counts : list (Z * Z)) : Prop := NoDup (map fst counts) /\ forall v n, In (v, n) counts -> 0 < n.

Lemma count_vertex_keys v counts : map fst (count_vertex v counts) = if existsb (Z.eqb v) (map fst counts) then map fst counts else map fst counts ++ [v].
Proof.
  induction counts as [|[w n] r IH]; cbn [count_vertex map fst existsb]; [reflexivity|].
  destruct (Z.eqb_spec w v) as [->|N]; cbn [map fst]; [rewrite Z.eqb_refl; reflexivity|].
  replace (v =? w) with false by lia. cbn [orb]. rewrite IH. now destruct (existsb _ _).
Qed.
Lemma count_vertex_of v w counts : count_of w (count_vertex v counts) = count_of w counts + (if v =? w then 1 else 0).
Proof.
  unfold count_of. induction counts as [|[x n] r IH]; cbn [count_vertex find fst].
  - destruct (Z.eqb_spec v w); reflexivity.
  - destruct (Z.eqb_spec x v) as [->|N]; cbn [find fst].
    + destruct (Z.eqb_spec v w); lia.
    + destruct (Z.eqb_spec x w) as [->|N2]; [replace (v =? w) with false by lia; lia|]. exact IH.
Qed.
Lemma NoDup_snoc {A} (l : list A) x : NoDup l -> ~ In x l -> NoDup (l ++ [x]).
Proof.
  intros N H. apply (Permutation_NoDup (Permutation_cons_append l x)). now constructor.
Qed.
Lemma count_vertex_ok v counts : counts_ok counts -> counts_ok (count_vertex v counts).
Proof.
  intros [N P]. split.
  - rewrite count_vertex_keys. destruct (existsb (Z.eqb v) (map fst counts)) eqn:E; [auto|]. apply NoDup_snoc; auto.
    intros H. apply eq_true_false_abs with (2 := E). apply existsb_exists. exists v. split; [auto|lia].
  - clear N. induction counts as [|[x n] r IH]; cbn [count_vertex].
    + intros w m [[= <- <-]|[]]. lia.
    + destruct (Z.eqb_spec x v) as [->|Nx]; intros w m [[= <- <-]|H].
      * specialize (P v n (or_introl eq_refl)). lia.
      * apply (P w m). right; auto.
      * apply (P x n). left; auto.
      * revert w m H. apply IH. intros w m H. apply (P w m). right; auto.
Qed.

Lemma insert_all_spec l : forall seen, NoDup seen -> NoDup (insert_all l seen) /\ forall v, In v (insert_all l seen) <-> In v l \/ In v seen.
Proof.
  induction l as [|x l IH]; intros seen N; cbn [insert_all]; [split; [auto|intros; cbn; tauto]|].
  destruct (existsb (Z.eqb x) seen) eqn:E.
  - apply existsb_exists in E as (y & Hy & E). assert (x = y) by lia. subst y. destruct (IH seen N) as [I1 I2]. split; auto.
    intros v. rewrite I2. cbn [In]. split; [tauto|]. intros [[<-|H]|H]; auto.
  - destruct (IH (x :: seen)) as [I1 I2].
    { constructor; auto. intros H. apply eq_true_false_abs with (2 := E). apply existsb_exists. exists x. split; [auto|lia]. }
    split; auto. intros v. rewrite I2. cbn [In]. tauto.
Qed.
Lemma fold_count v l counts : NoDup l ->
  count_of v (fold_left (fun c v => count_vertex v c) l counts) = count_of v counts + (if existsb (Z.eqb v) l then 1 else 0).
Proof.
  revert counts; induction l as [|x l IH]; intros counts N; cbn [fold_left existsb]; [lia|].
  inversion N as [|? ? N1 N2]; subst. rewrite IH by auto. rewrite count_vertex_of.
  destruct (Z.eqb_spec v x) as [->|Nv]; cbn [orb].
  - rewrite Z.eqb_refl. replace (existsb (Z.eqb x) l) with false; [lia|]. symmetry. apply not_true_is_false.
    intros H. apply existsb_exists in H as (y & Hy & E). assert (x = y) by lia. subst y. auto.
  - replace (x =? v) with false by lia. lia.
Qed.
Lemma fold_count_ok l counts : counts_ok counts -> counts_ok (fold_left (fun c v => count_vertex v c) l counts).
Proof. revert counts; induction l as [|x l IH]; intros counts H; cbn [fold_left]; auto using count_vertex_ok. Qed.

Lemma existsb_index v i : existsb (Z.eqb v) (insert_all (map wt_index (inf_weights i)) []) = existsb (fun w => wt_index w =? v) (inf_weights i).
Proof.
  destruct (insert_all_spec (map wt_index (inf_weights i)) []) as [_ H]; [constructor|].
  apply eq_true_iff_eq. rewrite !existsb_exists. split.
  - intros (x & Hx & E). apply H in Hx as [Hx|[]]. apply in_map_iff in Hx as (w & <- & Hw). exists w. split; [auto|lia].
  - intros (w & Hw & E). exists (wt_index w). split; [|lia]. apply H. left. now apply in_map.
Qed.
Lemma fold_influences v l counts : counts_ok counts ->
  count_of v (fold_left count_influence l counts) = count_of v counts + influences_of v l /\
  counts_ok (fold_left count_influence l counts).
Proof.
  revert counts; induction l as [|i l IH]; intros counts H; cbn [fold_left]; [unfold influences_of; cbn; split; [lia|auto]|].
  destruct (IH (count_influence counts i)) as [I1 I2]; [apply fold_count_ok; auto|]. split; auto. rewrite I1.
  unfold count_influence. rewrite fold_count by (apply insert_all_spec; constructor). rewrite existsb_index.
  unfold influences_of; cbn [filter]. destruct (existsb (fun w => wt_index w =? v) (inf_weights i)); [rewrite zlen_cons|]; lia.
Qed.
Lemma count_of_In v n counts : counts_ok counts -> In (v, n) counts -> count_of v counts = n.
Proof.
  intros [N _] H. unfold count_of. induction counts as [|[w m] r IH]; [destruct H|]. cbn [find fst]. cbn [map fst] in N.
  inversion N as [|? ? N1 N2]; subst. destruct H as [[= -> ->]|H]; [now rewrite Z.eqb_refl|].
  destruct (Z.eqb_spec w v) as [->|]; [|auto]. exfalso. apply N1. apply in_map_iff. exists (v, n). auto.
Qed.
Lemma count_of_pos v counts : 0 < count_of v counts -> In (v, count_of v counts) counts.
Proof.
  unfold count_of. destruct (find _ counts) as [[w n]|] eqn:E; [|lia]. intros _. apply find_some in E as [H E]. cbn [fst] in E.
  assert (w = v) by lia. now subst.
Qed.
Lemma fold_max_spec l m : (In (fold_left Z.max l m) (m :: l)) /\ forall x, In x (m :: l) -> x <= fold_left Z.max l m.
Proof.
  revert m; induction l as [|y l IH]; intros m; cbn [fold_left]; [split; [left; reflexivity|intros x [<-|[]]; lia]|].
  destruct (IH (Z.max m y)) as [I1 I2]. split.
  - destruct I1 as [I1|I1]; [|right; right; auto]. rewrite <- I1. cbn [In]. lia.
  - pose proof (I2 _ (or_introl eq_refl)). intros x [<-|[<-|Hx]]; [lia|lia|]. apply I2. right; auto.
Qed.

Lemma max_influences_spec l :
  (forall v, influences_of v l <= calculate_max_influences l) /\
  ((exists v, influences_of v l = calculate_max_influences l) \/ calculate_max_influences l = 0).
Proof.
  set (counts := fold_left count_influence l []).
  assert (C0 : counts_ok []) by (split; [constructor|intros ? ? []]).
  assert (C : forall v, count_of v counts = influences_of v l) by (intros v; destruct (fold_influences v l [] C0) as [E _]; exact E).
  assert (K : counts_ok counts) by (destruct (fold_influences 0 l [] C0) as [_ E]; exact E).
  assert (P : forall v, 0 < influences_of v l -> In (influences_of v l) (map snd counts)).
  { intros v H. rewrite <- C in *. apply count_of_pos in H. apply in_map_iff. exists (v, count_of v counts). auto. }
  assert (Q : forall n, In n (map snd counts) -> 0 < n /\ exists v, influences_of v l = n).
  { intros n H. apply in_map_iff in H as ([v m] & <- & H). split; [eapply (proj2 K); eauto|]. exists v. rewrite <- C. now apply count_of_In. }
  unfold calculate_max_influences. fold counts. destruct (map snd counts) as [|n r] eqn:E.
  - split; [|auto]. intros v. destruct (Z.ltb_spec 0 (influences_of v l)) as [H|H]; [destruct (P v H)|lia].
  - destruct (fold_max_spec r n) as [M1 M2]. destruct (Q _ M1) as [Q1 Q2]. split; [|left; exact Q2].
    intros v. destruct (Z.ltb_spec 0 (influences_of v l)) as [H|H]; [|lia]. apply M2. apply P. auto.
Qed.
