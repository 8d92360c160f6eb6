(** Lemmas about skeletons. *)
From Coq Require Import Lia ZifyBool ZifyNat ZifyN.
From Verif Require Import Bytes BytesFacts Ssbh File SsbhSpec SsbhFacts Formats Strings Bits Float32 AnimComp AnimBuf AnimSpec.
From Verif Require Import SsbhLemmas FileSpec AnimFacts AnimDataFacts SmallData DataSpec SmallDataFacts SkelData SkelSpec.
Ltac Zify.zify_post_hook ::= ZifyBool.elim_bool_cstr; Z.to_euclidean_division_equations.

Section World.
Variable mul : mat -> mat -> mat.
Variable inv : mat -> mat.

Definition next (bones : list bone) (b : bone) : option bone :=
  match bn_parent b with Some i => nth_error bones (Z.to_nat i) | None => None end.
Fixpoint up (bones : list bone) (k : nat) (b : bone) : option bone :=
  match k with
  | O => Some b
  | S k => match next bones b with Some p => up bones k p | None => None end
  end.
Lemma up_add bones j : forall k b, up bones (j + k) b = match up bones j b with Some x => up bones k x | None => None end.
Proof.
  induction j as [|j IH]; intros k b; [reflexivity|]. cbn [Nat.add up]. destruct (next bones b); auto.
Qed.
Lemma ancestors_up bones b l : ancestors bones b l -> up bones (S (length l)) b = None.
Proof.
  induction 1 as [b H|b i H1 H2|b i p l H1 H2 A IH]; cbn [length up]; unfold next.
  - now rewrite H.
  - now rewrite H1, H2.
  - now rewrite H1, H2.
Qed.
Lemma cycle_up bones k x : up bones (S k) x = Some x -> forall m, exists y, up bones m x = Some y.
Proof.
  intros H m. destruct (up bones m x) as [y|] eqn:E; [eauto|exfalso].
  assert (forall q, up bones (q * S k) x = Some x).
  { induction q as [|q IH]; [reflexivity|]. cbn [Nat.mul]. now rewrite up_add, H. }
  specialize (H0 m). replace (m * S k)%nat with (m + m * k)%nat in H0 by lia. rewrite up_add, E in H0. discriminate H0.
Qed.
Lemma cycle_none bones k x : up bones (S k) x = Some x -> forall l, ~ ancestors bones x l.
Proof. intros H l A. apply ancestors_up in A. destruct (cycle_up _ _ _ H (S (length l))) as [y E]. congruence. Qed.

Lemma product_step b p l : product mul b (p :: l) =
  fold_right (fun q m => mul (bn_transform q) m) (mul (bn_transform p) (bn_transform b)) (rev l).
Proof. unfold product. cbn [rev]. now rewrite fold_right_app. Qed.

Lemma nodup_range n : forall l : list Z, NoDup l -> Forall (fun v => 0 <= v < Z.of_nat n) l -> (length l <= n)%nat.
Proof.
  intros l D F. assert (I : incl (map Z.to_nat l) (seq 0 n)).
  { intros k Hk. apply in_map_iff in Hk as (v & <- & Hv). rewrite Forall_forall in F. apply F in Hv. apply in_seq. lia. }
  apply NoDup_incl_length in I; [now rewrite map_length, seq_length in I|].
  clear I. induction l as [|v l IH]; [constructor|]. inversion D; subst. inversion F; subst. cbn [map]. constructor; [|auto].
  intros H. apply in_map_iff in H as (w & E & Hw). apply H1. rewrite Forall_forall in H4. apply H4 in Hw as Rw.
  replace v with w by lia. exact Hw.
Qed.

Lemma loop_spec bones : parents_ok bones = true -> forall fuel b t visited,
  match bn_parent b with Some i => 0 <= i | None => True end ->
  NoDup visited -> Forall (fun v => 0 <= v < zlen bones) visited ->
  (forall v, In v visited -> exists x k, nth_error bones (Z.to_nat v) = Some x /\ up bones k x = Some b) ->
  (length visited + fuel = S (S (length bones)))%nat ->
  (exists l, ancestors bones b l /\
     world_loop mul fuel bones b t visited = Some (Ok (fold_right (fun p m => mul (bn_transform p) m) t (rev l)))) \/
  ((forall l, ~ ancestors bones b l) /\ world_loop mul fuel bones b t visited = Some (Err (EData DCycle))).
Proof.
  intros P. induction fuel as [|fuel IH]; intros b t visited B D F R L.
  - pose proof (nodup_range (length bones) visited D F). lia.
  - cbn [world_loop]. destruct (bn_parent b) as [i|] eqn:E.
    + destruct (existsb (Z.eqb i) visited) eqn:X.
      * right. split; [|reflexivity]. apply existsb_exists in X as (v & Hv & Ev). apply Z.eqb_eq in Ev. subst v.
        apply R in Hv as (x & k & Nx & U). intros l A.
        assert (Cy : up bones (S k) x = Some x).
        { replace (S k) with (k + 1)%nat by lia. rewrite up_add, U. cbn [up]. unfold next. now rewrite E, Nx. }
        inversion A; subst; try congruence. apply (cycle_none _ _ _ Cy l0). 
        assert (p = x) by congruence. now subst p.
      * destruct (nth_error bones (Z.to_nat i)) as [p|] eqn:Np.
        -- assert (Bp : match bn_parent p with Some i => 0 <= i | None => True end).
           { unfold parents_ok in P. rewrite forallb_forall in P. apply nth_error_In in Np. apply P in Np.
             destruct (bn_parent p); [lia|auto]. }
           assert (Ri : 0 <= i < zlen bones).
           { split; [exact B|]. assert (Z.to_nat i < length bones)%nat by (apply nth_error_Some; congruence). unfold zlen. lia. }
           assert (Ni : ~ In i visited).
           { intros H. assert (existsb (Z.eqb i) visited = true); [|congruence]. apply existsb_exists. exists i. split; [auto|lia]. }
           assert (R' : forall v, In v (i :: visited) -> exists x k, nth_error bones (Z.to_nat v) = Some x /\ up bones k x = Some p).
           { intros v [<-|Hv]; [exists p, O; auto|]. apply R in Hv as (x & k & Nx & U). exists x, (k + 1)%nat. split; [auto|].
             rewrite up_add, U. cbn [up]. unfold next. now rewrite E, Np. }
           destruct (IH p (mul (bn_transform p) t) (i :: visited) Bp (NoDup_cons _ Ni D) (Forall_cons _ Ri F) R'
                       ltac:(cbn [length]; lia)) as [(l & A & W)|(A & W)].
           ++ left. exists (p :: l). split; [eapply anc_parent; eauto|]. rewrite W. cbn [rev]. now rewrite fold_right_app.
           ++ right. split; [|exact W]. intros l H. inversion H; subst; try congruence.
              apply (A l0). assert (p0 = p) by congruence. now subst p0.
        -- left. exists []. split; [eapply anc_outside; eauto|reflexivity].
    + left. exists []. split; [now constructor|reflexivity].
Qed.

Lemma world_spec bones b : parents_ok bones = true -> parents_ok [b] = true ->
  (exists l, ancestors bones b l /\
     forall fuel, (world_fuel bones <= fuel)%nat -> world_loop mul fuel bones b (bn_transform b) [] = Some (Ok (product mul b l))) \/
  ((forall l, ~ ancestors bones b l) /\
     forall fuel, (world_fuel bones <= fuel)%nat -> world_loop mul fuel bones b (bn_transform b) [] = Some (Err (EData DCycle))).
Proof.
  intros P B. assert (B' : match bn_parent b with Some i => 0 <= i | None => True end).
  { unfold parents_ok in B. cbn [forallb] in B. destruct (bn_parent b); [lia|auto]. }
  assert (More : forall fuel fuel' bones b t visited r, (fuel <= fuel')%nat ->
            world_loop mul fuel bones b t visited = Some r -> world_loop mul fuel' bones b t visited = Some r).
  { clear. induction fuel as [|fuel IH]; intros fuel' bones b t visited r L H; [discriminate H|].
    destruct fuel' as [|fuel']; [lia|]. cbn [world_loop] in *. destruct (bn_parent b); [|exact H].
    destruct (existsb _ visited); [exact H|]. destruct (nth_error bones _); [|exact H]. apply (IH fuel'); [lia|exact H]. }
  destruct (loop_spec bones P (world_fuel bones) b (bn_transform b) [] B' (NoDup_nil _) (Forall_nil _)
              (fun v (H : In v []) => match H with end) eq_refl) as [(l & A & W)|(A & W)].
  - left. exists l. split; [exact A|]. intros fuel Hf. exact (More _ _ _ _ _ _ _ Hf W).
  - right. split; [exact A|]. intros fuel Hf. exact (More _ _ _ _ _ _ _ Hf W).
Qed.

Theorem world_terminates bones b : parents_ok bones = true -> parents_ok [b] = true ->
  forall fuel, (length bones + 2 <= fuel)%nat ->
  world_loop mul fuel bones b (bn_transform b) [] = Some (calculate_world_transform mul bones b).
Proof.
  intros P B fuel L. unfold calculate_world_transform. unfold world_fuel in *.
  destruct (world_spec bones b P B) as [(l & _ & W)|(_ & W)]; rewrite !W by (unfold world_fuel; lia); reflexivity.
Qed.
Theorem world_result bones b : parents_ok bones = true -> parents_ok [b] = true ->
  (forall l, ancestors bones b l -> calculate_world_transform mul bones b = Ok (product mul b l)) /\
  ((forall l, ~ ancestors bones b l) -> calculate_world_transform mul bones b = Err (EData DCycle)) /\
  (calculate_world_transform mul bones b = Err (EData DCycle) -> forall l, ~ ancestors bones b l).
Proof.
  intros P B. unfold calculate_world_transform.
  assert (U : forall b l l', ancestors bones b l -> ancestors bones b l' -> l = l').
  { clear. intros b l l' A. revert l'. induction A as [b H|b i H1 H2|b i p l H1 H2 A IH]; intros l' A'.
    - inversion A'; subst; congruence.
    - inversion A'; subst; congruence.
    - inversion A'; subst; try congruence. assert (p0 = p) by congruence. subst p0. f_equal. auto. }
  destruct (world_spec bones b P B) as [(l & A & W)|(A & W)]; rewrite W by lia.
  - split; [intros l' A'; now rewrite (U _ _ _ A A')|]. split; [intros H; now destruct (H l)|discriminate].
  - split; [intros l' A'; now destruct (A l')|]. split; auto.
Qed.

(** ** Conversion *)
#[local] Strategy opaque [typed_write typed_read].
Lemma forall2_length {A B} (P : A -> B -> Prop) l l' : Forall2 P l l' -> length l = length l'.
Proof. induction 1; cbn [length]; congruence. Qed.
Lemma forall2_in_r {A B} (P : A -> B -> Prop) l l' : Forall2 P l l' -> forall y, In y l' -> exists x, In x l /\ P x y.
Proof. induction 1 as [|x y l l' H F IH]; intros z [ ]; [subst z; exists x; cbn; auto|]. destruct (IH z H0) as (w & Hw & Pw). exists w. cbn. auto. Qed.

Lemma worlds_spec bones bs : parents_ok bones = true -> parents_ok bs = true ->
  ((forall b, In b bs -> exists l, ancestors bones b l) ->
     exists ws, world_transforms mul bones bs = Ok ws /\
       Forall2 (fun b w => exists l, ancestors bones b l /\ w = product mul b l) bs ws) /\
  ((exists b, In b bs /\ forall l, ~ ancestors bones b l) -> world_transforms mul bones bs = Err (EData DCycle)).
Proof.
  intros P. induction bs as [|b bs IH]; intros B.
  - split; [intros _; exists []; split; [reflexivity|constructor]|]. intros (b & [] & _).
  - unfold parents_ok in B. cbn [forallb] in B. apply andb_true_iff in B as [B1 B2].
    assert (B1' : parents_ok [b] = true) by (unfold parents_ok; cbn [forallb]; now rewrite B1).
    specialize (IH B2). destruct (world_result bones b P B1') as (W1 & W2 & _).
    cbn [world_transforms]. split.
    + intros A. destruct (A b (or_introl eq_refl)) as [l Al]. rewrite (W1 l Al). cbn [bind].
      destruct IH as [IH _]. destruct IH as (ws & -> & F); [intros x Hx; apply A; now right|]. cbn [bind].
      eexists. split; [reflexivity|]. constructor; eauto.
    + intros (x & [<-|Hx] & N); [now rewrite (W2 N)|].
      destruct (calculate_world_transform mul bones b) as [w|e|] eqn:E.
      * cbn [bind]. destruct IH as [_ ->]; [reflexivity|]. eauto.
      * destruct (world_spec bones b P B1') as [(l & A & W)|(A & W)].
        -- specialize (W1 l A). congruence.
        -- specialize (W2 A). cbn [bind]. congruence.
      * destruct (world_spec bones b P B1') as [(l & A & W)|(A & W)].
        -- specialize (W1 l A). congruence.
        -- specialize (W2 A). congruence.
Qed.

Lemma worlds_dec bones bs : parents_ok bones = true -> parents_ok bs = true ->
  (forall b, In b bs -> exists l, ancestors bones b l) \/ (exists b, In b bs /\ forall l, ~ ancestors bones b l).
Proof.
  intros P. induction bs as [|b bs IH]; intros B; [left; intros b []|].
  unfold parents_ok in B. cbn [forallb] in B. apply andb_true_iff in B as [B1 B2].
  assert (B1' : parents_ok [b] = true) by (unfold parents_ok; cbn [forallb]; now rewrite B1).
  destruct (world_spec bones b P B1') as [(l & A & _)|(A & _)].
  - destruct (IH B2) as [H|(x & Hx & N)].
    + left. intros x [<-|Hx]; eauto.
    + right. exists x. split; [now right|auto].
  - right. exists b. split; [now left|auto].
Qed.

Lemma wt_mat m : mat_ok m = true -> wt Matrix4x4 (mat_val m) = true.
Proof.
  unfold mat_ok, mat_val, Matrix4x4. intros H. apply andb_true_iff in H as [H H4]. apply andb_true_iff in H as [H H3].
  apply andb_true_iff in H as [H1 H2]. now rewrite !wt_record_cons, wt_record_nil, !wt_vec4.
Qed.
Lemma mat_back m : un_mat (mat_val m) = Ok m.
Proof. destruct m as [a b c d]. unfold mat_val, un_mat. cbn [col1 col2 col3 col4]. now rewrite !vec4_back. Qed.

Lemma bones_parents bones : bones_ok bones = true -> parents_ok bones = true.
Proof.
  unfold bones_ok, parents_ok. intros H. apply andb_true_iff in H as [_ H]. rewrite forallb_forall in *.
  intros b Hb. apply H in Hb. unfold bone_ok in Hb. destruct (bn_parent b); [|reflexivity]. clear - Hb.
  apply andb_true_iff in Hb as [Hb _]. apply andb_true_iff in Hb as [_ Hb]. lia.
Qed.
Lemma bone_entries_wt bs : forall i, forallb bone_ok bs = true -> forallb (wt SkelBoneEntry) (bone_entries i bs) = true.
Proof.
  induction bs as [|b bs IH]; intros i H; [reflexivity|]. cbn [forallb bone_entries] in *.
  apply andb_true_iff in H as [H1 H2]. rewrite IH by auto. rewrite andb_true_r. unfold bone_ok in H1.
  apply andb_true_iff in H1 as [H1 Hb]. apply andb_true_iff in H1 as [H1 Hp]. apply andb_true_iff in H1 as [Hn Hm].
  unfold bone_entry, SkelBoneEntry, SsbhString. rewrite !wt_record_cons, wt_record_nil, wt_text by auto. cbn [andb].
  assert (W : forall x, 0 <= x < 2 ^ 16 -> wt (TInt 2) (VInt x) = true) by (intros x X; cbn [wt]; lia).
  unfold u16, i16. rewrite !W; [|clear - Hp; destruct (bn_parent b); lia|clear; lia]. cbn [andb].
  rewrite andb_true_r. unfold SkelEntryFlags, padded. rewrite wt_struct. cbn [map wt_fields fst app].
  rewrite andb_true_r. exact Hb.
Qed.
Lemma bone_entries_length bs : forall i, length (bone_entries i bs) = length bs.
Proof. induction bs as [|b bs IH]; intros i; [reflexivity|]. cbn [bone_entries length]. now rewrite IH. Qed.

Lemma un_bones_back bs : forall i, forallb bone_ok bs = true ->
  un_bones (bone_entries i bs) (map (fun b => mat_val (bn_transform b)) bs) = Ok bs.
Proof.
  induction bs as [|b bs IH]; intros i H; [reflexivity|]. cbn [forallb bone_entries map un_bones] in *.
  apply andb_true_iff in H as [H1 H2]. rewrite IH by auto. unfold bone_ok in H1.
  apply andb_true_iff in H1 as [H1 Hb]. apply andb_true_iff in H1 as [H1 Hp]. apply andb_true_iff in H1 as [Hn Hm].
  unfold bone_entry, un_bone. rewrite mat_back, text_roundtrip by auto. cbn [bind].
  destruct b as [n t [p|] bb]; cbn [bn_parent bn_name bn_transform bn_billboard] in *.
  - rewrite (Z.mod_small p) by (clear - Hp; lia). now replace (p <? 2 ^ 15) with true by (clear - Hp; lia).
  - reflexivity.
Qed.

Lemma product_ok b l : (forall a c, mat_ok (mul a c) = true) -> mat_ok (bn_transform b) = true -> mat_ok (product mul b l) = true.
Proof. intros M B. unfold product. destruct (rev l); [exact B|apply M]. Qed.

Lemma wt_arr_forall t (l : list val) : zlen l < 2 ^ 64 -> forallb (wt t) l = true -> wt (TArr t) (VArr l) = true.
Proof. intros L H. cbn [wt]. rewrite H. change two64 with (2 ^ 64). lia. Qed.

Hypothesis mul_ok : forall a c, mat_ok (mul a c) = true.
Hypothesis inv_ok : forall a, mat_ok (inv a) = true.

Lemma skel_val_ok bones v : bones_ok bones = true -> skel_val mul inv bones = Ok v ->
  file_ok (mkFile Skel (1, 0) v) /\ un_skel v = Ok bones.
Proof.
  intros W E. pose proof (bones_parents _ W) as P. unfold skel_val in E.
  destruct (worlds_dec bones bones P P) as [A|A].
  2:{ rewrite (proj2 (worlds_spec bones bones P P) A) in E. discriminate E. }
  destruct (proj1 (worlds_spec bones bones P P) A) as (ws & Ew & F). rewrite Ew in E. cbn [bind] in E. injection E as <-.
  unfold bones_ok in W. apply andb_true_iff in W as [L W].
  assert (Lw : length ws = length bones) by (symmetry; eapply forall2_length; eauto).
  assert (Mb : forall b, In b bones -> mat_ok (bn_transform b) = true).
  { intros b Hb. rewrite forallb_forall in W. apply W in Hb. unfold bone_ok in Hb. clear - Hb.
    apply andb_true_iff in Hb as [Hb _]. apply andb_true_iff in Hb as [Hb _]. now apply andb_true_iff in Hb as [_ Hb]. }
  split; [|unfold un_skel; now apply un_bones_back].
  exists Skel_V10. split; [reflexivity|]. cbn [fbody]. unfold Skel_V10. rewrite !wt_record_cons, wt_record_nil.
  assert (L64 : zlen bones < 2 ^ 64) by lia. unfold zlen in L64. clear L.
  assert (M : forall {A} (f : A -> mat) (l : list A), Z.of_nat (length l) < 2 ^ 64 -> (forall a, In a l -> mat_ok (f a) = true) ->
             wt (TArr Matrix4x4) (VArr (map (fun a => mat_val (f a)) l)) = true).
  { intros A0 f l Hl Hf. apply wt_arr_forall; [unfold zlen; now rewrite map_length|].
    apply forallb_forall. intros x Hx. apply in_map_iff in Hx as (a & <- & Ha). apply wt_mat. auto. }
  rewrite (wt_arr_forall SkelBoneEntry) by (try apply bone_entries_wt; auto; unfold zlen; now rewrite bone_entries_length).
  rewrite (M _ bn_transform bones) by auto. rewrite (M _ (fun b => inv (bn_transform b)) bones) by auto.
  rewrite (M _ inv ws) by (auto; now rewrite Lw).
  assert (Mw : wt (TArr Matrix4x4) (VArr (map mat_val ws)) = true); [|now rewrite Mw].
  apply (M _ (fun w => w) ws); [now rewrite Lw|].
  intros w Hw. destruct (forall2_in_r _ _ _ F w Hw) as (b & Hb & l & _ & ->). apply product_ok; auto.
Qed.

Theorem skel_save_load bones out : bones_ok bones = true -> skel_data_write mul inv bones = Ok out -> zlen out < 2 ^ 63 ->
  skel_data_read out = Ok bones.
Proof.
  intros W E L. unfold skel_data_write in E. destruct (skel_val mul inv bones) as [v| |] eqn:V; try discriminate E.
  cbn [bind] in E. destruct (skel_val_ok bones v W V) as [F U]. pose proof (typed_roundtrip _ _ _ _ F E L) as T.
  unfold skel_data_read. rewrite T. cbn [bind]. exact U.
Qed.

Theorem skel_write_result bones : bones_ok bones = true ->
  ((forall b, In b bones -> exists l, ancestors bones b l) -> exists out, skel_data_write mul inv bones = Ok out) /\
  ((exists b, In b bones /\ forall l, ~ ancestors bones b l) -> skel_data_write mul inv bones = Err (EData DCycle)).
Proof.
  intros W. pose proof (bones_parents _ W) as P. destruct (worlds_spec bones bones P P) as [S1 S2].
  unfold skel_data_write. split; intros A.
  - destruct (S1 A) as (ws & E & _). destruct (skel_val mul inv bones) as [v| |] eqn:V.
    + cbn [bind]. destruct (skel_val_ok bones v W V) as [F _]. exact (typed_write_total _ _ _ F).
    + unfold skel_val in V. rewrite E in V. discriminate V.
    + unfold skel_val in V. rewrite E in V. discriminate V.
  - unfold skel_val. now rewrite (S2 A).
Qed.

Theorem skel_worlds bones v : parents_ok bones = true -> skel_val mul inv bones = Ok v -> exists ws,
  v = VStruct [VArr (bone_entries 0 bones); VArr (map mat_val ws); VArr (map (fun m => mat_val (inv m)) ws);
               VArr (map (fun b => mat_val (bn_transform b)) bones); VArr (map (fun b => mat_val (inv (bn_transform b))) bones)] /\
  Forall2 (fun b w => exists l, ancestors bones b l /\ w = product mul b l) bones ws.
Proof.
  intros P E. unfold skel_val in E. destruct (worlds_dec bones bones P P) as [A|A].
  2:{ rewrite (proj2 (worlds_spec bones bones P P) A) in E. discriminate E. }
  destruct (proj1 (worlds_spec bones bones P P) A) as (ws & Ew & F). rewrite Ew in E. cbn [bind] in E. injection E as <-. eauto.
Qed.
End World.

(** ** Relative transforms with exact matrices *)
Lemma zmat_shape m : is_zmat m -> exists a b c d e f g h i j k l m' n o p,
  m = [[a; b; c; d]; [e; f; g; h]; [i; j; k; l]; [m'; n; o; p]].
Proof.
  intros [L F]. destruct m as [|c1 [|c2 [|c3 [|c4 [|? ?]]]]]; try discriminate L.
  repeat match goal with H : Forall _ (_ :: _) |- _ => inversion H; clear H; subst end.
  destruct c1 as [|? [|? [|? [|? [|? ?]]]]]; try discriminate. destruct c2 as [|? [|? [|? [|? [|? ?]]]]]; try discriminate.
  destruct c3 as [|? [|? [|? [|? [|? ?]]]]]; try discriminate. destruct c4 as [|? [|? [|? [|? [|? ?]]]]]; try discriminate.
  repeat eexists.
Qed.
Lemma zmul_shape a b : is_zmat (zmul a b).
Proof. split; [reflexivity|]. repeat constructor. Qed.
Lemma zmul_entry a b i j : (i < 4)%nat -> (j < 4)%nat -> entry (zmul a b) i j =
  entry a i 0 * entry b 0 j + entry a i 1 * entry b 1 j + entry a i 2 * entry b 2 j + entry a i 3 * entry b 3 j.
Proof. intros I J. do 4 (destruct i as [|i]; [do 4 (destruct j as [|j]; [reflexivity|]); lia|]). lia. Qed.
Lemma zmat_ext a b : is_zmat a -> is_zmat b -> (forall i j, (i < 4)%nat -> (j < 4)%nat -> entry a i j = entry b i j) -> a = b.
Proof.
  intros A B H. apply zmat_shape in A as (?&?&?&?&?&?&?&?&?&?&?&?&?&?&?&?&->).
  apply zmat_shape in B as (?&?&?&?&?&?&?&?&?&?&?&?&?&?&?&?&->).
  pose proof (fun i j I J => H i j I J) as E. unfold entry in E.
  pose proof (E 0 0 ltac:(lia) ltac:(lia))%nat. pose proof (E 1 0 ltac:(lia) ltac:(lia))%nat.
  pose proof (E 2 0 ltac:(lia) ltac:(lia))%nat. pose proof (E 3 0 ltac:(lia) ltac:(lia))%nat.
  pose proof (E 0 1 ltac:(lia) ltac:(lia))%nat. pose proof (E 1 1 ltac:(lia) ltac:(lia))%nat.
  pose proof (E 2 1 ltac:(lia) ltac:(lia))%nat. pose proof (E 3 1 ltac:(lia) ltac:(lia))%nat.
  pose proof (E 0 2 ltac:(lia) ltac:(lia))%nat. pose proof (E 1 2 ltac:(lia) ltac:(lia))%nat.
  pose proof (E 2 2 ltac:(lia) ltac:(lia))%nat. pose proof (E 3 2 ltac:(lia) ltac:(lia))%nat.
  pose proof (E 0 3 ltac:(lia) ltac:(lia))%nat. pose proof (E 1 3 ltac:(lia) ltac:(lia))%nat.
  pose proof (E 2 3 ltac:(lia) ltac:(lia))%nat. pose proof (E 3 3 ltac:(lia) ltac:(lia))%nat.
  cbn [nth] in *. subst. reflexivity.
Qed.
Lemma zmul_assoc a b c : zmul (zmul a b) c = zmul a (zmul b c).
Proof.
  apply zmat_ext; try apply zmul_shape. intros i j I J. rewrite !zmul_entry by lia. ring.
Qed.
Lemma zmul_one a : is_zmat a -> zmul a zone = a.
Proof.
  intros A. apply zmat_ext; [apply zmul_shape|exact A|]. intros i j I J. rewrite zmul_entry by lia.
  do 4 (destruct j as [|j]; [unfold entry at 2 4 6 8; cbn [nth zone]; ring|]). lia.
Qed.
Theorem relative_exact inv w p : is_zmat w -> zmul (inv p) p = zone ->
  zmul (calculate_relative_transform zmul inv w (Some p)) p = w.
Proof. intros W I. cbn [calculate_relative_transform]. rewrite zmul_assoc, I. now apply zmul_one. Qed.

Definition rw : zmat := [[2; 0; 0; 0]; [0; 4; 0; 0]; [0; 0; 8; 0]; [0; 0; 0; 1]].
Definition rp : zmat := [[1; 0; 0; 0]; [0; 1; 0; 0]; [0; 0; 1; 0]; [1; 2; 3; 1]].
Definition rp' : zmat := [[1; 0; 0; 0]; [0; 1; 0; 0]; [0; 0; 1; 0]; [-1; -2; -3; 1]].
Lemma relative_wrong : exists inv w p, is_zmat w /\ is_zmat p /\ zmul (inv p) p = zone /\ zmul p (inv p) = zone /\
  zmul p (calculate_relative_transform zmul inv w (Some p)) <> w.
Proof.
  exists (fun _ => rp'), rw, rp. split; [|split; [|split; [|split]]]; try (split; [reflexivity|repeat constructor]); try reflexivity.
  vm_compute. discriminate.
Qed.

(** ** Parent indices that do not fit 15 bits *)
Definition skel_id (m : mat) : mat := m.
Definition skel_mul (a b : mat) : mat := a.
Definition zero4 : vec4 := V4 0 0 0 0.
Definition wide_parent : list bone := [Bone [104] (Mat zero4 zero4 zero4 zero4) (Some 40000) 0].
Definition wide_out : list Z := Eval vm_compute in
  match skel_data_write skel_mul skel_id wide_parent with Ok out => out | _ => [] end.
Lemma wide_parent_lost : exists bones out, (forall b, In b bones -> exists l, ancestors bones b l) /\
  skel_data_write skel_mul skel_id bones = Ok out /\ zlen out < 1000 /\ skel_data_read out <> Ok bones.
Proof.
  exists wide_parent, wide_out. split.
  { intros b [<-|[]]. exists []. eapply anc_outside; [reflexivity|]. apply nth_error_None. cbn [length wide_parent]. lia. }
  split; [vm_compute; reflexivity|]. split; [vm_compute; reflexivity|].
  assert (R : skel_data_read wide_out = Ok [Bone [104] (Mat zero4 zero4 zero4 zero4) None 0]) by (vm_compute; reflexivity).
  rewrite R. discriminate.
Qed.
