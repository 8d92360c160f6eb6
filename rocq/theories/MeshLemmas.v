(** Whole meshes: validation, places in the buffers, saving and loading. *)
From Coq Require Import Lia ZifyBool ZifyNat ZifyN Permutation Sorted.
From Verif Require Import Bytes BytesFacts Ssbh Formats File FileFacts Strings AnimComp AnimBuf AnimSpec DataSpec VecData MeshData MeshSpec
  FloatFacts VecFacts AnimFacts AnimDataFacts SmallDataFacts SsbhFacts SsbhLemmas MeshFacts RigFacts.
Ltac Zify.zify_post_hook ::= ZifyBool.elim_bool_cstr; Z.to_euclidean_division_equations.

(** ** Validation *)

Lemma seen_iff (k : list Z * Z) seen :
  existsb (fun p => list_eqb (fst p) (fst k) && (snd p =? snd k)) seen = true <-> In k seen.
Proof.
  rewrite existsb_exists. split.
  - intros ([a i] & H & E). cbn [fst snd] in E. apply andb_prop in E as [E1 E2]. apply list_eqb_eq in E1. destruct k as [b j]; cbn [fst snd] in *.
    assert (i = j) by lia. now subst.
  - intros H. exists k. split; auto. rewrite Z.eqb_refl, andb_true_r. now apply list_eqb_eq.
Qed.
Lemma validate_from_spec os : forall seen,
  match validate_from seen os with
  | Ok _ => NoDup (map object_key os) /\ forall o, In o os -> ~ In (object_key o) seen
  | Err e => e = EData DDuplicate /\ ~ (NoDup (map object_key os) /\ forall o, In o os -> ~ In (object_key o) seen)
  | Panic => False
  end.
Proof.
  induction os as [|o os IH]; intros seen; cbn [validate_from map]; [split; [constructor|intros ? []]|].
  change (existsb (fun p => list_eqb (fst p) (ob_name o) && (snd p =? ob_subindex o)) seen)
    with (existsb (fun p => list_eqb (fst p) (fst (object_key o)) && (snd p =? snd (object_key o))) seen).
  destruct (existsb _ seen) eqn:E.
  - apply seen_iff in E. split; auto. intros [_ H]. apply (H o (or_introl eq_refl) E).
  - assert (E' : ~ In (object_key o) seen) by (intros H; apply seen_iff in H; congruence).
    change (ob_name o, ob_subindex o) with (object_key o). specialize (IH (object_key o :: seen)).
    destruct (validate_from (object_key o :: seen) os) as [u|e|]; auto.
    + destruct IH as [N H]. split.
      * constructor; auto. intros I. apply in_map_iff in I as (x & Hx & I). apply (H x I). left. auto.
      * intros x [<-|Hx]; auto. intros I. apply (H x Hx). right; auto.
    + destruct IH as [-> H]. split; auto. intros [N S]. apply H. inversion N as [|? ? N1 N2]; subst. split; auto.
      intros x Hx [I|I]; [|apply (S x (or_intror Hx) I)]. apply N1. rewrite I. now apply in_map.
Qed.
Lemma validate_spec os :
  match validate_mesh_object_subindices os with
  | Ok _ => NoDup (map object_key os)
  | Err e => e = EData DDuplicate /\ ~ NoDup (map object_key os)
  | Panic => False
  end.
Proof.
  unfold validate_mesh_object_subindices. pose proof (validate_from_spec os []) as H.
  destruct (validate_from [] os); [exact (proj1 H)| |exact H]. destruct H as [-> H]. split; auto.
Qed.

(** ** Lists of objects *)

Inductive chain (bounding : list (list Z) -> val) (ver : mesh_version) : list mesh_object -> buffers -> list val -> buffers -> Prop :=
| chain_nil s : chain bounding ver [] s [] s
| chain_cons o n os s vs s' : has_vertex_count o n -> chain bounding ver os (object_state ver o n s) vs s' ->
    chain bounding ver (o :: os) s (object_val bounding ver o n s :: vs) s'.

Definition object_violation (o : mesh_object) (e : err) : Prop :=
  (e = EData DNotTriangles /\ ~ triangles o) \/
  (e = EData DAttrLength /\ exists a b, In a (all_attributes o) /\ In b (all_attributes o) /\ zlen (vec_rows (attr_data a)) <> zlen (vec_rows (attr_data b))) \/
  (e = EData DIndexRange /\ exists n i, has_vertex_count o n /\ In i (ob_indices o) /\ n <= i).

Lemma vertex_count_differ o : vertex_count o = Err (EData DAttrLength) ->
  exists a b, In a (all_attributes o) /\ In b (all_attributes o) /\ zlen (vec_rows (attr_data a)) <> zlen (vec_rows (attr_data b)).
Proof.
  unfold vertex_count. rewrite attr_sizes. destruct (all_attributes o) as [|a r]; cbn [map]; [discriminate|].
  destruct (forallb (Z.eqb (attr_len a)) (map attr_len r)) eqn:E; [discriminate|]. intros _.
  assert (X : exists b, In b r /\ (attr_len a =? attr_len b) = false).
  { clear - E. induction r as [|b r IH]; [discriminate|]. cbn [map forallb] in E. destruct (attr_len a =? attr_len b) eqn:D.
    - destruct IH as (c & H1 & H2); [exact E|]. exists c. split; [right; auto|auto].
    - exists b. split; [left; auto|auto]. }
  destruct X as (b & Hb & N). exists a, b. repeat split; [left; auto|right; auto|]. unfold attr_len in N. lia.
Qed.
Lemma max_index_exceeds l n : match max_index l with Some m => n <=? m | None => false end = true -> exists i, In i l /\ n <= i.
Proof.
  destruct l as [|x l]; cbn [max_index]; [discriminate|]. intros H. exists (fold_left Z.max l x).
  destruct (fold_max_spec l x) as [H1 _]. split; [auto|lia].
Qed.

Lemma create_object_spec bounding ver o s : object_facts o ->
  match create_mesh_object bounding ver o s with
  | Ok r => exists n, object_valid o /\ has_vertex_count o n /\ r = (object_val bounding ver o n s, object_state ver o n s)
  | Err e => object_violation o e
  | Panic => False
  end.
Proof.
  intros F. destruct (create_mesh_object bounding ver o s) as [r|e|] eqn:E.
  - apply create_object_inv in E as (n & T & H & I & ->); auto. exists n. split; [split; [auto|exists n; auto]|auto].
  - unfold create_mesh_object in E. destruct (negb (zlen (ob_indices o) mod 3 =? 0)) eqn:T.
    + injection E as <-. left. split; auto. intros H. apply triangles_ok in H. lia.
    + destruct (vertex_count_err o) as [V|[n V]]; rewrite V in E; cbn [bind] in E.
      * injection E as <-. right; left. split; auto using vertex_count_differ.
      * destruct (match max_index (ob_indices o) with Some m => n <=? m | None => false end) eqn:M; [|discriminate].
        injection E as <-. right; right. split; auto. apply max_index_exceeds in M as (i & H1 & H2). exists n, i.
        apply vertex_count_ok in V. auto.
  - unfold create_mesh_object in E. destruct (negb (zlen (ob_indices o) mod 3 =? 0)); [discriminate|].
    destruct (vertex_count_err o) as [V|[n V]]; rewrite V in E; cbn [bind] in E; [discriminate|].
    destruct (match max_index (ob_indices o) with Some m => n <=? m | None => false end); discriminate.
Qed.

Lemma create_objects_spec bounding ver os : Forall object_facts os -> forall s,
  match create_mesh_objects bounding ver os s with
  | Ok (vs, s') => Forall object_valid os /\ chain bounding ver os s vs s'
  | Err e => exists o, In o os /\ object_violation o e
  | Panic => False
  end.
Proof.
  induction 1 as [|o os F _ IH]; intros s; cbn [create_mesh_objects]; [split; constructor|].
  pose proof (create_object_spec bounding ver o s F) as C. destruct (create_mesh_object bounding ver o s) as [[v s1]|e|]; cbn [bind].
  - destruct C as (n & V & H & [= -> ->]). specialize (IH (object_state ver o n s)).
    destruct (create_mesh_objects bounding ver os (object_state ver o n s)) as [[vs s']|e|]; cbn [bind]; auto.
    + destruct IH as [Fs C]. split; [constructor; auto|constructor; auto].
    + destruct IH as (x & Hx & V'). exists x. split; [right; auto|auto].
  - exists o. split; [left; auto|auto].
  - auto.
Qed.

Lemma mesh_ok_facts d : mesh_ok d = true -> Forall object_facts (mesh_objects d) /\ zlen (mesh_objects d) < 2 ^ 64.
Proof.
  unfold mesh_ok. intros H. apply andb_prop in H as [H L]. split.
  - apply Forall_forall. intros o Ho. rewrite forallb_forall in H. apply object_ok_facts. auto.
  - unfold len_ok in L. apply Z.ltb_lt in L. exact L.
Qed.

Lemma version_of_spec ma mi : match version_of ma mi with
  | Some MV8 => ma = 1 /\ mi = 8 | Some MV9 => ma = 1 /\ mi = 9 | Some MV10 => ma = 1 /\ mi = 10
  | None => ~ (ma = 1 /\ (mi = 8 \/ mi = 9 \/ mi = 10)) end.
Proof.
  unfold version_of. destruct ((ma =? 1) && (mi =? 10)) eqn:E1; [lia|]. destruct ((ma =? 1) && (mi =? 8)) eqn:E2; [lia|].
  destruct ((ma =? 1) && (mi =? 9)) eqn:E3; lia.
Qed.

Lemma create_rigging_spec ver os :
  match create_rigging_buffers ver os with
  | Ok _ => forall o, In o os -> infs_fit ver (ob_influences o)
  | Err e => e = EData DWeightIndex /\ ~ (forall o, In o os -> infs_fit ver (ob_influences o))
  | Panic => False
  end.
Proof.
  unfold create_rigging_buffers. destruct (rigging_groups_err ver os) as [E|[gs E]]; rewrite E; cbn [bind].
  - split; auto. intros H. apply rigging_groups_iff in H as [gs G]. congruence.
  - apply rigging_groups_iff. eauto.
Qed.

Lemma create_inner_spec bounding ver os : Forall object_facts os ->
  match create_mesh_inner bounding ver os with
  | Ok v => exists vs s rig, Forall object_valid os /\ (forall o, In o os -> infs_fit ver (ob_influences o)) /\
      chain bounding ver os no_buffers vs s /\ create_rigging_buffers ver os = Ok rig /\
      v = VStruct [VStruct [ssbh_string []; bounding (flat_map first_positions os); VInt 0; VArr vs;
            VArr (map (fun b => VInt (zlen b mod 2 ^ 32)) [fst (buf0 s); fst (buf1 s); fst (buf2 s); fst (buf3 s)]);
            VInt (zlen (fst (index_buf s))); VArr (map VBytes [fst (buf0 s); fst (buf1 s); fst (buf2 s); fst (buf3 s)]);
            VBytes (fst (index_buf s)); VArr rig]]
  | Err e => (exists o, In o os /\ object_violation o e) \/ (e = EData DWeightIndex /\ ~ (forall o, In o os -> infs_fit ver (ob_influences o)))
  | Panic => False
  end.
Proof.
  intros F. unfold create_mesh_inner. pose proof (create_objects_spec bounding ver os F no_buffers) as C.
  destruct (create_mesh_objects bounding ver os no_buffers) as [[vs s]|e|]; cbn [bind]; [|auto|auto].
  pose proof (create_rigging_spec ver os) as R. destruct (create_rigging_buffers ver os) as [rig|e|] eqn:E; cbn [bind]; [|auto|auto].
  destruct C as [C1 C2]. exists vs, s, rig. auto.
Qed.

Lemma infs_fit_weights d ver : version_of (mesh_major d) (mesh_minor d) = Some ver ->
  (forall o, In o (mesh_objects d) -> infs_fit ver (ob_influences o)) <-> weights_fit d.
Proof.
  intros V. pose proof (version_of_spec (mesh_major d) (mesh_minor d)) as S. rewrite V in S. unfold weights_fit, infs_fit.
  destruct ver; destruct S as [_ S]; (split; [intros H M o i w Ho Hi Hw|intros H o Ho M i w Hi Hw]); try discriminate; try lia; eauto.
Qed.

Theorem create_mesh_result bounding d : mesh_ok d = true ->
  match create_mesh bounding d with Ok _ => mesh_valid d | Err e => mesh_violation d e | Panic => False end.
Proof.
  intros K. destruct (mesh_ok_facts d K) as [F _]. unfold create_mesh. pose proof (validate_spec (mesh_objects d)) as VS.
  destruct (validate_mesh_object_subindices (mesh_objects d)) as [[]|e|]; cbn [bind]; [|destruct VS as [-> VS]; exact VS|auto].
  pose proof (version_of_spec (mesh_major d) (mesh_minor d)) as V.
  destruct (version_of (mesh_major d) (mesh_minor d)) as [ver|] eqn:EV; [|exact V].
  pose proof (create_inner_spec bounding ver (mesh_objects d) F) as C.
  destruct (create_mesh_inner bounding ver (mesh_objects d)) as [v|e|]; auto.
  - destruct C as (vs & s & rig & C1 & C2 & _). unfold mesh_valid. rewrite (infs_fit_weights d ver EV) in C2.
    repeat split; auto; destruct ver; lia.
  - destruct C as [(o & Ho & [(-> & C)|[(-> & C)|(-> & n & i & C)]])|(-> & C)]; cbn.
    + eauto.
    + eauto.
    + exists o, n, i. tauto.
    + now rewrite <- (infs_fit_weights d ver EV).
Qed.

Lemma violation_invalid d e : mesh_violation d e -> ~ mesh_valid d.
Proof.
  intros H (V1 & V2 & V3 & V4 & V5). rewrite Forall_forall in V4.
  destruct e as [| | | | | | | |x|]; try contradiction H. destruct x; try contradiction H; cbn in H.
  - tauto.
  - destruct H as (o & Ho & a & b & Ha & Hb & N). destruct (V4 o Ho) as (_ & n & [H1 _] & _). rewrite (H1 a Ha), (H1 b Hb) in N. congruence.
  - destruct H as (o & n & i & Ho & Hn & Hi & L). destruct (V4 o Ho) as (_ & m & Hm & I).
    apply vertex_count_ok in Hn, Hm. assert (n = m) by congruence. subst m. specialize (I i Hi). lia.
  - destruct H as (o & Ho & N). destruct (V4 o Ho). tauto.
Qed.
Theorem create_mesh_iff bounding d : mesh_ok d = true -> ((exists v, create_mesh bounding d = Ok v) <-> mesh_valid d).
Proof.
  intros K. pose proof (create_mesh_result bounding d K) as H. destruct (create_mesh bounding d) as [v|e|]; split; eauto; try contradiction.
  - intros [v E]; discriminate.
  - intros V. destruct (violation_invalid d e H V).
Qed.

(** ** Places *)

Lemma no_buffers_ok ver : state_ok ver no_buffers.
Proof. split; try reflexivity. destruct ver; cbn; auto. split; [auto|lia]. Qed.

Lemma chain_state bounding ver os s vs s' : chain bounding ver os s vs s' -> Forall object_facts os -> state_ok ver s ->
  state_ok ver s' /\ state_le s s' /\ snd (buf0 s') = snd (buf0 s) + zsum (map (bytes0 ver) os) /\
  snd (buf1 s') = snd (buf1 s) + zsum (map (bytes1 ver) os) /\ snd (buf2 s') = snd (buf2 s) + zsum (map (bytes2 ver) os) /\
  snd (index_buf s') = snd (index_buf s) + zsum (map index_bytes os).
Proof.
  induction 1 as [s|o n os s vs s' H _ IH]; intros F S.
  - cbn [map zsum fold_right]. split; auto. split; [apply state_le_refl|]. lia.
  - inversion F as [|? ? Fo F']; subst. destruct (object_step ver o n s Fo H S) as (S1 & L1 & E0 & E1 & E2 & Ei).
    destruct (IH F' S1) as (S2 & L2 & E0' & E1' & E2' & Ei'). split; auto. split; [eapply state_le_trans; eauto|].
    cbn [map]. unfold zsum in *; cbn [fold_right]. lia.
Qed.

Lemma chain_read bounding ver os s vs s' B0 B1 B2 B3 IB rig f : chain bounding ver os s vs s' -> Forall object_facts os -> state_ok ver s ->
  snd (buf0 s') < 2 ^ 32 -> snd (buf1 s') < 2 ^ 32 -> snd (buf2 s') < 2 ^ 32 -> snd (index_buf s') < 2 ^ 32 ->
  agree everywhere (fst (buf0 s')) B0 -> agree everywhere (fst (buf1 s')) B1 -> agree everywhere (fst (index_buf s')) IB ->
  (forall o, In o os -> read_rigging_data ver rig (ob_name o) (ob_subindex o) = Ok (f o)) ->
  un_list (read_mesh_object ver [B0; B1; B2; B3] IB rig) vs = Ok (map (fun o => stored_object ver (with_influences (f o) o)) os).
Proof.
  induction 1 as [s|o n os s vs s' H C IH]; intros F S L0 L1 L2 Li A0 A1 Ai R; [reflexivity|].
  inversion F as [|? ? Fo F']; subst. destruct (object_step ver o n s Fo H S) as (S1 & SL & _).
  destruct (chain_state _ _ _ _ _ _ C F' S1) as (_ & [] & _). cbn [un_list map].
  rewrite (object_read bounding ver o n s B0 B1 B2 B3 IB rig (f o) Fo H S); try lia;
    try (eapply agree_trans; [|eassumption]; assumption); [|apply R; left; reflexivity].
  cbn [bind]. rewrite IH; auto. intros x Hx. apply R. right; auto.
Qed.

(** The ranges of the k-th object *)
Lemma convert_width l : (if draw_element_type (convert_indices l) =? 0 then 2 else 4) = index_width l.
Proof. unfold convert_indices, index_width. change (2 ^ 16) with 65536. now destruct (forallb _ l). Qed.

Lemma object_ranges_eq bounding ver o n s : object_facts o -> has_vertex_count o n -> state_ok ver s ->
  let s' := object_state ver o n s in
  snd (buf0 s') < 2 ^ 32 -> snd (buf1 s') < 2 ^ 32 -> snd (buf2 s') < 2 ^ 32 -> snd (index_buf s') < 2 ^ 32 ->
  object_ranges (object_val bounding ver o n s) =
    [(snd (buf0 s), bytes0 ver o); (snd (buf1 s), bytes1 ver o);
     (match ver with MV10 => buf2_offset s mod 2 ^ 32 | _ => snd (buf2 s) end, bytes2 ver o); (snd (index_buf s), index_bytes o)].
Proof.
  intros F H S s' L0 L1 L2 Li. pose proof (vertex_count_nonneg o n H) as Hn.
  destruct (object_step ver o n s F H S) as (S' & SL & P0 & P1 & P2 & Pi). fold s' in S', SL, P0, P1, P2, Pi.
  assert (N0 : 0 <= snd (buf0 s)) by (rewrite (so0 _ _ S); apply zlen_nonneg).
  assert (N1 : 0 <= snd (buf1 s)) by (rewrite (so1 _ _ S); apply zlen_nonneg).
  assert (N2 : 0 <= snd (buf2 s)) by (rewrite (so2 _ _ S); apply zlen_nonneg).
  assert (Ni : 0 <= snd (index_buf s)) by (rewrite (soi _ _ S); apply zlen_nonneg).
  assert (Cn : n < 2 ^ 32) by (apply (count_bound ver o n H); lia).
  assert (Ci : zlen (ob_indices o) < 2 ^ 32) by (apply index_count_bound; lia).
  pose proof (zlen_nonneg (ob_indices o)) as Zi. destruct SL. assert (O := soo _ _ S).
  unfold object_ranges, object_val. rewrite convert_width.
  rewrite (Z.mod_small n) by lia. rewrite (Z.mod_small (zlen (ob_indices o))) by lia.
  rewrite (Z.mod_small (snd (buf0 s))) by lia. rewrite (Z.mod_small (snd (buf1 s))) by lia.
  rewrite (Z.mod_small (snd (index_buf s))) by lia.
  rewrite (bytes0_eq ver o n H), (bytes1_eq ver o n H). pose proof (bytes2_eq ver o n H) as B2.
  change (index_bytes o) with (index_width (ob_indices o) * zlen (ob_indices o)).
  rewrite (Z.mul_comm (index_width _)). repeat f_equal.
  - destruct ver; auto; rewrite O, Z.mod_small; lia.
  - destruct ver; lia.
Qed.

(** Start of the range of [x] in the buffers of state [s], and their ends *)
Definition starts (s : buffers) : list Z := [snd (buf0 s); snd (buf1 s); snd (buf2 s); snd (index_buf s)].
Definition within (lo hi : Z) (r : Z * Z) : Prop := snd r = 0 \/ (lo <= fst r /\ 0 <= snd r /\ fst r + snd r <= hi).

Lemma chain_ranges bounding ver os s vs s' : chain bounding ver os s vs s' -> Forall object_facts os -> state_ok ver s ->
  snd (buf0 s') < 2 ^ 32 -> snd (buf1 s') < 2 ^ 32 -> snd (buf2 s') < 2 ^ 32 -> snd (index_buf s') < 2 ^ 32 ->
  forall i v, nth_error vs i = Some v -> exists r0 r1 r2 r3, object_ranges v = [r0; r1; r2; r3] /\
    within (snd (buf0 s)) (snd (buf0 s')) r0 /\ within (snd (buf1 s)) (snd (buf1 s')) r1 /\
    within (snd (buf2 s)) (snd (buf2 s')) r2 /\ within (snd (index_buf s)) (snd (index_buf s')) r3 /\
    forall j w, (j < i)%nat -> nth_error vs j = Some w -> exists q0 q1 q2 q3, object_ranges w = [q0; q1; q2; q3] /\
      (snd q0 = 0 \/ snd r0 = 0 \/ fst q0 + snd q0 <= fst r0) /\ (snd q1 = 0 \/ snd r1 = 0 \/ fst q1 + snd q1 <= fst r1) /\
      (snd q2 = 0 \/ snd r2 = 0 \/ fst q2 + snd q2 <= fst r2) /\ (snd q3 = 0 \/ snd r3 = 0 \/ fst q3 + snd q3 <= fst r3).
Proof.
  induction 1 as [s|o n os s vs s' H C IH]; intros F S L0 L1 L2 Li i v Ei; [destruct i; discriminate|].
  inversion F as [|? ? Fo F']; subst. destruct (object_step ver o n s Fo H S) as (S1 & SL & P0 & P1 & P2 & Pi).
  destruct (chain_state _ _ _ _ _ _ C F' S1) as (_ & SL' & _).
  assert (NB : 0 <= bytes0 ver o /\ 0 <= bytes1 ver o /\ 0 <= bytes2 ver o /\ 0 <= index_bytes o).
  { destruct SL. lia. }
  assert (OR := object_ranges_eq bounding ver o n s Fo H S). destruct SL' as [_ _ _ _ Q0 Q1 Q2 Qi].
  specialize (OR ltac:(lia) ltac:(lia) ltac:(lia) ltac:(lia)).
  destruct i as [|i]; cbn [nth_error] in Ei.
  - injection Ei as <-. do 4 eexists. split; [exact OR|]. unfold within; cbn [fst snd].
    split; [lia|split; [lia|split; [|split; [lia|intros; lia]]]].
    destruct ver; [lia|lia|]. left. rewrite (bytes2_eq _ _ n H). reflexivity.
  - destruct (IH F' S1 L0 L1 L2 Li i v Ei) as (r0 & r1 & r2 & r3 & Er & W0 & W1 & W2 & W3 & D). exists r0, r1, r2, r3.
    destruct SL as [_ _ _ _ R0 R1 R2 R3]. unfold within in *.
    split; [auto|split; [lia|split; [lia|split; [lia|split; [lia|]]]]].
    intros [|j] w Lj Ej; cbn [nth_error] in Ej; [|apply (D j w); [lia|auto]].
    injection Ej as <-. do 4 eexists. split; [exact OR|]. cbn [fst snd].
    split; [lia|split; [lia|split; [|lia]]]. destruct ver; [lia|lia|]. left. rewrite (bytes2_eq _ _ n H). reflexivity.
Qed.

(** ** Well typed meshes *)

Record bytes_state (s : buffers) : Prop := {
  bs0 : bytes_ok (fst (buf0 s)) = true; bs1 : bytes_ok (fst (buf1 s)) = true; bs2 : bytes_ok (fst (buf2 s)) = true;
  bs3 : bytes_ok (fst (buf3 s)) = true; bsi : bytes_ok (fst (index_buf s)) = true }.
Lemma comps_ok w l : bytes_ok (comps w l) = true.
Proof.
  unfold comps. induction l as [|x l IH]; [reflexivity|]. cbn [flat_map]. rewrite bytes_ok_app, le_bytes_ok, IH. reflexivity.
Qed.
Lemma write_components_bytes w row c : bytes_ok (fst c) = true -> bytes_ok (fst (write_components w row c)) = true.
Proof.
  revert c; induction row as [|x r IH]; intros c H; cbn [write_components]; auto. apply IH. unfold write_all; cbn [fst].
  apply put_bytes_ok; auto using le_bytes_ok.
Qed.
Lemma write_vector_bytes w rows i p stride c : bytes_ok (fst c) = true -> bytes_ok (fst (write_vector_data w rows i p stride c)) = true.
Proof.
  revert i c; induction rows as [|x r IH]; intros i c H; cbn [write_vector_data]; auto. apply IH. now apply write_components_bytes.
Qed.
Lemma write_buffer_bytes es p stride c : bytes_ok (fst c) = true -> bytes_ok (fst (write_buffer es p stride c)) = true.
Proof.
  revert p c; induction es as [|x r IH]; intros p c H; cbn [write_buffer]; auto. apply IH. now apply write_vector_bytes.
Qed.
Lemma object_state_bytes ver o n s : bytes_state s -> bytes_state (object_state ver o n s).
Proof.
  intros []. unfold object_state. split; cbn [buf0 buf1 buf2 buf3 index_buf]; auto using write_buffer_bytes.
  - destruct ver; auto; unfold write_all; cbn [fst]; apply put_bytes_ok; auto using bytes_ok_repeat0.
  - unfold write_vertex_indices. destruct (convert_indices _); now apply write_components_bytes.
Qed.
Lemma chain_bytes bounding ver os s vs s' : chain bounding ver os s vs s' -> bytes_state s -> bytes_state s'.
Proof. induction 1; auto using object_state_bytes. Qed.

Definition attribute_ty (ver : mesh_version) : ty := match ver with MV8 => AttributeV8 | MV9 => AttributeV9 | MV10 => AttributeV10 end.
Definition weights_ty (ver : mesh_version) : ty := match ver with MV10 => TBuf | _ => TArr VertexWeightV8 end.
Definition mesh_ty (ver : mesh_version) : ty := Mesh_variant (MeshInner (attribute_ty ver) (weights_ty ver)).
Definition version_pair (ver : mesh_version) : Z * Z := match ver with MV8 => (1, 8) | MV9 => (1, 9) | MV10 => (1, 10) end.

Lemma wt_usage8 u : u <> Binormal -> wt AttributeUsageV8 (VInt (usage_number MV8 u)) = true.
Proof. destruct u; intros H; try reflexivity. congruence. Qed.
Lemma wt_usage9 ver u : ver <> MV8 -> wt AttributeUsageV9 (VInt (usage_number ver u)) = true.
Proof. destruct ver, u; intros H; try reflexivity; congruence. Qed.
Lemma wt_type8 ver t : ver <> MV10 -> t <> HalfFloat2 -> wt AttributeDataTypeV8 (VInt (type_number ver t)) = true.
Proof. destruct ver, t; intros H N; try reflexivity; congruence. Qed.
Lemma wt_type10 t : wt AttributeDataTypeV10 (VInt (type_number MV10 t)) = true.
Proof. destruct t; reflexivity. Qed.
Lemma wt_u32' x : 0 <= x < 2 ^ 32 -> wt u32 (VInt x) = true.
Proof. intros H. cbn [wt u32]. change (256 ^ 4) with (2 ^ 32). lia. Qed.
Lemma wt_u64' x : 0 <= x < 2 ^ 64 -> wt u64 (VInt x) = true.
Proof. intros H. cbn [wt u64]. change (256 ^ 8) with (2 ^ 64). lia. Qed.
Lemma mod32 x : 0 <= x mod 2 ^ 32 < 2 ^ 32.
Proof. apply Z.mod_pos_bound. lia. Qed.

Lemma wt_calc_name u i name : text_ok name = true -> wt SsbhString (calculate_attribute_name u i name) = true.
Proof.
  intros H. unfold calculate_attribute_name, SsbhString.
  destruct u; auto using wt_text; destruct (i =? 0); try destruct (i =? 1); auto using wt_text; now apply wt_text.
Qed.

Lemma wt_attribute ver a : text_ok (a_name a) = true -> 0 <= a_sub a < 2 ^ 32 -> 0 <= a_buffer a < 2 ^ 32 -> 0 <= a_offset a < 2 ^ 32 ->
  (ver = MV8 -> a_usage a <> Binormal) -> (ver <> MV10 -> a_type a <> HalfFloat2) ->
  wt (attribute_ty ver) (attribute_val ver a) = true.
Proof.
  intros Hn Hs Hb Ho Hu Ht. unfold attribute_ty, attribute_val. destruct ver.
  - unfold AttributeV8. rewrite !wt_record_cons, wt_record_nil.
    rewrite wt_usage8, wt_type8, !wt_u32' by (auto using mod32; try discriminate; apply Ht; discriminate). reflexivity.
  - unfold AttributeV9. rewrite !wt_record_cons, wt_record_nil.
    rewrite wt_usage9, wt_type8, !wt_u32', wt_u64', wt_calc_name by (auto using mod32; try discriminate; try lia; apply Ht; discriminate).
    change (wt (TArr SsbhString) (VArr [?x])) with (wt SsbhString x && true). unfold SsbhString. rewrite wt_text by auto. reflexivity.
  - unfold AttributeV10. rewrite !wt_record_cons, wt_record_nil.
    rewrite wt_usage9, wt_type10, !wt_u32', wt_u64', wt_calc_name by (auto using mod32; try discriminate; try lia).
    change (wt (TArr SsbhString) (VArr [?x])) with (wt SsbhString x && true). unfold SsbhString. rewrite wt_text by auto. reflexivity.
Qed.

Lemma wt_cba ver n buffer l : 0 <= buffer < 2 ^ 32 -> (forall it, In it l -> item_fact ver n it) ->
  forall p, In p (create_buffer_attributes buffer 0 l) -> wt (attribute_ty ver) (attribute_val ver (fst p)) = true.
Proof.
  intros Hb H [a e] Hp. apply In_nth_error in Hp as [j Hj]. apply cba_nth in Hj as (E1 & E2 & E3 & _ & E5).
  apply nth_error_In in E5. specialize (H _ E5). cbn in H. destruct H as (H1 & H2 & H3 & H4 & _).
  cbn [fst]. apply wt_attribute; auto; [lia|lia|rewrite E3; apply mod32|]. rewrite E2. exact H4.
Qed.
Lemma zlen_cba buffer offset l : zlen (create_buffer_attributes buffer offset l) = zlen l.
Proof.
  revert offset; induction l as [|[[[? ?] ?] ?] l IH]; intros offset; cbn [create_buffer_attributes]; [reflexivity|].
  now rewrite !zlen_cons, IH.
Qed.
Lemma wt_flag8 b : wt u8 (VInt (Z.b2z b)) = true.
Proof. now destruct b. Qed.

Lemma wt_object bounding ver o n s : bounding_ok bounding -> object_facts o -> has_vertex_count o n ->
  wt (MeshObject (attribute_ty ver)) (object_val bounding ver o n s) = true.
Proof.
  intros B F H. unfold MeshObject, object_val, SsbhString. rewrite !wt_record_cons, wt_record_nil.
  rewrite !wt_text by (apply (of_name o F) || apply (of_parent o F)). rewrite B.
  rewrite wt_u64 by apply (of_sub o F). destruct (stride_bound ver o F) as [T0 T1].
  pose proof (sizes_nonneg (map item_enc (buffer0_data ver o))). pose proof (sizes_nonneg (map item_enc (buffer1_data ver o))).
  rewrite !wt_u32' by (auto using mod32; try lia; (destruct ver; lia) || (destruct (ob_influences o); lia)).
  assert (E1 : wt DrawElementType (VInt (draw_element_type (convert_indices (ob_indices o)))) = true) by (destruct (convert_indices _); reflexivity).
  rewrite E1. change (wt i32 (VInt (ob_bias o))) with (wt f32 (VInt (ob_bias o))). rewrite wt_f32 by apply (of_bias o F).
  assert (E2 : wt DepthFlags (VStruct [VInt (Z.b2z (ob_no_write o)); VInt (Z.b2z (ob_no_test o))]) = true).
  { destruct (ob_no_write o), (ob_no_test o); reflexivity. }
  rewrite E2. cbn [andb]. rewrite andb_true_r.
  change (wt (TArr ?t) (VArr ?l)) with ((zlen l <? two64) && forallb (wt t) l). apply andb_true_intro. split.
  - rewrite zlen_map, zlen_app, !zlen_cba. pose proof (buffers_len ver o F). change two64 with (2 ^ 64). lia.
  - apply forallb_forall. intros v Hv. apply in_map_iff in Hv as (p & <- & Hp). apply in_app_iff in Hp as [Hp|Hp].
    + revert p Hp. apply (wt_cba ver n); [lia|]. apply buffer0_fact; auto.
    + revert p Hp. apply (wt_cba ver n); [lia|]. apply buffer1_fact; auto.
Qed.
Lemma chain_wt bounding ver os s vs s' : bounding_ok bounding -> chain bounding ver os s vs s' -> Forall object_facts os ->
  forallb (wt (MeshObject (attribute_ty ver))) vs = true /\ zlen vs = zlen os.
Proof.
  intros B. induction 1 as [s|o n os s vs s' H _ IH]; intros F; [auto|]. inversion F as [|? ? Fo F']; subst.
  destruct (IH F') as [I1 I2]. cbn [forallb]. rewrite (wt_object bounding ver o n s B Fo H), I1, !zlen_cons, I2. auto.
Qed.

Lemma wt_weights ver l v : forallb weight_ok l = true -> zlen l < 2 ^ 61 -> from_weights ver l = Ok v -> wt (weights_ty ver) v = true.
Proof.
  intros W L E. assert (G : wt (TArr VertexWeightV8) (VArr (map (fun w => VStruct [VInt (wt_index w); VInt (wt_weight w)]) l)) = true).
  { apply (wt_arr_map _ _ weight_ok); auto; [|lia]. intros w Hw. unfold weight_ok in Hw. apply andb_prop in Hw as [H1 H2].
    unfold VertexWeightV8. rewrite !wt_record_cons, wt_record_nil. rewrite (wt_f32 (wt_weight w)) by auto.
    apply is32_range in H1. rewrite wt_u32' by lia. reflexivity. }
  unfold from_weights, weights_ty in *. destruct ver; [injection E as <-; exact G|injection E as <-; exact G|].
  apply bind_ok in E as (bs & E & [= <-]). destruct (weights_v10_read l bs W E) as [_ Z6]. cbn [wt]. change two64 with (2 ^ 64).
  apply andb_true_intro. split; [lia|]. clear - E. revert bs E; induction l as [|w l IH]; intros bs E; cbn [create_vertex_weights_v10] in E.
  - injection E as <-. reflexivity.
  - destruct (wt_index w <? 2 ^ 16); [|discriminate]. apply bind_ok in E as (r & E & E2).
    match type of E2 with Ok ?x = Ok _ => assert (Eb : bs = x) by congruence end. subst bs.
    rewrite !bytes_ok_app, !le_bytes_ok, (IH r E). reflexivity.
Qed.
Lemma wt_bones ver l vs : forallb inf_ok l = true -> bone_buffers ver l = Ok vs -> forallb (wt (BoneBuffer (weights_ty ver))) vs = true.
Proof.
  revert vs; induction l as [|i l IH]; intros vs F E; cbn [bone_buffers forallb] in *; [injection E as <-; reflexivity|].
  apply andb_prop in F as [Fi F]. apply bind_ok in E as (w & Ew & E). apply bind_ok in E as (r & Er & [= <-]).
  cbn [forallb]. rewrite (IH r F Er), andb_true_r. unfold inf_ok in Fi. sp Fi. apply Z.ltb_lt in Fi1.
  unfold BoneBuffer, SsbhString. rewrite !wt_record_cons, wt_record_nil, wt_text by auto. now rewrite (wt_weights ver _ w Fi0 Fi1 Ew).
Qed.
Lemma wt_group ver o g : object_facts o -> group_of ver o g -> wt (RiggingGroup (weights_ty ver)) g = true.
Proof.
  intros F (bufs & Eb & ->). unfold RiggingGroup, SsbhString. rewrite !wt_record_cons, wt_record_nil.
  rewrite wt_text by apply (of_name o F). rewrite wt_u64 by apply (of_sub o F).
  assert (E2 : wt RiggingFlags (VStruct [VInt (calculate_max_influences (ob_influences o) mod 2 ^ 8); VInt 1]) = true).
  { unfold RiggingFlags, padded. rewrite wt_struct. cbn [map wt_fields fst wt u8 app]. change (256 ^ 1) with (2 ^ 8).
    pose proof (Z.mod_pos_bound (calculate_max_influences (ob_influences o)) (2 ^ 8) ltac:(lia)). cbn [andb]. lia. }
  rewrite E2. cbn [andb]. rewrite andb_true_r.
  change (wt (TArr ?t) (VArr ?l)) with ((zlen l <? two64) && forallb (wt t) l). rewrite (wt_bones ver _ _ (of_infs o F) Eb), andb_true_r.
  rewrite (bone_buffers_len ver _ _ Eb). pose proof (of_inf_len o F) as L. unfold len_ok in L. exact L.
Qed.

Lemma create_mesh_inner_of bounding d v : create_mesh bounding d = Ok v ->
  exists ver, version_of (mesh_major d) (mesh_minor d) = Some ver /\ (mesh_major d, mesh_minor d) = version_pair ver /\
    NoDup (map object_key (mesh_objects d)) /\ create_mesh_inner bounding ver (mesh_objects d) = Ok v.
Proof.
  intros E. unfold create_mesh in E. apply bind_ok in E as ([] & EV & E).
  pose proof (validate_spec (mesh_objects d)) as VS. rewrite EV in VS.
  pose proof (version_of_spec (mesh_major d) (mesh_minor d)) as V.
  destruct (version_of (mesh_major d) (mesh_minor d)) as [ver|]; [|discriminate]. exists ver. repeat split; auto.
  destruct ver; destruct V as [-> ->]; reflexivity.
Qed.
Lemma create_mesh_inv bounding d v : mesh_ok d = true -> create_mesh bounding d = Ok v ->
  exists ver vs s rig, version_of (mesh_major d) (mesh_minor d) = Some ver /\ (mesh_major d, mesh_minor d) = version_pair ver /\
    NoDup (map object_key (mesh_objects d)) /\
    chain bounding ver (mesh_objects d) no_buffers vs s /\ create_rigging_buffers ver (mesh_objects d) = Ok rig /\
    v = VStruct [VStruct [ssbh_string []; bounding (flat_map first_positions (mesh_objects d)); VInt 0; VArr vs;
          VArr (map (fun b => VInt (zlen b mod 2 ^ 32)) [fst (buf0 s); fst (buf1 s); fst (buf2 s); fst (buf3 s)]);
          VInt (zlen (fst (index_buf s))); VArr (map VBytes [fst (buf0 s); fst (buf1 s); fst (buf2 s); fst (buf3 s)]);
          VBytes (fst (index_buf s)); VArr rig]].
Proof.
  intros K E. destruct (mesh_ok_facts d K) as [F _]. destruct (create_mesh_inner_of bounding d v E) as (ver & V & P & N & I).
  pose proof (create_inner_spec bounding ver (mesh_objects d) F) as C. rewrite I in C.
  destruct C as (vs & s & rig & _ & _ & C1 & C2 & C3). exists ver, vs, s, rig. repeat split; auto.
Qed.


Lemma mesh_version_eq d ver : version_of (mesh_major d) (mesh_minor d) = Some ver -> mesh_version_of d = ver.
Proof.
  intros E. pose proof (version_of_spec (mesh_major d) (mesh_minor d)) as V. rewrite E in V. unfold mesh_version_of.
  destruct ver; destruct V as [_ ->]; reflexivity.
Qed.
Lemma group_list ver os' rig : Forall object_facts os' -> Forall2 (group_of ver) os' rig ->
  forallb (wt (RiggingGroup (weights_ty ver))) rig = true /\ zlen rig = zlen os'.
Proof.
  intros F H. induction H as [|o g os' rig G _ IH]; [auto|]. inversion F as [|? ? Fo F']; subst. destruct (IH F') as [I1 I2].
  cbn [forallb]. rewrite (wt_group ver o g Fo G), I1, !zlen_cons, I2. auto.
Qed.

Lemma chain_lengths bounding ver os vs s : chain bounding ver os no_buffers vs s -> Forall object_facts os -> mesh_fits ver os ->
  state_ok ver s /\ zlen (fst (buf0 s)) < 2 ^ 32 /\ zlen (fst (buf1 s)) < 2 ^ 32 /\ zlen (fst (buf2 s)) < 2 ^ 32 /\
  zlen (fst (index_buf s)) < 2 ^ 32 /\ fst (buf3 s) = [].
Proof.
  intros C F (M0 & M1 & M2 & Mi). destruct (chain_state _ _ _ _ _ _ C F (no_buffers_ok ver)) as (S & _ & E0 & E1 & E2 & Ei).
  cbn [no_buffers buf0 buf1 buf2 index_buf snd] in *. rewrite <- (so0 _ _ S), <- (so1 _ _ S), <- (so2 _ _ S), <- (soi _ _ S), (so3 _ _ S).
  split; [exact S|]. repeat split; lia.
Qed.

Lemma mesh_inner_file_ok bounding ver d v : bounding_ok bounding -> mesh_ok d = true -> mesh_fits ver (mesh_objects d) ->
  (mesh_major d, mesh_minor d) = version_pair ver -> create_mesh_inner bounding ver (mesh_objects d) = Ok v ->
  file_ok (mkFile Mesh (mesh_major d, mesh_minor d) v).
Proof.
  intros B K M EP E. destruct (mesh_ok_facts d K) as [F L].
  pose proof (create_inner_spec bounding ver (mesh_objects d) F) as C. rewrite E in C.
  destruct C as (vs & s & rig & _ & _ & C & R & ->).
  destruct (chain_lengths _ _ _ _ _ C F M) as (S & L0 & L1 & L2 & Li & E3).
  destruct (chain_bytes _ _ _ _ _ _ C) as [b0 b1 b2 b3 bi]; [split; reflexivity|].
  destruct (chain_wt _ _ _ _ _ _ B C F) as [W1 W2].
  apply rigging_inv in R as (os' & P & G & _).
  assert (F' : Forall object_facts os') by (rewrite Forall_forall in *; intros x Hx; apply F; eapply Permutation_in; [apply Permutation_sym|]; eauto).
  destruct (group_list ver os' rig F' G) as [G1 G2].
  assert (P2 : zlen os' = zlen (mesh_objects d)) by (unfold zlen; now rewrite (Permutation_length P)).
  exists (mesh_ty ver). cbn [fkind fver fbody]. rewrite EP. split; [destruct ver; reflexivity|].
  unfold mesh_ty, Mesh_variant. rewrite wt_struct. cbn [map wt_fields fst]. rewrite andb_true_r.
  unfold MeshInner. rewrite !wt_record_cons, wt_record_nil. unfold SsbhString at 1. rewrite wt_text by reflexivity. rewrite B.
  rewrite wt_u32' by lia.
  change (wt (TArr ?t) (VArr ?l)) with ((zlen l <? two64) && forallb (wt t) l).
  rewrite W1, W2, G1, G2, P2. replace (zlen (mesh_objects d) <? two64) with true by (change two64 with (2 ^ 64); lia).
  rewrite wt_u64' by (pose proof (zlen_nonneg (fst (index_buf s))); lia).
  rewrite E3. cbn [map forallb]. rewrite !wt_u32' by apply mod32.
  change (wt TBuf (VBytes ?bs)) with ((zlen bs <? two64) && bytes_ok bs). rewrite b0, b1, b2, bi.
  change two64 with (2 ^ 64). replace (zlen (fst (buf0 s)) <? 2 ^ 64) with true by lia.
  replace (zlen (fst (buf1 s)) <? 2 ^ 64) with true by lia. replace (zlen (fst (buf2 s)) <? 2 ^ 64) with true by lia.
  replace (zlen (fst (index_buf s)) <? 2 ^ 64) with true by lia. reflexivity.
Qed.

Lemma mesh_file_ok bounding d v : bounding_ok bounding -> mesh_ok d = true -> mesh_fits (mesh_version_of d) (mesh_objects d) ->
  create_mesh bounding d = Ok v -> file_ok (mkFile Mesh (mesh_major d, mesh_minor d) v).
Proof.
  intros B K M E. destruct (create_mesh_inner_of bounding d v E) as (ver & V & P & N & I).
  rewrite (mesh_version_eq d ver V) in M. now apply (mesh_inner_file_ok bounding ver d v).
Qed.

#[local] Strategy opaque [typed_write typed_read].

Lemma un_mesh_inner bounding ver d v f : mesh_ok d = true -> mesh_fits ver (mesh_objects d) ->
  version_of (mesh_major d) (mesh_minor d) = Some ver -> create_mesh_inner bounding ver (mesh_objects d) = Ok v ->
  (forall rig, create_rigging_buffers ver (mesh_objects d) = Ok rig ->
     forall o, In o (mesh_objects d) -> read_rigging_data ver rig (ob_name o) (ob_subindex o) = Ok (f o)) ->
  un_mesh (mesh_major d, mesh_minor d) v =
  Ok (MkMesh (mesh_major d) (mesh_minor d) (map (fun o => stored_object ver (with_influences (f o) o)) (mesh_objects d))).
Proof.
  intros K M EV E Rf. destruct (mesh_ok_facts d K) as [F L].
  pose proof (create_inner_spec bounding ver (mesh_objects d) F) as C. rewrite E in C.
  destruct C as (vs & s & rig & _ & _ & C & R & ->).
  destruct (chain_lengths _ _ _ _ _ C F M) as (S & L0 & L1 & L2 & Li & E3).
  unfold un_mesh. cbn [fst snd]. rewrite EV. rewrite un_list_map by reflexivity. cbn [bind].
  rewrite (chain_read bounding ver (mesh_objects d) no_buffers vs s) with (rig := rig) (f := f); auto using no_buffers_ok, agree_refl;
    try (rewrite (so0 _ _ S) || rewrite (so1 _ _ S) || rewrite (so2 _ _ S) || rewrite (soi _ _ S); auto).
Qed.
Lemma un_mesh_create bounding d v : mesh_ok d = true -> mesh_fits (mesh_version_of d) (mesh_objects d) ->
  create_mesh bounding d = Ok v -> un_mesh (mesh_major d, mesh_minor d) v =
  Ok (MkMesh (mesh_major d) (mesh_minor d) (map (stored_object (mesh_version_of d)) (mesh_objects d))).
Proof.
  intros K M E. destruct (mesh_ok_facts d K) as [F L]. destruct (create_mesh_inner_of bounding d v E) as (ver & V & P & N & I).
  rewrite (mesh_version_eq d ver V) in *.
  rewrite (un_mesh_inner bounding ver d v ob_influences K M V I).
  - reflexivity.
  - intros rig R o Ho. eapply rigging_lookup; eauto.
Qed.

Theorem mesh_save_load bounding d out : bounding_ok bounding -> mesh_ok d = true -> mesh_fits (mesh_version_of d) (mesh_objects d) ->
  mesh_data_write bounding d = Ok out -> zlen out < 2 ^ 63 ->
  mesh_data_read out = Ok (stored_mesh d).
Proof.
  intros B K M E L. unfold mesh_data_write in E. apply bind_ok in E as (v & Ev & E).
  pose proof (typed_roundtrip _ _ _ _ (mesh_file_ok bounding d v B K M Ev) E L) as T. unfold mesh_data_read. rewrite T. cbn [bind].
  exact (un_mesh_create bounding d v K M Ev).
Qed.
Theorem mesh_write_result bounding d : bounding_ok bounding -> mesh_ok d = true -> mesh_fits (mesh_version_of d) (mesh_objects d) ->
  (mesh_valid d -> exists out, mesh_data_write bounding d = Ok out) /\
  (~ mesh_valid d -> exists e, mesh_data_write bounding d = Err e /\ mesh_violation d e).
Proof.
  intros B K M. pose proof (create_mesh_result bounding d K) as R. unfold mesh_data_write. split; intros V.
  - apply (create_mesh_iff bounding d K) in V as [v Ev]. rewrite Ev. cbn [bind]. apply typed_write_total. eapply mesh_file_ok; eauto.
  - destruct (create_mesh bounding d) as [v|e|]; [contradiction|exists e; auto|contradiction].
Qed.

(** ** Places, for a whole mesh *)
Theorem mesh_ranges bounding d v : mesh_ok d = true -> mesh_fits (mesh_version_of d) (mesh_objects d) -> create_mesh bounding d = Ok v ->
  exists vs bufs ib, mesh_parts v = Some (vs, bufs, ib) /\ length vs = length (mesh_objects d) /\
  (forall i o w, nth_error vs i = Some w -> nth_error (mesh_objects d) i = Some o ->
     map snd (object_ranges w) = [bytes0 (mesh_version_of d) o; bytes1 (mesh_version_of d) o; bytes2 (mesh_version_of d) o; index_bytes o] /\
     forall b r, nth_error (object_ranges w) b = Some r -> forall x, in_range r x -> 0 <= x < zlen (part_bytes bufs ib b)) /\
  (forall i j w1 w2 b r1 r2, i <> j -> nth_error vs i = Some w1 -> nth_error vs j = Some w2 ->
     nth_error (object_ranges w1) b = Some r1 -> nth_error (object_ranges w2) b = Some r2 -> forall x, ~ (in_range r1 x /\ in_range r2 x)).
Proof.
  intros K M E. destruct (mesh_ok_facts d K) as [F L].
  destruct (create_mesh_inv bounding d v K E) as (ver & vs & s & rig & EV & EP & N & C & R & ->).
  rewrite (mesh_version_eq d ver EV) in *.
  destruct (chain_lengths _ _ _ _ _ C F M) as (S & L0 & L1 & L2 & Li & E3).
  assert (CR := chain_ranges _ _ _ _ _ _ C F (no_buffers_ok ver)).
  rewrite (so0 _ _ S), (so1 _ _ S), (so2 _ _ S), (soi _ _ S) in CR. specialize (CR L0 L1 L2 Li).
  cbn [no_buffers buf0 buf1 buf2 index_buf snd] in CR.
  do 3 eexists. split; [reflexivity|].
  assert (LV : length vs = length (mesh_objects d)) by (clear - C; induction C; cbn [length]; auto).
  split; [exact LV|]. split; [intros i o w Hw Ho; split|].
  - clear CR K L EV EP N R E. revert M i o w Hw Ho. clear - C F L0 L1 L2 Li S. intros _.
    assert (SO := no_buffers_ok ver). revert SO. generalize no_buffers C.
    clear C. intros s0 C. induction C as [s|o n os s1 vs s' H C IH]; intros SO [|i] o' w Hw Ho; try discriminate; cbn [nth_error] in Hw, Ho.
    + injection Hw as <-. injection Ho as <-. inversion F as [|? ? Fo F']; subst.
      destruct (object_step ver o n s1 Fo H SO) as (S1 & _). destruct (chain_state _ _ _ _ _ _ C F' S1) as (_ & [] & _).
      rewrite <- (so0 _ _ S) in L0. rewrite <- (so1 _ _ S) in L1. rewrite <- (so2 _ _ S) in L2. rewrite <- (soi _ _ S) in Li.
      rewrite (object_ranges_eq bounding ver o n s1 Fo H SO) by lia. reflexivity.
    + inversion F as [|? ? Fo F']; subst. destruct (object_step ver o n s1 Fo H SO) as (S1 & _). eapply IH; eauto.
  - destruct (CR i w Hw) as (r0 & r1 & r2 & r3 & Er & W0 & W1 & W2 & W3 & _). rewrite Er. unfold within, in_range, part_bytes in *.
    intros [|[|[|[|b]]]] r Hr x Hx; cbn [nth_error map] in *; [injection Hr as <-; lia..|destruct b; discriminate].
  - assert (D : forall i j w1 w2 b r1 r2, (j < i)%nat -> nth_error vs i = Some w1 -> nth_error vs j = Some w2 ->
       nth_error (object_ranges w1) b = Some r1 -> nth_error (object_ranges w2) b = Some r2 -> forall x, ~ (in_range r1 x /\ in_range r2 x)).
    { intros i j w1 w2 b r1 r2 Lij H1 H2 Hr1 Hr2 x. destruct (CR i w1 H1) as (r0 & ra & rb & rc & Er & _ & _ & _ & _ & D).
      destruct (D j w2 Lij H2) as (q0 & qa & qb & qc & Eq & D0 & D1 & D2 & D3). rewrite Er in Hr1. rewrite Eq in Hr2.
      unfold in_range. destruct b as [|[|[|[|b]]]]; cbn [nth_error] in *; [injection Hr1 as <-; injection Hr2 as <-; lia..|destruct b; discriminate]. }
    intros i j w1 w2 b r1 r2 Nij H1 H2 Hr1 Hr2 x [X1 X2]. destruct (Nat.lt_trichotomy i j) as [T|[T|T]]; [|congruence|].
    + exact (D j i w2 w1 b r2 r1 T H2 H1 Hr2 Hr1 x (conj X2 X1)).
    + exact (D i j w1 w2 b r1 r2 T H1 H2 Hr1 Hr2 x (conj X1 X2)).
Qed.

(** ** Statements of the properties *)

Lemma row_bytes_comps t row : row_bytes t row = comps (component_size t) row.
Proof. reflexivity. Qed.
Lemma vertex_size_sizes items : vertex_size items = sizes (map item_enc items).
Proof. unfold vertex_size, sizes. now rewrite map_map. Qed.

Theorem interleaved n base k items b p : 0 <= n -> 0 <= base ->
  (forall it, In it items -> encoded_ok n (snd it) = true) -> vertex_size items < 2 ^ 32 ->
  let attrs := create_buffer_attributes k 0 items in
  let stride := total_stride attrs in
  let b' := fst (write_buffer (map snd attrs) base stride (b, p)) in
  map snd attrs = map snd items /\ stride = vertex_size items /\
  (forall a e, In (a, e) attrs -> a_buffer a = k /\ vector_read b' n (base + a_offset a) stride (a_type a) = Ok (decoded e) /\
     forall i row, nth_error (enc_rows e) i = Some row ->
       get_bytes (Z.to_nat (size_in_bytes (a_type a))) b' (base + a_offset a + Z.of_nat i * stride) = Some (row_bytes (a_type a) row)) /\
  (forall x y, x < base \/ base + n * stride <= x -> byte_at b x = Some y -> byte_at b' x = Some y).
Proof.
  intros Hn Hb He Hv attrs stride b'. rewrite vertex_size_sizes in *.
  assert (ES : stride = sizes (map item_enc items)) by (apply total_stride_sizes; auto).
  assert (EM : map snd attrs = map item_enc items) by apply cba_encoded.
  assert (He' : forall e, In e (map item_enc items) -> encoded_ok n e = true).
  { intros e H. apply in_map_iff in H as (it & <- & H). apply He. auto. }
  destruct (write_buffer_spec n stride base (map item_enc items) Hb Hn He' 0 (b, p)) as (A & G & _ & _); [lia|lia|].
  rewrite Z.add_0_r in *. unfold b'. rewrite EM. split; [reflexivity|]. split; [exact ES|]. cbn [fst] in A. split.
  - intros a e Hp. apply In_nth_error in Hp as [j Hj]. apply cba_nth in Hj as (E1 & E2 & E3 & E4 & _). split; [exact E1|].
    pose proof (sizes_firstn j (map item_enc items)) as SF.
    assert (EO : a_offset a = sizes (firstn j (map item_enc items))) by (rewrite E3, Z.mod_small; lia).
    rewrite EO, E2. specialize (G j e E4). split; [|exact G].
    apply vector_read_get; auto; [apply He'; eapply nth_error_In; eauto|].
    rewrite ES. destruct (map item_enc items) as [|e0 es]; [destruct j; discriminate|]. rewrite sizes_cons. pose proof (sizes_nonneg es).
    pose proof (size_pos (enc_type e0)). lia.
  - intros x y Hx Hy. apply A; auto. intros (i & Hi & Hx2).
    assert (0 <= i * stride) by (apply Z.mul_nonneg_nonneg; pose proof (sizes_nonneg (map item_enc items)); lia).
    assert ((i + 1) * stride <= n * stride) by (apply Z.mul_le_mono_nonneg_r; pose proof (sizes_nonneg (map item_enc items)); lia). lia.
Qed.

Lemma chain_indices bounding ver os s vs s' IB : chain bounding ver os s vs s' -> Forall object_facts os -> state_ok ver s ->
  snd (buf0 s') < 2 ^ 32 -> snd (buf1 s') < 2 ^ 32 -> snd (buf2 s') < 2 ^ 32 -> snd (index_buf s') < 2 ^ 32 ->
  agree everywhere (fst (index_buf s')) IB ->
  forall i o w, nth_error os i = Some o -> nth_error vs i = Some w ->
  exists r, un_raw w = Ok r /\ read_vertex_indices IB r = Ok (ob_indices o) /\
    r_index_count r = zlen (ob_indices o) /\ (r_type r = 0 <-> forall x, In x (ob_indices o) -> x < 65536).
Proof.
  induction 1 as [s|o n os s vs s' H C IH]; intros F S L0 L1 L2 Li A i o' w Eo Ew; [destruct i; discriminate|].
  inversion F as [|? ? Fo F']; subst. destruct (object_step ver o n s Fo H S) as (S1 & SL & P0 & P1 & P2 & Pi).
  destruct i as [|i]; cbn [nth_error] in Eo, Ew; [|eapply IH; eauto].
  injection Eo as <-. injection Ew as <-. destruct (chain_state _ _ _ _ _ _ C F' S1) as (_ & [_ _ _ Ai Q0 Q1 Q2 Qi] & _).
  pose proof (indices_read (ob_indices o) (index_buf s) IB (zlen (ob_indices o)) (of_indices o Fo) (soi _ _ S)) as R.
  specialize (R (agree_trans _ _ _ _ Ai A) eq_refl).
  assert (Ni : 0 <= snd (index_buf s)) by (rewrite (soi _ _ S); apply zlen_nonneg).
  assert (Ci : zlen (ob_indices o) < 2 ^ 32) by (apply index_count_bound; lia). pose proof (zlen_nonneg (ob_indices o)) as Zi.
  destruct SL as [_ _ _ _ R0 R1 R2 R3].
  eexists. split; [reflexivity|]. unfold read_vertex_indices. cbn [r_type r_index_count r_index_offset].
  rewrite (Z.mod_small (zlen (ob_indices o))) by lia. rewrite (Z.mod_small (snd (index_buf s))) by lia.
  split; [|split; [reflexivity|]].
  - revert R. clear. unfold convert_indices, index_width.
    change (2 ^ 16) with 65536. destruct (forallb (fun i => i <? 65536) (ob_indices o)); cbn [draw_element_type]; auto.
  - unfold convert_indices. change (2 ^ 16) with 65536. destruct (forallb (fun i => i <? 65536) (ob_indices o)) eqn:X; cbn [draw_element_type].
    + rewrite forallb_forall in X. split; auto. intros _ x Hx. specialize (X x Hx). lia.
    + split; [discriminate|]. intros Y. exfalso. apply eq_true_false_abs with (2 := X). apply forallb_forall. intros x Hx. specialize (Y x Hx). lia.
Qed.

Theorem mesh_indices bounding d v : mesh_ok d = true -> mesh_fits (mesh_version_of d) (mesh_objects d) -> create_mesh bounding d = Ok v ->
  exists vs bufs ib, mesh_parts v = Some (vs, bufs, ib) /\
  forall i o w, nth_error (mesh_objects d) i = Some o -> nth_error vs i = Some w ->
  exists r, un_raw w = Ok r /\ read_vertex_indices ib r = Ok (ob_indices o) /\
    r_index_count r = zlen (ob_indices o) /\ (r_type r = 0 <-> forall x, In x (ob_indices o) -> x < 65536).
Proof.
  intros K M E. destruct (mesh_ok_facts d K) as [F L].
  destruct (create_mesh_inv bounding d v K E) as (ver & vs & s & rig & EV & EP & N & C & R & ->).
  rewrite (mesh_version_eq d ver EV) in *.
  destruct (chain_lengths _ _ _ _ _ C F M) as (S & L0 & L1 & L2 & Li & E3).
  do 3 eexists. split; [reflexivity|]. eapply chain_indices; eauto using no_buffers_ok, agree_refl;
    (rewrite (so0 _ _ S) || rewrite (so1 _ _ S) || rewrite (so2 _ _ S) || rewrite (soi _ _ S)); auto.
Qed.

Theorem index_width_spec l b rest : forallb is32 l = true ->
  let b' := fst (write_vertex_indices (convert_indices l) (b, zlen b)) in
  (draw_element_type (convert_indices l) = 0 <-> forall i, In i l -> i < 65536) /\
  zlen b' = zlen b + (if draw_element_type (convert_indices l) =? 0 then 2 else 4) * zlen l /\
  (forall o, r_type o = draw_element_type (convert_indices l) -> r_index_count o = zlen l -> r_index_offset o = zlen b ->
     read_vertex_indices (b' ++ rest) o = Ok l).
Proof.
  intros H b'. assert (R : ready (b, zlen b)) by reflexivity. split; [|split].
  - unfold convert_indices. change (2 ^ 16) with 65536. destruct (forallb (fun i => i <? 65536) l) eqn:X; cbn [draw_element_type].
    + rewrite forallb_forall in X. split; auto. intros _ x Hx. specialize (X x Hx). lia.
    + split; [discriminate|]. intros Y. exfalso. apply eq_true_false_abs with (2 := X). apply forallb_forall. intros x Hx. specialize (Y x Hx). lia.
  - unfold b'. rewrite write_indices_eq by apply zlen_nonneg. rewrite convert_width.
    destruct (write_all_ready (comps (index_width l) l) (b, zlen b) R) as (R' & P & _). rewrite <- R', P, zlen_comps; [reflexivity|].
    pose proof (width_pos l). lia.
  - intros o T Ic Io. unfold read_vertex_indices. rewrite T, Ic, Io.
    assert (A : agree everywhere b' (b' ++ rest)).
    { intros x y _ Hy. destruct (Z.ltb_spec x 0) as [Hx|Hx]; [rewrite byte_at_none in Hy by lia; discriminate|].
      rewrite byte_at_nth in * by lia. rewrite nth_error_app1; auto. apply nth_error_Some. congruence. }
    pose proof (indices_read l (b, zlen b) (b' ++ rest) (zlen l) H R A eq_refl) as X. cbn [snd] in X. rewrite <- convert_width in X.
    destruct (draw_element_type (convert_indices l) =? 0); exact X.
Qed.

Theorem groups_sorted ver os rig : forallb object_ok os = true -> NoDup (map object_key os) -> create_rigging_buffers ver os = Ok rig ->
  exists os', Permutation os os' /\ StronglySorted key_lt (map object_key os') /\
    map group_parts rig = map (fun o => Some (ob_name o, ob_subindex o, calculate_max_influences (ob_influences o) mod 256, zlen (ob_influences o))) os'.
Proof.
  intros K N E. assert (F : Forall object_facts os).
  { apply Forall_forall. intros o Ho. rewrite forallb_forall in K. apply object_ok_facts. auto. }
  apply rigging_inv in E as (os' & P & G & S). exists os'. split; [exact P|].
  assert (F' : Forall object_facts os') by (rewrite Forall_forall in *; intros x Hx; apply F; eapply Permutation_in; [apply Permutation_sym|]; eauto).
  assert (N' : NoDup (map object_key os')) by (eapply Permutation_NoDup; [apply Permutation_map; exact P|exact N]).
  split.
  - assert (EK : map group_key rig = map object_key os').
    { clear - F' G. induction G as [|o g os' rig Go _ IH]; [reflexivity|]. inversion F' as [|? ? Fo F2]; subst.
      cbn [map]. rewrite IH, (group_key_of ver o g Fo Go) by auto. reflexivity. }
    assert (S' : StronglySorted (fun a b => key_leb a b = true) (map object_key os')).
    { rewrite <- EK. clear - S. induction S as [|g rig _ IH X]; cbn [map]; constructor; auto. rewrite Forall_forall in *.
      intros k Hk. apply in_map_iff in Hk as (g2 & <- & Hg). apply X. auto. }
    clear - N' S'. induction S' as [|k ks _ IH X]; constructor; inversion N' as [|? ? N1 N2]; subst; [auto|].
    rewrite Forall_forall in *. intros k2 Hk. specialize (X k2 Hk). apply key_leb_iff in X as [->|X]; [contradiction|exact X].
  - clear - F' G. induction G as [|o g os' rig (bufs & Eb & ->) _ IH]; [reflexivity|]. inversion F' as [|? ? Fo F2]; subst.
    cbn [map]. rewrite IH by auto. cbn [group_parts]. rewrite text_roundtrip by apply (of_name o Fo). rewrite (bone_buffers_len ver _ _ Eb). reflexivity.
Qed.
