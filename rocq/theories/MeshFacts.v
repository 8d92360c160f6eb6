(** Vertex buffers, index buffers and attributes of meshes. *)
From Coq Require Import Lia ZifyBool ZifyNat ZifyN.
From Verif Require Import Bytes BytesFacts Ssbh Formats File FileFacts Strings AnimBuf AnimSpec DataSpec VecData MeshData MeshSpec
  FloatFacts VecFacts AnimFacts AnimDataFacts SmallDataFacts.
Ltac Zify.zify_post_hook ::= ZifyBool.elim_bool_cstr; Z.to_euclidean_division_equations.

(** ** Encoded vectors *)

Lemma zlen_map {A B} (f : A -> B) l : zlen (map f l) = zlen l.
Proof. unfold zlen. now rewrite map_length. Qed.

Lemma rows_id (rows : list (list Z)) : map (map (fun x => x)) rows = rows.
Proof. rewrite (map_ext _ (fun r => r)); [apply map_id|]. intros r. apply map_id. Qed.

Lemma vec_ok_row v row : vec_ok v = true -> In row (vec_rows v) ->
  zlen row = Z.of_nat (dim_count (vec_dim v)) /\ forall x, In x row -> 0 <= x < 2 ^ 32.
Proof.
  unfold vec_ok. rewrite forallb_forall. intros H Hr. specialize (H row Hr). apply andb_prop in H as [H1 H2].
  split; [lia|]. rewrite forallb_forall in H2. intros x Hx. apply is32_range. auto.
Qed.

Lemma encoded_ok_floats v t : vec_ok v = true -> type_dim t = vec_dim v -> component_size t = 4 ->
  encoded_ok (zlen (vec_rows v)) (MkEnc t (vec_rows v)) = true.
Proof.
  intros H Ht Hc. unfold encoded_ok; cbn [enc_rows enc_type]. rewrite Z.eqb_refl. cbn [andb].
  apply forallb_forall. intros row Hr. destruct (vec_ok_row v row H Hr) as [H1 H2].
  unfold row_ok. rewrite Ht, H1, Z.eqb_refl. cbn [andb]. apply forallb_forall. intros x Hx. specialize (H2 x Hx).
  rewrite Hc. change (256 ^ 4) with (2 ^ 32). lia.
Qed.
Lemma encoded_ok_map v t f : vec_ok v = true -> type_dim t = vec_dim v ->
  (forall x, 0 <= f x < 256 ^ component_size t) ->
  encoded_ok (zlen (vec_rows v)) (MkEnc t (map (map f) (vec_rows v))) = true.
Proof.
  intros H Ht Hf. unfold encoded_ok; cbn [enc_rows enc_type]. rewrite zlen_map, Z.eqb_refl. cbn [andb].
  apply forallb_forall. intros row' Hr. apply in_map_iff in Hr as (row & <- & Hr).
  destruct (vec_ok_row v row H Hr) as [H1 _]. unfold row_ok. rewrite zlen_map, Ht, H1, Z.eqb_refl. cbn [andb].
  apply forallb_forall. intros y Hy. apply in_map_iff in Hy as (x & <- & _). specialize (Hf x). lia.
Qed.

Lemma half_component x : 0 <= f16_from_f32 x < 256 ^ 2.
Proof. pose proof (f16_from_f32_bound x). change (256 ^ 2) with (2 ^ 16). lia. Qed.
Lemma byte_component x : 0 <= get_u8_clamped x < 256 ^ 1.
Proof. pose proof (get_u8_clamped_bound x). change (256 ^ 1) with 256. lia. Qed.

Lemma from_positions_ok ver v : vec_ok v = true -> encoded_ok (zlen (vec_rows v)) (from_positions ver v) = true.
Proof. intros H. unfold from_positions. destruct (vec_dim v) eqn:E; apply encoded_ok_floats; auto. Qed.
Lemma from_vectors_ok ver v : vec_ok v = true -> encoded_ok (zlen (vec_rows v)) (from_vectors ver v) = true.
Proof.
  intros H. unfold from_vectors, get_f16_vectors.
  destruct ver, (vec_dim v) eqn:E; (apply encoded_ok_floats || apply encoded_ok_map); auto using half_component.
Qed.
Lemma from_colors_ok ver v : vec_ok v = true -> encoded_ok (zlen (vec_rows v)) (from_colors ver v) = true.
Proof.
  intros H. unfold from_colors, get_f16_vectors, get_clamped_u8_vectors.
  destruct ver, (vec_dim v) eqn:E; (apply encoded_ok_floats || apply encoded_ok_map); auto using half_component, byte_component.
Qed.

Lemma decoded_positions ver v : decoded (from_positions ver v) = v.
Proof.
  destruct v as [d rows]. unfold from_positions, decoded; cbn [vec_dim vec_rows].
  destruct d; cbn [enc_type enc_rows type_dim decode]; f_equal; apply rows_id.
Qed.
Lemma decoded_vectors ver v : decoded (from_vectors ver v) = stored_vectors ver v.
Proof.
  destruct v as [d rows]. unfold from_vectors, decoded, stored_vectors, get_f16_vectors, half_rows; cbn [vec_dim vec_rows].
  destruct ver, d; cbn [enc_type enc_rows type_dim decode]; f_equal; rewrite ?rows_id; auto;
    rewrite map_map; apply map_ext; intros r; apply map_map.
Qed.
Lemma decoded_colors ver v : decoded (from_colors ver v) = stored_colors ver v.
Proof.
  destruct v as [d rows].
  unfold from_colors, decoded, stored_colors, get_f16_vectors, get_clamped_u8_vectors, half_rows, colour_rows; cbn [vec_dim vec_rows].
  destruct ver, d; cbn [enc_type enc_rows type_dim decode]; f_equal; rewrite ?rows_id; auto;
    rewrite map_map; apply map_ext; intros r; apply map_map.
Qed.

(** ** A block of vertices appended to a buffer *)

Definition ready (c : cursor) : Prop := snd c = zlen (fst c).

Lemma write_block n es c : ready c -> 0 <= n -> (forall e, In e es -> encoded_ok n e = true) ->
  let c' := write_buffer es (snd c) (sizes es) c in
  ready c' /\ snd c' = snd c + n * sizes es /\ agree everywhere (fst c) (fst c') /\
  (forall j e, nth_error es j = Some e -> forall k row, nth_error (enc_rows e) k = Some row ->
     get_bytes (Z.to_nat (size_in_bytes (enc_type e))) (fst c') (snd c + sizes (firstn j es) + Z.of_nat k * sizes es)
     = Some (comps (component_size (enc_type e)) row)).
Proof.
  intros R Hn He. pose proof (zlen_nonneg (fst c)) as Lc. unfold ready in *.
  destruct (write_buffer_spec n (sizes es) (snd c) es) with (o := 0) (c := c) as (A & G & L & P); auto; try lia.
  rewrite Z.add_0_r in *. set (c' := write_buffer es (snd c) (sizes es) c) in *.
  pose proof (sizes_nonneg es) as Hs.
  assert (E : (if (n =? 0) || (sizes es =? 0) then snd c else snd c + (n - 1) * sizes es + sizes es) = snd c + n * sizes es).
  { destruct (Z.eqb_spec n 0) as [->|]; cbn [orb]; [lia|]. destruct (Z.eqb_spec (sizes es) 0) as [->|]; [lia|]. ring. }
  assert (E2 : zlen (fst c') = snd c + n * sizes es).
  { rewrite L, <- E, R. destruct ((n =? 0) || (sizes es =? 0)) eqn:B; [reflexivity|].
    assert (0 <= (n - 1) * sizes es) by (apply Z.mul_nonneg_nonneg; lia). lia. }
  rewrite E in P. repeat split; [lia|lia| |exact G].
  intros x y _ Hy. apply A; [|exact Hy]. intros (k & Hk & Hk2).
  assert (x < zlen (fst c)).
  { destruct (Z.ltb_spec x (zlen (fst c))); [lia|]. rewrite byte_at_none in Hy by lia. discriminate. }
  assert (0 <= k * sizes es) by (apply Z.mul_nonneg_nonneg; lia). lia.
Qed.

Lemma block_read n es c b : ready c -> 0 <= n -> (forall e, In e es -> encoded_ok n e = true) ->
  agree everywhere (fst (write_buffer es (snd c) (sizes es) c)) b ->
  forall j e, nth_error es j = Some e ->
  vector_read b n (snd c + sizes (firstn j es)) (sizes es) (enc_type e) = Ok (decoded e).
Proof.
  intros R Hn He A j e Ej. destruct (write_block n es c R Hn He) as (_ & _ & _ & G).
  apply vector_read_get; [apply He; eapply nth_error_In; eauto| |].
  - destruct es as [|e0 es]; [destruct j; discriminate|]. rewrite sizes_cons. pose proof (sizes_nonneg es).
    pose proof (size_pos (enc_type e0)). lia.
  - intros k row Ek. exact (get_bytes_agree everywhere _ _ _ _ _ (fun _ _ => I) A (G _ _ Ej _ _ Ek)).
Qed.

(** ** Attributes *)

Definition item_enc (i : list Z * Z * usage * encoded) : encoded := snd i.

Lemma cba_encoded buffer offset l : map snd (create_buffer_attributes buffer offset l) = map item_enc l.
Proof.
  revert offset; induction l as [|[[[name i] u] e] r IH]; intros offset; cbn [create_buffer_attributes map]; [reflexivity|].
  now rewrite IH.
Qed.
Lemma cba_types buffer offset l :
  map (fun p => size_in_bytes (a_type (fst p))) (create_buffer_attributes buffer offset l)
  = map (fun e => size_in_bytes (enc_type e)) (map item_enc l).
Proof.
  revert offset; induction l as [|[[[name i] u] e] r IH]; intros offset; cbn [create_buffer_attributes map]; [reflexivity|].
  now rewrite IH.
Qed.
Lemma cba_nth buffer offset l j a e : nth_error (create_buffer_attributes buffer offset l) j = Some (a, e) ->
  a_buffer a = buffer /\ a_type a = enc_type e /\ a_offset a = (offset + sizes (firstn j (map item_enc l))) mod 2 ^ 32 /\
  nth_error (map item_enc l) j = Some e /\ nth_error l j = Some (a_name a, a_sub a, a_usage a, e).
Proof.
  revert offset j; induction l as [|[[[name i] u] e0] r IH]; intros offset j E; [destruct j; discriminate|].
  destruct j as [|j]; cbn [create_buffer_attributes nth_error map firstn] in *.
  - injection E as <- <-. cbn [a_buffer a_type a_offset a_name a_sub a_usage]. change (sizes []) with 0. rewrite Z.add_0_r. auto.
  - apply IH in E as (E1 & E2 & E3 & E4 & E5). repeat split; auto. rewrite E3, sizes_cons. f_equal. unfold item_enc; cbn [snd]. lia.
Qed.

Lemma total_stride_sizes buffer l : sizes (map item_enc l) < 2 ^ 32 ->
  total_stride (create_buffer_attributes buffer 0 l) = sizes (map item_enc l).
Proof.
  intros H. unfold total_stride. rewrite cba_types. fold (sizes (map item_enc l)). apply Z.mod_small.
  pose proof (sizes_nonneg (map item_enc l)). lia.
Qed.

Lemma sizes_app a b : sizes (a ++ b) = sizes a + sizes b.
Proof. induction a as [|e a IH]; [reflexivity|]. rewrite <- app_comm_cons, !sizes_cons, IH. lia. Qed.
Lemma sizes_firstn j es : 0 <= sizes (firstn j es) <= sizes es.
Proof.
  rewrite <- (firstn_skipn j es) at 3. rewrite sizes_app. pose proof (sizes_nonneg (firstn j es)).
  pose proof (sizes_nonneg (skipn j es)). lia.
Qed.
Lemma sizes_bound es : sizes es <= 16 * zlen es.
Proof.
  induction es as [|e es IH]; [reflexivity|]. rewrite sizes_cons, zlen_cons.
  assert (size_in_bytes (enc_type e) <= 16) by (destruct (enc_type e); cbn; lia). lia.
Qed.

(** ** The items of an object *)

Lemma get_attributes_In f u i l it : In it (get_attributes f u i l) ->
  exists a k, In a l /\ i <= k < i + zlen l /\ it = (attr_name a, k, u, f (attr_data a)).
Proof.
  revert i; induction l as [|a l IH]; intros i H; [destruct H|]. cbn [get_attributes] in H. rewrite zlen_cons.
  pose proof (zlen_nonneg l). destruct H as [<-|H].
  - exists a, i. repeat split; [left; reflexivity|lia|lia].
  - apply IH in H as (a' & k & H1 & H2 & H3). exists a', k. repeat split; [right; auto|lia|lia|auto].
Qed.
Lemma zlen_get_attributes f u i l : zlen (get_attributes f u i l) = zlen l.
Proof. revert i; induction l as [|a l IH]; intros i; [reflexivity|]. cbn [get_attributes]. now rewrite !zlen_cons, IH. Qed.

(** What every item satisfies *)
Definition item_fact (ver : mesh_version) (n : Z) (it : list Z * Z * usage * encoded) : Prop :=
  let '(name, i, u, e) := it in
  text_ok name = true /\ 0 <= i < 2 ^ 28 /\ (ver = MV8 -> u <> Binormal) /\ (ver <> MV10 -> enc_type e <> HalfFloat2) /\
  encoded_ok n e = true.

Lemma get_attributes_fact ver n f u l :
  (forall a, In a l -> attr_ok a = true /\ zlen (vec_rows (attr_data a)) = n) -> zlen l < 2 ^ 28 ->
  (forall v, vec_ok v = true -> encoded_ok (zlen (vec_rows v)) (f v) = true) ->
  (ver = MV8 -> u <> Binormal) -> (forall v, ver <> MV10 -> enc_type (f v) <> HalfFloat2) ->
  forall it, In it (get_attributes f u 0 l) -> item_fact ver n it.
Proof.
  intros Hl Ln Hf Hu Ht it H. apply get_attributes_In in H as (a & k & H1 & H2 & ->).
  destruct (Hl a H1) as [A N]. unfold attr_ok in A. apply andb_prop in A as [A1 A2].
  cbn. repeat split; auto; try lia. rewrite <- N. auto.
Qed.

Lemma from_positions_type ver v : ver <> MV10 -> enc_type (from_positions ver v) <> HalfFloat2.
Proof. unfold from_positions. destruct (vec_dim v); cbn; discriminate. Qed.
Lemma from_vectors_type ver v : ver <> MV10 -> enc_type (from_vectors ver v) <> HalfFloat2.
Proof. unfold from_vectors. destruct ver, (vec_dim v); cbn; intros; try discriminate; congruence. Qed.
Lemma from_colors_type ver v : ver <> MV10 -> enc_type (from_colors ver v) <> HalfFloat2.
Proof. unfold from_colors. destruct ver, (vec_dim v); cbn; intros; try discriminate; congruence. Qed.

Record object_facts (o : mesh_object) : Prop := {
  of_name : text_ok (ob_name o) = true; of_sub : u64_ok (ob_subindex o) = true; of_parent : text_ok (ob_parent o) = true;
  of_bias : is32 (ob_bias o) = true; of_indices : forallb is32 (ob_indices o) = true;
  of_attrs : forall a, In a (all_attributes o) -> attr_ok a = true; of_count : zlen (all_attributes o) < 2 ^ 28;
  of_infs : forallb inf_ok (ob_influences o) = true; of_inf_len : len_ok (ob_influences o) = true }.
Lemma object_ok_facts o : object_ok o = true -> object_facts o.
Proof.
  unfold object_ok. intros H. sp H. split; auto; [|apply Z.ltb_lt; assumption].
  intros a. match goal with X : forallb attr_ok _ = true |- _ => rewrite forallb_forall in X; apply X end.
Qed.

Lemma part_facts o n : object_facts o -> has_vertex_count o n ->
  forall l, incl l (all_attributes o) -> forall a, In a l -> attr_ok a = true /\ zlen (vec_rows (attr_data a)) = n.
Proof. intros F [H _] l I a Ha. split; [apply (of_attrs o F)|apply H]; auto. Qed.

Ltac incl_tac := let x := fresh in intros x ?; unfold all_attributes; rewrite !in_app_iff; tauto.
Ltac len_tac o F := let c := fresh in pose proof (of_count o F) as c; unfold all_attributes in c; rewrite !zlen_app in c;
  pose proof (zlen_nonneg (ob_positions o)); pose proof (zlen_nonneg (ob_normals o)); pose proof (zlen_nonneg (ob_binormals o));
  pose proof (zlen_nonneg (ob_tangents o)); pose proof (zlen_nonneg (ob_texcoords o)); pose proof (zlen_nonneg (ob_colors o)); lia.

Lemma buffer0_fact ver o n : object_facts o -> has_vertex_count o n ->
  forall it, In it (buffer0_data ver o) -> item_fact ver n it.
Proof.
  intros F H it Hi. unfold buffer0_data in Hi. rewrite !in_app_iff in Hi.
  destruct Hi as [Hi|[Hi|[Hi|Hi]]].
  - revert it Hi. apply get_attributes_fact; auto using from_positions_ok, from_positions_type; [|len_tac o F|discriminate].
    apply (part_facts o n F H). incl_tac.
  - revert it Hi. apply get_attributes_fact; auto using from_vectors_ok, from_vectors_type; [|len_tac o F|discriminate].
    apply (part_facts o n F H). incl_tac.
  - destruct ver; [destruct Hi| |];
      (revert it Hi; apply get_attributes_fact; auto using from_vectors_ok, from_vectors_type; [|len_tac o F|discriminate];
       apply (part_facts o n F H); incl_tac).
  - revert it Hi. apply get_attributes_fact; auto using from_vectors_ok, from_vectors_type; [|len_tac o F|discriminate].
    apply (part_facts o n F H). incl_tac.
Qed.
Lemma buffer1_fact ver o n : object_facts o -> has_vertex_count o n ->
  forall it, In it (buffer1_data ver o) -> item_fact ver n it.
Proof.
  intros F H it Hi. unfold buffer1_data in Hi. rewrite !in_app_iff in Hi.
  destruct Hi as [Hi|Hi].
  - revert it Hi. apply get_attributes_fact; auto using from_vectors_ok, from_vectors_type; [|len_tac o F|discriminate].
    apply (part_facts o n F H). incl_tac.
  - revert it Hi. apply get_attributes_fact; auto using from_colors_ok, from_colors_type; [|len_tac o F|discriminate].
    apply (part_facts o n F H). incl_tac.
Qed.
Lemma buffers_len ver o : object_facts o -> zlen (buffer0_data ver o) + zlen (buffer1_data ver o) < 2 ^ 28.
Proof.
  intros F. unfold buffer0_data, buffer1_data. destruct ver; rewrite ?zlen_app, ?zlen_get_attributes, ?zlen_nil; len_tac o F.
Qed.
Lemma stride_bound ver o : object_facts o ->
  sizes (map item_enc (buffer0_data ver o)) < 2 ^ 32 /\ sizes (map item_enc (buffer1_data ver o)) < 2 ^ 32.
Proof.
  intros F. pose proof (buffers_len ver o F). pose proof (sizes_bound (map item_enc (buffer0_data ver o))) as A.
  pose proof (sizes_bound (map item_enc (buffer1_data ver o))) as B. rewrite zlen_map in A, B.
  pose proof (zlen_nonneg (buffer0_data ver o)). pose proof (zlen_nonneg (buffer1_data ver o)). lia.
Qed.

(** ** Sizes *)
Lemma zsum_app a b : zsum (a ++ b) = zsum a + zsum b.
Proof. unfold zsum. induction a as [|x a IH]; [reflexivity|]. cbn [fold_right app] in *. lia. Qed.

Lemma get_attributes_bytes (size : dim -> Z) f u i l n :
  (forall v, size_in_bytes (enc_type (f v)) = size (vec_dim v)) -> (forall a, In a l -> zlen (vec_rows (attr_data a)) = n) ->
  n * sizes (map item_enc (get_attributes f u i l)) = attribute_bytes size l.
Proof.
  intros Hf. revert i; induction l as [|a l IH]; intros i Hl; [unfold attribute_bytes; cbn; lia|].
  cbn [get_attributes map]. rewrite sizes_cons. unfold attribute_bytes. cbn [map zsum fold_right].
  fold (zsum (map (fun a => size (vec_dim (attr_data a)) * zlen (vec_rows (attr_data a))) l)).
  fold (attribute_bytes size l). rewrite <- (IH (i + 1)) by (intros; apply Hl; right; auto).
  rewrite (Hl a (or_introl eq_refl)). unfold item_enc at 1; cbn [snd]. rewrite Hf. ring.
Qed.
Lemma from_positions_size ver v : size_in_bytes (enc_type (from_positions ver v)) = position_bytes (vec_dim v).
Proof. unfold from_positions. now destruct (vec_dim v). Qed.
Lemma from_vectors_size ver v : size_in_bytes (enc_type (from_vectors ver v)) = vector_bytes ver (vec_dim v).
Proof. unfold from_vectors. now destruct ver, (vec_dim v). Qed.
Lemma from_colors_size ver v : size_in_bytes (enc_type (from_colors ver v)) = color_bytes ver (vec_dim v).
Proof. unfold from_colors. now destruct ver, (vec_dim v). Qed.

Lemma bytes0_eq ver o n : has_vertex_count o n -> n * sizes (map item_enc (buffer0_data ver o)) = bytes0 ver o.
Proof.
  intros [H _]. unfold buffer0_data, bytes0. rewrite !map_app, !sizes_app, !Z.mul_add_distr_l.
  rewrite (get_attributes_bytes position_bytes) by (auto using from_positions_size; intros a ?; apply H; unfold all_attributes; rewrite !in_app_iff; tauto).
  rewrite !(get_attributes_bytes (vector_bytes ver)) with (l := ob_normals o) by (auto using from_vectors_size; intros a ?; apply H; unfold all_attributes; rewrite !in_app_iff; tauto).
  rewrite !(get_attributes_bytes (vector_bytes ver)) with (l := ob_tangents o) by (auto using from_vectors_size; intros a ?; apply H; unfold all_attributes; rewrite !in_app_iff; tauto).
  destruct ver; [change (sizes (map item_enc [])) with 0; lia| |];
    rewrite !(get_attributes_bytes (vector_bytes _)) with (l := ob_binormals o) by (auto using from_vectors_size; intros a ?; apply H; unfold all_attributes; rewrite !in_app_iff; tauto); lia.
Qed.
Lemma bytes1_eq ver o n : has_vertex_count o n -> n * sizes (map item_enc (buffer1_data ver o)) = bytes1 ver o.
Proof.
  intros [H _]. unfold buffer1_data, bytes1. rewrite !map_app, !sizes_app, !Z.mul_add_distr_l.
  rewrite (get_attributes_bytes (vector_bytes ver)) by (auto using from_vectors_size; intros a ?; apply H; unfold all_attributes; rewrite !in_app_iff; tauto).
  rewrite (get_attributes_bytes (color_bytes ver)) by (auto using from_colors_size; intros a ?; apply H; unfold all_attributes; rewrite !in_app_iff; tauto).
  reflexivity.
Qed.
Lemma bytes2_eq ver o n : has_vertex_count o n -> bytes2 ver o = match ver with MV10 => 0 | _ => 32 * n end.
Proof.
  intros [H H0]. unfold bytes2. destruct ver; auto; (destruct (all_attributes o) as [|a r] eqn:E;
    [rewrite (H0 eq_refl); reflexivity|rewrite (H a (or_introl eq_refl)); reflexivity]).
Qed.

(** ** Validation of one object *)

Lemma attr_sizes o : map attr_len (ob_positions o) ++ map attr_len (ob_normals o) ++ map attr_len (ob_binormals o)
  ++ map attr_len (ob_tangents o) ++ map attr_len (ob_texcoords o) ++ map attr_len (ob_colors o) = map attr_len (all_attributes o).
Proof. unfold all_attributes. now rewrite !map_app. Qed.

Lemma vertex_count_ok o n : vertex_count o = Ok n <-> has_vertex_count o n.
Proof.
  unfold vertex_count. rewrite attr_sizes. unfold has_vertex_count. destruct (all_attributes o) as [|a r]; cbn [map].
  - split; [intros [= <-]; split; [intros ? []|reflexivity]|]. intros [_ H]. now rewrite H.
  - destruct (forallb (Z.eqb (attr_len a)) (map attr_len r)) eqn:E.
    + rewrite forallb_forall in E. split.
      * intros [= <-]. split; [|discriminate]. intros b [<-|Hb]; [reflexivity|].
        specialize (E (attr_len b) (in_map _ _ _ Hb)). unfold attr_len in *. lia.
      * intros [H _]. f_equal. apply (H a). left; reflexivity.
    + split; [discriminate|]. intros [H _]. exfalso. apply eq_true_false_abs with (2 := E). apply forallb_forall.
      intros x Hx. apply in_map_iff in Hx as (b & <- & Hb). unfold attr_len. rewrite (H a), (H b); [lia|right; auto|left; auto].
Qed.
Lemma vertex_count_err o : vertex_count o = Err (EData DAttrLength) \/ exists n, vertex_count o = Ok n.
Proof. unfold vertex_count. rewrite attr_sizes. destruct (map attr_len _); eauto. destruct (forallb _ _); eauto. Qed.

Lemma fold_max_le l m x : fold_left Z.max l m < x <-> m < x /\ forall i, In i l -> i < x.
Proof.
  revert m; induction l as [|y l IH]; intros m; cbn [fold_left].
  - split; [intros H; split; [auto|intros ? []]|tauto].
  - rewrite IH. split.
    + intros [H1 H2]. split; [lia|]. intros i [<-|Hi]; [lia|auto].
    + intros [H1 H2]. split; [|intros; apply H2; right; auto]. specialize (H2 y (or_introl eq_refl)). lia.
Qed.
Lemma max_index_ok l n : match max_index l with Some m => n <=? m | None => false end = false <-> forall i, In i l -> i < n.
Proof.
  destruct l as [|x l]; cbn [max_index]; [split; [intros _ ? []|reflexivity]|].
  rewrite Z.leb_gt, fold_max_le. split.
  - intros [H1 H2] i [<-|Hi]; auto.
  - intros H. split; [apply H; left; reflexivity|]. intros; apply H; right; auto.
Qed.
Lemma triangles_ok o : zlen (ob_indices o) mod 3 = 0 <-> triangles o.
Proof. unfold triangles. split; [intros H; exists (zlen (ob_indices o) / 3); lia|intros [k Hk]; lia]. Qed.

(** ** Indices *)

Definition index_width (l : list Z) : Z := if forallb (fun i => i <? 65536) l then 2 else 4.
Lemma write_indices_eq l c : 0 <= snd c ->
  write_vertex_indices (convert_indices l) c = write_all (comps (index_width l) l) c.
Proof.
  intros H. unfold convert_indices, index_width. change (2 ^ 16) with 65536. destruct (forallb _ l); cbn [write_vertex_indices];
    apply write_components_eq; auto.
Qed.
Lemma index_comps l : forallb is32 l = true -> forallb (fun x => (0 <=? x) && (x <? 256 ^ index_width l)) l = true.
Proof.
  rewrite !forallb_forall. intros H x Hx. specialize (H x Hx). apply is32_range in H. unfold index_width.
  destruct (forallb (fun i => i <? 65536) l) eqn:E.
  - rewrite forallb_forall in E. specialize (E x Hx). change (256 ^ 2) with 65536. lia.
  - change (256 ^ 4) with (2 ^ 32). lia.
Qed.
Lemma width_pos l : 0 < index_width l.
Proof. unfold index_width. destruct (forallb _ l); lia. Qed.

Lemma write_all_ready bs c : ready c ->
  ready (write_all bs c) /\ snd (write_all bs c) = snd c + zlen bs /\ agree everywhere (fst c) (fst (write_all bs c)) /\
  get_bytes (length bs) (fst (write_all bs c)) (snd c) = Some bs.
Proof.
  intros R. unfold ready, write_all in *; cbn [fst snd]. pose proof (zlen_nonneg (fst c)). pose proof (zlen_nonneg bs).
  rewrite put_len by lia. repeat split.
  - destruct bs as [|b bs]; [rewrite zlen_nil; lia|lia].
  - intros x y _ Hy. apply put_out; [lia| |exact Hy].
    assert (x < zlen (fst c)); [|lia]. destruct (Z.ltb_spec x (zlen (fst c))); [lia|]. rewrite byte_at_none in Hy by lia. discriminate.
  - apply get_put; lia.
Qed.

Lemma indices_read l c b n : forallb is32 l = true -> ready c ->
  agree everywhere (fst (write_vertex_indices (convert_indices l) c)) b -> n = zlen l ->
  read_data (index_width l) b n (snd c) = Ok l.
Proof.
  intros H R A ->. unfold read_data. pose proof (zlen_nonneg (fst c)). unfold ready in R.
  rewrite write_indices_eq in A by lia. destruct (write_all_ready (comps (index_width l) l) c R) as (_ & _ & _ & G).
  replace (Z.to_nat (zlen l)) with (length l) by (unfold zlen; lia).
  pose proof (width_pos l) as W. apply read_components_get; [exact W|apply index_comps; auto|].
  apply (get_bytes_agree everywhere _ _ _ _ _ (fun _ _ => I) A).
  replace (Z.to_nat (index_width l * zlen l)) with (length (comps (index_width l) l)); [exact G|].
  pose proof (zlen_comps (index_width l) l). unfold zlen in *. lia.
Qed.

(** ** Reading attributes *)

(** What [un_attribute] makes of a stored attribute *)
Definition rd_attr (ver : mesh_version) (a : attribute) : attribute :=
  MkAttribute (match ver with MV8 => usage_text (a_usage a) ++ decimal (a_sub a) | _ => a_name a end)
              (a_sub a) (a_buffer a) (a_usage a) (a_type a) (a_offset a).

Lemma un_usage_number ver u : (ver = MV8 -> u <> Binormal) -> un_usage ver (usage_number ver u) = Ok u.
Proof. destruct ver, u; intros H; try reflexivity. now destruct (H eq_refl). Qed.
Lemma un_type_number ver t : (ver <> MV10 -> t <> HalfFloat2) -> un_type ver (type_number ver t) = Ok t.
Proof. destruct ver, t; intros H; try reflexivity; exfalso; apply H; auto; discriminate. Qed.

Lemma un_attribute_val ver a : text_ok (a_name a) = true -> 0 <= a_sub a < 2 ^ 32 ->
  (ver = MV8 -> a_usage a <> Binormal) -> (ver <> MV10 -> a_type a <> HalfFloat2) ->
  un_attribute ver (attribute_val ver a) = Ok (rd_attr ver a).
Proof.
  intros Hn Hs Hu Ht. unfold attribute_val, un_attribute, rd_attr.
  destruct ver; rewrite un_usage_number by auto; cbn [bind]; rewrite un_type_number by auto; cbn [bind].
  - rewrite Z.mod_small by lia. reflexivity.
  - rewrite text_roundtrip by auto. reflexivity.
  - rewrite text_roundtrip by auto. reflexivity.
Qed.

Lemma un_list_ok {A} (un : val -> res A) vs rs :
  Forall2 (fun v a => un v = Ok a) vs rs -> un_list un vs = Ok rs.
Proof. induction 1 as [|v a vs rs H _ IH]; [reflexivity|]. cbn [un_list]. rewrite H. cbn [bind]. rewrite IH. reflexivity. Qed.

Lemma cba_facts ver n buffer l : (forall it, In it l -> item_fact ver n it) ->
  forall p, In p (create_buffer_attributes buffer 0 l) -> un_attribute ver (attribute_val ver (fst p)) = Ok (rd_attr ver (fst p)).
Proof.
  intros H [a e] Hp. apply In_nth_error in Hp as [j Hj]. apply cba_nth in Hj as (_ & E2 & _ & _ & E5).
  apply nth_error_In in E5. specialize (H _ E5). cbn in H. destruct H as (H1 & H2 & H3 & H4 & _).
  cbn [fst]. apply un_attribute_val; auto; [lia|]. rewrite E2. exact H4.
Qed.

Lemma un_attributes ver l : (forall p, In p l -> un_attribute ver (attribute_val ver (fst p)) = Ok (rd_attr ver (fst p))) ->
  un_list (un_attribute ver) (map (fun p : attribute * encoded => attribute_val ver (fst p)) l)
  = Ok (map (fun p => rd_attr ver (fst p)) l).
Proof.
  intros H. apply un_list_ok. induction l as [|p l IH]; cbn [map]; constructor; [apply H; left; reflexivity|].
  apply IH. intros q Hq. apply H. right; auto.
Qed.

Lemma read_filtered bufs r ver u (L : list (attribute * encoded)) :
  (forall p, In p L -> read_attribute_data bufs r (rd_attr ver (fst p)) = Ok (decoded (snd p))) ->
  read_attributes bufs r (map (fun p => rd_attr ver (fst p)) L) u
  = Ok (map (fun p => MkAttr (a_name (rd_attr ver (fst p))) (decoded (snd p))) (filter (fun p => usage_eqb (a_usage (fst p)) u) L)).
Proof.
  intros H. unfold read_attributes. induction L as [|p L IH]; [reflexivity|].
  cbn [map filter]. cbn [rd_attr a_usage]. destruct (usage_eqb (a_usage (fst p)) u).
  - cbn [read_each map]. rewrite (H p (or_introl eq_refl)). cbn [bind]. rewrite IH by (intros q Hq; apply H; right; auto). reflexivity.
  - apply IH. intros q Hq. apply H. right; auto.
Qed.

Definition item_data (ver : mesh_version) (it : list Z * Z * usage * encoded) : attribute_data :=
  let '(name, i, u, e) := it in MkAttr (match ver with MV8 => usage_text u ++ decimal i | _ => name end) (decoded e).
Definition item_usage (it : list Z * Z * usage * encoded) : usage := let '(_, _, u, _) := it in u.

Lemma cba_filter ver buffer u l : forall offset,
  map (fun p => MkAttr (a_name (rd_attr ver (fst p))) (decoded (snd p)))
      (filter (fun p => usage_eqb (a_usage (fst p)) u) (create_buffer_attributes buffer offset l))
  = map (item_data ver) (filter (fun it => usage_eqb (item_usage it) u) l).
Proof.
  induction l as [|[[[name i] u'] e] l IH]; intros offset; [reflexivity|].
  cbn [create_buffer_attributes filter fst a_usage item_usage]. destruct (usage_eqb u' u); cbn [map]; rewrite IH; reflexivity.
Qed.

Lemma usage_eqb_refl u : usage_eqb u u = true.
Proof. now destruct u. Qed.
Lemma filter_segment f u u' i l : filter (fun it => usage_eqb (item_usage it) u) (get_attributes f u' i l)
  = if usage_eqb u' u then get_attributes f u' i l else [].
Proof.
  revert i; induction l as [|a l IH]; intros i; cbn [get_attributes filter item_usage]; [now destruct (usage_eqb u' u)|].
  rewrite IH. now destruct (usage_eqb u' u).
Qed.
Lemma segment_data ver f g u i l : (forall v, decoded (f v) = g v) ->
  map (item_data ver) (get_attributes f u i l) = stored_attributes ver g u i l.
Proof.
  intros H. revert i; induction l as [|a l IH]; intros i; [reflexivity|].
  cbn [get_attributes map stored_attributes item_data]. rewrite H, IH. reflexivity.
Qed.

Definition all_items (ver : mesh_version) (o : mesh_object) := buffer0_data ver o ++ buffer1_data ver o.
Definition usage_data (ver : mesh_version) (o : mesh_object) (u : usage) : list attribute_data :=
  map (item_data ver) (filter (fun it => usage_eqb (item_usage it) u) (all_items ver o)).

Lemma usage_data_eq ver o :
  usage_data ver o Position = stored_attributes ver (fun v => v) Position 0 (ob_positions o) /\
  usage_data ver o Normal = stored_attributes ver (stored_vectors ver) Normal 0 (ob_normals o) /\
  usage_data ver o Binormal = match ver with MV8 => [] | _ => stored_attributes ver (stored_vectors ver) Binormal 0 (ob_binormals o) end /\
  usage_data ver o Tangent = stored_attributes ver (stored_vectors ver) Tangent 0 (ob_tangents o) /\
  usage_data ver o TextureCoordinate = stored_attributes ver (stored_vectors ver) TextureCoordinate 0 (ob_texcoords o) /\
  usage_data ver o ColorSet = stored_attributes ver (stored_colors ver) ColorSet 0 (ob_colors o).
Proof.
  unfold usage_data, all_items, buffer0_data, buffer1_data.
  destruct ver; repeat split; rewrite !filter_app, ?filter_segment; cbn [usage_eqb filter app]; rewrite ?app_nil_r, ?app_nil_l;
    try (apply segment_data; auto using decoded_positions, decoded_vectors, decoded_colors); reflexivity.
Qed.

(** ** One object *)

Record state_ok (ver : mesh_version) (s : buffers) : Prop := {
  so0 : ready (buf0 s); so1 : ready (buf1 s); so2 : ready (buf2 s); so3 : buf3 s = ([], 0); soi : ready (index_buf s);
  soo : match ver with MV10 => buf2 s = ([], 0) /\ 0 <= buf2_offset s | _ => buf2_offset s = snd (buf2 s) end }.
Record state_le (s s' : buffers) : Prop := {
  sl0 : agree everywhere (fst (buf0 s)) (fst (buf0 s')); sl1 : agree everywhere (fst (buf1 s)) (fst (buf1 s'));
  sl2 : agree everywhere (fst (buf2 s)) (fst (buf2 s')); sli : agree everywhere (fst (index_buf s)) (fst (index_buf s'));
  sp0 : snd (buf0 s) <= snd (buf0 s'); sp1 : snd (buf1 s) <= snd (buf1 s'); sp2 : snd (buf2 s) <= snd (buf2 s');
  spi : snd (index_buf s) <= snd (index_buf s') }.
Lemma state_le_refl s : state_le s s.
Proof. split; try apply agree_refl; lia. Qed.
Lemma state_le_trans a b c : state_le a b -> state_le b c -> state_le a c.
Proof.
  intros [] []. split; try lia; eapply agree_trans; eauto.
Qed.

Definition indices_below (o : mesh_object) (n : Z) : Prop := forall i, In i (ob_indices o) -> i < n.

(** The value and the buffers after one object with [n] vertices *)
Definition object_val (bounding : list (list Z) -> val) (ver : mesh_version) (o : mesh_object) (n : Z) (s : buffers) : val :=
  VStruct [ssbh_string (ob_name o); VInt (ob_subindex o); ssbh_string (ob_parent o);
           VInt (n mod 2 ^ 32); VInt (zlen (ob_indices o) mod 2 ^ 32); VInt 3;
           VInt (snd (buf0 s) mod 2 ^ 32); VInt (snd (buf1 s) mod 2 ^ 32);
           VInt (buf2_offset s mod 2 ^ 32); VInt (snd (buf3 s) mod 2 ^ 32);
           VInt (sizes (map item_enc (buffer0_data ver o))); VInt (sizes (map item_enc (buffer1_data ver o)));
           VInt (match ver with MV10 => 0 | _ => 32 end); VInt 0;
           VInt (snd (index_buf s) mod 2 ^ 32); VInt 4; VInt (draw_element_type (convert_indices (ob_indices o)));
           VInt (match ob_influences o with [] => 0 | _ => 1 end); VInt (ob_bias o);
           VStruct [VInt (Z.b2z (ob_no_write o)); VInt (Z.b2z (ob_no_test o))];
           bounding (first_positions o);
           VArr (map (fun p => attribute_val ver (fst p))
                     (create_buffer_attributes 0 0 (buffer0_data ver o) ++ create_buffer_attributes 1 0 (buffer1_data ver o)))].
Definition object_state (ver : mesh_version) (o : mesh_object) (n : Z) (s : buffers) : buffers :=
  MkBufs (write_buffer (map item_enc (buffer0_data ver o)) (snd (buf0 s)) (sizes (map item_enc (buffer0_data ver o))) (buf0 s))
         (write_buffer (map item_enc (buffer1_data ver o)) (snd (buf1 s)) (sizes (map item_enc (buffer1_data ver o))) (buf1 s))
         (match ver with MV10 => buf2 s | _ => write_all (repeat 0 (Z.to_nat (32 * n))) (buf2 s) end) (buf3 s)
         (buf2_offset s + n * 32) (write_vertex_indices (convert_indices (ob_indices o)) (index_buf s)).

Lemma create_object_ok bounding ver o s n : object_facts o -> triangles o -> has_vertex_count o n -> indices_below o n ->
  create_mesh_object bounding ver o s = Ok (object_val bounding ver o n s, object_state ver o n s).
Proof.
  intros F T H I. unfold create_mesh_object. apply triangles_ok in T. rewrite T. cbn [negb Z.eqb].
  apply vertex_count_ok in H. rewrite H. cbn [bind]. rewrite (proj2 (max_index_ok _ _) I). cbv zeta.
  destruct (stride_bound ver o F) as [S0 S1]. rewrite !total_stride_sizes by auto. rewrite !cba_encoded.
  unfold object_val, object_state. destruct ver; reflexivity.
Qed.
Lemma create_object_inv bounding ver o s r : object_facts o -> create_mesh_object bounding ver o s = Ok r ->
  exists n, triangles o /\ has_vertex_count o n /\ indices_below o n /\ r = (object_val bounding ver o n s, object_state ver o n s).
Proof.
  intros F E. assert (E' := E). unfold create_mesh_object in E. destruct (negb (zlen (ob_indices o) mod 3 =? 0)) eqn:T; [discriminate|].
  apply bind_ok in E as (n & H & E). destruct (match max_index (ob_indices o) with Some m => n <=? m | None => false end) eqn:M; [discriminate|].
  assert (T' : triangles o) by (apply triangles_ok; lia).
  apply vertex_count_ok in H. pose proof (proj1 (max_index_ok _ _) M) as M2. exists n.
  rewrite (create_object_ok bounding ver o s n F T' H M2) in E'. injection E' as <-. auto.
Qed.

Lemma vertex_count_nonneg o n : has_vertex_count o n -> 0 <= n.
Proof.
  intros [H H0]. destruct (all_attributes o) as [|a r]; [rewrite H0; [lia|reflexivity]|].
  rewrite <- (H a (or_introl eq_refl)). apply zlen_nonneg.
Qed.

Lemma items_encoded ver n l : (forall it, In it l -> item_fact ver n it) -> forall e, In e (map item_enc l) -> encoded_ok n e = true.
Proof.
  intros H e He. apply in_map_iff in He as ([[[name i] u] e'] & <- & Hi). apply H in Hi. cbn in Hi. tauto.
Qed.

Lemma object_step ver o n s : object_facts o -> has_vertex_count o n -> state_ok ver s ->
  let s' := object_state ver o n s in
  state_ok ver s' /\ state_le s s' /\ snd (buf0 s') = snd (buf0 s) + bytes0 ver o /\ snd (buf1 s') = snd (buf1 s) + bytes1 ver o /\
  snd (buf2 s') = snd (buf2 s) + bytes2 ver o /\ snd (index_buf s') = snd (index_buf s) + index_bytes o.
Proof.
  intros F H S. pose proof (vertex_count_nonneg o n H) as Hn.
  destruct (write_block n (map item_enc (buffer0_data ver o)) (buf0 s) (so0 _ _ S) Hn) as (R0 & P0 & A0 & _).
  { apply (items_encoded ver n). apply buffer0_fact; auto. }
  destruct (write_block n (map item_enc (buffer1_data ver o)) (buf1 s) (so1 _ _ S) Hn) as (R1 & P1 & A1 & _).
  { apply (items_encoded ver n). apply buffer1_fact; auto. }
  rewrite (bytes0_eq ver o n H) in P0. rewrite (bytes1_eq ver o n H) in P1.
  destruct (write_all_ready (comps (index_width (ob_indices o)) (ob_indices o)) (index_buf s) (soi _ _ S)) as (Ri & Pi & Ai & _).
  assert (Ei : write_vertex_indices (convert_indices (ob_indices o)) (index_buf s) =
          write_all (comps (index_width (ob_indices o)) (ob_indices o)) (index_buf s)).
  { apply write_indices_eq. rewrite (soi _ _ S). apply zlen_nonneg. }
  rewrite <- Ei in Ri, Pi, Ai. rewrite zlen_comps in Pi by (pose proof (width_pos (ob_indices o)); lia).
  change (index_width (ob_indices o) * zlen (ob_indices o)) with (index_bytes o) in Pi.
  destruct (write_all_ready (repeat 0 (Z.to_nat (32 * n))) (buf2 s) (so2 _ _ S)) as (R2 & P2 & A2 & _).
  assert (Z2 : zlen (repeat 0 (Z.to_nat (32 * n))) = 32 * n) by (unfold zlen; rewrite repeat_length; lia). rewrite Z2 in P2.
  pose proof (bytes2_eq ver o n H) as B2.
  assert (Q0 : 0 <= bytes0 ver o). { rewrite <- (bytes0_eq ver o n H). apply Z.mul_nonneg_nonneg; auto using sizes_nonneg. }
  assert (Q1 : 0 <= bytes1 ver o). { rewrite <- (bytes1_eq ver o n H). apply Z.mul_nonneg_nonneg; auto using sizes_nonneg. }
  assert (Qi : 0 <= index_bytes o). { change (index_bytes o) with (index_width (ob_indices o) * zlen (ob_indices o)).
    pose proof (width_pos (ob_indices o)). apply Z.mul_nonneg_nonneg; [lia|apply zlen_nonneg]. }
  unfold object_state. cbn [buf0 buf1 buf2 buf3 buf2_offset index_buf].
  assert (O := soo _ _ S).
  split; [|split; [|split; [exact P0|split; [exact P1|split; [|exact Pi]]]]].
  - split; cbn [buf0 buf1 buf2 buf3 buf2_offset index_buf]; auto; [|apply (so3 _ _ S)|].
    + destruct ver; auto. apply (so2 _ _ S).
    + destruct ver; [lia|lia|]. split; [tauto|lia].
  - split; cbn [buf0 buf1 buf2 buf3 buf2_offset index_buf]; auto; try lia.
    + destruct ver; auto. apply agree_refl.
    + destruct ver; lia.
  - destruct ver; lia.
Qed.

Lemma count_bound ver o n : has_vertex_count o n -> bytes0 ver o < 2 ^ 32 -> bytes1 ver o < 2 ^ 32 -> bytes2 ver o < 2 ^ 32 -> n < 2 ^ 32.
Proof.
  intros H B0 B1 B2. pose proof (vertex_count_nonneg o n H) as Hn. rewrite (bytes2_eq ver o n H) in B2.
  destruct ver; [lia|lia|]. rewrite <- (bytes0_eq _ o n H) in B0. rewrite <- (bytes1_eq _ o n H) in B1.
  destruct H as [_ H].
  assert (P : forall l, zlen (map item_enc l) <= sizes (map item_enc l)).
  { intros l. induction l as [|x l IH]; [reflexivity|]. cbn [map]. rewrite zlen_cons, sizes_cons. pose proof (size_pos (enc_type (item_enc x))). lia. }
  pose proof (P (buffer0_data MV10 o)) as P0. pose proof (P (buffer1_data MV10 o)) as P1. rewrite zlen_map in P0, P1.
  assert (L : zlen (buffer0_data MV10 o) + zlen (buffer1_data MV10 o) = zlen (all_attributes o)).
  { unfold buffer0_data, buffer1_data, all_attributes. rewrite !zlen_app, !zlen_get_attributes. lia. }
  destruct (all_attributes o) as [|a r]; [rewrite H; [lia|reflexivity]|]. rewrite zlen_cons in L. pose proof (zlen_nonneg r).
  pose proof (zlen_nonneg (buffer0_data MV10 o)). pose proof (zlen_nonneg (buffer1_data MV10 o)).
  pose proof (sizes_nonneg (map item_enc (buffer0_data MV10 o))). pose proof (sizes_nonneg (map item_enc (buffer1_data MV10 o))).
  assert (C : 1 <= sizes (map item_enc (buffer0_data MV10 o)) \/ 1 <= sizes (map item_enc (buffer1_data MV10 o))) by lia.
  destruct C as [C|C]; [assert (n * 1 <= n * sizes (map item_enc (buffer0_data MV10 o))) by (apply Z.mul_le_mono_nonneg_l; lia)
                       |assert (n * 1 <= n * sizes (map item_enc (buffer1_data MV10 o))) by (apply Z.mul_le_mono_nonneg_l; lia)]; lia.
Qed.
Lemma index_count_bound o : index_bytes o < 2 ^ 32 -> zlen (ob_indices o) < 2 ^ 32.
Proof.
  change (index_bytes o) with (index_width (ob_indices o) * zlen (ob_indices o)). intros H.
  pose proof (width_pos (ob_indices o)) as W. pose proof (zlen_nonneg (ob_indices o)).
  assert (1 * zlen (ob_indices o) <= index_width (ob_indices o) * zlen (ob_indices o)) by (apply Z.mul_le_mono_nonneg_r; lia). lia.
Qed.

Lemma b2z_back b : negb (Z.b2z b =? 0) = b.
Proof. now destruct b. Qed.

(** Reading back one object *)
Lemma object_read bounding ver o n s B0 B1 B2 B3 IB rig l : object_facts o -> has_vertex_count o n -> state_ok ver s ->
  let s' := object_state ver o n s in
  snd (buf0 s') < 2 ^ 32 -> snd (buf1 s') < 2 ^ 32 -> snd (buf2 s') < 2 ^ 32 -> snd (index_buf s') < 2 ^ 32 ->
  agree everywhere (fst (buf0 s')) B0 -> agree everywhere (fst (buf1 s')) B1 -> agree everywhere (fst (index_buf s')) IB ->
  read_rigging_data ver rig (ob_name o) (ob_subindex o) = Ok l ->
  read_mesh_object ver [B0; B1; B2; B3] IB rig (object_val bounding ver o n s) = Ok (stored_object ver (with_influences l o)).
Proof.
  intros F H S s' L0 L1 L2 Li A0 A1 Ai Rig. pose proof (vertex_count_nonneg o n H) as Hn.
  destruct (object_step ver o n s F H S) as (S' & SL & P0 & P1 & P2 & Pi). fold s' in S', SL, P0, P1, P2, Pi.
  assert (N0 : 0 <= snd (buf0 s)) by (rewrite (so0 _ _ S); apply zlen_nonneg).
  assert (N1 : 0 <= snd (buf1 s)) by (rewrite (so1 _ _ S); apply zlen_nonneg).
  assert (N2 : 0 <= snd (buf2 s)) by (rewrite (so2 _ _ S); apply zlen_nonneg).
  assert (Ni : 0 <= snd (index_buf s)) by (rewrite (soi _ _ S); apply zlen_nonneg).
  assert (Cn : n < 2 ^ 32) by (apply (count_bound ver o n H); lia).
  assert (Ci : zlen (ob_indices o) < 2 ^ 32) by (apply index_count_bound; lia).
  pose proof (zlen_nonneg (ob_indices o)) as Zi.
  destruct SL. unfold read_mesh_object. unfold object_val. cbn [un_raw bind r_attributes r_name r_subindex r_parent r_bias r_no_write r_no_test].
  rewrite (Z.mod_small n) by lia. rewrite (Z.mod_small (zlen (ob_indices o))) by lia.
  rewrite (Z.mod_small (snd (buf0 s))) by lia. rewrite (Z.mod_small (snd (buf1 s))) by lia.
  rewrite (Z.mod_small (snd (index_buf s))) by lia.
  set (L := create_buffer_attributes 0 0 (buffer0_data ver o) ++ create_buffer_attributes 1 0 (buffer1_data ver o)).
  rewrite un_attributes.
  2:{ intros p Hp. apply in_app_iff in Hp as [Hp|Hp]; [revert p Hp; apply (cba_facts ver n), buffer0_fact; auto
                                                    |revert p Hp; apply (cba_facts ver n), buffer1_fact; auto]. }
  cbn [bind]. rewrite text_roundtrip by apply (of_name o F). rewrite text_roundtrip by apply (of_parent o F).
  match goal with |- context [read_vertex_indices IB ?r] => set (raw := r) end.
  assert (EI : read_vertex_indices IB raw = Ok (ob_indices o)).
  { pose proof (indices_read (ob_indices o) (index_buf s) IB _ (of_indices o F) (soi _ _ S) Ai eq_refl) as R.
    unfold read_vertex_indices, raw; cbn [r_type r_index_count r_index_offset]. revert R. clear. unfold convert_indices, index_width.
    change (2 ^ 16) with 65536. destruct (forallb (fun i => i <? 65536) (ob_indices o)); cbn [draw_element_type]; auto. }
  rewrite EI. cbn [bind].
  assert (RD : forall p, In p L -> read_attribute_data [B0; B1; B2; B3] raw (rd_attr ver (fst p)) = Ok (decoded (snd p))).
  { destruct (stride_bound ver o F) as [T0 T1].
    intros [a e] Hp. apply in_app_iff in Hp as [Hp|Hp]; apply In_nth_error in Hp as [j Hj];
      apply cba_nth in Hj as (E1 & E2 & E3 & E4 & _); unfold read_attribute_data, calculate_offset_stride, rd_attr, raw;
      cbn [fst snd a_buffer a_type a_offset r_offsets r_strides r_count]; rewrite E1, E2, E3, Z.add_0_l;
      [change (Z.to_nat 0) with 0%nat|change (Z.to_nat 1) with 1%nat]; cbn [nth_error bind].
    - pose proof (sizes_firstn j (map item_enc (buffer0_data ver o))). rewrite Z.mod_small by lia. rewrite Z.add_comm.
      apply block_read; auto; [apply (so0 _ _ S)|apply (items_encoded ver n), buffer0_fact; auto].
    - pose proof (sizes_firstn j (map item_enc (buffer1_data ver o))). rewrite Z.mod_small by lia. rewrite Z.add_comm.
      apply block_read; auto; [apply (so1 _ _ S)|apply (items_encoded ver n), buffer1_fact; auto]. }
  rewrite !(read_filtered [B0; B1; B2; B3] raw ver _ L RD). cbn [bind]. rewrite Rig. cbn [bind].
  assert (FD : forall u, map (fun p => MkAttr (a_name (rd_attr ver (fst p))) (decoded (snd p)))
            (filter (fun p => usage_eqb (a_usage (fst p)) u) L) = usage_data ver o u).
  { intros u. unfold L, usage_data, all_items. rewrite !filter_app, !map_app, !cba_filter. reflexivity. }
  rewrite !FD. destruct (usage_data_eq ver o) as (-> & -> & -> & -> & -> & ->).
  rewrite !b2z_back. reflexivity.
Qed.
