(** ssbh_lib_json: proofs. *)
From Coq Require Import Lia ZifyBool ZifyNat ZifyN Permutation.
From Verif Require Import Bytes BytesFacts Ssbh Formats Strings Float32 File FileFacts MeshEx MeshExFacts ReloadFacts
  Json JsonSchema JsonFile JsonSpec JsonFacts JsonRound JsonDoc JsonOrder.
Ltac Zify.zify_post_hook ::= ZifyBool.elim_bool_cstr; Z.to_euclidean_division_equations.

#[local] Strategy opaque [file_write file_read meshex_write meshex_read adj_write adj_read].

(** ** The three types are told apart *)

Lemma adj_sty x : adj_ok x = true -> sty s_adj_Adj (adj_val x) = true.
Proof.
  unfold adj_ok. rewrite andb_true_iff. intros (H1 & H2).
  unfold adj_val, s_adj_Adj. apply sty_struct. repeat (constructor; cbn [snd]).
  - cbn. rewrite forallb_forall in *. intros v I. apply in_map_iff in I as (e & <- & I). specialize (H1 e I).
    unfold u32_ok in H1. unfold s_adj_AdjEntry, entry_val. change (256 ^ 4) with (2 ^ 32). lia.
  - cbn. rewrite forallb_forall in *. intros v I. apply in_map_iff in I as (e & <- & I). specialize (H2 e I).
    unfold u16_ok in H2. change (256 ^ 2) with (2 ^ 16). lia.
Qed.

Lemma adj_representable x : representable s_adj_Adj (adj_val x).
Proof.
  apply representable_spec. unfold floats. cbn.
  repeat (rewrite ?forallb_app, ?forallb_flat_map; cbn [forallb]). split.
  - repeat (apply andb_true_iff; split); auto; apply forallb_forall; intros v I;
      apply in_map_iff in I as (e & <- & I); reflexivity.
  - repeat (apply andb_true_iff; split); auto; apply forallb_forall; intros v I;
      apply in_map_iff in I as (e & <- & I); reflexivity.
Qed.

Lemma opt_all_some {A B} (f : A -> B) (g : B -> option A) l :
  (forall a, g (f a) = Some a) -> opt_all (map g (map f l)) = Some l.
Proof. intros H. induction l as [|a l IH]; cbn; auto. now rewrite H, IH. Qed.

Lemma adj_of_to x : adj_of_val (adj_val x) = Some x.
Proof.
  destruct x as [es xs]. unfold adj_val, adj_of_val. cbn [ad_entries ad_indices].
  rewrite (opt_all_some entry_val), (opt_all_some VInt); auto. now intros [].
Qed.

Lemma adj_roundtrip_json x : adj_ok x = true -> adj_from_json (adj_to_json x) = Some x.
Proof.
  intros H. unfold adj_from_json, adj_to_json.
  rewrite (proj2 (json_value_iff s_adj_Adj (adj_val x) adj_schema_ok (adj_sty x H)) (adj_representable x)).
  apply adj_of_to.
Qed.

Lemma not_meshex ms : ~ In "unk1"%string (map fst ms) -> meshex_from_json (JObj ms) = None.
Proof.
  intros H. unfold meshex_from_json, s_meshex_MeshEx. cbn [from_json map]. unfold json_struct. cbn [map fst snd].
  rewrite (member_notin _ _ H). cbn [missing].
  rewrite opt_all_none; [reflexivity|]. cbn [In]. auto 10.
Qed.

Lemma not_adj ms : ~ In "index_buffer"%string (map fst ms) -> adj_from_json (JObj ms) = None.
Proof.
  intros H. unfold adj_from_json, s_adj_Adj. cbn [from_json map]. unfold json_struct. cbn [map fst snd].
  rewrite (member_notin _ _ H). cbn [missing].
  rewrite opt_all_none; [reflexivity|]. cbn [In]. auto 10.
Qed.

Lemma kind_not_member k x : In x ["unk1"; "index_buffer"]%string -> ~ In x [kind_name k].
Proof. intros I J. destruct k; cbn in *; intuition; subst; discriminate. Qed.

Lemma finite_decides d : floats (document_schema d) (document_value d) = true <-> finite_document d.
Proof. apply floats_spec. Qed.

Theorem document_roundtrip d : document_ok d ->
  read_document (document_json d) =
  if floats (document_schema d) (document_value d) then Some (clean_document d) else None.
Proof.
  destruct d as [f|x|x]; cbn [document_ok document_json document_value]; intros H.
  - destruct (ssbh_roundtrip f H) as (R & O & T). unfold read_document. rewrite R.
    destruct (floats (document_schema (DSsbh f)) (fbody f)); [reflexivity|].
    unfold ssbh_to_json. destruct (schema_find (fver f) (schemas (fkind f))) as [[x s]|] eqn:E.
    + rewrite not_meshex by (apply kind_not_member; cbn; auto).
      rewrite not_adj by (apply kind_not_member; cbn; auto). reflexivity.
    + reflexivity.
  - unfold read_document. rewrite meshex_roundtrip_json by auto. cbn [document_schema clean_document].
    destruct (clean_meshex x H) as (y & C). rewrite C, meshex_of_to.
    assert (exists a b c d e ms, meshex_to_json x = JObj ((a, b) :: (c, d) :: ms) /\
              map fst ((a, b) :: (c, d) :: ms) = e /\ ~ In "index_buffer"%string e) as
        (a & b & c & d & e & ms & E & K & N).
    { repeat eexists. cbn. intuition discriminate. }
    rewrite E. cbn [ssbh_from_json json_variant]. unfold ssbh_from_json, json_variant.
    destruct (floats s_meshex_MeshEx (meshex_val x)); auto. subst e. rewrite not_adj by auto. reflexivity.
  - unfold read_document. replace (floats (document_schema (DAdj x)) (adj_val x)) with true.
    2: { symmetry. apply representable_spec. apply adj_representable. }
    rewrite (adj_roundtrip_json x H).
    replace (ssbh_from_json (adj_to_json x)) with (@None ssbh_file) by reflexivity.
    assert (exists ms, adj_to_json x = JObj ms /\ ~ In "unk1"%string (map fst ms)) as (ms & E & N).
    { eexists. split; [reflexivity|]. cbn. intuition discriminate. }
    rewrite E, not_meshex by auto. reflexivity.
Qed.

Theorem document_iff d : document_ok d ->
  (read_document (document_json d) = Some d <-> representable_document d).
Proof.
  intros H. rewrite document_roundtrip by auto. unfold representable_document. rewrite representable_spec.
  destruct (floats (document_schema d) (document_value d)); [|split; [discriminate|intros [? _]; discriminate]].
  assert (sty (document_schema d) (document_value d) = true) as T.
  { destruct d as [f|x|x]; cbn [document_ok document_value] in *.
    - now destruct (ssbh_roundtrip f H) as (_ & _ & T).
    - now apply meshex_sty.
    - now apply adj_sty. }
  rewrite (clean_id _ _ T). destruct d as [f|x|x]; cbn [document_value clean_document].
  - split.
    + intros E. injection E as E. destruct f; cbn in *. split; congruence.
    + intros [_ E]. rewrite E. now destruct f.
  - destruct (clean_meshex x H) as (y & C). cbn [document_schema]. rewrite C, meshex_of_to. split.
    + intros E. injection E as ->. auto.
    + intros [_ E]. apply (f_equal meshex_of_val) in E. rewrite !meshex_of_to in E. congruence.
  - split; auto. intros _. split; auto. apply clean_id; [exact T|]. now apply representable_spec, adj_representable.
Qed.

(** ** Through a file *)

Theorem load_ok ext b d : bytes_ok b = true -> load ext b = Ok d -> document_ok d.
Proof.
  intros Hb. unfold load. destruct (String.eqb ext "adjb"); [|destruct (String.eqb ext "numshexb")].
  - destruct (adj_read b) as [x|e|] eqn:E; cbn; try discriminate. intros H. injection H as <-.
    now apply adj_read_iff in E as (E & _).
  - destruct (meshex_read b) as [x|e|] eqn:E; cbn; try discriminate. intros H. injection H as <-.
    now apply meshex_read_ok in E as (E & _).
  - destruct (file_read b) as [x|e|] eqn:E; cbn; try discriminate. intros H. injection H as <-.
    now apply file_read_ok in E.
Qed.

Theorem tool_same_as_library ext b d :
  bytes_ok b = true -> load ext b = Ok d -> representable_document d ->
  exists j, file_to_json ext b = Ok j /\ json_to_file j = Some (output_ext d, unwrap (save d)).
Proof.
  intros Hb L R. exists (document_json d). unfold file_to_json. rewrite L. split; [reflexivity|].
  unfold json_to_file. apply (load_ok _ _ _ Hb) in L. now rewrite (proj2 (document_iff d L) R).
Qed.

Theorem save_load d out :
  document_ok d -> countable d -> save d = Ok out -> zlen out < 2 ^ 63 -> load (output_ext d) out = Ok d.
Proof.
  destruct d as [f|x|x]; cbn [document_ok countable save]; intros H C W L.
  - replace (load (output_ext (DSsbh f)) out) with (let* g := file_read out in Ok (DSsbh g)).
    + now rewrite (file_roundtrip f out H W L).
    + unfold load. cbn [output_ext]. now destruct (fkind f).
  - unfold load. cbn. destruct C as (C1 & C2 & C3).
    destruct (meshex_roundtrip x out H C1 C2 C3 W L) as (R & _). now rewrite R.
  - unfold load. cbn. destruct (adj_roundtrip x H C) as (out' & W' & R).
    rewrite W in W'. injection W' as <-. now rewrite R.
Qed.

Theorem tool_identity d out :
  document_ok d -> countable d -> save d = Ok out -> zlen out < 2 ^ 63 -> representable_document d ->
  exists j, file_to_json (output_ext d) out = Ok j /\ json_to_file j = Some (output_ext d, Ok out).
Proof.
  intros H C W L R. exists (document_json d). unfold file_to_json.
  rewrite (save_load d out H C W L). split; [reflexivity|].
  unfold json_to_file. rewrite (proj2 (document_iff d H) R), W. reflexivity.
Qed.

Theorem document_finite d : document_ok d ->
  (finite_document d -> read_document (document_json d) = Some (clean_document d)) /\
  (~ finite_document d -> read_document (document_json d) = None).
Proof.
  intros H. rewrite document_roundtrip by auto. rewrite <- finite_decides.
  destruct (floats (document_schema d) (document_value d)); split; intros X; auto; try discriminate. now destruct X.
Qed.

Theorem json_to_file_stable j j' : reordered j j' -> json_to_file j = json_to_file j'.
Proof. intros R. unfold json_to_file. now rewrite (read_document_stable _ _ R). Qed.

(** ** Numbers *)

Theorem adj_document es xs :
  document_json (DAdj (mkAdj es xs)) =
  JObj [("entries"%string, JArr (map (fun e => JObj [("mesh_object_index"%string, JInt (fst e));
                                              ("index_buffer_offset"%string, JInt (snd e))]) es));
        ("index_buffer"%string, JArr (map (fun x => JInt (if x <? 32768 then x else x - 65536)) xs))].
Proof.
  unfold document_json, adj_to_json, adj_val, s_adj_Adj. cbn [to_json map2 fst snd ad_entries ad_indices].
  do 2 f_equal; [|do 2 f_equal].
  - f_equal. f_equal. rewrite map_map. apply map_ext. now intros [a b].
  - f_equal. rewrite map_map. apply map_ext. intros x. unfold to_json, int_json. cbn [andb].
    change (256 ^ 2) with 65536. change (65536 / 2) with 32768.
    destruct (Z.leb_spec 32768 x), (Z.ltb_spec x 32768); auto; lia.
Qed.

Theorem integers_iff w sg n m :
  from_json (SInt w sg) (JInt m) = Some (VInt n) <->
  m mod 256 ^ w = n /\ if sg then - (256 ^ w / 2) <= m < 256 ^ w / 2 else 0 <= m < 256 ^ w.
Proof.
  cbn [from_json json_int]. generalize (256 ^ w). intros q.
  pose proof (Z.div_mod q 2 ltac:(lia)) as D. pose proof (Z.mod_pos_bound q 2 ltac:(lia)) as B.
  set (h := q / 2) in *. clearbody h.
  destruct sg.
  - destruct ((- h <=? m) && (m <? h)) eqn:E.
    + split.
      * intros H. injection H as <-. split; [|lia]. destruct (m <? 0) eqn:E2.
        -- symmetry. apply (Z.mod_unique_pos m q (-1)); lia.
        -- apply Z.mod_small. lia.
      * intros [<- _]. do 2 f_equal. destruct (m <? 0) eqn:E2.
        -- apply (Z.mod_unique_pos m q (-1)); lia.
        -- symmetry. apply Z.mod_small. lia.
    + split; [discriminate|]. intros [_ H]. lia.
  - destruct ((0 <=? m) && (m <? q)) eqn:E.
    + split; [intros H; injection H as <-; split; [apply Z.mod_small|]; lia|].
      intros [<- _]. do 2 f_equal. symmetry. apply Z.mod_small. lia.
    + split; [discriminate|]. intros [_ H]. lia.
Qed.
