(** Properties of converting meshes between versions. *)
From Verif Require Import Bytes Ssbh Formats File AnimSpec DataSpec VecData MeshData MeshSpec MeshFacts MeshLemmas ResaveFacts MeshReadSpec ConvSpec ConvFacts PropsMesh.

(** ** C91: saving loaded mesh data in other versions, any number of times.  [mesh_ok]: numbers in
    their ranges, text without NUL; [mesh_fits]: every buffer is below 4 GiB.

    The result: the last version, and the objects without what the versions used cannot hold. *)
Theorem C91_conversions : forall bounding vs d d', bounding_ok bounding -> mesh_ok d = true -> (forall w, mesh_fits w (mesh_objects d)) ->
  conversions bounding vs d d' -> vs <> [] -> d' = MkMesh 1 (last vs 0) (map (left_object vs) (mesh_objects d)).
Proof. exact conversions_data. Qed.
Print Assumptions C91_conversions.
(** The order of conversions and repetitions make no difference. *)
Theorem C91_order : forall bounding vs ws d d1 d2, bounding_ok bounding -> mesh_ok d = true -> (forall w, mesh_fits w (mesh_objects d)) ->
  conversions bounding vs d d1 -> conversions bounding ws d d2 -> vs <> [] -> ws <> [] ->
  (In 8 vs <-> In 8 ws) -> (In 10 vs <-> In 10 ws) -> mesh_objects d1 = mesh_objects d2.
Proof. exact conversions_order. Qed.
Print Assumptions C91_order.
(** Back to the first version: the same bytes as at first, if the versions between hold as much:
    from 1.8 or 1.10 through 1.9. *)
Theorem C91_back : forall bounding v vs d d' out, bounding_ok bounding -> mesh_ok d = true -> (forall w, mesh_fits w (mesh_objects d)) ->
  mesh_data_write bounding (in_version v d) = Ok out -> conversions bounding (v :: vs) d d' ->
  (In 8 vs -> v = 8) -> (In 10 vs -> v = 10) ->
  (v = 8 -> forall o, In o (mesh_objects d) -> ob_binormals o = [] \/ other_attributes o <> []) ->
  mesh_data_write bounding (in_version v d') = Ok out.
Proof. exact conversions_back. Qed.
Print Assumptions C91_back.
(** A further conversion succeeds exactly if the version is known, has room for the vertex
    indices of the weights, and version 1.8 did not remove the only attributes of an object with
    indices; otherwise saving reports this. *)
Theorem C91_next : forall bounding vs v d d', bounding_ok bounding -> mesh_ok d = true -> (forall w, mesh_fits w (mesh_objects d)) ->
  conversions bounding vs d d' -> vs <> [] ->
  ((exists out, mesh_data_write bounding (in_version v d') = Ok out) <-> convertible vs v d) /\
  (~ convertible vs v d -> exists e, mesh_data_write bounding (in_version v d') = Err (EData e) /\ In e [DVersion; DWeightIndex; DIndexRange]).
Proof. exact conversions_next. Qed.
Print Assumptions C91_next.

Definition ex_read (b : list Z) : mesh_data := match mesh_data_read b with Ok d => d | _ => MkMesh 0 0 [] end.
Definition ex_conv (v : Z) (d : mesh_data) : mesh_data :=
  match mesh_data_write simple_bounding (in_version v d) with Ok out => ex_read out | _ => MkMesh 0 0 [] end.
Lemma ex_conv_step vs v d d1 : conversions simple_bounding vs d d1 ->
  (match mesh_data_write simple_bounding (in_version v d1) with
   | Ok out => (zlen out <? 2 ^ 63) && match mesh_data_read out with Ok _ => true | _ => false end | _ => false end) = true ->
  conversions simple_bounding (vs ++ [v]) d (ex_conv v d1).
Proof.
  intros C H. unfold ex_conv, ex_read. destruct (mesh_data_write simple_bounding (in_version v d1)) as [out| |] eqn:E; try discriminate H.
  apply andb_prop in H as [L R]. destruct (mesh_data_read out) as [d2| |] eqn:R2; try discriminate R.
  apply (conv_more simple_bounding vs v d d1 d2 out); auto. now apply Z.ltb_lt.
Qed.
Example C91_example : bounding_ok simple_bounding /\ mesh_ok (ex_mesh 10) = true /\ (forall w, mesh_fits w (mesh_objects (ex_mesh 10))) /\
  conversions simple_bounding [10; 9; 8] (ex_mesh 10) (ex_conv 8 (ex_conv 9 (ex_conv 10 (ex_mesh 10)))) /\
  convertible [10; 9; 8] 10 (ex_mesh 10) /\
  mesh_objects (ex_conv 10 (ex_mesh 10)) <> mesh_objects (ex_conv 8 (ex_conv 9 (ex_conv 10 (ex_mesh 10)))) /\
  mesh_objects (ex_conv 9 (ex_mesh 10)) <> mesh_objects (ex_conv 10 (ex_mesh 10)).
Proof.
  split; [exact simple_bounding_ok|]. split; [vm_compute; reflexivity|].
  split; [intros w; destruct w; unfold mesh_fits; vm_compute; auto|]. split.
  - apply (ex_conv_step [10; 9] 8); [|vm_compute; reflexivity]. apply (ex_conv_step [10] 9); [|vm_compute; reflexivity].
    apply (ex_conv_step [] 10); [constructor|vm_compute; reflexivity].
  - split; [|split; vm_compute; discriminate]. unfold convertible. split; [cbn; auto|]. split.
    + intros _ o i w [<-|[<-|[]]]; cbn [ex_object1 ex_object2 ob_influences In]; intuition (subst; cbn [inf_weights In] in *; intuition (subst; reflexivity)).
    + intros _ o [<-|[<-|[]]]; right; discriminate.
Qed.

(** The documentation (ssbh_data/src/lib.rs:10) offers "converting files to and from supported
    versions".  Converting to another version and back does not give the file again: version 1.10
    rounds vectors of two components to half floats, version 1.8 does not keep names. *)
Theorem C91_lossless_refuted : exists d out9 out10,
  mesh_data_write simple_bounding (in_version 9 d) = Ok out9 /\ mesh_data_write simple_bounding (in_version 10 d) = Ok out10 /\
  (exists d' out, conversions simple_bounding [9; 10] d d' /\ mesh_data_write simple_bounding (in_version 9 d') = Ok out /\ out <> out9) /\
  (exists d' out, conversions simple_bounding [10; 8] d d' /\ mesh_data_write simple_bounding (in_version 10 d') = Ok out /\ out <> out10).
Proof.
  exists (ex_mesh 9), (match mesh_data_write simple_bounding (in_version 9 (ex_mesh 9)) with Ok b => b | _ => [] end),
    (match mesh_data_write simple_bounding (in_version 10 (ex_mesh 9)) with Ok b => b | _ => [] end).
  split; [vm_compute; reflexivity|]. split; [vm_compute; reflexivity|]. split.
  - exists (ex_conv 10 (ex_conv 9 (ex_mesh 9))), (match mesh_data_write simple_bounding (in_version 9 (ex_conv 10 (ex_conv 9 (ex_mesh 9)))) with Ok b => b | _ => [] end).
    split; [|split; [vm_compute; reflexivity|vm_compute; discriminate]].
    apply (ex_conv_step [9] 10); [|vm_compute; reflexivity]. apply (ex_conv_step [] 9); [constructor|vm_compute; reflexivity].
  - exists (ex_conv 8 (ex_conv 10 (ex_mesh 9))), (match mesh_data_write simple_bounding (in_version 10 (ex_conv 8 (ex_conv 10 (ex_mesh 9)))) with Ok b => b | _ => [] end).
    split; [|split; [vm_compute; reflexivity|vm_compute; discriminate]].
    apply (ex_conv_step [10] 8); [|vm_compute; reflexivity]. apply (ex_conv_step [] 10); [constructor|vm_compute; reflexivity].
Qed.
Print Assumptions C91_lossless_refuted.
