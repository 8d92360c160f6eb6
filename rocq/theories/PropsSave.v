(** Properties C87 and C88 of properties.jsonl: which data can be saved, and that files and data determine each other.

    [savable] and [save_fault] (SaveSpec.v) say it by the values alone; [typed_data]: Rust's types
    admit the value; [counts_fit] (CutSpec.v): numbers of elements below those that the fields of a
    file hold; [texts_fit]: less than 2^62 bytes of text. *)
From Coq Require Import String.
From Verif Require Import Bytes Ssbh Formats Strings File MeshEx AnimComp AnimBuf AnimSpec AnimFile SmallData DataSpec MatlData
  SkelData SkelSpec AdjData VecData MeshData MeshSpec ResaveFacts Json JsonSchema JsonSpec DataJson DataJsonSpec CutSpec CutFacts SaveSpec SaveFacts
  PropsData PropsMatl PropsMesh PropsSkel PropsAnim PropsAdj PropsDataJson PropsCut.
From Coq Require Import List.
Import ListNotations.
Open Scope Z_scope.

(** Saving gives a file exactly for the savable data.  Otherwise it gives an error that is true of
    the data, and it never panics. *)
Theorem C87_outcome : forall mul inv bounding sphere_of,
  (forall a c, mat_ok (mul a c) = true) -> (forall a, mat_ok (inv a) = true) -> bounding_ok bounding ->
  (forall gs, sphere_ok (sphere_of gs) = true) ->
  forall d, typed_data d = true -> counts_fit d -> texts_fit d ->
  match save_data mul inv bounding sphere_of d with Ok _ => savable d | Err e => save_fault d e | Panic => False end.
Proof. exact save_outcome. Qed.
Print Assumptions C87_outcome.

Theorem C87_saved : forall mul inv bounding sphere_of,
  (forall a c, mat_ok (mul a c) = true) -> (forall a, mat_ok (inv a) = true) -> bounding_ok bounding ->
  (forall gs, sphere_ok (sphere_of gs) = true) ->
  forall d, typed_data d = true -> counts_fit d -> texts_fit d ->
  ((exists out, save_data mul inv bounding sphere_of d = Ok out) <-> savable d).
Proof. exact save_iff. Qed.
Print Assumptions C87_saved.

(** An error is given only if the data is not savable. *)
Theorem C87_fault : forall d e, save_fault d e -> ~ savable d.
Proof. exact fault_unsavable. Qed.
Print Assumptions C87_fault.

(** The program ssbh_data_json writes a file, with the extension of the type, exactly if the
    document describes savable data; it panics otherwise. *)
Theorem C87_document : forall mul inv bounding sphere_of,
  (forall a c, mat_ok (mul a c) = true) -> (forall a, mat_ok (inv a) = true) -> bounding_ok bounding ->
  (forall gs, sphere_ok (sphere_of gs) = true) ->
  forall j, wellformed j = true -> (forall d, read_first attempts j = Some d -> counts_fit d /\ texts_fit d) ->
  match json_to_data_file mul inv bounding sphere_of j with
  | Ok (ext, _) => exists d, read_first attempts j = Some d /\ savable d /\ ext = data_ext (data_kind_of d)
  | Err _ => False
  | Panic => forall d, read_first attempts j = Some d -> ~ savable d
  end.
Proof. exact program_outcome. Qed.
Print Assumptions C87_document.

(** A value of each type with NUL in its texts is saved (see also [C86_example_counts]), and one
    value for each type that can fail is not. *)
Definition ex_unsaved : list (data * err) :=
  [(DtMesh (MkMesh 1 7 []), EData DVersion);
   (DtMesh (MkMesh 1 10 [MkObj [97; 0; 98] 0 [] 0 false false [0] [] [] [] [] [] [] []]), EData DNotTriangles);
   (DtSkel 1 0 [Bone [97; 0] (tag 1) (Some 0) 0], EData DCycle);
   (DtAnim (AD 2 2 0 []), EData DVersion);
   (DtAnim (AD 2 0 0x7fc00000 []), EData DFinalFrame);
   (DtMatl (MatD 1 5 []), EData DVersion)].
Definition ex_save (d : data) : res (list Z) := save_data (fun a _ => a) (fun a => a) simple_bounding (fun _ => ex_sphere) d.
Example C87_example :
  Forall (fun d => typed_data d = true /\ texts_fit d /\ exists out, ex_save d = Ok out) ex_nul /\
  Forall (fun p => typed_data (fst p) = true /\ texts_fit (fst p) /\ ex_save (fst p) = Err (snd p)) ex_unsaved.
Proof.
  split.
  - repeat apply Forall_cons; try apply Forall_nil; (split; [vm_compute; reflexivity|]); (split; [vm_compute; auto|]);
      (eexists; vm_compute; reflexivity).
  - repeat apply Forall_cons; try apply Forall_nil; (split; [vm_compute; reflexivity|]); (split; [exact I|]); vm_compute; reflexivity.
Qed.
Example C87_example_counts : Forall (fun p => counts_fit (fst p)) ex_unsaved.
Proof.
  repeat apply Forall_cons; try apply Forall_nil; cbv [ex_unsaved counts_fit fst];
    repeat match goal with
    | |- _ /\ _ => split
    | |- Forall _ _ => repeat constructor
    | |- forall _, In _ _ -> _ => let x := fresh in let H := fresh in intros x H; vm_compute in H; repeat (destruct H as [<-|H]); [..|destruct H]
    end; try (vm_compute; reflexivity); try (intros ? []); vm_compute; auto.
Qed.

(** ** Skeletons saved again: the same file, if the numbers of the parents fit into 15 bits *)
Theorem C87_skel_again : forall mul inv bones, parents_fit bones ->
  skel_data_write mul inv (map cut_bone bones) = skel_data_write mul inv bones.
Proof. exact skel_write_cut. Qed.
Print Assumptions C87_skel_again.

(** Otherwise what is loaded may have a cycle that the saved skeleton did not have: the bone with
    the number 0 and the parent 65536 becomes its own parent. *)
Theorem C87_skel_again_refuted : exists bones out bones',
  typed_data (DtSkel 1 0 bones) = true /\ savable (DtSkel 1 0 bones) /\
  ex_save (DtSkel 1 0 bones) = Ok out /\ skel_data_read out = Ok bones' /\ ex_save (DtSkel 1 0 bones') = Err (EData DCycle).
Proof.
  exists [Bone [97] (tag 1) (Some 65536) 0]. eexists. eexists. split; [reflexivity|]. split.
  { intros b [<-|[]]. exists []. apply (anc_outside _ _ 65536); [reflexivity|].
    apply nth_error_None. cbn [List.length]. change 1%nat with (Z.to_nat 1). apply Z2Nat.inj_le; discriminate. }
  split; [vm_compute; reflexivity|]. split; [vm_compute; reflexivity|]. vm_compute. reflexivity.
Qed.
Print Assumptions C87_skel_again_refuted.

(** * C88: files and data determine each other *)

(** Data saved to the same bytes is of the same type and equal in what is kept of it.  Only SSBH
    documents name their type. *)
Theorem C88_file_determines_data : forall mul inv bounding sphere_of,
  (forall a c, mat_ok (mul a c) = true) -> (forall a, mat_ok (inv a) = true) -> bounding_ok bounding ->
  (forall gs, sphere_ok (sphere_of gs) = true) ->
  forall d1 d2 out, typed_data d1 = true -> typed_data d2 = true -> counts_fit d1 -> counts_fit d2 ->
  (data_kind_of d1 = data_kind_of d2 \/ (ssbh_data d1 = true /\ ssbh_data d2 = true)) ->
  save_data mul inv bounding sphere_of d1 = Ok out -> save_data mul inv bounding sphere_of d2 = Ok out -> zlen out < 2 ^ 63 ->
  data_kind_of d1 = data_kind_of d2 /\ stored_data (merged_data (cut_data d1)) = stored_data (merged_data (cut_data d2)).
Proof. exact file_data. Qed.
Print Assumptions C88_file_determines_data.

(** Nothing else of the data has an effect on the file: not what comes after a NUL, not the higher
    bits of numbers, not the versions of models, helper bones and skeletons.  The sphere around all
    groups depends on the spheres of the groups only. *)
Theorem C88_data_determines_file : forall mul inv bounding sphere_of,
  (forall gs gs', map mg_sphere gs = map mg_sphere gs' -> sphere_of gs = sphere_of gs') ->
  forall d1 d2 out1 out2, cut_data d1 = cut_data d2 -> data_parents_fit d1 -> data_parents_fit d2 ->
  save_data mul inv bounding sphere_of d1 = Ok out1 -> save_data mul inv bounding sphere_of d2 = Ok out2 -> out1 = out2.
Proof. exact data_file. Qed.
Print Assumptions C88_data_determines_file.

(** So for all types but meshes and animations, whose numbers are rounded, files are equal exactly
    if the data is, up to what is cut. *)
Theorem C88_equal : forall mul inv bounding sphere_of,
  (forall a c, mat_ok (mul a c) = true) -> (forall a, mat_ok (inv a) = true) -> bounding_ok bounding ->
  (forall gs, sphere_ok (sphere_of gs) = true) ->
  (forall gs gs', map mg_sphere gs = map mg_sphere gs' -> sphere_of gs = sphere_of gs') ->
  forall d1 d2 out1 out2, typed_data d1 = true -> typed_data d2 = true -> counts_fit d1 -> counts_fit d2 ->
  data_kind_of d1 = data_kind_of d2 -> lossless d1 = true -> data_parents_fit d1 -> data_parents_fit d2 ->
  save_data mul inv bounding sphere_of d1 = Ok out1 -> save_data mul inv bounding sphere_of d2 = Ok out2 -> zlen out1 < 2 ^ 63 ->
  (out1 = out2 <-> cut_data d1 = cut_data d2).
Proof. exact file_iff. Qed.
Print Assumptions C88_equal.

(** The parents have to fit: the file has transforms computed with the whole numbers. *)
Theorem C88_parents_refuted : exists d1 d2 out1 out2,
  typed_data d1 = true /\ typed_data d2 = true /\ cut_data d1 = cut_data d2 /\
  ex_save d1 = Ok out1 /\ ex_save d2 = Ok out2 /\ out1 <> out2.
Proof.
  exists (DtSkel 1 0 [Bone [97] (tag 1) None 0; Bone [98] (tag 2) (Some 0) 0]).
  exists (DtSkel 1 0 [Bone [97] (tag 1) None 0; Bone [98] (tag 2) (Some 65536) 0]).
  eexists. eexists. split; [reflexivity|]. split; [reflexivity|]. split; [reflexivity|].
  split; [vm_compute; reflexivity|]. split; [vm_compute; reflexivity|]. vm_compute. discriminate.
Qed.
Print Assumptions C88_parents_refuted.

(** Two different values of each type with the same file: the second is what is kept of the first.
    The counts fit as in [C86_example_counts]. *)
Definition ex_same : list data :=
  map (fun d => match d with
    | DtSkel ma mi bones => DtSkel ma mi (map (fun b => Bone (bn_name b) (bn_transform b) None (bn_billboard b)) bones)
    | d => d
    end) ex_nul.
Example C88_example : Forall (fun d => d <> cut_data d /\ data_kind_of d = data_kind_of (cut_data d) /\ cut_data d = cut_data (cut_data d) /\
  typed_data d = true /\ typed_data (cut_data d) = true /\
  match ex_save d with Ok out => zlen out < 2 ^ 63 /\ ex_save (cut_data d) = Ok out | _ => False end) ex_same.
Proof.
  repeat apply Forall_cons; try apply Forall_nil;
    (split; [vm_compute; discriminate|]); (split; [reflexivity|]); (split; [vm_compute; reflexivity|]);
    (split; [vm_compute; reflexivity|]); (split; [vm_compute; reflexivity|]); vm_compute; auto.
Qed.
Example C88_example_parents : Forall data_parents_fit ex_same.
Proof.
  repeat apply Forall_cons; try apply Forall_nil; try exact I. intros b i Hb E. apply in_map_iff in Hb as (c & <- & _). discriminate E.
Qed.
