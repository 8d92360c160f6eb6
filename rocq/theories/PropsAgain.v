(** Property C89 of properties.jsonl: converting a document to a file, the file to a document and
    that document to a file again gives the same file.

    [again_fits] (AgainSpec.v): conditions on meshes, skeletons and animations; [counts_fit]
    (CutSpec.v): numbers of elements below those that the fields of a file hold; [cut_data],
    [stored_data]: what a file keeps (C86). *)
From Coq Require Import String.
From Verif Require Import Bytes Ssbh Formats Strings File MeshEx AnimComp AnimBuf AnimSpec AnimFile SmallData DataSpec MatlData
  SkelData SkelSpec AdjData VecData MeshData MeshSpec ResaveFacts Json JsonSchema JsonSpec DataJson DataJsonSpec CutSpec CutFacts SaveSpec SaveFacts
  AgainSpec AgainFacts PropsData PropsMatl PropsMesh PropsSkel PropsAnim PropsAdj PropsDataJson PropsCut PropsSave.
From Coq Require Import List.
Import ListNotations.
Open Scope Z_scope.

(** What is loaded from a saved file is saved as the same file. *)
Theorem C89_saved_again : forall mul inv bounding sphere_of,
  (forall gs gs', map mg_sphere gs = map mg_sphere gs' -> sphere_of gs = sphere_of gs') ->
  forall d out, again_fits d -> save_data mul inv bounding sphere_of d = Ok out ->
  save_data mul inv bounding sphere_of (stored_data (merged_data (cut_data d))) = Ok out.
Proof. exact saved_again. Qed.
Print Assumptions C89_saved_again.

(** The second document gives the file of the first exactly if the numbers in the file are finite;
    otherwise the program panics. *)
Theorem C89_document : forall mul inv bounding sphere_of,
  (forall a c, mat_ok (mul a c) = true) -> (forall a, mat_ok (inv a) = true) -> bounding_ok bounding ->
  (forall gs, sphere_ok (sphere_of gs) = true) ->
  (forall gs gs', map mg_sphere gs = map mg_sphere gs' -> sphere_of gs = sphere_of gs') ->
  forall order j d ext out, wellformed j = true -> read_first attempts j = Some d -> counts_fit d -> again_fits d ->
  json_to_data_file mul inv bounding sphere_of j = Ok (ext, out) -> zlen out < 2 ^ 63 ->
  exists j', data_to_json order ext out = Some (Ok j') /\
    (finite_data (stored_data (cut_data d)) -> json_to_data_file mul inv bounding sphere_of j' = Ok (ext, out)) /\
    (~ finite_data (stored_data (cut_data d)) -> json_to_data_file mul inv bounding sphere_of j' = Panic).
Proof. exact document_again. Qed.
Print Assumptions C89_document.

(** For all types but meshes the numbers in the file are those of the document. *)
Theorem C89_same : forall mul inv bounding sphere_of,
  (forall a c, mat_ok (mul a c) = true) -> (forall a, mat_ok (inv a) = true) -> bounding_ok bounding ->
  (forall gs, sphere_ok (sphere_of gs) = true) ->
  (forall gs gs', map mg_sphere gs = map mg_sphere gs' -> sphere_of gs = sphere_of gs') ->
  forall order j d ext out, wellformed j = true -> read_first attempts j = Some d -> counts_fit d -> again_fits d ->
  not_mesh d = true -> finite_data d -> json_to_data_file mul inv bounding sphere_of j = Ok (ext, out) -> zlen out < 2 ^ 63 ->
  exists j', data_to_json order ext out = Some (Ok j') /\ json_to_data_file mul inv bounding sphere_of j' = Ok (ext, out).
Proof. exact document_same. Qed.
Print Assumptions C89_same.

Definition ex_program (j : json) : res (string * list Z) :=
  json_to_data_file (fun a _ => a) (fun a => a) simple_bounding (fun _ => ex_sphere) j.

(** A mesh stores normals with four components as half floats, so a large finite number becomes
    infinite.  The document of the file has null in its place, and the program panics on it. *)
Definition ex_large : mesh_object :=
  MkObj [97] 0 [] 0 false false [0; 0; 0] [MkAttr [] (MkVec Three [[0; 0; 0]])]
    [MkAttr [] (MkVec Four [[0x47c35000; 0; 0; 0]])] [] [] [] [] [].
Theorem C89_large_refuted : exists d,
  wellformed (data_json d) = true /\ finite_data d /\ again_fits d /\ read_first attempts (data_json d) = Some d /\
  exists j' ext out, ex_program (data_json d) = Ok (ext, out) /\ data_to_json (fun l => l) ext out = Some (Ok j') /\ ex_program j' = Panic.
Proof.
  exists (DtMesh (MkMesh 1 10 [ex_large])).
  split; [vm_compute; reflexivity|]. split; [repeat apply Forall_cons; try apply Forall_nil; vm_compute; discriminate|].
  split. { split; [apply NoDup_cons; [intros []|apply NoDup_nil]|discriminate]. }
  split; [vm_compute; reflexivity|].
  assert (X : match ex_program (data_json (DtMesh (MkMesh 1 10 [ex_large]))) with
    | Ok (ext, out) => match data_to_json (fun l => l) ext out with Some (Ok j') => ex_program j' = Panic | _ => False end
    | _ => False end) by (vm_compute; reflexivity).
  revert X. generalize (ex_program (data_json (DtMesh (MkMesh 1 10 [ex_large])))). intros [[ext out]| |] X; try destruct X.
  destruct (data_to_json (fun l => l) ext out) as [[j'| |]|] eqn:D; try destruct X. exists j', ext, out. auto.
Qed.
Print Assumptions C89_large_refuted.

(** A value of each type with NUL in its texts: the second file is the first. *)
Definition ex_again : list data :=
  DtAnim (AD 2 1 0x42480000 (map (fun g => GD (gd_type g) (map (fun n => ND (nul_text (nd_name n)) (nd_tracks n)) (gd_nodes g))) (ad_groups ex_lossless)))
  :: filter (fun d => match d with DtAnim _ => false | _ => true end) ex_same.
Example C89_example : Forall (fun d => wellformed (data_json d) = true /\ cut_data d <> d /\
  forallb f32_finite (data_floats (stored_data (cut_data d))) = true /\
  match ex_program (data_json d) with
  | Ok (ext, out) => zlen out < 2 ^ 63 /\
      match data_to_json (fun l => l) ext out with
      | Some (Ok j') => j' <> data_json d /\ ex_program j' = Ok (ext, out)
      | _ => False
      end
  | _ => False
  end) ex_again.
Proof.
  repeat apply Forall_cons; try apply Forall_nil;
    (split; [vm_compute; reflexivity|]); (split; [vm_compute; discriminate|]); (split; [vm_compute; reflexivity|]);
    vm_compute; (split; [reflexivity|]); (split; [discriminate|reflexivity]).
Qed.
Example C89_example_fits : Forall again_fits ex_again.
Proof.
  repeat apply Forall_cons; try apply Forall_nil; try exact I.
  - intros t Ht. vm_compute in Ht. destruct Ht as [<-|[<-|[<-|[<-|[]]]]].
    + right. exact I.
    + right. intros x y Hx Hy. change (In x (7 :: repeat 9 20)) in Hx. change (In y (7 :: repeat 9 20)) in Hy.
      destruct Hx as [<-|Hx], Hy as [<-|Hy]; try apply repeat_spec in Hx; try apply repeat_spec in Hy; subst; reflexivity.
    + left. reflexivity.
    + left. reflexivity.
  - split; [|discriminate]. repeat (apply NoDup_cons; [vm_compute; intuition discriminate|]). apply NoDup_nil.
  - intros b i Hb E. apply in_map_iff in Hb as (c & <- & _). discriminate E.
Qed.
