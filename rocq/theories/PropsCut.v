(** Property C86 of properties.jsonl: what a file keeps of data that Rust's types admit, whatever
    texts and numbers it has.

    [cut_data] (CutSpec.v) cuts every text before its first NUL, reduces the numbers of parents
    and objects to the width they have in the file and fixes the versions of models, helper bones
    and skeletons.  [stored_data] (DataJsonSpec.v) is what saving makes of the values of an
    animation and the attributes of a mesh; [typed_data]: Rust's types admit the value. *)
From Coq Require Import String.
From Verif Require Import Bytes Ssbh Formats Strings File MeshEx AnimComp AnimBuf AnimSpec AnimFile SmallData DataSpec MatlData
  SkelData SkelSpec AdjData VecData MeshData MeshSpec ResaveFacts Json JsonSchema JsonSpec DataJson DataJsonSpec CutSpec CutFacts
  PropsData PropsMatl PropsMesh PropsSkel PropsAnim PropsAdj PropsDataJson.
From Coq Require Import List.
Import ListNotations.
Open Scope Z_scope.

(** The text kept is what comes before the first NUL. *)
Theorem C86_cut : forall t,
  (exists rest, t = cut t ++ rest /\ ~ In 0 (cut t) /\ (rest = [] \/ exists r, rest = 0 :: r)) /\
  (cut t = t <-> ~ In 0 t).
Proof. intros t. split; [exact (cut_spec t)|exact (cut_same t)]. Qed.
Print Assumptions C86_cut.

(** Every value that is saved is loaded as the cut value.  Mesh objects that have the same name
    after cutting, and the same number, are loaded with the influences of all of them
    ([merged_data]). *)
Theorem C86_kept : forall mul inv bounding sphere_of order d out,
  (forall a c, mat_ok (mul a c) = true) -> (forall a, mat_ok (inv a) = true) -> bounding_ok bounding ->
  (forall gs, sphere_ok (sphere_of gs) = true) ->
  typed_data d = true -> counts_fit d ->
  save_data mul inv bounding sphere_of d = Ok out -> zlen out < 2 ^ 63 ->
  load_as order (data_kind_of d) out = Ok (stored_data (merged_data (cut_data d))).
Proof. exact data_cut. Qed.
Print Assumptions C86_kept.

(** The same for the program ssbh_data_json: the document of the file it writes describes the cut
    value of what the first document describes. *)
Theorem C86_document : forall mul inv bounding sphere_of order j d ext out,
  (forall a c, mat_ok (mul a c) = true) -> (forall a, mat_ok (inv a) = true) -> bounding_ok bounding ->
  (forall gs, sphere_ok (sphere_of gs) = true) ->
  wellformed j = true -> read_first attempts j = Some d -> counts_fit d ->
  json_to_data_file mul inv bounding sphere_of j = Ok (ext, out) -> zlen out < 2 ^ 63 ->
  data_to_json order ext out = Some (Ok (data_json (stored_data (merged_data (cut_data d))))).
Proof. exact document_cut. Qed.
Print Assumptions C86_document.

(** Nothing is merged if the objects differ in what is kept of their names or in their numbers;
    otherwise what is loaded cannot be saved again. *)
Theorem C86_distinct : forall d, keys_differ d -> merged_data (cut_data d) = cut_data d.
Proof. exact merged_cut. Qed.
Print Assumptions C86_distinct.
Theorem C86_unsaved : forall mul inv bounding sphere_of d, ~ keys_differ d ->
  save_data mul inv bounding sphere_of (stored_data (merged_data (cut_data d))) = Err (EData DDuplicate).
Proof. exact merged_unsaved. Qed.
Print Assumptions C86_unsaved.

Theorem C86_idempotent : forall d, cut_data (cut_data d) = cut_data d.
Proof. exact cut_data_idem. Qed.
Print Assumptions C86_idempotent.

(** A value of each type with a NUL in its texts, a parent and an object of more bits than the
    file has room for, and other versions *)
Definition nul_text (t : list Z) : list Z := t ++ [0; 120].
Definition ex_nul : list data :=
  [DtMesh (MkMesh 1 9 (map (fun o =>
      MkObj (nul_text (ob_name o)) (ob_subindex o) (nul_text (ob_parent o)) (ob_bias o) (ob_no_write o) (ob_no_test o) (ob_indices o)
        (map (fun a => MkAttr (nul_text (attr_name a)) (attr_data a)) (ob_positions o)) (ob_normals o) (ob_binormals o) (ob_tangents o)
        (ob_texcoords o) (ob_colors o) (map (fun i => MkInf (nul_text (inf_bone i)) (inf_weights i)) (ob_influences o)))
      [ex_object1; ex_object2]));
   DtSkel 7 8 (map (fun b => Bone (nul_text (bn_name b)) (bn_transform b) (Some (2 ^ 16 + 5)) (bn_billboard b)) ex_bones);
   DtAnim (AD (ad_major ex_anim) (ad_minor ex_anim) (ad_final ex_anim)
     (map (fun g => GD (gd_type g) (map (fun n => ND (nul_text (nd_name n)) (nd_tracks n)) (gd_nodes g))) (ad_groups ex_anim)));
   DtModl (MD 9 9 (nul_text [97]) (nul_text [195; 169]) [nul_text [98]; []] (Some [0]) [99] [ME (nul_text [100]) 3 [0; 0]]);
   DtMatl (MatD 1 6 (map (fun e => MatE (nul_text (mt_label e)) (nul_text (mt_shader e)) (mt_blends e) (mt_floats e) (mt_bools e)
     (mt_vectors e) (mt_rasters e) (mt_samplers e) (map (fun p => Prm (pr_id p) (nul_text (pr_data p))) (mt_textures e)) (mt_uvs e))
     (mt_entries PropsMatl.ex_matl)));
   DtHlpb (HD 3 4 (map (fun a => Aim (nul_text (am_name a)) (am_bone1 a) (am_bone2 a) (am_type1 a) (am_type2 a) (am_target1 a)
     (nul_text (am_target2 a)) (am_unk1 a) (am_unk2 a) (am_aim a) (am_up a) (am_quat1 a) (am_quat2 a)) (hd_aims PropsData.ex_hlpb)) []);
   DtMeshEx (map (fun g => MG (mg_sphere g) (nul_text (mg_full g)) (nul_text (mg_name g)) (mg_flags g)) ex_groups);
   DtAdj [AE (2 ^ 32 + 7) [1; 2; 3]; AE 8 [65535]]].
Definition kept_example (d : data) : bool :=
  match save_data (fun a _ => a) (fun a => a) simple_bounding (fun _ => ex_sphere) d with
  | Ok out => typed_data d && (zlen out <? 2 ^ 63)
  | _ => false
  end.
Example C86_example :
  map data_kind_of ex_nul = attempts /\ forallb kept_example ex_nul = true /\
  Forall (fun d => cut_data d <> d) ex_nul /\ Forall keys_differ ex_nul.
Proof.
  split; [reflexivity|]. split; [vm_compute; reflexivity|]. split.
  - repeat constructor; vm_compute; discriminate.
  - repeat constructor; vm_compute; intuition discriminate.
Qed.
Example C86_example_counts : Forall counts_fit ex_nul.
Proof.
  repeat apply Forall_cons; try apply Forall_nil; cbv [ex_nul counts_fit];
    repeat match goal with
    | |- _ /\ _ => split
    | |- Forall _ _ => repeat constructor
    | |- forall _, In _ _ -> _ => let x := fresh in let H := fresh in intros x H; vm_compute in H; repeat (destruct H as [<-|H]); [..|destruct H]
    end; try (vm_compute; reflexivity); vm_compute; auto.
Qed.

(** The influences are not always kept: names are compared before they are cut.  Two
    objects whose names differ after a NUL are saved, and each of them is loaded with the
    influences of both. *)
Definition ex_merged : data :=
  DtMesh (MkMesh 1 10
    [MkObj [97; 0; 120] 0 [] 0 false false [] [] [] [] [] [] [] [MkInf [98; 49] [MkWeight 0 1]];
     MkObj [97; 0; 121] 0 [] 0 false false [] [] [] [] [] [] [] [MkInf [98; 50] [MkWeight 0 2]]]).
Theorem C86_merged_refuted : exists d out,
  typed_data d = true /\ counts_fit d /\
  save_data (fun a _ => a) (fun a => a) simple_bounding (fun _ => ex_sphere) d = Ok out /\ zlen out < 2 ^ 63 /\
  load_as (fun l => l) (data_kind_of d) out <> Ok (stored_data (cut_data d)).
Proof.
  exists ex_merged. eexists. split; [reflexivity|]. split.
  { split; [vm_compute; reflexivity|]. split; [|vm_compute; auto].
    repeat apply Forall_cons; try apply Forall_nil; (split; [vm_compute; reflexivity|]); (split; [vm_compute; reflexivity|]);
      intros i [<-|[]]; vm_compute; reflexivity. }
  split; [vm_compute; reflexivity|]. split; [vm_compute; reflexivity|]. vm_compute. discriminate.
Qed.
Print Assumptions C86_merged_refuted.
Example C86_merged_influences :
  match save_data (fun a _ => a) (fun a => a) simple_bounding (fun _ => ex_sphere) ex_merged with
  | Ok out =>
      match load_as (fun l => l) DkMesh out with
      | Ok (DtMesh d) => map (fun o => (ob_name o, map inf_bone (ob_influences o))) (mesh_objects d)
      | _ => []
      end
  | _ => []
  end = [([97], [[98; 49]; [98; 50]]); ([97], [[98; 49]; [98; 50]])].
Proof. vm_compute. reflexivity. Qed.
Example C86_merged_keys : ~ keys_differ ex_merged.
Proof. intros N. inversion N as [|? ? N1 _]. apply N1. left. reflexivity. Qed.
