(** Fields of saved files that loading does not use, as another program reads them. *)
From Verif Require Import Bytes Ssbh Formats File Strings SmallData SkelData SkelSpec MatlData MatlSpec VecData MeshData MeshSpec MeshLemmas ResaveFacts StoredSpec StoredFacts.
From Verif Require PropsSkel PropsMatl PropsMesh.

(** ** C57
    Skeletons: numbers, flags and parents of the entries and all five lists of matrices. *)
Theorem C57_skel_file : forall mul inv,
  (forall a c, mat_ok (mul a c) = true) -> (forall a, mat_ok (inv a) = true) ->
  forall bones out, bones_ok bones = true -> skel_data_write mul inv bones = Ok out -> zlen out < 2 ^ 63 ->
  exists es ws iws ts its,
  typed_read Skel out = Ok ((1, 0), VStruct [VArr es; VArr ws; VArr iws; VArr ts; VArr its]) /\ length es = length bones /\
  forall i b, nth_error bones i = Some b -> exists e l,
    nth_error es i = Some e /\ bone_stored i b e /\ ancestors bones b l /\
    nth_error ws i = Some (mat_val (product mul b l)) /\ nth_error iws i = Some (mat_val (inv (product mul b l))) /\
    nth_error ts i = Some (mat_val (bn_transform b)) /\ nth_error its i = Some (mat_val (inv (bn_transform b))).
Proof. exact skel_file. Qed.
Print Assumptions C57_skel_file.

(** Materials: order of the attributes, filtering type and unused fields. *)
Theorem C57_matl_file : forall d out, matl_ok d = true -> matl_data_write d = Ok out -> zlen out < 2 ^ 63 ->
  exists es, typed_read Matl out = Ok ((1, 6), VStruct [VArr es]) /\ Forall2 entry_stored (mt_entries d) es.
Proof. exact matl_file. Qed.
Print Assumptions C57_matl_file.

(** Meshes: sizes of the buffers, bounding volumes, rigging types, names of attributes. *)
Theorem C57_mesh_file : forall bounding d out, bounding_ok bounding -> mesh_ok d = true -> mesh_fits (mesh_version_of d) (mesh_objects d) ->
  mesh_data_write bounding d = Ok out -> zlen out < 2 ^ 63 ->
  exists name vs b0 b1 b2 ib rig,
  typed_read Mesh out = Ok ((mesh_major d, mesh_minor d),
    VStruct [VStruct [name; bounding (flat_map (fun o => match ob_positions o with a :: _ => to_vec3 (attr_data a) | [] => [] end) (mesh_objects d));
      VInt 0; VArr vs; VArr [VInt (zlen b0); VInt (zlen b1); VInt (zlen b2); VInt 0]; VInt (zlen ib);
      VArr [VBytes b0; VBytes b1; VBytes b2; VBytes []]; VBytes ib; VArr rig]]) /\
  ssbh_to_string_lossy name = [] /\
  Forall2 (fun o v => exists attrs, object_stored bounding o v attrs /\ (mesh_minor d <> 8 -> attributes_stored o attrs)) (mesh_objects d) vs.
Proof. exact mesh_file. Qed.
Print Assumptions C57_mesh_file.

(** The data of the examples C39, C40 and C53 *)
Example C57_example :
  bones_ok PropsSkel.ex_bones = true /\ skel_data_write PropsSkel.ex_left (fun _ => PropsSkel.tag 1) PropsSkel.ex_bones = Ok PropsSkel.ex_out /\
  matl_ok PropsMatl.ex_matl = true /\ matl_data_write PropsMatl.ex_matl = Ok PropsMatl.ex_matl_out /\
  bounding_ok simple_bounding /\ mesh_ok (PropsMesh.ex_mesh 10) = true /\
  mesh_fits (mesh_version_of (PropsMesh.ex_mesh 10)) (mesh_objects (PropsMesh.ex_mesh 10)) /\
  mesh_data_write simple_bounding (PropsMesh.ex_mesh 10) = Ok (PropsMesh.ex_mesh_out 10).
Proof.
  do 4 (split; [vm_compute; reflexivity|]). split; [exact (proj1 PropsMesh.C53_example)|].
  split; [vm_compute; reflexivity|]. split; [vm_compute; auto|vm_compute; reflexivity].
Qed.
