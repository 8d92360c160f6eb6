(** Property C85 of properties.jsonl: the documents of ssbh_lib_json and of ssbh_data_json agree.

    AgreeSpec.v says for each type which members show the same.  [content] leaves out the names
    of the type and of the version. *)
From Coq Require Import String.
From Verif Require Import Bytes Strings File AnimComp AnimBuf AnimFile SmallData MatlData SkelData AdjData MeshEx VecData MeshData
  Json JsonSchema JsonFile DataJson AgreeSpec AgreeFacts AgreeFacts2 AgreeFacts3 AgreeFacts4 PropsMesh PropsAnimRead PropsDataJson.
From Coq Require Import List.
Import ListNotations.
Open Scope Z_scope.

Theorem C85_modl : forall order b dj fj, bytes_ok b = true ->
  data_to_json order "numdlb" b = Some (Ok dj) -> file_to_json "numdlb" b = Ok fj -> modl_agree dj (content fj).
Proof. exact modl_agrees. Qed.
Print Assumptions C85_modl.

Theorem C85_hlpb : forall order b dj fj, bytes_ok b = true ->
  data_to_json order "nuhlpb" b = Some (Ok dj) -> file_to_json "nuhlpb" b = Ok fj -> hlpb_agree dj (content fj).
Proof. exact hlpb_agrees. Qed.
Print Assumptions C85_hlpb.

Theorem C85_skel : forall order b dj fj, bytes_ok b = true ->
  data_to_json order "nusktb" b = Some (Ok dj) -> file_to_json "nusktb" b = Ok fj -> skel_agree dj (content fj).
Proof. exact skel_agrees. Qed.
Print Assumptions C85_skel.

Theorem C85_matl : forall order b dj fj, bytes_ok b = true ->
  data_to_json order "numatb" b = Some (Ok dj) -> file_to_json "numatb" b = Ok fj -> matl_agree dj (content fj).
Proof. exact matl_agrees. Qed.
Print Assumptions C85_matl.

(** These two files have neither a type nor a version. *)
Theorem C85_meshex : forall order b dj fj, bytes_ok b = true ->
  data_to_json order "numshexb" b = Some (Ok dj) -> file_to_json "numshexb" b = Ok fj -> meshex_agree dj fj.
Proof. exact meshex_agrees. Qed.
Print Assumptions C85_meshex.
Theorem C85_adj : forall order b dj fj, bytes_ok b = true ->
  data_to_json order "adjb" b = Some (Ok dj) -> file_to_json "adjb" b = Ok fj -> adj_agree dj fj.
Proof. exact adj_agrees. Qed.
Print Assumptions C85_adj.

(** The groups of version 1.2 are made of its tracks (C64). *)
Theorem C85_anim : forall order b dj fj, bytes_ok b = true ->
  data_to_json order "nuanmb" b = Some (Ok dj) -> file_to_json "nuanmb" b = Ok fj ->
  agree_at "final_frame_index" dj (content fj) /\
  (version_name fj <> "V12"%string -> agree_list "groups" group_agree dj (content fj)).
Proof. exact anim_agrees. Qed.
Print Assumptions C85_anim.

Theorem C85_mesh : forall order b dj fj, bytes_ok b = true ->
  data_to_json order "numshb" b = Some (Ok dj) -> file_to_json "numshb" b = Ok fj -> mesh_agree dj (content fj).
Proof. exact mesh_agrees. Qed.
Print Assumptions C85_mesh.

(** Both programs accept a file of each type, and its lists are not empty. *)
Definition both (order : list Z -> list Z) (ext : string) (b : list Z) : option (json * json) :=
  match data_to_json order ext b, file_to_json ext b with
  | Some (Ok dj), Ok fj => if bytes_ok b then Some (dj, fj) else None
  | _, _ => None
  end.
Definition main_list (k : data_kind) : string :=
  match k with
  | DkMesh => "objects" | DkSkel => "bones" | DkAnim => "groups" | DkModl | DkMatl | DkAdj => "entries"
  | DkHlpb => "aim_constraints" | DkMeshEx => "mesh_object_groups"
  end%string.
Definition ex_shown (p : data * list Z) : option Z :=
  match both (fun l => l) (data_ext (data_kind_of (fst p))) (snd p) with
  | Some (dj, _) => match get (main_list (data_kind_of (fst p))) dj with Some (JArr l) => Some (zlen l) | _ => None end
  | None => None
  end.
Definition ex_versions : list string :=
  flat_map (fun p => match both (fun l => l) (data_ext (data_kind_of (fst p))) (snd p) with Some (_, fj) => [version_name fj] | None => [] end) ex_files.
Example C85_example :
  map (fun p => data_kind_of (fst p)) ex_files = attempts /\
  map ex_shown ex_files = [Some 2; Some 4; Some 3; Some 2; Some 2; Some 1; Some 3; Some 3] /\
  ex_versions = ["V10"; "V10"; "V21"; "V17"; "V16"; "V11"; ""; ""]%string.
Proof. vm_compute. auto. Qed.
(** The other versions of meshes, and animations of version 1.2 *)
Example C85_versions :
  option_map (fun p => version_name (snd p)) (both (fun l => l) "numshb" (ex_mesh_out 8)) = Some "V8"%string /\
  option_map (fun p => version_name (snd p)) (both (fun l => l) "numshb" (ex_mesh_out 9)) = Some "V9"%string /\
  option_map (fun p => version_name (snd p)) (match ex_v12 ex_buffers with Ok b => both (@rev Z) "nuanmb" b | _ => None end) = Some "V12"%string.
Proof. vm_compute. auto. Qed.
