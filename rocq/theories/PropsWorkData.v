(** Properties of the size of loaded data. *)
From Coq Require Import Permutation.
From Verif Require Import Bytes Ssbh Formats File MeshEx AdjData AnimComp AnimBuf AnimFile VecData MeshData MeshSpec MeshReadSpec MeshFacts MeshReload
  ResaveFacts Work WorkSpec WorkFacts WorkData PropsMesh PropsMeshRead PropsWork.

(** ** C78: no text, buffer or list of a value that was read is longer than the file *)
Theorem C78_values : forall b f, bytes_ok b = true -> file_read b = Ok f -> short (zlen b) (fbody f) = true.
Proof. exact file_short. Qed.
Print Assumptions C78_values.

(** The same for the data of ssbh_data.  A track has at most 8 values for each byte, whatever
    number of frames it claims. *)
Theorem C78_animations : forall order b d, (forall l, Permutation l (order l)) -> bytes_ok b = true ->
  anim_data_read order b = Ok d -> anim_short (zlen b) d.
Proof. exact anim_data_short. Qed.
Print Assumptions C78_animations.
Theorem C78_tracks : forall b n t c v compensate, bytes_ok b = true -> 0 <= n ->
  read_track_values b t c n = Ok (v, compensate) -> tv_len v <= 8 * zlen b.
Proof. exact track_values_short. Qed.
Print Assumptions C78_tracks.
Theorem C78_meshes : forall b d, bytes_ok b = true -> mesh_data_read b = Ok d -> mesh_short (zlen b) d.
Proof. exact mesh_data_short. Qed.
Print Assumptions C78_meshes.
(** The entries of an adjacency file divide its indices among them. *)
Theorem C78_adjacency : forall b d, bytes_ok b = true -> adj_data_read b = Ok d ->
  4 + 8 * zlen d + 2 * zlen (flat_map ae_adjacency d) <= zlen b.
Proof. exact adj_data_short. Qed.
Print Assumptions C78_adjacency.

(** Flags take one bit, so the factor of 8 is needed: [k] bytes hold 8 k frames, and no frame
    more.  A float track whose range is a single value has one frame if it claims 2^32 - 1. *)
Definition ex_flags (k : nat) : list Z :=
  le_bytes 2 4 ++ le_bytes 2 0 ++ le_bytes 2 1 ++ le_bytes 2 1 ++ le_bytes 4 32 ++ le_bytes 4 0 ++ repeat 0 16 ++ repeat 255 k.
Definition ex_single : list Z :=
  le_bytes 2 4 ++ le_bytes 2 0 ++ le_bytes 2 16 ++ le_bytes 2 0 ++ le_bytes 4 1 ++ le_bytes 4 0 ++
  le_bytes 4 0x3f800000 ++ le_bytes 4 0x3f800000 ++ le_bytes 8 24.
Example C78_example :
  read_track_values (ex_flags 40) 8 Compressed 320 = Ok (TvBool (repeat true 320), false) /\
  (exists e, read_track_values (ex_flags 40) 8 Compressed 321 = Err e) /\
  read_track_values ex_single 3 Compressed (2 ^ 32 - 1) = Ok (TvFloat [0x3f800000], false) /\
  (exists e, read_track_values ex_single 3 Direct (2 ^ 32 - 1) = Err e).
Proof.
  split; [vm_compute; reflexivity|]. split; [eexists; vm_compute; reflexivity|]. split; [vm_compute; reflexivity|].
  eexists. vm_compute. reflexivity.
Qed.
(** A mesh, and adjacency that fills its file *)
Example C78_lists :
  map (fun o => (zlen (ob_indices o), zlen (all_attributes o), zlen (ob_influences o))) (mesh_objects (ex_loaded 4)) = [(4, 3, 2)] /\
  (exists b d, adj_data_read b = Ok d /\ bytes_ok b = true /\ 4 + 8 * zlen d + 2 * zlen (flat_map ae_adjacency d) = zlen b /\ zlen d = 2).
Proof.
  split; [vm_compute; reflexivity|].
  exists (le_bytes 4 2 ++ le_bytes 4 0 ++ le_bytes 4 0 ++ le_bytes 4 1 ++ le_bytes 4 4 ++ le_bytes 2 5 ++ le_bytes 2 6 ++ le_bytes 2 7).
  eexists. split; [vm_compute; reflexivity|]. vm_compute. auto.
Qed.
(** The value of PropsWork.v that is larger than its file has only short lists. *)
Example C78_bomb : match file_read (WorkBomb.bomb 100) with Ok f => short 100 (fbody f) && negb (short 99 (fbody f)) | _ => false end = true.
Proof. vm_compute. reflexivity. Qed.

(** C52 for meshes, with the size of the file instead of conditions on the lists *)
Theorem C52_mesh_reload_file : forall bounding b d, bounding_ok bounding -> bytes_ok b = true -> mesh_data_read b = Ok d ->
  zlen b < 2 ^ 28 -> mesh_fits (mesh_version_of d) (mesh_objects d) ->
  (saveable d -> exists out, mesh_data_write bounding d = Ok out /\ (zlen out < 2 ^ 63 -> mesh_data_read out = Ok (stored_mesh d))) /\
  (~ saveable d -> exists e, mesh_data_write bounding d = Err (EData e) /\ mesh_violation d (EData e) /\
     In e [DDuplicate; DNotTriangles; DIndexRange]).
Proof. exact mesh_reload_file. Qed.
Print Assumptions C52_mesh_reload_file.
