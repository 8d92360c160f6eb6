(** The fuzz targets of ssbh_data: conversions of values in memory, whose results are dropped.  A
    target fails if the conversion panics.
    Paths below are relative to /repo/ssbh_data. *)
From Verif Require Import Bytes Ssbh Formats File MeshEx AnimComp AnimBuf AnimFile SmallData SkelData MatlData AdjData MeshData.

(** TryFrom<&Anim> for AnimData, src/anim_data.rs:97-117 and 363-381: what AnimData::read does with
    the value it has read *)
Definition anim_to_data (order : list Z -> list Z) (version : Z * Z) (v : val) : res anim_data :=
  if (fst version =? 1) && (snd version =? 2) then
    let* a := un_anim_v1 v in
    let* groups := read_groups_v12 order (av1_tracks a) (av1_buffers a) in
    Ok (AD 1 2 (av1_final a) groups)
  else
    let* a := un_anim version v in
    read_anim a.
Lemma anim_data_read_eq order b : anim_data_read order b = let* (version, v) := typed_read Anim b in anim_to_data order version v.
Proof. reflexivity. Qed.

(** A target drops the result, error or not. *)
Definition dropped {A} (r : res A) : res unit := match r with Panic => Panic | _ => Ok tt end.

(** fuzz/fuzz_targets/modl_to_data.rs:4-6 and modl_from_data.rs:5-7 *)
Definition fuzz_modl_to_data (version : Z * Z) (v : val) : res unit := dropped (un_modl version v).
Definition fuzz_modl_from_data (d : modl_data) : res unit := dropped (Ok (modl_val d)).
(** skel_to_data.rs:5-7 and skel_from_data.rs:5-7 *)
Definition fuzz_skel_to_data (v : val) : res unit := dropped (un_skel v).
Definition fuzz_skel_from_data (mul : mat -> mat -> mat) (inv : mat -> mat) (bones : list bone) : res unit := dropped (skel_val mul inv bones).
(** matl_to_data.rs:5-7 and matl_from_data.rs:5-7 *)
Definition fuzz_matl_to_data (version : Z * Z) (v : val) : res unit := dropped (un_matl version v).
Definition fuzz_matl_from_data (d : matl_data) : res unit := dropped (matl_val d).
(** meshex_to_data.rs:5-7 and meshex_from_data.rs:5-7 *)
Definition fuzz_meshex_to_data (x : meshex) : res unit := dropped (un_meshex x).
Definition fuzz_meshex_from_data (all : sphere) (gs : list mesh_group) : res unit := dropped (Ok (meshex_of all gs)).
(** adj_to_data.rs:5-7 and adj_from_data.rs:5-7 *)
Definition fuzz_adj_to_data (x : adj) : res unit := dropped (un_adj x).
Definition fuzz_adj_from_data (d : list adj_entry) : res unit := dropped (Ok (adj_of d)).
(** mesh_to_data.rs:5-7 and mesh_from_data.rs:5-7 *)
Definition fuzz_mesh_to_data (version : Z * Z) (v : val) : res unit := dropped (un_mesh version v).
Definition fuzz_mesh_from_data (bounding : list (list Z) -> val) (d : mesh_data) : res unit := dropped (create_mesh bounding d).
(** anim_to_data.rs:5-7 and anim_from_data.rs:5-7 *)
Definition fuzz_anim_to_data (order : list Z -> list Z) (version : Z * Z) (v : val) : res unit := dropped (anim_to_data order version v).
Definition fuzz_anim_from_data (d : anim_data) : res unit := dropped (create_anim d).
