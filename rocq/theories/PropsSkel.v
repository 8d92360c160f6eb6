(** Properties of skeletons.  [mul] and [inv] are the product and inverse of matrices, any
    functions unless said otherwise. *)
From Verif Require Import Bytes Ssbh File AnimComp AnimBuf SmallData SkelData SkelSpec SkelFacts.

(** ** C38: world transforms.  The parent index is a usize. *)
Theorem C38_world_terminates : forall mul bones b, parents_ok bones = true -> parents_ok [b] = true ->
  forall rounds, (length bones + 2 <= rounds)%nat ->
  world_loop mul rounds bones b (bn_transform b) [] = Some (calculate_world_transform mul bones b).
Proof. exact (fun mul => world_terminates mul (fun m => m)). Qed.
Print Assumptions C38_world_terminates.

Theorem C38_world_result : forall mul bones b, parents_ok bones = true -> parents_ok [b] = true ->
  (forall l, ancestors bones b l -> calculate_world_transform mul bones b = Ok (product mul b l)) /\
  ((forall l, ~ ancestors bones b l) -> calculate_world_transform mul bones b = Err (EData DCycle)) /\
  (calculate_world_transform mul bones b = Err (EData DCycle) -> forall l, ~ ancestors bones b l).
Proof. exact (fun mul => world_result mul (fun m => m)). Qed.
Print Assumptions C38_world_result.

(** The matrices stored in the file are the world transforms, the transforms and their inverses. *)
Theorem C38_skel_worlds : forall mul inv bones v, parents_ok bones = true -> skel_val mul inv bones = Ok v -> exists ws,
  v = VStruct [VArr (bone_entries 0 bones); VArr (map mat_val ws); VArr (map (fun m => mat_val (inv m)) ws);
               VArr (map (fun b => mat_val (bn_transform b)) bones); VArr (map (fun b => mat_val (inv (bn_transform b))) bones)] /\
  Forall2 (fun b w => exists l, ancestors bones b l /\ w = product mul b l) bones ws.
Proof. exact skel_worlds. Qed.
Print Assumptions C38_skel_worlds.

(** Three bones in a chain, a bone outside of it and two bones that are each other's parent.
    [tag] marks a transform; the example product writes the tags of its factors in order. *)
Definition tag (i : Z) : mat := Mat (V4 i 0 0 0) (V4 0 0 0 0) (V4 0 0 0 0) (V4 0 0 0 0).
Definition ex_mul (a b : mat) : mat := tag (10 * v4x (col1 a) + v4x (col1 b)).
Definition ex_bones : list bone :=
  [Bone [97] (tag 1) None 0; Bone [98] (tag 2) (Some 0) 1; Bone [99] (tag 3) (Some 1) 8; Bone [100] (tag 4) (Some 9) 0].
Definition ex_cycle : list bone := ex_bones ++ [Bone [101] (tag 5) (Some 5) 0; Bone [102] (tag 6) (Some 4) 0].
Example C38_example :
  parents_ok ex_cycle = true /\
  calculate_world_transform ex_mul ex_cycle (Bone [99] (tag 3) (Some 1) 8) = Ok (tag 33) /\
  product ex_mul (Bone [99] (tag 3) (Some 1) 8) [Bone [98] (tag 2) (Some 0) 1; Bone [97] (tag 1) None 0] = tag 33 /\
  calculate_world_transform ex_mul ex_cycle (Bone [100] (tag 4) (Some 9) 0) = Ok (tag 4) /\
  calculate_world_transform ex_mul ex_cycle (Bone [102] (tag 6) (Some 4) 0) = Err (EData DCycle).
Proof. vm_compute. auto. Qed.
Example C38_ancestors_example :
  ancestors ex_cycle (Bone [99] (tag 3) (Some 1) 8) [Bone [98] (tag 2) (Some 0) 1; Bone [97] (tag 1) None 0].
Proof. repeat (eapply anc_parent; [reflexivity|reflexivity|]). now apply anc_root. Qed.

(** ** C39: saving and loading.  [bones_ok] includes that parent indices are below 32768. *)
Theorem C39_skel_save_load : forall mul inv,
  (forall a c, mat_ok (mul a c) = true) -> (forall a, mat_ok (inv a) = true) ->
  forall bones out, bones_ok bones = true -> skel_data_write mul inv bones = Ok out -> zlen out < 2 ^ 63 ->
  skel_data_read out = Ok bones.
Proof. exact skel_save_load. Qed.
Print Assumptions C39_skel_save_load.

Theorem C39_skel_write_result : forall mul inv,
  (forall a c, mat_ok (mul a c) = true) -> (forall a, mat_ok (inv a) = true) ->
  forall bones, bones_ok bones = true ->
  ((forall b, In b bones -> exists l, ancestors bones b l) -> exists out, skel_data_write mul inv bones = Ok out) /\
  ((exists b, In b bones /\ forall l, ~ ancestors bones b l) -> skel_data_write mul inv bones = Err (EData DCycle)).
Proof. exact skel_write_result. Qed.
Print Assumptions C39_skel_write_result.

Definition ex_left (a b : mat) : mat := tag 7.
Definition ex_out : list Z :=
  match skel_data_write ex_left (fun _ => tag 1) ex_bones with Ok out => out | _ => [] end.
Example C39_example :
  (forall a c, mat_ok (ex_left a c) = true) /\ bones_ok ex_bones = true /\
  skel_data_write ex_left (fun _ => tag 1) ex_bones = Ok ex_out /\ zlen ex_out < 2000 /\ skel_data_read ex_out = Ok ex_bones /\
  skel_data_write ex_left (fun _ => tag 1) ex_cycle = Err (EData DCycle).
Proof. split; [reflexivity|]. vm_compute. auto 10. Qed.

(** Larger parent indices are saved without an error and come back changed. *)
Theorem C39_parent_index_refuted : exists bones out, (forall b, In b bones -> exists l, ancestors bones b l) /\
  skel_data_write skel_mul skel_id bones = Ok out /\ zlen out < 1000 /\ skel_data_read out <> Ok bones.
Proof. exact wide_parent_lost. Qed.
Print Assumptions C39_parent_index_refuted.

(** ** C51: relative transforms, with exact integer matrices.  The world transform of a bone is
    parent * transform (C38), so the relative transform of [w] under [p] should satisfy
    [p * relative = w].  It satisfies [relative * p = w] instead. *)
Theorem C51_relative_refuted : exists inv w p, is_zmat w /\ is_zmat p /\ zmul (inv p) p = zone /\ zmul p (inv p) = zone /\
  zmul p (calculate_relative_transform zmul inv w (Some p)) <> w.
Proof. exact relative_wrong. Qed.
Print Assumptions C51_relative_refuted.

Theorem C51_relative_other_side : forall inv w p, is_zmat w -> zmul (inv p) p = zone ->
  zmul (calculate_relative_transform zmul inv w (Some p)) p = w.
Proof. exact relative_exact. Qed.
Print Assumptions C51_relative_other_side.

Example C51_example :
  is_zmat [[2; 0; 0; 0]; [0; 4; 0; 0]; [0; 0; 8; 0]; [0; 0; 0; 1]] /\
  zmul [[1; 0; 0; 0]; [0; 1; 0; 0]; [0; 0; 1; 0]; [-1; -2; -3; 1]] [[1; 0; 0; 0]; [0; 1; 0; 0]; [0; 0; 1; 0]; [1; 2; 3; 1]] = zone.
Proof. split; [split; [reflexivity|repeat constructor]|reflexivity]. Qed.
