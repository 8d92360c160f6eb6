(** C83: the fuzz targets of ssbh_data, which convert values in memory that no file need have held. *)
From Coq Require Import Permutation.
From Verif Require Import Bytes Ssbh Formats File Strings AnimComp AnimBuf AnimFile AnimSpec AnimReadSpec SmallData DataSpec SkelData SkelSpec MatlData MatlSpec MeshEx AdjData AdjSpec
  VecData MeshData Examples DataFuzz DataFuzzFacts PropsSsbh PropsAnim PropsTrack PropsAnimRead PropsSkel.

(** ** To data: every value of the types of Modl, Hlpb, Skel and Matl converts, to data that can be
    saved.  A value of [wt] has text without NUL and lists below 2^64 elements. *)
Theorem C83_modl_converts : forall version t v, format Modl version = Some t -> wt t v = true ->
  exists d, un_modl version v = Ok d /\ modl_ok d = true.
Proof. exact modl_converts. Qed.
Print Assumptions C83_modl_converts.
Theorem C83_hlpb_converts : forall version t v, format Hlpb version = Some t -> wt t v = true ->
  exists d, un_hlpb v = Ok d /\ forallb aim_ok (hd_aims d) = true /\ forallb orient_ok (hd_orients d) = true.
Proof. exact hlpb_converts. Qed.
Print Assumptions C83_hlpb_converts.
Theorem C83_skel_converts : forall version t v, format Skel version = Some t -> wt t v = true ->
  exists bones, un_skel v = Ok bones /\ bones_ok bones = true.
Proof. exact skel_converts. Qed.
Print Assumptions C83_skel_converts.
Theorem C83_matl_converts : forall version t v, format Matl version = Some t -> wt t v = true ->
  exists d, un_matl version v = Ok d /\ (mt_major d, mt_minor d) = version /\ matl_ok d = true.
Proof. exact matl_converts. Qed.
Print Assumptions C83_matl_converts.

(** The targets *_to_data other than anim_to_data never fail. *)
Theorem C83_targets_to_data :
  (forall version t v, format Modl version = Some t -> wt t v = true -> fuzz_modl_to_data version v = Ok tt) /\
  (forall version t v, format Skel version = Some t -> wt t v = true -> fuzz_skel_to_data v = Ok tt) /\
  (forall version t v, format Matl version = Some t -> wt t v = true -> fuzz_matl_to_data version v = Ok tt) /\
  (forall version t v, format Mesh version = Some t -> wt t v = true -> fuzz_mesh_to_data version v = Ok tt) /\
  (forall x, meshex_ok x = true -> fuzz_meshex_to_data x = Ok tt) /\
  (forall x, fuzz_adj_to_data x = Ok tt).
Proof. exact targets_to_data. Qed.
Print Assumptions C83_targets_to_data.

(** A bone without a name whose parent is far below -1, fewer transforms than bones; entries of an adj
    file in the wrong order *)
Definition ex_lost_bones : val :=
  let m := VStruct (repeat (VStruct (repeat (VInt 0) 4)) 4) in
  let bone := VStruct [VStruct [VPtr None]; VInt 0; VInt (2 ^ 16 - 7); VStruct [VInt 1; VInt 6]] in
  VStruct [VArr [bone; bone]; VArr []; VArr [m; m; m]; VArr [m]; VArr []].
Example C83_to_data_example :
  format Skel (1, 0) = Some Skel_V10 /\ wt Skel_V10 ex_lost_bones = true /\
  un_skel ex_lost_bones = Ok [Bone [] (tag 0) None 6] /\
  (exists e, un_adj (mkAdj [(0, 9); (1, 4)] [1; 2; 3]) = Err e) /\ fuzz_adj_to_data (mkAdj [(0, 9); (1, 4)] [1; 2; 3]) = Ok tt.
Proof. vm_compute. eauto 9. Qed.

(** The target anim_to_data fails for some animations. *)
Theorem C83_anim_to_data_refuted : exists v t, format Anim (2, 0) = Some t /\ wt t v = true /\ fuzz_anim_to_data (fun l => l) (2, 0) v = Panic.
Proof. exists (anim_val ex_short_track), Anim_V20. repeat split; vm_compute; reflexivity. Qed.
Print Assumptions C83_anim_to_data_refuted.
(** It fails for exactly those whose first track that cannot be read has a compressed header that
    is cut off (versions 2.0 and 2.1), or with a property outside of its buffer (version 1.2). *)
Theorem C83_anim_to_data : forall t m v, format Anim (2, m) = Some t -> wt t v = true -> exists a, v = anim_val a /\ an_minor a = m /\
  forall order, fuzz_anim_to_data order (2, m) v = Panic <-> first_bad (readable_track (an_buffer a)) (panicking_track (an_buffer a)) (file_tracks a).
Proof. exact target_anim. Qed.
Print Assumptions C83_anim_to_data.
Theorem C83_anim_v12_to_data : forall v, wt Anim_V12 v = true -> exists a, anim_v1_val v a /\ forall order, (forall l, Permutation l (order l)) ->
  (fuzz_anim_to_data order (1, 2) v = Ok tt <-> Forall (fun t => Forall (property_sound (av1_buffers a)) (v1_properties t)) (av1_tracks a)).
Proof. exact target_anim_v12. Qed.
Print Assumptions C83_anim_v12_to_data.
Example C83_anim_example : wt Anim_V21 (anim_val ex_shared) = true /\ format Anim (2, 1) = Some Anim_V21 /\
  fuzz_anim_to_data (fun l => l) (2, 1) (anim_val ex_shared) = Ok tt.
Proof. vm_compute. auto. Qed.

(** ** From data *)
(** A skeleton converts if and only if no bone is its own ancestor; indices of parents may be any. *)
Theorem C83_skel_saves : forall mul inv bones, parents_ok bones = true ->
  ((exists v, skel_val mul inv bones = Ok v) <-> forall b, In b bones -> exists l, ancestors bones b l) /\
  (skel_val mul inv bones = Err (EData DCycle) <-> exists b, In b bones /\ forall l, ~ ancestors bones b l).
Proof. exact skel_saves. Qed.
Print Assumptions C83_skel_saves.
(** An animation converts unless its version or its final frame is wrong, whatever its names, frame
    counts and numbers. *)
Theorem C83_anim_saves : forall d, forallb (fun t => values_ok (td_values t)) (tracks_of d) = true ->
  ((exists a, create_anim d = Ok a) \/ create_anim d = Err (EData DVersion) \/ create_anim d = Err (EData DFinalFrame)) /\
  (create_anim d = Err (EData DVersion) <-> ad_major d <> 2 \/ (ad_minor d <> 0 /\ ad_minor d <> 1)).
Proof. exact anim_saves. Qed.
Print Assumptions C83_anim_saves.
Theorem C83_mesh_saves : forall bounding d, create_mesh bounding d <> Panic.
Proof. exact create_mesh_np. Qed.
Print Assumptions C83_mesh_saves.
(** No target *_from_data fails. *)
Theorem C83_targets_from_data :
  (forall d, fuzz_modl_from_data d = Ok tt) /\
  (forall mul inv bones, parents_ok bones = true -> fuzz_skel_from_data mul inv bones = Ok tt) /\
  (forall d, fuzz_matl_from_data d = Ok tt) /\
  (forall bounding d, fuzz_mesh_from_data bounding d = Ok tt) /\
  (forall all gs, fuzz_meshex_from_data all gs = Ok tt) /\
  (forall d, fuzz_adj_from_data d = Ok tt) /\
  (forall d, forallb (fun t => values_ok (td_values t)) (tracks_of d) = true -> fuzz_anim_from_data d = Ok tt).
Proof. exact targets_from_data. Qed.
Print Assumptions C83_targets_from_data.

(** A cycle of bones; an animation with a NaN, an infinity, an empty track, text with a NUL and a
    negative final frame; a mesh with indices without vertices *)
Definition ex_odd_anim (final : Z) : anim_data :=
  AD 2 1 final [GD 77 [ND [0; 255] [TD [0] false no_flags (TvFloat (repeat 0x7fc00000 12 ++ [0x7f800000; 0xff800000]));
    TD [] true no_flags (TvTransform []); TD [] true no_flags (TvVec4 (repeat (V4 f1 0x7f800000 f0 1) 9))]]].
Example C83_from_data_example :
  parents_ok ex_cycle = true /\ skel_val ex_mul (fun m => m) ex_cycle = Err (EData DCycle) /\
  forallb (fun t => values_ok (td_values t)) (tracks_of (ex_odd_anim 0xbf800000)) = true /\
  create_anim (ex_odd_anim 0xbf800000) = Err (EData DFinalFrame) /\ (exists a, create_anim (ex_odd_anim 0x42000000) = Ok a) /\
  (exists e, create_mesh (fun _ => VInt 0) (MkMesh 1 10 [MkObj [111] 7 [112] 5 false true [1; 2; 3] [] [] [] [] [] [] []]) = Err e).
Proof. repeat split; try (vm_compute; reflexivity); eexists; vm_compute; reflexivity. Qed.
