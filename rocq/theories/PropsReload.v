(** Properties of data loaded from any file. *)
From Verif Require Import Bytes Ssbh Formats File AnimComp AnimBuf SmallData DataSpec SkelData SkelSpec MatlData AdjData MeshEx ReloadFacts.

(** ** C52: what was loaded can be saved again and loads back unchanged.  [b] is any file
    content, valid or not. *)
Theorem C52_modl_reload : forall b d, bytes_ok b = true -> modl_data_read b = Ok d ->
  exists out, modl_data_write d = Ok out /\ (zlen out < 2 ^ 63 -> modl_data_read out = Ok d).
Proof. exact modl_reload. Qed.
Print Assumptions C52_modl_reload.

Theorem C52_hlpb_reload : forall b d, bytes_ok b = true -> hlpb_data_read b = Ok d ->
  zlen (hd_aims d) < 2 ^ 32 -> zlen (hd_orients d) < 2 ^ 32 ->
  exists out, hlpb_data_write d = Ok out /\ (zlen out < 2 ^ 63 -> hlpb_data_read out = Ok d).
Proof. exact hlpb_reload. Qed.
Print Assumptions C52_hlpb_reload.

Theorem C52_skel_reload : forall mul inv b bones,
  (forall a c, mat_ok (mul a c) = true) -> (forall a, mat_ok (inv a) = true) ->
  bytes_ok b = true -> skel_data_read b = Ok bones ->
  skel_data_write mul inv bones = Err (EData DCycle) \/
  exists out, skel_data_write mul inv bones = Ok out /\ (zlen out < 2 ^ 63 -> skel_data_read out = Ok bones).
Proof. exact skel_reload. Qed.
Print Assumptions C52_skel_reload.

Theorem C52_matl_reload : forall b d, bytes_ok b = true -> matl_data_read b = Ok d ->
  ((mt_major d, mt_minor d) = (1, 6) /\
   exists out, matl_data_write d = Ok out /\ (zlen out < 2 ^ 63 -> matl_data_read out = Ok d)) \/
  ((mt_major d, mt_minor d) = (1, 5) /\ matl_data_write d = Err (EData DVersion)).
Proof. exact matl_reload. Qed.
Print Assumptions C52_matl_reload.

Theorem C52_meshex_reload : forall all b gs, sphere_ok all = true -> bytes_ok b = true -> meshex_data_read b = Ok gs ->
  meshex_data_write all gs = Err EPtrRange \/
  exists out, meshex_data_write all gs = Ok out /\ (zlen out < 2 ^ 63 -> meshex_data_read out = Ok gs).
Proof. exact meshex_reload. Qed.
Print Assumptions C52_meshex_reload.

Theorem C52_adj_reload : forall b d, bytes_ok b = true -> adj_data_read b = Ok d ->
  exists out, adj_data_write d = Ok out /\ adj_data_read out = Ok d.
Proof. exact adj_reload. Qed.
Print Assumptions C52_adj_reload.

(** The conversion of a file that can be read never fails. *)
Theorem C52_conversions_total : forall b r, bytes_ok b = true ->
  (typed_read Modl b = Ok r -> exists d, modl_data_read b = Ok d) /\
  (typed_read Hlpb b = Ok r -> exists d, hlpb_data_read b = Ok d) /\
  (typed_read Skel b = Ok r -> exists d, skel_data_read b = Ok d) /\
  (typed_read Matl b = Ok r -> exists d, matl_data_read b = Ok d).
Proof. exact conversions_total. Qed.
Print Assumptions C52_conversions_total.

(** A file with an unread byte at the end and entries that share no index: not what saving writes. *)
Example C52_example :
  let b := [2; 0; 0; 0; 5; 0; 0; 0; 2; 0; 0; 0; 6; 0; 0; 0; 3; 0; 0; 0; 3; 1; 9; 0; 7] in
  adj_data_read b = Ok [AE 5 []; AE 6 [9]] /\ adj_data_write [AE 5 []; AE 6 [9]] <> Ok b.
Proof. vm_compute. split; [reflexivity|discriminate]. Qed.
