(** C82: files up to a stated length can be saved and loaded again, whatever they contain. *)
From Coq Require Import Lia.
From Verif Require Import Bytes Ssbh Described SsbhSpec Formats File FileSpec Examples AnimComp AnimBuf SmallData DataSpec SkelData SkelSpec MatlData MeshEx
  SizeSpec SizeLoad SizeLoadFacts SizeDataFacts PropsSsbh PropsFiles PropsData PropsSkel PropsMatl.

(** The length of what a file is saved as is bounded by the length of the file: arrays and text
    that are shared in the file are written once for every use. *)
Theorem C82_saved_size : forall b f t out, bytes_ok b = true -> DecFile b f -> format (fkind f) (fver f) = Some t -> file_write f = Ok out ->
  zlen out <= 32 + csize t + most (zlen b) t.
Proof. exact loaded_size. Qed.
Print Assumptions C82_saved_size.

(** The bound for modl files written out: it grows with the square of the length. *)
Theorem C82_modl_bound : forall L, 0 <= L -> most L Modl_V17 <= (L + 24) * (L + 24) + 100 * (L + 24).
Proof.
  intros L H. change (most L Modl_V17) with
    ((L + 8 + 4 + 0 + 0) + ((L + 8 + 4 + 0 + 0) + (((L / 8 + 1) * 8 + 8 + (L / 8 + 1) * (L + 8 + 4 + 0 + 0)) + ((8 + 8 + (L + 8 + 4 + 0 + 0)) + ((L + 8 + 8 + 0 + 0) +
     (((L / 24 + 1) * 24 + 8 + (L / 24 + 1) * ((L + 8 + 4 + 0 + 0) + (0 + ((L + 8 + 4 + 0 + 0) + 0)))) + 0)))))).
  assert (L / 8 * 8 <= L) by (rewrite Z.mul_comm; apply Z.mul_div_le; lia). assert (L / 24 * 24 <= L) by (rewrite Z.mul_comm; apply Z.mul_div_le; lia).
  assert (0 <= L / 8) by (apply Z.div_pos; lia). assert (0 <= L / 24) by (apply Z.div_pos; lia). nia.
Qed.
Print Assumptions C82_modl_bound.

(** C02 without a condition on the saved file. *)
Theorem C82_reload : forall b f, bytes_ok b = true -> file_read b = Ok f -> zlen b <= reload_limit (fkind f) ->
  exists out, file_write f = Ok out /\ file_read out = Ok f /\ zlen out < 2 ^ 63.
Proof. exact small_reload. Qed.
Print Assumptions C82_reload.

(** A file that was not written by the library: it loads, and saving gives another file that loads
    to the same document. *)
Example C82_example : exists f out, file_read ex_odd = Ok f /\ zlen ex_odd <= reload_limit (fkind f) /\ file_write f = Ok out /\ out <> ex_odd /\ file_read out = Ok f.
Proof.
  exists (match file_read ex_odd with Ok f => f | _ => Examples.ex_matl end), (match file_read ex_odd with Ok f => written f | _ => [] end).
  vm_compute. repeat split; try discriminate.
Qed.

(** ** C52 without conditions on the saved files *)
Theorem C82_modl : forall b d, bytes_ok b = true -> zlen b <= 2 ^ 32 -> modl_data_read b = Ok d ->
  exists out, modl_data_write d = Ok out /\ modl_data_read out = Ok d.
Proof. exact modl_small_reload. Qed.
Print Assumptions C82_modl.

Theorem C82_hlpb : forall b d, bytes_ok b = true -> zlen b <= 2 ^ 33 -> hlpb_data_read b = Ok d ->
  exists out, hlpb_data_write d = Ok out /\ hlpb_data_read out = Ok d.
Proof. exact hlpb_small_reload. Qed.
Print Assumptions C82_hlpb.

Theorem C82_skel : forall mul inv b bones, (forall a c, mat_ok (mul a c) = true) -> (forall a, mat_ok (inv a) = true) ->
  bytes_ok b = true -> zlen b <= 2 ^ 33 -> skel_data_read b = Ok bones ->
  skel_data_write mul inv bones = Err (EData DCycle) \/
  exists out, skel_data_write mul inv bones = Ok out /\ skel_data_read out = Ok bones.
Proof. exact skel_small_reload. Qed.
Print Assumptions C82_skel.

Theorem C82_matl : forall b d, bytes_ok b = true -> zlen b <= 2 ^ 24 -> matl_data_read b = Ok d ->
  ((mt_major d, mt_minor d) = (1, 6) /\ exists out, matl_data_write d = Ok out /\ matl_data_read out = Ok d) \/
  ((mt_major d, mt_minor d) = (1, 5) /\ matl_data_write d = Err (EData DVersion)).
Proof. exact matl_small_reload. Qed.
Print Assumptions C82_matl.

(** A MeshEx file of at most 4 GiB: no position is too large for the pointers of the saved file. *)
Theorem C82_meshex : forall all b gs, sphere_ok all = true -> bytes_ok b = true -> zlen b <= 2 ^ 32 -> meshex_data_read b = Ok gs ->
  exists out, meshex_data_write all gs = Ok out /\ meshex_data_read out = Ok gs.
Proof. exact meshex_small_reload. Qed.
Print Assumptions C82_meshex.

(** The saved MeshEx file of PropsFiles.v with a byte appended is not what saving writes. *)
Example C82_meshex_example : exists gs, meshex_data_read (ex_meshex_bytes ++ [7]) = Ok gs /\ gs <> [] /\ zlen (ex_meshex_bytes ++ [7]) <= 2 ^ 32.
Proof. exists (match meshex_data_read (ex_meshex_bytes ++ [7]) with Ok gs => gs | _ => [] end). vm_compute. repeat split; discriminate. Qed.

(** The other theorems, for saved files of earlier examples with a byte appended. *)
Definition with_byte (r : res (list Z)) : list Z := match r with Ok out => out ++ [7] | _ => [] end.
Example C82_data_example :
  modl_data_read (with_byte (modl_data_write PropsData.ex_modl)) = Ok PropsData.ex_modl /\
  hlpb_data_read (with_byte (hlpb_data_write ex_hlpb)) = Ok ex_hlpb /\
  skel_data_read (ex_out ++ [7]) = Ok ex_bones /\
  matl_data_read (ex_matl_out ++ [7]) = Ok PropsMatl.ex_matl /\ zlen ex_matl_out < 2 ^ 24.
Proof. vm_compute. auto 10. Qed.
