(** Properties of the higher level data types: models, helper bones, extended mesh data. *)
From Coq Require Import String.
From Verif Require Import Bytes Ssbh Formats File FileSpec MeshEx Strings AnimComp AnimBuf AnimSpec SmallData DataSpec SmallDataFacts.
Local Open Scope Z_scope.
Local Open Scope list_scope.

(** ** C42: saving and loading ModlData gives the same data, with version 1.7 *)
Theorem C42_modl_save_load : forall d out,
  modl_ok d = true -> modl_data_write d = Ok out -> zlen out < 2 ^ 63 -> modl_data_read out = Ok (stored_modl d).
Proof. exact modl_save_load. Qed.
Print Assumptions C42_modl_save_load.

Theorem C42_modl_write_total : forall d, modl_ok d = true -> exists out, modl_data_write d = Ok out.
Proof. exact modl_write_total. Qed.
Print Assumptions C42_modl_write_total.

Definition ex_modl : modl_data :=
  MD 1 7 [97; 195; 169] [] [[98]; []] (Some [99]) [100; 101] [ME [120] 3 [121]; ME [] (2 ^ 64 - 1) [122; 122]].
Example C42_example :
  modl_ok ex_modl = true /\
  match modl_data_write ex_modl with
  | Ok out => zlen out = 207 /\ modl_data_read out = Ok ex_modl
  | _ => False
  end.
Proof. vm_compute. auto. Qed.

(** Text with a NUL, which Rust strings admit, is cut. *)
Theorem C42_nul_refuted : exists d d', forallb utf8_valid [md_model d; md_skel d; md_mesh d] = true /\
  d = stored_modl d /\ match modl_data_write d with Ok out => modl_data_read out = Ok d' /\ d' <> d | _ => False end.
Proof.
  exists (MD 1 7 [97; 0; 98] [] [] None [] []), (MD 1 7 [97] [] [] None [] []). vm_compute.
  split; [reflexivity|]. split; [reflexivity|]. split; [reflexivity|]. discriminate.
Qed.
Print Assumptions C42_nul_refuted.

(** ** C41: HlpbData *)
Theorem C41_hlpb_save_load : forall d out,
  hlpb_ok d = true -> hlpb_data_write d = Ok out -> zlen out < 2 ^ 63 ->
  hlpb_data_read out = Ok (HD 1 1 (hd_aims d) (hd_orients d)).
Proof. exact hlpb_save_load. Qed.
Print Assumptions C41_hlpb_save_load.

Theorem C41_hlpb_write_total : forall d, hlpb_ok d = true -> exists out, hlpb_data_write d = Ok out.
Proof. exact hlpb_write_total. Qed.
Print Assumptions C41_hlpb_write_total.

(** The lists after the constraints number first the aim constraints (type 0) and then the
    orient constraints (type 1), each from 0 on. *)
Theorem C41_hlpb_lists : forall d, hlpb_ok d = true -> exists indices types,
  hlpb_val d = VStruct [VArr (map aim_val (hd_aims d)); VArr (map orient_val (hd_orients d)); VArr indices; VArr types] /\
  length indices = (length (hd_aims d) + length (hd_orients d))%nat /\ length types = length indices /\
  (forall k, (k < length (hd_aims d))%nat ->
     nth_error indices k = Some (VInt (Z.of_nat k)) /\ nth_error types k = Some (VInt 0)) /\
  (forall k, (k < length (hd_orients d))%nat ->
     nth_error indices (length (hd_aims d) + k) = Some (VInt (Z.of_nat k)) /\
     nth_error types (length (hd_aims d) + k) = Some (VInt 1)).
Proof. exact hlpb_lists. Qed.
Print Assumptions C41_hlpb_lists.

Definition ex_hlpb : hlpb_data :=
  HD 1 1 [Aim [97] [98] [99] [100] [101] [102] [103] 4 5 (V3 6 7 8) (V3 9 10 11) (V4 12 13 14 15) (V4 16 17 18 19)]
    [Orient [97] [98] [99] [100] [101] 1 (V3 2 3 4) (V4 5 6 7 8) (V4 9 10 11 12) (V3 13 14 15) (V3 16 17 18);
     Orient [] [] [] [] [] 2 (V3 1 0 0) (V4 0 1 0 0) (V4 0 0 1 0) (V3 0 1 0) (V3 0 0 1)].
Example C41_example :
  hlpb_ok ex_hlpb = true /\
  match hlpb_data_write ex_hlpb with Ok out => zlen out = 556 /\ hlpb_data_read out = Ok ex_hlpb | _ => False end /\
  match hlpb_val ex_hlpb with
  | VStruct [_; _; i; t] => i = VArr [VInt 0; VInt 0; VInt 1] /\ t = VArr [VInt 0; VInt 1; VInt 1]
  | _ => False
  end.
Proof. vm_compute. auto 10. Qed.

(** ** C43: MeshExData *)
Theorem C43_meshex_save_load : forall all gs out,
  sphere_ok all = true -> groups_ok gs = true -> meshex_data_write all gs = Ok out -> zlen out < 2 ^ 63 ->
  meshex_data_read out = Ok gs.
Proof. exact meshex_save_load. Qed.
Print Assumptions C43_meshex_save_load.

Theorem C43_meshex_write_total : forall all gs, sphere_ok all = true -> groups_ok gs = true ->
  (exists out, meshex_data_write all gs = Ok out) \/ meshex_data_write all gs = Err EPtrRange.
Proof. exact meshex_data_total. Qed.
Print Assumptions C43_meshex_write_total.

(** Any MeshEx value converts, whatever its entries say.  Each group keeps its sphere and its
    names and gets the flags of exactly the entries that name it, in order. *)
Theorem C43_meshex_groups : forall x, meshex_ok x = true ->
  exists gs, un_meshex x = Ok gs /\
  Forall2 (fun v g => exists f n, v = VStruct [sphere_val (mg_sphere g); f; n] /\
             un_cstr_ptr f = Ok (mg_full g) /\ un_cstr_ptr n = Ok (mg_name g)) (or_empty (mx_groups x)) gs /\
  (forall i g, nth_error gs i = Some g ->
     mg_flags g = group_flags (Z.of_nat i) (or_empty (mx_entries x)) (or_empty (mx_flags x))).
Proof. exact meshex_data_of_any. Qed.
Print Assumptions C43_meshex_groups.

(** Groups of mesh objects: the runs of objects with the same name, in order *)
Theorem C43_from_mesh_objects : forall (A : Type) (bounds : list A -> sphere) (objects : list (list Z * A)),
  exists runs : list (list Z * list A),
    flat_map (fun r => map (pair (fst r)) (snd r)) runs = objects /\
    Forall (fun r => snd r <> []) runs /\
    (forall i a b, nth_error runs i = Some a -> nth_error runs (S i) = Some b -> fst a <> fst b) /\
    Forall2 (fun r g => mg_sphere g = bounds (snd r) /\ mg_full g = fst r /\
                        mg_name g = strip_mesh_name_tags (fst r) /\ mg_flags g = repeat (EF true true) (length (snd r)))
      runs (from_mesh_objects bounds objects).
Proof. exact from_mesh_objects_runs. Qed.
Print Assumptions C43_from_mesh_objects.

(** The name of a group: the full name up to the first "_VIS" or "_O_"; without either, a final
    "Shape" is dropped. *)
Theorem C43_name_tags : forall s, exists rest,
  s = strip_mesh_name_tags s ++ rest /\
  ~ occurs tag_vis (strip_mesh_name_tags s) /\ ~ occurs tag_o (strip_mesh_name_tags s) /\
  (occurs tag_vis s \/ occurs tag_o s -> (exists r, rest = tag_vis ++ r) \/ (exists r, rest = tag_o ++ r)) /\
  (~ occurs tag_vis s -> ~ occurs tag_o s -> rest = tag_shape \/ (rest = [] /\ forall a, s <> a ++ tag_shape)).
Proof. exact strip_tags. Qed.
Print Assumptions C43_name_tags.

Definition ex_sphere : sphere := Sph (V3 1 2 3) 4.
Definition ex_groups : list mesh_group :=
  [MG ex_sphere [97; 98] [97] [EF true false; EF false true]; MG ex_sphere [] [] [];
   MG (Sph (V3 5 6 7) 8) [99] [100] [EF true true]].
(** "a_O_b_VIS", "fooShape" and "a_VIS_O_" *)
Example C43_example :
  sphere_ok ex_sphere = true /\ groups_ok ex_groups = true /\
  match meshex_data_write ex_sphere ex_groups with
  | Ok out => zlen out = 304 /\ meshex_data_read out = Ok ex_groups
  | _ => False
  end /\
  map (@mg_flags) (from_mesh_objects (fun _ : list unit => ex_sphere) [([97], tt); ([97], tt); ([98], tt); ([97], tt)]) =
    [[EF true true; EF true true]; [EF true true]; [EF true true]] /\
  strip_mesh_name_tags ([97] ++ tag_o ++ [98] ++ tag_vis) = [97] /\
  strip_mesh_name_tags ([102; 111; 111] ++ tag_shape) = [102; 111; 111] /\
  strip_mesh_name_tags ([97] ++ tag_vis ++ tag_o) = [97].
Proof. vm_compute. auto 10. Qed.
