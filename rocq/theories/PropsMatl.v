(** Properties of materials. *)
From Verif Require Import Bytes Ssbh Formats File Strings AnimComp AnimBuf SmallData MatlData MatlSpec MatlFacts ReloadFacts.

(** ** C40: saving and loading.  [matl_ok]: enums hold their variants, text is UTF-8 without NUL. *)
Theorem C40_matl_save_load : forall d out, matl_ok d = true -> matl_data_write d = Ok out -> zlen out < 2 ^ 63 ->
  matl_data_read out = Ok d.
Proof. exact matl_save_load. Qed.
Print Assumptions C40_matl_save_load.

Theorem C40_matl_write_result : forall d, matl_ok d = true ->
  ((mt_major d, mt_minor d) = (1, 6) -> exists out, matl_data_write d = Ok out) /\
  ((mt_major d, mt_minor d) <> (1, 6) -> matl_data_write d = Err (EData DVersion)).
Proof. exact matl_write_result. Qed.
Print Assumptions C40_matl_write_result.

(** Any file that can be read: the parameters of each entry are the attributes of their type,
    in the order of the file. *)
Theorem C40_matl_params : forall b version v, bytes_ok b = true -> typed_read Matl b = Ok (version, v) -> exists d entries,
  matl_data_read b = Ok d /\ (mt_major d, mt_minor d) = version /\ v = VStruct [VArr entries] /\
  ((version = (1, 5) /\ Forall2 (entry_read un_blend15 un_raster15) (mt_entries d) entries) \/
   (version = (1, 6) /\ Forall2 (entry_read un_blend16 un_raster16) (mt_entries d) entries)).
Proof. exact matl_loads. Qed.
Print Assumptions C40_matl_params.

(** Entries converted to version 1.5 and back lose what [stored_entry15] drops and nothing else. *)
Theorem C40_entry15 : forall e, matl_entry_ok e = true -> un_entry15 (entry15_val e) = Ok (stored_entry15 e).
Proof. exact entry15_back. Qed.
Print Assumptions C40_entry15.

(** One parameter of each kind, some of them twice. *)
Definition ex_entry : matl_entry :=
  MatE [109] [115; 104] [Prm 280 (Bld 1 2 3 4 4 6 true)] [Prm 192 1065353216; Prm 200 0] [Prm 232 true; Prm 233 false]
       [Prm 152 (V4 1 2 3 4)] [Prm 291 (Rst 0 2 1065353216)] [Prm 108 (Smp 0 1 2 1 2 (V4 5 6 7 8) 9 16); Prm 109 (Smp 3 3 3 0 0 (V4 0 0 0 0) 0 1)]
       [Prm 92 [47; 116]] [Prm 340 (Uv 1 2 3 4 5)].
Definition ex_matl : matl_data := MatD 1 6 [ex_entry; MatE [] [] [] [] [] [] [] [] [] []].
Definition ex_matl_out : list Z := match matl_data_write ex_matl with Ok out => out | _ => [] end.
Example C40_example :
  matl_ok ex_matl = true /\ matl_data_write ex_matl = Ok ex_matl_out /\ zlen ex_matl_out = 668 /\
  bytes_ok ex_matl_out = true /\ matl_data_read ex_matl_out = Ok ex_matl /\ stored_entry15 ex_entry <> ex_entry /\
  matl_data_write (MatD 1 5 [ex_entry]) = Err (EData DVersion).
Proof. vm_compute. repeat split; congruence. Qed.
(** An attribute of an unnamed type and a null attribute are left out. *)
Example C40_params_example : exists e,
  un_entry16 (VStruct [VStruct [VPtr None]; VArr [VStruct [VInt 3; VPtr (Some (VCase 7 (VStruct [VStruct [VInt 0; VInt 0; VInt 0; VInt 0]])))];
     VStruct [VInt 4; VPtr (Some (VCase 1 (VStruct [VInt 6])))]; VStruct [VInt 5; VPtr None]; VStruct [VInt 4; VPtr (Some (VCase 1 (VStruct [VInt 8])))]];
     VStruct [VPtr None]]) = Ok e /\ mt_floats e = [Prm 4 6; Prm 4 8] /\ mt_bools e = [].
Proof. eexists. vm_compute. auto. Qed.

(** The documentation of MatlData lists 1.5 among the supported versions; files of that
    version load but the loaded data cannot be saved. *)
Theorem C40_v15_refuted : exists b d, bytes_ok b = true /\ matl_data_read b = Ok d /\ matl_data_write d = Err (EData DVersion).
Proof. exact matl15_lost. Qed.
Print Assumptions C40_v15_refuted.
