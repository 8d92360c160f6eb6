(** Properties of loading animation files. *)
From Coq Require Import Permutation.
From Verif Require Import Bytes Ssbh Formats File Strings AnimComp AnimBuf AnimFile AnimSpec AnimReadSpec AnimRead AnimReload PropsTrack.

(** ** C63: files of versions 2.0 and 2.1, whoever wrote them *)
Theorem C63_anim_file : forall b m v, bytes_ok b = true -> typed_read Anim b = Ok ((2, m), v) ->
  exists a, v = anim_val a /\ an_minor a = m /\ forall order,
    (forall d, anim_data_read order b = Ok d <-> loaded_anim a d) /\
    (anim_data_read order b = Panic <->
     first_bad (readable_track (an_buffer a)) (panicking_track (an_buffer a)) (file_tracks a)).
Proof. exact anim_file. Qed.
Print Assumptions C63_anim_file.

(** Three tracks that share their bytes: the floats of PropsTrack.v, without and with
    compression, and an empty track at the end; the flags have bits without a meaning. *)
Definition ex_shared : anim :=
  An 1 0x41200000 9 9 (ssbh_string [120]) [Gr 4 [Nd (ssbh_string [110]) [
    Tk (ssbh_string [97]) 3 1 2 0xfffffff5 16 8; Tk (ssbh_string [98]) 3 4 5 2 0 39; Tk (ssbh_string [99]) 8 5 0 8 39 0]]]
    ex_floats (VStruct [VArr []; VArr []]).
Definition ex_short_track : anim :=
  An 0 0 1 3 (ssbh_string []) [Gr 1 [Nd (ssbh_string [110]) [Tk (ssbh_string [97]) 1 4 1 0 0 205; Tk (ssbh_string [97]) 1 4 1 0 0 205000]]]
    ex_short (VStruct [VArr []; VArr []]).
Example C63_example :
  (let* b := typed_write Anim (2, 1) (anim_val ex_shared) in anim_data_read (fun l => l) b) =
    Ok (AD 2 1 0x41200000 [GD 4 [ND [110] [
      TD [97] false (TF true false true false) (TvFloat [0x3f800000; 0x40800000]);
      TD [98] false (TF false true false false) (TvFloat [0x3f800000; 0x40800000; 0x40000000; 0x40400000; 0x3f800000]);
      TD [99] false (TF false false false true) (TvBool [])]]]) /\
  (let* b := typed_write Anim (2, 0) (anim_val ex_short_track) in let* (version, v) := typed_read Anim b in Ok version) = Ok (2, 0) /\
  (let* b := typed_write Anim (2, 0) (anim_val ex_short_track) in anim_data_read (fun l => l) b) = Panic.
Proof. vm_compute. auto. Qed.

(** ** C64: files of version 1.2 *)
Theorem C64_anim_file_v12 : forall b v, bytes_ok b = true -> typed_read Anim b = Ok ((1, 2), v) ->
  exists a, anim_v1_val v a /\ forall order, (forall l, Permutation l (order l)) ->
    ((exists d, anim_data_read order b = Ok d) <->
       Forall (fun t => Forall (property_sound (av1_buffers a)) (v1_properties t)) (av1_tracks a)) /\
    (forall d, anim_data_read order b = Ok d -> loaded_v12 a d) /\
    (forall e, anim_data_read order b <> Err e).
Proof. exact anim_file_v12. Qed.
Print Assumptions C64_anim_file_v12.

(** What was loaded cannot be saved. *)
Theorem C64_not_saved : forall order b v d, bytes_ok b = true -> typed_read Anim b = Ok ((1, 2), v) ->
  anim_data_read order b = Ok d -> anim_data_write d = Err (EData DVersion).
Proof. exact v12_not_saved. Qed.
Print Assumptions C64_not_saved.

Definition ex_v12 (buffers : list (list Z)) : res (list Z) :=
  let property i := VStruct [ssbh_string [112]; VInt i] in
  let track name t ps := VStruct [ssbh_string [name]; VInt t; VArr (map property ps)] in
  typed_write Anim (1, 2)
    (VStruct [ssbh_string [120]; VInt 0; VInt 0x41200000; VInt 0; VInt 0;
              VArr [track 97 5 [1]; track 98 0 [0; 1]; track 99 5 []]; VArr (map VBytes buffers)]).
(** A vector and a compressed track with 30 key bytes *)
Definition ex_buffers : list (list Z) :=
  [le_bytes 4 0x3003 ++ repeat 1 12; le_bytes 4 0x4308 ++ le_bytes 4 30 ++ repeat 1 72].
Definition ex_none (name : list Z) : track_data := TD name false (TF false false false false) (TvFloat []).
Example C64_example :
  (let* b := ex_v12 ex_buffers in anim_data_read (@rev Z) b) =
    Ok (AD 1 2 0x41200000 [
      GD 2 [ND [97] [ex_none [86; 105; 115; 105; 98; 105; 108; 105; 116; 121]];
            ND [99] [ex_none [86; 105; 115; 105; 98; 105; 108; 105; 116; 121]]];
      GD 1 [ND [98] [ex_none [84; 114; 97; 110; 115; 102; 111; 114; 109]]]]).
Proof. vm_compute. auto. Qed.

(** A missing buffer panics instead of returning an error. *)
Theorem C64_errors_refuted : exists b r, bytes_ok b = true /\ typed_read Anim b = Ok r /\ forall order, anim_data_read order b = Panic.
Proof.
  exists (match ex_v12 [] with Ok b => b | _ => [] end). eexists.
  split; [vm_compute; reflexivity|]. split; [vm_compute; reflexivity|]. intros order. vm_compute. reflexivity.
Qed.
Print Assumptions C64_errors_refuted.

(** So does a compressed track with few key bytes, although everything can be read. *)
Theorem C64_few_keys_refuted : exists b r, bytes_ok b = true /\ typed_read Anim b = Ok r /\ forall order, anim_data_read order b = Panic.
Proof.
  exists (match ex_v12 [le_bytes 4 0x3003 ++ repeat 1 12; le_bytes 4 0x4308 ++ le_bytes 4 0 ++ repeat 1 67] with Ok b => b | _ => [] end).
  eexists. split; [vm_compute; reflexivity|]. split; [vm_compute; reflexivity|]. intros order. vm_compute. reflexivity.
Qed.
Print Assumptions C64_few_keys_refuted.

(** ** C52 for animations: what was loaded from any file can be saved, exactly if the final frame
    reaches the last frame of the tracks, and loads again as the compressed data. *)
Theorem C52_anim_reload : forall order b d, bytes_ok b = true -> anim_data_read order b = Ok d ->
  ((ad_major d, ad_minor d) = (1, 2) /\ anim_data_write d = Err (EData DVersion)) \/
  (ad_major d = 2 /\ (ad_minor d = 0 \/ ad_minor d = 1) /\ anim_ok d = true /\
   (anim_size d < 2 ^ 32 ->
    (final_ok d = true -> exists out, anim_data_write d = Ok out /\ (zlen out < 2 ^ 63 -> anim_data_read order out = Ok (stored_anim d))) /\
    (final_ok d = false -> anim_data_write d = Err (EData DFinalFrame)))).
Proof. exact anim_reload. Qed.
Print Assumptions C52_anim_reload.

Definition ex_reload (final : Z) : anim_data :=
  match (let* b := typed_write Anim (2, 1) (anim_val (An 1 final 9 9 (ssbh_string [120]) (an_groups ex_shared) ex_floats (VStruct [VArr []; VArr []]))) in
         anim_data_read (fun l => l) b) with Ok d => d | _ => AD 0 0 0 [] end.
Example C52_anim_example :
  final_ok (ex_reload 0x41200000) = true /\ anim_size (ex_reload 0x41200000) = 28 /\
  map (fun t => tv_len (td_values t)) (tracks_of (ex_reload 0x41200000)) = [2; 5; 0] /\
  (let* out := anim_data_write (ex_reload 0x41200000) in anim_data_read (fun l => l) out) = Ok (stored_anim (ex_reload 0x41200000)) /\
  final_ok (ex_reload 0x40000000) = false /\ anim_data_write (ex_reload 0x40000000) = Err (EData DFinalFrame).
Proof. vm_compute. repeat apply conj; reflexivity. Qed.
