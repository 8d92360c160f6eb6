(** Properties C16, C17, C46 and C47 of properties.jsonl: MeshEx and Adj files, and a
    consequence for C21.

    [meshex_ok] and [adj_ok] say that a value is one Rust's types admit.  Counts are
    stored in 32 bits.  The bound [zlen out < 2 ^ 63] is Rust's allocation limit. *)
From Coq Require Import String.
From Verif Require Import Bytes Ssbh SsbhSpec Formats File MeshEx FileSpec MeshExFacts HeaderFacts.
From Coq Require Import List.

(** A MeshEx value with a group of two entries. *)
Definition ex_meshex : meshex :=
  let sphere := VStruct [VStruct [VInt 0; VInt 1; VInt 2]; VInt 3] in
  let name := VPtr (Some (VBytes [97; 98; 99])) in
  mkMeshEx (Some (VStruct [sphere; name]))
    (Some [VStruct [sphere; name; VPtr (Some (VBytes []))]])
    (Some [VStruct [VInt 0; VStruct [VInt 4; VInt 5; VInt 6]]; VStruct [VInt 0; VStruct [VInt 7; VInt 8; VInt 9]]])
    (Some [VInt 3; VInt 1]) 0.
Definition ex_meshex_bytes : list Z := match meshex_write ex_meshex with Ok out => out | _ => [] end.
Definition ex_adj : adj := mkAdj [(1, 0); (7, 6)] [0; 1; 65535].

(** ** C15: files that are not SSBH files *)
Theorem C15_not_ssbh : forall b k,
  (zlen b < 4 -> file_read b = Err EEof /\ typed_read k b = Err EEof) /\
  (forall m, length m = 4%nat -> bytes_at b 0 m -> m <> stored_name "SSBH" ->
     file_read b = Err EBadMagic /\ typed_read k b = Err EBadMagic).
Proof. exact header_errors. Qed.
Print Assumptions C15_not_ssbh.

Example C15_not_ssbh_example :
  file_read [72; 66; 83; 82; 64; 0] = Err EBadMagic /\ file_read [72; 66; 83] = Err EEof /\
  stored_name "SSBH" = [72; 66; 83; 83].
Proof. vm_compute. auto. Qed.

(** ** C16 *)
Theorem C16_meshex_roundtrip : forall x out,
  meshex_ok x = true -> opt_len (mx_groups x) < 2 ^ 32 -> opt_len (mx_entries x) < 2 ^ 32 ->
  opt_len (mx_flags x) < 2 ^ 32 -> meshex_write x = Ok out -> zlen out < 2 ^ 63 ->
  meshex_read out = Ok x /\ zlen out mod 16 = 0 /\ uint_at out 0 8 (zlen out).
Proof. exact meshex_roundtrip. Qed.
Print Assumptions C16_meshex_roundtrip.

Theorem C16_meshex_errors : forall x,
  meshex_ok x = true -> opt_len (mx_groups x) < 2 ^ 32 -> opt_len (mx_entries x) < 2 ^ 32 ->
  opt_len (mx_flags x) < 2 ^ 32 ->
  (opt_len (mx_entries x) <> opt_len (mx_flags x) -> meshex_write x = Err ECount) /\
  (opt_len (mx_entries x) = opt_len (mx_flags x) ->
     (exists out, meshex_write x = Ok out) \/ meshex_write x = Err EPtrRange).
Proof. exact meshex_errors. Qed.
Print Assumptions C16_meshex_errors.

Example C16_example :
  meshex_ok ex_meshex = true /\ meshex_write ex_meshex = Ok ex_meshex_bytes /\ zlen ex_meshex_bytes = 208 /\
  meshex_write (mkMeshEx None None None (Some [VInt 3]) 0) = Err ECount.
Proof. vm_compute. auto. Qed.

(** ** C46 *)
Theorem C46_meshex_layout : forall b x, bytes_ok b = true -> (meshex_read b = Ok x <-> DecMeshEx b x).
Proof. exact meshex_read_dec. Qed.
Print Assumptions C46_meshex_layout.

Theorem C46_meshex_objects : forall x out,
  meshex_ok x = true -> meshex_write x = Ok out -> zlen out < 2 ^ 63 ->
  ForallOrdPairs before (meshex_objects out x) /\ ForallOrdPairs disjoint (meshex_objects out x) /\
  Forall (in_file (zlen out)) (meshex_objects out x) /\
  Forall (fun r => r_owner_end r <= r_start r /\ r_start r mod r_align r = 0) (tl (meshex_objects out x)).
Proof. exact meshex_placed. Qed.
Print Assumptions C46_meshex_objects.

Example C46_example :
  map (fun r => (r_start r, r_len r, r_align r)) (meshex_objects ex_meshex_bytes ex_meshex) =
    [(0, 64, 1); (64, 24, 16); (96, 4, 16); (112, 32, 16); (144, 4, 4); (148, 4, 4); (160, 32, 16); (192, 4, 16)].
Proof. vm_compute. auto. Qed.

(** ** C17 *)
Theorem C17_adj_roundtrip : forall x,
  adj_ok x = true -> zlen (ad_entries x) < 2 ^ 32 ->
  exists out, adj_write x = Ok out /\ adj_read out = Ok x.
Proof. exact adj_roundtrip. Qed.
Print Assumptions C17_adj_roundtrip.

Example C17_example :
  adj_ok ex_adj = true /\
  adj_write ex_adj = Ok [2; 0; 0; 0; 1; 0; 0; 0; 0; 0; 0; 0; 7; 0; 0; 0; 6; 0; 0; 0; 0; 0; 1; 0; 255; 255].
Proof. vm_compute. auto. Qed.

(** ** C47 *)
Theorem C47_adj_write_layout : forall x, zlen (ad_entries x) < 2 ^ 32 -> adj_write x = Ok (adj_bytes x).
Proof. exact adj_write_bytes. Qed.
Print Assumptions C47_adj_write_layout.

(** The reader accepts exactly these files, up to one byte left over at the end. *)
Theorem C47_adj_read_layout : forall b x, bytes_ok b = true ->
  (adj_read b = Ok x <->
   adj_ok x = true /\ zlen (ad_entries x) < 2 ^ 32 /\ exists r, b = adj_bytes x ++ r /\ zlen r < 2).
Proof. exact adj_read_iff. Qed.
Print Assumptions C47_adj_read_layout.

Example C47_example : adj_read [1; 0; 0; 0; 5; 0; 0; 0; 0; 0; 0; 0; 3; 1; 9] = Ok (mkAdj [(5, 0)] [259]).
Proof. vm_compute. auto. Qed.

(** ** C21: a failed save does not leave an existing destination as it was *)
Theorem C21_destination_kept_refuted : exists x path e d old,
  meshex_ok x = true /\ d path = Some old /\ old <> [] /\
  exists d', write_to_file (meshex_write x) path e d = (IoErr, d') /\ d' path = Some [].
Proof. exact failed_save_empties. Qed.
Print Assumptions C21_destination_kept_refuted.
