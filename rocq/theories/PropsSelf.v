(** C80 and C81: the programs that test the library, and the size of the files it writes. *)
From Coq Require Import Lia.
From Verif Require Import Bytes Ssbh Described SsbhSpec Formats File FileSpec Examples MeshEx SelfTest SelfTestFacts SizeSpec SizeFileFacts PropsFiles.

(** ** C80: what ssbh_test says about a file *)

(** Nothing exactly for the files the library writes, "not 1:1" for all others that follow the
    layout, and "error reading" for those that do not. *)
Theorem C80_check_ssbh : forall b, bytes_ok b = true -> zlen b < 2 ^ 63 ->
  (check_read_write_ssbh b = Ok Silent <-> exists f, file_ok f /\ file_write f = Ok b) /\
  (check_read_write_ssbh b = Ok NotOneToOne <-> (exists f, DecFile b f) /\ ~ exists f, file_ok f /\ file_write f = Ok b) /\
  (check_read_write_ssbh b = Ok ErrorReading <-> ~ exists f, DecFile b f) /\
  check_read_write_ssbh b <> Panic.
Proof. exact check_ssbh. Qed.
Print Assumptions C80_check_ssbh.

(** A written material, the same with one byte appended, and with its last byte, which ends a
    string, missing. *)
Example C80_check_ssbh_example :
  check_read_write_ssbh (written ex_matl) = Ok Silent /\
  check_read_write_ssbh (written ex_matl ++ [0]) = Ok NotOneToOne /\
  check_read_write_ssbh (removelast (written ex_matl)) = Ok ErrorReading /\
  bytes_ok (written ex_matl) = true /\ zlen (written ex_matl) = 290.
Proof. vm_compute. auto. Qed.

Theorem C80_check_adj : forall b, bytes_ok b = true ->
  (check_read_write_adj b = Ok Silent <-> exists x, adj_ok x = true /\ zlen (ad_entries x) < 2 ^ 32 /\ b = adj_bytes x) /\
  (check_read_write_adj b = Ok NotOneToOne <->
     exists x last, adj_ok x = true /\ zlen (ad_entries x) < 2 ^ 32 /\ b = adj_bytes x ++ [last]) /\
  check_read_write_adj b <> Panic.
Proof. exact check_adj. Qed.
Print Assumptions C80_check_adj.

Example C80_check_adj_example :
  let b := adj_bytes (mkAdj [(7, 0)] [0; 65535; 1]) in
  check_read_write_adj b = Ok Silent /\ check_read_write_adj (b ++ [1]) = Ok NotOneToOne /\ check_read_write_adj (b ++ [1; 2]) = Ok Silent /\
  check_read_write_adj [1; 0; 0; 0] = Ok ErrorReading.
Proof. vm_compute. auto. Qed.

Theorem C80_check_meshex : forall b, bytes_ok b = true ->
  (check_read_write_meshex b = Panic <->
     exists x, DecMeshEx b x /\
       ((mx_entries x = None /\ opt_len (mx_flags x) <> 0) \/ (mx_flags x = None /\ opt_len (mx_entries x) <> 0) \/ meshex_write x = Err EPtrRange)) /\
  (zlen b < 2 ^ 63 ->
     (check_read_write_meshex b = Ok Silent <-> exists x, meshex_ok x = true /\ opt_len (mx_groups x) < 2 ^ 32 /\
        opt_len (mx_entries x) < 2 ^ 32 /\ opt_len (mx_flags x) < 2 ^ 32 /\ meshex_write x = Ok b)) /\
  (check_read_write_meshex b = Ok ErrorReading <-> ~ exists x, DecMeshEx b x).
Proof. exact check_meshex. Qed.
Print Assumptions C80_check_meshex.

(** For files of at most 4 GiB the program only panics if exactly one of the pointers to the
    entries and to their flags is null although the file counts entries. *)
Theorem C80_check_meshex_small : forall b, bytes_ok b = true -> zlen b <= 2 ^ 32 ->
  (check_read_write_meshex b = Panic <->
     exists x, DecMeshEx b x /\ ((mx_entries x = None /\ opt_len (mx_flags x) <> 0) \/ (mx_flags x = None /\ opt_len (mx_entries x) <> 0))).
Proof. exact check_meshex_small. Qed.
Print Assumptions C80_check_meshex_small.

Example C80_check_meshex_example :
  check_read_write_meshex ex_meshex_bytes = Ok Silent /\ check_read_write_meshex (ex_meshex_bytes ++ [0]) = Ok NotOneToOne /\
  check_read_write_meshex (firstn 40 ex_meshex_bytes) = Ok ErrorReading /\ bytes_ok ex_meshex_bytes = true /\ zlen ex_meshex_bytes = 208.
Proof. vm_compute. auto. Qed.

(** Such a file of 64 bytes: one entry is counted, the pointer to the entries is null and the
    one to the flags leads to byte 52. *)
Definition bad_meshex : list Z :=
  le_bytes 8 64 ++ le_bytes 4 1 ++ le_bytes 4 0 ++ le_bytes 8 0 ++ le_bytes 8 0 ++ le_bytes 8 0 ++ le_bytes 8 52 ++ le_bytes 4 0 ++ [3; 0] ++ repeat 0 10.

Theorem C80_check_no_panic_refuted : exists b, bytes_ok b = true /\ zlen b = 64 /\
  meshex_read b = Ok (mkMeshEx None None None (Some [VInt 3]) 0) /\ check_read_write_meshex b = Panic.
Proof. exists bad_meshex. vm_compute. auto. Qed.
Print Assumptions C80_check_no_panic_refuted.

(** ** C80: the targets of the fuzzers *)
Theorem C80_fuzz_versioned : forall k v t body out, format k v = Some t -> wt t body = true ->
  versioned_write k (v, body) = Ok out -> zlen out < 2 ^ 63 -> fuzz_versioned k (v, body) = Ok tt.
Proof. exact fuzz_versioned_ok. Qed.
Print Assumptions C80_fuzz_versioned.

Theorem C80_versioned_roundtrip : forall k v t body, format k v = Some t -> wt t body = true ->
  exists out, versioned_write k (v, body) = Ok out /\ (zlen out < 2 ^ 63 -> versioned_read k out = Ok (v, body)).
Proof. exact versioned_roundtrip. Qed.
Print Assumptions C80_versioned_roundtrip.

Example C80_versioned_example :
  format Matl (1, 6) = Some Matl_V16 /\ wt Matl_V16 (fbody ex_matl) = true /\
  match versioned_write Matl ((1, 6), fbody ex_matl) with Ok out => zlen out = 274 /\ versioned_read Matl out = Ok ((1, 6), fbody ex_matl) | _ => False end.
Proof. vm_compute. auto. Qed.

Theorem C80_fuzz_adj : forall x, adj_ok x = true -> zlen (ad_entries x) < 2 ^ 32 -> fuzz_adj x = Ok tt.
Proof. exact fuzz_adj_ok. Qed.
Print Assumptions C80_fuzz_adj.

Theorem C80_fuzz_meshex : forall x, meshex_ok x = true -> opt_len (mx_groups x) < 2 ^ 32 -> opt_len (mx_entries x) < 2 ^ 32 ->
  opt_len (mx_flags x) < 2 ^ 32 -> 64 + meshex_space x < 2 ^ 63 -> (fuzz_meshex x = Ok tt <-> opt_len (mx_entries x) = opt_len (mx_flags x)).
Proof. exact fuzz_meshex_small. Qed.
Print Assumptions C80_fuzz_meshex.

(** So the target itself panics on a value with flags but no entries. *)
Theorem C80_fuzz_meshex_refuted : exists x, meshex_ok x = true /\ fuzz_meshex x = Panic.
Proof. exists (mkMeshEx None None None (Some [VInt 3]) 0). vm_compute. auto. Qed.
Print Assumptions C80_fuzz_meshex_refuted.

Theorem C80_fuzz_readers : forall b, fuzz_array b <> Panic /\ fuzz_byte_buffer b <> Panic.
Proof. exact fuzz_readers. Qed.
Print Assumptions C80_fuzz_readers.

(** ** C81: the size of a written file *)
Theorem C81_at_most : forall f t out, file_ok f -> format (fkind f) (fver f) = Some t -> file_write f = Ok out ->
  zlen out <= round_up (24 + csize t) 8 + space 8 t (fbody f).
Proof. exact file_size_upper. Qed.
Print Assumptions C81_at_most.

Theorem C81_at_least : forall f t out, file_ok f -> format (fkind f) (fver f) = Some t -> file_write f = Ok out -> zlen out < 2 ^ 63 ->
  24 + csize t + space 1 t (fbody f) <= zlen out.
Proof. exact file_size_lower. Qed.
Print Assumptions C81_at_least.

(** So whether a document is read back can be told from the document. *)
Theorem C81_roundtrip : forall f t, file_ok f -> format (fkind f) (fver f) = Some t ->
  round_up (24 + csize t) 8 + space 8 t (fbody f) < 2 ^ 63 -> exists out, file_write f = Ok out /\ file_read out = Ok f.
Proof. exact fitting_roundtrip. Qed.
Print Assumptions C81_roundtrip.

Example C81_example :
  24 + csize Matl_V16 + space 1 Matl_V16 (fbody ex_matl) = 276 /\ zlen (written ex_matl) = 290 /\
  round_up (24 + csize Matl_V16) 8 + space 8 Matl_V16 (fbody ex_matl) = 296.
Proof. vm_compute. auto. Qed.

Theorem C81_meshex_at_most : forall x out, meshex_ok x = true -> meshex_write x = Ok out -> zlen out <= 64 + meshex_space x.
Proof. exact meshex_size. Qed.
Print Assumptions C81_meshex_at_most.

Theorem C81_meshex_written : forall x, meshex_ok x = true -> opt_len (mx_groups x) < 2 ^ 32 -> opt_len (mx_entries x) < 2 ^ 32 ->
  opt_len (mx_flags x) < 2 ^ 32 -> opt_len (mx_entries x) = opt_len (mx_flags x) -> 64 + meshex_space x < 2 ^ 64 -> exists out, meshex_write x = Ok out.
Proof. exact meshex_fits. Qed.
Print Assumptions C81_meshex_written.

Example C81_meshex_example : meshex_ok ex_meshex = true /\ zlen ex_meshex_bytes = 208 /\ 64 + meshex_space ex_meshex = 224 /\ fuzz_meshex ex_meshex = Ok tt.
Proof. vm_compute. auto. Qed.

(** What a MeshEx file of at most 4 GiB contains can be far larger than the file, as strings can
    be shared, but its positions still fit into the pointers. *)
Theorem C81_meshex_loaded : forall b x, bytes_ok b = true -> zlen b <= 2 ^ 32 -> DecMeshEx b x -> 64 + meshex_space x < 2 ^ 63.
Proof. exact loaded_meshex_fits. Qed.
Print Assumptions C81_meshex_loaded.
