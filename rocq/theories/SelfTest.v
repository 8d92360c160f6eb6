(** The two programs of the repository that test the library: ssbh_test, which saves every file
    of a folder again, and the targets of the fuzzers.  Paths below are relative to /repo. *)
From Verif Require Import Bytes Ssbh Formats File MeshEx.

(** ** ssbh_test/src/main.rs *)

(** What the program prints for a file: nothing, "Read/write not 1:1" or "Error reading". *)
Inductive verdict := Silent | NotOneToOne | ErrorReading.

(** check_read_write_ssbh, _meshex and _adj, main.rs:49-64, 66-81, 83-98: the same function for
    three types.  [before] is the content of the file; a file that cannot be opened, which
    panics in main.rs:50, 67 and 84, is left out. *)
Definition check_read_write {A} (read : list Z -> res A) (write : A -> res (list Z)) (before : list Z) : res verdict :=
  match read before with
  | Ok x =>
      match write x with
      | Ok after => Ok (if list_eqb before after then Silent else NotOneToOne)
      | _ => Panic
      end
  | Err _ => Ok ErrorReading
  | Panic => Panic
  end.

Definition check_read_write_ssbh : list Z -> res verdict := check_read_write file_read file_write.
Definition check_read_write_meshex : list Z -> res verdict := check_read_write meshex_read meshex_write.
Definition check_read_write_adj : list Z -> res verdict := check_read_write adj_read adj_write.

(** ** ssbh_lib/fuzz/src/lib.rs *)

(** Result::unwrap *)
Definition unwrap {A} (r : res A) : res A := match r with Ok x => Ok x | _ => Panic end.

(** test_write_read_write, lib.rs:4-26; assert_eq! is in line 25. *)
Definition test_write_read_write {A} (read : list Z -> res A) (write : A -> res (list Z)) (input : A) : res unit :=
  let* before := unwrap (write input) in
  let* output := unwrap (read before) in
  let* after := unwrap (write output) in
  if list_eqb before after then Ok tt else Panic.

(** ** Versioned<T> without the header of a file, which is what the targets anim, hlpb, matl,
    mesh, modl, nlst, nrpd, nufx, shdr and skel in ssbh_lib/fuzz/fuzz_targets write and read. *)

(** <Versioned<T> as SsbhWrite>::ssbh_write, ssbh_lib/src/lib.rs:556-582, with the data pointer
    and the writer as set up by SsbhWrite::write (ssbh_write/src/lib.rs:53-57) on a fresh cursor. *)
Definition versioned_write (k : kind) (x : (Z * Z) * val) : res (list Z) :=
  match format k (fst x) with
  | Some t =>
      let s0 := bump (2 + 2 + size t (snd x)) fresh in
      let s1 := emit (le_bytes 2 (fst (fst x))) s0 in
      let s2 := emit (le_bytes 2 (snd (fst x))) s1 in
      let* s3 := write t (snd x) s2 in
      Ok (wbuf s3)
  | None => Err EType
  end.

(** The derived reader of Versioned<T>, ssbh_lib/src/lib.rs:540-554, from the start of the bytes. *)
Definition versioned_read (k : kind) (b : list Z) : res ((Z * Z) * val) :=
  let* (major, p) := read_int 2 b 0 in
  let* (minor, p) := read_int 2 b p in
  match format k (major, minor) with
  | Some t => let* (v, _) := read t b p in Ok ((major, minor), v)
  | None => Err ENoVariant
  end.

Definition fuzz_versioned (k : kind) : (Z * Z) * val -> res unit := test_write_read_write (versioned_read k) (versioned_write k).
(** ssbh_lib/fuzz/fuzz_targets/meshex.rs, adj.rs *)
Definition fuzz_meshex : meshex -> res unit := test_write_read_write meshex_read meshex_write.
Definition fuzz_adj : adj -> res unit := test_write_read_write adj_read adj_write.

(** ssbh_lib/fuzz/fuzz_targets/ssbh_array.rs and ssbh_byte_buffer.rs *)
Definition fuzz_array (b : list Z) : res (val * Z) := read (TArr u32) b 0.
Definition fuzz_byte_buffer (b : list Z) : res (val * Z) := read TBuf b 0.
