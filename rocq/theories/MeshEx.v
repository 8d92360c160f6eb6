(** The two file types that are not SSBH documents: MeshEx and Adj.
    Paths below are relative to /repo/ssbh_lib/src/formats. *)
From Verif Require Import Bytes Ssbh Formats File.

(** ** MeshEx: meshex.rs *)

(** meshex.rs:48-54 *)
Definition MeshEntry : ty := aligned [u32; Vector3] 16.
(** meshex.rs:60-63 *)
Definition AllData : ty := aligned [BoundingSphere; TAbs 8 (TCStr 16)] 16.
(** meshex.rs:69-76 *)
Definition MeshObjectGroup : ty := aligned [BoundingSphere; TAbs 8 (TCStr 4); TAbs 8 (TCStr 4)] 16.
(** meshex.rs:83-96 *)
Definition EntryFlag : ty := TBits 2.
(** meshex.rs:105: the length is an argument of the reader *)
Definition EntryFlags (n : Z) : ty := aligned [TVec n EntryFlag] 16.

(** meshex.rs:18-41.  The pointers are options; [None] is the null pointer. *)
Record meshex := mkMeshEx {
  mx_all : option val;
  mx_groups : option (list val);
  mx_entries : option (list val);
  mx_flags : option (list val);
  mx_unk1 : Z
}.

Definition opt_len (o : option (list val)) : Z := match o with Some l => zlen l | None => 0 end.

(** [.as_ref().map(|e| e.len() as u32).unwrap_or(0u32)], meshex.rs:121-130, 150-154 *)
Definition count32 (o : option (list val)) : Z := opt_len o mod 2 ^ 32.

Definition groups_ty (n : Z) : ty := TAbs 8 (TVec n MeshObjectGroup).
Definition entries_ty (n : Z) : ty := TAbs 8 (TVec n MeshEntry).
Definition flags_ty (n : Z) : ty := TAbs 8 (EntryFlags n).
Definition vec_ptr (o : option (list val)) : val := VPtr (option_map VArr o).
Definition flags_ptr (o : option (list val)) : val := VPtr (option_map (fun l => VStruct [VArr l]) o).

(** The values Rust's type system admits. *)
Definition meshex_ok (x : meshex) : bool :=
  wt (TAbs 8 AllData) (VPtr (mx_all x)) &&
  wt (groups_ty (opt_len (mx_groups x))) (vec_ptr (mx_groups x)) &&
  wt (entries_ty (opt_len (mx_entries x))) (vec_ptr (mx_entries x)) &&
  wt (flags_ty (opt_len (mx_flags x))) (flags_ptr (mx_flags x)) &&
  wt u32 (VInt (mx_unk1 x)).

(** <MeshEx as SsbhWrite>::ssbh_write, meshex.rs:114-178, with the data pointer and the
    writer as set up by SsbhWrite::write (ssbh_write/src/lib.rs:53-57) on a fresh cursor. *)
Definition meshex_write (x : meshex) : res (list Z) :=
  let entry_count := count32 (mx_entries x) in
  let entry_flag_count := count32 (mx_flags x) in
  if negb (entry_count =? entry_flag_count) then Err ECount
  else
    let s0 := bump 64 fresh in
    let* s1 := write u64 (VInt 0) s0 in
    let* s2 := write u32 (VInt entry_count) s1 in
    let* s3 := write u32 (VInt (count32 (mx_groups x))) s2 in
    let* s4 := write (TAbs 8 AllData) (VPtr (mx_all x)) s3 in
    let* s5 := write (groups_ty (opt_len (mx_groups x))) (vec_ptr (mx_groups x)) s4 in
    let* s6 := write (entries_ty (opt_len (mx_entries x))) (vec_ptr (mx_entries x)) s5 in
    let* s7 := write (flags_ty (opt_len (mx_flags x))) (flags_ptr (mx_flags x)) s6 in
    let* s8 := write u32 (VInt (mx_unk1 x)) s7 in
    let size := zlen (wbuf s8) in
    let new_size := round_up size 16 in
    let s9 := emit (zeros (new_size - size)) (seek size s8) in
    let* s10 := write u64 (VInt new_size) (seek 0 s9) in
    Ok (wbuf s10).

(** The Rust types of the values the pointers lead to. *)
Definition un_vec (v : val) : res (option (list val)) :=
  match v with
  | VPtr None => Ok None
  | VPtr (Some (VArr l)) => Ok (Some l)
  | _ => Err EType
  end.
Definition un_flags (v : val) : res (option (list val)) :=
  match v with
  | VPtr None => Ok None
  | VPtr (Some (VStruct [VArr l])) => Ok (Some l)
  | _ => Err EType
  end.
Definition un_ptr (v : val) : res (option val) :=
  match v with VPtr o => Ok o | _ => Err EType end.
Definition un_int (v : val) : res Z := match v with VInt n => Ok n | _ => Err EType end.

(** The derived reader of MeshEx, meshex.rs:14-41, from the start of the file. *)
Definition meshex_read (b : list Z) : res meshex :=
  let* (_, p) := read_int 8 b 0 in
  let* (entry_count, p) := read_int 4 b p in
  let* (mesh_object_group_count, p) := read_int 4 b p in
  let* (all_data, p) := read (TAbs 8 AllData) b p in
  let* (mesh_object_groups, p) := read (groups_ty mesh_object_group_count) b p in
  let* (entries, p) := read (entries_ty entry_count) b p in
  let* (entry_flags, p) := read (flags_ty entry_count) b p in
  let* (unk1, p) := read u32 b p in
  let* a := un_ptr all_data in
  let* g := un_vec mesh_object_groups in
  let* e := un_vec entries in
  let* f := un_flags entry_flags in
  let* u := un_int unk1 in
  Ok (mkMeshEx a g e f u).

(** ** Adj: adj.rs *)

(** adj.rs:17-44; entries are (mesh_object_index, index_buffer_offset), indices are the
    bit patterns of the i16 values. *)
Record adj := mkAdj { ad_entries : list (Z * Z); ad_indices : list Z }.

Definition u32_ok (x : Z) : bool := (0 <=? x) && (x <? 2 ^ 32).
Definition u16_ok (x : Z) : bool := (0 <=? x) && (x <? 2 ^ 16).
Definition adj_ok (x : adj) : bool :=
  forallb (fun e => u32_ok (fst e) && u32_ok (snd e)) (ad_entries x) && forallb u16_ok (ad_indices x).

(** adj.rs:46-58 *)
Definition AdjEntry : ty := record [u32; u32].
Definition entry_val (e : Z * Z) : val := VStruct [VInt (fst e); VInt (snd e)].

(** <Adj as SsbhWrite>::ssbh_write, adj.rs:61-78, on a fresh cursor.  The data pointer set
    at the start is not used: there are no pointers. *)
Definition adj_write (x : adj) : res (list Z) :=
  let* s1 := write u32 (VInt (zlen (ad_entries x) mod 2 ^ 32)) fresh in
  let* s2 := write (TVec (zlen (ad_entries x)) AdjEntry) (VArr (map entry_val (ad_entries x))) s1 in
  let* s3 := write (TVec (zlen (ad_indices x)) i16) (VArr (map VInt (ad_indices x))) s2 in
  Ok (wbuf s3).

(** binrw's until_eof helper for i16: elements until one cannot be read completely. *)
Fixpoint until_eof (n : nat) (b : list Z) (p : Z) : list Z :=
  match n with
  | O => []
  | S n' =>
      match read_int 2 b p with
      | Ok (x, p') => x :: until_eof n' b p'
      | _ => []
      end
  end.

Definition un_entry (v : val) : res (Z * Z) :=
  match v with VStruct [VInt x; VInt y] => Ok (x, y) | _ => Err EType end.

Fixpoint un_entries (vs : list val) : res (list (Z * Z)) :=
  match vs with
  | [] => Ok []
  | v :: r => let* e := un_entry v in let* es := un_entries r in Ok (e :: es)
  end.

(** The derived reader of Adj, adj.rs:13-44.  The fuel of [until_eof] is the length of the
    file. *)
Definition adj_read (b : list Z) : res adj :=
  let* (entry_count, p) := read_int 4 b 0 in
  let* (vs, p) := read_elements (read AdjEntry b) entry_count p in
  let* es := un_entries vs in
  Ok (mkAdj es (until_eof (length b) b p)).
