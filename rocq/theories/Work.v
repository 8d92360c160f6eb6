(** What reading costs: the reader of Ssbh.v with its steps counted and the memory it asks for
    before the data is there.  Paths are relative to /repo/ssbh_lib/src. *)
From Verif Require Import Bytes Ssbh Formats File MeshEx.

(** [c_steps]: values read (calls of read_options), elements pushed to vectors, bytes taken
    one by one or copied.  [c_slots]: elements in the capacities
    requested by read_elements.  [c_bytes]: bytes in the capacities requested by read_buffer.
    How a vector grows beyond its first capacity is the allocator's business and is
    proportional to the elements pushed. *)
Record cost := MkCost { c_steps : Z; c_slots : Z; c_bytes : Z }.
Definition cadd (a c : cost) : cost :=
  MkCost (c_steps a + c_steps c) (c_slots a + c_slots c) (c_bytes a + c_bytes c).

(** An outcome together with what it cost, also if it is an error *)
Definition cres (A : Type) : Type := (res A * cost)%type.
Definition cret {A} (r : res A) : cres A := (r, MkCost 0 0 0).
Definition cbind {A B} (m : cres A) (f : A -> cres B) : cres B :=
  match fst m with
  | Ok a => (fst (f a), cadd (snd m) (snd (f a)))
  | Err e => (Err e, snd m)
  | Panic => (Panic, snd m)
  end.
Definition steps {A} (n : Z) (r : res A) : cres A := (r, MkCost n 0 0).

Notation "'let+' x := e 'in' k" := (cbind e (fun x => k))
  (at level 200, x pattern, e at level 200, k at level 200).

(** arrays.rs:16, 20 *)
Definition max_slots : Z := 1024.
Definition max_bytes : Z := 104857600.
(** Vec::with_capacity of arrays.rs:235-238 and 253-256 *)
Definition reserve_slots (count : Z) : cres unit := (Ok tt, MkCost 0 (Z.min count max_slots) 0).
Definition reserve_bytes (count : Z) : cres unit := (Ok tt, MkCost 0 0 (Z.min count max_bytes)).

Fixpoint citer_pos {S} (n : positive) (f : S -> cres S) (s : S) : cres S :=
  match n with
  | xH => f s
  | xO q => cbind (citer_pos q f s) (citer_pos q f)
  | xI q => cbind (f s) (fun s1 => cbind (citer_pos q f s1) (citer_pos q f))
  end.
Definition citer_z {S} (n : Z) (f : S -> cres S) (s : S) : cres S :=
  match n with Zpos p => citer_pos p f s | _ => cret (Ok s) end.

(** The loop of read_elements, arrays.rs:239-242; the push is a step *)
Definition cread_push (rd : Z -> cres (val * Z)) (s : list val * Z) : cres (list val * Z) :=
  let '(acc, p) := s in
  let+ (v, p') := rd p in steps 1 (Ok (v :: acc, p')).
Definition cread_elements (rd : Z -> cres (val * Z)) (count p : Z) : cres (list val * Z) :=
  let+ (acc, p') := citer_z count (cread_push rd) ([], p) in cret (Ok (rev acc, p')).

(** [read] of Ssbh.v with its cost; the citations there apply.  binrw's own readers for [T; n]
    and for vectors with a count ask for no memory here. *)
Fixpoint cread (t : ty) (b : list Z) (p : Z) : cres (val * Z) :=
  match t with
  | TInt _ | TRepr _ _ _ | TBits _ | TUnit => steps 1 (read t b p)
  | TStruct fs _ _ _ =>
      let+ _ := steps 1 (Ok tt) in
      let+ (vs, p') :=
        (fix go (fs : list (ty * (Z * Z))) (p : Z) : cres (list val * Z) :=
           match fs with
           | [] => cret (Ok ([], p))
           | (t', (_, rp)) :: fr =>
               let+ (v, p1) := cread t' b p in
               let+ (vs, p2) := go fr (p1 + rp) in
               cret (Ok (v :: vs, p2))
           end) fs p in
      cret (Ok (VStruct vs, p'))
  | TRel t' =>
      let+ (relative_offset, saved_pos) := steps 1 (read_int 8 b p) in
      if relative_offset =? 0 then cret (Ok (VPtr None, saved_pos))
      else
        let+ seek_pos := cret (absolute_offset_checked p relative_offset) in
        let+ (v, _) := cread t' b seek_pos in
        cret (Ok (VPtr (Some v), saved_pos))
  | TAbs w t' =>
      let+ (offset, saved_pos) := steps 1 (read_int w b p) in
      if offset =? 0 then cret (Ok (VPtr None, saved_pos))
      else
        let+ (v, _) := cread t' b offset in
        cret (Ok (VPtr (Some v), saved_pos))
  | TArr t' =>
      let+ (relative_offset, p1) := steps 1 (read_int 8 b p) in
      let+ (element_count, saved_pos) := steps 1 (read_int 8 b p1) in
      let+ seek_pos := cret (absolute_offset_checked p relative_offset) in
      let+ _ := reserve_slots element_count in
      let+ (vs, _) := cread_elements (cread t' b) element_count seek_pos in
      cret (Ok (VArr vs, saved_pos))
  | TBuf =>
      let+ (relative_offset, p1) := steps 1 (read_int 8 b p) in
      let+ (element_count, saved_pos) := steps 1 (read_int 8 b p1) in
      let+ seek_pos := cret (absolute_offset_checked p relative_offset) in
      let+ _ := reserve_bytes element_count in
      (* reader.take(count).read_to_end: what is there, up to the count *)
      let+ bs := steps (Z.min element_count (Z.max 0 (zlen b - seek_pos))) (read_buffer element_count b seek_pos) in
      cret (Ok (VBytes bs, saved_pos))
  | TCStr _ =>
      (* one byte at a time up to the NUL, or to the end of the file *)
      let r := read_cstr (Z.to_nat (zlen b - p)) b p in
      let+ (bs, p') := steps (match r with Ok (bs, _) => zlen bs + 1 | _ => Z.max 0 (zlen b - p) + 1 end) r in
      cret (Ok (VBytes bs, p'))
  | TEnum vs =>
      let+ (relative_offset, p1) := steps 1 (read_int 8 b p) in
      let+ (data_type, saved_pos) := steps 1 (read_int 8 b p1) in
      if relative_offset =? 0 then cret (Ok (VPtr None, saved_pos))
      else
        let+ seek_pos := cret (absolute_offset_checked p relative_offset) in
        let+ (v, _) :=
          (fix go (vs : list (Z * ty)) : cres (val * Z) :=
             match vs with
             | [] => cret (Err ENoVariant)
             | (tg, t') :: r => if data_type =? tg then cread t' b seek_pos else go r
             end) vs in
        cret (Ok (VPtr (Some (VCase data_type v)), saved_pos))
  | TFix n t' | TVec n t' =>
      let+ _ := steps 1 (Ok tt) in
      let+ (vs, p') := cread_elements (cread t' b) n p in cret (Ok (VArr vs, p'))
  end.

(** SsbhFile::read, lib.rs:174-186, as in [read_file]: the magic, the type and the version are
    one step each *)
Definition cfile_read (b : list Z) : cres ssbh_file :=
  match get_bytes 4 b 0 with
  | None => steps 1 (Err EEof)
  | Some m =>
      if list_eqb m hbss then
        match get_bytes 4 b 16 with
        | None => steps 2 (Err EEof)
        | Some m =>
            match find_kind m kinds with
            | None => steps 2 (Err ENoVariant)
            | Some k =>
                let+ _ := steps 2 (Ok tt) in
                let+ (major, p2) := steps 1 (read_int 2 b 20) in
                let+ (minor, p3) := steps 1 (read_int 2 b p2) in
                match format k (major, minor) with
                | None => cret (Err ENoVariant)
                | Some t =>
                    let+ (v, _) := cread t b p3 in
                    cret (Ok (mkFile k (major, minor) v))
                end
            end
        end
      else steps 1 (Err EBadMagic)
  end.

(** MeshEx, formats/meshex.rs:14-41, as in [meshex_read] *)
Definition cmeshex_read (b : list Z) : cres meshex :=
  let+ (_, p) := steps 1 (read_int 8 b 0) in
  let+ (entry_count, p) := steps 1 (read_int 4 b p) in
  let+ (mesh_object_group_count, p) := steps 1 (read_int 4 b p) in
  let+ (all_data, p) := cread (TAbs 8 AllData) b p in
  let+ (mesh_object_groups, p) := cread (groups_ty mesh_object_group_count) b p in
  let+ (entries, p) := cread (entries_ty entry_count) b p in
  let+ (entry_flags, p) := cread (flags_ty entry_count) b p in
  let+ (unk1, p) := cread u32 b p in
  cret (let* a := un_ptr all_data in
        let* g := un_vec mesh_object_groups in
        let* e := un_vec entries in
        let* f := un_flags entry_flags in
        let* u := un_int unk1 in
        Ok (mkMeshEx a g e f u)).

(** Adj, formats/adj.rs:13-44, as in [adj_read]; until_eof makes one more attempt than it
    reads elements *)
Definition cadj_read (b : list Z) : cres adj :=
  let+ (entry_count, p) := steps 1 (read_int 4 b 0) in
  let+ (vs, p) := cread_elements (cread AdjEntry b) entry_count p in
  let+ es := cret (un_entries vs) in
  let is := until_eof (length b) b p in
  steps (zlen is + 1) (Ok (mkAdj es is)).
