(** SSBH files: header, type and version dispatch, and saving to a path.
    Paths below are relative to /repo/ssbh_lib/src. *)
From Verif Require Import Bytes Ssbh Formats.

(** An [SsbhFile] (lib.rs:498-582).  The variant of the format enum is identified by
    its version; [Versioned] stores nothing else. *)
Record ssbh_file := mkFile { fkind : kind; fver : Z * Z; fbody : val }.

(** A Rust value of type SsbhFile: the variant exists and its fields are well typed. *)
Definition file_ok (f : ssbh_file) : Prop :=
  exists t, format (fkind f) (fver f) = Some t /\ wt t (fbody f) = true.

(** ** Magics *)

(** #[br(magic)] attributes of [Ssbh], lib.rs:507-537 *)
Definition read_magic (k : kind) : list Z :=
  match k with
  | Hlpb => [66; 80; 76; 72]   (* BPLH *)
  | Matl => [76; 84; 65; 77]   (* LTAM *)
  | Modl => [76; 68; 79; 77]   (* LDOM *)
  | Mesh => [72; 83; 69; 77]   (* HSEM *)
  | Skel => [76; 69; 75; 83]   (* LEKS *)
  | Anim => [77; 73; 78; 65]   (* MINA *)
  | Nlst => [84; 83; 76; 78]   (* TSLN *)
  | Nrpd => [68; 80; 82; 78]   (* DPRN *)
  | Nufx => [88; 70; 85; 78]   (* XFUN *)
  | Shdr => [82; 68; 72; 83]   (* RDHS *)
  end.

(** write_ssbh_header_and_data, lib.rs:756-772, used by SsbhFile::write *)
Definition file_write_magic (k : kind) : list Z :=
  match k with
  | Modl => [76; 68; 79; 77]
  | Skel => [76; 69; 75; 83]
  | Nufx => [88; 70; 85; 78]
  | Shdr => [82; 68; 72; 83]
  | Matl => [76; 84; 65; 77]
  | Anim => [77; 73; 78; 65]
  | Hlpb => [66; 80; 76; 72]
  | Mesh => [72; 83; 69; 77]
  | Nrpd => [68; 80; 82; 78]
  | Nlst => [84; 83; 76; 78]
  end.

(** The arguments of ssbh_read_write_impl!, lib.rs:300-309, used by e.g. Modl::write *)
Definition typed_write_magic (k : kind) : list Z :=
  match k with
  | Hlpb => [66; 80; 76; 72]
  | Matl => [76; 84; 65; 77]
  | Modl => [76; 68; 79; 77]
  | Mesh => [72; 83; 69; 77]
  | Skel => [76; 69; 75; 83]
  | Anim => [77; 73; 78; 65]
  | Nlst => [84; 83; 76; 78]
  | Nrpd => [68; 80; 82; 78]
  | Nufx => [88; 70; 85; 78]
  | Shdr => [82; 68; 72; 83]
  end.

Definition hbss : list Z := [72; 66; 83; 83].   (* HBSS *)

(** ** Writing *)

(** write_ssbh_header, lib.rs:654-661 *)
Definition write_ssbh_header (magic : list Z) (s : wst) : wst :=
  emit magic (emit (le_bytes 4 0) (emit (le_bytes 8 64) (emit hbss s))).

(** write_ssbh_file, lib.rs:792-808; [t] is the variant's descriptor and [v] the version
    returned by major_minor_version. *)
Definition write_ssbh_file (magic : list Z) (v : Z * Z) (t : ty) (body : val) (s : wst) : res wst :=
  let s1 := write_ssbh_header magic s in
  let s2 := set_dp (wpos s1 + (size t body + 4)) s1 in
  let s3 := emit (le_bytes 2 (snd v)) (emit (le_bytes 2 (fst v)) s2) in
  write t body s3.

(** The writer as a fresh Cursor<Vec<u8>>; the initial data_ptr is not used. *)
Definition fresh : wst := mkW [] 0 0.

(** SsbhFile::write (lib.rs:190-193) into a fresh cursor: the bytes of the document.
    [EType] marks values that do not exist in Rust (a version without variant). *)
Definition file_write (f : ssbh_file) : res (list Z) :=
  match format (fkind f) (fver f) with
  | Some t =>
      let* s := write_ssbh_file (file_write_magic (fkind f)) (fver f) t (fbody f) fresh in
      Ok (wbuf s)
  | None => Err EType
  end.

(** T::write for the ten types (lib.rs:246-249) into a fresh cursor. *)
Definition typed_write (k : kind) (v : Z * Z) (body : val) : res (list Z) :=
  match format k v with
  | Some t => let* s := write_ssbh_file (typed_write_magic k) v t body fresh in Ok (wbuf s)
  | None => Err EType
  end.

(** ** Reading *)

Fixpoint list_eqb (a b : list Z) : bool :=
  match a, b with
  | [], [] => true
  | x :: a', y :: b' => (x =? y) && list_eqb a' b'
  | _, _ => false
  end.

(** binrw's enum reader over the variants of [Ssbh]: the first variant whose magic
    matches.  The magics are distinct, so falling through to later variants after an
    error in the body cannot succeed and only the error is different (binrw wraps it
    together with the BadMagic errors of the others in Error::EnumErrors). *)
Fixpoint find_kind (m : list Z) (ks : list kind) : option kind :=
  match ks with
  | [] => None
  | k :: r => if list_eqb m (read_magic k) then Some k else find_kind m r
  end.

(** SsbhFile as read by binrw from position [p] of [b]: lib.rs:497-501 (magic, align_before),
    507-537 (type), 547-557 (version), the pre_assert attributes of the format enums. *)
Definition read_file (b : list Z) (p : Z) : res (ssbh_file * Z) :=
  match get_bytes 4 b p with
  | None => Err EEof
  | Some m =>
      if list_eqb m hbss then
        let p1 := round_up (p + 4) 16 in
        match get_bytes 4 b p1 with
        | None => Err EEof
        | Some m =>
            match find_kind m kinds with
            | None => Err ENoVariant
            | Some k =>
                let* (major, p2) := read_int 2 b (p1 + 4) in
                let* (minor, p3) := read_int 2 b p2 in
                match format k (major, minor) with
                | None => Err ENoVariant
                | Some t =>
                    let* (v, q) := read t b p3 in
                    Ok (mkFile k (major, minor) v, q)
                end
            end
        end
      else Err EBadMagic
  end.

(** SsbhFile::read and from_file (lib.rs:174-186): the document starts at position 0. *)
Definition file_read (b : list Z) : res ssbh_file :=
  let* (f, _) := read_file b 0 in Ok f.

(** T::read and T::from_file of ssbh_read_write_impl!, lib.rs:225-242 *)
Definition typed_read (k : kind) (b : list Z) : res ((Z * Z) * val) :=
  let* f := file_read b in
  match fkind f, k with
  | Hlpb, Hlpb | Matl, Matl | Modl, Modl | Mesh, Mesh | Skel, Skel
  | Anim, Anim | Nlst, Nlst | Nrpd, Nrpd | Nufx, Nufx | Shdr, Shdr => Ok (fver f, fbody f)
  | _, _ => Err EInvalidType
  end.

(** ** Saving to a path *)

(** A file system: the content of each path (paths are numbered), None if there is no
    such file. *)
Definition fs := Z -> option (list Z).

Definition fs_set (path : Z) (c : list Z) (d : fs) : fs :=
  fun q => if q =? path then Some c else d q.

(** How the operating system behaves: whether creating the file succeeds and after how
    many bytes write_all fails, if it does. *)
Record io_env := mkEnv { create_ok : bool; write_limit : option Z }.

Inductive io_result := IoOk | IoErr | IoPanic.

(** SsbhFile::write_to_file (lib.rs:197-201), T::write_to_file (lib.rs:253-257, 292-296)
    with write_buffered (lib.rs:774-788).  File::create truncates the destination; the
    document is then serialised into memory; write_all appends it to the open file. *)
Definition write_to_file (serialise : res (list Z)) (path : Z) (e : io_env) (d : fs) : io_result * fs :=
  if create_ok e then
    let d1 := fs_set path [] d in
    match serialise with
    | Ok bytes =>
        match write_limit e with
        | Some n =>
            if n <? zlen bytes then (IoErr, fs_set path (firstn (Z.to_nat n) bytes) d1)
            else (IoOk, fs_set path bytes d1)
        | None => (IoOk, fs_set path bytes d1)
        end
    | Err _ => (IoErr, d1)
    | Panic => (IoPanic, d1)
    end
  else (IoErr, d).
