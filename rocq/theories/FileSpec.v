(** Specification of SSBH files: header, supported types and versions.  Independent of
    the tables used by the reader and the writers. *)
From Coq Require Import String Ascii.
From Verif Require Import Bytes Ssbh SsbhSpec Formats File MeshEx.
Local Open Scope string_scope.

(** The bytes of an ASCII text. *)
Definition ascii_bytes (s : string) : list Z :=
  map (fun c => Z.of_nat (nat_of_ascii c)) (list_ascii_of_string s).

Definition type_name (k : kind) : string :=
  match k with
  | Hlpb => "HLPB" | Matl => "MATL" | Modl => "MODL" | Mesh => "MESH" | Skel => "SKEL"
  | Anim => "ANIM" | Nlst => "NLST" | Nrpd => "NRPD" | Nufx => "NUFX" | Shdr => "SHDR"
  end.

(** Names are stored as little endian numbers, that is in reverse. *)
Definition stored_name (s : string) : list Z := rev (ascii_bytes s).

(** The supported versions (major, minor). *)
Definition supported (k : kind) : list (Z * Z) :=
  match k with
  | Hlpb => [(1, 1)]
  | Matl => [(1, 5); (1, 6)]
  | Modl => [(1, 7)]
  | Mesh => [(1, 8); (1, 9); (1, 10)]
  | Skel => [(1, 0)]
  | Anim => [(1, 2); (2, 0); (2, 1)]
  | Nlst => [(1, 0)]
  | Nrpd => [(1, 6)]
  | Nufx => [(1, 0); (1, 1)]
  | Shdr => [(1, 2)]
  end.

(** The 24 byte header. *)
Definition DecHeader (b : list Z) (name : list Z) (v : Z * Z) : Prop :=
  bytes_at b 0 (stored_name "SSBH") /\ bytes_at b 16 name /\
  uint_at b 20 2 (fst v) /\ uint_at b 22 2 (snd v).

(** The bytes [b] are a file with the content [f]. *)
Definition DecFile (b : list Z) (f : ssbh_file) : Prop :=
  DecHeader b (stored_name (type_name (fkind f))) (fver f) /\
  exists t, format (fkind f) (fver f) = Some t /\ Dec b t 24 (fbody f).

(** The bytes of [b] outside [p, p+n) are the bytes of [b0]. *)
Definition changes_only (b0 b : list Z) (p n : Z) : Prop :=
  Z.of_nat (length b) = Z.max (Z.of_nat (length b0)) (p + n) /\
  forall i, 0 <= i < Z.of_nat (length b0) -> ~ (p <= i < p + n) -> byte_at b i = byte_at b0 i.

(** ** MeshEx and Adj files *)

(** The bytes [b] are a MeshEx file with the content [x]: a 64 byte header with the file
    length, the number of entries (and flags), the number of groups and four absolute
    pointers. *)
Definition DecMeshEx (b : list Z) (x : meshex) : Prop :=
  exists len ne ng,
    uint_at b 0 8 len /\ uint_at b 8 4 ne /\ uint_at b 12 4 ng /\
    Dec b (TAbs 8 AllData) 16 (VPtr (mx_all x)) /\
    Dec b (TAbs 8 (TVec ng MeshObjectGroup)) 24 (vec_ptr (mx_groups x)) /\
    Dec b (TAbs 8 (TVec ne MeshEntry)) 32 (vec_ptr (mx_entries x)) /\
    Dec b (TAbs 8 (EntryFlags ne)) 40 (flags_ptr (mx_flags x)) /\
    uint_at b 48 4 (mx_unk1 x).

(** The objects of a MeshEx file: the header and everything its pointers lead to. *)
Definition meshex_objects (b : list Z) (x : meshex) : list ref :=
  (mkRef 0 0 64 1 ::
  refs b 64 (TAbs 8 AllData) 16 (VPtr (mx_all x)) ++
  refs b 64 (groups_ty (opt_len (mx_groups x))) 24 (vec_ptr (mx_groups x)) ++
  refs b 64 (entries_ty (opt_len (mx_entries x))) 32 (vec_ptr (mx_entries x)) ++
  refs b 64 (flags_ty (opt_len (mx_flags x))) 40 (flags_ptr (mx_flags x)))%list.

(** The bytes of an Adj file: the number of entries, the entries, and the indices up to
    the end of the file. *)
Definition adj_bytes (x : adj) : list Z :=
  (le_bytes 4 (zlen (ad_entries x)) ++
  flat_map (fun e => (le_bytes 4 (fst e) ++ le_bytes 4 (snd e))%list) (ad_entries x) ++
  flat_map (le_bytes 2) (ad_indices x))%list.
