(** Properties of the work and the memory that reading a file takes. *)
From Verif Require Import Bytes Ssbh Formats File MeshEx Work WorkSpec WorkFacts WorkBomb.

(** ** C77: the counted readers are the readers *)
Theorem C77_same_result : forall b,
  (forall t p, fst (cread t b p) = read t b p) /\
  fst (cfile_read b) = file_read b /\ fst (cmeshex_read b) = meshex_read b /\ fst (cadj_read b) = adj_read b.
Proof. exact counted_readers. Qed.
Print Assumptions C77_same_result.

(** Any type described to the derive macro whose array elements are not empty: the steps are
    bounded by a polynomial in the length of the file, whatever counts and offsets it claims and
    whether or not it can be read. *)
Theorem C77_work : forall b t p, bytes_ok b = true -> sane t = true -> 0 <= p ->
  c_steps (snd (cread t b p)) <= budget (zlen b) t /\
  budget (zlen b) t <= budget 0 t * (zlen b + 1) ^ degree t.
Proof. exact read_work. Qed.
Print Assumptions C77_work.

(** The capacity asked for before the elements are there is at most that of the elements and
    bytes that then come, plus 1024 elements for each level of arrays and 100 MiB; there is no
    such excess if the file is read successfully. *)
Theorem C77_reservations : forall b t p, bytes_ok b = true -> sane t = true -> 0 <= p ->
  let c := snd (cread t b p) in
  c_slots c <= c_steps c + 1024 * array_depth t /\
  c_slots c + c_bytes c <= c_steps c + 1024 * array_depth t + 104857600 /\
  (forall r, fst (cread t b p) = Ok r -> c_slots c + c_bytes c <= c_steps c).
Proof. exact read_reservations. Qed.
Print Assumptions C77_reservations.

(** The formats of the library *)
Theorem C77_files : forall b, bytes_ok b = true ->
  let c := snd (cfile_read b) in
  c_steps c <= 4 + 180 * (zlen b + 1) ^ 4 /\
  c_slots c <= c_steps c + 3072 /\
  c_slots c + c_bytes c <= c_steps c + 3072 + 104857600 /\
  (forall f, file_read b = Ok f -> c_slots c + c_bytes c <= c_steps c).
Proof. exact file_work. Qed.
Print Assumptions C77_files.
Theorem C77_meshex : forall b, bytes_ok b = true ->
  let c := snd (cmeshex_read b) in
  c_steps c <= 64 * (zlen b + 1) ^ 2 /\ c_slots c <= c_steps c /\ c_slots c + c_bytes c <= c_steps c + 104857600.
Proof. exact meshex_work. Qed.
Print Assumptions C77_meshex.
Theorem C77_adj : forall b, bytes_ok b = true ->
  let c := snd (cadj_read b) in
  c_steps c <= 6 * (zlen b + 1) /\ c_slots c <= c_steps c /\ c_slots c + c_bytes c <= c_steps c + 104857600.
Proof. exact adj_work. Qed.
Print Assumptions C77_adj.

(** An animation that claims 2^63 groups and 2^63 bytes of data, and nothing else: the reader
    gives up after a few steps, having asked for 1024 elements.  The same with no groups: it has asked
    for 100 MiB. *)
Definition ex_forged (groups : Z) : list Z :=
  hbss ++ le_bytes 4 0 ++ le_bytes 8 0 ++ read_magic Anim ++ le_bytes 2 2 ++ le_bytes 2 0 ++
  le_bytes 4 0 ++ le_bytes 2 0 ++ le_bytes 2 0 ++ le_bytes 8 0 ++
  le_bytes 8 32 ++ le_bytes 8 groups ++ le_bytes 8 16 ++ le_bytes 8 (2 ^ 63).
Example C77_forged :
  cfile_read (ex_forged (2 ^ 63)) = (Err EEof, MkCost 14 1024 0) /\
  cfile_read (ex_forged 0) = (Err EShortBuffer, MkCost 14 0 104857600) /\
  bytes_ok (ex_forged (2 ^ 63)) = true /\ zlen (ex_forged 0) = 72.
Proof. vm_compute. auto. Qed.
(** The bounds of some formats *)
Example C77_bounds :
  map (fun x => (degree (snd x), array_depth (snd x))) (versions Anim) = [(3, 2); (4, 3); (4, 3)] /\
  map (fun x => (degree (snd x), array_depth (snd x))) (versions Nlst) = [(2, 1)] /\
  (exists t, format Nlst (1, 0) = Some t /\ sane t = true /\ budget 10 t = 157).
Proof. split; [reflexivity|]. split; [reflexivity|]. eexists. repeat split. Qed.

(** A linear bound is not true: what is read can be larger than the file by any factor, since
    pointers may have a common target. *)
Theorem C77_linear_refuted : forall K, 0 <= K < 2 ^ 32 -> exists b f,
  bytes_ok b = true /\ zlen b <= 100 * (K + 1) /\ file_read b = Ok f /\ K * zlen b < content (fbody f).
Proof. exact bombs. Qed.
Print Assumptions C77_linear_refuted.
Example C77_bomb : zlen (bomb 100) = 941 /\
  match file_read (bomb 100) with Ok f => content (fbody f) | _ => 0 end = 10100.
Proof. vm_compute. auto. Qed.

(** Nor is any bound true without the condition on elements: 16 bytes are enough for any
    amount of work if elements are empty.  No format of the library has such an array. *)
Theorem C77_empty_elements : forall c, 0 <= c < 2 ^ 64 ->
  exists b, bytes_ok b = true /\ zlen b = 16 /\ c <= c_steps (snd (cread (TArr TUnit) b 0)).
Proof. exact empty_elements. Qed.
Print Assumptions C77_empty_elements.
Theorem C77_formats_sane : forall k v t, format k v = Some t ->
  sane t = true /\ budget 0 t <= 180 /\ degree t <= 4 /\ array_depth t <= 3.
Proof. exact format_within. Qed.
Print Assumptions C77_formats_sane.
