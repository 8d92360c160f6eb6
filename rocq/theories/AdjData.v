(** AdjData: conversion to and from Adj, and adjacency from triangle faces.
    i16 values are kept as their 16 bit patterns; -1 is 65535.
    Paths below are relative to /repo/ssbh_data/src. *)
From Verif Require Import Bytes Ssbh File MeshEx.

(** AdjEntryData, adj_data.rs:66-74.  AdjData, adj_data.rs:58-60, is the list of its entries. *)
Record adj_entry := AE { ae_object : Z; ae_adjacency : list Z }.

(** The [scan] of TryFrom<&AdjData> for Adj, adj_data.rs:137-148 *)
Fixpoint adj_entries_from (offset : Z) (d : list adj_entry) : list (Z * Z) :=
  match d with
  | [] => []
  | e :: r => (ae_object e mod 2 ^ 32, offset mod 2 ^ 32) :: adj_entries_from (offset + zlen (ae_adjacency e) * 2) r
  end.
(** TryFrom<&AdjData> for Adj, adj_data.rs:132-156; it never fails. *)
Definition adj_of (d : list adj_entry) : adj := mkAdj (adj_entries_from 0 d) (flat_map ae_adjacency d).

(** [slice.get(start..end)] *)
Definition slice_get (l : list Z) (start end_ : Z) : option (list Z) :=
  if (start <=? end_) && (end_ <=? zlen l) then Some (firstn (Z.to_nat (end_ - start)) (skipn (Z.to_nat start) l))
  else None.
(** [slice.get(start..)] *)
Definition slice_from (l : list Z) (start : Z) : option (list Z) :=
  if start <=? zlen l then Some (skipn (Z.to_nat start) l) else None.

(** TryFrom<&Adj> for AdjData, adj_data.rs:166-207 *)
Fixpoint un_adj_entries (buffer : list Z) (es : list (Z * Z)) : res (list adj_entry) :=
  match es with
  | [] => Ok []
  | (o, offset) :: r =>
      let slice :=
        match r with
        | (_, next) :: _ => slice_get buffer (offset / 2) (next / 2)
        | [] => slice_from buffer (offset / 2)
        end in
      match slice with
      | None => Err (EData DAdjRange)
      | Some s => let* rest := un_adj_entries buffer r in Ok (AE o s :: rest)
      end
  end.
Definition un_adj (x : adj) : res (list adj_entry) := un_adj_entries (ad_indices x) (ad_entries x).

(** AdjData::write and AdjData::read, lib.rs:111-119 *)
Definition adj_data_write (d : list adj_entry) : res (list Z) := adj_write (adj_of d).
Definition adj_data_read (b : list Z) : res (list adj_entry) := let* x := adj_read b in un_adj x.

(** [adjacent_vertices[v].push(x as i16)]: panics when [v] is out of range. *)
Definition push_at (l : list (list Z)) (v x : Z) : res (list (list Z)) :=
  match nth_error l (Z.to_nat v) with
  | None => Panic
  | Some row => Ok (firstn (Z.to_nat v) l ++ (row ++ [x mod 2 ^ 16]) :: skipn (S (Z.to_nat v)) l)
  end.

(** The loop over [chunks_exact(3)], adj_data.rs:234-247; a remainder is ignored. *)
Fixpoint add_faces (indices : list Z) (adjacent : list (list Z)) : res (list (list Z)) :=
  match indices with
  | v0 :: v1 :: v2 :: r =>
      let* a := push_at adjacent v0 v1 in
      let* a := push_at a v0 v2 in
      let* a := push_at a v1 v2 in
      let* a := push_at a v1 v0 in
      let* a := push_at a v2 v0 in
      let* a := push_at a v2 v1 in
      add_faces r a
  | _ => Ok adjacent
  end.

(** [extend_from_slice] over the positions equal to [p], adj_data.rs:253-263 *)
Fixpoint seams {T} (eq : T -> T -> bool) (p : T) (positions : list T) (adjacent : list (list Z)) : list Z :=
  match positions, adjacent with
  | q :: ps, row :: rows => (if eq q p then row else []) ++ seams eq p ps rows
  | _, _ => []
  end.

(** [Vec::resize(n, -1)] *)
Definition resize (n : nat) (l : list Z) : list Z := firstn n l ++ repeat 65535 (n - length l).

(** triangle_adjacency, adj_data.rs:217-275.  [eq] is the equality of positions (for floats
    not reflexive). *)
Definition triangle_adjacency {T} (eq : T -> T -> bool) (indices : list Z) (positions : list T) (padding : nat) : res (list Z) :=
  let* adjacent := add_faces indices (repeat [] (length positions)) in
  Ok (flat_map (fun p => resize padding (seams eq p positions adjacent)) positions).

(** MAX_ADJACENT_VERTICES, adj_data.rs:28; from_triangle_faces, adj_data.rs:79-93 *)
Definition from_triangle_faces {T} (eq : T -> T -> bool) (object : Z) (positions : list T) (indices : list Z) : res adj_entry :=
  let* a := triangle_adjacency eq indices positions 18 in Ok (AE object a).
