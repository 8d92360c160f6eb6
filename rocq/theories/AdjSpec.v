(** Specification for adjacency data. *)
From Verif Require Import Bytes MeshEx AdjData.

(** Objects and byte offsets fit 32 bits, indices 16 bits.  The offsets are those of the
    starts of the entries, so the length of the last entry does not count. *)
Definition adj_data_ok (d : list adj_entry) : bool :=
  forallb (fun e => u32_ok (ae_object e) && forallb u16_ok (ae_adjacency e)) d &&
  (zlen d <? 2 ^ 32) && (2 * zlen (flat_map ae_adjacency (removelast d)) <? 2 ^ 32).

(** The start of each entry counted in indices, and where the last one ends *)
Definition bounds (x : adj) : list Z := map (fun e => snd e / 2) (ad_entries x) ++ [zlen (ad_indices x)].
Fixpoint increasing (l : list Z) : bool :=
  match l with
  | a :: (b :: _) as r => (a <=? b) && increasing r
  | _ => true
  end.
(** The indices from one bound to the next *)
Definition between (l : list Z) (a b : Z) : list Z := firstn (Z.to_nat (b - a)) (skipn (Z.to_nat a) l).

(** The triangles of an index list *)
Fixpoint triangles (l : list Z) : list (Z * Z * Z) :=
  match l with a :: b :: c :: r => (a, b, c) :: triangles r | _ => [] end.
(** The corners of a triangle other than [v], starting after [v] *)
Definition other_corners (v : Z) (t : Z * Z * Z) : list Z :=
  let '(a, b, c) := t in
  (if v =? a then [b; c] else []) ++ (if v =? b then [c; a] else []) ++ (if v =? c then [a; b] else []).
(** What touches the vertices at the position [p], in the order of these vertices *)
Definition touching {T} (eq : T -> T -> bool) (positions : list T) (ts : list (Z * Z * Z)) (p : T) : list Z :=
  flat_map (fun vq => if eq (snd vq) p then flat_map (other_corners (Z.of_nat (fst vq))) ts else [])
           (combine (seq 0 (length positions)) positions).
(** A row of exactly [n] numbers, filled with -1 (as 16 bits) *)
Definition is_row (n : nat) (l row : list Z) : Prop :=
  length row = n /\
  forall i, (i < n)%nat -> nth_error row i = Some (nth i (map (fun x => x mod 2 ^ 16) l) 65535).
