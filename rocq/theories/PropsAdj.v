(** Properties of adjacency data. *)
From Verif Require Import Bytes Ssbh File MeshEx AdjData AdjSpec AdjDataFacts.

(** ** C36: saving and loading *)
Theorem C36_adj_save_load : forall d, adj_data_ok d = true ->
  un_adj (adj_of d) = Ok d /\ exists out, adj_data_write d = Ok out /\ adj_data_read out = Ok d.
Proof. exact (fun d H => conj (adj_data_back d H) (adj_save_load d H)). Qed.
Print Assumptions C36_adj_save_load.

(** Any Adj value: entry [k] gets the indices from its start to the start of the next one, or
    to the end; when the starts decrease or leave the buffer this is an error, never a panic. *)
Theorem C36_adj_slices : forall x,
  (increasing (bounds x) = true -> exists d, un_adj x = Ok d /\ map ae_object d = map fst (ad_entries x) /\
     forall k e a b, nth_error d k = Some e -> nth_error (bounds x) k = Some a -> nth_error (bounds x) (S k) = Some b ->
       ae_adjacency e = between (ad_indices x) a b) /\
  (increasing (bounds x) = false -> un_adj x = Err (EData DAdjRange)).
Proof. exact adj_data_any. Qed.
Print Assumptions C36_adj_slices.

Definition ex_adj_data : list adj_entry := [AE 3 [1; 2; 65535]; AE 0 []; AE (2 ^ 32 - 1) [7]].
Example C36_example :
  adj_data_ok ex_adj_data = true /\ adj_of ex_adj_data = mkAdj [(3, 0); (0, 6); (2 ^ 32 - 1, 6)] [1; 2; 65535; 7] /\
  increasing (bounds (mkAdj [(0, 0); (1, 3); (2, 8)] [1; 2; 3; 4])) = true /\
  un_adj (mkAdj [(0, 0); (1, 3); (2, 8)] [1; 2; 3; 4]) = Ok [AE 0 [1]; AE 1 [2; 3; 4]; AE 2 []] /\
  un_adj (mkAdj [(0, 4); (1, 2)] [1; 2; 3]) = Err (EData DAdjRange) /\
  un_adj (mkAdj [(0, 8)] [1; 2; 3]) = Err (EData DAdjRange).
Proof. vm_compute. auto 10. Qed.

(** The offsets are truncated to 32 bits: an index buffer of 4 GiB is read back differently. *)
Theorem C36_large_refuted : exists d,
  forallb (fun e => u32_ok (ae_object e) && forallb u16_ok (ae_adjacency e)) d = true /\ zlen d = 2 /\
  un_adj (adj_of d) <> Ok d.
Proof. exact adj_large_exists. Qed.
Print Assumptions C36_large_refuted.

(** ** C37: adjacency of triangles.  [eq] is any comparison of positions.  There is one row of
    18 numbers per vertex. *)
Theorem C37_triangle_adjacency : forall (T : Type) (eq : T -> T -> bool) object positions indices,
  Forall (fun v => 0 <= v) indices ->
  (forallb (fun t : Z * Z * Z => let '(a, b, c) := t in (a <? zlen positions) && (b <? zlen positions) && (c <? zlen positions))
     (triangles indices) = true ->
   exists rows, from_triangle_faces eq object positions indices = Ok (AE object (concat rows)) /\
     Forall2 (fun p row => is_row 18 (touching eq positions (triangles indices) p) row) positions rows) /\
  (forallb (fun t : Z * Z * Z => let '(a, b, c) := t in (a <? zlen positions) && (b <? zlen positions) && (c <? zlen positions))
     (triangles indices) = false ->
   from_triangle_faces eq object positions indices = Panic).
Proof. exact @adjacency. Qed.
Print Assumptions C37_triangle_adjacency.

(** Two triangles; vertices 1 and 3 share a position. *)
Example C37_example :
  from_triangle_faces Z.eqb 5 [10; 11; 12; 11] [0; 1; 2; 2; 3; 0] =
    Ok (AE 5 ([1; 2; 2; 3] ++ repeat 65535 14 ++ [2; 0; 0; 2] ++ repeat 65535 14 ++ [0; 1; 3; 0] ++ repeat 65535 14 ++
              [2; 0; 0; 2] ++ repeat 65535 14)) /\
  from_triangle_faces Z.eqb 5 [10; 11; 12; 11] [0; 1; 4] = Panic /\
  touching Z.eqb [10; 11; 12; 11] [(0, 1, 2); (2, 3, 0)] 11 = [2; 0; 0; 2].
Proof. vm_compute. auto. Qed.
