(** Specification of transformed points and vectors, in real numbers. *)
From Coq Require Import Reals.
From Verif Require Import Bytes Float32 VecData QuantSpec.
Local Open Scope R_scope.

(** A matrix of four columns with four finite numbers each *)
Definition finite_matrix (m : list (list Z)) : Prop :=
  length m = 4%nat /\ forall col, In col m -> length col = 4%nat /\ forall x, In x col -> finite x = true.
(** Row [i] of column [c] *)
Definition entry (m : list (list Z)) (c i : nat) : R := real (nth i (nth c m []) 0%Z).
(** Coordinate [c] of a vector; a vector of two components has the third coordinate 0. *)
Definition coord (row : list Z) (c : nat) : R := real (nth c row 0%Z).
(** The exact product: [w] is 1 for points and 0 for vectors. *)
Definition exact_product (m : list (list Z)) (row : list Z) (w : R) (i : nat) : R :=
  entry m 0 i * coord row 0 + entry m 1 i * coord row 1 + entry m 2 i * coord row 2 + entry m 3 i * w.
(** The sum of the absolute values of its terms *)
Definition product_size (m : list (list Z)) (row : list Z) (w : R) (i : nat) : R :=
  Rabs (entry m 0 i * coord row 0) + Rabs (entry m 1 i * coord row 1) + Rabs (entry m 2 i * coord row 2) +
  Rabs (entry m 3 i * w).
(** The coordinates used are finite; the fourth component of a vector may be anything. *)
Definition finite_coords (row : list Z) : Prop := forall x, In x (firstn 3 row) -> finite x = true.
(** [row'] is [row] transformed: the same number of components, each of the first three within the
    rounding error of the exact product unless it overflows, the fourth one unchanged. *)
Definition transformed (m : list (list Z)) (w : R) (row row' : list Z) : Prop :=
  length row' = length row /\
  (forall i, (i < 3)%nat -> (i < length row)%nat -> let c := nth i row' 0%Z in
     (finite c = true -> Rabs (real c - exact_product m row w i) <= 5 * product_size m row w i / IZR (2 ^ 24) + / IZR (2 ^ 147)) /\
     (product_size m row w i <= IZR (2 ^ 127) -> finite c = true)) /\
  (length row = 4%nat -> nth 3 row' 0%Z = nth 3 row 0%Z).
(** The same number of components and the same numbers; zeros may differ in sign. *)
Definition same_number (x y : Z) : Prop := finite x = finite y /\ (finite x = true -> real x = real y).
Definition same_rows (v v' : vector_data) : Prop :=
  vec_dim v = vec_dim v' /\ Forall2 (Forall2 same_number) (vec_rows v) (vec_rows v').
Definition identity_matrix : list (list Z) :=
  [[0x3f800000; 0; 0; 0]; [0; 0x3f800000; 0; 0]; [0; 0; 0x3f800000; 0]; [0; 0; 0; 0x3f800000]]%Z.
