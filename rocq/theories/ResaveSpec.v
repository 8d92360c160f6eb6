(** Specification for loading and saving animations repeatedly. *)
From Verif Require Import Bytes Ssbh AnimBuf AnimFile AnimSpec.

(** [d'] is loaded after saving and loading [d] [n] times.  Files are smaller than 2^63 bytes. *)
Inductive saves (order : list Z -> list Z) : nat -> anim_data -> anim_data -> Prop :=
| saves_none d : saves order 0 d d
| saves_more n d d1 d2 out : saves order n d d1 ->
    anim_data_write d1 = Ok out -> zlen out < 2 ^ 63 -> anim_data_read order out = Ok d2 ->
    saves order (S n) d d2.

(** Values stored without loss: tracks with few frames, booleans, and indices at most 2^24 - 1
    apart *)
Definition kept (v : track_values) : Prop :=
  compressed v = false \/
  match v with
  | TvBool _ => True
  | TvPattern l => forall x y, In x l -> In y l -> x - y < 2 ^ 24
  | _ => False
  end.
