(** The grammar of JSON (RFC 8259), as a relation between trees and texts. *)
From Verif Require Import Bytes Strings Json JsonText.
Open Scope Z_scope.

Definition blank (w : list Z) : Prop := Forall (fun c => In c [32; 9; 10; 13]) w.

Definition digit (c : Z) : Prop := 48 <= c <= 57.

(** The content of a string and its text between the quotes *)
Inductive chars : list Z -> list Z -> Prop :=
| ch_end : chars [] []
| ch_plain c s t : 32 <= c -> c <> 34 -> c <> 92 -> chars s t -> chars (c :: s) (c :: t)
| ch_escape x e s t :
    In (x, e) [(34, 34); (92, 92); (47, 47); (98, 8); (102, 12); (110, 10); (114, 13); (116, 9)] ->
    chars s t -> chars (e :: s) (92 :: x :: t)
| ch_unicode a b c d n s t :
    hex4 a b c d = Some n -> ~ 55296 <= n <= 57343 -> chars s t ->
    chars (utf8_char n ++ s) (92 :: 117 :: a :: b :: c :: d :: t)
| ch_pair a b c d n a' b' c' d' m s t :
    hex4 a b c d = Some n -> 55296 <= n <= 56319 ->
    hex4 a' b' c' d' = Some m -> 56320 <= m <= 57343 -> chars s t ->
    chars (utf8_char (65536 + (n - 55296) * 1024 + (m - 56320)) ++ s)
      (92 :: 117 :: a :: b :: c :: d :: 92 :: 117 :: a' :: b' :: c' :: d' :: t).

(** Numbers: digits without leading zero, fraction, exponent *)
Definition integer_part (ds : list Z) : Prop :=
  ds <> [] /\ Forall digit ds /\ (forall c r, ds = 48 :: c :: r -> False).
Inductive fraction : list Z -> list Z -> Prop :=
| fr_none : fraction [] []
| fr_some ds : ds <> [] -> Forall digit ds -> fraction ds (46 :: ds).
Inductive exponent : option Z -> list Z -> Prop :=
| ex_none : exponent None []
| ex_plain e ds : In e [101; 69] -> ds <> [] -> Forall digit ds -> exponent (Some (digits_value ds)) (e :: ds)
| ex_plus e ds : In e [101; 69] -> ds <> [] -> Forall digit ds -> exponent (Some (digits_value ds)) (e :: 43 :: ds)
| ex_minus e ds : In e [101; 69] -> ds <> [] -> Forall digit ds -> exponent (Some (- digits_value ds)) (e :: 45 :: ds).
Definition number (neg : bool) (ints fracs : list Z) (exp : option Z) (t : list Z) : Prop :=
  exists tf te, integer_part ints /\ fraction fracs tf /\ exponent exp te /\
    t = ((if neg then [45] else []) ++ ints ++ tf ++ te)%list.

(** Values, the values of an array, the members of an object *)
Inductive denotes : json -> list Z -> Prop :=
| de_null : denotes JNull [110; 117; 108; 108]
| de_true : denotes (JBool true) [116; 114; 117; 101]
| de_false : denotes (JBool false) [102; 97; 108; 115; 101]
| de_number neg ints fracs exp t j : number neg ints fracs exp t -> number_value neg ints fracs exp = Some j -> denotes j t
| de_string s t : chars s t -> denotes (JStr s) (34 :: t ++ [34])
| de_array0 w : blank w -> denotes (JArr []) (91 :: w ++ [93])
| de_array js t : items js t -> denotes (JArr js) (91 :: t ++ [93])
| de_object0 w : blank w -> denotes (JObj []) (123 :: w ++ [125])
| de_object ms t : members ms t -> denotes (JObj ms) (123 :: t ++ [125])
with items : list json -> list Z -> Prop :=
| it_one w1 w2 j t : blank w1 -> blank w2 -> denotes j t -> items [j] (w1 ++ t ++ w2)
| it_more w1 w2 j t js r : blank w1 -> blank w2 -> denotes j t -> items js r -> items (j :: js) (w1 ++ t ++ w2 ++ 44 :: r)
with members : list (string * json) -> list Z -> Prop :=
| me_one w1 w2 w3 w4 x n j t :
    blank w1 -> blank w2 -> blank w3 -> blank w4 -> chars n x -> denotes j t ->
    members [(name_of_text n, j)] (w1 ++ 34 :: x ++ 34 :: w2 ++ 58 :: w3 ++ t ++ w4)
| me_more w1 w2 w3 w4 x n j t ms r :
    blank w1 -> blank w2 -> blank w3 -> blank w4 -> chars n x -> denotes j t -> members ms r ->
    members ((name_of_text n, j) :: ms) (w1 ++ 34 :: x ++ 34 :: w2 ++ 58 :: w3 ++ t ++ w4 ++ 44 :: r).

(** Arrays and objects around the innermost value *)
Fixpoint nesting (j : json) : nat :=
  match j with
  | JArr js => S (fold_right Nat.max O (map nesting js))
  | JObj ms => S (fold_right Nat.max O (map (fun m => nesting (snd m)) ms))
  | _ => O
  end.

(** What can be printed: numbers that fit, bytes, and floats that are read back. *)
Definition float_kept (n : Z) : Prop := read_number (show_f32 n) = Some (JFloat n, []).
Fixpoint printable (j : json) : Prop :=
  match j with
  | JInt n => - 2 ^ 63 <= n < two64
  | JFloat n => float_kept n
  | JStr s => Forall (fun c => 0 <= c) s
  | JArr js => fold_right and True (map printable js)
  | JObj ms => fold_right and True (map (fun m => printable (snd m)) ms)
  | _ => True
  end.

(** The floats of a document *)
Fixpoint tree_floats (j : json) : list Z :=
  match j with
  | JFloat n => [n]
  | JArr js => flat_map tree_floats js
  | JObj ms => flat_map (fun m => tree_floats (snd m)) ms
  | _ => []
  end.

(** Documents in memory: integers are i64 or u64, a float has 32 bits, strings and names are UTF-8. *)
Fixpoint tree_ok (j : json) : bool :=
  match j with
  | JInt n => (- 2 ^ 63 <=? n) && (n <? two64)
  | JFloat n => (0 <=? n) && (n <? 2 ^ 32)
  | JStr s => utf8_valid s
  | JArr js => forallb tree_ok js
  | JObj ms => forallb (fun m => utf8_valid (text_of (fst m)) && tree_ok (snd m)) ms
  | _ => true
  end.
