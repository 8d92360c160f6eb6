(** IEEE 754 arithmetic as used by the Rust types f32 and f64.

    Values of type f32 are carried around as their 32 bit patterns, so that moving them
    loses nothing.  Arithmetic goes through the standard library's [spec_float], whose
    operations round to nearest even; a result that is not a number is given the pattern
    0x7fc00000 (Rust leaves sign and payload of a computed NaN open). *)
From Coq Require Export SpecFloat.
From Verif Require Import Bytes.

Notation f32bits := Z (only parsing).

Definition prec32 := 24.
Definition emax32 := 128.
Definition prec64 := 53.
Definition emax64 := 1024.

(** f32::from_bits *)
Definition f32_of (x : Z) : spec_float :=
  let s := 2 ^ 31 <=? x in
  let e := (x / 2 ^ 23) mod 2 ^ 8 in
  let m := x mod 2 ^ 23 in
  if e =? 0 then match m with Zpos p => S754_finite s p (-149) | _ => S754_zero s end
  else if e =? 255 then (if m =? 0 then S754_infinity s else S754_nan)
  else match m + 2 ^ 23 with Zpos p => S754_finite s p (e - 150) | _ => S754_nan end.

(** f32::to_bits *)
Definition bits_of_f32 (f : spec_float) : Z :=
  let sign (s : bool) := if s then 2 ^ 31 else 0 in
  match f with
  | S754_zero s => sign s
  | S754_infinity s => sign s + 255 * 2 ^ 23
  | S754_nan => 255 * 2 ^ 23 + 2 ^ 22
  | S754_finite s m e =>
      if Zpos m <? 2 ^ 23 then sign s + Zpos m
      else sign s + (e + 150) * 2 ^ 23 + (Zpos m - 2 ^ 23)
  end.

(** Operators on f32 *)
Definition add32 := SFadd prec32 emax32.
Definition sub32 := SFsub prec32 emax32.
Definition mul32 := SFmul prec32 emax32.
Definition div32 := SFdiv prec32 emax32.
Definition sqrt32 := SFsqrt prec32 emax32.
(** Operators on f64 *)
Definition add64 := SFadd prec64 emax64.
Definition sub64 := SFsub prec64 emax64.
Definition mul64 := SFmul prec64 emax64.
Definition div64 := SFdiv prec64 emax64.

(** An integer as f32 or f64: rounds to nearest even *)
Definition int_to_f32 (n : Z) : spec_float := binary_normalize prec32 emax32 n 0 false.
Definition int_to_f64 (n : Z) : spec_float := binary_normalize prec64 emax64 n 0 false.

(** f32 as f64 (exact) and f64 as f32 (rounds to nearest even) *)
Definition convert (prec emax : Z) (f : spec_float) : spec_float :=
  match f with
  | S754_finite s m e => binary_normalize prec emax (cond_Zopp s (Zpos m)) e s
  | _ => f
  end.
Definition f32_to_f64 := convert prec64 emax64.
Definition f64_to_f32 := convert prec32 emax32.

(** f32 as u32: truncates towards zero, saturates, NaN becomes 0 *)
Definition f32_to_u32 (f : spec_float) : Z :=
  match f with
  | S754_zero _ | S754_nan => 0
  | S754_infinity s => if s then 0 else 2 ^ 32 - 1
  | S754_finite true _ _ => 0
  | S754_finite false m e => Z.min (2 ^ 32 - 1) (Z.shiftl (Zpos m) e)
  end.

(** ** Comparisons on bit patterns *)
Definition f32_eqb (x y : Z) : bool := SFeqb (f32_of x) (f32_of y).
Definition f32_ltb (x y : Z) : bool := SFltb (f32_of x) (f32_of y).
Definition f32_leb (x y : Z) : bool := SFleb (f32_of x) (f32_of y).
Definition is_nan (x : Z) : bool := match f32_of x with S754_nan => true | _ => false end.
(** f32::is_sign_negative *)
Definition sign_negative (x : Z) : bool := 2 ^ 31 <=? x.

(** f32::min and f32::max: the other operand if one is NaN.  Rust leaves open which of two
    zeros with different signs is returned; here it is the first. *)
Definition f32_min (x y : Z) : Z :=
  if is_nan x then y else if is_nan y then x else if f32_ltb y x then y else x.
Definition f32_max (x y : Z) : Z :=
  if is_nan x then y else if is_nan y then x else if f32_ltb x y then y else x.

(** [values.copied().reduce(f)] *)
Definition reduce {A} (f : A -> A -> A) (l : list A) : option A :=
  match l with [] => None | x :: r => Some (fold_left f r x) end.
