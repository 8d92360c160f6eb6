(** Notations for the unit tests of the repository: hexadecimal literals, decimal literals of
    f32, texts and the outcome of a call.  The files Tests*.v transcribe the tests as examples
    about the model.  They are tests of the model against values recorded by the authors of the
    code; no theorem depends on them. *)
From Coq Require Export String Ascii.
From Verif Require Import Bytes Float32.
Open Scope Z_scope.

Definition code (a : ascii) : Z := Z.of_nat (nat_of_ascii a).

Definition hex_digit (a : ascii) : option Z :=
  let c := code a in
  if (48 <=? c) && (c <=? 57) then Some (c - 48)
  else if (65 <=? c) && (c <=? 70) then Some (c - 55)
  else if (97 <=? c) && (c <=? 102) then Some (c - 87)
  else None.

Fixpoint nibbles (s : string) : list Z :=
  match s with
  | EmptyString => []
  | String a r => match hex_digit a with Some d => d :: nibbles r | None => nibbles r end
  end.
Fixpoint pairs (l : list Z) : list Z :=
  match l with
  | x :: y :: r => (16 * x + y) :: pairs r
  | _ => []
  end.
(** hexlit::hex! without its comments; everything that is not a digit is skipped. *)
Definition hex (s : string) : list Z := pairs (nibbles s).

(** The UTF-8 bytes of a literal. *)
Fixpoint text (s : string) : list Z :=
  match s with EmptyString => [] | String a r => code a :: text r end.

(** A decimal literal of f32, rounded to nearest.  [m] collects the digits, [d] counts those
    after the point. *)
Fixpoint decimal (s : string) (m d : Z) (point : bool) : Z * Z :=
  match s with
  | EmptyString => (m, d)
  | String a r =>
      let c := code a in
      if (48 <=? c) && (c <=? 57) then decimal r (10 * m + (c - 48)) (if point then d + 1 else d) point
      else decimal r m d (if c =? 46 then true else point)
  end.
Definition f32_ratio (neg : bool) (m d : Z) : Z :=
  bits_of_f32 match m, 10 ^ d with
              | Zpos p, Zpos q => div32 (S754_finite neg p 0) (S754_finite false q 0)
              | _, _ => S754_zero neg
              end.
Definition f (s : string) : Z :=
  match s with
  | String "-"%char r => let '(m, d) := decimal r 0 0 false in f32_ratio true m d
  | _ => let '(m, d) := decimal s 0 0 false in f32_ratio false m d
  end.

(** [r.unwrap()] is [x] and [p x] holds; the call returned an error. *)
Definition returns {A} (r : res A) (p : A -> Prop) : Prop := match r with Ok x => p x | _ => False end.
Definition fails {A} (r : res A) : Prop := match r with Err _ => True | _ => False end.

Example hex_reads : hex "cdcccc3e 0A_ff" = [205; 204; 204; 62; 10; 255].
Proof. reflexivity. Qed.
(** The patterns of 1.0, -0.75, 0.4, 8.74227, 3.4028235e38 and the smallest subnormal *)
Example f_reads :
  [f "1.0"; f "-0.75"; f "0.4"; f "8.74227"; f "340282350000000000000000000000000000000"; f "-0.0";
   f "0.0000000000000000000000000000000000000000000014"] =
  [1065353216; 3208642560; 1053609165; 1091297367; 2139095039; 2147483648; 1].
Proof. vm_compute. reflexivity. Qed.
