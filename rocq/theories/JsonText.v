(** The text of JSON documents: serde_json::to_string_pretty and serde_json::from_str, as called in
    /repo/ssbh_lib_json/src/main.rs:43-49, 59-82 and /repo/ssbh_data_json/src/main.rs:27, 44.

    serde_json and ryu are not part of the repository; the functions below follow their sources
    with default features.  A document is parsed into its tree first ([json], Json.v), the types
    are read from the tree.  serde_json does both at once, which differs for members no type
    asks for: there it does not limit the nesting, check surrogates or compute numbers. *)
From Coq Require Import Ascii.
From Verif Require Import Bytes Strings Float32 Json.
Open Scope Z_scope.

(** ** Numbers *)

(** itoa *)
Fixpoint dec (fuel : nat) (n : Z) (acc : list Z) : list Z :=
  match fuel with
  | O => acc
  | S k => if n <? 10 then 48 + n :: acc else dec k (n / 10) (48 + n mod 10 :: acc)
  end.
Definition digits (n : Z) : list Z := dec (S (Z.to_nat (Z.log2 n))) n [].
Definition show_int (n : Z) : list Z := if n <? 0 then 45 :: digits (- n) else digits n.

(** ryu: the shortest decimal [m * 10^k] that is rounded to the number, of these the closest
    to it.  The number is [m4 * 2^e], its neighbours are halfway at [lo] and [hi]. *)
Definition round_div (a b : Z) : Z :=
  let q := a / b in let r := a mod b in
  if (2 * r <? b) || (2 * r =? b) && Z.even q then q else q + 1.

Definition shortest_at (even : bool) (lo m4 hi e k : Z) : option Z :=
  let d := 10 ^ Z.max k 0 * 2 ^ Z.max (- e) 0 in
  let n (x : Z) := x * 2 ^ Z.max e 0 * 10 ^ Z.max (- k) 0 in
  let inside (m : Z) :=
    if even then (n lo <=? m * d) && (m * d <=? n hi) else (n lo <? m * d) && (m * d <? n hi) in
  let m := round_div (n m4) d in
  if (0 <? m) && inside m then Some m else if inside (m + 1) then Some (m + 1) else None.

Fixpoint shortest_from (fuel : nat) (even : bool) (lo m4 hi e k : Z) : Z * Z :=
  match fuel with
  | O => (m4, e)
  | S f =>
      match shortest_at even lo m4 hi e k with
      | Some m => (m, k)
      | None => shortest_from f even lo m4 hi e (k - 1)
      end
  end.

(** The decimal of a finite f32 that is not zero; exponents from 38 to -45 occur, and up to
    nine digits. *)
Definition shortest (n : Z) : Z * Z :=
  let e := (n / 2 ^ 23) mod 2 ^ 8 in
  let m := n mod 2 ^ 23 in
  let (m, e) := if e =? 0 then (m, -149) else (m + 2 ^ 23, e - 150) in
  let lo := if (m =? 2 ^ 23) && (-149 <? e) then 4 * m - 1 else 4 * m - 2 in
  shortest_from 100 (Z.even m) lo (4 * m) (4 * m + 2) (e - 2) 39.

Definition show_exp (e : Z) : list Z := 101 :: show_int e.
Definition zeros_text (n : Z) : list Z := repeat 48 (Z.to_nat n).

(** ryu::pretty::format32 *)
Definition show_f32 (n : Z) : list Z :=
  let sign := if 2 ^ 31 <=? n then [45] else [] in
  if n mod 2 ^ 31 =? 0 then sign ++ [48; 46; 48]
  else
    let (m, k) := shortest n in
    let ds := digits m in
    let kk := zlen ds + k in
    sign ++
    (if (0 <=? k) && (kk <=? 13) then ds ++ zeros_text k ++ [46; 48]
     else if (0 <? kk) && (kk <=? 13) then firstn (Z.to_nat kk) ds ++ 46 :: skipn (Z.to_nat kk) ds
     else if (-6 <? kk) && (kk <=? 0) then [48; 46] ++ zeros_text (- kk) ++ ds
     else match ds with
          | [d] => d :: show_exp (kk - 1)
          | d :: r => d :: 46 :: r ++ show_exp (kk - 1)
          | [] => []
          end).

(** ** Writing *)

(** serde_json's ESCAPE table *)
Definition show_char (c : Z) : list Z :=
  if c =? 34 then [92; 34]
  else if c =? 92 then [92; 92]
  else if c =? 8 then [92; 98]
  else if c =? 9 then [92; 116]
  else if c =? 10 then [92; 110]
  else if c =? 12 then [92; 102]
  else if c =? 13 then [92; 114]
  else if c <? 32 then [92; 117; 48; 48; hex_digit (c / 16); hex_digit (c mod 16)]
  else [c].
Definition show_str (s : list Z) : list Z := 34 :: flat_map show_char s ++ [34].

(** A line break with the indentation of PrettyFormatter *)
Definition line (d : nat) : list Z := 10 :: repeat 32 (2 * d).
Fixpoint entries (d : nat) (xs : list (list Z)) : list Z :=
  match xs with
  | [] => []
  | [x] => line d ++ x
  | x :: r => line d ++ x ++ 44 :: entries d r
  end.
Definition block (op cl : Z) (d : nat) (xs : list (list Z)) : list Z :=
  match xs with
  | [] => [op; cl]
  | _ => op :: entries (S d) xs ++ line d ++ [cl]
  end.

(** to_string_pretty of a value inside [d] arrays and objects *)
Fixpoint show (d : nat) (j : json) : list Z :=
  match j with
  | JNull => [110; 117; 108; 108]
  | JBool true => [116; 114; 117; 101]
  | JBool false => [102; 97; 108; 115; 101]
  | JInt n => show_int n
  | JFloat n => show_f32 n
  | JStr s => show_str s
  | JArr js => block 91 93 d (map (show (S d)) js)
  | JObj ms => block 123 125 d (map (fun m => show_str (text_of (fst m)) ++ 58 :: 32 :: show (S d) (snd m)) ms)
  end.
Definition to_text (j : json) : list Z := show 0 j.

(** ** Reading *)

Definition is_ws (c : Z) : bool := (c =? 32) || (c =? 10) || (c =? 9) || (c =? 13).
Fixpoint skip_ws (t : list Z) : list Z :=
  match t with
  | c :: r => if is_ws c then skip_ws r else t
  | [] => []
  end.

Definition is_digit (c : Z) : bool := (48 <=? c) && (c <=? 57).
Fixpoint span_digits (t : list Z) : list Z * list Z :=
  match t with
  | c :: r => if is_digit c then let (a, b) := span_digits r in (c :: a, b) else ([], t)
  | [] => ([], [])
  end.
Definition digits_value (ds : list Z) : Z := fold_left (fun a c => 10 * a + (c - 48)) ds 0.

(** overflow!(a * 10 + b, u64::MAX) *)
Definition overflows (a b : Z) : bool := two64 <=? 10 * a + b.

(** The digits before the point: parse_integer and parse_long_integer *)
Fixpoint long_integer (ds : list Z) (sig : Z) (over : bool) (exp : Z) : Z * Z :=
  match ds with
  | [] => (sig, exp)
  | c :: r =>
      if over || overflows sig (c - 48) then long_integer r sig true (exp + 1)
      else long_integer r (10 * sig + (c - 48)) false exp
  end.
(** The digits after the point: parse_decimal and parse_decimal_overflow *)
Fixpoint long_decimal (ds : list Z) (sig exp : Z) : Z * Z :=
  match ds with
  | [] => (sig, exp)
  | c :: r => if overflows sig (c - 48) then (sig, exp) else long_decimal r (10 * sig + (c - 48)) (exp - 1)
  end.

(** f64_from_parts, for a number without sign; POW10 has the powers up to 308 *)
Definition pow10 (e : Z) : spec_float := int_to_f64 (10 ^ e).
Fixpoint f64_parts (fuel : nat) (f : spec_float) (exp : Z) : option spec_float :=
  match f with
  | S754_zero _ => Some f
  | _ =>
      if Z.abs exp <=? 308 then
        if 0 <=? exp then
          match mul64 f (pow10 exp) with S754_infinity _ => None | g => Some g end
        else Some (div64 f (pow10 (- exp)))
      else if 0 <=? exp then None
      else match fuel with
           | O => Some (S754_zero false)
           | S k => f64_parts k (div64 f (pow10 308)) (exp + 308)
           end
  end.

(** A number with fraction or exponent, or too long for an integer: f64, then "as f32" *)
Definition float_value (neg : bool) (sig exp : Z) : option json :=
  match f64_parts 10 (int_to_f64 sig) exp with
  | Some f => Some (JFloat (bits_of_f32 (convert prec32 emax32 (if neg then SFopp f else f))))
  | None => None
  end.

Definition number_value (neg : bool) (ints fracs : list Z) (exp : option Z) : option json :=
  let (sig, e) := long_integer ints 0 false 0 in
  match fracs, exp with
  | [], None =>
      if neg then
        if (e =? 0) && (0 <? sig) && (sig <=? 2 ^ 63) then Some (JInt (- sig)) else float_value true sig e
      else if e =? 0 then Some (JInt sig) else float_value false sig e
  | _, _ =>
      let (sig, e) := long_decimal fracs sig e in
      float_value neg sig (e + match exp with Some x => x | None => 0 end)
  end.

(** The syntax of numbers: an optional sign, digits without leading zero, fraction, exponent *)
Definition read_exp (t : list Z) : option (option Z * list Z) :=
  match t with
  | c :: r =>
      if (c =? 101) || (c =? 69) then
        let '(neg, r) := match r with
                         | s :: r' => if s =? 45 then (true, r') else if s =? 43 then (false, r') else (false, r)
                         | [] => (false, r)
                         end in
        match span_digits r with
        | ([], _) => None
        | (ds, r) => Some (Some (if neg then - digits_value ds else digits_value ds), r)
        end
      else Some (None, t)
  | [] => Some (None, t)
  end.
Definition read_frac (t : list Z) : option (list Z * list Z) :=
  match t with
  | c :: r =>
      if c =? 46 then match span_digits r with ([], _) => None | (ds, r) => Some (ds, r) end
      else Some ([], t)
  | [] => Some ([], t)
  end.
Definition read_number (t : list Z) : option (json * list Z) :=
  let '(neg, t) := match t with c :: r => if c =? 45 then (true, r) else (false, t) | [] => (false, t) end in
  match span_digits t with
  | ([], _) => None
  | (c :: ds, r) =>
      if (c =? 48) && match ds with [] => false | _ => true end then None
      else
        match read_frac r with
        | Some (fracs, r) =>
            match read_exp r with
            | Some (exp, r) => match number_value neg (c :: ds) fracs exp with Some j => Some (j, r) | None => None end
            | None => None
            end
        | None => None
        end
  end.

(** Strings *)
Definition utf8_char (c : Z) : list Z :=
  if c <? 128 then [c]
  else if c <? 2048 then [192 + c / 64; 128 + c mod 64]
  else if c <? 65536 then [224 + c / 4096; 128 + c / 64 mod 64; 128 + c mod 64]
  else [240 + c / 262144; 128 + c / 4096 mod 64; 128 + c / 64 mod 64; 128 + c mod 64].

Definition hex4 (a b c d : Z) : option Z :=
  match hex_value a, hex_value b, hex_value c, hex_value d with
  | Some a, Some b, Some c, Some d => Some (((a * 16 + b) * 16 + c) * 16 + d)
  | _, _, _, _ => None
  end.
Definition simple_escape (c : Z) : option Z :=
  if c =? 34 then Some 34 else if c =? 92 then Some 92 else if c =? 47 then Some 47
  else if c =? 98 then Some 8 else if c =? 102 then Some 12 else if c =? 110 then Some 10
  else if c =? 114 then Some 13 else if c =? 116 then Some 9 else None.

(** The rest of a string after the opening quote *)
Fixpoint read_str (t : list Z) : option (list Z * list Z) :=
  match t with
  | [] => None
  | c :: r =>
      if c =? 34 then Some ([], r)
      else if c =? 92 then
        match r with
        | x :: r =>
            if x =? 117 then
              match r with
              | a :: b :: c :: d :: r =>
                  match hex4 a b c d with
                  | Some n =>
                      if (56320 <=? n) && (n <=? 57343) then None
                      else if (55296 <=? n) && (n <=? 56319) then
                        match r with
                        | y :: z :: a :: b :: c :: d :: r =>
                            if (y =? 92) && (z =? 117) then
                              match hex4 a b c d with
                              | Some m =>
                                  if (56320 <=? m) && (m <=? 57343) then
                                    match read_str r with
                                    | Some (s, r) => Some (utf8_char (65536 + (n - 55296) * 1024 + (m - 56320)) ++ s, r)
                                    | None => None
                                    end
                                  else None
                              | None => None
                              end
                            else None
                        | _ => None
                        end
                      else match read_str r with Some (s, r) => Some (utf8_char n ++ s, r) | None => None end
                  | None => None
                  end
              | _ => None
              end
            else match simple_escape x, read_str r with
                 | Some e, Some (s, r) => Some (e :: s, r)
                 | _, _ => None
                 end
        | [] => None
        end
      else if c <? 32 then None
      else match read_str r with Some (s, r) => Some (c :: s, r) | None => None end
  end.

(** The bytes of a name: inverse of [text_of] *)
Fixpoint name_of_text (t : list Z) : string :=
  match t with
  | [] => EmptyString
  | c :: r => String.String (ascii_of_N (Z.to_N c)) (name_of_text r)
  end.

Fixpoint strip (p t : list Z) : option (list Z) :=
  match p, t with
  | [], _ => Some t
  | x :: p', y :: t' => if x =? y then strip p' t' else None
  | _, [] => None
  end.

(** A value, with white space before it; [k]: remaining_depth *)
Fixpoint read_value (fuel : nat) (k : nat) (t : list Z) : option (json * list Z) :=
  match fuel with
  | O => None
  | S f =>
      match skip_ws t with
      | [] => None
      | c :: r =>
          if c =? 110 then match strip [117; 108; 108] r with Some r => Some (JNull, r) | None => None end
          else if c =? 116 then match strip [114; 117; 101] r with Some r => Some (JBool true, r) | None => None end
          else if c =? 102 then match strip [97; 108; 115; 101] r with Some r => Some (JBool false, r) | None => None end
          else if c =? 34 then match read_str r with Some (s, r) => Some (JStr s, r) | None => None end
          else if c =? 91 then
            match k with
            | S (S k') =>
                match skip_ws r with
                | c :: r' =>
                    if c =? 93 then Some (JArr [], r')
                    else match read_items f (S k') r with Some (js, r) => Some (JArr js, r) | None => None end
                | [] => None
                end
            | _ => None
            end
          else if c =? 123 then
            match k with
            | S (S k') =>
                match skip_ws r with
                | c :: r' =>
                    if c =? 125 then Some (JObj [], r')
                    else match read_members f (S k') r with Some (ms, r) => Some (JObj ms, r) | None => None end
                | [] => None
                end
            | _ => None
            end
          else if (c =? 45) || is_digit c then read_number (c :: r)
          else None
      end
  end
(** The values of an array up to the bracket *)
with read_items (fuel : nat) (k : nat) (t : list Z) : option (list json * list Z) :=
  match fuel with
  | O => None
  | S f =>
      match read_value f k t with
      | Some (j, r) =>
          match skip_ws r with
          | c :: r =>
              if c =? 44 then match read_items f k r with Some (js, r) => Some (j :: js, r) | None => None end
              else if c =? 93 then Some ([j], r)
              else None
          | [] => None
          end
      | None => None
      end
  end
(** The members of an object up to the brace *)
with read_members (fuel : nat) (k : nat) (t : list Z) : option (list (string * json) * list Z) :=
  match fuel with
  | O => None
  | S f =>
      match skip_ws t with
      | c :: r =>
          if c =? 34 then
            match read_str r with
            | Some (x, r) =>
                match skip_ws r with
                | c :: r =>
                    if c =? 58 then
                      match read_value f k r with
                      | Some (j, r) =>
                          match skip_ws r with
                          | c :: r =>
                              if c =? 44 then
                                match read_members f k r with
                                | Some (ms, r) => Some ((name_of_text x, j) :: ms, r)
                                | None => None
                                end
                              else if c =? 125 then Some ([(name_of_text x, j)], r)
                              else None
                          | [] => None
                          end
                      | None => None
                      end
                    else None
                | [] => None
                end
            | None => None
            end
          else None
      | [] => None
      end
  end.

(** serde_json::from_str: one value, white space around it *)
Definition from_text (t : list Z) : option json :=
  match read_value (S (2 * List.length t)) 128 t with
  | Some (j, r) => match skip_ws r with [] => Some j | _ => None end
  | None => None
  end.
