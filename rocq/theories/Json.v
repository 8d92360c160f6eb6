(** JSON documents as serde and serde_json read and write the types of ssbh_lib
    (feature serde_hex, ssbh_lib_json/Cargo.toml:8).
    Paths below are relative to /repo/ssbh_lib/src.

    serde, serde_json, hex and modular-bitfield are not part of the repository: what is
    modelled here is the shape the #[derive(Serialize, Deserialize)] and #[serde(...)]
    attributes of the repository select.  A document is its tree; the layer of text (white
    space, escapes, decimal digits) is in JsonText.v. *)
From Coq Require Export String.
From Verif Require Import Bytes Ssbh Formats Strings Float32.

(** ** Documents

    Strings are their UTF-8 bytes.  [JInt] is a number written without fraction and exponent
    in the range of i64 and u64.  [JFloat] is any other number, given by the bits of the
    binary32 number it denotes: serde_json prints an f32 with the shortest digits that
    determine it and reads it back as that f32. *)
Inductive json : Type :=
| JNull
| JBool (b : bool)
| JInt (n : Z)
| JFloat (bits : Z)
| JStr (text : list Z)
| JArr (js : list json)
| JObj (ms : list (string * json)).

(** ** Schemas: the serde view of a Rust type *)
Inductive schema : Type :=
(* u8..u64, i16, i32 *)
| SInt (w : Z) (signed : bool)
(* f32 *)
| SF32
(* fieldless enum: discriminants and variant names *)
| SName (tags : list (Z * string))
(* #[bitfield] struct of [w] bytes, deriving Serialize after the macro has replaced its
   fields by [bytes: [u8; w]] *)
| SBits (w : Z)
(* () *)
| SUnit
(* struct or struct variant: field names *)
| SStruct (fs : list (string * schema))
(* newtype struct or newtype variant *)
| SWrap (s : schema)
(* RelPtr64<T>, a newtype of Option<T>: lib.rs:407-411 *)
| SRel (s : schema)
(* Ptr<P, T>, transparent over Option<T>: lib.rs:331-339 *)
| SAbs (s : schema)
(* SsbhArray<T>, transparent over Vec<T>: arrays.rs:138-144; Vec<T> *)
| SArr (s : schema)
(* SsbhByteBuffer, a hexadecimal string: arrays.rs:21-34, 91-107 *)
| SBuf
(* CString<N>, a string: strings.rs:25-39, 77-96 *)
| SCStr
(* SsbhEnum64<T>, the struct [{data: RelPtr64<T>}] with the variants of T: enums.rs:57-64 *)
| SCase (vs : list (Z * string * schema))
(* [T; n] *)
| SFix (n : Z) (s : schema)
(* String *)
| SText
(* bool, as 0 or 1 *)
| SBool
(* enum with one field in each variant: discriminants, names and contents *)
| SEnum (vs : list (Z * string * schema))
(* field with #[serde(default)], or of a struct with this attribute: the default; with [nul]
   the field is read as an Option and null stands for the default *)
| SDef (nul : bool) (d : val) (s : schema).

(** ** Text *)

(** The bytes of a name. *)
Fixpoint text_of (s : string) : list Z :=
  match s with
  | EmptyString => []
  | String.String a r => Z.of_N (Ascii.N_of_ascii a) :: text_of r
  end.

Fixpoint text_eqb (a b : list Z) : bool :=
  match a, b with
  | [], [] => true
  | x :: a', y :: b' => (x =? y) && text_eqb a' b'
  | _, _ => false
  end.

(** hex::encode: two lower case digits for each byte *)
Definition hex_digit (n : Z) : Z := if n <? 10 then 48 + n else 87 + n.
Definition hex_encode (bs : list Z) : list Z :=
  flat_map (fun b => [hex_digit (b / 16); hex_digit (b mod 16)]) bs.

(** hex::decode: digits of either case, an even number of them *)
Definition hex_value (c : Z) : option Z :=
  if (48 <=? c) && (c <=? 57) then Some (c - 48)
  else if (97 <=? c) && (c <=? 102) then Some (c - 87)
  else if (65 <=? c) && (c <=? 70) then Some (c - 55)
  else None.
Fixpoint hex_decode (cs : list Z) : option (list Z) :=
  match cs with
  | [] => Some []
  | [_] => None
  | a :: b :: r =>
      match hex_value a, hex_value b, hex_decode r with
      | Some x, Some y, Some bs => Some (16 * x + y :: bs)
      | _, _, _ => None
      end
  end.

(** ** Writing *)

(** serialize_str_bytes, strings.rs:77-84 *)
Definition cstr_json (bs : list Z) : json :=
  JStr (match cstring_to_str (cstring_from_bytes bs) with Some s => s | None => [] end).

(** A number of [w] bytes with the bit pattern [n] *)
Definition int_json (w : Z) (signed : bool) (n : Z) : json :=
  JInt (if signed && (256 ^ w / 2 <=? n) then n - 256 ^ w else n).

(** serde_json prints null for infinities and NaN. *)
Definition f32_finite (n : Z) : bool := negb ((n / 2 ^ 23) mod 2 ^ 8 =? 255).
Definition f32_json (n : Z) : json := if f32_finite n then JFloat n else JNull.

Definition bits_json (w n : Z) : json :=
  JObj [("bytes"%string, JArr (map JInt (le_bytes (Z.to_nat w) n)))].

Fixpoint name_of (n : Z) (tags : list (Z * string)) : option string :=
  match tags with
  | [] => None
  | (t, s) :: r => if n =? t then Some s else name_of n r
  end.

Definition map2 {A B C} (f : A -> B -> C) : list A -> list B -> list C :=
  fix go (l : list A) (m : list B) : list C :=
    match l, m with
    | a :: l', b :: m' => f a b :: go l' m'
    | _, _ => []
    end.

Definition bool_json (n : Z) : json := JBool (negb (n =? 0)).

(** The derived Serialize implementations.  [JNull] stands in where the value does not have
    the type of the schema, which cannot happen in Rust. *)
Fixpoint to_json (s : schema) (v : val) : json :=
  match s, v with
  | SInt w sg, VInt n => int_json w sg n
  | SF32, VInt n => f32_json n
  | SName tags, VInt n =>
      match name_of n tags with Some x => JStr (text_of x) | None => JNull end
  | SBits w, VInt n => bits_json w n
  | SStruct fs, VStruct vs => JObj (map2 (fun p v' => (fst p, to_json (snd p) v')) fs vs)
  | SWrap s', VStruct [v'] => to_json s' v'
  | SRel s', VPtr (Some v') | SAbs s', VPtr (Some v') => to_json s' v'
  | SArr s', VArr vs | SFix _ s', VArr vs => JArr (map (to_json s') vs)
  | SBuf, VBytes bs => JStr (hex_encode bs)
  | SCStr, VBytes bs => cstr_json bs
  | SCase _, VPtr None => JObj [("data"%string, JNull)]
  | SCase vs, VPtr (Some (VCase tag (VStruct [v']))) =>
      JObj [("data"%string,
             (fix go (vs : list (Z * string * schema)) : json :=
                match vs with
                | [] => JNull
                | (t, x, s') :: r => if tag =? t then JObj [(x, to_json s' v')] else go r
                end) vs)]
  | SText, VBytes bs => JStr bs
  | SBool, VInt n => bool_json n
  | SEnum vs, VCase tag v' =>
      (fix go (vs : list (Z * string * schema)) : json :=
         match vs with
         | [] => JNull
         | (t, x, s') :: r => if tag =? t then JObj [(x, to_json s' v')] else go r
         end) vs
  | SDef _ _ s', v' => to_json s' v'
  | _, _ => JNull
  end.

(** ** Reading *)

(** Numbers.  Rust rejects a number outside of the range of the type, and a number with
    fraction or exponent for an integer type.  An integer is converted for an f32. *)
Definition json_int (w : Z) (signed : bool) (j : json) : option val :=
  match j with
  | JInt n =>
      if signed then
        if (- (256 ^ w / 2) <=? n) && (n <? 256 ^ w / 2)
        then Some (VInt (if n <? 0 then n + 256 ^ w else n)) else None
      else if (0 <=? n) && (n <? 256 ^ w) then Some (VInt n) else None
  | _ => None
  end.
Definition json_f32 (j : json) : option val :=
  match j with
  | JFloat n => Some (VInt n)
  | JInt n => Some (VInt (bits_of_f32 (int_to_f32 n)))
  | _ => None
  end.

(** A member of an object: [None] when the name appears more than once, which the derived
    visitors reject. *)
Fixpoint member (x : string) (ms : list (string * json)) : option (option json) :=
  match ms with
  | [] => Some None
  | (y, j) :: r =>
      if String.eqb x y then
        match member x r with Some None => Some (Some j) | _ => None end
      else member x r
  end.

Fixpoint opt_all {A} (l : list (option A)) : option (list A) :=
  match l with
  | [] => Some []
  | Some a :: r => match opt_all r with Some b => Some (a :: b) | None => None end
  | None :: _ => None
  end.

(** The derived visitor of a struct with named fields: an object with a member for each
    field, other members are ignored, or an array with the fields in order.  Each field is
    given by its name, the value used when the member is missing, and its reader.  A missing
    Option is None in an object only, a default is also used at the end of an array. *)
Definition field_reader : Type := string * option (bool * val) * (json -> option val).
Definition absent (in_array : bool) (f : field_reader) : option val :=
  match snd (fst f) with
  | Some (always, v) => if always || negb in_array then Some v else None
  | None => None
  end.
Definition json_seq : list field_reader -> list json -> option (list val) :=
  fix go (fs : list field_reader) (js : list json) : option (list val) :=
    match fs, js with
    | [], [] => Some []
    | [], _ :: _ => None
    | f :: fr, [] =>
        match absent true f, go fr [] with Some v, Some vs => Some (v :: vs) | _, _ => None end
    | f :: fr, j :: jr =>
        match snd f j, go fr jr with Some v, Some vs => Some (v :: vs) | _, _ => None end
    end.
Definition json_struct (fs : list field_reader) (j : json) : option val :=
  match j with
  | JObj ms =>
      option_map VStruct
        (opt_all (map (fun f : field_reader =>
                    match member (fst (fst f)) ms with
                    | Some (Some j') => snd f j'
                    | Some None => absent false f
                    | None => None
                    end) fs))
  | JArr js => option_map VStruct (json_seq fs js)
  | _ => None
  end.

(** The derived visitor of an enum: the name of the variant alone, or an object with the
    name as its only member.  Each variant reads its content. *)
Fixpoint variant_of {A} (x : list Z) (vs : list (string * (option json -> option A))) :
    option (option json -> option A) :=
  match vs with
  | [] => None
  | (y, f) :: r => if text_eqb x (text_of y) then Some f else variant_of x r
  end.
Definition json_variant {A} (vs : list (string * (option json -> option A))) (j : json) : option A :=
  match j with
  | JStr x => match variant_of x vs with Some f => f None | None => None end
  | JObj [(x, j')] =>
      match variant_of (text_of x) vs with Some f => f (Some j') | None => None end
  | _ => None
  end.
(** A variant without content, and a variant with one field *)
Definition unit_variant {A} (a : A) (o : option json) : option A :=
  match o with None | Some JNull => Some a | _ => None end.
Definition newtype_variant {A} (f : json -> option A) (o : option json) : option A :=
  match o with Some j => f j | None => None end.

Definition json_list (f : json -> option val) (j : json) : option (list val) :=
  match j with JArr js => opt_all (map f js) | _ => None end.

(** The bit field struct: [bytes: [u8; w]] *)
Definition json_bytes (w : Z) (j : json) : option val :=
  match json_list (json_int 1 false) j with
  | Some vs => if zlen vs =? w then Some (VArr vs) else None
  | None => None
  end.
Definition int_of_val (v : val) : Z := match v with VInt n => n | _ => 0 end.
Definition json_bits (w : Z) (j : json) : option val :=
  match json_struct [("bytes"%string, None, json_bytes w)] j with
  | Some (VStruct [VArr vs]) => Some (VInt (le_val (map int_of_val vs)))
  | _ => None
  end.

(** Option<T>: null is None. *)
Definition json_ptr (f : json -> option val) (j : json) : option val :=
  match j with
  | JNull => Some (VPtr None)
  | _ => match f j with Some v => Some (VPtr (Some v)) | None => None end
  end.

(** serde's missing_field: a missing Option is None.  Ptr is transparent and behaves like
    the Option, the newtype RelPtr64 does not. *)
Definition missing (s : schema) : option (bool * val) :=
  match s with
  | SAbs _ => Some (false, VPtr None)
  | SDef _ d _ => Some (true, d)
  | _ => None
  end.

(** The derived Deserialize implementations. *)
Fixpoint from_json (s : schema) : json -> option val :=
  match s with
  | SInt w sg => json_int w sg
  | SF32 => json_f32
  | SName tags =>
      json_variant (map (fun p => (snd p, unit_variant (VInt (fst p)))) tags)
  | SBits w => json_bits w
  | SUnit => fun j => match j with JNull => Some (VStruct []) | _ => None end
  | SStruct fs => json_struct (map (fun p => (fst p, missing (snd p), from_json (snd p))) fs)
  | SWrap s' => fun j => match from_json s' j with Some v => Some (VStruct [v]) | None => None end
  | SRel s' | SAbs s' => json_ptr (from_json s')
  | SArr s' => fun j => option_map VArr (json_list (from_json s') j)
  | SFix n s' => fun j =>
      match json_list (from_json s') j with
      | Some vs => if zlen vs =? n then Some (VArr vs) else None
      | None => None
      end
  | SBuf => fun j => match j with JStr t => option_map VBytes (hex_decode t) | _ => None end
  (* deserialize_str_bytes, strings.rs:86-95: no check for zero bytes *)
  | SCStr => fun j => match j with JStr t => Some (VBytes t) | _ => None end
  | SCase vs => fun j =>
      match
        json_struct
          [("data"%string, None,
            json_ptr
              (json_variant
                 (map (fun p => (snd (fst p),
                                 newtype_variant (fun j' =>
                                   match from_json (snd p) j' with
                                   | Some v => Some (VCase (fst (fst p)) (VStruct [v]))
                                   | None => None
                                   end))) vs)))] j
      with
      | Some (VStruct [v]) => Some v
      | _ => None
      end
  | SText => fun j => match j with JStr t => Some (VBytes t) | _ => None end
  | SBool => fun j => match j with JBool b => Some (VInt (Z.b2z b)) | _ => None end
  | SEnum vs =>
      json_variant
        (map (fun p => (snd (fst p),
                        newtype_variant (fun j =>
                          match from_json (snd p) j with
                          | Some v => Some (VCase (fst (fst p)) v)
                          | None => None
                          end))) vs)
  | SDef nul d s' => fun j =>
      match j with
      | JNull => if nul then Some d else from_json s' j
      | _ => from_json s' j
      end
  end.
