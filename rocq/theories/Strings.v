(** Strings: conversions between text and stored strings.
    Paths below are relative to /repo/ssbh_lib/src. *)
From Verif Require Import Bytes Ssbh Formats.

(** CString::from_bytes, strings.rs:42-44; also From<&str>, From<String> and FromStr
    (strings.rs:105-129), which pass the UTF-8 bytes of the text. *)
Fixpoint cstring_from_bytes (bs : list Z) : list Z :=
  match bs with
  | [] => []
  | x :: r => if x =? 0 then [] else x :: cstring_from_bytes r
  end.

(** SsbhStringN::from_bytes, strings.rs:160-162, as a value of the descriptor [SsbhStringN n]. *)
Definition ssbh_string (bs : list Z) : val :=
  VStruct [VPtr (Some (VBytes (cstring_from_bytes bs)))].

(** std::str::from_utf8: the byte sequences accepted as UTF-8 (Unicode 15, table 3-7). *)
Definition cont (x : Z) : bool := (128 <=? x) && (x <=? 191).

Fixpoint utf8_valid (bs : list Z) : bool :=
  match bs with
  | [] => true
  | a :: r =>
      if a <=? 127 then (0 <=? a) && utf8_valid r
      else if (194 <=? a) && (a <=? 223) then
        match r with b :: r1 => cont b && utf8_valid r1 | _ => false end
      else if (224 <=? a) && (a <=? 239) then
        match r with
        | b :: c :: r2 =>
            (if a =? 224 then (160 <=? b) && (b <=? 191)
             else if a =? 237 then (128 <=? b) && (b <=? 159) else cont b)
            && cont c && utf8_valid r2
        | _ => false
        end
      else if (240 <=? a) && (a <=? 244) then
        match r with
        | b :: c :: d :: r3 =>
            (if a =? 240 then (144 <=? b) && (b <=? 191)
             else if a =? 244 then (128 <=? b) && (b <=? 143) else cont b)
            && cont c && cont d && utf8_valid r3
        | _ => false
        end
      else false
  end.

(** CString::to_str, strings.rs:48-50 *)
Definition cstring_to_str (bs : list Z) : option (list Z) := if utf8_valid bs then Some bs else None.

(** SsbhStringN::to_str, strings.rs:166-168 *)
Definition ssbh_to_str (v : val) : option (list Z) :=
  match v with
  | VStruct [VPtr (Some (VBytes bs))] => cstring_to_str bs
  | _ => None
  end.

(** SsbhStringN::to_string_lossy, strings.rs:172-174 *)
Definition ssbh_to_string_lossy (v : val) : list Z :=
  match ssbh_to_str v with Some s => s | None => [] end.
