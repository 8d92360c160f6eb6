(** Specification for shader metadata: the tables inside a compiled shader by their positions. *)
From Verif Require Import Bytes ShdrData.

(** [raw] is stored at [p] *)
Definition raw_at (b : list Z) (p : Z) (raw : list Z) : Prop :=
  0 <= p /\ firstn (length raw) (skipn (Z.to_nat p) b) = raw.
(** The unsigned or signed 32 bit number stored at [p], lowest byte first *)
Definition word (b : list Z) (p n : Z) : Prop :=
  exists x0 x1 x2 x3, raw_at b p [x0; x1; x2; x3] /\ n = x0 + 256 * x1 + 65536 * x2 + 16777216 * x3.
Definition iword (b : list Z) (p n : Z) : Prop := - 2 ^ 31 <= n < 2 ^ 31 /\ word b p (n mod 2 ^ 32).

(** ** Text: UTF-8 by code points *)

Definition utf8_encode (cp : Z) : list Z :=
  if cp <? 0x80 then [cp]
  else if cp <? 0x800 then [192 + cp / 64; 128 + cp mod 64]
  else if cp <? 0x10000 then [224 + cp / 4096; 128 + cp / 64 mod 64; 128 + cp mod 64]
  else [240 + cp / 262144; 128 + cp / 4096 mod 64; 128 + cp / 64 mod 64; 128 + cp mod 64].
(** The encoding of a code point that is not a surrogate *)
Definition utf8_char (c : list Z) : Prop :=
  exists cp, 0 <= cp < 0x110000 /\ ~ (0xD800 <= cp < 0xE000) /\ c = utf8_encode cp.
(** The beginning of an encoding, without its end *)
Definition begins (q : list Z) : Prop := q <> [] /\ exists t, t <> [] /\ utf8_char (q ++ t).

(** [decoded raw s]: [s] is [raw] with everything that is not UTF-8 replaced by U+FFFD, once for
    each longest beginning of a character, or single byte if there is none (the practice of the
    Unicode standard, section 3.9, "substitution of maximal subparts"). *)
Inductive decoded : list Z -> list Z -> Prop :=
| decoded_end : decoded [] []
| decoded_char c r s : utf8_char c -> decoded r s -> decoded (c ++ r) (c ++ s)
| decoded_bad p r s :
    (forall c t, p ++ r = c ++ t -> ~ utf8_char c) ->
    length p = 1%nat \/ begins p ->
    (forall q t, p ++ r = q ++ t -> begins q -> (length q <= length p)%nat) ->
    decoded r s -> decoded (p ++ r) (utf8_encode 0xFFFD ++ s).

(** ** Entries *)

(** The name of the entry at [p]: the numbers there are its position after [strings] and its
    length with the terminator. *)
Definition named (b : list Z) (strings p : Z) (name : list Z) : Prop :=
  exists o l raw, word b p o /\ word b (p + 4) l /\ zlen raw = Z.max 0 (l - 1) /\ raw_at b (strings + o) raw /\
    decoded raw name.
Definition known_type (n : Z) : Prop := In n [0; 4; 7; 20; 22; 36; 37; 38; 39; 50; 67; 68; 69; 73; 103].
Definition buffer_at (b : list Z) (strings p : Z) (x : buffer) : Prop :=
  named b strings p (bf_name x) /\ word b (p + 40) (bf_size x) /\ word b (p + 44) (bf_uniforms x) /\
  iword b (p + 48) (bf_unk4 x) /\ iword b (p + 52) (bf_unk5 x) /\ iword b (p + 56) (bf_unk6 x) /\
  iword b (p + 60) (bf_unk7 x).
Definition uniform_at (b : list Z) (strings p : Z) (x : uniform) : Prop :=
  named b strings p (un_name x) /\ word b (p + 40) (un_type x) /\ known_type (un_type x) /\
  iword b (p + 44) (un_buffer x) /\ iword b (p + 48) (un_offset x) /\ iword b (p + 76) (un_unk11 x).
Definition attribute_at (b : list Z) (strings p : Z) (x : shader_attr) : Prop :=
  named b strings p (at_name x) /\ word b (p + 40) (at_type x) /\ known_type (at_type x) /\
  iword b (p + 48) (at_location x).

(** The table described at [p]: a count and a position after [start]; entries of [size] bytes *)
Definition table_at {A} (b : list Z) (start p size : Z) (entry : Z -> A -> Prop) (items : list A) : Prop :=
  exists count rel, word b p count /\ word b (p + 4) rel /\ zlen items = count /\
    forall k x, nth_error items k = Some x -> entry (start + rel + size * Z.of_nat k) x.

(** The metadata stored in a compiled shader *)
Definition meta_at (b : list Z) (m : meta_data) : Prop :=
  exists start rel, word b 292 start /\ word b 392 rel /\
    table_at b start 332 108 (buffer_at b (start + rel)) (mt_buffers m) /\
    table_at b start 340 164 (uniform_at b (start + rel)) (mt_uniforms m) /\
    table_at b start 348 92 (attribute_at b (start + rel)) (mt_inputs m) /\
    table_at b start 356 92 (attribute_at b (start + rel)) (mt_outputs m).

(** ** Which files can be read *)

(** Something holds at each entry of the table described at [p] *)
Definition each_entry (b : list Z) (start p size : Z) (entry : Z -> Prop) : Prop :=
  exists count rel, word b p count /\ word b (p + 4) rel /\
    forall k, 0 <= k < count -> entry (start + rel + size * k).
Definition typed_entry (b : list Z) (size p : Z) : Prop :=
  p + size <= zlen b /\ exists t, word b (p + 40) t /\ known_type t.
(** The tables and the program lie inside the file and the types are known *)
Definition sound_tables (b : list Z) : Prop :=
  (exists start, 396 <= zlen b /\ word b 292 start /\
    each_entry b start 332 108 (fun p => p + 76 <= zlen b) /\
    each_entry b start 340 164 (typed_entry b 104) /\
    each_entry b start 348 92 (typed_entry b 60) /\
    each_entry b start 356 92 (typed_entry b 60)) /\
  exists n, word b 2504 n /\ (n = 0 \/ 2896 + n <= zlen b).
(** So do the names *)
Definition name_inside (b : list Z) (strings p : Z) : Prop :=
  exists o l, word b p o /\ word b (p + 4) l /\ (l <= 1 \/ strings + o + (l - 1) <= zlen b).
Definition sound_names (b : list Z) : Prop :=
  exists start rel, word b 292 start /\ word b 392 rel /\
    each_entry b start 332 108 (name_inside b (start + rel)) /\
    each_entry b start 340 164 (name_inside b (start + rel)) /\
    each_entry b start 348 92 (name_inside b (start + rel)) /\
    each_entry b start 356 92 (name_inside b (start + rel)).

(** ** Files with several shaders *)

(** The fields of a stored shader: its name, its stage and the compiled shader *)
Definition shader_fields (v : Ssbh.val) (name : Ssbh.val) (stage : Z) (binary : list Z) : Prop :=
  exists unk3 size, v = Ssbh.VStruct [name; Ssbh.VInt stage; Ssbh.VInt unk3; Ssbh.VBytes binary; Ssbh.VInt size].
