(** Bit streams: /repo/ssbh_data/src/anim_data/bitutils.rs.

    [BitVec<u8, Lsb0>] is the list of its bits; bit [i] is bit [i mod 8] of byte [i / 8].
    Slices index the list and panic outside of it.  [load_le] and [store_le] panic for an
    empty slice and for one longer than the integer type (bitvec 1.0, field.rs). *)
From Verif Require Import Bytes.

(** The [n] low bits of [x], least significant first: what [store_le] stores. *)
Fixpoint bits_of (n : nat) (x : Z) : list bool :=
  match n with
  | O => []
  | S n' => Z.odd x :: bits_of n' (x / 2)
  end.

(** The value of a list of bits, least significant first: what [load_le] returns. *)
Fixpoint bits_val (l : list bool) : Z :=
  match l with
  | [] => 0
  | b :: r => Z.b2z b + 2 * bits_val r
  end.

(** [BitVec::from_slice] *)
Definition bits_of_bytes (bs : list Z) : list bool := flat_map (bits_of 8) bs.

(** [BitVec::into_vec]; the unused bits of the last byte are zero.  [n] bounds the number
    of bytes. *)
Fixpoint pack (n : nat) (l : list bool) : list Z :=
  match n with
  | O => []
  | S n' =>
      match l with
      | [] => []
      | _ => bits_val (firstn 8 l) :: pack n' (skipn 8 l)
      end
  end.
Definition bytes_of_bits (l : list bool) : list Z := pack (length l) l.

(** ** BitReader, bitutils.rs:4-59 *)
Record breader := mkBR { br_bits : list bool; br_index : Z }.

(** bitutils.rs:16-21 *)
Definition br_from_slice (bytes : list Z) : breader := mkBR (bits_of_bytes bytes) 0.

(** [self.bits.get(self.index..self.index + bit_count)] *)
Definition slice (l : list bool) (i n : Z) : option (list bool) :=
  if i + n <=? zlen l then Some (firstn (Z.to_nat n) (skipn (Z.to_nat i) l)) else None.

(** read_u8 (bitutils.rs:23-33) and read_u32 (bitutils.rs:35-45); [w] is the width of the
    integer type. *)
Definition br_read (w bit_count : Z) (r : breader) : res (Z * breader) :=
  match slice (br_bits r) (br_index r) bit_count with
  | None => Err (EData DBitStream)
  | Some s =>
      if (1 <=? bit_count) && (bit_count <=? w)
      then Ok (bits_val s, mkBR (br_bits r) (br_index r + bit_count))
      else Panic
  end.
Definition read_u8_bits := br_read 8.
Definition read_u32_bits := br_read 32.

(** bitutils.rs:47-58 *)
Definition read_bit (r : breader) : res (bool * breader) :=
  match slice (br_bits r) (br_index r) 1 with
  | Some [x] => Ok (x, mkBR (br_bits r) (br_index r + 1))
  | _ => Err (EData DBitStream)
  end.

(** ** BitWriter, bitutils.rs:64-89 *)
Record bwriter := mkBW { bw_bits : list bool; bw_index : Z }.

(** bitutils.rs:70-72 *)
Definition bw_new (bits : list bool) : bwriter := mkBW bits 0.

Definition replace (l : list bool) (i : Z) (new : list bool) : list bool :=
  firstn (Z.to_nat i) l ++ new ++ skipn (Z.to_nat i + length new) l.

(** bitutils.rs:74-78 *)
Definition bw_write (value bit_count : Z) (w : bwriter) : res bwriter :=
  if bw_index w + bit_count <=? zlen (bw_bits w) then
    if (1 <=? bit_count) && (bit_count <=? 32) then
      Ok (mkBW (replace (bw_bits w) (bw_index w) (bits_of (Z.to_nat bit_count) value)) (bw_index w + bit_count))
    else Panic
  else Panic.

(** bitutils.rs:80-84 *)
Definition bw_write_bit (value : bool) (w : bwriter) : res bwriter :=
  if bw_index w + 1 <=? zlen (bw_bits w)
  then Ok (mkBW (replace (bw_bits w) (bw_index w) [value]) (bw_index w + 1))
  else Panic.

(** bitutils.rs:86-88 *)
Definition bw_into_bytes (w : bwriter) : list Z := bytes_of_bits (bw_bits w).
