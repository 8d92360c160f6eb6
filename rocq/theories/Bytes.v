(** Bytes, little endian integers and the in-memory cursor.

    A byte is a [Z] in [0,256).  Positions and lengths are [Z] so that 64 bit
    boundaries can be stated exactly.  Only definitions live here. *)
From Coq Require Export List ZArith Bool.
Export ListNotations.
Open Scope Z_scope.

(** Errors of ssbh_data (the error enums of the modules in ssbh_data/src). *)
Inductive data_err : Type :=
| DVersion        (* UnsupportedVersion *)
| DFinalFrame     (* anim: InvalidFinalFrameIndex *)
| DBitStream      (* anim: BitError(NotEnoughBits) *)
| DBitCount       (* anim: UnexpectedBitCount *)
| DTrackRange     (* anim: InvalidTrackDataRange *)
| DMalformed      (* anim: MalformedCompressionHeader *)
| DAssert         (* binrw: a failed #[br(assert)] *)
| DBufferIndex    (* mesh, anim: BufferIndexOutOfRange *)
| DNoStride       (* mesh: NoOffsetOrStride *)
| DAttrLength     (* mesh: AttributeDataLengthMismatch *)
| DIndexRange     (* mesh: VertexIndexOutOfRange *)
| DNotTriangles   (* mesh: NonTriangulatedFaces *)
| DWeightIndex    (* mesh: SkinWeightVertexIndexExceedsLimit *)
| DDuplicate      (* mesh: DuplicateSubindex *)
| DAdjRange       (* adj: BufferOffsetOutOfRange *)
| DCycle          (* skel: CycleDetected *)
| DZeroStride     (* mesh: binrw Custom error "Invalid zero stride detected." *)
| DBoneName.      (* mesh: "Failed to read bone name." *)

(** Errors of ssbh_lib and binrw. *)
Inductive err : Type :=
| EEof            (* binrw/io unexpected end of file *)
| EOverflow       (* ssbh_lib/src/lib.rs:314-328, absolute_offset_checked *)
| EShortBuffer    (* ssbh_lib/src/arrays.rs:258-264, AssertFail *)
| ENoVariant      (* binrw: no enum variant / discriminant matched *)
| EBadMagic       (* binrw: magic mismatch *)
| EInvalidType    (* ssbh_lib/src/lib.rs:217, ReadSsbhError::InvalidSsbhType *)
| EPtrRange       (* ssbh_lib/src/lib.rs:693-702 *)
| ECount          (* ssbh_lib/src/formats/meshex.rs:125-130 *)
| EData (d : data_err)
| EType.          (* value does not have the described type: impossible in Rust *)

(** Outcome of a Rust operation: [Result::Ok], [Result::Err] or a panic. *)
Inductive res (A : Type) : Type :=
| Ok (a : A)
| Err (e : err)
| Panic.
Arguments Ok {A}. Arguments Err {A}. Arguments Panic {A}.

Definition bind {A B} (r : res A) (f : A -> res B) : res B :=
  match r with Ok a => f a | Err e => Err e | Panic => Panic end.

(** [Result::unwrap] *)
Definition unwrap {A} (r : res A) : res A := match r with Ok a => Ok a | _ => Panic end.

Notation "'let*' x := e 'in' k" := (bind e (fun x => k))
  (at level 200, x pattern, e at level 200, k at level 200).

Definition zlen {A} (l : list A) : Z := Z.of_nat (length l).

(** Loop [f] exactly [n] times, stopping at the first error: the Rust
    [for _ in 0..n { ...? }].  Binary recursion keeps it executable for
    absurd counts read from malformed files. *)
Fixpoint iter_pos {S} (n : positive) (f : S -> res S) (s : S) : res S :=
  match n with
  | xH => f s
  | xO q => bind (iter_pos q f s) (iter_pos q f)
  | xI q => bind (f s) (fun s1 => bind (iter_pos q f s1) (iter_pos q f))
  end.

Definition iter_z {S} (n : Z) (f : S -> res S) (s : S) : res S :=
  match n with Zpos p => iter_pos p f s | _ => Ok s end.

(** [x.to_le_bytes()] for a [w] byte integer; a negative [x] is taken in two's
    complement, an over-large one is truncated like an [as] cast. *)
Fixpoint le_bytes (w : nat) (x : Z) : list Z :=
  match w with
  | O => []
  | S w' => (x mod 256) :: le_bytes w' (x / 256)
  end.

(** [uN::from_le_bytes] *)
Fixpoint le_val (bs : list Z) : Z :=
  match bs with
  | [] => 0
  | x :: r => x + 256 * le_val r
  end.

Definition is_byte (x : Z) : bool := (0 <=? x) && (x <? 256).
Definition bytes_ok (b : list Z) : bool := forallb is_byte b.

(** The byte at absolute position [i], [None] at or past the end of file. *)
Definition byte_at (b : list Z) (i : Z) : option Z :=
  if (0 <=? i) && (i <? zlen b) then nth_error b (Z.to_nat i) else None.

(** [n] consecutive bytes from position [p] ([Read::read_exact]). *)
Fixpoint get_bytes (n : nat) (b : list Z) (p : Z) : option (list Z) :=
  match n with
  | O => Some []
  | S n' =>
      match byte_at b p, get_bytes n' b (p + 1) with
      | Some x, Some r => Some (x :: r)
      | _, _ => None
      end
  end.

(** [Cursor<Vec<u8>>::write_all] at position [p]: overwrites, extends, and zero
    fills a gap between the end of the vector and [p].  Writing an empty slice
    changes nothing (the Anim test [align_v20], ssbh_lib/src/formats/anim.rs:282-295,
    depends on this). *)
Definition put (b : list Z) (p : Z) (bs : list Z) : list Z :=
  match bs with
  | [] => b
  | _ :: _ =>
      let n := Z.to_nat p in
      firstn n b ++ repeat 0 (n - length b) ++ bs ++ skipn (n + length bs) b
  end.

(** ssbh_lib/src/lib.rs:588-591 [round_up]; the same closure appears in
    ssbh_write_derive/src/lib.rs:365 and ssbh_lib/src/formats/meshex.rs:156. *)
Definition round_up (value n : Z) : Z := ((value + n - 1) / n) * n.

Definition two64 : Z := 18446744073709551616.
