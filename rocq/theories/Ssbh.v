(** Deep embedding of the types serialised by ssbh_write / ssbh_lib together
    with their writer and reader, following the source function by function. *)
From Verif Require Import Bytes.

(** ** Types

    A [ty] describes a Rust type implementing both [SsbhWrite] and [BinRead]. *)
Inductive ty : Type :=
(* u8..u128, i8..i128, f32, f64, NonZero*: [w] little endian bytes
   (ssbh_write/src/lib.rs:204-268).  Signed and float values are represented by
   their bit pattern. *)
| TInt (w : Z)
(* fieldless enum with #[br(repr(uN))] and #[ssbhwrite(repr(uN))]
   (ssbh_write_derive/src/lib.rs:83-91): [w] bytes, [ra] is mem::align_of the
   Rust enum itself, [tags] the discriminants. *)
| TRepr (w ra : Z) (tags : list Z)
(* modular_bitfield struct of [w] bytes (ssbh_write/src/lib.rs:173-202); all bits,
   including #[skip] bits, are kept by from_bytes/into_bytes. *)
| TBits (w : Z)
(* () : ssbh_write/src/lib.rs:73-89 *)
| TUnit
(* derived struct or enum variant (ssbh_write_derive/src/lib.rs:106-377): fields
   with their #[ssbhwrite(pad_after)] and #[br(pad_after)], the type level
   #[ssbhwrite(pad_after)], #[ssbhwrite(align_after)] (0 = absent) and
   #[ssbhwrite(alignment)]. *)
| TStruct (fs : list (ty * (Z * Z))) (spad aa : Z) (al : option Z)
(* RelPtr64<T> : ssbh_lib/src/lib.rs:411-477, 734-754 *)
| TRel (t : ty)
(* Ptr<P, T> with size_of P = w : ssbh_lib/src/lib.rs:336-390, 663-732 *)
| TAbs (w : Z) (t : ty)
(* SsbhArray<T> : ssbh_lib/src/arrays.rs:142-245, 340-373 *)
| TArr (t : ty)
(* SsbhByteBuffer : ssbh_lib/src/arrays.rs:27-90, 247-268, 311-338 *)
| TBuf
(* CString<N> : ssbh_lib/src/strings.rs:28-76, 132-156 *)
| TCStr (n : Z)
(* SsbhEnum64<T> with the tag => body table given to ssbh_enum!
   (ssbh_lib/src/enums.rs:62-175); each body is described as the variant's
   [TStruct]. *)
| TEnum (vs : list (Z * ty))
(* [T; n] : ssbh_write/src/lib.rs:91-103 *)
| TFix (n : Z) (t : ty)
(* Vec<T> whose length [n] is supplied by the reader (#[br(count = n)]):
   ssbh_write/src/lib.rs:270-291 *)
| TVec (n : Z) (t : ty).

(** Values.  [VInt] is the unsigned bit pattern. *)
Inductive val : Type :=
| VInt (n : Z)
| VBytes (bs : list Z)              (* byte buffers and C strings *)
| VStruct (vs : list val)
| VArr (vs : list val)
| VPtr (o : option val)
| VCase (tag : Z) (v : val).

(** ** Alignment

    [std::mem::align_of::<T>()] for the Rust type itself on a 64 bit target with
    rustc's layout (alignment of a struct, enum or Option is the largest field
    alignment).  Vec has alignment 8. *)
Fixpoint rust_align (t : ty) : Z :=
  match t with
  | TInt w => w
  | TRepr _ ra _ => ra
  | TBits _ => 1
  | TUnit => 1
  | TStruct fs _ _ _ =>
      (fix go (fs : list (ty * (Z * Z))) : Z :=
         match fs with [] => 1 | (t', _) :: r => Z.max (rust_align t') (go r) end) fs
  | TRel t' => rust_align t'
  | TAbs _ t' => rust_align t'
  | TArr _ => 8
  | TBuf => 8
  | TCStr _ => 8
  | TEnum vs =>
      (fix go (vs : list (Z * ty)) : Z :=
         match vs with [] => 1 | (_, t') :: r => Z.max (rust_align t') (go r) end) vs
  | TFix _ t' => rust_align t'
  | TVec _ _ => 8
  end.

(** [SsbhWrite::alignment_in_bytes] *)
Fixpoint ssbh_align (t : ty) : Z :=
  match t with
  | TInt w => w                          (* ssbh_write/src/lib.rs:221-223 *)
  | TRepr w _ _ => w                     (* ssbh_write_derive/src/lib.rs:315 *)
  | TBits w => w                         (* ssbh_write/src/lib.rs:193-195 *)
  | TUnit => 1                           (* ssbh_write/src/lib.rs:82-84 *)
  | TStruct _ _ _ (Some a) => a          (* ssbh_write_derive/src/lib.rs:313 *)
  | TStruct _ _ _ None => rust_align t   (* ssbh_write_derive/src/lib.rs:316 *)
  | TRel _ => rust_align t               (* default, ssbh_write/src/lib.rs:68-70 *)
  | TAbs _ _ => rust_align t             (* default *)
  | TArr _ => 8                          (* ssbh_lib/src/arrays.rs:369-372 *)
  | TBuf => rust_align t                 (* default *)
  | TCStr n => n                         (* ssbh_lib/src/strings.rs:153-155 *)
  | TEnum _ => rust_align t              (* default *)
  | TFix _ _ => rust_align t             (* default *)
  | TVec _ t' => ssbh_align t'           (* ssbh_write/src/lib.rs:287-290 *)
  end.

(** mem::align_of of the enum T inside SsbhEnum64<T> (no alignment attribute is
    used on any ssbh_enum!), ssbh_write_derive/src/lib.rs:316. *)
Definition enum_align (vs : list (Z * ty)) : Z := rust_align (TEnum vs).

(** ** Size: [SsbhWrite::size_in_bytes] *)
Fixpoint size (t : ty) (v : val) : Z :=
  match t, v with
  | TInt w, _ => w                       (* ssbh_write/src/lib.rs:217-219 *)
  | TRepr w _ _, _ => w                  (* ssbh_write_derive/src/lib.rs:88-90 *)
  | TBits w, _ => w
  | TUnit, _ => 0
  | TStruct fs spad _ _, VStruct vs =>
      (* generate_size_calculation, ssbh_write_derive/src/lib.rs:379-403, 480-526:
         align_after does not count *)
      (fix go (fs : list (ty * (Z * Z))) (vs : list val) : Z :=
         match fs, vs with
         | (t', (wp, _)) :: fr, v' :: vr => size t' v' + wp + go fr vr
         | _, _ => 0
         end) fs vs + spad
  | TRel _, _ => 8                       (* ssbh_lib/src/lib.rs:751-753 *)
  | TAbs w _, _ => w                     (* ssbh_lib/src/lib.rs:728-731 *)
  | TArr _, _ => 16                      (* ssbh_lib/src/arrays.rs:364-367 *)
  | TBuf, _ => 16                        (* ssbh_lib/src/arrays.rs:335-337 *)
  | TCStr _, VBytes bs => zlen bs        (* ssbh_lib/src/strings.rs:149-151 *)
  | TEnum _, _ => 16                     (* ssbh_lib/src/enums.rs:142-145 *)
  | TFix _ t', VArr vs | TVec _ t', VArr vs =>
      (* ssbh_write/src/lib.rs:125-131, 279-285: length times the first element's size *)
      match vs with [] => 0 | v' :: _ => zlen vs * size t' v' end
  | _, _ => 0
  end.

(** Size of a slice, ssbh_write/src/lib.rs:125-131. *)
Definition slice_size (t : ty) (vs : list val) : Z :=
  match vs with [] => 0 | v :: _ => zlen vs * size t v end.

(** ** Writer state: the cursor's buffer and position, and [data_ptr] *)
Record wst : Type := mkW { wbuf : list Z; wpos : Z; wdp : Z }.

(** "The data pointer must point past the containing struct": the common prefix
    of every ssbh_write, e.g. ssbh_write_derive/src/lib.rs:327-331. *)
Definition bump (n : Z) (s : wst) : wst :=
  if wdp s <? wpos s + n then mkW (wbuf s) (wpos s) (wpos s + n) else s.

(** [writer.write_all(bs)] *)
Definition emit (bs : list Z) (s : wst) : wst :=
  mkW (put (wbuf s) (wpos s) bs) (wpos s + zlen bs) (wdp s).

Definition seek (p : Z) (s : wst) : wst := mkW (wbuf s) p (wdp s).
Definition set_dp (d : Z) (s : wst) : wst := mkW (wbuf s) (wpos s) d.

Definition zeros (n : Z) : list Z := repeat 0 (Z.to_nat n).

(** ssbh_write_derive/src/lib.rs:360-377 write_aligned_after; 0 = attribute absent. *)
Definition align_after (aa : Z) (s : wst) : wst :=
  if 0 <? aa then
    let cur := zlen (wbuf s) in
    emit (zeros (round_up cur aa - cur)) (seek cur s)
  else s.

(** ssbh_lib/src/lib.rs:593-600 write_relative_offset: the u64 subtraction panics
    (debug) or wraps (release) when data_ptr is before the current position. *)
Definition write_relative_offset (s : wst) : res wst :=
  if wdp s <? wpos s then Panic
  else Ok (emit (le_bytes 8 (wdp s - wpos s)) s).

(** ssbh_lib/src/lib.rs:602-642 write_rel_ptr_aligned_specialized.
    [w] writes the pointed-to value. *)
Definition write_rel_ptr_aligned (alignment : Z) (w : option (wst -> res wst)) (s : wst) : res wst :=
  match w with
  | Some write_t =>
      let s1 := set_dp (round_up (wdp s) alignment) s in
      let* s2 := write_relative_offset s1 in
      let pos_after_offset := wpos s2 in
      let* s3 := write_t (seek (wdp s2) s2) in
      let s4 := if wdp s3 <? wpos s3 then set_dp (round_up (wpos s3) alignment) s3 else s3 in
      Ok (seek pos_after_offset s4)
  | None => Ok (emit (le_bytes 8 0) s)
  end.

(** ssbh_lib/src/lib.rs:734-749 RelPtr64::ssbh_write *)
Definition write_relptr (alignment : Z) (w : option (wst -> res wst)) (s : wst) : res wst :=
  write_rel_ptr_aligned alignment w (bump 8 s).

(** ssbh_lib/src/lib.rs:668-726 Ptr::ssbh_write; [pw] = size_of::<P>() *)
Definition write_absptr (pw alignment : Z) (w : option (wst -> res wst)) (s : wst) : res wst :=
  let s0 := bump pw s in
  match w with
  | Some write_t =>
      let s0' := bump pw s0 in
      let s1 := set_dp (round_up (wdp s0') alignment) s0' in
      if wdp s1 <? 256 ^ pw then                       (* P::try_from(data_ptr) *)
        let s2 := emit (le_bytes (Z.to_nat pw) (wdp s1)) s1 in
        let pos_after_offset := wpos s2 in
        let* s3 := write_t (seek (wdp s2) s2) in
        let s4 := if wdp s3 <? wpos s3 then set_dp (round_up (wpos s3) alignment) s3 else s3 in
        Ok (seek pos_after_offset s4)
      else Err EPtrRange
  | None => Ok (emit (le_bytes (Z.to_nat pw) 0) s0)
  end.

(** ssbh_lib/src/arrays.rs:292-309 write_array_header *)
Definition write_array_header (count : Z) (s : wst) : res wst :=
  let s1 := set_dp (round_up (wdp s) 8) s in
  let* s2 := if count =? 0 then Ok (emit (le_bytes 8 0) s1) else write_relative_offset s1 in
  Ok (emit (le_bytes 8 count) s2).

(** Element loop of the slice writer, ssbh_write/src/lib.rs:118-120. *)
Fixpoint write_list (w : val -> wst -> res wst) (vs : list val) (s : wst) : res wst :=
  match vs with
  | [] => Ok s
  | v :: r => let* s1 := w v s in write_list w r s1
  end.

(** ssbh_lib/src/strings.rs:132-147 CString::ssbh_write *)
Definition write_cstring (n : Z) (bs : list Z) (s : wst) : wst :=
  match bs with
  | [] => emit (zeros n) s
  | _ :: _ => emit [0] (emit bs s)
  end.

(** ** Writer: [SsbhWrite::ssbh_write] *)
Fixpoint write (t : ty) (v : val) (s : wst) : res wst :=
  match t, v with
  | TInt w, VInt n => Ok (emit (le_bytes (Z.to_nat w) n) s)   (* ssbh_write/src/lib.rs:208-215 *)
  | TRepr w _ _, VInt n =>                                    (* ssbh_write_derive/src/lib.rs:85-87, 327-331 *)
      Ok (emit (le_bytes (Z.to_nat w) n) (bump w s))
  | TBits w, VInt n =>                                        (* ssbh_write/src/lib.rs:177-191 *)
      Ok (emit (le_bytes (Z.to_nat w) n) (bump w s))
  | TUnit, VStruct [] => Ok s                                 (* ssbh_write/src/lib.rs:74-80 *)
  | TStruct fs spad aa _, VStruct vs =>
      (* generate_ssbh_write, ssbh_write_derive/src/lib.rs:320-339 and the field
         writers 422-478 *)
      let s0 := bump (size t v) s in
      let* s1 :=
        (fix go (fs : list (ty * (Z * Z))) (vs : list val) (s : wst) : res wst :=
           match fs, vs with
           | [], [] => Ok s
           | (t', (wp, _)) :: fr, v' :: vr =>
               let* s1 := write t' v' s in
               go fr vr (emit (zeros wp) s1)
           | _, _ => Err EType
           end) fs vs s0 in
      Ok (align_after aa (emit (zeros spad) s1))
  | TRel t', VPtr o =>
      write_relptr (ssbh_align t') (option_map (fun v' => write t' v') o) s
  | TAbs w t', VPtr o =>
      write_absptr w (ssbh_align t') (option_map (fun v' => write t' v') o) s
  | TArr t', VArr vs =>
      (* SsbhArray::ssbh_write, ssbh_lib/src/arrays.rs:341-362 *)
      let s0 := bump 16 s in
      let* s1 := write_array_header (zlen vs) s0 in
      let pos_after_length := wpos s1 in
      let s2 := seek (wdp s1) s1 in
      let* s3 := write_list (fun v' => write t' v') vs (bump (slice_size t' vs) s2) in
      Ok (seek pos_after_length s3)
  | TBuf, VBytes bs =>
      (* SsbhByteBuffer::ssbh_write, ssbh_lib/src/arrays.rs:312-333 *)
      let s0 := bump 16 s in
      let* s1 := write_array_header (zlen bs) s0 in
      let current_pos := wpos s1 in
      let s2 := emit bs (seek (wdp s1) s1) in
      Ok (seek current_pos (set_dp (wdp s2 + zlen bs) s2))
  | TCStr n, VBytes bs => Ok (write_cstring n bs s)
  | TEnum vs, VPtr o =>
      (* SsbhEnum64::ssbh_write, ssbh_lib/src/enums.rs:121-140 *)
      let s0 := bump 16 s in
      match o with
      | None =>
          let* s1 := write_relptr (enum_align vs) None s0 in
          Ok (emit (le_bytes 8 0) s1)
      | Some (VCase tag v') =>
          let wv :=
            (fix go (vs : list (Z * ty)) : wst -> res wst :=
               match vs with
               | [] => fun _ => Err EType
               | (tg, t') :: r => if tag =? tg then write t' v' else go r
               end) vs in
          let* s1 := write_relptr (enum_align vs) (Some wv) s0 in
          Ok (emit (le_bytes 8 tag) s1)
      | Some _ => Err EType
      end
  | TFix n t', VArr vs | TVec n t', VArr vs =>
      (* ssbh_write/src/lib.rs:91-123, 270-277; the length of a [TVec] is checked
         by the caller *)
      if zlen vs =? n then
        write_list (fun v' => write t' v') vs (bump (slice_size t' vs) s)
      else Err EType
  | _, _ => Err EType
  end.

(** ** Reader: [BinRead::read_options] over a byte slice

    [read t b p] reads at position [p] and returns the value and the position of
    the cursor afterwards.  The position of the cursor after an error is not
    modelled. *)

(** Unsigned little endian integer of [w] bytes. *)
Definition read_int (w : Z) (b : list Z) (p : Z) : res (Z * Z) :=
  match get_bytes (Z.to_nat w) b p with
  | Some bs => Ok (le_val bs, p + w)
  | None => Err EEof
  end.

(** ssbh_lib/src/lib.rs:314-328 *)
Definition absolute_offset_checked (position relative_offset : Z) : res Z :=
  let o := position + relative_offset in
  if o <? two64 then Ok o else Err EOverflow.

(** ssbh_lib/src/strings.rs:61-75: bytes up to the first NUL, end of file is an
    error.  [n] bounds the loop by the number of bytes left in the file. *)
Fixpoint read_cstr (n : nat) (b : list Z) (p : Z) : res (list Z * Z) :=
  match n with
  | O => Err EEof
  | S n' =>
      match byte_at b p with
      | None => Err EEof
      | Some x =>
          if x =? 0 then Ok ([], p + 1)
          else let* (r, p') := read_cstr n' b (p + 1) in Ok (x :: r, p')
      end
  end.

(** ssbh_lib/src/arrays.rs:247-268 read_buffer *)
Definition read_buffer (count : Z) (b : list Z) (p : Z) : res (list Z) :=
  let available := Z.max 0 (zlen b - p) in
  if count <=? available then
    match get_bytes (Z.to_nat count) b p with
    | Some bs => Ok bs
    | None => Err EShortBuffer
    end
  else Err EShortBuffer.

(** One iteration of an element loop (elements collected in reverse). *)
Definition read_push (rd : Z -> res (val * Z)) (s : list val * Z) : res (list val * Z) :=
  let '(acc, p) := s in
  let* (v, p') := rd p in Ok (v :: acc, p').

(** ssbh_lib/src/arrays.rs:226-245 read_elements; also binrw's Vec/array readers.
    The initial capacity limit (arrays.rs:16) does not affect the result. *)
Definition read_elements (rd : Z -> res (val * Z)) (count p : Z) : res (list val * Z) :=
  let* (acc, p') := iter_z count (read_push rd) ([], p) in Ok (rev acc, p').

Fixpoint read (t : ty) (b : list Z) (p : Z) : res (val * Z) :=
  match t with
  | TInt w => let* (n, p') := read_int w b p in Ok (VInt n, p')
  | TRepr w _ tags =>
      (* binrw repr enum: unknown discriminants are NoVariantMatch *)
      let* (n, p') := read_int w b p in
      if existsb (Z.eqb n) tags then Ok (VInt n, p') else Err ENoVariant
  | TBits w => let* (n, p') := read_int w b p in Ok (VInt n, p')
  | TUnit => Ok (VStruct [], p)
  | TStruct fs _ _ _ =>
      let* (vs, p') :=
        (fix go (fs : list (ty * (Z * Z))) (p : Z) : res (list val * Z) :=
           match fs with
           | [] => Ok ([], p)
           | (t', (_, rp)) :: fr =>
               let* (v, p1) := read t' b p in
               let* (vs, p2) := go fr (p1 + rp) in
               Ok (v :: vs, p2)
           end) fs p in
      Ok (VStruct vs, p')
  | TRel t' =>
      (* ssbh_lib/src/lib.rs:455-476 *)
      let pos_before_read := p in
      let* (relative_offset, saved_pos) := read_int 8 b p in
      if relative_offset =? 0 then Ok (VPtr None, saved_pos)
      else
        let* seek_pos := absolute_offset_checked pos_before_read relative_offset in
        let* (v, _) := read t' b seek_pos in
        Ok (VPtr (Some v), saved_pos)
  | TAbs w t' =>
      (* ssbh_lib/src/lib.rs:371-389 *)
      let* (offset, saved_pos) := read_int w b p in
      if offset =? 0 then Ok (VPtr None, saved_pos)
      else
        let* (v, _) := read t' b offset in
        Ok (VPtr (Some v), saved_pos)
  | TArr t' =>
      (* ssbh_lib/src/arrays.rs:270-290 *)
      let pos_before_read := p in
      let* (relative_offset, p1) := read_int 8 b p in
      let* (element_count, saved_pos) := read_int 8 b p1 in
      let* seek_pos := absolute_offset_checked pos_before_read relative_offset in
      let* (vs, _) := read_elements (read t' b) element_count seek_pos in
      Ok (VArr vs, saved_pos)
  | TBuf =>
      let pos_before_read := p in
      let* (relative_offset, p1) := read_int 8 b p in
      let* (element_count, saved_pos) := read_int 8 b p1 in
      let* seek_pos := absolute_offset_checked pos_before_read relative_offset in
      let* bs := read_buffer element_count b seek_pos in
      Ok (VBytes bs, saved_pos)
  | TCStr _ =>
      let* (bs, p') := read_cstr (Z.to_nat (zlen b - p)) b p in Ok (VBytes bs, p')
  | TEnum vs =>
      (* ssbh_lib/src/enums.rs:91-117; the variant is the one whose
         pre_assert(data_type == tag) holds *)
      let pos_before_read := p in
      let* (relative_offset, p1) := read_int 8 b p in
      let* (data_type, saved_pos) := read_int 8 b p1 in
      if relative_offset =? 0 then Ok (VPtr None, saved_pos)
      else
        let* seek_pos := absolute_offset_checked pos_before_read relative_offset in
        let* (v, _) :=
          (fix go (vs : list (Z * ty)) : res (val * Z) :=
             match vs with
             | [] => Err ENoVariant
             | (tg, t') :: r => if data_type =? tg then read t' b seek_pos else go r
             end) vs in
        Ok (VPtr (Some (VCase data_type v)), saved_pos)
  | TFix n t' | TVec n t' =>
      let* (vs, p') := read_elements (read t' b) n p in Ok (VArr vs, p')
  end.

(** ** Typing: the values Rust's type system admits for a described type *)
Fixpoint wt (t : ty) (v : val) : bool :=
  match t, v with
  | TInt w, VInt n => (0 <=? n) && (n <? 256 ^ w)
  | TRepr _ _ tags, VInt n => existsb (Z.eqb n) tags
  | TBits w, VInt n => (0 <=? n) && (n <? 256 ^ w)
  | TUnit, VStruct [] => true
  | TStruct fs _ _ _, VStruct vs =>
      (fix go (fs : list (ty * (Z * Z))) (vs : list val) : bool :=
         match fs, vs with
         | [], [] => true
         | (t', _) :: fr, v' :: vr => wt t' v' && go fr vr
         | _, _ => false
         end) fs vs
  | TRel t', VPtr o | TAbs _ t', VPtr o =>
      match o with None => true | Some v' => wt t' v' end
  | TArr t', VArr vs => (zlen vs <? two64) && forallb (wt t') vs
  | TBuf, VBytes bs => (zlen bs <? two64) && bytes_ok bs
  | TCStr _, VBytes bs => forallb (fun x => (0 <? x) && (x <? 256)) bs
  | TEnum vs, VPtr o =>
      match o with
      | None => true
      | Some (VCase tag v') =>
          (fix go (vs : list (Z * ty)) : bool :=
             match vs with
             | [] => false
             | (tg, t') :: r => if tag =? tg then wt t' v' else go r
             end) vs
      | Some _ => false
      end
  | TFix n t', VArr vs | TVec n t', VArr vs => (zlen vs =? n) && forallb (wt t') vs
  | _, _ => false
  end.
