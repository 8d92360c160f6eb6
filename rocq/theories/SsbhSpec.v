(** Specification of the SSBH binary layout, independent of the reader's cursor and of
    the writer.  A type is described by [ty] (see Ssbh.v); a file is a list of bytes. *)
From Verif Require Import Bytes Ssbh Described.

(** The bytes [bs] are found at absolute position [p] of the file [b]. *)
Definition bytes_at (b : list Z) (p : Z) (bs : list Z) : Prop :=
  forall i x, nth_error bs i = Some x -> byte_at b (p + Z.of_nat i) = Some x.

(** A [w] byte little endian unsigned integer with value [n] is found at position [p]. *)
Definition uint_at (b : list Z) (p w n : Z) : Prop :=
  exists bs, zlen bs = w /\ bytes_at b p bs /\ n = le_val bs.

(** Number of bytes a value of the type takes up in its container (fields are laid out
    at fixed offsets; pointers, arrays, buffers and unions only store an offset and a
    count or tag inline). *)
Fixpoint inline_size (t : ty) : Z :=
  match t with
  | TInt w | TRepr w _ _ | TBits w => w
  | TUnit => 0
  | TStruct fs _ _ _ =>
      (fix go (fs : list (ty * (Z * Z))) : Z :=
         match fs with [] => 0 | (t', (_, pad)) :: r => inline_size t' + pad + go r end) fs
  | TRel _ => 8
  | TAbs w _ => w
  | TArr _ | TBuf | TEnum _ => 16
  | TCStr _ => 0
  | TFix n t' | TVec n t' => n * inline_size t'
  end.

(** [Dec b t p v]: by the documented layout, the bytes of the file [b] at position [p]
    encode the value [v] of type [t].

    - integers are little endian;
    - struct fields follow each other, each followed by its padding;
    - a relative pointer is a u64 offset counted from the position of the offset itself,
      zero meaning null;
    - an absolute pointer is an offset from the start of the file, zero meaning null;
    - an array is a relative offset followed by a u64 element count;
    - a string is terminated by the first zero byte;
    - a tagged union is a relative offset followed by the u64 tag selecting the type of
      the pointed-to value;
    - no position exceeds 2^64 - 1. *)
Inductive Dec (b : list Z) : ty -> Z -> val -> Prop :=
| DInt w p n : uint_at b p w n -> Dec b (TInt w) p (VInt n)
| DRepr w ra tags p n : uint_at b p w n -> In n tags -> Dec b (TRepr w ra tags) p (VInt n)
| DBits w p n : uint_at b p w n -> Dec b (TBits w) p (VInt n)
| DUnit p : Dec b TUnit p (VStruct [])
| DStruct fs spad aa al p vs : DecFields b fs p vs -> Dec b (TStruct fs spad aa al) p (VStruct vs)
| DRelNull t p : uint_at b p 8 0 -> Dec b (TRel t) p (VPtr None)
| DRel t p o v : uint_at b p 8 o -> o <> 0 -> p + o < 2 ^ 64 -> Dec b t (p + o) v ->
    Dec b (TRel t) p (VPtr (Some v))
| DAbsNull w t p : uint_at b p w 0 -> Dec b (TAbs w t) p (VPtr None)
| DAbs w t p o v : uint_at b p w o -> o <> 0 -> Dec b t o v ->
    Dec b (TAbs w t) p (VPtr (Some v))
| DArr t p o vs : uint_at b p 8 o -> uint_at b (p + 8) 8 (zlen vs) -> p + o < 2 ^ 64 ->
    (forall i v, nth_error vs i = Some v -> Dec b t (p + o + Z.of_nat i * inline_size t) v) ->
    Dec b (TArr t) p (VArr vs)
| DBuf p o bs : uint_at b p 8 o -> uint_at b (p + 8) 8 (zlen bs) -> p + o < 2 ^ 64 ->
    bytes_at b (p + o) bs -> Dec b TBuf p (VBytes bs)
| DCStr n p bs : bytes_at b p (bs ++ [0]) -> ~ In 0 bs -> Dec b (TCStr n) p (VBytes bs)
| DEnumNull vs p tag : uint_at b p 8 0 -> uint_at b (p + 8) 8 tag -> Dec b (TEnum vs) p (VPtr None)
| DEnum vs p o tag t v : uint_at b p 8 o -> uint_at b (p + 8) 8 tag -> o <> 0 -> p + o < 2 ^ 64 ->
    In (tag, t) vs -> Dec b t (p + o) v -> Dec b (TEnum vs) p (VPtr (Some (VCase tag v)))
| DFix n t p vs : zlen vs = n ->
    (forall i v, nth_error vs i = Some v -> Dec b t (p + Z.of_nat i * inline_size t) v) ->
    Dec b (TFix n t) p (VArr vs)
| DVec n t p vs : zlen vs = n ->
    (forall i v, nth_error vs i = Some v -> Dec b t (p + Z.of_nat i * inline_size t) v) ->
    Dec b (TVec n t) p (VArr vs)
with DecFields (b : list Z) : list (ty * (Z * Z)) -> Z -> list val -> Prop :=
| DNil p : DecFields b [] p []
| DCons t wp rp fs p v vs : Dec b t p v -> DecFields b fs (p + inline_size t + rp) vs ->
    DecFields b ((t, (wp, rp)) :: fs) p (v :: vs).

(** Descriptions the layout above makes sense for: sizes are not negative, union tags are
    distinct, and strings, which have no fixed size, only occur behind pointers
    ([inl true] allows a string at the top). *)
Fixpoint inl (ptr : bool) (t : ty) : bool :=
  match t with
  | TInt w | TRepr w _ _ | TBits w => 0 <=? w
  | TUnit | TBuf => true
  | TStruct fs _ _ _ =>
      (fix go (fs : list (ty * (Z * Z))) : bool :=
         match fs with [] => true | (t', (_, pad)) :: r => inl false t' && (0 <=? pad) && go r end) fs
  | TRel t' => inl true t'
  | TAbs w t' => (0 <=? w) && inl true t'
  | TArr t' => inl false t'
  | TCStr _ => ptr
  | TEnum vs =>
      (fix go (vs : list (Z * ty)) : bool :=
         match vs with
         | [] => true
         | (tg, t') :: r => negb (existsb (fun x => fst x =? tg) r) && inl false t' && go r
         end) vs
  | TFix n t' | TVec n t' => (0 <=? n) && inl false t'
  end.

(** ** Pointed-to data

    [refs b c t p v] walks the file [b] from the inline data of the value [v] at position
    [p], which lies inside an object ending at [c].  It follows the stored offsets depth
    first in declaration order and lists every pointed-to object: the end of the object
    containing the offset, the position the offset leads to, the number of bytes the
    object occupies and the alignment its type asks for.  Only the shape of [v] is used;
    all positions come from the bytes of the file. *)
Record ref := mkRef { r_owner_end : Z; r_start : Z; r_len : Z; r_align : Z }.

Definition u64_at (b : list Z) (p : Z) : Z :=
  match get_bytes 8 b p with Some bs => le_val bs | None => 0 end.

Definition uint_of (b : list Z) (p w : Z) : Z :=
  match get_bytes (Z.to_nat w) b p with Some bs => le_val bs | None => 0 end.

(** Bytes occupied by the object itself: fixed by the type ([csize] of Described.v, which
    counts the padding the writer adds, also trailing padding the reader ignores) except
    for strings. *)
Definition object_size (t : ty) (v : val) : Z :=
  match t, v with
  | TCStr n, VBytes [] => n
  | TCStr _, VBytes bs => zlen bs + 1
  | _, _ => csize t
  end.

Fixpoint elems_refs (f : Z -> val -> list ref) (step p : Z) (vs : list val) : list ref :=
  match vs with
  | [] => []
  | v :: r => f p v ++ elems_refs f step (p + step) r
  end.

Fixpoint refs (b : list Z) (c : Z) (t : ty) (p : Z) (v : val) : list ref :=
  match t, v with
  | TStruct fs _ _ _, VStruct vs =>
      (fix go (fs : list (ty * (Z * Z))) (p : Z) (vs : list val) : list ref :=
         match fs, vs with
         | (t', (_, pad)) :: fr, v' :: vr => refs b c t' p v' ++ go fr (p + inline_size t' + pad) vr
         | _, _ => []
         end) fs p vs
  | TRel t', VPtr (Some v') =>
      let q := p + u64_at b p in
      let n := object_size t' v' in
      mkRef c q n (ssbh_align t') :: refs b (q + n) t' q v'
  | TAbs w t', VPtr (Some v') =>
      let q := uint_of b p w in
      let n := object_size t' v' in
      mkRef c q n (ssbh_align t') :: refs b (q + n) t' q v'
  | TArr t', VArr (v0 :: vs) =>
      let q := p + u64_at b p in
      let n := zlen (v0 :: vs) * inline_size t' in
      mkRef c q n 8 :: elems_refs (refs b (q + n) t') (inline_size t') q (v0 :: vs)
  | TBuf, VBytes (x :: bs) => [mkRef c (p + u64_at b p) (zlen (x :: bs)) 8]
  | TEnum vs, VPtr (Some (VCase tag v')) =>
      let q := p + u64_at b p in
      (fix go (cs : list (Z * ty)) : list ref :=
         match cs with
         | [] => []
         | (tg, t') :: r =>
             if tag =? tg then
               let n := object_size t' v' in
               mkRef c q n (enum_align vs) :: refs b (q + n) t' q v'
             else go r
         end) vs
  | TFix _ t', VArr vs | TVec _ t', VArr vs => elems_refs (refs b c t') (inline_size t') p vs
  | _, _ => []
  end.

(** Two objects share no byte. *)
Definition disjoint (x y : ref) : Prop :=
  r_start x + r_len x <= r_start y \/ r_start y + r_len y <= r_start x.

(** The whole object lies in a file of [n] bytes; an object without bytes is anywhere. *)
Definition in_file (n : Z) (x : ref) : Prop :=
  0 < r_len x -> 0 <= r_start x /\ r_start x + r_len x <= n.

(** Object [x] comes entirely before object [y]. *)
Definition before (x y : ref) : Prop := r_start x + r_len x <= r_start y.

(** Fewer than [g] unused bytes precede each object; [e] is the end of the previous one. *)
Fixpoint gaps_below (g e : Z) (l : list ref) : Prop :=
  match l with
  | [] => True
  | x :: r => r_start x - e < g /\ gaps_below g (r_start x + r_len x) r
  end.

(** Every object is at the smallest position that is aligned and not before the end [e] of
    the previous object. *)
Fixpoint tight (e : Z) (l : list ref) : Prop :=
  match l with
  | [] => True
  | x :: r => (forall q, e <= q -> q mod r_align x = 0 -> r_start x <= q) /\ tight (r_start x + r_len x) r
  end.

(** ** Null and non-null values *)

(** The null value of a type with offsets and the number of bytes it takes up. *)
Definition null_value (t : ty) : option (val * Z) :=
  match t with
  | TRel _ => Some (VPtr None, 8)
  | TAbs w _ => Some (VPtr None, w)
  | TEnum _ => Some (VPtr None, 16)
  | TArr _ => Some (VArr [], 16)
  | TBuf => Some (VBytes [], 16)
  | _ => None
  end.

Definition nonnull_value (t : ty) (v : val) : Prop :=
  match t, v with
  | TRel _, VPtr (Some _) | TAbs _ _, VPtr (Some _) | TEnum _, VPtr (Some _) => True
  | TArr _, VArr (_ :: _) => True
  | TBuf, VBytes (_ :: _) => True
  | _, _ => False
  end.

Definition offset_width (t : ty) : Z := match t with TAbs w _ => w | _ => 8 end.
