(** The derive macro SsbhWrite: ssbh_write_derive/src/lib.rs.  [derive] follows the macro from
    the item it is applied to to the code it emits; [run_write] and [eval_size] execute that code.
    Paths below are relative to /repo; lines without a file are of ssbh_write_derive/src/lib.rs.

    Not represented: generics and where clauses of the emitted impl (they have no effect on what
    the code does), and the machine overflow of the u64 additions. *)
From Coq Require Export String.
From Coq Require Import DecimalString.
From Verif Require Import Bytes Ssbh.
Open Scope string_scope.
Open Scope Z_scope.

(** ** What the macro is given *)

(** Literals of #[name(key = literal)]. *)
Inductive lit := LInt (n : Z) | LByteStr (bs : list Z) | LOther.

(** The arguments of an attribute: [repr(ident)], [key = literal], a bare word and the
    rest.  [MVersion a b] is the [pre_assert(major_version == a && minor_version == b)] of the
    format enums; it is not an argument of ssbhwrite. *)
Inductive meta :=
| MRepr (r : string)
| MNameValue (path : list string) (l : lit)
| MPath (w : string)
| MVersion (major minor : Z)
| MOther.

(** An attribute with its path; [None] when the arguments are not a list of metas, which
    syn's parse_meta rejects. *)
Record attr := Attr { at_path : string; at_args : option (list meta) }.

(** Type expressions: a path with its generic arguments, [[t; n]], [()], and constants given
    as generic arguments. *)
Inductive rty :=
| RPath (name : string) (args : list rty)
| RFix (t : rty) (n : Z)
| RUnit
| RConst (n : Z).

(** A field with its name; the name of a field of a tuple is its index and not used. *)
Record fld := Fld { f_name : string; f_attrs : list attr; f_ty : rty }.

(** syn::Fields *)
Inductive fields := FNamed (fs : list fld) | FUnnamed (fs : list fld) | FUnit.

(** syn::Variant, with its explicit discriminant. *)
Record evariant := Variant { v_name : string; v_attrs : list attr; v_disc : option Z; v_fields : fields }.

(** syn::Data *)
Inductive data := DStruct (fs : fields) | DEnum (vs : list evariant) | DUnion.

(** syn::DeriveInput, with the names of the type parameters. *)
Record item := Item { i_name : string; i_params : list string; i_attrs : list attr; i_data : data }.

(** ** Options *)

(** 18-24 *)
Record options := Options {
  op_pad : option Z;
  op_aligned : option Z;
  op_alignment : option Z;
  op_repr : option string;
  op_magic : option (list Z)
}.

(** 17 *)
Definition default_options : options := Options None None None None None.

(** 52-58: base10_parse fails for a literal that is not a usize *)
Definition get_usize_arg (l : lit) : res (option Z) :=
  match l with
  | LInt n => if (0 <=? n) && (n <? two64) then Ok (Some n) else Panic
  | _ => Ok None
  end.

(** 60-66 *)
Definition get_byte_string_arg (l : lit) : option (list Z) :=
  match l with LByteStr bs => Some bs | _ => None end.

(** 34-50: the arguments must be [repr(ident)] and nothing else *)
Definition get_repr (a : attr) : option string :=
  match at_args a with Some [MRepr r] => Some r | _ => None end.

(** 279-290: the loop over the arguments of one attribute.  Arguments other than
    [key = literal] are skipped. *)
Fixpoint nested_options (l : list meta) (o : options) : res options :=
  match l with
  | [] => Ok o
  | MNameValue [k] v :: r =>
      let* o :=
        if k =? "pad_after" then
          let* n := get_usize_arg v in
          Ok (Options n (op_aligned o) (op_alignment o) (op_repr o) (op_magic o))
        else if k =? "align_after" then
          let* n := get_usize_arg v in
          Ok (Options (op_pad o) n (op_alignment o) (op_repr o) (op_magic o))
        else if k =? "alignment" then
          let* n := get_usize_arg v in
          Ok (Options (op_pad o) (op_aligned o) n (op_repr o) (op_magic o))
        else if k =? "magic" then
          Ok (Options (op_pad o) (op_aligned o) (op_alignment o) (op_repr o) (get_byte_string_arg v))
        else Panic in
      nested_options r o
  | MNameValue _ _ :: _ => Panic                    (* 282: get_ident().unwrap() *)
  | _ :: r => nested_options r o
  end%string.

(** 269-295: the loop over the attributes *)
Fixpoint write_options (l : list attr) (o : options) : res options :=
  match l with
  | [] => Ok o
  | a :: r =>
      let* o :=
        if (at_path a =? "ssbhwrite")%string then
          match get_repr a with
          | Some x => Ok (Options (op_pad o) (op_aligned o) (op_alignment o) (Some x) (op_magic o))
          | None =>
              match at_args a with
              | Some args => nested_options args o
              | None => Ok o
              end
          end
        else Ok o in
      write_options r o
  end.

Definition get_write_options (l : list attr) : res options := write_options l default_options.

(** ** The code that is emitted *)

(** The receiver of a method call: [self.name], [self.0], or a variable of a match arm. *)
Inductive place := PField (f : string) | PIndex (i : nat) | PVar (x : string).

(** Statements of the emitted ssbh_write. *)
Inductive step :=
| SWrite (p : place)              (* p.ssbh_write(writer, data_ptr)?;               434, 441, 463, 471 *)
| SCast (r : string)              (* ( *self as r).ssbh_write(writer, data_ptr)?;    86 *)
| SMagic (bs : list Z)            (* b"..".ssbh_write(writer, data_ptr)?;           245 *)
| SPad (n : Z)                    (* writer.write_all(&[0u8; n])?;                  355 *)
| SAlign (n : Z).                 (* if n > 0 { seek to the end and pad }           362-374 *)

(** Patterns of the arms: [Self::A(v0, v1)] and [Self::A { x, y }]. *)
Inductive pat := PTuple (v : string) (xs : list string) | PNamed (v : string) (xs : list string).

Inductive wcode := WSteps (l : list step) | WMatch (arms : list (pat * list step)).

(** A summand [p.size_in_bytes() + n]. *)
Definition term : Type := place * Z.

(** The body of the emitted size_in_bytes: a cast; or [size] increased by a sum of terms or by
    a match, then by the padding and by the length of the magic. *)
Inductive scode :=
| ZCast (r : string)                                                   (* 89 *)
| ZSum (ts : list term) (pad magic : option Z)                         (* 229, 261, 396-402 *)
| ZMatch (arms : list (pat * (list term * Z))) (pad magic : option Z). (* 199-205, 396-402 *)

(** The body of the emitted alignment_in_bytes, 312-318. *)
Inductive acode := AConst (n : Z) | AOf (r : string) | ASelf.

Record impl := Impl { im_data : wcode; im_after : list step; im_size : scode; im_align : acode }.

(** ** The macro *)

(** 353-358 *)
Definition write_pad_after (o : options) : list step :=
  match op_pad o with Some n => [SPad n] | None => [] end.

(** 360-377 *)
Definition write_aligned_after (o : options) : list step :=
  match op_aligned o with Some n => [SAlign n] | None => [] end.

Definition opt0 (o : option Z) : Z := match o with Some n => n | None => 0 end.

(** The identifiers v0, v1, .. (418, 469, 519) *)
Definition index (i : nat) : string := NilEmpty.string_of_uint (Nat.to_uint i).
Definition vi (i : nat) : string := "v" ++ index i.

(** 405-420 *)
Definition field_names (fs : list fld) : list string := map f_name fs.
Definition field_names_unnamed (fs : list fld) : list string := map vi (seq 0 (List.length fs)).

(** The receivers for the fields in order: 422-478 and 480-526 with include_self. *)
Definition places_named (fs : list fld) (include_self : bool) : list place :=
  map (fun f => if include_self then PField (f_name f) else PVar (f_name f)) fs.
Definition places_unnamed (fs : list fld) (include_self : bool) : list place :=
  map (fun i => if include_self then PIndex i else PVar (vi i)) (seq 0 (List.length fs)).

(** write_named_fields and write_unnamed_fields, 422-478 *)
Fixpoint field_steps (fs : list fld) (ps : list place) : res (list step) :=
  match fs, ps with
  | f :: fr, p :: pr =>
      let* o := get_write_options (f_attrs f) in
      let* r := field_steps fr pr in
      Ok (SWrite p :: write_pad_after o ++ write_aligned_after o ++ r)%list
  | _, _ => Ok []
  end.

(** size_named_fields and size_unnamed_fields, 480-526 *)
Fixpoint field_terms (fs : list fld) (ps : list place) : res (list term) :=
  match fs, ps with
  | f :: fr, p :: pr =>
      let* o := get_write_options (f_attrs f) in
      let* r := field_terms fr pr in
      Ok ((p, opt0 (op_pad o)) :: r)
  | _, _ => Ok []
  end.

(** [fields.iter()] over the fields of a variant with the pattern of its arm. *)
Definition arm_of (v : evariant) : res (list fld * list place * pat) :=
  match v_fields v with
  | FUnnamed fs => Ok (fs, places_unnamed fs false, PTuple (v_name v) (field_names_unnamed fs))
  | FNamed fs => Ok (fs, places_named fs false, PNamed (v_name v) (field_names fs))
  | FUnit => Panic                                                     (* 154, 194 *)
  end.

(** 120-157 *)
Fixpoint variant_steps (vs : list evariant) : res (list (pat * list step)) :=
  match vs with
  | [] => Ok []
  | v :: r =>
      let* o := get_write_options (v_attrs v) in
      let* (fp, p) := arm_of v in
      let* l := field_steps (fst fp) (snd fp) in
      let* r := variant_steps r in
      Ok ((p, l ++ write_pad_after o ++ write_aligned_after o)%list :: r)
  end.

(** 166-197 *)
Fixpoint variant_terms (vs : list evariant) : res (list (pat * (list term * Z))) :=
  match vs with
  | [] => Ok []
  | v :: r =>
      let* o := get_write_options (v_attrs v) in
      let* (fp, p) := arm_of v in
      let* l := field_terms (fst fp) (snd fp) in
      let* r := variant_terms r in
      Ok ((p, (l, opt0 (op_pad o))) :: r)
  end.

(** 379-403: what is added for the padding and the magic *)
Definition magic_len (o : options) : option Z := option_map (@zlen Z) (op_magic o).

(** 237-267, 218-235, 116-215 and 83-104 *)
Definition data_and_size (it : item) (o : options) : res (wcode * scode) :=
  match op_repr o with
  | Some r => Ok (WSteps [SCast r], ZCast r)
  | None =>
      match i_data it with
      | DStruct (FNamed fs) =>
          let* l := field_steps fs (places_named fs true) in
          let* z := field_terms fs (places_named fs true) in
          let m := match op_magic o with Some bs => [SMagic bs] | None => [] end in
          Ok (WSteps (m ++ l), ZSum z (op_pad o) (magic_len o))
      | DStruct (FUnnamed fs) =>
          let* z := field_terms fs (places_unnamed fs true) in
          let* l := field_steps fs (places_unnamed fs true) in
          Ok (WSteps l, ZSum z (op_pad o) (magic_len o))
      | DEnum vs =>
          let* l := variant_steps vs in
          let* z := variant_terms vs in
          Ok (WMatch l, ZMatch z (op_pad o) (magic_len o))
      | _ => Panic                                                     (* 102 *)
      end
  end.

(** 69-114 and 297-351 *)
Definition derive (it : item) : res impl :=
  let* o := get_write_options (i_attrs it) in
  let* (w, z) := data_and_size it o in
  Ok (Impl w (write_pad_after o ++ write_aligned_after o)%list z
        (match op_alignment o with
         | Some n => AConst n
         | None => match op_repr o with Some r => AOf r | None => ASelf end
         end)).

(** ** Executing the emitted code *)

(** A value behind the trait: its ssbh_write and its size_in_bytes. *)
Record obj := Obj { o_write : wst -> res wst; o_size : res Z }.

(** A value of the item: the name of its variant and its discriminant (for enums), and its
    components with their names; the components of a tuple are found by position. *)
Record self := Self { s_variant : string; s_disc : Z; s_comps : list (string * obj) }.

Fixpoint assoc {A} (x : string) (l : list (string * A)) : option A :=
  match l with
  | [] => None
  | (y, a) :: r => if (x =? y)%string then Some a else assoc x r
  end.

(** Code that rustc rejects is [Err EType]. *)
Definition get {A} (o : option A) : res A := match o with Some a => Ok a | None => Err EType end.

(** [std::mem::size_of] the primitive integers; the cast is to an integer type. *)
Definition width (r : string) : res Z :=
  (if r =? "u8" then Ok 1 else if r =? "u16" then Ok 2 else if r =? "u32" then Ok 4
   else if r =? "u64" then Ok 8 else if r =? "u128" then Ok 16
   else if r =? "i8" then Ok 1 else if r =? "i16" then Ok 2 else if r =? "i32" then Ok 4
   else if r =? "i64" then Ok 8 else if r =? "i128" then Ok 16 else Err EType)%string.

Definition receiver (self : self) (env : list (string * obj)) (p : place) : res obj :=
  match p with
  | PField f => get (assoc f (s_comps self))
  | PIndex i => get (option_map snd (nth_error (s_comps self) i))
  | PVar x => get (assoc x env)
  end.

(** The environment of an arm. *)
Definition bind_named (xs : list string) (self : self) : res (list (string * obj)) :=
  (fix go xs := match xs with
                | [] => Ok []
                | x :: r => let* o := get (assoc x (s_comps self)) in
                            let* r := go r in
                            Ok ((x, o) :: r)
                end) xs.

Definition bind_pat (p : pat) (self : self) : res (list (string * obj)) :=
  match p with
  | PTuple _ xs => Ok (combine xs (map snd (s_comps self)))
  | PNamed _ xs => bind_named xs self
  end.

Definition pat_variant (p : pat) : string := match p with PTuple v _ | PNamed v _ => v end.

(** The arm taken: the variants of an enum have different names. *)
Fixpoint find_arm {A} (v : string) (arms : list (pat * A)) : option (pat * A) :=
  match arms with
  | [] => None
  | (p, a) :: r => if (v =? pat_variant p)%string then Some (p, a) else find_arm v r
  end.

(** A statement.  A variable of the arm that is called [writer] or [data_ptr] hides the
    argument of the method, and the call does not type check. *)
Definition shadowed (env : list (string * obj)) : bool :=
  match assoc "writer" env, assoc "data_ptr" env with None, None => false | _, _ => true end.

Definition run_step (self : self) (env : list (string * obj)) (x : step) (s : wst) : res wst :=
  if shadowed env then Err EType else
  match x with
  | SWrite p => let* o := receiver self env p in o_write o s
  | SCast r => let* w := width r in write (TInt w) (VInt (s_disc self)) s
  | SMagic bs => write (TFix (zlen bs) (TInt 1)) (VArr (map VInt bs)) s
  | SPad n => Ok (emit (zeros n) s)
  | SAlign n => Ok (Ssbh.align_after n s)
  end.

Fixpoint run_steps (self : self) (env : list (string * obj)) (l : list step) (s : wst) : res wst :=
  match l with
  | [] => Ok s
  | x :: r => let* s := run_step self env x s in run_steps self env r s
  end.

(** A sum of terms; an empty one is not an expression of type u64. *)
Fixpoint eval_terms (self : self) (env : list (string * obj)) (l : list term) : res Z :=
  match l with
  | [] => Err EType
  | [(p, n)] => let* o := receiver self env p in let* z := o_size o in Ok (z + n)
  | (p, n) :: r =>
      let* o := receiver self env p in
      let* z := o_size o in
      let* y := eval_terms self env r in
      Ok (z + n + y)
  end.

Definition eval_size (z : scode) (self : self) : res Z :=
  match z with
  | ZCast r => width r
  | ZSum l pad m =>
      let* n := eval_terms self [] l in Ok (n + opt0 pad + opt0 m)
  | ZMatch arms pad m =>
      let* (p, lk) := get (find_arm (s_variant self) arms) in
      let* env := bind_pat p self in
      let* n := eval_terms self env (fst lk) in
      Ok (n + snd lk + opt0 pad + opt0 m)
  end.

Definition run_data (w : wcode) (self : self) (s : wst) : res wst :=
  match w with
  | WSteps l => run_steps self [] l s
  | WMatch arms =>
      let* (p, l) := get (find_arm (s_variant self) arms) in
      let* env := bind_pat p self in
      run_steps self env l s
  end.

(** 320-339 *)
Definition run_write (im : impl) (self : self) (s : wst) : res wst :=
  let* n := eval_size (im_size im) self in
  let* s := run_data (im_data im) self (bump n s) in
  run_steps self [] (im_after im) s.

(** 345-347; [self_align] is what rustc makes of align_of::<Self>() *)
Definition eval_align (a : acode) (self_align : Z) : res Z :=
  match a with AConst n => Ok n | AOf r => width r | ASelf => Ok self_align end.
