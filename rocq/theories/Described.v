(** Which descriptors the general theorems are about.  These are decidable conditions;
    every descriptor of a supported file format meets them, which is checked by
    computation (see [versions_ok] in FileFacts.v). *)
From Verif Require Import Bytes Ssbh.

Notation field := (ty * (Z * Z))%type.

(** ** Well-formed descriptors

    [csize t] is the fixed inline size of [t].  Mode [MInline] describes types that
    can be laid out inline (in structs and arrays): the reader's padding attributes
    agree with the writer's.  [MTail] additionally allows trailing padding that is only
    written, as in BlendStateV16, which is fine for the target of a pointer.  [MPtr]
    is [MTail] or a C string. *)
Inductive mode := MInline | MTail | MPtr.

Fixpoint csize (t : ty) : Z :=
  match t with
  | TInt w | TRepr w _ _ | TBits w => w
  | TUnit => 0
  | TStruct fs spad _ _ =>
      (fix go (fs : list field) : Z :=
         match fs with [] => 0 | (t', (wp, _)) :: r => csize t' + wp + go r end) fs + spad
  | TRel _ => 8
  | TAbs w _ => w
  | TArr _ | TBuf | TEnum _ => 16
  | TCStr _ => 0
  | TFix n t' | TVec n t' => n * csize t'
  end.

Fixpoint twf (m : mode) (t : ty) : bool :=
  match t with
  | TInt w | TBits w => 0 <? w
  | TRepr w ra tags =>
      (0 <? w) && (0 <? ra) && forallb (fun n => (0 <=? n) && (n <? 256 ^ w)) tags
  | TUnit => true
  | TStruct fs spad aa al =>
      (aa =? 0) && (0 <=? spad) &&
      match al with Some a => 0 <? a | None => true end &&
      (fix go (fs : list field) : bool :=
         match fs with
         | [] => match m with MInline => spad =? 0 | _ => true end
         | (t', (wp, rp)) :: r =>
             (0 <=? wp) &&
             match r with
             | [] => match m with
                     | MInline => twf MInline t' && (wp + spad =? rp)
                     | _ => twf MTail t'
                     end
             | _ => twf MInline t' && (wp =? rp) && go r
             end
         end) fs
  | TRel t' => twf MPtr t'
  | TAbs w t' => (0 <? w) && twf MPtr t'
  | TArr t' => twf MInline t'
  | TBuf => true
  | TCStr n => match m with MPtr => 0 <? n | _ => false end
  | TEnum vs =>
      (fix go (vs : list (Z * ty)) : bool :=
         match vs with
         | [] => true
         | (tg, t') :: r => (0 <=? tg) && (tg <? two64) && twf MTail t' && go r
         end) vs
  | TFix n t' | TVec n t' => (0 <=? n) && twf MInline t'
  end.

(** No absolute pointer occurs in the descriptor. *)
Fixpoint noabs (t : ty) : bool :=
  match t with
  | TAbs _ _ => false
  | TStruct fs _ _ _ =>
      (fix go (fs : list field) : bool :=
         match fs with [] => true | (t', _) :: r => noabs t' && go r end) fs
  | TRel t' | TArr t' | TFix _ t' | TVec _ t' => noabs t'
  | TEnum vs =>
      (fix go (vs : list (Z * ty)) : bool :=
         match vs with [] => true | (_, t') :: r => noabs t' && go r end) vs
  | _ => true
  end.

(** All alignments of pointed-to data divide [A]. *)
Fixpoint aln (A : Z) (t : ty) : bool :=
  match t with
  | TStruct fs _ _ _ =>
      (fix go (fs : list field) : bool :=
         match fs with [] => true | (t', _) :: r => aln A t' && go r end) fs
  | TRel t' | TAbs _ t' => (A mod ssbh_align t' =? 0) && aln A t'
  | TArr t' | TFix _ t' | TVec _ t' => aln A t'
  | TEnum vs =>
      (A mod enum_align vs =? 0) &&
      (fix go (vs : list (Z * ty)) : bool :=
         match vs with [] => true | (_, t') :: r => aln A t' && go r end) vs
  | _ => true
  end.

(** The same for 16. *)
Fixpoint al16 (t : ty) : bool :=
  match t with
  | TStruct fs _ _ _ =>
      (fix go (fs : list field) : bool :=
         match fs with [] => true | (t', _) :: r => al16 t' && go r end) fs
  | TRel t' | TAbs _ t' => (16 mod ssbh_align t' =? 0) && al16 t'
  | TArr t' | TFix _ t' | TVec _ t' => al16 t'
  | TEnum vs =>
      (16 mod enum_align vs =? 0) &&
      (fix go (vs : list (Z * ty)) : bool :=
         match vs with [] => true | (_, t') :: r => al16 t' && go r end) vs
  | _ => true
  end.
