(** The space that values read from a file of a known length can take. *)
From Verif Require Import Bytes Ssbh Described SsbhSpec Formats File.

(** No text, buffer or array of the value is longer than one that can be read from [L] bytes:
    text and buffers have at most [L] bytes, and the elements of an array start inside. *)
Fixpoint within (L : Z) (t : ty) (v : val) : bool :=
  match t, v with
  | TStruct fs _ _ _, VStruct vs =>
      (fix go (fs : list (ty * (Z * Z))) (vs : list val) : bool :=
         match fs, vs with
         | (t', _) :: fr, v' :: vr => within L t' v' && go fr vr
         | _, _ => true
         end) fs vs
  | TRel t', VPtr (Some v') | TAbs _ t', VPtr (Some v') => within L t' v'
  | TArr t', VArr vs => (zlen vs <=? L / inline_size t' + 1) && forallb (within L t') vs
  | TBuf, VBytes bs | TCStr _, VBytes bs => zlen bs <=? L
  | TEnum cs, VPtr (Some (VCase tag v')) =>
      (fix go (cs : list (Z * ty)) : bool :=
         match cs with [] => true | (tg, t') :: r => if tag =? tg then within L t' v' else go r end) cs
  | TFix _ t', VArr vs | TVec _ t', VArr vs => forallb (within L t') vs
  | _, _ => true
  end.

(** Bytes of an object, rounded up to 8. *)
Definition most_object (L : Z) (t : ty) : Z :=
  match t with TCStr n => L + 8 + n | _ => csize t + 8 end.

(** A bound for the space of such a value. *)
Fixpoint most (L : Z) (t : ty) : Z :=
  match t with
  | TStruct fs _ _ _ =>
      (fix go (fs : list (ty * (Z * Z))) : Z := match fs with [] => 0 | (t', _) :: r => most L t' + go r end) fs
  | TRel t' | TAbs _ t' => most_object L t' + most L t'
  | TArr t' => let n := L / inline_size t' + 1 in n * inline_size t' + 8 + n * most L t'
  | TBuf => L + 8
  | TEnum cs =>
      (fix go (cs : list (Z * ty)) : Z := match cs with [] => 0 | (_, t') :: r => Z.max (most_object L t' + most L t') (go r) end) cs
  | TFix n t' | TVec n t' => n * most L t'
  | _ => 0
  end.

(** The first bytes of a value are those of a number or an offset. *)
Fixpoint lead (t : ty) : bool :=
  match t with
  | TInt w | TRepr w _ _ | TBits w | TAbs w _ => 0 <? w
  | TStruct ((t', _) :: _) _ _ _ => lead t'
  | TRel _ | TArr _ | TBuf | TEnum _ => true
  | TFix n t' | TVec n t' => (0 <? n) && lead t'
  | _ => false
  end.
(** So do all elements of arrays in the type. *)
Fixpoint leads (t : ty) : bool :=
  match t with
  | TStruct fs _ _ _ =>
      (fix go (fs : list (ty * (Z * Z))) : bool := match fs with [] => true | (t', _) :: r => leads t' && go r end) fs
  | TRel t' | TAbs _ t' | TFix _ t' | TVec _ t' => leads t'
  | TArr t' => lead t' && (0 <? inline_size t') && leads t'
  | TEnum cs => (fix go (cs : list (Z * ty)) : bool := match cs with [] => true | (_, t') :: r => leads t' && go r end) cs
  | _ => true
  end.

(** Length of files of each type up to which [most] stays below 2^63: powers of two from 512 KiB
    for meshes and animations, which nest arrays three times, to 8 GiB. *)
Definition reload_limit (k : kind) : Z :=
  match k with
  | Hlpb | Skel | Shdr => 2 ^ 33
  | Modl | Nlst => 2 ^ 32
  | Matl => 2 ^ 24
  | Nrpd | Nufx => 2 ^ 23
  | Mesh | Anim => 2 ^ 19
  end.
