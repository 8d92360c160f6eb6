(** The room the data behind the pointers of a value takes, by the value alone. *)
From Verif Require Import Bytes Ssbh Described SsbhSpec Formats MeshEx.

(** [space A t v]: the sizes of all objects that can be reached from the value [v] of type [t],
    each rounded up to a multiple of [A].  With [A = 1] these are the bytes of the objects
    themselves. *)
Fixpoint space (A : Z) (t : ty) (v : val) : Z :=
  match t, v with
  | TStruct fs _ _ _, VStruct vs =>
      (fix go (fs : list (ty * (Z * Z))) (vs : list val) : Z :=
         match fs, vs with
         | (t', _) :: fr, v' :: vr => space A t' v' + go fr vr
         | _, _ => 0
         end) fs vs
  | TRel t', VPtr (Some v') | TAbs _ t', VPtr (Some v') => round_up (object_size t' v') A + space A t' v'
  | TArr t', VArr vs => round_up (zlen vs * inline_size t') A + fold_right (fun v' n => space A t' v' + n) 0 vs
  | TBuf, VBytes bs => round_up (zlen bs) A
  | TEnum cs, VPtr (Some (VCase tag v')) =>
      (fix go (cs : list (Z * ty)) : Z :=
         match cs with
         | [] => 0
         | (tg, t') :: r => if tag =? tg then round_up (object_size t' v') A + space A t' v' else go r
         end) cs
  | TFix _ t', VArr vs | TVec _ t', VArr vs => fold_right (fun v' n => space A t' v' + n) 0 vs
  | _, _ => 0
  end.

(** The same for the four pointers of a MeshEx file, with [A = 16]. *)
Definition meshex_space (x : meshex) : Z :=
  space 16 (TAbs 8 AllData) (VPtr (mx_all x)) + space 16 (groups_ty (opt_len (mx_groups x))) (vec_ptr (mx_groups x)) +
  space 16 (entries_ty (opt_len (mx_entries x))) (vec_ptr (mx_entries x)) + space 16 (flags_ty (opt_len (mx_flags x))) (flags_ptr (mx_flags x)).
