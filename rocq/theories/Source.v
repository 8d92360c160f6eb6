(** Saving a file with the code that the derive macro emits for the items of the repository
    (Items.v), and what the macro accepts.  Paths below are relative to /repo. *)
From Verif Require Import Bytes Ssbh Formats File Derive Elab Items.
Open Scope string_scope.
Open Scope Z_scope.

(** The enum of each format, ssbh_lib/src/formats/*.rs *)
Definition format_name (k : kind) : string :=
  match k with
  | Hlpb => "hlpb::Hlpb" | Matl => "matl::Matl" | Modl => "modl::Modl" | Mesh => "mesh::Mesh"
  | Skel => "skel::Skel" | Anim => "anim::Anim" | Nlst => "nlst::Nlst" | Nrpd => "nrpd::Nrpd"
  | Nufx => "nufx::Nufx" | Shdr => "shdr::Shdr"
  end.

(** Enough for the nesting of the types of the repository. *)
Definition depth : nat := 40.

Fixpoint find_version {A} (v : Z * Z) (l : list ((Z * Z) * A)) : option A :=
  match l with
  | [] => None
  | (v', a) :: r => if ver_eqb v v' then Some a else find_version v r
  end.

(** SsbhFile::write into a fresh cursor, with write_ssbh_file (ssbh_lib/src/lib.rs:792-808)
    calling the emitted size_in_bytes and ssbh_write of the enum of the format. *)
Definition source_write (f : ssbh_file) : res (list Z) :=
  match elab_variants items depth (format_name (fkind f)) with
  | Some (it, vs) =>
      match find_version (fver f) vs, fbody f with
      | Some (name, cs), VStruct body =>
          let x := self_of it name 0 (objs cs body) in
          let s := write_ssbh_header (file_write_magic (fkind f)) fresh in
          let* n := item_size it x in
          let s := set_dp (wpos s + (n + 4)) s in
          let s := emit (le_bytes 2 (snd (fver f))) (emit (le_bytes 2 (fst (fver f))) s) in
          let* s := item_write it x s in
          Ok (wbuf s)
      | _, _ => Err EType
      end
  | None => Err EType
  end.

(** The type of the argument [t], with [n] the length of its Vec, if it has one. *)
Definition source_ty (n : Z) (t : rty) : option ty :=
  match elab items n depth t with Some c => erase c | None => None end.

(** ** What the macro accepts, read off its panics *)

(** A known key with an argument that fits. *)
Definition key_ok (m : meta) : bool :=
  match m with
  | MNameValue [k] v =>
      ((k =? "magic") ||
       ((k =? "pad_after") || (k =? "align_after") || (k =? "alignment")) &&
       match v with LInt n => ((0 <=? n) && (n <? two64))%Z | _ => true end)%string
  | MNameValue _ _ => false
  | _ => true
  end.

Definition attr_ok (a : attr) : bool :=
  if (at_path a =? "ssbhwrite")%string then
    match at_args a with Some l => forallb key_ok l | None => true end
  else true.

Definition attrs_ok (l : list attr) : bool := forallb attr_ok l.

(** #[ssbhwrite(repr(t))] is among the attributes, alone in its parentheses. *)
Definition has_repr (l : list attr) : bool :=
  existsb (fun a => (at_path a =? "ssbhwrite")%string &&
                    match at_args a with Some [MRepr _] => true | _ => false end) l.

Definition fields_accepted (fs : fields) : bool :=
  match fs with
  | FNamed l | FUnnamed l => forallb (fun f => attrs_ok (f_attrs f)) l
  | FUnit => false
  end.

Definition accepted (it : item) : bool :=
  attrs_ok (i_attrs it) &&
  (has_repr (i_attrs it) ||
   match i_data it with
   | DStruct fs => fields_accepted fs
   | DEnum vs => forallb (fun v => attrs_ok (v_attrs v) && fields_accepted (v_fields v)) vs
   | DUnion => false
   end).
