(** binrw's derive macro BinRead: [gen_read] is the code it stands for, from the declarations
    (Items.v, SerdeItems.v) and their #[br(...)] attributes.  binrw is not part of the repository;
    the rules are those of its documentation for the attributes the declarations use: magic, align_before,
    repr, pad_after, temp, args and pre_assert.  Paths below are relative to /repo.

    Types with a hand-written BinRead are read as in [read] (Ssbh.v).  When no variant of an enum
    can be read binrw reports all errors; here the first error of a variant that was not ruled
    out by its magic or pre_assert stands for them. *)
From Verif Require Import Bytes Ssbh Formats File Derive Elab Items SerdeItems Serde.
Open Scope string_scope.
Open Scope Z_scope.

(** ** Attributes *)

(** The padding after a field; [None]: other attributes *)
Definition pad_after (l : list attr) : option Z :=
  match attr_args "br" l with
  | [] => Some 0
  | [MNameValue [k] (LInt n)] => if (k =? "pad_after")%string then Some n else None
  | _ => None
  end.
(** #[br(repr(uN))] *)
Definition br_repr (l : list attr) : option Z :=
  match attr_args "br" l with
  | [MRepr r] => match width r with Ok w => Some w | _ => None end
  | _ => None
  end.
(** #[br(align_before = n)] *)
Definition align_before (l : list attr) : option Z :=
  match attr_args "br" l with
  | [MNameValue [k] (LInt n)] => if (k =? "align_before")%string then Some n else None
  | _ => None
  end.

(** ** Enums *)

(** The variants in order, each with whether its magic or pre_assert holds; the position goes
    back after an error. *)
Fixpoint first_variant {A} (seen : option err) (vs : list (bool * res A)) : res A :=
  match vs with
  | [] => Err (match seen with Some e => e | None => ENoVariant end)
  | (false, _) :: r => first_variant seen r
  | (true, Ok a) :: _ => Ok a
  | (true, Err e) :: r => first_variant (match seen with Some e0 => Some e0 | None => Some e end) r
  | (true, Panic) :: _ => Panic
  end.

(** ** Types *)
Fixpoint gen_read (c : cty) (b : list Z) (p : Z) : res (val * Z) :=
  match c with
  | CLib t => read t b p
  | CRel c =>
      (* ssbh_lib/src/lib.rs:455-476 *)
      let* (relative_offset, saved_pos) := read_int 8 b p in
      if relative_offset =? 0 then Ok (VPtr None, saved_pos)
      else
        let* seek_pos := absolute_offset_checked p relative_offset in
        let* (v, _) := gen_read c b seek_pos in
        Ok (VPtr (Some v), saved_pos)
  | CAbs w c =>
      (* ssbh_lib/src/lib.rs:371-389 *)
      let* (offset, saved_pos) := read_int w b p in
      if offset =? 0 then Ok (VPtr None, saved_pos)
      else
        let* (v, _) := gen_read c b offset in
        Ok (VPtr (Some v), saved_pos)
  | CArr c =>
      (* ssbh_lib/src/arrays.rs:270-290 *)
      let* (relative_offset, p1) := read_int 8 b p in
      let* (element_count, saved_pos) := read_int 8 b p1 in
      let* seek_pos := absolute_offset_checked p relative_offset in
      let* (vs, _) := read_elements (gen_read c b) element_count seek_pos in
      Ok (VArr vs, saved_pos)
  | CFix n c | CVec n c =>
      let* (vs, p') := read_elements (gen_read c b) n p in Ok (VArr vs, p')
  | CItem it cs =>
      match i_data it with
      | DStruct fs =>
          let* (vs, p') :=
            (fix go (fs : list fld) (cs : list cty) (p : Z) {struct cs} : res (list val * Z) :=
               match fs, cs with
               | f :: fr, c :: cr =>
                   let* (v, p1) := gen_read c b p in
                   let* n := get (pad_after (f_attrs f)) in
                   let* (vs, p2) := go fr cr (p1 + n) in
                   Ok (v :: vs, p2)
               | _, _ => Ok ([], p)
               end) (fields_list fs) cs p in
          Ok (VStruct vs, p')
      | DEnum vs =>
          let* w := get (br_repr (i_attrs it)) in
          let* (n, p') := read_int w b p in
          if existsb (Z.eqb n) (discriminants 0 vs) then Ok (VInt n, p') else Err ENoVariant
      | DUnion => Err EType
      end
  | CCase it vs =>
      (* ssbh_lib/src/enums.rs:91-117 and the pre_asserts of ssbh_enum!, 147-163 *)
      let* (relative_offset, p1) := read_int 8 b p in
      let* (data_type, saved_pos) := read_int 8 b p1 in
      if relative_offset =? 0 then Ok (VPtr None, saved_pos)
      else
        let* seek_pos := absolute_offset_checked p relative_offset in
        let* (v, _) :=
          first_variant None
            ((fix gov (vs : list (Z * (string * list cty))) : list (bool * res (val * Z)) :=
                match vs with
                | [] => []
                | (tag, (name, cs)) :: r =>
                    (data_type =? tag,
                     let* v := get (find_variant name (variants it)) in
                     let* (vs, q) :=
                       (fix go (fs : list fld) (cs : list cty) (p : Z) {struct cs} : res (list val * Z) :=
                          match fs, cs with
                          | f :: fr, c :: cr =>
                              let* (v, p1) := gen_read c b p in
                              let* n := get (pad_after (f_attrs f)) in
                              let* (vs, p2) := go fr cr (p1 + n) in
                              Ok (v :: vs, p2)
                          | _, _ => Ok ([], p)
                          end) (fields_list (v_fields v)) cs seek_pos in
                     Ok (VStruct vs, q)) :: gov r
                end) vs) in
        Ok (VPtr (Some (VCase data_type v)), saved_pos)
  end.

Section fields.
Context (b : list Z).
Fixpoint gen_fields (fs : list fld) (cs : list cty) (p : Z) {struct cs} : res (list val * Z) :=
  match fs, cs with
  | f :: fr, c :: cr =>
      let* (v, p1) := gen_read c b p in
      let* n := get (pad_after (f_attrs f)) in
      let* (vs, p2) := gen_fields fr cr (p1 + n) in
      Ok (v :: vs, p2)
  | _, _ => Ok ([], p)
  end.
End fields.

(** ** Files *)
Section files.
Context (ds : list decl) (fuel : nat).

(** The enum of a format, with the version passed as argument: ssbh_lib/src/formats/*.rs *)
Definition gen_format (name : string) (ver : Z * Z) (b : list Z) (p : Z) : res (val * Z) :=
  match elab_variants ds fuel name with
  | Some (it, l) =>
      first_variant None
        (map (fun x : (Z * Z) * (string * list cty) =>
                (ver_eqb ver (fst x),
                 match find_variant (fst (snd x)) (variants it) with
                 | Some v =>
                     let* (vs, q) := gen_fields b (fields_list (v_fields v)) (snd (snd x)) p in
                     Ok (VStruct vs, q)
                 | None => Err EType
                 end)) l)
  | None => Err EType
  end.

(** Versioned<T>, ssbh_lib/src/lib.rs:540-554: the temporary fields are the arguments of T *)
Definition gen_versioned (t : rty) (b : list Z) (p : Z) : res (((Z * Z) * val) * Z) :=
  match t with
  | RPath x [RPath y []] =>
      match find_decl x ds with
      | Some (DeclItem (Item _ [v] _ (DStruct (FNamed [f; g; h])))) =>
          match f_ty f, f_ty g, f_ty h with
          | RPath major [], RPath minor [], RPath v' [] =>
              if has_word "br" "temp" (f_attrs f) && has_word "br" "temp" (f_attrs g) && (v =? v')%string then
                let* w1 := width major in
                let* w2 := width minor in
                let* (a, p1) := read_int w1 b p in
                let* (c, p2) := read_int w2 b p1 in
                let* (body, q) := gen_format y (a, c) b p2 in
                Ok (((a, c), body), q)
              else Err EType
          | _, _, _ => Err EType
          end
      | _ => Err EType
      end
  | _ => Err EType
  end.

(** Ssbh, ssbh_lib/src/lib.rs:503-537: the variant, the version and the value *)
Definition gen_ssbh (x : string) (b : list Z) (p : Z) : res ((string * ((Z * Z) * val)) * Z) :=
  match find_decl x ds with
  | Some (DeclItem (Item _ [] _ (DEnum vs))) =>
      first_variant None
        (map (fun v =>
                match br_magic (v_attrs v), v_fields v with
                | Some m, FUnnamed [f] =>
                    match get_bytes (List.length m) b p with
                    | None => (true, Err EEof)
                    | Some m' =>
                        (list_eqb m' m,
                         let* (r, q) := gen_versioned (f_ty f) b (p + zlen m) in Ok ((v_name v, r), q))
                    end
                | _, _ => (true, Err EType)
                end) vs)
  | _ => Err EType
  end.

(** SsbhFile, ssbh_lib/src/lib.rs:493-501, from position [p] *)
Definition gen_file (b : list Z) (p : Z) : res ((string * ((Z * Z) * val)) * Z) :=
  match find_decl "lib::SsbhFile" ds with
  | Some (DeclItem (Item _ [] attrs (DStruct (FNamed [f])))) =>
      match br_magic attrs, align_before (f_attrs f), f_ty f with
      | Some m, Some n, RPath x [] =>
          match get_bytes (List.length m) b p with
          | None => Err EEof
          | Some m' => if list_eqb m' m then gen_ssbh x b (round_up (p + zlen m) n) else Err EBadMagic
          end
      | _, _, _ => Err EType
      end
  | _ => Err EType
  end.
End files.
