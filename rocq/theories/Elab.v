(** The types of the crates as the compiler sees them: declarations (transcribed in Items.v) are
    elaborated to trees whose nodes are library types and items deriving SsbhWrite.
    [gen_write] runs the code emitted by the macro for every item in such a tree, and the
    hand-written impls of the library for the others; [erase] is the descriptor ([ty]) the
    attributes of the items stand for.  Paths below are relative to /repo. *)
From Verif Require Import Bytes Ssbh Derive.
Open Scope string_scope.
Open Scope Z_scope.

(** ** Declarations *)
Inductive decl :=
(* a struct or enum with #[derive(SsbhWrite)] *)
| DeclItem (it : item)
(* pub type name<params> = t *)
| DeclAlias (name : string) (params : list string) (t : rty)
(* ssbh_write_modular_bitfield_impl!(name, w), ssbh_write/src/lib.rs:173-202 *)
| DeclBits (name : string) (w : Z)
(* ssbh_enum!(name, tag => variant(body), ..), ssbh_lib/src/enums.rs:147-174 *)
| DeclCase (name : string) (vs : list (Z * (string * rty))).

(** ssbh_lib/src/enums.rs:150-163: the enum declared by ssbh_enum! *)
Definition case_item (name : string) (vs : list (Z * (string * rty))) : item :=
  Item name [] [] (DEnum (map (fun x => Variant (fst (snd x)) [] None (FUnnamed [Fld "0" [] (snd (snd x))])) vs)).

Definition decl_name (d : decl) : string :=
  match d with DeclItem it => i_name it | DeclAlias n _ _ | DeclBits n _ | DeclCase n _ => n end.

Fixpoint find_decl (x : string) (ds : list decl) : option decl :=
  match ds with
  | [] => None
  | d :: r => if (x =? decl_name d)%string then Some d else find_decl x r
  end.

(** ** Elaborated types *)
Inductive cty :=
| CLib (t : ty)                                     (* written by an impl without type arguments *)
| CRel (c : cty)                                    (* RelPtr64<c> *)
| CAbs (w : Z) (c : cty)                            (* Ptr<P, c> *)
| CArr (c : cty)                                    (* SsbhArray<c> *)
| CFix (n : Z) (c : cty)                            (* [c; n] *)
| CVec (n : Z) (c : cty)                            (* Vec<c> *)
| CItem (it : item) (cs : list cty)                 (* a struct, or a fieldless enum, and its fields *)
| CCase (it : item) (vs : list (Z * (string * list cty))).   (* SsbhEnum64<it> *)

(** Replacing type parameters. *)
Fixpoint subst (env : list (string * rty)) (t : rty) : rty :=
  match t with
  | RPath x args =>
      match assoc x env with
      | Some t' => t'
      | None => RPath x (map (subst env) args)
      end
  | RFix t n => RFix (subst env t) n
  | _ => t
  end.

(** The types with impls in ssbh_write/src/lib.rs:73-89, 229, ssbh_lib/src/strings.rs:132-156 and
    ssbh_lib/src/arrays.rs:311-338. *)
Definition prim (name : string) (args : list rty) : option ty :=
  match args with
  | [] =>
      if name =? "SsbhByteBuffer" then Some TBuf
      else if name =? "f32" then Some (TInt 4)
      else if name =? "f64" then Some (TInt 8)
      else match width name with Ok w => Some (TInt w) | _ => None end
  | [RConst n] => if name =? "CString" then Some (TCStr n) else None
  | _ => None
  end%string.

(** The types of the fields of an item. *)
Definition fields_list (fs : fields) : list fld :=
  match fs with FNamed l | FUnnamed l => l | FUnit => [] end.
Definition item_fields (it : item) : list fld :=
  match i_data it with DStruct fs => fields_list fs | _ => [] end.

Fixpoint omap {A B} (f : A -> option B) (l : list A) : option (list B) :=
  match l with
  | [] => Some []
  | a :: r => match f a, omap f r with Some b, Some r => Some (b :: r) | _, _ => None end
  end.

Section elab.
Context (ds : list decl) (len : Z).   (* [len]: the number of elements of a Vec *)

Fixpoint elab (fuel : nat) (t : rty) : option cty :=
  match fuel with
  | O => None
  | S k =>
      match t with
      | RUnit => Some (CLib TUnit)
      | RConst _ => None
      | RFix t n => option_map (CFix n) (elab k t)
      | RPath x args =>
          match prim x args with
          | Some t => Some (CLib t)
          | None =>
              match args with
              | [a] =>
                  if x =? "RelPtr64" then option_map CRel (elab k a)
                  else if x =? "SsbhArray" then option_map CArr (elab k a)
                  else if x =? "Vec" then option_map (CVec len) (elab k a)
                  else if x =? "SsbhEnum64" then
                    match a with
                    | RPath e [] =>
                        match find_decl e ds with
                        | Some (DeclCase n vs) =>
                            option_map (CCase (case_item n vs))
                              (omap (fun y => option_map (fun c => (fst y, (fst (snd y), [c])))
                                                (elab k (snd (snd y)))) vs)
                        | _ => None
                        end
                    | _ => None
                    end
                  else elab_decl k x args
              | [RPath p []; a] =>
                  if x =? "Ptr" then
                    match width p with Ok w => option_map (CAbs w) (elab k a) | _ => None end
                  else elab_decl k x args
              | _ => elab_decl k x args
              end
          end
      end
  end%string
with elab_decl (fuel : nat) (x : string) (args : list rty) : option cty :=
  match fuel with
  | O => None
  | S k =>
      match find_decl x ds with
      | Some (DeclItem it) =>
          if Nat.eqb (List.length args) (List.length (i_params it)) then
            option_map (CItem it)
              (omap (fun f => elab k (subst (combine (i_params it) args) (f_ty f))) (item_fields it))
          else None
      | Some (DeclAlias _ ps t) => elab k (subst (combine ps args) t)
      | Some (DeclBits _ w) => Some (CLib (TBits w))
      | _ => None
      end
  end.

End elab.

(** ** rustc's layout *)

(** Discriminants: an implicit one is the previous one plus one. *)
Fixpoint discriminants (next : Z) (vs : list evariant) : list Z :=
  match vs with
  | [] => []
  | v :: r =>
      let d := match v_disc v with Some d => d | None => next end in
      d :: discriminants (d + 1) r
  end.

Definition item_tags (it : item) : list Z :=
  match i_data it with DEnum vs => discriminants 0 vs | _ => [] end.

(** An explicit #[repr(uN)] on the item. *)
Fixpoint explicit_repr (l : list attr) : option Z :=
  match l with
  | [] => None
  | a :: r =>
      if (at_path a =? "repr")%string then
        match at_args a with
        | Some [MPath w] => match width w with Ok n => Some n | _ => explicit_repr r end
        | _ => explicit_repr r
        end
      else explicit_repr r
  end.

(** The size and alignment of a fieldless enum: its repr, or else the smallest integer that
    holds its discriminants (which are not negative here). *)
Definition enum_layout (it : item) : Z :=
  match explicit_repr (i_attrs it) with
  | Some n => n
  | None =>
      let m := fold_right Z.max 0 (item_tags it) in
      if m <? 256 then 1 else if m <? 65536 then 2 else if m <? 2 ^ 32 then 4 else 8
  end.

Definition fieldless (it : item) : bool :=
  match i_data it with DEnum _ => true | _ => false end.

(** [std::mem::align_of] *)
Fixpoint layout (c : cty) : Z :=
  match c with
  | CLib t => rust_align t
  | CRel c | CAbs _ c | CFix _ c => layout c
  | CArr _ | CVec _ _ => 8
  | CItem it cs =>
      if fieldless it then enum_layout it
      else (fix go cs := match cs with [] => 1 | c :: r => Z.max (layout c) (go r) end) cs
  | CCase _ vs =>
      (fix go vs :=
         match vs with
         | [] => 1
         | (_, (_, cs)) :: r =>
             Z.max ((fix go cs := match cs with [] => 1 | c :: r => Z.max (layout c) (go r) end) cs) (go r)
         end) vs
  end.

(** ** Running the emitted code *)

(** The names of the components of a value. *)
Definition comp_names (fs : fields) : list string :=
  match fs with
  | FNamed l => map f_name l
  | FUnnamed l => map index (seq 0 (List.length l))
  | FUnit => []
  end.

Fixpoint find_variant (v : string) (vs : list evariant) : option evariant :=
  match vs with
  | [] => None
  | x :: r => if (v =? v_name x)%string then Some x else find_variant v r
  end.

Definition variants (it : item) : list evariant := match i_data it with DEnum vs => vs | _ => [] end.

(** The fields that a value of variant [v] has; structs have no variants. *)
Definition shape (it : item) (v : string) : fields :=
  match i_data it with
  | DStruct fs => fs
  | DEnum vs => match find_variant v vs with Some x => v_fields x | None => FUnit end
  | DUnion => FUnit
  end.

(** A value of an item. *)
Definition self_of (it : item) (v : string) (disc : Z) (os : list obj) : self :=
  Self v disc (combine (comp_names (shape it v)) os).

Definition item_size (it : item) (x : self) : res Z :=
  let* im := derive it in eval_size (im_size im) x.
Definition item_write (it : item) (x : self) (s : wst) : res wst :=
  let* im := derive it in run_write im x s.
Definition item_align (it : item) (layout : Z) : res Z :=
  let* im := derive it in eval_align (im_align im) layout.

(** size_in_bytes of the library types as in [size]; of items as emitted. *)
Fixpoint gen_size (c : cty) (v : val) : res Z :=
  match c, v with
  | CLib t, _ => Ok (size t v)
  | CRel _, _ => Ok 8
  | CAbs w _, _ => Ok w
  | CArr _, _ => Ok 16
  | CFix _ c, VArr vs | CVec _ c, VArr vs =>
      match vs with
      | [] => Ok 0
      | v :: _ => let* n := gen_size c v in Ok (zlen vs * n)
      end
  | CItem it cs, VStruct vs =>
      item_size it (self_of it "" 0
        ((fix go cs vs : list obj :=
            match cs, vs with
            | c :: cr, v :: vr => Obj (fun _ => Err EType) (gen_size c v) :: go cr vr
            | _, _ => []
            end) cs vs))
  | CItem it _, VInt n => item_size it (self_of it "" n [])
  | CCase _ _, _ => Ok 16
  | _, _ => Err EType
  end.

(** alignment_in_bytes of the library types as in [ssbh_align]; of items as emitted. *)
Fixpoint gen_align (c : cty) : res Z :=
  match c with
  | CLib t => Ok (ssbh_align t)
  | CRel _ | CAbs _ _ | CFix _ _ | CCase _ _ => Ok (layout c)
  | CArr _ => Ok 8
  | CVec _ c => gen_align c
  | CItem it cs => item_align it (layout c)
  end.

(** The size of a slice, ssbh_write/src/lib.rs:125-131 *)
Definition gen_slice_size (c : cty) (vs : list val) : res Z :=
  match vs with [] => Ok 0 | v :: _ => let* n := gen_size c v in Ok (zlen vs * n) end.

(** ssbh_write of the library types as in [write]; of items as emitted. *)
Fixpoint gen_write (c : cty) (v : val) (s : wst) : res wst :=
  match c, v with
  | CLib t, _ => write t v s
  | CRel c, VPtr o =>
      let* a := gen_align c in
      write_relptr a (option_map (fun v' => gen_write c v') o) s
  | CAbs w c, VPtr o =>
      let* a := gen_align c in
      write_absptr w a (option_map (fun v' => gen_write c v') o) s
  | CArr c, VArr vs =>
      let s0 := bump 16 s in
      let* s1 := write_array_header (zlen vs) s0 in
      let pos_after_length := wpos s1 in
      let s2 := seek (wdp s1) s1 in
      let* n := gen_slice_size c vs in
      let* s3 := write_list (fun v' => gen_write c v') vs (bump n s2) in
      Ok (seek pos_after_length s3)
  | CFix n c, VArr vs | CVec n c, VArr vs =>
      if zlen vs =? n then
        let* z := gen_slice_size c vs in
        write_list (fun v' => gen_write c v') vs (bump z s)
      else Err EType
  | CItem it cs, VStruct vs =>
      item_write it (self_of it "" 0
        ((fix go cs vs : list obj :=
            match cs, vs with
            | c :: cr, v :: vr => Obj (fun s => gen_write c v s) (gen_size c v) :: go cr vr
            | _, _ => []
            end) cs vs)) s
  | CItem it _, VInt n => item_write it (self_of it "" n []) s
  | CCase it cases, VPtr o =>
      (* SsbhEnum64, ssbh_lib/src/enums.rs:121-140: the tag of a variant comes from the
         data_type emitted by ssbh_enum!, 164-172 *)
      let s0 := bump 16 s in
      let* a := item_align it (layout c) in
      match o with
      | None =>
          let* s1 := write_relptr a None s0 in
          Ok (emit (le_bytes 8 0) s1)
      | Some (VCase tag (VStruct vs)) =>
          let w :=
            (fix find (l : list (Z * (string * list cty))) : wst -> res wst :=
               match l with
               | [] => fun _ => Err EType
               | (tg, (name, cs)) :: r =>
                   if tag =? tg then
                     item_write it (self_of it name 0
                       ((fix go cs vs : list obj :=
                           match cs, vs with
                           | c :: cr, v :: vr => Obj (fun s => gen_write c v s) (gen_size c v) :: go cr vr
                           | _, _ => []
                           end) cs vs))
                   else find r
               end) cases in
          let* s1 := write_relptr a (Some w) s0 in
          Ok (emit (le_bytes 8 tag) s1)
      | Some _ => Err EType
      end
  | _, _ => Err EType
  end.

(** The components of a value. *)
Definition objs (cs : list cty) (vs : list val) : list obj :=
  (fix go cs vs : list obj :=
     match cs, vs with
     | c :: cr, v :: vr => Obj (fun s => gen_write c v s) (gen_size c v) :: go cr vr
     | _, _ => []
     end) cs vs.

(** A variant of a format enum, as written by [Versioned<T>] (ssbh_lib/src/lib.rs:556-577). *)
Definition gen_write_variant (it : item) (v : string) (cs : list cty) (vs : list val) (s : wst) : res wst :=
  item_write it (self_of it v 0 (objs cs vs)) s.

(** ** The descriptor of an item: what its attributes stand for *)

(** #[br(pad_after = n)]: bytes skipped by binrw after a field. *)
Fixpoint br_pad (l : list attr) : Z :=
  match l with
  | [] => 0
  | a :: r =>
      if (at_path a =? "br")%string then
        match at_args a with
        | Some [MNameValue ["pad_after"] (LInt n)] => n
        | _ => br_pad r
        end
      else br_pad r
  end.

(** A field: its padding when written and when read.  A field aligned afterwards has no
    descriptor. *)
Definition field_ty (f : fld) (t : ty) : option (ty * (Z * Z)) :=
  match get_write_options (f_attrs f) with
  | Ok o =>
      match op_aligned o with
      | None => Some (t, (opt0 (op_pad o), br_pad (f_attrs f)))
      | Some _ => None
      end
  | _ => None
  end.

Fixpoint fields_ty (fs : list fld) (ts : list ty) : option (list (ty * (Z * Z))) :=
  match fs, ts with
  | [], [] => Some []
  | f :: fr, t :: tr =>
      match field_ty f t, fields_ty fr tr with Some x, Some r => Some (x :: r) | _, _ => None end
  | _, _ => None
  end.

Fixpoint nodup (l : list string) : bool :=
  match l with
  | [] => true
  | x :: r => negb (existsb (String.eqb x) r) && nodup r
  end.

(** What rustc asks of the fields: at least one (the emitted sum is not empty) and different
    names; the variables of an arm do not hide the arguments of the method. *)
Definition fields_ok (fs : fields) (arm : bool) : bool :=
  match fs with
  | FNamed l =>
      negb (Nat.eqb (List.length l) 0) && nodup (map f_name l) &&
      negb (arm && (existsb (String.eqb "writer") (map f_name l) ||
                    existsb (String.eqb "data_ptr") (map f_name l)))
  | FUnnamed l => negb (Nat.eqb (List.length l) 0)
  | FUnit => false
  end.

(** The discriminants in increasing order: their order in the source does not matter. *)
Fixpoint insert (n : Z) (l : list Z) : list Z :=
  match l with
  | [] => [n]
  | m :: r => if n <=? m then n :: l else m :: insert n r
  end.
Definition sort (l : list Z) : list Z := fold_right insert [] l.

Definition none {A} (o : option A) : bool := match o with None => true | Some _ => false end.

(** A struct without repr and magic, or a fieldless enum with only a repr. *)
Definition struct_ty (it : item) (ts : list ty) : option ty :=
  match get_write_options (i_attrs it), i_data it with
  | Ok o, DStruct fs =>
      if none (op_repr o) && none (op_magic o) && fields_ok fs false then
        option_map (fun l => TStruct l (opt0 (op_pad o)) (opt0 (op_aligned o)) (op_alignment o))
          (fields_ty (fields_list fs) ts)
      else None
  | Ok o, DEnum vs =>
      match op_repr o, ts with
      | Some r, [] =>
          match width r with
          | Ok w =>
              if none (op_pad o) && none (op_aligned o) && none (op_alignment o) then
                Some (TRepr w (enum_layout it) (sort (item_tags it)))
              else None
          | _ => None
          end
      | _, _ => None
      end
  | _, _ => None
  end.

(** A variant of an enum: padding and alignment are given for the enum or for the variant,
    not both. *)
Definition variant_ty (it : item) (v : string) (ts : list ty) : option ty :=
  match get_write_options (i_attrs it), derive it, find_variant v (variants it) with
  | Ok o, Ok _, Some x =>
      match get_write_options (v_attrs x) with
      | Ok vo =>
          if none (op_repr o) && none (op_magic o) && none (op_alignment o) && fields_ok (v_fields x) true then
            match fields_ty (fields_list (v_fields x)) ts with
            | Some l =>
                if none (op_pad vo) && none (op_aligned vo) then
                  Some (TStruct l (opt0 (op_pad o)) (opt0 (op_aligned o)) None)
                else if none (op_pad o) && none (op_aligned o) then
                  Some (TStruct l (opt0 (op_pad vo)) (opt0 (op_aligned vo)) None)
                else None
            | None => None
            end
          else None
      | _ => None
      end
  | _, _, _ => None
  end.

(** An enum that the macro accepts, aligned as rustc aligns it. *)
Definition case_ok (it : item) : bool :=
  match get_write_options (i_attrs it), derive it with
  | Ok o, Ok _ => none (op_alignment o) && none (op_repr o)
  | _, _ => false
  end.

(** The descriptor of a type. *)
Fixpoint erase (c : cty) : option ty :=
  match c with
  | CLib t => Some t
  | CRel c => option_map TRel (erase c)
  | CAbs w c => option_map (TAbs w) (erase c)
  | CArr c => option_map TArr (erase c)
  | CFix n c => option_map (TFix n) (erase c)
  | CVec n c => option_map (TVec n) (erase c)
  | CItem it cs =>
      match (fix go cs := match cs with
                          | [] => Some []
                          | c :: r => match erase c, go r with Some t, Some l => Some (t :: l) | _, _ => None end
                          end) cs with
      | Some ts => struct_ty it ts
      | None => None
      end
  | CCase it vs =>
      if case_ok it then
      option_map TEnum
        ((fix gov vs :=
            match vs with
            | [] => Some []
            | (tag, (name, cs)) :: r =>
                match (fix go cs := match cs with
                                    | [] => Some []
                                    | c :: r => match erase c, go r with Some t, Some l => Some (t :: l) | _, _ => None end
                                    end) cs with
                | Some ts =>
                    match variant_ty it name ts, gov r with
                    | Some t, Some l => Some ((tag, t) :: l)
                    | _, _ => None
                    end
                | None => None
                end
            end) vs)
      else None
  end.

(** ** The variants of a format enum *)

(** #[br(pre_assert(major_version == a && minor_version == b))] *)
Fixpoint br_version (l : list attr) : option (Z * Z) :=
  match l with
  | [] => None
  | a :: r =>
      if (at_path a =? "br")%string then
        match at_args a with
        | Some [MVersion x y] => Some (x, y)
        | _ => br_version r
        end
      else br_version r
  end.

(** Version, name and elaborated fields of each variant. *)
Definition elab_variants (ds : list decl) (fuel : nat) (name : string)
  : option (item * list ((Z * Z) * (string * list cty))) :=
  match find_decl name ds with
  | Some (DeclItem it) =>
      option_map (fun l => (it, l))
        (omap (fun x =>
                 match br_version (v_attrs x), omap (fun f => elab ds 0 fuel (f_ty f)) (fields_list (v_fields x)) with
                 | Some ver, Some cs => Some (ver, (v_name x, cs))
                 | _, _ => None
                 end) (variants it))
  | _ => None
  end.

(** The versions of a format with their descriptors. *)
Definition elab_versions (ds : list decl) (fuel : nat) (name : string) : option (list ((Z * Z) * ty)) :=
  match elab_variants ds fuel name with
  | Some (it, l) =>
      omap (fun x =>
              match omap erase (snd (snd x)) with
              | Some ts => option_map (fun t => (fst x, t)) (variant_ty it (fst (snd x)) ts)
              | None => None
              end) l
  | None => None
  end.
