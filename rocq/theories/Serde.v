(** serde's derive macros: the JSON form ([schema], Json.v) of a type, from the declarations
    (Items.v, SerdeItems.v) and their attributes.  serde_derive is not part of the repository; the
    rules below are the ones of its documentation that the declarations of the repository use.
    Paths below are relative to /repo. *)
From Verif Require Import Bytes Ssbh Derive Elab Json.
Open Scope string_scope.
Open Scope Z_scope.

(** ** Attributes *)

Definition attr_args (path : string) (l : list attr) : list meta :=
  flat_map (fun a => if at_path a =? path then match at_args a with Some m => m | None => [] end else [])%string l.
Definition has_word (path word : string) (l : list attr) : bool :=
  existsb (fun m => match m with MPath w => (w =? word)%string | _ => false end) (attr_args path l).
(** #[serde(deserialize_with = "f")] *)
Definition reader_name (l : list attr) : option (list Z) :=
  match flat_map (fun m => match m with
                           | MNameValue [k] (LByteStr f) => if (k =? "deserialize_with")%string then [f] else []
                           | _ => []
                           end) (attr_args "serde" l) with
  | f :: _ => Some f
  | [] => None
  end.

(** #[br(temp)]: the field is removed by #[binread], before the derives see the struct
    (ssbh_lib/src/lib.rs:540, formats/meshex.rs:14, formats/adj.rs:13) *)
Definition kept_fields (fs : list fld) : list fld := filter (fun f => negb (has_word "br" "temp" (f_attrs f))) fs.

(** ** Types *)

(** The types without declaration in Items.v and without arguments. *)
Definition serde_prim (name : string) : option schema :=
  (if name =? "u8" then Some (SInt 1 false)
  else if name =? "u16" then Some (SInt 2 false)
  else if name =? "u32" then Some (SInt 4 false)
  else if name =? "u64" then Some (SInt 8 false)
  else if name =? "usize" then Some (SInt 8 false)
  else if name =? "i8" then Some (SInt 1 true)
  else if name =? "i16" then Some (SInt 2 true)
  else if name =? "i32" then Some (SInt 4 true)
  else if name =? "i64" then Some (SInt 8 true)
  else if name =? "f32" then Some SF32
  else if name =? "bool" then Some SBool
  else if name =? "String" then Some SText
  else if name =? "SsbhByteBuffer" then Some SBuf
  else None)%string.

(** Default::default() of the types of fields with #[serde(default)] *)
Definition default_of (s : schema) : option val :=
  match s with
  | SArr _ => Some (VArr [])
  | SRel _ | SAbs _ => Some (VPtr None)
  | SInt _ _ | SF32 | SBool => Some (VInt 0)
  | SText => Some (VBytes [])
  | _ => None
  end.

Fixpoint numbered {A} (n : Z) (l : list A) : list (Z * A) :=
  match l with [] => [] | a :: r => (n, a) :: numbered (n + 1) r end.

Definition is_unit (v : evariant) : bool := match v_fields v with FUnit => true | _ => false end.

Section derive.
Context (ds : list decl)
        (* the Default implementation of a struct with #[serde(default)]: its fields *)
        (default : string -> option (list val))
        (* the function given to deserialize_with, as a change of the form of the field *)
        (reader : list Z -> option (schema -> schema)).

(** A field of form [s]; [d]: the value of the default of its struct, with #[serde(default)] there *)
Definition field_schema (f : fld) (d : option val) (s : schema) : option schema :=
  match (match reader_name (f_attrs f) with
         | Some name => option_map (fun g => g s) (reader name)
         | None => Some s
         end) with
  | Some s' =>
      match d with
      | Some d => Some (SDef false d s')
      | None =>
          if has_word "serde" "default" (f_attrs f) then option_map (fun d => SDef false d s') (default_of s)
          else Some s'
      end
  | None => None
  end.

(** The fields with the values of the default of their struct. *)
Definition with_defaults (it : item) (fs : list fld) : option (list (fld * option val)) :=
  if has_word "serde" "default" (i_attrs it) then
    match default (i_name it) with
    | Some vs => if Nat.eqb (List.length vs) (List.length fs) then Some (combine fs (map Some vs)) else None
    | None => None
    end
  else Some (map (fun f => (f, None)) fs).

Fixpoint serde (fuel : nat) (t : rty) : option schema :=
  match fuel with
  | O => None
  | S k =>
      match t with
      | RUnit => Some SUnit
      | RConst _ => None
      | RFix t n => option_map (SFix n) (serde k t)
      | RPath x args =>
          match args with
          | [] => match serde_prim x with Some s => Some s | None => serde_decl k x args end
          | [RConst _] => if x =? "CString" then Some SCStr else serde_decl k x args
          | [a] =>
              if x =? "RelPtr64" then option_map SRel (serde k a)
              else if x =? "Option" then option_map SAbs (serde k a)
              else if (x =? "SsbhArray") || (x =? "Vec") then option_map SArr (serde k a)
              else if x =? "SsbhEnum64" then
                match a with
                | RPath e [] =>
                    match find_decl e ds with
                    | Some (DeclCase _ vs) =>
                        option_map SCase
                          (omap (fun y => option_map (fun s => (fst y, fst (snd y), s)) (serde k (snd (snd y)))) vs)
                    | _ => None
                    end
                | _ => None
                end
              else serde_decl k x args
          | [_; a] => if x =? "Ptr" then option_map SAbs (serde k a) else serde_decl k x args
          | _ => serde_decl k x args
          end
      end
  end%string
with serde_decl (fuel : nat) (x : string) (args : list rty) : option schema :=
  match fuel with
  | O => None
  | S k =>
      match find_decl x ds with
      | Some (DeclBits _ w) => Some (SBits w)
      | Some (DeclAlias _ ps t) => serde k (subst (combine ps args) t)
      | Some (DeclItem it) =>
          let field (f : fld) := serde k (subst (combine (i_params it) args) (f_ty f)) in
          match i_data it with
          | DStruct (FNamed fs) =>
              match (if has_word "serde" "transparent" (i_attrs it) then kept_fields fs else []) with
              | [f] => field f
              | _ =>
                  match with_defaults it (kept_fields fs) with
                  | Some l =>
                      option_map SStruct
                        (omap (fun p => match field (fst p) with
                                        | Some s => option_map (pair (f_name (fst p))) (field_schema (fst p) (snd p) s)
                                        | None => None
                                        end) l)
                  | None => None
                  end
              end
          | DStruct (FUnnamed [f]) => option_map SWrap (field f)
          | DEnum vs =>
              if forallb is_unit vs then Some (SName (combine (discriminants 0 vs) (map v_name vs)))
              else
                option_map SEnum (omap (fun y => match v_fields (snd y) with
                                                 | FUnnamed [f] => option_map (fun s => (fst y, v_name (snd y), s)) (field f)
                                                 | _ => None
                                                 end) (numbered 0 vs))
          | _ => None
          end
      | _ => None
      end
  end.

(** ** The formats of ssbh_lib *)

(** A variant of a format enum, with its version. *)
Definition serde_variant (fuel : nat) (v : evariant) : option ((Z * Z) * (string * schema)) :=
  match br_version (v_attrs v),
        (match v_fields v with
         | FNamed fs => option_map SStruct (omap (fun f => option_map (pair (f_name f)) (serde fuel (f_ty f))) fs)
         | FUnnamed [f] => option_map SWrap (serde fuel (f_ty f))
         | _ => None
         end) with
  | Some ver, Some s => Some (ver, (v_name v, s))
  | _, _ => None
  end.
Definition serde_versions (fuel : nat) (name : string) : option (list ((Z * Z) * (string * schema))) :=
  match find_decl name ds with
  | Some (DeclItem it) => match i_data it with DEnum vs => omap (serde_variant fuel) vs | _ => None end
  | _ => None
  end.

(** The type a transparent struct stands for; other types stand for themselves. *)
Definition through (t : rty) : rty :=
  match t with
  | RPath x args =>
      match find_decl x ds with
      | Some (DeclItem (Item _ ps attrs (DStruct (FNamed fs)))) =>
          if has_word "serde" "transparent" attrs then
            match kept_fields fs with [f] => subst (combine ps args) (f_ty f) | _ => t end
          else t
      | _ => t
      end
  | _ => t
  end.

(** The magic of a variant: #[br(magic = b"..")] *)
Definition br_magic (l : list attr) : option (list Z) :=
  match flat_map (fun m => match m with
                           | MNameValue [k] (LByteStr b) => if (k =? "magic")%string then [b] else []
                           | _ => []
                           end) (attr_args "br" l) with
  | b :: _ => Some b
  | [] => None
  end.

(** SsbhFile: for each variant of the enum its name, magic and the versions of its format *)
Definition serde_file (fuel : nat) : option (list (string * list Z * list ((Z * Z) * (string * schema)))) :=
  match through (RPath "lib::SsbhFile" []) with
  | RPath x [] =>
      match find_decl x ds with
      | Some (DeclItem (Item _ [] _ (DEnum vs))) =>
          omap (fun v =>
                  match br_magic (v_attrs v), v_fields v with
                  | Some m, FUnnamed [f] =>
                      match through (f_ty f) with
                      | RPath y [] => option_map (fun l => (v_name v, m, l)) (serde_versions fuel y)
                      | _ => None
                      end
                  | _, _ => None
                  end) vs
      | _ => None
      end
  | _ => None
  end%string.

End derive.
