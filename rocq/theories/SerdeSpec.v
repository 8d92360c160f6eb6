(** What is said about the JSON forms derived by serde (Serde.v). *)
From Coq Require Import NArith.
From Verif Require Import Bytes Ssbh Derive Elab Json JsonFacts Serde DataJson.
Open Scope string_scope.
Open Scope Z_scope.

(** What rustc checks of a declaration: no field, variant or discriminant twice. *)
Definition accepted (d : decl) : Prop :=
  match d with
  | DeclItem it =>
      match i_data it with
      | DStruct (FNamed fs) => NoDup (map f_name fs)
      | DEnum vs => NoDup (map v_name vs) /\ NoDup (discriminants 0 vs)
      | _ => True
      end
  | DeclAlias _ _ _ => True
  | DeclBits _ w => 0 < w
  | DeclCase _ vs => NoDup (map fst vs) /\ NoDup (map (fun x => fst (snd x)) vs)
  end.

(** No null in two meanings: no pointer, Option or newtype directly on a float (infinities and
    NaN are written as null), and null as default only where the form itself has no null. *)
Fixpoint null_once (s : schema) : bool :=
  match s with
  | SInt _ _ | SF32 | SUnit | SBuf | SCStr | SText | SBool | SName _ | SBits _ => true
  | SStruct fs => forallb (fun p => null_once (snd p)) fs
  | SWrap s' | SRel s' | SAbs s' => no_float s' && null_once s'
  | SArr s' | SFix _ s' => null_once s'
  | SDef nul _ s' => (negb nul || plain s') && null_once s'
  | SCase vs | SEnum vs => forallb (fun p => null_once (snd p)) vs
  end.

(** The rest of [sch_ok]: names and tags. *)
Fixpoint names_ok (s : schema) : bool :=
  match s with
  | SInt w _ => 0 <? w
  | SF32 | SUnit | SBuf | SCStr | SText | SBool => true
  | SName tags => nodupb Z.eqb (map fst tags) && nodupb String.eqb (map snd tags)
  | SBits w => 0 <? w
  | SStruct fs => nodupb String.eqb (map fst fs) && forallb (fun p => names_ok (snd p)) fs
  | SWrap s' | SRel s' | SAbs s' | SArr s' | SFix _ s' | SDef _ _ s' => names_ok s'
  | SCase vs | SEnum vs =>
      nodupb Z.eqb (map (fun p => fst (fst p)) vs) && nodupb String.eqb (map (fun p => snd (fst p)) vs)
      && forallb (fun p => names_ok (snd p)) vs
  end.

(** Default for SamplerData and BlendStateData, ssbh_data/src/matl_data.rs:172-194, 265-278, in
    the order of the fields: by the discriminants of ssbh_lib/src/formats/matl.rs *)
Definition repo_defaults (name : string) : option (list val) :=
  if (name =? "matl_data::SamplerData")%string then
    Some [VInt 1; VInt 1; VInt 1; VInt 1; VInt 1; VStruct [VInt 0; VInt 0; VInt 0; VInt 0]; VInt 0; VInt 1]
  else if (name =? "matl_data::BlendStateData")%string then
    Some [VInt 1; VInt 0; VInt 0; VInt 1; VInt 0; VInt 0; VInt 0]
  else None.

(** parse_max_anisotropy, ssbh_data/src/matl_data.rs:164-170: null stands for the default, One *)
Definition repo_readers (name : list Z) : option (schema -> schema) :=
  if text_eqb name (text_of "parse_max_anisotropy") then Some (SDef true (VInt 1)) else None.

(** The data type of each kind, ssbh_data/src/*_data.rs *)
Definition data_type (k : data_kind) : rty :=
  RPath (match k with
         | DkMesh => "mesh_data::MeshData" | DkSkel => "skel_data::SkelData" | DkAnim => "anim_data::AnimData"
         | DkModl => "modl_data::ModlData" | DkMatl => "matl_data::MatlData" | DkHlpb => "hlpb_data::HlpbData"
         | DkMeshEx => "meshex_data::MeshExData" | DkAdj => "adj_data::AdjData"
         end) [].
