(** Properties of the JSON forms serde derives from declarations. *)
From Verif Require Import Bytes Ssbh Derive Elab Items SerdeItems Formats File Json JsonSchema JsonFacts JsonSpec DataJson
  Serde SerdeSpec SerdeFacts.
From Coq Require Import List.
Import ListNotations.
Open Scope string_scope.
Open Scope Z_scope.

(** ** C92: the JSON forms of the tools are those of the declarations.

    The variants of Ssbh with their magics, and of each format enum with their versions: names,
    fields and types as transcribed from the declarations of ssbh_lib. *)
Theorem C92_files : serde_file declarations repo_defaults repo_readers 30 =
  Some (map (fun k => (kind_name k, read_magic k, schemas k)) kinds).
Proof. exact files_derived. Qed.
Print Assumptions C92_files.
Theorem C92_others :
  serde declarations repo_defaults repo_readers 30 (RPath "meshex::MeshEx" []) = Some s_meshex_MeshEx /\
  serde declarations repo_defaults repo_readers 30 (RPath "adj::Adj" []) = Some s_adj_Adj.
Proof. exact others_derived. Qed.
Print Assumptions C92_others.
(** The data types of ssbh_data, with their defaults. *)
Theorem C92_data : forall k, serde declarations repo_defaults repo_readers 30 (data_type k) = Some (data_schema k).
Proof. exact data_derived. Qed.
Print Assumptions C92_data.
(** Any type of any declarations the compiler accepts: its documents are read back exactly as
    written if and only if the value has no infinities, NaN, invalid UTF-8 and pointers to
    nothing but null ([representable]); provided null has one meaning at every place. *)
Theorem C92_roundtrip : forall ds default reader fuel t s v,
  Forall accepted ds -> (forall name g s, reader name = Some g -> names_ok s = true -> names_ok (g s) = true) ->
  serde ds default reader fuel t = Some s -> null_once s = true -> sty s v = true ->
  (from_json s (to_json s v) = Some v <-> representable s v).
Proof. intros ds default reader fuel t s v A R. exact (derived_roundtrip ds default reader A R fuel t s v). Qed.
Print Assumptions C92_roundtrip.
(** The declarations of the repository meet the conditions. *)
Theorem C92_repository :
  Forall accepted declarations /\
  (forall name g s, repo_readers name = Some g -> names_ok s = true -> names_ok (g s) = true) /\
  (forall k, null_once (data_schema k) = true) /\
  Forall (fun k => Forall (fun x => null_once (snd (snd x)) = true) (schemas k)) kinds.
Proof.
  split; [exact declarations_accepted|]. split; [exact readers_ok|]. split; [intros []; reflexivity|].
  repeat apply Forall_cons; try apply Forall_nil; reflexivity.
Qed.
Print Assumptions C92_repository.

Example C92_example :
  let v := VStruct [VInt 1; VInt 2; VInt 2; VInt 0; VInt 1; VStruct [VInt 0; VInt 0; VInt 0; VInt 1065353216]; VInt 0; VInt 4] in
  match serde declarations repo_defaults repo_readers 30 (RPath "matl_data::SamplerData" []) with
  | Some s => null_once s && sty s v &&
      match to_json s v, from_json s (to_json s v), from_json s (JObj []) with
      | JObj ms, Some w, Some (VStruct d) =>
          nodupb String.eqb (map fst ms) && (zlen ms =? 8) && (zlen d =? 8) &&
          match w with VStruct l => zlen l =? 8 | _ => false end
      | _, _, _ => false
      end
  | None => false
  end = true.
Proof. vm_compute. reflexivity. Qed.

(** With an Option of a float a value can come back as another one. *)
Theorem C92_null_refuted : exists s v w,
  serde [DeclItem (Item "S" [] [] (DStruct (FNamed [Fld "x" [] (RPath "Option" [RPath "f32" []])])))]
    (fun _ => None) (fun _ => None) 5 (RPath "S" []) = Some s /\
  sty s v = true /\ from_json s (to_json s v) = Some w /\ v <> w.
Proof.
  exists (SStruct [("x", SAbs SF32)]), (VStruct [VPtr (Some (VInt 2143289344))]), (VStruct [VPtr None]).
  repeat split; try reflexivity. discriminate.
Qed.
Print Assumptions C92_null_refuted.
