(** ssbh_lib_json: conversion of files to and from JSON.
    Paths below are relative to /repo. *)
From Verif Require Import Bytes Ssbh Formats File MeshEx Json JsonSchema.

(** ** Documents of each type *)

Fixpoint schema_find (v : Z * Z) (l : list ((Z * Z) * (string * schema))) : option (string * schema) :=
  match l with
  | [] => None
  | (v', e) :: r => if ver_eqb v v' then Some e else schema_find v r
  end.

(** SsbhFile and Versioned are transparent (ssbh_lib/src/lib.rs:493-501, 540-557), [Ssbh] and the
    format enums are externally tagged.  [JNull] stands in for a version without variant. *)
Definition ssbh_to_json (f : ssbh_file) : json :=
  match schema_find (fver f) (schemas (fkind f)) with
  | Some (x, s) => JObj [(kind_name (fkind f), JObj [(x, to_json s (fbody f))])]
  | None => JNull
  end.

Definition version_from_json (k : kind) (e : (Z * Z) * (string * schema)) (j : json) : option ssbh_file :=
  match from_json (snd (snd e)) j with
  | Some v => Some (mkFile k (fst e) v)
  | None => None
  end.
Definition kind_from_json (k : kind) : json -> option ssbh_file :=
  json_variant (map (fun e => (fst (snd e), newtype_variant (version_from_json k e))) (schemas k)).
Definition ssbh_from_json : json -> option ssbh_file :=
  json_variant (map (fun k => (kind_name k, newtype_variant (kind_from_json k))) kinds).

(** MeshEx, ssbh_lib/src/formats/meshex.rs:13-41 *)
Definition meshex_val (x : meshex) : val :=
  VStruct [VPtr (mx_all x); vec_ptr (mx_groups x); vec_ptr (mx_entries x); flags_ptr (mx_flags x);
           VInt (mx_unk1 x)].
Definition meshex_of_val (v : val) : option meshex :=
  match v with
  | VStruct [a; g; e; f; u] =>
      match un_ptr a, un_vec g, un_vec e, un_flags f, un_int u with
      | Ok a, Ok g, Ok e, Ok f, Ok u => Some (mkMeshEx a g e f u)
      | _, _, _, _, _ => None
      end
  | _ => None
  end.
Definition meshex_to_json (x : meshex) : json := to_json s_meshex_MeshEx (meshex_val x).
Definition meshex_from_json (j : json) : option meshex :=
  match from_json s_meshex_MeshEx j with Some v => meshex_of_val v | None => None end.

(** Adj, ssbh_lib/src/formats/adj.rs:12-57 *)
Definition adj_val (x : adj) : val :=
  VStruct [VArr (map entry_val (ad_entries x)); VArr (map VInt (ad_indices x))].
Definition entry_of_val (v : val) : option (Z * Z) :=
  match v with VStruct [VInt a; VInt b] => Some (a, b) | _ => None end.
Definition index_of_val (v : val) : option Z := match v with VInt n => Some n | _ => None end.
Definition adj_of_val (v : val) : option adj :=
  match v with
  | VStruct [VArr es; VArr xs] =>
      match opt_all (map entry_of_val es), opt_all (map index_of_val xs) with
      | Some es, Some xs => Some (mkAdj es xs)
      | _, _ => None
      end
  | _ => None
  end.
Definition adj_to_json (x : adj) : json := to_json s_adj_Adj (adj_val x).
Definition adj_from_json (j : json) : option adj :=
  match from_json s_adj_Adj j with Some v => adj_of_val v | None => None end.

(** ** The program *)

Inductive document :=
| DSsbh (f : ssbh_file)
| DMeshEx (x : meshex)
| DAdj (x : adj).

Definition document_json (d : document) : json :=
  match d with
  | DSsbh f => ssbh_to_json f
  | DMeshEx x => meshex_to_json x
  | DAdj x => adj_to_json x
  end.

(** write_to_file of the three types: the bytes of the file *)
Definition save (d : document) : res (list Z) :=
  match d with
  | DSsbh f => file_write f
  | DMeshEx x => meshex_write x
  | DAdj x => adj_write x
  end.

(** The choice of a reader by the extension of the input, ssbh_lib_json/src/main.rs:94-103;
    the extension "json" is handled by [json_to_file]. *)
Definition load (ext : string) (b : list Z) : res document :=
  if String.eqb ext "adjb" then let* x := adj_read b in Ok (DAdj x)
  else if String.eqb ext "numshexb" then let* x := meshex_read b in Ok (DMeshEx x)
  else let* f := file_read b in Ok (DSsbh f).

(** read_data_write_json, ssbh_lib_json/src/main.rs:20-49 *)
Definition file_to_json (ext : string) (b : list Z) : res json :=
  let* d := load ext b in Ok (document_json d).

(** The choice of a type for a JSON document, ssbh_lib_json/src/main.rs:59-82 *)
Definition read_document (j : json) : option document :=
  match ssbh_from_json j with
  | Some f => Some (DSsbh f)
  | None =>
      match meshex_from_json j with
      | Some x => Some (DMeshEx x)
      | None =>
          match adj_from_json j with
          | Some x => Some (DAdj x)
          | None => None
          end
      end
  end.

(** The extension of the output, ssbh_lib_json/src/main.rs:61-81 *)
Definition output_ext (d : document) : string :=
  match d with
  | DSsbh f =>
      match fkind f with
      | Hlpb => "nuhlpb" | Matl => "numatb" | Modl => "numdlb" | Mesh => "numshb"
      | Skel => "nusktb" | Anim => "nuanmb" | Nlst => "nulstb" | Nrpd => "nurpdb"
      | Nufx => "nuflxb" | Shdr => "nushdb"
      end
  | DMeshEx _ => "numshexb"
  | DAdj _ => "adjb"
  end%string.

(** read_json_write_data, ssbh_lib_json/src/main.rs:51-90: the extension and the bytes of the
    file that is written, or [None] when the document is none of the three types and the
    program does nothing.  A failed save makes the program panic. *)
Definition json_to_file (j : json) : option (string * res (list Z)) :=
  match read_document j with
  | Some d => Some (output_ext d, unwrap (save d))
  | None => None
  end.
