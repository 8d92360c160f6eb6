(** Property C95 of properties.jsonl: the files the JSON programs write.

    A path to a file with an extension is [d ++ s ++ 46 :: e]: a [directory] (empty or with a slash
    at its end), a name [s] without slash, a dot and an extension [e] without slash and dot.
    Files are a function from paths (CliFacts.v, Cli.v). *)
From Coq Require Import String Permutation Lia.
From Verif Require Import Bytes File MeshEx Examples PropsFiles PropsDataJson PropsJson DataJsonTool JsonTextTool Json JsonFile JsonSpec
  DataJson DataJsonSpec JsonText JsonTextFile Cli CliFacts.
From Coq Require Import List.
Import ListNotations.
Open Scope Z_scope.
Open Scope list_scope.

(** ** Paths *)
Theorem C95_extension : forall d s e x,
  directory d -> s <> [] -> no_slash s -> plain_ext e -> x <> [] ->
  extension (d ++ s ++ 46 :: e) = Some e /\ with_extension (d ++ s ++ 46 :: e) x = d ++ s ++ 46 :: x.
Proof. intros. split; [apply extension_form|apply with_extension_form]; auto. Qed.
Print Assumptions C95_extension.

(** ** Runs without an output path *)
(** A file is written to text beside it, and the text to a file with the same bytes *)
Theorem C95_lib : forall fs d s doc out,
  directory d -> s <> [] -> no_slash s ->
  document_ok doc -> countable doc -> save doc = Ok out -> zlen out < 2 ^ 63 -> representable_document doc ->
  let p := d ++ s ++ 46 :: text_of (output_ext doc) in
  fs p = Some out ->
  exists t, lib_main fs p None = Writes (p ++ text_of ".json") t /\
    lib_main (put fs (p ++ text_of ".json") t) (p ++ text_of ".json") None =
    Writes (p ++ 46 :: text_of (output_ext doc)) out.
Proof. exact lib_run. Qed.
Print Assumptions C95_lib.

Theorem C95_data : forall mul inv bounding sphere_of order fs d s k b x out,
  (forall l, Permutation l (order l)) -> directory d -> s <> [] -> no_slash s ->
  bytes_ok b = true -> load_as order k b = Ok x -> finite_data x ->
  save_data mul inv bounding sphere_of x = Ok out ->
  let p := d ++ s ++ 46 :: text_of (data_ext k) in
  let run := data_main mul inv bounding sphere_of order in
  fs p = Some b ->
  exists t, run fs p None = Writes (p ++ text_of ".json") t /\
    run (put fs (p ++ text_of ".json") t) (p ++ text_of ".json") None =
    Writes (p ++ 46 :: text_of (data_ext k)) out.
Proof. exact data_run. Qed.
Print Assumptions C95_data.

(** The input is never overwritten, whatever the path and the files *)
Theorem C95_input_kept : forall fs p q b, lib_main fs p None = Writes q b -> q <> p.
Proof. exact lib_input_kept. Qed.
Print Assumptions C95_input_kept.

Theorem C95_data_input_kept : forall mul inv bounding sphere_of order fs p q b,
  data_main mul inv bounding sphere_of order fs p None = Writes q b -> q <> p.
Proof. exact data_input_kept. Qed.
Print Assumptions C95_data_input_kept.

(** ** Runs with an output path: the same bytes, written there *)
Theorem C95_given : forall fs p o, lib_main fs p (Some o) = moved (lib_main fs p None) o.
Proof. exact lib_given. Qed.
Print Assumptions C95_given.

Theorem C95_data_given : forall mul inv bounding sphere_of order fs p o,
  data_main mul inv bounding sphere_of order fs p (Some o) =
  moved (data_main mul inv bounding sphere_of order fs p None) o.
Proof. exact data_given. Qed.
Print Assumptions C95_data_given.

(** ** What fails *)
(** The text of a file is not written back to that file: the extension is there twice. *)
Definition ex_path : list Z := text_of "dir.d/model.numshexb".
Definition ex_fs : files := fun q => if same q ex_path then Some ex_meshex_bytes else None.
Theorem C95_same_file_refuted : exists fs p t q b,
  lib_main fs p None = Writes (p ++ text_of ".json") t /\
  lib_main (put fs (p ++ text_of ".json") t) (p ++ text_of ".json") None = Writes q b /\
  fs p = Some b /\ q <> p /\ q = text_of "dir.d/model.numshexb.numshexb".
Proof.
  exists ex_fs, ex_path, (match file_to_text "numshexb" ex_meshex_bytes with Ok t => t | _ => [] end),
    (text_of "dir.d/model.numshexb.numshexb"), ex_meshex_bytes.
  split; [vm_compute; reflexivity|]. split; [vm_compute; reflexivity|]. split; [vm_compute; reflexivity|].
  split; [vm_compute; discriminate|reflexivity].
Qed.
Print Assumptions C95_same_file_refuted.

(** A path without extension panics in both programs before a file is read. *)
Theorem C95_no_extension_refuted :
  (forall p, extension p = None ->
     forall fs o, lib_main fs p o = Panics /\
       forall mul inv bounding sphere_of order, data_main mul inv bounding sphere_of order fs p o = Panics) /\
  extension (text_of "dir.d/model") = None /\ extension (text_of "dir/.json") = None /\
  extension (text_of "a.json/..") = None.
Proof.
  split; [|vm_compute; auto].
  intros p H fs o. unfold lib_main, data_main. rewrite H. auto.
Qed.
Print Assumptions C95_no_extension_refuted.

(** ** Examples *)
Example C95_paths_example :
  extension (text_of "dir.d/model.numshb.json") = Some (text_of "json") /\
  extension (text_of "a.json/./") = Some (text_of "json") /\
  with_extension (text_of "a.json/./") (text_of "adjb") = text_of "a.adjb" /\
  with_extension (text_of "dir.d/model") (text_of "adjb") = text_of "dir.d/model.adjb" /\
  with_extension (text_of ".hidden") (text_of "adjb") = text_of ".hidden.adjb".
Proof. vm_compute. repeat split. Qed.

Example C95_given_example : exists t,
  lib_main ex_fs ex_path (Some (text_of "out")) = Writes (text_of "out") t /\ t <> [].
Proof.
  exists (match file_to_text "numshexb" ex_meshex_bytes with Ok t => t | _ => [] end).
  split; vm_compute; [reflexivity|discriminate].
Qed.
