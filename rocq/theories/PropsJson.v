(** Properties C68 to C71 of properties.jsonl: JSON documents of ssbh_lib and the program
    ssbh_lib_json.

    A document is a value of [json]; the text of a document is not modelled.  [document_ok]
    says that Rust's types admit a value.  [proper], [representable_document], [countable] and
    [balanced] are in JsonSpec.v. *)
From Coq Require Import String.
From Verif Require Import Bytes Ssbh Formats Strings File MeshEx Json JsonSchema JsonFile JsonSpec
  JsonFacts JsonDoc JsonOrder JsonTool JsonType Examples PropsFiles.
From Coq Require Import List.
Import ListNotations.
Open Scope Z_scope.

Lemma good_ok f : good f = true -> file_ok f.
Proof.
  unfold good, file_ok. destruct (format (fkind f) (fver f)) as [t|]; [|discriminate].
  intros H. exists t. split; [reflexivity|].
  apply andb_prop in H as [H _]. now apply andb_prop in H as [H _].
Qed.
Definition representableb (d : document) : bool :=
  floats (document_schema d) (document_value d) &&
  forallb text_ok (parts (document_schema d) (document_value d)).
Lemma representable_good d : representableb d = true -> representable_document d.
Proof. intros H. apply representable_spec. now apply andb_prop in H. Qed.

(** ** C68: what comes back from JSON *)
Theorem C68_document_iff : forall d,
  document_ok d -> (read_document (document_json d) = Some d <-> representable_document d).
Proof. exact document_iff. Qed.
Print Assumptions C68_document_iff.

(** Without infinities and NaN the document is read, and only strings that are not UTF-8 and
    pointers to nothing but null change. *)
Theorem C68_document_finite : forall d,
  document_ok d ->
  (finite_document d -> read_document (document_json d) = Some (clean_document d)) /\
  (~ finite_document d -> read_document (document_json d) = None).
Proof. exact document_finite. Qed.
Print Assumptions C68_document_finite.

(** The numbers and names of a document, spelled out for Adj: indices are signed. *)
Theorem C68_adj_document : forall es xs,
  document_json (DAdj (mkAdj es xs)) =
  JObj [("entries"%string, JArr (map (fun e => JObj [("mesh_object_index"%string, JInt (fst e));
                                              ("index_buffer_offset"%string, JInt (snd e))]) es));
        ("index_buffer"%string, JArr (map (fun x => JInt (if x <? 32768 then x else x - 65536)) xs))].
Proof. exact adj_document. Qed.
Print Assumptions C68_adj_document.

Theorem C68_integers : forall w sg n m,
  from_json (SInt w sg) (JInt m) = Some (VInt n) <->
  m mod 256 ^ w = n /\
  if sg then - (256 ^ w / 2) <= m < 256 ^ w / 2 else 0 <= m < 256 ^ w.
Proof. exact integers_iff. Qed.
Print Assumptions C68_integers.

Example C68_example :
  Forall (fun d => document_ok d /\ representable_document d)
    [DSsbh ex_modl; DSsbh ex_matl; DSsbh ex_nufx; DSsbh ex_anim; DMeshEx ex_meshex; DAdj ex_adj].
Proof.
  repeat (constructor; [split; [|apply representable_good; vm_compute; reflexivity]|]); [..|constructor].
  1-4: apply good_ok; vm_compute; reflexivity.
  all: vm_compute; reflexivity.
Qed.

(** Every document of Rust's types: false.  A NaN, a string that is not UTF-8, and a pointer to
    a string that is null. *)
Definition some_nlst (bs : list Z) : ssbh_file :=
  mkFile Nlst (1, 0) (VStruct [VArr [VStruct [VPtr (Some (VBytes bs))]]]).
Definition null_modl : ssbh_file :=
  mkFile Modl (1, 7) (VStruct [VStruct [VPtr None]; VStruct [VPtr None]; VArr [];
    VPtr (Some (VStruct [VPtr None])); VStruct [VPtr None]; VArr []]).
Definition nan_meshex : meshex :=
  mkMeshEx (Some (VStruct [VStruct [VStruct [VInt 0; VInt 0; VInt 0]; VInt 0x7fc00000]; VPtr None])) None None None 0.

Theorem C68_every_document_refuted : exists d, document_ok d /\ read_document (document_json d) <> Some d.
Proof.
  exists (DSsbh (some_nlst [255])). split; [apply good_ok; vm_compute; reflexivity|]. vm_compute. discriminate.
Qed.
Print Assumptions C68_every_document_refuted.

Theorem C68_losses_refuted :
  (document_ok (DSsbh (some_nlst [255])) /\
   read_document (document_json (DSsbh (some_nlst [255]))) = Some (DSsbh (some_nlst []))) /\
  (document_ok (DSsbh null_modl) /\
   exists v, read_document (document_json (DSsbh null_modl)) = Some (DSsbh (mkFile Modl (1, 7) v)) /\
     v <> fbody null_modl) /\
  (document_ok (DMeshEx nan_meshex) /\ json_to_file (document_json (DMeshEx nan_meshex)) = None).
Proof.
  split; [|split].
  - split; [apply good_ok; vm_compute; reflexivity|]. vm_compute. reflexivity.
  - split; [apply good_ok; vm_compute; reflexivity|]. eexists. split; [vm_compute; reflexivity|]. discriminate.
  - split; vm_compute; reflexivity.
Qed.
Print Assumptions C68_losses_refuted.

(** ** C69: edited JSON *)
Theorem C69_order : forall j j', reordered j j' -> json_to_file j = json_to_file j'.
Proof. exact json_to_file_stable. Qed.
Print Assumptions C69_order.

Theorem C69_unknown_member : forall fs l x j r,
  ~ In x (map fst fs) ->
  from_json (SStruct fs) (JObj (l ++ (x, j) :: r)) = from_json (SStruct fs) (JObj (l ++ r)).
Proof. exact unknown_member. Qed.
Print Assumptions C69_unknown_member.

Theorem C69_missing_member : forall fs x s ms,
  In (x, s) fs -> ~ In x (map fst ms) -> from_json (SStruct fs) (JObj ms) <> None ->
  (exists s', s = SAbs s') \/ (exists nul d s', s = SDef nul d s').
Proof. exact missing_member. Qed.
Print Assumptions C69_missing_member.

Theorem C69_repeated_member : forall fs x a b c j k,
  In x (map fst fs) -> from_json (SStruct fs) (JObj (a ++ (x, j) :: b ++ (x, k) :: c)) = None.
Proof. exact repeated_member. Qed.
Print Assumptions C69_repeated_member.

Definition entry_json (more : list (string * json)) : json :=
  JObj (("index_buffer_offset"%string, JInt 6) :: more ++ [("mesh_object_index"%string, JInt 1)]).
Example C69_example :
  reordered (entry_json []) (JObj [("mesh_object_index"%string, JInt 1); ("index_buffer_offset"%string, JInt 6)]) /\
  from_json s_adj_AdjEntry (entry_json []) = Some (VStruct [VInt 1; VInt 6]) /\
  from_json s_adj_AdjEntry (entry_json [("comment"%string, JNull)]) = Some (VStruct [VInt 1; VInt 6]) /\
  from_json s_adj_AdjEntry (JObj [("mesh_object_index"%string, JInt 1)]) = None /\
  from_json s_adj_AdjEntry (entry_json [("mesh_object_index"%string, JInt 1)]) = None /\
  from_json s_meshex_MeshEx (JObj [("unk1"%string, JInt 3)]) =
    Some (VStruct [VPtr None; VPtr None; VPtr None; VPtr None; VInt 3]).
Proof.
  split; [|vm_compute; repeat split]. apply ro_order. cbn. apply Permutation.perm_swap.
Qed.

(** ** C70: accepted documents *)
Theorem C70_accepted_ok : forall j d, proper j = true -> read_document j = Some d -> document_ok d.
Proof. exact accepted_ok. Qed.
Print Assumptions C70_accepted_ok.

Theorem C70_accepted_saved : forall j d,
  proper j = true -> read_document j = Some d -> countable d ->
  (~ balanced d -> json_to_file j = Some (output_ext d, Panic)) /\
  (balanced d -> save d <> Err EPtrRange ->
     exists out, json_to_file j = Some (output_ext d, Ok out) /\
       (zlen out < 2 ^ 63 -> load (output_ext d) out = Ok d)).
Proof. exact accepted_saved. Qed.
Print Assumptions C70_accepted_saved.

Example C70_example :
  Forall (fun d => proper (document_json d) = true /\ read_document (document_json d) = Some d /\
                   countable d /\ balanced d /\ save d <> Err EPtrRange)
    [DSsbh ex_modl; DMeshEx ex_meshex; DAdj ex_adj] /\
  ~ balanced (DMeshEx (mkMeshEx None None None (Some [VInt 3]) 0)) /\
  json_to_file (document_json (DMeshEx (mkMeshEx None None None (Some [VInt 3]) 0))) = Some ("numshexb"%string, Panic).
Proof.
  split; [repeat (constructor; [repeat split; vm_compute; (reflexivity || discriminate)|]); constructor|].
  split; [vm_compute; discriminate|vm_compute; reflexivity].
Qed.

(** Strings with zero characters are accepted and lose everything after the zero. *)
Definition nul_json : json :=
  JObj [("Nlst"%string, JObj [("V10"%string, JObj [("file_names"%string, JArr [JStr [97; 0; 98]])])])].
Theorem C70_zero_character_refuted : exists j d out d',
  read_document j = Some d /\ ~ document_ok d /\ save d = Ok out /\ load (output_ext d) out = Ok d' /\ d <> d'.
Proof.
  exists nul_json. eexists. eexists. eexists. split; [vm_compute; reflexivity|]. split.
  - intros (t & F & W). vm_compute in F. injection F as <-. vm_compute in W. discriminate.
  - split; [vm_compute; reflexivity|]. split; [vm_compute; reflexivity|]. discriminate.
Qed.
Print Assumptions C70_zero_character_refuted.

(** ** C71: the program *)
Theorem C71_same_as_library : forall ext b d,
  bytes_ok b = true -> load ext b = Ok d -> representable_document d ->
  exists j, file_to_json ext b = Ok j /\ json_to_file j = Some (output_ext d, unwrap (save d)).
Proof. exact tool_same_as_library. Qed.
Print Assumptions C71_same_as_library.

Theorem C71_identity : forall d out,
  document_ok d -> countable d -> save d = Ok out -> zlen out < 2 ^ 63 -> representable_document d ->
  exists j, file_to_json (output_ext d) out = Ok j /\ json_to_file j = Some (output_ext d, Ok out).
Proof. exact tool_identity. Qed.
Print Assumptions C71_identity.

Theorem C71_save_load : forall d out,
  document_ok d -> countable d -> save d = Ok out -> zlen out < 2 ^ 63 -> load (output_ext d) out = Ok d.
Proof. exact save_load. Qed.
Print Assumptions C71_save_load.

Example C71_example :
  load "numshexb" ex_meshex_bytes = Ok (DMeshEx ex_meshex) /\
  representable_document (DMeshEx ex_meshex) /\ countable (DMeshEx ex_meshex) /\
  save (DMeshEx ex_meshex) = Ok ex_meshex_bytes /\ bytes_ok ex_meshex_bytes = true /\
  zlen ex_meshex_bytes = 208.
Proof. split; [vm_compute; reflexivity|]. split; [apply representable_good; vm_compute; reflexivity|]. vm_compute. auto 10. Qed.

(** Other programs look for Nufx files by the extension nufxlb (README.md). *)
Theorem C71_nufx_extension_refuted : output_ext (DSsbh ex_nufx) <> "nufxlb"%string.
Proof. vm_compute. discriminate. Qed.
Print Assumptions C71_nufx_extension_refuted.
