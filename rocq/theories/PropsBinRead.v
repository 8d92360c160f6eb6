(** C93: the derive macro BinRead, from the declarations to the documents read. *)
From Coq Require Import Lia ZifyBool ZifyNat ZifyN.
From Verif Require Import Bytes Ssbh Described Formats File MeshEx AnimComp FileFacts Derive Elab Items SerdeItems Serde
  DeriveFacts Source SourceFacts JsonSchema SerdeFacts BinRead BinReadFacts Examples.
Ltac Zify.zify_post_hook ::= ZifyBool.elim_bool_cstr; Z.to_euclidean_division_equations.
Open Scope string_scope.
Open Scope Z_scope.

(** ** The readers do what the descriptors say

    For every type that has a descriptor, whose attributes of binrw are known and agree with
    those of SsbhWrite in the repr and which has different tags: on all bytes, at all
    positions, with the same value, end, error or panic. *)
Theorem C93_types : forall c T, erase c = Some T -> readable c = true -> forall b p, gen_read c b p = read T b p.
Proof. exact gen_reads. Qed.
Print Assumptions C93_types.

(** ** Files

    SsbhFile, Ssbh, Versioned and the ten format enums as declared: every file is read as
    [read_file] reads it. *)
Theorem C93_files : forall b p, gen_file declarations depth b p =
  let* (f, q) := read_file b p in Ok ((kind_name (fkind f), (fver f, fbody f)), q).
Proof. exact file_declared. Qed.
Print Assumptions C93_files.

(** The types read outside the ten formats. *)
Theorem C93_others : forall x T,
  In (x, T) [("meshex::MeshEntry", MeshEntry); ("meshex::AllData", AllData); ("meshex::MeshObjectGroup", MeshObjectGroup);
             ("adj::AdjEntry", AdjEntry); ("compression::UncompressedTransform", UncompressedTransform);
             ("anim_data::UvTransform", UvTransform); ("compression::Boolean", Boolean)] ->
  exists c, elab declarations 0 depth (RPath x []) = Some c /\ forall b p, gen_read c b p = read T b p.
Proof.
  intros x T I.
  assert (H : match elab declarations 0 depth (RPath x []) with
              | Some c => erase c = Some T /\ readable c = true
              | None => False
              end).
  { repeat (destruct I as [I|I]; [injection I as <- <-; vm_compute; split; reflexivity|]). destruct I. }
  destruct (elab declarations 0 depth (RPath x [])) as [c|]; [|contradiction]. exists c. split; auto.
  destruct H as [E R]. exact (gen_reads c T E R).
Qed.
Print Assumptions C93_others.

(** ** Written and read by derived code

    Files of the repository: saved by the code SsbhWrite emits, read by the code of BinRead. *)
Theorem C93_roundtrip : forall f out, file_ok f -> source_write f = Ok out -> zlen out < 2 ^ 63 ->
  exists q, gen_file declarations depth out 0 = Ok ((kind_name (fkind f), (fver f, fbody f)), q).
Proof.
  intros f out F W L. rewrite (source_saves f F) in W. pose proof (file_roundtrip f out F W L) as R.
  unfold file_read in R. rewrite file_declared. destruct (read_file out 0) as [[f' q]| |]; try discriminate.
  cbn in R |- *. injection R as ->. eauto.
Qed.
Print Assumptions C93_roundtrip.

(** Any type of any declarations, as the root of a file. *)
Theorem C93_type_roundtrip : forall c T magic ver v,
  erase c = Some T -> readable c = true -> root_ok T = true -> wt T v = true -> zlen magic = 4 ->
  exists n s',
    gen_size c v = Ok n /\
    (let s := write_ssbh_header magic fresh in
     let s := set_dp (wpos s + (n + 4)) s in
     gen_write c v (emit (le_bytes 2 (snd ver)) (emit (le_bytes 2 (fst ver)) s)) = Ok s') /\
    (zlen (wbuf s') < 2 ^ 63 -> exists q, gen_read c (wbuf s') 24 = Ok (v, q)).
Proof.
  intros c T magic ver v E R O W M. destruct (emitted_refines c T E) as (_ & _ & Z & X).
  destruct (file_spec magic ver T v M O W) as (s' & S & _ & B & _).
  exists (size T v), s'. split; [now apply Z|]. split.
  - cbv zeta. rewrite X by auto. exact S.
  - intros L. destruct (B L) as (q & Q). exists q. now rewrite (gen_reads c T E R).
Qed.
Print Assumptions C93_type_roundtrip.

(** A file with a material, an array of strings and data behind pointers. *)
Example C93_example :
  match source_write ex_matl with
  | Ok out => match gen_file declarations depth out 0 with
              | Ok ((name, (ver, VStruct _)), _) => (name =? "Matl")%string && ver_eqb ver (1, 6) && (24 <? zlen out)
              | _ => false
              end
  | _ => false
  end = true.
Proof. vm_compute. reflexivity. Qed.

(** An item with a repr, padding and a pointer. *)
Definition br_key (k : string) (n : Z) : attr := Attr "br" (Some [MNameValue [k] (LInt n)]).
Definition wr_key (k : string) (n : Z) : attr := Attr "ssbhwrite" (Some [MNameValue [k] (LInt n)]).
Definition an_enum (r w : string) : item :=
  Item "E" [] [Attr "br" (Some [MRepr r]); Attr "ssbhwrite" (Some [MRepr w]); Attr "repr" (Some [MPath w])]
    (DEnum [Variant "A" [] (Some 7) FUnit; Variant "B" [] None FUnit]).
Definition a_struct (read_pad write_pad : list attr) (e : item) : cty :=
  CItem (Item "S" [] [] (DStruct (FNamed
    [Fld "e" (read_pad ++ write_pad) (RPath "E" []); Fld "p" [] (RPath "RelPtr64" [RPath "u32" []])])))
    [CItem e []; CRel (CLib (TInt 4))].

Example C93_type_example :
  let c := a_struct [br_key "pad_after" 4] [wr_key "pad_after" 4] (an_enum "u32" "u32") in
  match erase c with
  | Some T => readable c && root_ok T && wt T (VStruct [VInt 8; VPtr (Some (VInt 5))])
  | None => false
  end = true.
Proof. vm_compute. reflexivity. Qed.

(** ** Attributes for only one of the macros

    A value is read back as another one, or not at all, if only SsbhWrite is told of the
    padding or the two are given different integers. *)
Definition written_then_read (c : cty) (v : val) : res (val * Z) :=
  let* n := gen_size c v in
  let s := write_ssbh_header (read_magic Modl) fresh in
  let* s := gen_write c v (emit (le_bytes 4 0) (set_dp (wpos s + (n + 4)) s)) in
  gen_read c (wbuf s) 24.

Theorem C93_one_sided_refuted : forall c,
  In c [a_struct [] [wr_key "pad_after" 4] (an_enum "u32" "u32"); a_struct [] [] (an_enum "u32" "u64")] ->
  exists T v, erase c = Some T /\ wt T v = true /\ written_then_read c v = Err EEof.
Proof.
  intros c [<-|[<-|[]]]; eexists; exists (VStruct [VInt 8; VPtr (Some (VInt 5))]);
    (split; [vm_compute; reflexivity|]); split; vm_compute; reflexivity.
Qed.
Print Assumptions C93_one_sided_refuted.
