(** C79: the derive macro SsbhWrite, from the items of the repository to the bytes of a file. *)
From Coq Require Import Lia ZifyBool ZifyNat ZifyN.
From Verif Require Import Bytes Ssbh Described Formats File MeshEx AnimComp AnimBuf Derive Elab Items DeriveFacts
  Source SourceFacts.
Ltac Zify.zify_post_hook ::= ZifyBool.elim_bool_cstr; Z.to_euclidean_division_equations.
Open Scope string_scope.
Open Scope Z_scope.

(** ** The emitted code does what the descriptor says

    For every type built from the library types and from items deriving SsbhWrite that has a
    descriptor, and for every value of it: running the emitted code is [write], the emitted
    size_in_bytes is [size] and the emitted alignment_in_bytes is [ssbh_align]. *)
Theorem C79_emitted_code_refines c T v s :
  erase c = Some T -> wt T v = true ->
  gen_write c v s = write T v s /\ gen_size c v = Ok (size T v) /\ gen_align c = Ok (ssbh_align T).
Proof. intros E W. destruct (emitted_refines c T E) as (_ & A & Z & X). auto. Qed.
Print Assumptions C79_emitted_code_refines.

(** ** The descriptors of the ten formats come from the source *)
Theorem C79_formats_from_source k : elab_versions items depth (format_name k) = Some (versions k).
Proof. exact (formats_source k). Qed.
Print Assumptions C79_formats_from_source.

(** The types written outside the ten formats, with [n] the length of their vectors. *)
Definition path (x : string) : rty := RPath x [].
Definition track (t c : string) : rty := RPath "compression::CompressedTrackData" [path t; path c].

Theorem C79_others_from_source n :
  source_ty n (path "meshex::MeshEntry") = Some MeshEntry /\
  source_ty n (path "meshex::AllData") = Some AllData /\
  source_ty n (path "meshex::MeshObjectGroup") = Some MeshObjectGroup /\
  source_ty n (path "meshex::EntryFlags") = Some (EntryFlags n) /\
  source_ty n (path "adj::AdjEntry") = Some AdjEntry /\
  source_ty n (path "compression::UncompressedTransform") = Some UncompressedTransform /\
  source_ty n (path "anim_data::UvTransform") = Some UvTransform /\
  source_ty n (path "compression::Boolean") = Some Boolean /\
  source_ty n (track "compression::UncompressedTransform" "compression::TransformCompression")
    = Some (CompressedTrackData (cd_ty transform_codec) (cd_cty transform_codec) n) /\
  source_ty n (track "anim_data::UvTransform" "compression::UvTransformCompression")
    = Some (CompressedTrackData (cd_ty uv_codec) (cd_cty uv_codec) n) /\
  source_ty n (track "vectors::Vector4" "compression::Vector4Compression")
    = Some (CompressedTrackData (cd_ty vec4_codec) (cd_cty vec4_codec) n) /\
  source_ty n (track "u32" "compression::U32Compression")
    = Some (CompressedTrackData (cd_ty u32_codec) (cd_cty u32_codec) n) /\
  source_ty n (track "f32" "compression::F32Compression")
    = Some (CompressedTrackData (cd_ty f32_codec) (cd_cty f32_codec) n) /\
  source_ty n (track "compression::Boolean" "u128")
    = Some (CompressedTrackData (cd_ty bool_codec) (cd_cty bool_codec) n).
Proof. repeat (apply conj); vm_compute; reflexivity. Qed.
Print Assumptions C79_others_from_source.

(** ** Saving with the emitted code is [file_write]

    Every theorem about [file_write] is one about the code the macro emits for the items of
    the repository. *)
Theorem C79_source_saves f : file_ok f -> source_write f = file_write f.
Proof. exact (source_saves f). Qed.
Print Assumptions C79_source_saves.

(** ** Which items the macro accepts *)
Theorem C79_accepts it : (exists im, derive it = Ok im) <-> accepted it = true.
Proof. exact (macro_accepts it). Qed.
Print Assumptions C79_accepts.

Theorem C79_repository_accepted it : In it (items_of items) -> exists im, derive it = Ok im.
Proof.
  intros I. apply macro_accepts. pose proof items_accepted as H. rewrite forallb_forall in H. auto.
Qed.
Print Assumptions C79_repository_accepted.

(** ** The size is the number of bytes

    If every component moves the writer by the size it claims and the attributes of the item
    count, the item does so too. *)
Theorem C79_size_is_honest it im x n s s' :
  derive it = Ok im -> counts it = true -> Forall (fun c => honest (snd c)) (s_comps x) ->
  eval_size (im_size im) x = Ok n -> run_write im x s = Ok s' -> wpos s' = wpos s + n.
Proof. exact (size_is_honest it im x n s s'). Qed.
Print Assumptions C79_size_is_honest.

(** Of the items of the repository only the enums of the mesh and anim formats, which are
    aligned afterwards, do not. *)
Theorem C79_repository_counts it : In it (items_of items) ->
  counts it = true \/ i_name it = "mesh::Mesh" \/ i_name it = "anim::Anim".
Proof.
  intros I. destruct (counts it) eqn:C; auto. right.
  assert (H : In (i_name it) (map i_name (filter (fun it => negb (counts it)) (items_of items)))).
  { apply in_map, filter_In. now rewrite C. }
  rewrite items_counted in H. cbn in H. destruct H as [<-|[<-|[]]]; auto.
Qed.
Print Assumptions C79_repository_counts.

(** ** Attributes that do not count

    Components of these examples are integers, which are honest. *)
Definition int_obj (w n : Z) : obj := Obj (write (TInt w) (VInt n)) (Ok (size (TInt w) (VInt n))).

Lemma int_honest w n : 0 <= w -> honest (int_obj w n).
Proof.
  intros W s s' k H Z. cbn in H, Z. inversion H. inversion Z. rewrite emit_pos. unfold zlen.
  rewrite BytesFacts.le_bytes_length. lia.
Qed.

Definition ssbhwrite (l : list meta) : attr := Attr "ssbhwrite" (Some l).
Definition key (k : string) (n : Z) : meta := MNameValue [k] (LInt n).
Definition u32_field (name : string) (l : list attr) : fld := Fld name l (path "u32").
Definition start : wst := mkW [] 0 0.

(** The item [it] with one u32 is said to have [n] bytes and writes [m]. *)
Definition writes_other_than_said (it : item) (variant : string) (n m : Z) : Prop :=
  exists im s', derive it = Ok im /\
    (let x := self_of it variant 1 [int_obj 4 7] in
     Forall (fun c => honest (snd c)) (s_comps x) /\
     eval_size (im_size im) x = Ok n /\ run_write im x start = Ok s' /\ wpos s' = wpos start + m).

(** #[ssbhwrite(magic = b"ABCD")] struct S(u32): the magic is counted but not written. *)
Definition magic_tuple : item :=
  Item "S" [] [ssbhwrite [MNameValue ["magic"] (LByteStr [65; 66; 67; 68])]] (DStruct (FUnnamed [u32_field "0" []])).
Theorem C79_magic_of_tuple_refuted : writes_other_than_said magic_tuple "" 8 4.
Proof.
  eexists _, _. split; [vm_compute; reflexivity|]. cbn zeta. split; [|vm_compute; repeat split].
  constructor; [|constructor]. apply int_honest. lia.
Qed.

(** The same on an enum. *)
Definition magic_enum : item :=
  Item "E" [] [ssbhwrite [MNameValue ["magic"] (LByteStr [65; 66; 67; 68])]]
    (DEnum [Variant "A" [] None (FUnnamed [u32_field "0" []])]).
Theorem C79_magic_of_enum_refuted : writes_other_than_said magic_enum "A" 8 4.
Proof.
  eexists _, _. split; [vm_compute; reflexivity|]. cbn zeta. split; [|vm_compute; repeat split].
  constructor; [|constructor]. apply int_honest. lia.
Qed.

(** #[ssbhwrite(repr(u32))] #[ssbhwrite(pad_after = 4)] enum E { .. }: the padding is written
    but not counted. *)
Definition padded_repr : item :=
  Item "E" [] [ssbhwrite [MRepr "u32"]; ssbhwrite [key "pad_after" 4]] (DEnum [Variant "A" [] None FUnit]).
Theorem C79_padding_of_repr_refuted : writes_other_than_said padded_repr "A" 4 8.
Proof.
  eexists _, _. split; [vm_compute; reflexivity|]. cbn zeta. split; [|vm_compute; repeat split].
  cbn. constructor.
Qed.

(** struct S { #[ssbhwrite(align_after = 16)] x: u32 }: the alignment is not counted. *)
Definition aligned_field : item :=
  Item "S" [] [] (DStruct (FNamed [u32_field "x" [ssbhwrite [key "align_after" 16]]])).
Theorem C79_alignment_of_field_refuted : writes_other_than_said aligned_field "" 4 16.
Proof.
  eexists _, _. split; [vm_compute; reflexivity|]. cbn zeta. split; [|vm_compute; repeat split].
  constructor; [|constructor]. apply int_honest. lia.
Qed.

(** A repr with anything beside it in the parentheses is dropped without a message: the enum
    is written like one without a repr. *)
Theorem C79_repr_beside_other_arguments n l data params name :
  derive (Item name params [ssbhwrite [MRepr n; l]] data) = derive (Item name params [ssbhwrite [l]] data)
  \/ exists r, l = MRepr r.
Proof. destruct l; [right; eauto| | | |]; left; reflexivity. Qed.
Print Assumptions C79_repr_beside_other_arguments.

(** Arguments that are not a list of metas are dropped without a message, whatever they say. *)
Theorem C79_unreadable_arguments l data params name :
  derive (Item name params (Attr "ssbhwrite" None :: l) data) = derive (Item name params l data).
Proof. reflexivity. Qed.
Print Assumptions C79_unreadable_arguments.

(** ** Examples *)

(** A value whose emitted code is run: a struct with padding, a named struct inside a tuple
    struct, and an array. *)
Definition inner : item := Item "I" [] [ssbhwrite [key "pad_after" 2]]
  (DStruct (FNamed [u32_field "a" []; Fld "b" [] (path "u16")])).
Definition outer : item := Item "O" [] [] (DStruct (FUnnamed [Fld "0" [] (path "I"); Fld "1" [] (RPath "SsbhArray" [path "u8"])])).
Definition outer_ty : cty := CItem outer [CItem inner [CLib (TInt 4); CLib (TInt 2)]; CArr (CLib (TInt 1))].
Definition outer_val : val := VStruct [VStruct [VInt 1; VInt 2]; VArr [VInt 3; VInt 4]].

Example C79_refines_example :
  elab [DeclItem inner; DeclItem outer] 0 9 (path "O") = Some outer_ty /\
  (exists T, erase outer_ty = Some T /\ wt T outer_val = true) /\
  exists s, gen_write outer_ty outer_val start = Ok s /\
    wbuf s = [1; 0; 0; 0; 2; 0; 0; 0; 16; 0; 0; 0; 0; 0; 0; 0; 2; 0; 0; 0; 0; 0; 0; 0; 3; 4].
Proof.
  split; [vm_compute; reflexivity|]. split; [eexists; split; [vm_compute; reflexivity|vm_compute; reflexivity]|].
  eexists; split; [vm_compute; reflexivity|vm_compute; reflexivity].
Qed.

(** A file whose bytes the emitted code of the repository makes. *)
Example C79_saves_example :
  let f := mkFile Nlst (1, 0) (VStruct [VArr [VStruct [VPtr (Some (VBytes [97; 98]))]]]) in
  file_ok f /\ match source_write f with Ok b => zlen b | _ => 0 end = 51.
Proof.
  split.
  - exists Nlst_V10. split; [reflexivity|vm_compute; reflexivity].
  - vm_compute. reflexivity.
Qed.

(** An item that the macro rejects: a variant without fields and no repr. *)
Example C79_rejects_example : derive (Item "E" [] [] (DEnum [Variant "A" [] None FUnit])) = Panic.
Proof. reflexivity. Qed.

(** The hypotheses of the theorem on sizes: a named struct with a magic and padding. *)
Definition magic_struct : item :=
  Item "S" [] [ssbhwrite [MNameValue ["magic"] (LByteStr [65; 66; 67; 68])]; ssbhwrite [key "pad_after" 3]]
    (DStruct (FNamed [u32_field "x" [ssbhwrite [key "pad_after" 5]]])).
Example C79_honest_example : counts magic_struct = true /\ writes_other_than_said magic_struct "" 16 16.
Proof.
  split; [vm_compute; reflexivity|].
  eexists _, _. split; [vm_compute; reflexivity|]. cbn zeta. split; [|vm_compute; repeat split].
  constructor; [|constructor]. apply int_honest. lia.
Qed.
