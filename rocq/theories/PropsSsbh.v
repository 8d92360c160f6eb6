(** Properties C01 to C15 and C18 to C21 of properties.jsonl.

    Reading guide.  [file_ok f] says that [f] is a value of one of the ten format types in
    one of the supported versions (File.v).  The bound [zlen out < 2 ^ 63] on the length of
    the output is Rust's limit on the size of any allocation.  Statements about a
    descriptor [t] instead of a file hold for every type that can be described, in
    particular for every type used in the formats, written anywhere. *)
From Coq Require Import String.
From Verif Require Import Bytes Ssbh Described SsbhSpec Formats File Strings FileSpec Examples.
From Verif Require Import DecFacts FileFacts RefFacts SsbhLemmas.
Local Open Scope Z_scope.

Example ex_good : forallb good [ex_modl; ex_matl; ex_nufx; ex_anim] = true.
Proof. vm_compute. reflexivity. Qed.

Example ex_modl_ok : file_ok ex_modl /\ file_write ex_modl = Ok (written ex_modl) /\ zlen (written ex_modl) = 208.
Proof. split; [exists Modl_V17; vm_compute; auto|vm_compute; auto]. Qed.

(** ** C01 *)
Theorem C01_file_roundtrip : forall f out,
  file_ok f -> file_write f = Ok out -> zlen out < 2 ^ 63 -> file_read out = Ok f.
Proof. exact file_roundtrip. Qed.
Print Assumptions C01_file_roundtrip.

Theorem C01_typed_roundtrip : forall k v body out,
  file_ok (mkFile k v body) -> typed_write k v body = Ok out -> zlen out < 2 ^ 63 ->
  typed_read k out = Ok (v, body).
Proof. exact typed_roundtrip. Qed.
Print Assumptions C01_typed_roundtrip.

Example C01_example : file_read (written ex_matl) = Ok ex_matl.
Proof. vm_compute. reflexivity. Qed.

(** ** C02 *)
Theorem C02_save_is_fixpoint : forall b f,
  bytes_ok b = true -> file_read b = Ok f ->
  exists out, file_write f = Ok out /\
    (zlen out < 2 ^ 63 -> exists f2, file_read out = Ok f2 /\ f2 = f /\ file_write f2 = Ok out).
Proof. exact save_fixpoint. Qed.
Print Assumptions C02_save_is_fixpoint.

(** A file that is not laid out as the writer does (the offset of the only string skips
    three bytes) loads, and saving it gives different bytes. *)
Definition ex_odd : list Z :=
  stored_name "SSBH" ++ repeat 0 12 ++ stored_name "NLST" ++ [1; 0; 0; 0] ++
  [16; 0; 0; 0; 0; 0; 0; 0; 1; 0; 0; 0; 0; 0; 0; 0; 11; 0; 0; 0; 0; 0; 0; 0; 9; 9; 9; 120; 0; 5].

Example C02_example : exists f, bytes_ok ex_odd = true /\ file_read ex_odd = Ok f /\
  fbody f = VStruct [VArr [str_x]] /\ written f <> ex_odd /\ good f = true.
Proof. eexists. split; [reflexivity|]. split; [vm_compute; reflexivity|]. vm_compute. repeat split; discriminate. Qed.

(** ** C03 *)
Theorem C03_file_write_total : forall f, file_ok f -> exists out, file_write f = Ok out.
Proof. exact file_write_total. Qed.
Print Assumptions C03_file_write_total.

Theorem C03_typed_write_total : forall k v body,
  file_ok (mkFile k v body) -> exists out, typed_write k v body = Ok out.
Proof. exact typed_write_total. Qed.
Print Assumptions C03_typed_write_total.

(** ** C04, C05, C06: the objects of a written file are the header with the root struct,
    and everything stored offsets lead to. *)
Theorem C04_objects_disjoint : forall f t out,
  file_ok f -> format (fkind f) (fver f) = Some t -> file_write f = Ok out -> zlen out < 2 ^ 63 ->
  let e := 24 + csize t in
  let objects := mkRef 0 0 e 1 :: refs out e t 24 (fbody f) in
  ForallOrdPairs disjoint objects /\ Forall (in_file (zlen out)) objects.
Proof. exact file_objects_disjoint. Qed.
Print Assumptions C04_objects_disjoint.

Theorem C05_offsets_forward_and_aligned : forall f t out,
  file_ok f -> format (fkind f) (fver f) = Some t -> file_write f = Ok out -> zlen out < 2 ^ 63 ->
  Forall (fun x => r_owner_end x <= r_start x /\ r_start x mod r_align x = 0)
    (refs out (24 + csize t) t 24 (fbody f)).
Proof. exact file_objects_aligned. Qed.
Print Assumptions C05_offsets_forward_and_aligned.

Theorem C06_positions_increase : forall f t out,
  file_ok f -> format (fkind f) (fver f) = Some t -> file_write f = Ok out -> zlen out < 2 ^ 63 ->
  let e := 24 + csize t in
  let objects := mkRef 0 0 e 1 :: refs out e t 24 (fbody f) in
  ForallOrdPairs before objects /\ gaps_below 8 0 objects.
Proof. exact file_objects_ordered. Qed.
Print Assumptions C06_positions_increase.

(** The position is not always the smallest possible one: an empty array rounds the next
    free position up to 8 although it stores nothing there. *)
Theorem C06_smallest_position_refuted : exists f t out,
  file_ok f /\ format (fkind f) (fver f) = Some t /\ file_write f = Ok out /\ zlen out < 2 ^ 63 /\
  ~ tight (24 + csize t) (refs out (24 + csize t) t 24 (fbody f)).
Proof. exact tight_refuted. Qed.
Print Assumptions C06_smallest_position_refuted.

(** The nine objects behind the root of the example material. *)
Example C04_example :
  refs (written ex_matl) 40 Matl_V16 24 (fbody ex_matl) =
  [mkRef 40 40 32 8; mkRef 72 72 4 4; mkRef 72 80 120 8; mkRef 200 200 4 8; mkRef 200 208 16 8;
   mkRef 200 224 8 8; mkRef 232 232 2 4; mkRef 200 240 48 8; mkRef 72 288 2 4] /\
  file_ok ex_matl /\ file_write ex_matl = Ok (written ex_matl) /\ zlen (written ex_matl) = 290.
Proof. split; [|split; [exists Matl_V16|]]; vm_compute; auto. Qed.

(** The same for any described type written at any position, with all alignments dividing
    [A] and 16. *)
Theorem C04_any_type : forall A t v s s',
  0 < A -> A mod 8 = 0 -> twf MTail t = true -> aln A t = true -> al16 t = true -> wt t v = true ->
  0 <= wpos s -> 0 <= wdp s -> write t v s = Ok s' -> wdp s' < 2 ^ 64 ->
  let e := wpos s + csize t in
  let objects := mkRef (wpos s) (wpos s) (csize t) 1 :: refs (wbuf s') e t (wpos s) v in
  ForallOrdPairs before objects /\ ForallOrdPairs disjoint objects /\
  Forall (in_file (zlen (wbuf s'))) (refs (wbuf s') e t (wpos s) v) /\
  Forall (fun x => r_owner_end x <= r_start x /\ r_start x mod r_align x = 0) (refs (wbuf s') e t (wpos s) v).
Proof. exact write_objects. Qed.
Print Assumptions C04_any_type.

(** Such a type with absolute pointers and 16 byte alignment, the one of formats/meshex.rs
    lines 29 to 35. *)
Definition AllDataLike := aligned [record [Vector3; f32]; TAbs 8 (TCStr 16)] 16.
Example C04_any_type_example :
  let t := TAbs 8 AllDataLike in
  let v := VPtr (Some (VStruct [VStruct [VStruct [VInt 1; VInt 2; VInt 3]; VInt 4]; VPtr (Some (VBytes text_abc))])) in
  let s := mkW [1; 2; 3] 3 3 in
  twf MTail t = true /\ aln 16 t = true /\ al16 t = true /\ wt t v = true /\
  match write t v s with
  | Ok s' => wdp s' = 64 /\ refs (wbuf s') 11 t 3 v = [mkRef 11 16 24 16; mkRef 40 48 4 16]
  | _ => False
  end.
Proof. vm_compute. auto 10. Qed.

(** ** C07 *)
Theorem C07_null : forall t v n s s',
  twf MTail t = true -> null_value t = Some (v, n) -> 0 <= wpos s -> write t v s = Ok s' ->
  bytes_at (wbuf s') (wpos s) (repeat 0 (Z.to_nat n)) /\ changes_only (wbuf s) (wbuf s') (wpos s) n /\
  wpos s' = wpos s + n.
Proof. exact null_write. Qed.
Print Assumptions C07_null.

Theorem C07_nonnull : forall A t v s s',
  0 < A -> A mod 8 = 0 -> twf MTail t = true -> aln A t = true -> al16 t = true ->
  nonnull_value t v -> wt t v = true ->
  0 <= wpos s -> 0 <= wdp s -> write t v s = Ok s' -> wdp s' < 2 ^ 64 ->
  exists o, uint_at (wbuf s') (wpos s) (offset_width t) o /\ o <> 0.
Proof. exact nonnull_write. Qed.
Print Assumptions C07_nonnull.

(** Every described type with a null value: RelPtr64, Ptr, SsbhEnum64, SsbhArray and
    SsbhByteBuffer, null and not. *)
Example C07_example :
  map (fun '(t, v) => match write t v (mkW [9; 9] 2 2) with Ok s' => wbuf s' | _ => [] end)
    [(TArr u16, VArr []); (TArr u16, VArr [VInt 5]); (TRel u8, VPtr None); (TRel u8, VPtr (Some (VInt 0)));
     (TAbs 2 u8, VPtr None); (TAbs 2 u8, VPtr (Some (VInt 7)))] =
  [[9; 9; 0; 0; 0; 0; 0; 0; 0; 0; 0; 0; 0; 0; 0; 0; 0; 0];
   [9; 9; 22; 0; 0; 0; 0; 0; 0; 0; 1; 0; 0; 0; 0; 0; 0; 0; 0; 0; 0; 0; 0; 0; 5; 0];
   [9; 9; 0; 0; 0; 0; 0; 0; 0; 0]; [9; 9; 8; 0; 0; 0; 0; 0; 0; 0; 0];
   [9; 9; 0; 0]; [9; 9; 4; 0; 7]].
Proof. vm_compute. reflexivity. Qed.

(** ** C08 *)
Theorem C08_read_consumes_inline_size : forall t b p v q,
  inl false t = true -> bytes_ok b = true -> read t b p = Ok (v, q) -> q = p + inline_size t.
Proof. exact read_consumes. Qed.
Print Assumptions C08_read_consumes_inline_size.

(** The element of the array is at position 20, the reader stops at 17. *)
Example C08_example :
  read (TArr u8) [7; 19; 0; 0; 0; 0; 0; 0; 0; 1; 0; 0; 0; 0; 0; 0; 0; 1; 2; 3; 42] 1 = Ok (VArr [VInt 42], 17).
Proof. vm_compute. reflexivity. Qed.

(** ** C09 *)
Theorem C09_reader_implements_format : forall t b p v,
  inl false t = true -> bytes_ok b = true ->
  (read t b p = Ok (v, p + inline_size t) <-> Dec b t p v).
Proof. exact read_iff_Dec. Qed.
Print Assumptions C09_reader_implements_format.

Theorem C09_file_reader_implements_format : forall b f,
  bytes_ok b = true -> (file_read b = Ok f <-> DecFile b f).
Proof. exact file_read_dec. Qed.
Print Assumptions C09_file_reader_implements_format.

(** All the descriptors of the formats are covered. *)
Theorem C09_formats_covered : forall k v t, format k v = Some t -> inl false t = true.
Proof. exact format_inl. Qed.
Print Assumptions C09_formats_covered.

Example C09_example : DecFile ex_odd (mkFile Nlst (1, 0) (VStruct [VArr [str_x]])).
Proof. apply C09_file_reader_implements_format; reflexivity. Qed.

(** ** C10 *)
Theorem C10_overflow_rejected : forall t b p o,
  uint_at b p 8 o -> 2 ^ 64 <= p + o ->
  (o <> 0 -> read (TRel t) b p = Err EOverflow) /\
  (forall n, uint_at b (p + 8) 8 n -> read (TArr t) b p = Err EOverflow) /\
  (forall n, uint_at b (p + 8) 8 n -> read TBuf b p = Err EOverflow) /\
  (forall n vs, uint_at b (p + 8) 8 n -> o <> 0 -> read (TEnum vs) b p = Err EOverflow).
Proof. exact overflow_rejected. Qed.
Print Assumptions C10_overflow_rejected.

(** Reading never panics, whatever the bytes. *)
Theorem C10_read_no_panic : forall b, file_read b <> Panic.
Proof. exact file_read_no_panic. Qed.
Print Assumptions C10_read_no_panic.

Example C10_example :
  read (TRel u8) (7 :: repeat 255 8) 1 = Err EOverflow /\ uint_at (7 :: repeat 255 8) 1 8 (2 ^ 64 - 1).
Proof.
  split; [reflexivity|]. exists (repeat 255 8). split; [reflexivity|]. split; [|reflexivity].
  intros i x H. do 8 (destruct i as [|i]; [injection H as <-; reflexivity|]). destruct i; discriminate.
Qed.

(** ** C11 *)
Theorem C11_trailing_data : forall b c f,
  bytes_ok (b ++ c) = true -> file_read b = Ok f -> file_read (b ++ c) = Ok f.
Proof. exact file_trailing. Qed.
Print Assumptions C11_trailing_data.

Theorem C11_truncation : forall b c f,
  bytes_ok (b ++ c) = true -> file_read (b ++ c) = Ok f ->
  file_read b = Ok f \/ exists e, file_read b = Err e.
Proof. exact file_prefix. Qed.
Print Assumptions C11_truncation.

Example C11_example :
  file_read (firstn 207 (written ex_modl)) = Err EEof /\
  file_read (written ex_modl ++ [1; 2; 3]) = Ok ex_modl.
Proof. split; vm_compute; reflexivity. Qed.

(** ** C12 *)
Theorem C12_text_cut_at_nul : forall bs, exists rest,
  bs = cstring_from_bytes bs ++ rest /\ ~ In 0 (cstring_from_bytes bs) /\
  (rest = [] \/ exists r, rest = 0 :: r).
Proof. exact from_bytes_spec. Qed.
Print Assumptions C12_text_cut_at_nul.

Theorem C12_string_roundtrip : forall n bs s s',
  0 < n -> bytes_ok bs = true -> bytes_ok (wbuf s) = true -> 0 <= wpos s -> 0 <= wdp s ->
  write (SsbhStringN n) (ssbh_string bs) s = Ok s' -> wdp s' < 2 ^ 64 ->
  read (SsbhStringN n) (wbuf s') (wpos s) = Ok (ssbh_string bs, wpos s + 8).
Proof. exact string_roundtrip. Qed.
Print Assumptions C12_string_roundtrip.

Theorem C12_missing_terminator : forall n b p,
  (forall i, p <= i -> byte_at b i <> Some 0) -> read (TCStr n) b p = Err EEof.
Proof. exact unterminated. Qed.
Print Assumptions C12_missing_terminator.

Theorem C12_string_size : forall n bs s s', 0 < n -> write (TCStr n) (VBytes bs) s = Ok s' ->
  wpos s' = wpos s + (if zlen bs =? 0 then n else zlen bs + 1).
Proof. exact string_size. Qed.
Print Assumptions C12_string_size.

(** The strings of the unit tests strings.rs:323-347 *)
Example C12_example :
  write SsbhString (ssbh_string (ascii_bytes "scouter1Shape")) fresh =
  Ok (mkW ([8; 0; 0; 0; 0; 0; 0; 0] ++ ascii_bytes "scouter1Shape" ++ [0]) 8 24) /\
  write SsbhString str_empty fresh = Ok (mkW [8; 0; 0; 0; 0; 0; 0; 0; 0; 0; 0; 0] 8 12) /\
  cstring_from_bytes [97; 0; 98] = [97] /\
  read (TCStr 4) [97; 98] 0 = Err EEof.
Proof. vm_compute. auto. Qed.

(** ** C13 *)
Theorem C13_union_read : forall vs b p v q,
  inl false (TEnum vs) = true -> bytes_ok b = true -> read (TEnum vs) b p = Ok (v, q) ->
  (uint_at b p 8 0 /\ v = VPtr None) \/
  exists tag t v', uint_at b (p + 8) 8 tag /\ In (tag, t) vs /\ v = VPtr (Some (VCase tag v')) /\
    (forall t', In (tag, t') vs -> t' = t) /\ exists o, uint_at b p 8 o /\ o <> 0 /\ Dec b t (p + o) v'.
Proof. exact union_read. Qed.
Print Assumptions C13_union_read.

Theorem C13_union_unknown_tag : forall vs b p o tag,
  uint_at b p 8 o -> o <> 0 -> p + o < 2 ^ 64 -> uint_at b (p + 8) 8 tag ->
  (forall t, ~ In (tag, t) vs) -> read (TEnum vs) b p = Err ENoVariant.
Proof. exact union_unknown. Qed.
Print Assumptions C13_union_unknown_tag.

Theorem C13_union_write : forall vs tag v s s',
  twf MTail (TEnum vs) = true -> inl false (TEnum vs) = true ->
  wt (TEnum vs) (VPtr (Some (VCase tag v))) = true -> bytes_ok (wbuf s) = true ->
  0 <= wpos s -> 0 <= wdp s -> write (TEnum vs) (VPtr (Some (VCase tag v))) s = Ok s' -> wdp s' < 2 ^ 64 ->
  uint_at (wbuf s') (wpos s + 8) 8 tag.
Proof. exact union_write. Qed.
Print Assumptions C13_union_write.

(** A float parameter is tag 1 and a boolean tag 2; tag 3 does not exist. *)
Example C13_example :
  let p := Param BlendStateV16 RasterizerStateV16 in
  inl false p = true /\ twf MTail p = true /\
  read p [16; 0; 0; 0; 0; 0; 0; 0; 1; 0; 0; 0; 0; 0; 0; 0; 5; 0; 0; 0] 0 =
    Ok (VPtr (Some (VCase 1 (VStruct [VInt 5]))), 16) /\
  read p [16; 0; 0; 0; 0; 0; 0; 0; 2; 0; 0; 0; 0; 0; 0; 0; 5; 0; 0; 0] 0 =
    Ok (VPtr (Some (VCase 2 (VStruct [VInt 5]))), 16) /\
  read p [16; 0; 0; 0; 0; 0; 0; 0; 3; 0; 0; 0; 0; 0; 0; 0; 5; 0; 0; 0] 0 = Err ENoVariant /\
  write p (VPtr (Some (VCase 2 (VStruct [VInt 5])))) fresh =
    Ok (mkW [16; 0; 0; 0; 0; 0; 0; 0; 2; 0; 0; 0; 0; 0; 0; 0; 5; 0; 0; 0] 16 20).
Proof. vm_compute. repeat split; reflexivity. Qed.

(** ** C14 *)
Theorem C14_enumeration_read : forall w ra tags b p, 0 <= w ->
  (forall v q, read (TRepr w ra tags) b p = Ok (v, q) <->
     exists n, uint_at b p w n /\ In n tags /\ v = VInt n /\ q = p + w) /\
  (forall n, uint_at b p w n -> ~ In n tags -> read (TRepr w ra tags) b p = Err ENoVariant).
Proof. exact repr_read. Qed.
Print Assumptions C14_enumeration_read.

Theorem C14_enumeration_write : forall w ra tags n s s',
  twf MInline (TRepr w ra tags) = true -> In n tags -> bytes_ok (wbuf s) = true ->
  0 <= wpos s -> write (TRepr w ra tags) (VInt n) s = Ok s' ->
  uint_at (wbuf s') (wpos s) w n.
Proof. exact repr_write. Qed.
Print Assumptions C14_enumeration_write.

Example C14_example :
  read BillboardType [4] 0 = Ok (VInt 4, 1) /\ read BillboardType [5] 0 = Err ENoVariant /\
  twf MInline BillboardType = true.
Proof. vm_compute. auto. Qed.

(** ** C15 *)
Theorem C15_header : forall f out, file_ok f -> file_write f = Ok out ->
  DecHeader out (stored_name (type_name (fkind f))) (fver f) /\ uint_at out 4 8 64 /\ uint_at out 12 4 0.
Proof. exact file_header. Qed.
Print Assumptions C15_header.

Theorem C15_dispatch : forall k b f, file_read b = Ok f ->
  (fkind f = k -> typed_read k b = Ok (fver f, fbody f)) /\
  (fkind f <> k -> typed_read k b = Err EInvalidType).
Proof. exact typed_read_type. Qed.
Print Assumptions C15_dispatch.

Theorem C15_unknown_type : forall b k m,
  bytes_ok b = true -> length m = 4%nat -> bytes_at b 16 m ->
  (forall k', m <> stored_name (type_name k')) -> exists e, typed_read k b = Err e /\ e <> EInvalidType.
Proof. exact unknown_type_error. Qed.
Print Assumptions C15_unknown_type.

Theorem C15_unknown_version : forall b k k' v,
  bytes_ok b = true -> DecHeader b (stored_name (type_name k')) v -> ~ In v (supported k') ->
  exists e, typed_read k b = Err e /\ e <> EInvalidType.
Proof. exact unknown_version_error. Qed.
Print Assumptions C15_unknown_version.

(** The values a well formed file can have are those of the supported versions. *)
Theorem C15_supported : forall k v, (exists t, format k v = Some t) <-> In v (supported k).
Proof. exact supported_iff. Qed.
Print Assumptions C15_supported.

Example C15_example :
  firstn 24 (written ex_matl) =
    [72; 66; 83; 83; 64; 0; 0; 0; 0; 0; 0; 0; 0; 0; 0; 0; 76; 84; 65; 77; 1; 0; 6; 0] /\
  typed_read Modl (written ex_matl) = Err EInvalidType /\
  typed_read Matl (put (written ex_matl) 22 [7]) = Err ENoVariant.
Proof. vm_compute. auto. Qed.

(** ** C18 *)
Theorem C18_end_alignment : forall f out, file_ok f -> file_write f = Ok out ->
  fkind f = Mesh \/ (fkind f = Anim /\ fver f = (2, 1)) -> zlen out mod 8 = 0.
Proof. exact file_align_8. Qed.
Print Assumptions C18_end_alignment.

(** The last object of the example ends at 115; version 2.0 is not aligned, as in the
    test anim.rs:304-317. *)
Example C18_example :
  zlen (written ex_anim) = 120 /\
  zlen (written (mkFile Anim (2, 0) (VStruct [VInt 0; VInt 1; VInt 0; str_abc; VArr []; VBytes [1; 2; 3]]))) = 83.
Proof. vm_compute. auto. Qed.

(** ** C19 *)
Theorem C19_size_exact : forall t v s s',
  twf MInline t = true -> wt t v = true -> 0 <= wpos s -> 0 <= wdp s -> write t v s = Ok s' ->
  wpos s' = wpos s + size t v /\ forall v', wt t v' = true -> size t v' = size t v.
Proof. exact size_exact. Qed.
Print Assumptions C19_size_exact.

Theorem C19_size_inline : forall t v, twf MInline t = true -> wt t v = true -> size t v = inline_size t.
Proof. exact size_inline. Qed.
Print Assumptions C19_size_inline.

Example C19_example :
  twf MInline RenderPassContainer = true /\ inline_size RenderPassContainer = 64 /\
  twf MInline (MeshObject AttributeV10) = true /\ inline_size (MeshObject AttributeV10) = 208.
Proof. vm_compute. auto. Qed.

(** ** C20 *)
Theorem C20_narrow_pointer_exact : forall w t v s,
  twf MTail (TAbs w t) = true -> inl false (TAbs w t) = true -> wt t v = true -> bytes_ok (wbuf s) = true ->
  0 <= wpos s -> 0 <= wdp s ->
  let q := round_up (Z.max (wdp s) (wpos s + w)) (ssbh_align t) in
  match write (TAbs w t) (VPtr (Some v)) s with
  | Ok s' => q < 256 ^ w /\ (wdp s' < 2 ^ 64 -> uint_at (wbuf s') (wpos s) w q /\ Dec (wbuf s') t q v)
  | Err e => e = EPtrRange
  | Panic => False
  end /\ (256 ^ w <= q -> write (TAbs w t) (VPtr (Some v)) s = Err EPtrRange).
Proof. exact absptr_exact. Qed.
Print Assumptions C20_narrow_pointer_exact.

Example C20_example :
  (write (TAbs 2 u8) (VPtr (Some (VInt 5))) fresh = Ok (mkW [2; 0; 5] 2 3)) /\
  (write (TAbs 2 u8) (VPtr (Some (VInt 5))) (mkW [] 0 65536) = Err EPtrRange).
Proof. vm_compute. auto. Qed.

(** ** C21 *)
Theorem C21_save_path : forall ser path e d r d',
  write_to_file ser path e d = (r, d') ->
  (forall q, q <> path -> d' q = d q) /\
  (r = IoOk -> exists out, ser = Ok out /\ d' path = Some out) /\
  (forall err, ser = Err err -> r = IoErr /\ (d' path = d path \/ d' path = Some [])) /\
  (forall out, ser = Ok out -> create_ok e = true -> write_limit e = None -> r = IoOk).
Proof. exact save_path. Qed.
Print Assumptions C21_save_path.

Example C21_example :
  snd (write_to_file (file_write ex_modl) 1 (mkEnv true None) (fun _ => None)) 1 = Some (written ex_modl) /\
  snd (write_to_file (Err EPtrRange) 1 (mkEnv true None) (fun _ => Some text_abc)) 1 = Some [].
Proof. vm_compute. auto. Qed.
