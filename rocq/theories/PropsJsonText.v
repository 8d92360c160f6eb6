(** Property C94 of properties.jsonl: the text of JSON documents.

    [denotes j t] is the grammar of RFC 8259 with the meaning of numbers, [blank] white space
    (JsonTextSpec.v).  [float_kept n] says that the text of a float is read as that float;
    [tree_ok] holds of every document in memory; [finite_tree] says that its floats are finite
    (JsonTextFinite.v). *)
From Coq Require Import String Permutation Reals Lia ZifyBool.
From Verif Require Import MatlData DataJsonTool Bytes Ssbh Formats Strings File MeshEx Float32 Json JsonFile JsonSpec DataJson DataJsonSpec
  JsonText JsonTextSpec JsonTextFacts JsonTextWrite JsonTextUtf8 JsonTextFile JsonTextTool JsonTextFinite JsonTextNumber JsonTextNear JsonTextShort Examples PropsFiles PropsDataJson PropsJson.
From Coq Require Import List.
Import ListNotations.
Open Scope Z_scope.

(** ** Reading *)
(** A text is accepted if and only if it is a value of the grammar with white space around it and
    at most 127 arrays and objects inside each other. *)
Theorem C94_grammar : forall t j,
  from_text t = Some j <->
  exists w1 t' w2, t = (w1 ++ t' ++ w2)%list /\ blank w1 /\ blank w2 /\ denotes j t' /\ (nesting j < 128)%nat.
Proof. exact from_text_iff. Qed.
Print Assumptions C94_grammar.

(** The grammar gives a text one meaning. *)
Theorem C94_unique : forall j j' t, denotes j t -> denotes j' t -> j = j'.
Proof.
  intros j j' t D D'. apply (denotes_unique j j' [] t [] t D D' nil_blank nil_blank). cbn. now rewrite app_nil_r.
Qed.
Print Assumptions C94_unique.

(** What is read from UTF-8 text has UTF-8 strings and numbers in range. *)
Theorem C94_read_ok : forall t j, utf8_valid t = true -> from_text t = Some j -> tree_ok j = true.
Proof. exact from_text_tree. Qed.
Print Assumptions C94_read_ok.

(** The grammar refers to the model for the values of numbers; these are their meaning.  Integers
    are exact.  Any other number, with fraction or exponent or too large for 64 bits, has a relative error
    of less than 1 / (2^24 - 1) however many digits it has, for sizes for which an f32 has its full
    precision. *)
Theorem C94_integers : forall neg ints t, number neg ints [] None t ->
  let m := digits_value ints in
  (if neg then 0 < m <= 2 ^ 63 else m < 2 ^ 64) -> from_text t = Some (JInt (if neg then - m else m)).
Proof. exact integer_exact. Qed.
Print Assumptions C94_integers.

Theorem C94_numbers : forall neg ints fracs exp t, number neg ints fracs exp t ->
  fracs <> [] \/ exp <> None \/ (if neg then 2 ^ 63 else 2 ^ 64 - 1) < digits_value ints ->
  let m := digits_value (ints ++ fracs) in
  let k := match exp with Some x => x | None => 0 end - zlen fracs in
  let r := (IZR m * powerRZ 10 k)%R in
  (powerRZ 2 (-125) <= r <= powerRZ 2 127)%R ->
  exists n, from_text t = Some (JFloat n) /\ QuantSpec.finite n = true /\
    (Rabs (QuantSpec.real n - (if neg then - r else r)) <= r / 16777215)%R.
Proof. exact number_close. Qed.
Print Assumptions C94_numbers.

(** Escapes: four hexadecimal digits are a number, and a code point is written in UTF-8. *)
Definition hex_meaning (c v : Z) : Prop :=
  48 <= c <= 57 /\ v = c - 48 \/ 97 <= c <= 102 /\ v = c - 97 + 10 \/ 65 <= c <= 70 /\ v = c - 65 + 10.
Theorem C94_hex : forall a b c d n, hex4 a b c d = Some n <->
  exists w x y z, hex_meaning a w /\ hex_meaning b x /\ hex_meaning c y /\ hex_meaning d z /\
    n = w * 4096 + x * 256 + y * 16 + z.
Proof.
  intros a b c d n. assert (X : forall c v, hex_value c = Some v <-> hex_meaning c v).
  { intros c' v. unfold hex_value, hex_meaning. split.
    - repeat match goal with |- context [if ?b then _ else _] => destruct b eqn:? end; intros H; try discriminate H; injection H as <-; lia.
    - intros H. repeat match goal with |- context [if ?b then _ else _] => destruct b eqn:? end; try (f_equal; lia); lia. }
  unfold hex4. split.
  - destruct (hex_value a) as [w|] eqn:A; [|discriminate]. destruct (hex_value b) as [x|] eqn:B; [|discriminate].
    destruct (hex_value c) as [y|] eqn:C; [|discriminate]. destruct (hex_value d) as [z|] eqn:D; [|discriminate].
    intros H. injection H as <-. exists w, x, y, z. rewrite <- !X. repeat split; auto. ring.
  - intros (w & x & y & z & A & B & C & D & ->). apply X in A, B, C, D. rewrite A, B, C, D. f_equal. ring.
Qed.
Print Assumptions C94_hex.

Definition code_point (u : list Z) : option Z :=
  match u with
  | [a] => Some a
  | [a; b] => Some (a mod 32 * 2 ^ 6 + b mod 64)
  | [a; b; c] => Some (a mod 16 * 2 ^ 12 + b mod 64 * 2 ^ 6 + c mod 64)
  | [a; b; c; d] => Some (a mod 8 * 2 ^ 18 + b mod 64 * 2 ^ 12 + c mod 64 * 2 ^ 6 + d mod 64)
  | _ => None
  end.
Theorem C94_unicode : forall n, 0 <= n < 1114112 -> ~ 55296 <= n <= 57343 ->
  utf8_valid (utf8_char n) = true /\ code_point (utf8_char n) = Some n.
Proof.
  intros n B S. split; [now apply utf8_char_valid|]. unfold utf8_char.
  destruct (n <? 128) eqn:E1; [reflexivity|]. destruct (n <? 2048) eqn:E2; [|destruct (n <? 65536) eqn:E3]; cbn [code_point]; f_equal;
    Z.to_euclidean_division_equations; lia.
Qed.
Print Assumptions C94_unicode.

(** ** Writing *)
(** The text of a float with 32 bits, other than infinities and NaN, is read as that float: the
    number is computed from its digits with two roundings to f64 and then rounded to f32, and the
    result is what one exact rounding would give. *)
Theorem C94_floats : forall n, 0 <= n < 2 ^ 32 -> (n / 2 ^ 23) mod 2 ^ 8 <> 255 -> read_number (show_f32 n) = Some (JFloat n, []).
Proof. intros n B F. apply all_kept; auto. unfold f32_finite. apply Z.eqb_neq in F. now rewrite F. Qed.
Print Assumptions C94_floats.

(** The decimal is as short as possible: a decimal that is closer to the float than to any other number
    with 24 bits has no larger exponent. *)
Theorem C94_shortest : forall n m k, 0 <= n < 2 ^ 32 -> n mod 2 ^ 31 <> 0 -> (n / 2 ^ 23) mod 2 ^ 8 <> 255 -> shortest n = (m, k) ->
  forall m' k', 0 < m' ->
  (forall c q, 0 <= c <= 2 ^ 24 -> -149 <= q -> (IZR c * powerRZ 2 q <> Rabs (QuantSpec.real n))%R ->
     (Rabs (Rabs (QuantSpec.real n) - IZR m' * powerRZ 10 k') < Rabs (IZR c * powerRZ 2 q - IZR m' * powerRZ 10 k'))%R) -> k' <= k.
Proof. exact shortest_exponent. Qed.
Print Assumptions C94_shortest.
(** 0.1, the largest f32, 1/3 *)
Example C94_shortest_example :
  map shortest [0x3dcccccd; 0x7f7fffff; 0x3eaaaaab] = [(1, -1); (34028235, 31); (33333334, -8)].
Proof. vm_compute. reflexivity. Qed.

Theorem C94_written : forall j, tree_ok j = true -> finite_tree j -> denotes j (to_text j) /\ utf8_valid (to_text j) = true.
Proof. intros j T F. destruct (tree_written j T F) as (D & U & _). auto. Qed.
Print Assumptions C94_written.

Theorem C94_roundtrip : forall j, tree_ok j = true -> finite_tree j ->
  from_text (to_text j) = if Nat.ltb (nesting j) 128 then Some j else None.
Proof. intros j T F. now destruct (tree_written j T F) as (_ & _ & R). Qed.
Print Assumptions C94_roundtrip.

(** Documents deeper than 127 are written and not read.  No type of the repository is that deep. *)
Fixpoint nested (n : nat) : json := match n with O => JArr [] | S k => JArr [nested k] end.
Theorem C94_deep_refuted : exists j, tree_ok j = true /\ finite_tree j /\ from_text (to_text j) = None.
Proof. exists (nested 127). split; [reflexivity|]. split; [apply finite_other|]; vm_compute; reflexivity. Qed.
Print Assumptions C94_deep_refuted.

(** ** The programs *)
Theorem C94_documents : forall d, document_ok d ->
  tree_ok (document_json d) = true /\ finite_tree (document_json d) /\ (nesting (document_json d) < 128)%nat.
Proof. intros d H. destruct (document_tree d H). split; [assumption|]. split; [apply document_finite|assumption]. Qed.
Print Assumptions C94_documents.

Theorem C94_lib_identity : forall d out,
  document_ok d -> countable d -> save d = Ok out -> zlen out < 2 ^ 63 -> representable_document d ->
  exists t, file_to_text (output_ext d) out = Ok t /\ text_to_file t = Ok (Some (output_ext d, out)).
Proof. exact lib_identity_all. Qed.
Print Assumptions C94_lib_identity.

Theorem C94_data_library : forall mul inv bounding sphere_of order k b d,
  (forall l, Permutation l (order l)) -> bytes_ok b = true -> load_as order k b = Ok d -> finite_data d ->
  exists t, data_to_text order (data_ext k) b = Some (Ok t) /\
    forall out, save_data mul inv bounding sphere_of d = Ok out ->
      text_to_data_file mul inv bounding sphere_of t = Ok (data_ext k, out).
Proof. exact data_library_all. Qed.
Print Assumptions C94_data_library.

(** Whatever the text, the file written is what the library saves for a value of Rust's types. *)
Theorem C94_any_text : forall mul inv bounding sphere_of t ext out,
  text_to_data_file mul inv bounding sphere_of t = Ok (ext, out) ->
  exists j d, from_text t = Some j /\ read_first attempts j = Some d /\ typed_data d = true /\
    save_data mul inv bounding sphere_of d = Ok out /\ ext = data_ext (data_kind_of d).
Proof. exact any_text. Qed.
Print Assumptions C94_any_text.

(** A number that is too large for an f32 is read as infinity and saved.  The text of the saved file
    has null in its place, and the program panics for it. *)
(* The first float of a material replaced by 1e39 *)
Definition large (t : list Z) : list Z :=
  (fix go (t : list Z) := match t with | 46 :: 48 :: r => [101; 51; 57] ++ r | c :: r => c :: go r | [] => [] end) t.
Definition ex_large : list Z := large (to_text (data_json (DtMatl PropsMatl.ex_matl))).
Definition ex_large_file : list Z :=
  match from_text ex_large with
  | Some j => match read_first attempts j with Some (DtMatl d) => match matl_data_write d with Ok b => b | _ => [] end | _ => [] end
  | None => []
  end.
Definition ex_large_again : list Z := match matl_data_read ex_large_file with Ok d => to_text (data_json (DtMatl d)) | _ => [] end.
Lemma large_steps :
  (utf8_valid ex_large &&
   match from_text ex_large with
   | Some j => match read_first attempts j with Some (DtMatl d) => match matl_data_write d with Ok _ => true | _ => false end | _ => false end
   | None => false
   end && match matl_data_read ex_large_file with Ok _ => true | _ => false end &&
   utf8_valid ex_large_again && match from_text ex_large_again with Some j => match read_first attempts j with None => true | _ => false end | None => false end)%bool = true.
Proof. vm_compute. reflexivity. Qed.
Theorem C94_large_refuted : exists t out t', forall mul inv bounding sphere_of order,
  text_to_data_file mul inv bounding sphere_of t = Ok ("numatb"%string, out) /\
  data_to_text order "numatb" out = Some (Ok t') /\ text_to_data_file mul inv bounding sphere_of t' = Panic.
Proof.
  exists ex_large, ex_large_file, ex_large_again. intros mul inv bounding sphere_of order. pose proof large_steps as H.
  apply andb_prop in H as [H H5]. apply andb_prop in H as [H H4]. apply andb_prop in H as [H H3]. apply andb_prop in H as [H1 H2].
  assert (F : exists j d, from_text ex_large = Some j /\ read_first attempts j = Some (DtMatl d) /\ matl_data_write d = Ok ex_large_file).
  { unfold ex_large_file. destruct (from_text ex_large) as [j|]; [|discriminate H2].
    destruct (read_first attempts j) as [[| | | |d| | |]|] eqn:D; try discriminate H2.
    destruct (matl_data_write d) eqn:W; try discriminate H2. exists j, d. rewrite D, W. auto. }
  destruct F as (j & d & J & D & W).
  assert (L : exists d', matl_data_read ex_large_file = Ok d' /\ ex_large_again = to_text (data_json (DtMatl d'))).
  { unfold ex_large_again. destruct (matl_data_read ex_large_file) as [d'| |]; try discriminate H3. eauto. }
  destruct L as (d' & L & A). clear H2 H3.
  unfold text_to_data_file, data_to_text, data_to_json, json_to_data_file. rewrite H1, H4, J, D. cbn [save_data unwrap]. rewrite W.
  split; [reflexivity|]. split.
  - change (kind_of_ext "numatb") with (Some DkMatl). cbn [option_map load_as]. rewrite L. cbn [bind]. now rewrite <- A.
  - destruct (from_text ex_large_again) as [j'|]; [|reflexivity]. destruct (read_first attempts j'); [discriminate H5|reflexivity].
Qed.
Print Assumptions C94_large_refuted.

(** ** Cases *)
(** {"a" : [1, -2.5e-3,"é\n"]} *)
Definition ex_text : list Z :=
  [32; 123; 34; 97; 34; 32; 58; 32; 91; 49; 44; 32; 45; 50; 46; 53; 101; 45; 51; 44; 34; 92; 117; 48; 48; 101; 57; 92; 110; 34; 93; 125; 10].
Example C94_text_example :
  from_text ex_text = Some (JObj [("a"%string, JArr [JInt 1; JFloat 0xbb23d70a; JStr [195; 169; 10]])]) /\
  utf8_valid ex_text = true /\
  (* {"a": 1} with a comma too much, 01, 1., a lone surrogate, two values *)
  map from_text [[123; 34; 97; 34; 58; 49; 44; 125]; [48; 49]; [49; 46]; [34; 92; 117; 100; 56; 48; 48; 34]; [49; 32; 49]] =
    [None; None; None; None; None].
Proof. vm_compute. auto. Qed.
Example C94_written_example :
  (* 0.1, 1e20, 2^-149, -0.0, the largest f32, 16777216 *)
  map show_f32 [0x3dcccccd; 0x60ad78ec; 1; 0x80000000; 0x7f7fffff; 0x4b800000] =
    [[48; 46; 49]; [49; 101; 50; 48]; [49; 101; 45; 52; 53]; [45; 48; 46; 48];
     [51; 46; 52; 48; 50; 56; 50; 51; 53; 101; 51; 56]; [49; 54; 55; 55; 55; 50; 49; 54; 46; 48]] /\
  map (fun n => read_number (show_f32 n)) [0x3dcccccd; 0x60ad78ec; 1; 0x80000000; 0x7f7fffff; 0x4b800000] =
    map (fun n => Some (JFloat n, [])) [0x3dcccccd; 0x60ad78ec; 1; 0x80000000; 0x7f7fffff; 0x4b800000] /\
  forallb f32_finite (tree_floats (JArr (map JFloat [0x3dcccccd; 0x60ad78ec; 1; 0x80000000; 0x7f7fffff; 0x4b800000]))) = true /\
  to_text (JObj [("a"%string, JArr [JInt (-3); JNull]); ("b"%string, JObj [])]) =
    text_of ("{"%string ++ String (Ascii.ascii_of_nat 10) ("  ""a"": ["%string ++ String (Ascii.ascii_of_nat 10) ("    -3,"%string ++
      String (Ascii.ascii_of_nat 10) ("    null"%string ++ String (Ascii.ascii_of_nat 10) ("  ],"%string ++
      String (Ascii.ascii_of_nat 10) ("  ""b"": {}"%string ++ String (Ascii.ascii_of_nat 10) "}"%string)))))).
Proof. vm_compute. auto. Qed.
Example C94_lib_example :
  representable_document (DMeshEx ex_meshex) /\ countable (DMeshEx ex_meshex) /\
  save (DMeshEx ex_meshex) = Ok ex_meshex_bytes /\
  List.length (tree_floats (document_json (DMeshEx ex_meshex))) <> O /\
  match file_to_text "numshexb" ex_meshex_bytes with Ok t => text_to_file t = Ok (Some ("numshexb"%string, ex_meshex_bytes)) | _ => False end.
Proof. split; [apply representable_good; vm_compute; reflexivity|]. vm_compute. repeat split; auto; discriminate. Qed.
Example C94_data_example :
  forallb typed_data ex_all = true /\ forallb (fun d => forallb f32_finite (data_floats d)) ex_all = true /\
  map (fun d => Z.of_nat (List.length (tree_floats (data_json d)))) ex_all = map (fun d => Z.of_nat (List.length (data_floats d))) ex_all /\
  map (fun d => Z.of_nat (nesting (data_json d))) ex_all = [8; 5; 11; 3; 7; 4; 5; 4].
Proof. vm_compute. auto. Qed.
(** -12.5e-3 and 18446744073709551615 *)
Example C94_numbers_example :
  number true [49; 50] [53] (Some (-3)) [45; 49; 50; 46; 53; 101; 45; 51] /\ digits_value ([49; 50] ++ [53]) = 125 /\
  from_text [45; 49; 50; 46; 53; 101; 45; 51] = Some (JFloat 0xbc4ccccd) /\
  from_text (digits (2 ^ 64 - 1)) = Some (JInt (2 ^ 64 - 1)) /\ from_text (show_int (- 2 ^ 63)) = Some (JInt (- 2 ^ 63)) /\
  from_text (digits (10 ^ 24)) = Some (JFloat 0x6753c21c) /\ from_text (digits (10 ^ 24) ++ [46; 53]) = Some (JFloat 0x6753c21c).
Proof.
  split; [|vm_compute; auto 10].
  exists [46; 53], [101; 45; 51]. repeat split; try discriminate; try (apply (ex_minus 101 [51])); try (apply (fr_some [53])); cbn; auto; try discriminate;
    repeat constructor; unfold digit; lia.
Qed.
Example C94_unicode_example :
  hex4 50 48 65 99 = Some 8364 /\ utf8_char 8364 = [226; 130; 172] /\ code_point [226; 130; 172] = Some 8364.
Proof. vm_compute. auto. Qed.
