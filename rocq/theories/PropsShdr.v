(** Properties of shader metadata. *)
From Verif Require Import Bytes Ssbh Formats File Strings SmallData ShdrData ShdrSpec ShdrFacts ShdrFileFacts.

(** ** C59: what is read is what the tables of the compiled shader say *)
Theorem C59_metadata : forall b m, bytes_ok b = true -> meta_read b = Ok m -> meta_at b m.
Proof. exact meta_described. Qed.
Print Assumptions C59_metadata.

(** The text of a name is determined by its bytes, is UTF-8, and is unchanged if it was. *)
Theorem C59_names : forall raw, bytes_ok raw = true -> exists s, decoded raw s /\ (forall s', decoded raw s' -> s' = s) /\
  (exists cs, Forall utf8_char cs /\ s = concat cs) /\ (forall cs, Forall utf8_char cs -> raw = concat cs -> s = raw).
Proof. exact decoded_total. Qed.
Print Assumptions C59_names.

(** A shader of 2900 bytes with one buffer, uniform, input and output; the names follow at 1000 *)
Definition ex_words (l : list (Z * Z)) (b : list Z) : list Z :=
  fold_left (fun b x => put b (fst x) (le_bytes 4 (snd x))) l b.
Definition ex_shader (input_name : Z) : list Z :=
  put (ex_words [(292, 400); (332, 1); (336, 0); (340, 1); (344, 108); (348, 1); (352, 272); (356, 1); (360, 364); (392, 600);
                 (400, 0); (404, 3); (440, 64); (444, 1); (448, 2); (452, -1);
                 (508, 2); (512, 4); (548, 38); (552, 0); (556, 16); (584, -1);
                 (672, input_name); (676, 5); (712, 39); (720, -1);
                 (764, 0); (768, 0); (804, 4); (812, 7);
                 (2504, 4)] (repeat 0 2900)) 1000 [65; 66; 67; 255; 195; 169].

Example C59_example :
  bytes_ok (ex_shader 2) = true /\
  meta_read (ex_shader 2) =
    Ok (Meta [Buf [65; 66] 64 1 2 (-1) 0 0] [Uni [67; 239; 191; 189; 239; 191; 189] 38 0 16 (-1)]
             [Att [67; 239; 191; 189; 195; 169] 39 (-1)] [Att [] 4 7]).
Proof. vm_compute. auto. Qed.
Example C59_names_example : utf8_lossy [65; 226; 130; 66; 255; 237; 160; 128; 240; 159; 152; 128] =
  [65; 239; 191; 189; 66; 239; 191; 189; 239; 191; 189; 239; 191; 189; 239; 191; 189; 240; 159; 152; 128].
Proof. vm_compute. reflexivity. Qed.

(** ** C60: which compiled shaders can be read, and what happens to the others *)
Theorem C60_outcome : forall b, bytes_ok b = true ->
  ((exists m, meta_read b = Ok m) <-> sound_tables b /\ sound_names b) /\
  (meta_read b = Panic <-> sound_tables b /\ ~ sound_names b) /\
  ((exists e, meta_read b = Err e) <-> ~ sound_tables b).
Proof. exact meta_outcome. Qed.
Print Assumptions C60_outcome.

(** A name outside the shader is a panic, not an error. *)
Theorem C60_no_panic_refuted : exists b, bytes_ok b = true /\ zlen b = 2900 /\ meta_read b = Panic.
Proof. exists (ex_shader 1897). vm_compute. auto. Qed.
Print Assumptions C60_no_panic_refuted.
Example C60_example : (exists m, meta_read (ex_shader 1896) = Ok m) /\ meta_read (firstn 2899 (ex_shader 2)) = Err EEof.
Proof. split; [eexists|]; vm_compute; reflexivity. Qed.

(** ** C61: files of shaders *)
Theorem C61_shdr_file : forall b version v, bytes_ok b = true -> typed_read Shdr b = Ok (version, v) ->
  exists shaders, v = VStruct [VArr shaders] /\
    (forall d, shdr_data_read b = Ok d ->
       Forall2 (fun s e => exists name binary, shader_fields s name (se_stage e) binary /\
                  se_name e = ssbh_to_string_lossy name /\ meta_at binary (se_meta e)) shaders d) /\
    ((exists d, shdr_data_read b = Ok d) <->
     Forall (fun s => exists name stage binary, shader_fields s name stage binary /\ sound_tables binary /\ sound_names binary) shaders) /\
    (forall e, shdr_data_read b <> Err e).
Proof. exact shdr_file. Qed.
Print Assumptions C61_shdr_file.

Definition ex_shdr (binary : list Z) : res (list Z) :=
  typed_write Shdr (1, 2) (VStruct [VArr [VStruct [ssbh_string [118; 115]; VInt 4; VInt 2; VBytes binary; VInt (zlen binary)]]]).
Example C61_example :
  (let* b := ex_shdr (ex_shader 2) in shdr_data_read b) =
    Ok [SE [118; 115] 4 (Meta [Buf [65; 66] 64 1 2 (-1) 0 0] [Uni [67; 239; 191; 189; 239; 191; 189] 38 0 16 (-1)]
                              [Att [67; 239; 191; 189; 195; 169] 39 (-1)] [Att [] 4 7])] /\
  (let* b := ex_shdr [1; 2; 3] in let* (_, v) := typed_read Shdr b in Ok v) <> Panic.
Proof. split; [vm_compute; reflexivity|]. vm_compute. discriminate. Qed.

(** Every failure is a panic: a file that ssbh_lib reads, with a shader of three bytes, cannot be
    loaded and gives no error. *)
Theorem C61_errors_refuted : exists b r, bytes_ok b = true /\ typed_read Shdr b = Ok r /\ shdr_data_read b = Panic.
Proof.
  exists (match ex_shdr [1; 2; 3] with Ok b => b | _ => [] end). eexists.
  split; [vm_compute; reflexivity|]. split; vm_compute; reflexivity.
Qed.
Print Assumptions C61_errors_refuted.

(** ** C12: what counts as UTF-8 when strings become text *)
Theorem C12_utf8 : forall bs, bytes_ok bs = true -> (utf8_valid bs = true <-> exists cs, Forall utf8_char cs /\ bs = concat cs).
Proof. exact utf8_valid_chars. Qed.
Print Assumptions C12_utf8.
Example C12_utf8_example : utf8_char [226; 130; 172] /\ utf8_valid [65; 226; 130; 172] = true /\ utf8_valid [237; 160; 128] = false.
Proof. split; [|vm_compute; auto]. exists 0x20AC. split; [split; reflexivity || discriminate|]. split; [intros [H _]; now apply H|reflexivity]. Qed.
