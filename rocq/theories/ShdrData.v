(** ShdrData: the metadata inside compiled shaders.  Text is the list of its UTF-8 bytes.
    Paths below are relative to /repo/ssbh_data/src. *)
From Verif Require Import Bytes Ssbh Formats File Strings AnimBuf SmallData.

(** String::from_utf8_lossy of the standard library (shdr_data.rs:380).  [utf8_step a r] looks at
    the first byte [a] and the bytes [r] after it: how many bytes of [r] it goes on to take, and
    whether they form a character (library/core/src/str/lossy.rs, Utf8Chunks::next).  Looking
    past the end gives 0, which continues nothing. *)
Definition utf8_step (a : Z) (r : list Z) : nat * bool :=
  let at_ i := nth i r 0 in
  if a <=? 127 then (0%nat, true)
  else if (194 <=? a) && (a <=? 223) then if cont (at_ 0%nat) then (1%nat, true) else (0%nat, false)
  else if (224 <=? a) && (a <=? 239) then
    if (if a =? 224 then (160 <=? at_ 0%nat) && (at_ 0%nat <=? 191)
        else if a =? 237 then (128 <=? at_ 0%nat) && (at_ 0%nat <=? 159) else cont (at_ 0%nat))
    then if cont (at_ 1%nat) then (2%nat, true) else (1%nat, false)
    else (0%nat, false)
  else if (240 <=? a) && (a <=? 244) then
    if (if a =? 240 then (144 <=? at_ 0%nat) && (at_ 0%nat <=? 191)
        else if a =? 244 then (128 <=? at_ 0%nat) && (at_ 0%nat <=? 143) else cont (at_ 0%nat))
    then if cont (at_ 1%nat) then if cont (at_ 2%nat) then (3%nat, true) else (2%nat, false) else (1%nat, false)
    else (0%nat, false)
  else (0%nat, false).

(** U+FFFD in UTF-8 *)
Definition replacement : list Z := [239; 191; 189].

(** [skip] bytes belong to a character or an invalid sequence already dealt with; [keep] tells
    whether they are copied. *)
Fixpoint utf8_lossy_from (skip : nat) (keep : bool) (bs : list Z) : list Z :=
  match bs with
  | [] => []
  | a :: r =>
      match skip with
      | S k => (if keep then [a] else []) ++ utf8_lossy_from k keep r
      | O =>
          let '(k, ok) := utf8_step a r in
          (if ok then [a] else replacement) ++ utf8_lossy_from k ok r
      end
  end.
Definition utf8_lossy (bs : list Z) : list Z := utf8_lossy_from 0 true bs.

(** i32 values from their 32 bits *)
Definition to_i32 (n : Z) : Z := if n <? 2 ^ 31 then n else n - 2 ^ 32.

(** ** The entries of the tables *)

(** EntryString, shdr_data.rs:328-332 *)
Definition EntryString := record [u32; u32].
(** DataType, shdr_data.rs:334-367 *)
Definition data_types : list Z := [0; 4; 7; 20; 22; 36; 37; 38; 39; 50; 67; 68; 69; 73; 103].
Definition DataType := repr32 data_types.
(** BufferEntry, shdr_data.rs:268-284; the padding after a field is skipped *)
Definition BufferEntry :=
  TStruct [(EntryString, (0, 32)); (u32, (0, 0)); (u32, (0, 0)); (i32, (0, 0)); (i32, (0, 0)); (i32, (0, 0));
           (i32, (0, 0)); (i32, (0, 0)); (i32, (0, 0)); (i32, (0, 32))] 0 0 None.
(** UniformEntry, shdr_data.rs:286-309 *)
Definition UniformEntry :=
  TStruct [(EntryString, (0, 32)); (DataType, (0, 0)); (i32, (0, 0)); (i32, (0, 0)); (i32, (0, 0)); (i32, (0, 0));
           (i32, (0, 0)); (i32, (0, 0)); (i32, (0, 0)); (i32, (0, 0)); (i32, (0, 0)); (i32, (0, 0));
           (i32, (0, 0)); (i32, (0, 0)); (i32, (0, 0)); (i32, (0, 0)); (i32, (0, 60))] 0 0 None.
(** AttributeEntry, shdr_data.rs:311-326 *)
Definition AttributeEntry :=
  TStruct [(EntryString, (0, 32)); (DataType, (0, 0)); (i32, (0, 0)); (i32, (0, 0)); (i32, (0, 0)); (u32, (0, 32))]
          0 0 None.

(** UnkPtr::read_options, shdr_data.rs:232-266: the count was read before the pointer.  Returns
    the entries and the position after the pointer.  The sum of the offsets is of u64, so it
    cannot overflow. *)
Definition read_table (t : ty) (b : list Z) (entry_offset count p : Z) : res (list val * Z) :=
  let* (relative_offset, saved_pos) := read_int 4 b p in
  let* (vs, _) := read_elements (read t b) count (entry_offset + relative_offset) in
  Ok (vs, saved_pos).

(** UnkHeader, shdr_data.rs:193-230; the fields used afterwards *)
Record shader_header := SH {
  sh_entry_offset : Z; sh_buffers : list val; sh_uniforms : list val; sh_inputs : list val; sh_outputs : list val;
  sh_strings : Z   (* string_section_relative_offset *)
}.
Definition read_header (b : list Z) (p : Z) : res shader_header :=
  let* (_, p) := read_int 4 b p in   (* file_end_relative_offset *)
  let* (entry_offset, p) := read_int 4 b p in
  let* (_, p) := read_int 4 b p in   (* unk1 *)
  let p := p + 32 in
  let* (buffer_count, p) := read_int 4 b p in
  let* (buffers, p) := read_table BufferEntry b entry_offset buffer_count p in
  let* (uniform_count, p) := read_int 4 b p in
  let* (uniforms, p) := read_table UniformEntry b entry_offset uniform_count p in
  let* (input_count, p) := read_int 4 b p in
  let* (inputs, p) := read_table AttributeEntry b entry_offset input_count p in
  let* (output_count, p) := read_int 4 b p in
  let* (outputs, p) := read_table AttributeEntry b entry_offset output_count p in
  let* (_, p) := read_int 4 b p in   (* unk3 *)
  let* (_, p) := read_int 4 b p in
  let* (_, p) := read_int 4 b p in
  let* (_, p) := read_int 4 b p in
  let* (_, p) := read_int 4 b p in   (* unk7 *)
  let* (_, p) := read_int 4 b p in   (* string_info_end_relative_offset *)
  let* (_, p) := read_int 4 b p in   (* string_section_length *)
  let* (strings, _) := read_int 4 b p in
  Ok (SH entry_offset buffers uniforms inputs outputs strings).

(** ShaderBinary, shdr_data.rs:162-191: the header and program_code.  The code is read into
    memory whole: too few bytes are an error. *)
Definition read_shader (b : list Z) : res (shader_header * list Z) :=
  let* header := read_header b 288 in
  let* (code_length, _) := read_int 4 b 2504 in
  match get_bytes (Z.to_nat code_length) b 2896 with
  | Some code => Ok (header, code)
  | None => Err EEof
  end.

(** read_string, shdr_data.rs:369-381.  A failing allocation of [s.length] bytes is not modelled. *)
Definition read_entry_string (b : list Z) (h : shader_header) (offset length : Z) : res (list Z) :=
  match get_bytes (Z.to_nat (Z.max 0 (length - 1))) b (sh_entry_offset h + sh_strings h + offset) with
  | Some bytes => Ok (utf8_lossy bytes)
  | None => Err EEof
  end.

(** ** What the user sees *)

(** Buffer, shdr_data.rs:74-85 *)
Record buffer := Buf {
  bf_name : text; bf_size : Z; bf_uniforms : Z; bf_unk4 : Z; bf_unk5 : Z; bf_unk6 : Z; bf_unk7 : Z
}.
(** Uniform, shdr_data.rs:102-111 *)
Record uniform := Uni { un_name : text; un_type : Z; un_buffer : Z; un_offset : Z; un_unk11 : Z }.
(** Attribute, shdr_data.rs:126-133 *)
Record shader_attr := Att { at_name : text; at_type : Z; at_location : Z }.
(** MetaData, shdr_data.rs:28-36 *)
Record meta_data := Meta {
  mt_buffers : list buffer; mt_uniforms : list uniform; mt_inputs : list shader_attr; mt_outputs : list shader_attr
}.

(** Buffer::new, shdr_data.rs:87-100 *)
Definition buffer_new (b : list Z) (h : shader_header) (e : val) : res buffer :=
  match e with
  | VStruct [VStruct [VInt o; VInt l]; VInt size; VInt count; VInt unk4; VInt unk5; VInt unk6; VInt unk7; _; _; _] =>
      let* name := unwrap (read_entry_string b h o l) in
      Ok (Buf name size count (to_i32 unk4) (to_i32 unk5) (to_i32 unk6) (to_i32 unk7))
  | _ => Err EType
  end.
(** Uniform::new, shdr_data.rs:113-124 *)
Definition uniform_new (b : list Z) (h : shader_header) (e : val) : res uniform :=
  match e with
  | VStruct (VStruct [VInt o; VInt l] :: VInt ty :: VInt index :: VInt offset :: _ :: _ :: _ :: _ :: _ :: _ ::
             VInt unk11 :: _) =>
      let* name := unwrap (read_entry_string b h o l) in
      Ok (Uni name ty (to_i32 index) (to_i32 offset) (to_i32 unk11))
  | _ => Err EType
  end.
(** Attribute::new, shdr_data.rs:135-144 *)
Definition attribute_new (b : list Z) (h : shader_header) (e : val) : res shader_attr :=
  match e with
  | VStruct [VStruct [VInt o; VInt l]; VInt ty; _; VInt location; _; _] =>
      let* name := unwrap (read_entry_string b h o l) in
      Ok (Att name ty (to_i32 location))
  | _ => Err EType
  end.

(** MetaData::new, shdr_data.rs:38-72 *)
Definition meta_new (b : list Z) (h : shader_header) : res meta_data :=
  let* buffers := un_list (buffer_new b h) (sh_buffers h) in
  let* uniforms := un_list (uniform_new b h) (sh_uniforms h) in
  let* inputs := un_list (attribute_new b h) (sh_inputs h) in
  let* outputs := un_list (attribute_new b h) (sh_outputs h) in
  Ok (Meta buffers uniforms inputs outputs).

(** MetaData::read and from_file, shdr_data.rs:146-160 *)
Definition meta_read (b : list Z) : res meta_data :=
  let* (h, _) := read_shader b in meta_new b h.

(** ShaderEntryData, shdr_data.rs:18-26 *)
Record shader_entry := SE { se_name : text; se_stage : Z; se_meta : meta_data }.
(** One shader in TryFrom<&Shdr> for ShdrData, shdr_data.rs:402-410 *)
Definition un_shader (v : val) : res shader_entry :=
  match v with
  | VStruct [name; VInt stage; _; VBytes binary; _] =>
      let* (h, _) := unwrap (read_shader binary) in
      let* meta := meta_new binary h in
      Ok (SE (ssbh_to_string_lossy name) stage meta)
  | _ => Err EType
  end.
(** TryFrom<&Shdr> for ShdrData, shdr_data.rs:383-415 *)
Definition un_shdr (v : val) : res (list shader_entry) :=
  match v with VStruct [VArr shaders] => un_list un_shader shaders | _ => Err EType end.
(** ShdrData::read and from_file, shdr_data.rs:417-427 *)
Definition shdr_data_read (b : list Z) : res (list shader_entry) :=
  let* (_, v) := typed_read Shdr b in un_shdr v.
