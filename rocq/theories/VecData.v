(** Vertex attribute data: the numbers of one attribute, their encodings, and the strided
    reads and writes of vertex buffers.  f32 values are bit patterns.
    Paths below are relative to /repo/ssbh_data/src. *)
From Verif Require Import Bytes Ssbh Float32.

(** ** Half precision floats *)

(** Conversions of the type f16 come from another crate (half).  They are modelled as the
    IEEE 754 conversions, rounding to nearest even; a NaN becomes the pattern 0x7e00. *)
Definition prec16 := 11.
Definition emax16 := 16.
(** f16::from_bits *)
Definition f16_of (x : Z) : spec_float :=
  let s := 2 ^ 15 <=? x in
  let e := (x / 2 ^ 10) mod 2 ^ 5 in
  let m := x mod 2 ^ 10 in
  if e =? 0 then match m with Zpos p => S754_finite s p (-24) | _ => S754_zero s end
  else if e =? 31 then (if m =? 0 then S754_infinity s else S754_nan)
  else match m + 2 ^ 10 with Zpos p => S754_finite s p (e - 25) | _ => S754_nan end.
(** f16::to_bits *)
Definition bits_of_f16 (f : spec_float) : Z :=
  let sign (s : bool) := if s then 2 ^ 15 else 0 in
  match f with
  | S754_zero s => sign s
  | S754_infinity s => sign s + 31 * 2 ^ 10
  | S754_nan => 31 * 2 ^ 10 + 2 ^ 9
  | S754_finite s m e =>
      if Zpos m <? 2 ^ 10 then sign s + Zpos m
      else sign s + (e + 25) * 2 ^ 10 + (Zpos m - 2 ^ 10)
  end.
(** f16::from_f32 (mesh_data/vector_data.rs:303) and f32::from (mesh_data.rs:244-248) *)
Definition f16_from_f32 (x : Z) : Z := bits_of_f16 (convert prec16 emax16 (f32_of x)).
Definition f16_to_f32 (x : Z) : Z := bits_of_f32 (convert prec32 emax32 (f16_of x)).

(** ** Colour bytes *)

(** f32::clamp(0.0, 1.0); NaN is returned unchanged *)
Definition clamp01 (x : Z) : Z :=
  if f32_ltb x 0 then 0 else if f32_ltb 1065353216 x then 1065353216 else x.
(** [.round() as u8]: half away from zero, saturating, NaN becomes 0.  A negative number
    rounds to at most zero. *)
Definition round_u8 (f : spec_float) : Z :=
  match f with
  | S754_zero _ | S754_nan => 0
  | S754_infinity s => if s then 0 else 255
  | S754_finite true _ _ => 0
  | S754_finite false m e =>
      Z.min 255 (if 0 <=? e then Z.shiftl (Zpos m) e else Z.shiftr (Zpos m + Z.shiftl 1 (- e - 1)) (- e))
  end.
(** get_u8_clamped, mesh_data/vector_data.rs:359-361 *)
Definition get_u8_clamped (x : Z) : Z := round_u8 (mul32 (f32_of (clamp01 x)) (int_to_f32 255)).
(** A u8 as f32 divided by 255, mesh_data/vector_data.rs:151-159 *)
Definition u8_to_f32 (x : Z) : Z := bits_of_f32 (div32 (int_to_f32 x) (int_to_f32 255)).

(** ** Vectors *)

(** VectorData, mesh_data/vector_data.rs:21-25: the number of components and the vectors *)
Inductive dim := Two | Three | Four.
Record vector_data := MkVec { vec_dim : dim; vec_rows : list (list Z) }.

(** DataType, mesh_data.rs:60-67 *)
Inductive data_type := Float2 | Float3 | Float4 | HalfFloat2 | HalfFloat4 | Byte4.

(** get_size_in_bytes_v10 and get_size_in_bytes_v8, mesh_data.rs:855-882 *)
Definition size_in_bytes (t : data_type) : Z :=
  match t with
  | Float3 => 4 * 3
  | Byte4 => 1 * 4
  | HalfFloat4 => 2 * 4
  | HalfFloat2 => 2 * 2
  | Float4 => 4 * 4
  | Float2 => 4 * 2
  end.

(** The bytes of one component: write_f32, write_f16, write_u8 (mesh_data/vector_data.rs:363-379)
    and the reads of f32, Half and u8 *)
Definition component_size (t : data_type) : Z :=
  match t with Float2 | Float3 | Float4 => 4 | HalfFloat2 | HalfFloat4 => 2 | Byte4 => 1 end.
(** The variant of VectorData returned by VectorData::read, mesh_data/vector_data.rs:127-162 *)
Definition type_dim (t : data_type) : dim :=
  match t with Float2 | HalfFloat2 => Two | Float3 => Three | Float4 | HalfFloat4 | Byte4 => Four end.
Definition dim_count (d : dim) : nat := match d with Two => 2 | Three => 3 | Four => 4 end.

(** VectorDataV10 and VectorDataV8, mesh_data/vector_data.rs:171-188: a data type and the
    stored numbers *)
Record encoded := MkEnc { enc_type : data_type; enc_rows : list (list Z) }.

(** The supported versions of Mesh: 1.8, 1.9, 1.10 *)
Inductive mesh_version := MV8 | MV9 | MV10.

(** get_f16_vectors and get_clamped_u8_vectors, mesh_data/vector_data.rs:300-322 *)
Definition get_f16_vectors (rows : list (list Z)) : list (list Z) := map (map f16_from_f32) rows.
Definition get_clamped_u8_vectors (rows : list (list Z)) : list (list Z) := map (map get_u8_clamped) rows.

(** from_positions, mesh_data/vector_data.rs:223-229 and 275-281 *)
Definition from_positions (ver : mesh_version) (v : vector_data) : encoded :=
  match vec_dim v with
  | Two => MkEnc Float2 (vec_rows v)
  | Three => MkEnc Float3 (vec_rows v)
  | Four => MkEnc Float4 (vec_rows v)
  end.
(** from_vectors, mesh_data/vector_data.rs:231-237 (1.10) and 283-289 (1.8, 1.9) *)
Definition from_vectors (ver : mesh_version) (v : vector_data) : encoded :=
  match ver, vec_dim v with
  | MV10, Two => MkEnc HalfFloat2 (get_f16_vectors (vec_rows v))
  | _, Two => MkEnc Float2 (vec_rows v)
  | _, Three => MkEnc Float3 (vec_rows v)
  | _, Four => MkEnc HalfFloat4 (get_f16_vectors (vec_rows v))
  end.
(** from_colors, mesh_data/vector_data.rs:239-245 (1.10) and 291-297 (1.8, 1.9) *)
Definition from_colors (ver : mesh_version) (v : vector_data) : encoded :=
  match ver, vec_dim v with
  | MV10, Two => MkEnc HalfFloat2 (get_f16_vectors (vec_rows v))
  | _, Two => MkEnc Float2 (vec_rows v)
  | _, Three => MkEnc Float3 (vec_rows v)
  | _, Four => MkEnc Byte4 (get_clamped_u8_vectors (vec_rows v))
  end.

(** ** Vertex buffers *)

(** Cursor<Vec<u8>>: the content and the position *)
Definition cursor : Type := list Z * Z.
(** [write_all] *)
Definition write_all (bs : list Z) (c : cursor) : cursor := (put (fst c) (snd c) bs, snd c + zlen bs).
(** [seek(SeekFrom::Start(p))] *)
Definition seek (p : Z) (c : cursor) : cursor := (fst c, p).

(** write_f32, write_f16, write_u8, mesh_data/vector_data.rs:363-379 *)
Fixpoint write_components (w : Z) (row : list Z) (c : cursor) : cursor :=
  match row with
  | [] => c
  | x :: r => write_components w r (write_all (le_bytes (Z.to_nat w) x) c)
  end.
(** write_vector_data, mesh_data/vector_data.rs:381-400, from element [i] on *)
Fixpoint write_vector_data (w : Z) (rows : list (list Z)) (i offset stride : Z) (c : cursor) : cursor :=
  match rows with
  | [] => c
  | row :: r => write_vector_data w r (i + 1) offset stride (write_components w row (seek (offset + i * stride) c))
  end.
(** VectorDataV10::write and VectorDataV8::write, mesh_data/vector_data.rs:202-221 and 259-273 *)
Definition write_encoded (e : encoded) (offset stride : Z) (c : cursor) : cursor :=
  write_vector_data (component_size (enc_type e)) (enc_rows e) 0 offset stride c.
(** write_attributes for one buffer, mesh_data/mesh_attributes.rs:356-380: the offset grows
    by the size of each attribute *)
Fixpoint write_buffer (es : list encoded) (offset stride : Z) (c : cursor) : cursor :=
  match es with
  | [] => c
  | e :: r => write_buffer r (offset + size_in_bytes (enc_type e)) stride (write_encoded e offset stride c)
  end.

(** The components of one vector, mesh_data/vector_data.rs:350-353 *)
Fixpoint read_components (n : nat) (w : Z) (b : list Z) (p : Z) : res (list Z) :=
  match n with
  | O => Ok []
  | S n => let* (x, p) := read_int w b p in let* xs := read_components n w b p in Ok (x :: xs)
  end.
(** The loop of read_vector_data, mesh_data/vector_data.rs:345-356, from element [i] on *)
Fixpoint read_rows (count n : nat) (w : Z) (b : list Z) (i offset stride : Z) : res (list (list Z)) :=
  match count with
  | O => Ok []
  | S count =>
      let* row := read_components n w b (offset + i * stride) in
      let* rows := read_rows count n w b (i + 1) offset stride in
      Ok (row :: rows)
  end.
(** [T::into::<f32>], and for bytes the division by 255 *)
Definition decode (t : data_type) (x : Z) : Z :=
  match t with
  | Float2 | Float3 | Float4 => x
  | HalfFloat2 | HalfFloat4 => f16_to_f32 x
  | Byte4 => u8_to_f32 x
  end.
(** VectorData::read, mesh_data/vector_data.rs:127-162, with read_vector_data, 324-357.  The
    sums are u64; with a count, offset and stride of 32 bits they do not overflow. *)
Definition vector_read (b : list Z) (count offset stride : Z) (t : data_type) : res vector_data :=
  if (0 <? count) && (stride =? 0) then Err (EData DZeroStride)
  else
    let* rows := read_rows (Z.to_nat count) (dim_count (type_dim t)) (component_size t) b 0 offset stride in
    Ok (MkVec (type_dim t) (map (map (decode t)) rows)).

(** to_glam_vec3a, mesh_data/vector_data.rs:92-107 *)
Definition to_vec3 (v : vector_data) : list (list Z) :=
  match vec_dim v with
  | Two => map (fun r => r ++ [0]) (vec_rows v)
  | Three => vec_rows v
  | Four => map (firstn 3) (vec_rows v)
  end.
