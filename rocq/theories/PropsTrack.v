(** Properties of reading the data of animation tracks. *)
From Verif Require Import Bytes Ssbh SsbhSpec Bits Float32 AnimComp AnimBuf AnimSpec TrackSpec TrackRead.

(** ** C62: what is read is what the bytes say, whoever wrote them *)
Theorem C62_track_data : forall b n, bytes_ok b = true -> 0 <= n -> forall t c v compensate,
  read_track_values b t c n = Ok (v, compensate) <-> track_at b t c n v compensate.
Proof. exact track_read. Qed.
Print Assumptions C62_track_data.

(** A float track that the library would not write: 4 bits per frame, from 1.0 to 4.0, and the
    bits are before the default value. *)
Definition ex_floats : list Z :=
  le_bytes 2 4 ++ le_bytes 2 0 ++ le_bytes 2 35 ++ le_bytes 2 4 ++ le_bytes 4 32 ++ le_bytes 4 5 ++
  le_bytes 4 0x3f800000 ++ le_bytes 4 0x40800000 ++ le_bytes 8 4 ++ [0xf0; 0xa5; 0x00] ++ le_bytes 4 0x3f800000.
(** A transform track with flags for a uniform scale and a rotation; scale and z of the rotation
    take 2 and 3 bits, then comes the sign.  The other components are those of the default. *)
Definition ex_default : utransform :=
  UT (V3 0x40000000 0x40400000 0x40800000) (V4 0 0 0 0x3f800000) (V3 0x3f800000 0 0x40a00000) 1.
Definition ex_fixed : list Z := le_bytes 4 0x3f800000 ++ le_bytes 4 0x3f800000 ++ le_bytes 8 24.
Definition ex_ranged (bits : Z) : list Z := le_bytes 4 0 ++ le_bytes 4 0x3f800000 ++ le_bytes 8 bits.
Definition ex_words (l : list Z) : list Z := flat_map (le_bytes 4) l.
Definition ex_transforms : list Z :=
  le_bytes 2 4 ++ le_bytes 2 7 ++ le_bytes 2 160 ++ le_bytes 2 6 ++ le_bytes 4 204 ++ le_bytes 4 2 ++
  ex_ranged 2 ++ ex_fixed ++ ex_fixed ++ ex_fixed ++ ex_fixed ++ ex_ranged 3 ++ ex_ranged 9 ++ ex_ranged 9 ++ ex_ranged 9 ++
  ex_words [0x40000000; 0x40400000; 0x40800000; 0; 0; 0; 0x3f800000; 0x3f800000; 0; 0x40a00000; 1] ++ [0x3f; 0x00].
Example C62_example :
  bytes_ok ex_floats = true /\
  read_track_values ex_floats 3 Compressed 5 = Ok (TvFloat [0x3f800000; 0x40800000; 0x40000000; 0x40400000; 0x3f800000], false) /\
  bytes_ok ex_transforms = true /\
  read_track_values ex_transforms 1 Compressed 2 =
    Ok (TvTransform [Tr (V3 0x3f800000 0x3f800000 0x3f800000) (V4 0 0 0x3f800000 0x80000000) (V3 0x3f800000 0 0x40a00000);
                     Tr (V3 0 0 0) (V4 0 0 0 0x3f800000) (V3 0x3f800000 0 0x40a00000)], true) /\
  read_track_values (ex_words [7; 8; 9]) 5 Direct 3 = Ok (TvPattern [7; 8; 9], false).
Proof. vm_compute. auto. Qed.

(** ** C50: exactly which track data panics *)
Theorem C50_track_panics : forall b n, bytes_ok b = true -> 0 <= n -> forall t c,
  read_track_values b t c n = Panic <->
  c = Compressed /\ (t = 1 /\ sign_missing b n \/ t = 5 /\ index_too_large b n).
Proof. exact track_panics. Qed.
Print Assumptions C50_track_panics.

(** The transforms above with frames of 9 bits and only 8 bits left *)
Definition ex_short : list Z :=
  put (put (firstn 205 ex_transforms) 6 (le_bytes 2 9)) 24 (le_bytes 8 5).
Example C50_example : bytes_ok ex_short = true /\ read_track_values ex_short 1 Compressed 1 = Panic.
Proof. vm_compute. auto. Qed.
