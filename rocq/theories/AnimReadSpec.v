(** Specification for loading animation files of any writer. *)
From Coq Require Import String Permutation.
From Verif Require Import Bytes Ssbh SsbhSpec FileSpec Strings AnimBuf AnimFile TrackSpec.

(** The first of the tracks that is not [good] is [bad]. *)
Definition first_bad {A} (good bad : A -> Prop) (l : list A) : Prop :=
  exists before x after, l = before ++ x :: after /\ Forall good before /\ bad x.

(** ** Versions 2.0 and 2.1 *)

(** The bytes of a track are a part of the buffer. *)
Definition part_of (buffer : list Z) (offset size : Z) (data : list Z) : Prop :=
  zlen data = size /\ exists before after, buffer = before ++ data ++ after /\ zlen before = offset.

Definition loaded_track (buffer : list Z) (t : track) (d : track_data) : Prop :=
  td_name d = ssbh_to_string_lossy (tk_name t) /\
  (forall i, 0 <= i < 4 -> Z.testbit (tk_flags t) i =
     nth (Z.to_nat i) [override_translation (td_flags d); override_rotation (td_flags d);
                       override_scale (td_flags d); override_compensate_scale (td_flags d)] false) /\
  exists data, part_of buffer (tk_offset t) (tk_size t) data /\
    track_at data (tk_type t) (tk_comp t) (tk_frames t) (td_values d) (td_comp d).
Definition loaded_node (buffer : list Z) (n : node) (d : node_data) : Prop :=
  nd_name d = ssbh_to_string_lossy (nd_nm n) /\ Forall2 (loaded_track buffer) (nd_tks n) (nd_tracks d).
Definition loaded_group (buffer : list Z) (g : group) (d : group_data) : Prop :=
  gd_type d = gr_type g /\ Forall2 (loaded_node buffer) (gr_nodes g) (gd_nodes d).
Definition loaded_anim (a : anim) (d : anim_data) : Prop :=
  ad_major d = 2 /\ ad_minor d = an_minor a /\ ad_final d = an_final a /\
  Forall2 (loaded_group (an_buffer a)) (an_groups a) (ad_groups d).

(** All tracks of a file in order *)
Definition file_tracks (a : anim) : list track :=
  concat (map (fun g => concat (map nd_tks (gr_nodes g))) (an_groups a)).
Definition readable_track (buffer : list Z) (t : track) : Prop := exists d, loaded_track buffer t d.
Definition panicking_track (buffer : list Z) (t : track) : Prop :=
  exists data, part_of buffer (tk_offset t) (tk_size t) data /\ tk_comp t = 4 /\
    (tk_type t = 1 /\ sign_missing data (tk_frames t) \/ tk_type t = 5 /\ index_too_large data (tk_frames t)).

(** ** Version 1.2 *)

(** Size of what is read behind the first word of a buffer, for the known words *)
Definition v12_sizes : list (Z * Z) :=
  [(0x1003, 4); (0x2003, 8); (0x3003, 12); (0x4003, 16); (0x1013, 2); (0x3409, 52); (0x4409, 64)].
Definition property_sound (buffers : list (list Z)) (index : Z) : Prop :=
  exists data header, nth_error buffers (Z.to_nat index) = Some data /\ uint_at data 0 4 header /\
    (forall size, In (header, size) v12_sizes -> 4 + size <= zlen data) /\
    (header = 0x4308 -> 76 <= zlen data /\
       exists count aligned, uint_at data 4 4 count /\
         (4 | aligned) /\ 12 + count <= aligned < 12 + count + 4 /\ aligned + 36 <= zlen data).

(** Stored type, type of the group and name of the track *)
Definition v12_kinds : list (Z * Z * list Z) :=
  [(0, 1, ascii_bytes "Transform"); (2, 4, ascii_bytes "Material"); (5, 2, ascii_bytes "Visibility")].
Definition loaded_v12 (a : anim_v1) (d : anim_data) : Prop :=
  ad_major d = 1 /\ ad_minor d = 2 /\ ad_final d = av1_final a /\
  NoDup (map gd_type (ad_groups d)) /\
  (forall g, In g (ad_groups d) -> exists t name, In (t, gd_type g, name) v12_kinds /\ gd_nodes g <> [] /\
     gd_nodes g = map (fun x => ND (ssbh_to_string_lossy (v1_name x)) [TD name false (TF false false false false) (TvFloat [])])
                      (filter (fun x => v1_type x =? t) (av1_tracks a))) /\
  (forall x, In x (av1_tracks a) -> exists name g, In g (ad_groups d) /\ In (v1_type x, gd_type g, name) v12_kinds).

(** The values of the format type for version 1.2; what is not used is left open. *)
Definition property_val (v : val) (i : Z) : Prop := exists name, v = VStruct [name; VInt i].
Definition track_v1_val (v : val) (t : track_v1) : Prop :=
  exists ps, v = VStruct [v1_name t; VInt (v1_type t); VArr ps] /\ Forall2 property_val ps (v1_properties t).
Definition anim_v1_val (v : val) (a : anim_v1) : Prop :=
  exists name u1 u2 u3 ts, v = VStruct [name; u1; VInt (av1_final a); u2; u3; VArr ts; VArr (map VBytes (av1_buffers a))] /\
    Forall2 track_v1_val ts (av1_tracks a).
