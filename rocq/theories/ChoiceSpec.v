(** Specification of when the tracks of an animation are compressed, by numbers of frames. *)
From Verif Require Import Bytes AnimComp AnimBuf AnimSpec.

(** The compression types Direct, ConstTransform, Compressed and Constant of
    ssbh_lib/src/formats/anim.rs have the numbers 1, 2, 4 and 5. *)
Definition choice_of (v : track_values) : Z :=
  if tv_len v <=? 1 then match v with TvTransform _ => 2 | _ => 5 end else if tv_len v <=? plain_frames v then 1 else 4.

(** The numbers of frames from which on compression always saves space *)
Definition saving_frames (v : track_values) : Z :=
  match v with TvTransform _ => 13 | TvUv _ => 24 | TvFloat _ | TvPattern _ => 37 | TvBool _ => 39 | TvVec4 _ => 25 end.
