(** Property C90 of properties.jsonl: when the tracks of an animation are compressed, and what it
    saves.

    [choice_of] and [saving_frames] (ChoiceSpec.v) and [plain_frames], [value_size], [params_size]
    and [frame_bits] (AnimSpec.v) are numbers of frames, bytes and bits for each type of track. *)
From Verif Require Import Bytes Ssbh SsbhSpec Formats File Strings Bits Float32 AnimComp AnimBuf AnimFile AnimSpec.
From Verif Require Import ChoiceSpec ChoiceFacts PropsAnim.
From Coq Require Import List.

(** The compression of every track in a file depends on its type and number of frames only. *)
Theorem C90_choice : forall d a, create_anim d = Ok a ->
  Forall2 (fun t k => tk_comp k = choice_of (td_values t)) (tracks_of d) (all_tracks (an_groups a)).
Proof. exact anim_choice. Qed.
Print Assumptions C90_choice.

Example C90_choice_example :
  match create_anim ex_anim with
  | Ok a => map tk_comp (all_tracks (an_groups a)) = [4; 4; 2]
  | _ => False
  end /\ map (fun t => tv_len (td_values t)) (tracks_of ex_anim) = [12; 40; 1].
Proof. vm_compute. auto. Qed.

(** Both forms of any track can be written, and their sizes are these. *)
Theorem C90_sizes : forall v cs, values_ok v = true ->
  exists plain packed, tv_write v 1 cs = Ok plain /\ tv_write v 4 cs = Ok packed /\
    zlen plain = tv_len v * value_size v /\ zlen packed = 16 + params_size v + value_size v + (tv_len v * frame_bits v + 7) / 8.
Proof. exact both_sizes. Qed.
Print Assumptions C90_sizes.

(** A track is compressed only if the header, the parameters and the default value are shorter than
    the values.  A track that is not compressed is less than two values longer than those. *)
Theorem C90_bounds : forall v,
  (compressed v = true -> 16 + params_size v + value_size v < tv_len v * value_size v) /\
  (compressed v = false -> tv_len v * value_size v <= 16 + params_size v + 2 * value_size v).
Proof. exact choice_bounds. Qed.
Print Assumptions C90_bounds.

(** From [saving_frames] frames on the compressed form is shorter, whatever the values. *)
Theorem C90_saves : forall v cs plain packed, values_ok v = true -> saving_frames v <= tv_len v ->
  tv_write v 1 cs = Ok plain -> tv_write v 4 cs = Ok packed -> zlen packed < zlen plain.
Proof. exact packed_shorter. Qed.
Print Assumptions C90_saves.

(** With one frame less this is false for every type, although such tracks are compressed. *)
Definition frames {A} (x y : A) (n : nat) : list A := x :: repeat y n.
Definition ex_tracks (less : nat) : list track_values :=
  [TvTransform (frames (Tr (V3 f0 f0 f0) (V4 f0 f0 f0 f1) (V3 f0 f0 f0)) (Tr (V3 f1 f2 f1) (V4 f1 f1 f1 f1) (V3 f1 f1 f1)) (12 - less));
   TvUv (frames (Uv f0 f0 f0 f0 f0) (Uv f1 f2 f1 f1 f1) (23 - less));
   TvFloat (frames f0 f1 (36 - less)); TvPattern (frames 3 7 (36 - less)); TvBool (frames true false (38 - less));
   TvVec4 (frames (V4 f0 f0 f0 f0) (V4 f1 f1 f1 f1) (24 - less))].
Definition forms (v : track_values) : Z * Z :=
  match tv_write v 1 false, tv_write v 4 false with Ok a, Ok b => (zlen a, zlen b) | _, _ => (0, 0) end.
Theorem C90_saves_refuted : forall type, In type [1; 2; 3; 5; 8; 9] -> exists v plain packed,
  track_type v = type /\ values_ok v = true /\ tv_len v = saving_frames v - 1 /\ choice_of v = 4 /\
  tv_write v 1 false = Ok plain /\ tv_write v 4 false = Ok packed /\ zlen plain <= zlen packed.
Proof.
  assert (X : Forall (fun v => values_ok v = true /\ tv_len v = saving_frames v - 1 /\ choice_of v = 4 /\
    match tv_write v 1 false, tv_write v 4 false with Ok a, Ok b => zlen a <= zlen b | _, _ => False end) (ex_tracks 1)).
  { repeat apply Forall_cons; try apply Forall_nil; (split; [vm_compute; reflexivity|]); (split; [vm_compute; reflexivity|]);
      (split; [vm_compute; reflexivity|]); vm_compute; discriminate. }
  assert (Y : map track_type (ex_tracks 1) = [1; 2; 3; 5; 8; 9]) by reflexivity.
  intros type H. rewrite <- Y in H. apply in_map_iff in H as (v & <- & H). rewrite Forall_forall in X.
  destruct (X v H) as (W & L & C & S). destruct (tv_write v 1 false) as [a| |] eqn:A; [|contradiction|contradiction].
  destruct (tv_write v 4 false) as [b| |] eqn:B; [|contradiction|contradiction]. exists v, a, b. auto 8.
Qed.
Print Assumptions C90_saves_refuted.

Example C90_example : map forms (ex_tracks 0) = [(572, 557); (480, 476); (148, 147); (148, 147); (39, 38); (400, 396)] /\
  Forall (fun v => values_ok v = true /\ tv_len v = saving_frames v) (ex_tracks 0) /\
  map forms (ex_tracks 1) = [(528, 530); (460, 461); (144, 144); (144, 144); (38, 38); (384, 384)].
Proof.
  split; [vm_compute; reflexivity|]. split; [|vm_compute; reflexivity].
  repeat apply Forall_cons; try apply Forall_nil; split; vm_compute; reflexivity.
Qed.
