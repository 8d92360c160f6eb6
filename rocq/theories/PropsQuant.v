(** Properties of quantised floats.  Values are related to real numbers by QuantSpec.v. *)
From Coq Require Import Reals Lra.
From Verif Require Import Bytes Ssbh Float32 AnimComp AnimBuf AnimSpec QuantSpec QuantFacts QuantTrack RotFacts AnimFile ResaveSpec QuantResave.
Local Open Scope R_scope.

(** ** C29
    The full statement asks for an error of at most one step; it fails ([C29_one_step_refuted]).
    What holds: the code fits, the value stays inside the range, and one step is missed by at
    most 5 * (2^bits - 1) / 2^24 steps besides the rounding of the result. *)
Theorem C29_error_bound_partial : forall x mn mx bits,
  finite x = true -> finite mn = true -> finite mx = true ->
  real mn <= real x <= real mx -> real mn < real mx -> finite_f (sub32 (f32_of mx) (f32_of mn)) = true ->
  (1 <= bits <= 24)%Z ->
  let code := compress_f32 x mn mx bits in
  let y := decompress_f32 code mn mx bits in
  (0 <= code < 2 ^ bits)%Z /\ finite y = true /\ real mn <= real y <= real mx /\
  Rabs (real y - real x) <=
    step mn mx bits * (1 + 5 * IZR (2 ^ bits - 1) / 16777216) + magnitude mn mx / 8388608 + / IZR (2 ^ 150).
Proof. exact quantise. Qed.
Print Assumptions C29_error_bound_partial.

(** With all 24 bits the error can be more than one step, so the factor cannot be left out. *)
Theorem C29_one_step_refuted : exists x mn mx,
  finite x = true /\ finite mn = true /\ finite mx = true /\
  real mn <= real x <= real mx /\ real mn < real mx /\ finite_f (sub32 (f32_of mx) (f32_of mn)) = true /\
  Rabs (real (decompress_f32 (compress_f32 x mn mx 24) mn mx 24) - real x) > step mn mx 24 + magnitude mn mx / 8388608 + / IZR (2 ^ 150).
Proof. exact one_step_refuted. Qed.
Print Assumptions C29_one_step_refuted.

(** -1.5 .. 2 with 1/3 *)
Example C29_example : let x := 0x3eaaaaab%Z in let mn := 0xbfc00000%Z in let mx := 0x40000000%Z in
  finite x = true /\ finite mn = true /\ finite mx = true /\ finite_f (sub32 (f32_of mx) (f32_of mn)) = true /\
  real mn = -1.5 /\ real mx = 2 /\ real x = IZR 11184811 / IZR 33554432 /\
  compress_f32 x mn mx 8 = 133%Z /\ compress_f32 mn mn mx 8 = 0%Z /\ compress_f32 mx mn mx 8 = 255%Z.
Proof.
  cbv zeta. repeat split; try (vm_compute; reflexivity).
  - change (real _) with (IZR (-12582912) * powerRZ 2 (-23)). rewrite power_neg. cbn. lra.
  - change (real _) with (IZR 8388608 * powerRZ 2 (-22)). rewrite power_neg. cbn. lra.
  - change (real _) with (IZR 11184811 * powerRZ 2 (-25)). rewrite power_neg. cbn. lra.
Qed.

(** ** C55: compressed tracks of all types.  The smallest and largest numbers are exact. *)
Theorem C55_track_error : forall v cs, values_ok v = true -> (forall col, In col (columns v) -> column_finite col) ->
  exists b w c, tv_write v Compressed cs = Ok b /\ read_track_values b (track_type v) Compressed (tv_len v) = Ok (w, c) /\
  length (columns w) = length (columns v) /\
  forall k i col col' x y lo hi, nth_error (columns v) k = Some col -> nth_error (columns w) k = Some col' ->
    nth_error col i = Some x -> nth_error col' i = Some y -> column_range col lo hi ->
    finite y = true /\ real lo <= real y <= real hi /\ Rabs (real y - real x) <= column_error lo hi /\
    (real x = real lo -> real y = real lo) /\ (real x = real hi -> real y = real hi).
Proof. exact track_error. Qed.
Print Assumptions C55_track_error.

(** Two frames of a UV transform with equal scales; the range of the first column is -1.5 .. 2. *)
Definition ex_uvs : track_values :=
  TvUv [Uv 0xbfc00000 0xbfc00000 0 0x3eaaaaab 1; Uv 0x40000000 0x40000000 0 0x40000000 2; Uv 0x3e000321 0x3e000321 0 0xbfc00000 3].
Example C55_example :
  values_ok ex_uvs = true /\ (forall col, In col (columns ex_uvs) -> column_finite col) /\
  nth_error (columns ex_uvs) 1 = Some [0xbfc00000; 0x40000000; 0x3e000321]%Z /\
  match tv_write ex_uvs Compressed true with
  | Ok b => match read_track_values b 2 Compressed 3 with
            | Ok (w, _) => nth_error (columns w) 1 = Some [0xbfc00000; 0x40000000; 1040188187]%Z
            | _ => False
            end
  | _ => False
  end.
Proof.
  split; [reflexivity|]. split; [|split; [reflexivity|vm_compute; reflexivity]].
  intros col Hc x y Hx Hy. cbn in Hc. repeat destruct Hc as [<-|Hc]; try contradiction Hc;
  cbn in Hx, Hy; repeat destruct Hx as [<-|Hx]; try contradiction Hx; repeat destruct Hy as [<-|Hy]; try contradiction Hy; vm_compute; auto.
Qed.

(** ** C58: rotations in compressed tracks.  The stored numbers are x, y and z and the sign of w. *)
Theorem C58_rotation_w : forall r flip,
  finite (v3x r) = true -> finite (v3y r) = true -> finite (v3z r) = true ->
  Rabs (real (v3x r)) <= 1 -> Rabs (real (v3y r)) <= 1 -> Rabs (real (v3z r)) <= 1 ->
  let w := rotation_w flip r in
  finite w = true /\ Rabs (real w) <= 1 /\ (if flip then real w <= 0 else 0 <= real w) /\
  Rabs (real w * real w -
        Rmax 0 (1 - (real (v3x r) * real (v3x r) + real (v3y r) * real (v3y r) + real (v3z r) * real (v3z r)))) <= / 1048576.
Proof. exact rotation_w_spec. Qed.
Print Assumptions C58_rotation_w.

(** The loaded w has the sign of the original and completes the loaded x, y, z to a unit
    quaternion.  If the original is a unit quaternion up to some error, the loaded w is close to
    the original w. *)
Theorem C58_rotation_track : forall l cs, values_ok (TvTransform l) = true ->
  (forall col, In col (columns (TvTransform l)) -> column_finite col) ->
  (forall t, In t l -> Rabs (real (rx t)) <= 1 /\ Rabs (real (ry t)) <= 1 /\ Rabs (real (rz t)) <= 1) ->
  exists b l' c, tv_write (TvTransform l) Compressed cs = Ok b /\
  read_track_values b (track_type (TvTransform l)) Compressed (tv_len (TvTransform l)) = Ok (TvTransform l', c) /\
  forall i t t', nth_error l i = Some t -> nth_error l' i = Some t' ->
  let w := v4w (tr_rot t) in let w' := v4w (tr_rot t') in
  let length2 t := real (rx t) * real (rx t) + real (ry t) * real (ry t) + real (rz t) * real (rz t) in
  finite w' = true /\ Rabs (real w') <= 1 /\ (if sign_negative w then real w' <= 0 else 0 <= real w') /\
  Rabs (real w' * real w' - Rmax 0 (1 - length2 t')) <= / 1048576 /\
  (finite w = true -> (real w' - real w) * (real w' - real w) <=
     Rabs (length2 t + real w * real w - 1) + / 1048576 +
     2 * (Rabs (real (rx t') - real (rx t)) + Rabs (real (ry t') - real (ry t)) + Rabs (real (rz t') - real (rz t)))).
Proof. exact rotation_track. Qed.
Print Assumptions C58_rotation_track.

(** Two unit quaternions: (1/2, 1/2, 1/2, -1/2) and (0, 1/2, -1/2, 0.7071). *)
Definition ex_turns : list transform :=
  [Tr (V3 0 0 0) (V4 0x3f000000 0x3f000000 0x3f000000 0xbf000000) (V3 0 0 0);
   Tr (V3 0 0 0) (V4 0 0x3f000000 0xbf000000 0x3f3504f3) (V3 0 0 0)].
Example C58_example :
  values_ok (TvTransform ex_turns) = true /\ (forall col, In col (columns (TvTransform ex_turns)) -> column_finite col) /\
  (forall t, In t ex_turns -> Rabs (real (rx t)) <= 1 /\ Rabs (real (ry t)) <= 1 /\ Rabs (real (rz t)) <= 1) /\
  match tv_write (TvTransform ex_turns) Compressed true with
  | Ok b => match read_track_values b 1 Compressed 2 with
            | Ok (TvTransform l', _) => map (fun t => v4w (tr_rot t)) l' = [0xbf000000; 0x3f3504f3]%Z
            | _ => False
            end
  | _ => False
  end.
Proof.
  split; [reflexivity|]. split; [|split].
  - intros col Hc x y Hx Hy. cbn in Hc. repeat destruct Hc as [<-|Hc]; try contradiction Hc;
    cbn in Hx, Hy; repeat destruct Hx as [<-|Hx]; try contradiction Hx; repeat destruct Hy as [<-|Hy]; try contradiction Hy; vm_compute; auto.
  - assert (Z0 : real 0 = 0) by reflexivity.
    assert (H1 : real 0x3f000000 = / 2) by (change (real _) with (IZR 8388608 * powerRZ 2 (-24)); rewrite power_neg; cbn; lra).
    assert (H2 : real 0xbf000000 = - / 2) by (change (real _) with (IZR (-8388608) * powerRZ 2 (-24)); rewrite power_neg; cbn; lra).
    intros t Ht. repeat destruct Ht as [<-|Ht]; try contradiction Ht; unfold rx, ry, rz; cbn [tr_rot v4x v4y v4z]; rewrite ?Z0, ?H1, ?H2;
      repeat split; apply Rabs_le; lra.
  - vm_compute. reflexivity.
Qed.

(** ** C66: loading and saving animations [n] times.  Everything can be saved again, the numbers
    stay between the smallest and the largest, which are exact, and the errors add up at most. *)
Theorem C66_resave_error : forall order n d d', anim_ok d = true -> (anim_size d < 2 ^ 32)%Z -> anim_finite d -> saves order n d d' ->
  (final_ok d = true -> ad_major d = 2%Z -> ad_minor d = 0%Z \/ ad_minor d = 1%Z -> exists out, anim_data_write d' = Ok out) /\
  length (tracks_of d') = length (tracks_of d) /\
  forall j t t', nth_error (tracks_of d) j = Some t -> nth_error (tracks_of d') j = Some t' ->
  td_name t' = td_name t /\ td_flags t' = td_flags t /\ length (columns (td_values t')) = length (columns (td_values t)) /\
  forall k i col col' x y lo hi, nth_error (columns (td_values t)) k = Some col -> nth_error (columns (td_values t')) k = Some col' ->
    nth_error col i = Some x -> nth_error col' i = Some y -> column_range col lo hi ->
    finite y = true /\ real lo <= real y <= real hi /\ Rabs (real y - real x) <= INR n * column_error lo hi /\
    (real x = real lo -> real y = real lo) /\ (real x = real hi -> real y = real hi).
Proof. exact resave_error. Qed.
Print Assumptions C66_resave_error.

(** The bound for one save does not hold for many: 100 saves of the same data move a value by more
    than 13 times as much, as the codes are truncated and not rounded.  This is also a case that
    meets the hypotheses of [C66_resave_error]. *)
Theorem C66_drift_refuted : exists d d' lo hi x y,
  anim_ok d = true /\ (anim_size d < 2 ^ 32)%Z /\ anim_finite d /\ saves (fun l => l) 100 d d' /\
  map td_values (tracks_of d) = [TvFloat ([lo; hi] ++ repeat x 9)] /\ map td_values (tracks_of d') = [TvFloat ([lo; hi] ++ repeat y 9)] /\
  column_range ([lo; hi] ++ repeat x 9) lo hi /\ real x - real y > 13 * column_error lo hi.
Proof. exact drift_refuted. Qed.
Print Assumptions C66_drift_refuted.
