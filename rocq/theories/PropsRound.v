(** Properties of rounded vertex numbers.  Values are related to real numbers by QuantSpec.v. *)
From Coq Require Import Reals Lra.
From Verif Require Import Bytes Ssbh Float32 VecData MeshSpec QuantSpec QuantFacts RoundFacts.
Local Open Scope R_scope.

(** ** C56
    No half is closer than the stored one, and the loaded number is exactly the stored half. *)
Theorem C56_half_nearest : forall x, finite x = true -> Rabs (real x) < 65520 ->
  let h := f16_from_f32 x in
  finite16 h = true /\ (forall h', finite16 h' = true -> Rabs (real16 h - real x) <= Rabs (real16 h' - real x)) /\
  Rabs (real16 h - real x) <= Rabs (real x) / 2048 + / 33554432.
Proof. exact half_nearest. Qed.
Print Assumptions C56_half_nearest.

Theorem C56_half_exact : forall h, finite16 h = true -> finite (f16_to_f32 h) = true /\ real (f16_to_f32 h) = real16 h.
Proof. exact half_widen. Qed.
Print Assumptions C56_half_exact.

(** Larger numbers become infinite. *)
Theorem C56_half_overflow : forall x, finite x = true ->
  (65520 <= real x -> f16_from_f32 x = 31744%Z) /\ (real x <= -65520 -> f16_from_f32 x = 64512%Z).
Proof. exact half_overflow. Qed.
Print Assumptions C56_half_overflow.

(** 1/3 becomes 1365/4096; 65520 and -70000 are too large. *)
Example C56_half_example : finite 0x3eaaaaab = true /\ Rabs (real 0x3eaaaaab) < 65520 /\ f16_from_f32 0x3eaaaaab = 13653%Z /\
  real16 13653 = 1365 / 4096 /\ finite16 13653 = true /\
  finite 0x477ff000 = true /\ real 0x477ff000 = 65520 /\ finite 0xc788b800 = true /\ real 0xc788b800 = -70000.
Proof.
  repeat split; try reflexivity.
  - change (real _) with (IZR 11184811 * powerRZ 2 (-25)). rewrite power_neg. apply Rabs_def1; cbn; lra.
  - change (real16 _) with (IZR 1365 * powerRZ 2 (-12)). rewrite power_neg. cbn. lra.
  - change (real _) with (IZR 16773120 * powerRZ 2 (-8)). rewrite power_neg. cbn. lra.
  - change (real _) with (IZR (-8960000) * powerRZ 2 (-7)). rewrite power_neg. cbn. lra.
Qed.

(** Infinities stay infinite and are clamped as colours; a NaN stays one, as a colour it is 0. *)
Theorem C56_special : forall x,
  (is_nan x = true -> f16_is_nan (f16_from_f32 x) = true /\ get_u8_clamped x = 0%Z) /\
  f16_from_f32 0x7f800000 = 31744%Z /\ f16_from_f32 0xff800000 = 64512%Z /\
  get_u8_clamped 0x7f800000 = 255%Z /\ get_u8_clamped 0xff800000 = 0%Z.
Proof. exact (fun x => conj (special x) (conj eq_refl (conj eq_refl (conj eq_refl eq_refl)))). Qed.
Print Assumptions C56_special.
Example C56_special_example : is_nan 0x7fc00000 = true /\ is_nan 0xff800001 = true.
Proof. split; reflexivity. Qed.

(** Colours: the byte is a nearest one up to the rounding of the product, brighter colours do
    not get smaller bytes, and reading divides by 255 with correct rounding. *)
Theorem C56_colour_nearest : forall x, finite x = true -> (0 <= get_u8_clamped x <= 255)%Z /\
  Rabs (IZR (get_u8_clamped x) - 255 * unit_part (real x)) <= / 2 + / 65536.
Proof. exact colour_nearest. Qed.
Print Assumptions C56_colour_nearest.

Theorem C56_colour_monotone : forall x y, finite x = true -> finite y = true -> real x <= real y ->
  (get_u8_clamped x <= get_u8_clamped y)%Z.
Proof. exact colour_mono. Qed.
Print Assumptions C56_colour_monotone.

Theorem C56_byte_nearest : forall c y, (0 <= c <= 255)%Z -> finite y = true ->
  Rabs (real (u8_to_f32 c) - IZR c / 255) <= Rabs (real y - IZR c / 255).
Proof. exact byte_nearest. Qed.
Print Assumptions C56_byte_nearest.

Theorem C56_colour_back : forall x, finite x = true ->
  Rabs (real (u8_to_f32 (get_u8_clamped x)) - unit_part (real x)) <= / 510 + / 4194304.
Proof. exact colour_back. Qed.
Print Assumptions C56_colour_back.

(** 0.5 becomes 128, as 127.5 is rounded up; 0.3 becomes 77; -2 and 3 are clamped. *)
Example C56_colour_example : finite 0x3f000000 = true /\ get_u8_clamped 0x3f000000 = 128%Z /\ get_u8_clamped 0x3e99999a = 77%Z /\
  finite 0xc0000000 = true /\ get_u8_clamped 0xc0000000 = 0%Z /\ finite 0x40400000 = true /\ get_u8_clamped 0x40400000 = 255%Z /\
  real 0x40400000 = 3.
Proof.
  repeat split; try reflexivity. change (real _) with (IZR 12582912 * powerRZ 2 (-22)). rewrite power_neg. cbn. lra.
Qed.
