(** Independent vocabulary for shades of a colour. *)
From Coq Require Import String List ZArith QArith Reals Qreals.
From Verif Require Import Py ColorSpec.
Import ListNotations.
Open Scope R_scope.

(** A channel multiplied by a factor, rounded down and capped at 255. *)
Definition shade_channel (s : R) (v v' : Z) : Prop := exists z, IZR z <= IZR v * s < IZR z + 1 /\ v' = Z.min 255 z.
(** [c'] is the colour [c] with its three channels multiplied by [s]. *)
Definition shade_of (s : R) (c c' : string) : Prop :=
  exists r g b r' g' b', is_colour c r g b /\ is_colour c' r' g' b' /\ shade_channel s r r' /\ shade_channel s g g' /\ shade_channel s b b'.
(** No channel of the first colour is brighter than the second's. *)
Definition no_lighter (c c' : string) : Prop :=
  exists r g b r' g' b', is_colour c r g b /\ is_colour c' r' g' b' /\ (r <= r' /\ g <= g' /\ b <= b')%Z.
Definition same_channels (c c' : string) : Prop := exists r g b, is_colour c r g b /\ is_colour c' r g b.

(** The factor of band [i] of [n] for a gradient [g]: the powers of ten of numbers that go in equal steps from
    ln (1 - g/10) to ln (1 + g/2). *)
Definition band_factor (g : R) (n i : nat) : R :=
  let t := match n with S (S k) => INR i / INR (S k) | _ => 0 end in
  Rpower 10 ((1 - t) * ln (1 - g / 10) + t * ln (1 + g / 2)).
(** The factor by which a line is darker than the band inside it. *)
Definition line_factor (g : R) (shade : bool) : R := (if shade then 9 / 10 else 1) * Rmax (1 / 10) (1 - g / 5).
