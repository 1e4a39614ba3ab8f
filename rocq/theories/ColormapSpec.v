(** Independent vocabulary for colour maps. *)
From Coq Require Import String List ZArith QArith Qabs Qround.
From Verif Require Import Py ColorModel ColorSpec ColormapModel.
Open Scope Q_scope.

(** matplotlib writes RGBA values as a colour "#rrggbb". *)
Definition writes_colours (rgb2hex : list Q -> string) (cm : Q -> list Q) : Prop := forall x, valid_colour (rgb2hex (cm x)).

(** Where along [num] evenly spaced steps the [i]-th is: 0 for the first and 1 for the last. *)
Definition along (num : nat) (i : nat) (t : Q) : Prop :=
  match num with S (S m) => t * inject_Z (Z.of_nat (S m)) == inject_Z (Z.of_nat i) | _ => t == 0 end.

(** [c'] is the colour [c] with every channel multiplied by [f], rounded down, and not above 255. *)
Definition times (c : string) (f : Q) (c' : string) : Prop :=
  exists r g b, is_colour c r g b /\
    is_colour c' (Z.min 255 (Qfloor (inject_Z r * f))) (Z.min 255 (Qfloor (inject_Z g * f))) (Z.min 255 (Qfloor (inject_Z b * f))).

(** No channel of [c'] is above that of [c]. *)
Definition no_lighter (c' c : string) : Prop :=
  forall r g b r' g' b', is_colour c r g b -> is_colour c' r' g' b' -> (r' <= r /\ g' <= g /\ b' <= b)%Z.
Definition same_colour (c c' : string) : Prop := exists r g b, is_colour c r g b /\ is_colour c' r g b.
