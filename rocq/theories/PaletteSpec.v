(** Independent vocabulary for the names of colours. *)
From Coq Require Import String List ZArith.
From Verif Require Import Py ColorModel ColorSpec.
Import ListNotations.
Open Scope string_scope.
Open Scope list_scope.

(** The short names and what they stand for. *)
Definition short_names : list (string * string) :=
  [("b", "blue"); ("r", "red"); ("g", "green"); ("m", "rose"); ("c", "cyan"); ("o", "orange"); ("y", "yellow"); ("a", "amber"); ("p", "purple"); ("lg", "lime"); ("lb", "sky")].
(** [dark] is darker than [light]: the sum of its channels is smaller. *)
Definition darker (light dark : string) : Prop := exists r g b r' g' b', is_colour light r g b /\ is_colour dark r' g' b' /\ (r' + g' + b' < r + g + b)%Z.
(** The strongest channel of a colour *)
Definition reddish (s : string) : Prop := exists r g b, is_colour s r g b /\ (g < r /\ b < r)%Z.
Definition greenish (s : string) : Prop := exists r g b, is_colour s r g b /\ (r < g /\ b < g)%Z.
Definition bluish (s : string) : Prop := exists r g b, is_colour s r g b /\ (r < b /\ g < b)%Z.
