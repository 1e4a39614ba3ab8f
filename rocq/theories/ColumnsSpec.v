(** C115: where a figure shows a parameter. *)
From Coq Require Import String List Bool Arith ZArith QArith.
From Verif Require Import Py ConfigModel ChainModel SurfaceModel FigureModel FigureSpec CosmeticSpec.
Import ListNotations.

(** The calls on the panel of [p] in a figure of distributions of [cols], at most [wrap] to a row *)
Definition distribution_of (wrap : Z) (cols : list string) (fig : figure) (p : string) (calls : list call) : Prop :=
  exists w n i j, Z.of_nat w = Z.min (Z.of_nat (length cols)) wrap /\ nth_error cols n = Some p /\ wrapped w n i j /\ axis fig i j calls.
(** ... on the row of [p] in a figure of walks: the parameters have the last rows, in order *)
Definition walk_of (cols : list string) (fig : figure) (p : string) (calls : list call) : Prop :=
  exists n, nth_error cols n = Some p /\ axis fig (length (fg_axes fig) - length cols + n) 0 calls.
(** ... on the panel of [p] in row [i] of a summary figure, whose first column has the names of the chains *)
Definition summary_of (cols : list string) (fig : figure) (i : nat) (p : string) (calls : list call) : Prop :=
  exists n, nth_error cols n = Some p /\ axis fig i (S n) calls.
(** ... on the panel of [q] (horizontal) against the later [p] (vertical) in a triangle, with or without histograms *)
Definition pair_of (hists : bool) (cols : list string) (fig : figure) (p q : string) (calls : list call) : Prop :=
  exists m n i, (n < m)%nat /\ m = (if hists then i else S i) /\ nth_error cols m = Some p /\ nth_error cols n = Some q /\ axis fig i n calls.
(** ... on the panel of [p] alone in a triangle with histograms *)
Definition alone_of (cols : list string) (fig : figure) (p : string) (calls : list call) : Prop :=
  exists n, nth_error cols n = Some p /\ axis fig n n calls.
(** All but the vertical range *)
Definition unscaled (calls : list call) : list call := filter (fun c => match c with Limits AY _ _ => false | _ => true end) calls.
