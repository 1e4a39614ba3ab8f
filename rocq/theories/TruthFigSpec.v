(** C113: figures apart from their truths. *)
From Coq Require Import String List Bool ZArith QArith.
From Verif Require Import Py ConfigModel ChainModel SurfaceModel FigureModel.
Import ListNotations.

(** The calls that do not draw the line or the marker of a truth. *)
Definition not_truth (c : call) : bool := match c with VLine _ _ | HLine _ _ | Marker _ _ _ => false | _ => true end.
Definition without_truths (calls : list call) : list call := filter not_truth calls.
(** Two figures are the same apart from the truths drawn on their axes. *)
Definition same_but_truths (fig fig' : figure) : Prop :=
  fg_size fig' = fg_size fig /\ map (map without_truths) (fg_axes fig') = map (map without_truths) (fg_axes fig) /\ fg_bars fig' = fg_bars fig /\ fg_legend fig' = fg_legend fig /\
  fg_watermark fig' = fg_watermark fig /\ fg_saved fig' = fg_saved fig.
