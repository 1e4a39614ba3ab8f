(** Independent vocabulary for the watermark: plane geometry of a rotated text, in inches. *)
From Coq Require Import String List Bool ZArith QArith Qreals Reals.
From Verif Require Import Py RegistryModel FigureModel ConsumerSpec WatermarkModel.
Open Scope R_scope.

(** At font size one the text is [w] points wide and [h] points high, and it grows in proportion to the font size. *)
Definition proportional (metrics : text_metrics) (wm : watermark) (tex : bool) (w h : R) : Prop :=
  forall s, metrics (wm_text wm) (wm_kwargs wm) tex s = (IZR s * w, IZR s * h).

(** A length of [p] points, 72 to the inch. *)
Definition inches (p : R) : R := p / 72.

(** A corner of a box, [w] wide and [h] high, turned by [degrees] around its centre. *)
Definition corner (w h degrees : R) (right top : bool) : R * R :=
  let a := degrees * PI / 180 in
  let x := (if right then w else - w) / 2 in
  let y := (if top then h else - h) / 2 in
  (x * cos a - y * sin a, x * sin a + y * cos a).
(** The turned box reaches over [s] inches from left to right (or from bottom to top), as much to either side. *)
Definition spans (side : R * R -> R) (w h degrees s : R) : Prop :=
  (forall right top, Rabs (side (corner w h degrees right top)) <= s / 2) /\ exists right top, side (corner w h degrees right top) = s / 2.

(** The share of the figure's width meant for the text: most of it if LaTeX writes the text and less otherwise, less on
    figures that are no triangle, and less again if it stands on one axis. *)
Definition share (tex triangle on_axis : bool) : R :=
  35 / 36 * (if tex then 1 else 4 / 5) * (if triangle then 1 else 4 / 5) * (if on_axis then (if tex then 7 / 10 else 4 / 5) else 1).
Definition is_triangle_b (d : drawing) : bool := match d with DTriangle _ _ _ _ => true | _ => false end.
Definition has_axis (wm : watermark) : bool := match wm_axis wm with Some _ => true | None => false end.

(** LaTeX writes the text: the keyword argument usetex if given, otherwise the configuration, taken for true. *)
Definition by_tex (other : nat -> bool) (cfg : plot_config) (tex : bool) : Prop :=
  match dget "usetex"%string (p_watermark_text_kwargs cfg) with
  | Some (VBool b) => tex = b
  | Some (VNum q) => tex = true <-> ~ (q == 0)%Q
  | Some (VStr s) => tex = true <-> s <> ""%string
  | Some (VOther n) => tex = other n
  | None => tex = true <-> p_usetex cfg = Some true
  end.
