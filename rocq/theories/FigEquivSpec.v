(** Independent vocabulary: figures that show the same numbers. *)
From Coq Require Import String QArith List.
From Verif Require Import Py MarginalModel FrameModel ConfigModel ChainModel AnalysisModel FigureModel EquivSpec AxisEquivSpec.
Import ListNotations.
Open Scope Q_scope.

Definition same_numbers : list Q -> list Q -> Prop := Forall2 (fun x x' => x' == x).
(** The same call on an axis with equal numbers: limits, curves, bars, shaded areas, error bars.  Everything else is
    the same, colours, styles and texts included. *)
Definition same_call (c c' : call) : Prop :=
  match c, c' with
  | Limits d lo hi, Limits d' lo' hi' => d' = d /\ lo' == lo /\ hi' == hi
  | Curve fl xs ys col ls lw z, Curve fl' xs' ys' col' ls' lw' z' =>
      fl' = fl /\ same_numbers xs xs' /\ same_numbers ys ys' /\ col' = col /\ ls' = ls /\ lw' = lw /\ z' = z
  | Bars fl e ys col ls lw z, Bars fl' e' ys' col' ls' lw' z' =>
      fl' = fl /\ same_numbers e e' /\ same_numbers ys ys' /\ col' = col /\ ls' = ls /\ lw' = lw /\ z' = z
  | Fill fl lo hi li xs ys col z, Fill fl' lo' hi' li' xs' ys' col' z' =>
      fl' = fl /\ lo' == lo /\ hi' == hi /\ li' = li /\ same_numbers xs xs' /\ same_numbers ys ys' /\ col' = col /\ z' = z
  | ErrorBar x l u col, ErrorBar x' l' u' col' => x' == x /\ l' == l /\ u' == u /\ col' = col
  | _, _ => c' = c
  end.
(** Figures of the same size with the same calls on every axis, the same legend, watermark, colour bars and files. *)
Definition same_figure (g g' : figure) : Prop :=
  fg_size g' = fg_size g /\ Forall2 (Forall2 (Forall2 same_call)) (fg_axes g) (fg_axes g') /\ fg_bars g' = fg_bars g /\
  fg_legend g' = fg_legend g /\ fg_watermark g' = fg_watermark g /\ fg_saved g' = fg_saved g.
(** The same chain twice, its table holding the same weighted samples of the columns [cols]; drawn only as a point, it
    has the same point. *)
Definition drawn_alike (num : numerics) (cols : list string) (cf cf' : chain * frame) : Prop :=
  let c := fst cf in let f := snd cf in let f' := snd cf' in
  fst cf' = c /\ power_law (n_power num (ch_power c)) /\ frame_wf f /\ frame_wf f' /\ same_table num c f f' cols /\
  (extended c \/ get_max_posterior_point c f' = get_max_posterior_point c f).
