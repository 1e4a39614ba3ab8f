(** C114: drawn distributions in other units. *)
From Coq Require Import String List Bool Arith ZArith QArith.
From Verif Require Import Py HelpersModel MarginalModel FrameModel ConfigModel ChainModel ChainSpec AnalysisModel FigureModel EquivSpec.
Import ListNotations.
Open Scope Q_scope.

(** A curve, its bars or its shading in other units: positions follow the change of units, heights have the factor [s].
    Direction, colour, line and order of drawing are the same. *)
Definition shape_in_units (a b s : Q) (c c' : call) : Prop :=
  match c, c' with
  | Curve fl xs ys col ls lw z, Curve fl' xs' ys' col' ls' lw' z' =>
      Forall2 (in_units a b) xs xs' /\ Forall2 (in_units s 0) ys ys' /\ fl' = fl /\ col' = col /\ ls' = ls /\ lw' = lw /\ z' = z
  | Bars fl e ys col ls lw z, Bars fl' e' ys' col' ls' lw' z' =>
      Forall2 (in_units a b) e e' /\ Forall2 (in_units s 0) ys ys' /\ fl' = fl /\ col' = col /\ ls' = ls /\ lw' = lw /\ z' = z
  | Fill fl lo hi li xs ys col z, Fill fl' lo' hi' li' xs' ys' col' z' =>
      in_units a b lo lo' /\ in_units a b hi hi' /\ Forall2 (in_units a b) xs xs' /\ Forall2 (in_units s 0) ys ys' /\ fl' = fl /\ li' = li /\ col' = col /\ z' = z
  | _, _ => False
  end.
(** The same chain with a table of the same columns, in which the samples of [p] are in other units.  Density estimates do
    not follow units (C75_kde_refuted), nor do bands and narrowest intervals (C75_bands_refuted, C75_hdi_refuted) unless
    only zero moves. *)
Definition shown_in_units (a b : Q) (p : string) (cf cf' : chain * frame) : Prop :=
  let c := fst cf in let f := snd cf in let f' := snd cf' in
  fst cf' = c /\ frame_wf f /\ frame_wf f' /\ map fst (f_cols f') = map fst (f_cols f) /\ same_bins c f f' /\ kde_on (ch_cfg c Fkde) = false /\
  ((ch_cfg c Fstatistics <> Some SHdi /\ ch_cfg c Fmultimodal = false) \/ a == 1 \/ ch_cfg c Fbar_shade = false) /\
  (is_column f p -> exists k d d', sample c f p d /\ sample c f' p d' /\ d <> [] /\ same_sample a b k d d' /\ (a == 1 \/ spread d)).
