(** Independent vocabulary: panels that are mirror images of each other. *)
From Coq Require Import String QArith List Arith ZArith Bool Reals.
From Verif Require Import Py FrameModel ConfigModel ChainModel AnalysisModel SurfaceSpec SurfaceModel PlanarSpec.
Import ListNotations.
Open Scope Q_scope.

(** Rows of [m'] are the columns of [m]. *)
Definition flipped (m m' : list (list Q)) : Prop :=
  exists a b, shaped m a b /\ shaped m' b a /\ forall i j, (i < a)%nat -> (j < b)%nat -> cell 0 m' j i == cell 0 m i j.
(** A kernel density estimate that does not care which parameter comes first. *)
Definition symmetric_kde2 (kde2 : list Q -> list Q -> list Q -> Q -> Q * Q -> Q) : Prop := forall x y w t p q, kde2 y x w t (q, p) == kde2 x y w t (p, q).
(** No density estimate; or a symmetric one, and no grid (a grid may have different numbers of values along its axes). *)
Definition kde_symmetric (kde2 : list Q -> list Q -> list Q -> Q -> Q * Q -> Q) (c : chain) : Prop :=
  kde_on (ch_cfg c Fkde) = false \/ (symmetric_kde2 kde2 /\ ch_grid c = false).
Definition swap (p : Q * Q) : Q * Q := (snd p, fst p).
(** Drawings exchanged along the diagonal: [z] and [z'] show the credible regions of the same density, one that satisfies [D];
    matplotlib takes arrays whose rows belong to the vertical axis. *)
Definition mirror_regions (D : list (list Q) -> Prop) (z z' : list (list Q)) : Prop :=
  exists m v, D m /\ credible_surface m v /\ exchanged z v /\ credible_surface m z'.
Definition draw_mirrored (D : list (list Q) -> Prop) (d d' : draw) : Prop :=
  match d, d' with
  | Scatter pts col s mk zo, Scatter pts' col' s' mk' zo' => pts' = map swap pts /\ col' = col /\ s' = s /\ mk' = mk /\ zo' = zo
  | Filled xc yc z l col a zo, Filled xc' yc' z' l' col' a' zo' => xc' = yc /\ yc' = xc /\ mirror_regions D z z' /\ l' = l /\ col' = col /\ a' = a /\ zo' = zo
  | Lines xc yc z l col st lw zo, Lines xc' yc' z' l' col' st' lw' zo' =>
      xc' = yc /\ yc' = xc /\ mirror_regions D z z' /\ l' = l /\ col' = col /\ st' = st /\ lw' = lw /\ zo' = zo
  | LevelLabels l, LevelLabels l' => l' = l
  | _, _ => False
  end.
(** The density the contours of one of the chains are drawn from. *)
Definition density_of (num : numerics) (kde2 : list Q -> list Q -> list Q -> Q -> Q * Q -> Q) (chains : list (chain * frame)) (px py : string) (m : list (list Q)) : Prop :=
  exists c f hist xc yc, In (c, f) chains /\ get_smoothed_histogram2d num kde2 c f px py = Ok (hist, xc, yc) /\ m = never_empty hist.
