(** Independent vocabulary: triangles that show the same samples. *)
From Coq Require Import String QArith List Arith Permutation.
From Verif Require Import Py NumSpec MarginalModel FrameModel ConfigModel ChainModel AnalysisModel SurfaceSpec SurfaceModel FigureModel FigureSpec EquivSpec PlanarSpec FigEquivSpec.
Import ListNotations.
Open Scope Q_scope.

(** [m] is the density in the plane of [px] and [py] of one of the chains. *)
Definition density_of (k : backend) (chains : list (chain * frame)) (px py : string) (m : list (list Q)) : Prop :=
  exists c f xc yc, In (c, f) chains /\ get_smoothed_histogram2d (bk_num k) (bk_kde2 k) c f px py = Ok (m, xc, yc).
(** The same drawing, or contours at the same places, in the same colours and styles, that enclose the credible regions of
    one density with the property [P]. *)
Definition same_draw (P : list (list Q) -> Prop) (d d' : draw) : Prop := d' = d \/ exists m, P m /\ draw_in_units no_units (never_empty m) d d'.
Definition same_panel_call (P : list (list Q) -> Prop) (c c' : call) : Prop :=
  match c, c' with Surface d, Surface d' => same_draw P d d' | _, _ => same_call c c' end.
(** Triangles of the same size with the same calls on every axis, contours enclosing the same credible regions, and the
    same legend, watermark, colour bars and files. *)
Definition same_triangle (k : backend) (cfg : plot_config) (chains : list (chain * frame)) (cols : list string) (g g' : figure) : Prop :=
  fg_size g' = fg_size g /\ fg_bars g' = fg_bars g /\ fg_legend g' = fg_legend g /\ fg_watermark g' = fg_watermark g /\ fg_saved g' = fg_saved g /\
  (exists n, grid_shape g n n /\ grid_shape g' n n) /\
  forall i j calls calls', axis g i j calls -> axis g' i j calls' ->
    Forall2 (same_panel_call (fun m => exists px py, panel_at cfg cols i j px py /\ density_of k chains px py m)) calls calls'.

(** The same chain twice, its table holding the same weighted points in every plane of two of the columns [cols]; the
    density estimate, if used, depends on these only.  A chain drawn with its points keeps its table (which of them are
    drawn depends on their rows), one drawn with its best point has the same best point. *)
Definition panels_alike (k : backend) (cols : list string) (cf cf' : chain * frame) : Prop :=
  drawn_alike (bk_num k) cols cf cf' /\
  let c := fst cf in let f := snd cf in let f' := snd cf' in
  (forall w, weights c f = Ok w -> all_nonneg w) /\ (forall w, weights c f' = Ok w -> all_nonneg w) /\
  (forall px py, In px cols -> In py cols -> f_has f px = true -> f_has f py = true -> same_plane no_units 1 c f f' px py /\ same_kde2 (bk_kde2 k) no_units 1 c f f' px py) /\
  (ch_cfg c Fplot_cloud = true -> f' = f) /\ (ch_cfg c Fplot_point = true -> get_max_posterior_point c f' = get_max_posterior_point c f).
(** Sorting sorts; powers, filters and density estimates are not negative. *)
Definition numerics_ok (k : backend) : Prop :=
  argsort_ok (bk_argsort k) /\ (forall p v, 0 <= v -> 0 <= n_power (bk_num k) p v) /\ (forall s, all_nonneg (n_kernel (bk_num k) s)) /\
  (forall x y w t p, 0 <= bk_kde2 k x y w t p).
(** The density estimate in a plane does not depend on the order of the samples. *)
Definition order_free2 (k : backend) : Prop :=
  forall xs ys ws xs' ys' ws' factor p p' q q', length xs = length ws -> length ys = length ws -> length xs' = length ws' -> length ys' = length ws' ->
    Permutation (combine (combine xs ys) ws) (combine (combine xs' ys') ws') -> p' == p -> q' == q -> bk_kde2 k xs' ys' ws' factor (p', q') == bk_kde2 k xs ys ws factor (p, q).
(** Drawn as contours, without points, and without negative weights. *)
Definition only_contours (c : chain) (f : frame) : Prop :=
  ch_cfg c Fplot_contour = true /\ ch_cfg c Fplot_cloud = false /\ ch_cfg c Fplot_point = false /\ forall w, weights c f = Ok w -> all_nonneg w.
