(** plotting/contours.py and helpers.py:76-123: the two-dimensional surface, its contours, clouds and points.
    Histograms are exact rationals, contour levels real numbers.  A drawing call on the axis is a [draw]. *)
From Coq Require Import String List Bool Arith ZArith QArith Reals Qreals.
From Verif Require Import Py NumModel ColorModel ShadeModel HelpersModel MarginalModel FrameModel ConfigModel ChainModel RegistryModel FormatModel AnalysisModel.
Import ListNotations.
Open Scope list_scope.

(** helpers.py:76-123, a two-dimensional array *)
Definition matrix := list (list Q).
(** a[i, j], a.T (rows of equal length) and the flattened array *)
(** helpers.py:98-123 *)
Definition entry {A} (d : A) (m : list (list A)) (i j : nat) : A := nth j (nth i m []) d.
(** helpers.py:98-123 *)
Definition width {A} (m : list (list A)) : nat := match m with [] => 0 | r :: _ => length r end.
(** helpers.py:98-123, plotting/contours.py:212, 221 *)
Definition transpose {A} (d : A) (m : list (list A)) : list (list A) :=
  map (fun j => map (fun i => entry d m i j) (seq 0 (length m))) (seq 0 (width m)).

(** np.histogram2d(x, y, bins=[xedges, yedges], weights=w): first axis x; half-open bins, the last one
    closed. *)
(** helpers.py:98, 102 *)
Fixpoint edge_bins (edges : list Q) : list (Q -> bool) :=
  match edges with
  | lo :: ((hi :: rest') as rest) => in_bin lo hi (match rest' with [] => true | _ => false end) :: edge_bins rest
  | _ => []
  end.
(** helpers.py:98, 102 *)
Definition histogram2d (xedges yedges : list Q) (x y w : list Q) : matrix :=
  map (fun bx => map (fun by_ =>
    qsum (map (fun p => if bx (fst (fst p)) && by_ (snd (fst p)) then snd p else 0) (combine (combine x y) w)))
    (edge_bins yedges)) (edge_bins xedges).

(** scipy.ndimage.gaussian_filter of a matrix: along the first axis, then along the second. *)
(** helpers.py:121 *)
Definition filter2d (kern : list Q) (m : matrix) : matrix :=
  map (filter1d kern) (transpose 0 (map (filter1d kern) (transpose 0 m))).

(** helpers.py:76-123 get_smoothed_histogram2d: histogram, x centres, y centres.  [kde2 x y w truncation p]:
    MegKDE(..., w, chain.kde).evaluate at the point p - the third argument of MegKDE is the truncation. *)
Definition kde_value (k : kde_opt) : Q := match k with KBool true => 1 | KBool false => 0 | KNum q => q end.
(** helpers.py:76-123 *)
Definition get_smoothed_histogram2d (num : numerics) (kde2 : list Q -> list Q -> list Q -> Q -> Q * Q -> Q)
  (c : chain) (f : frame) (px py : string) : res (matrix * list Q * list Q) :=
  rbind (get_data f px) (fun x => rbind (get_data f py) (fun y => rbind (weights c f) (fun w =>   (* 91-93 *)
  let sv := smooth_value (ch_cfg c Fsmooth) (ch_grid c) in
  let nb := get_bins (ch_cfg c Fbins) (ch_cfg c Fsmooth) (ch_grid c) (f_rows f) (length (f_cols f)) in
  let edges d := if ch_grid c then get_grid_bins d                                 (* 96-97 *)
                 else rmap fst (get_smoothed_bins (n_bins num) sv nb (combine d w) false false) in   (* 100-101 *)
  rbind (edges x) (fun binsx => rbind (edges y) (fun binsy =>
  let hist0 := map (map (n_power num (ch_power c))) (histogram2d binsx binsy x y w) in   (* 98, 102-105 *)
  let xc := bin_centers binsx in let yc := bin_centers binsy in                    (* 107-108 *)
  if kde_on (ch_cfg c Fkde) then
    let nn := (length xc * 2)%nat in                                               (* 111 *)
    match binsx, binsy with
    | bx :: rx, by_ :: ry =>
        let xk := linspace (qmin_list bx rx) (qmax_list bx rx) nn in               (* 112-113 *)
        let yk := linspace (qmin_list by_ ry) (qmax_list by_ ry) nn in
        Ok (map (fun a => map (fun b => n_power num (ch_power c) (kde2 x y w (kde_value (ch_cfg c Fkde)) (a, b))) yk) xk,
            xk, yk)                                                                (* 114-119 *)
    | _, _ => Err ValueError                                                       (* x_bins.min() of nothing *)
    end
  else Ok (if (0 <? sv)%Z then filter2d (n_kernel num sv) hist0 else hist0, xc, yc))))))%nat.   (* 120-123 *)

(** plotting/contours.py:258-269 _convert_to_stdev; [argsort] is numpy's argsort, whose order of equal elements is
    unspecified.  [sigma_cumsum[-1]] of an empty array is an IndexError; a zero total gives nan. *)
Fixpoint reshape_like {A B} (shape : list (list A)) (l : list B) : list (list B) :=
  match shape with [] => [] | r :: s => firstn (length r) l :: reshape_like s (skipn (length r) l) end.
(** plotting/contours.py:258-269 *)
Definition convert_to_stdev (argsort : list Q -> list nat) (m : matrix) : res matrix :=
  let sigma := concat m in                                                         (* 262 *)
  let i_sort := rev (argsort sigma) in                                             (* 263 *)
  let i_unsort := argsort (map nq i_sort) in                                       (* 264 *)
  let cum := cumsum (map (fun i => nth i sigma 0) i_sort) in                       (* 266 *)
  match cum with
  | [] => Err IndexError
  | _ =>
      let tot := last cum 0 in
      if Qeq_bool tot 0 then Err NaNResult
      else Ok (reshape_like m (map (fun i => nth i (map (fun v => v / tot) cum) 0) i_unsort))   (* 267-269 *)
  end%Q.

(** plotting/contours.py:281-288 _get_levels; [Phi] is scipy's norm.cdf. *)
Definition get_levels (Phi : R -> R) (sigma2d : bool) (sigmas : list Q) : list R :=
  map (fun s => if sigma2d then (1 - exp (- (1 / 2) * (Q2R s * Q2R s)))%R          (* 285 *)
                else (2 * Phi (Q2R s) - 1)%R) sigmas.                              (* 287 *)

(** matplotlib's contour and contourf: the arguments' shapes, at least 2 x 2; levels must increase and
    contourf needs two. *)
(** plotting/contours.py:209-227 *)
Fixpoint levels_increase (l : list R) : bool :=
  match l with a :: ((b :: _) as r) => (if Rlt_dec a b then true else false) && levels_increase r | _ => true end.
(** plotting/contours.py:209-227 *)
Definition contour_args (xc yc : list Q) (z : matrix) (levels : list R) (filled : bool) : res unit :=
  if negb ((2 <=? length z)%nat && (2 <=? width z)%nat) then Err TypeError
  else if negb ((length z =? length yc)%nat && (width z =? length xc)%nat) then Err TypeError
  else if filled && (length levels <? 2)%nat then Err ValueError
  else if negb (levels_increase levels) then Err ValueError
  else Ok tt.

(** matplotlib refuses an opacity outside 0 to 1 (ValueError); exact for the reciprocal of a root. *)
(** plotting/contours.py:209-217 *)
Fixpoint opacity_ok (a : alpha) (k : Q) : bool :=
  match a with
  | AQ q => Qle_bool 0 (q * k) && Qle_bool (q * k) 1
  | AInvSqrt O => false                                                            (* infinity *)
  | AInvSqrt n => Qle_bool 0 k && Qle_bool (k * k) (nq n)
  | AHalf a => opacity_ok a (k / 2)
  end.
(** plotting/contours.py:209-217 *)
Definition filled_args (a : alpha) (xc yc : list Q) (z : matrix) (levels : list R) : res unit :=
  if opacity_ok a 1 then contour_args xc yc z levels true else Err ValueError.

(** Drawing calls.  [z] is the array given to matplotlib: row j is the j-th y value.  [colours] has
    one colour per level. *)
(** plotting/contours.py:49-52, 244-246 *)
Inductive scatter_colour := OneColour (c : string) (alpha : Q) | ByValue (values : list Q) (cmap : string).
(** plotting/contours.py:54-62, 209-232, 247-255 *)
Inductive draw :=
| Scatter (pts : list (Q * Q)) (col : scatter_colour) (size : Q) (marker : string) (zorder : Z)
| Filled (xc yc : list Q) (z : matrix) (levels : list R) (colours : list string) (a : alpha) (zorder : Z)
| Lines (xc yc : list Q) (z : matrix) (levels : list R) (colours : list string) (style : string) (lw : Q) (zorder : Z)
| LevelLabels (l : list (R * string)).

(** plotting/contours.py:208 *)
Definition alpha_positive (a : alpha) : bool :=
  (fix go a := match a with AQ q => qltb 0 q | AInvSqrt _ => true | AHalf b => go b end) a.
(** colors.format(chain.color), plotting/contours.py:52, 244 *)
Definition chain_colour (c : chain) : res string := format (fun _ => EmptyString) (option_map CName (ch_cfg c Fcolor)).

(** plotting/contours.py:230-231: f" {lvl:0.0%} " below 0.991, otherwise f" {lvl:0.1%} " *)
Definition level_label (lvl : R) : string :=
  (" " ++ fixed_R (if Rlt_dec lvl (991 / 1000) then 0 else 1)%nat (100 * lvl) ++ "% ")%string.
(** plotting/contours.py:230 *)
Definition nonzero_levels (l : list R) : list R := filter (fun x => if Req_EM_T x 0 then false else true) l.

Section draws.
Variable num : numerics.
Variable kde2 : list Q -> list Q -> list Q -> Q -> Q * Q -> Q.
Variable argsort : list Q -> list nat.
Variable Phi : R -> R.

(** plotting/contours.py:181-236 plot_contour *)
Definition plot_contour (sigma2d : bool) (c : chain) (f : frame) (px py : string) : res (list draw) :=
  let levels := get_levels Phi sigma2d (ch_cfg c Fsigmas) in                       (* 192 *)
  rbind (chain_colour c) (fun base =>                                              (* 193 *)
  rbind (contour_colours base (length levels) (ch_cfg c Fshade_gradient) (ch_cfg c Fshade)) (fun cols =>   (* 193-202 *)
  rbind (get_smoothed_histogram2d num kde2 c f px py) (fun hxy =>                  (* 204 *)
  let '(hist, xc, yc) := hxy in
  let hist := map (map (fun v => if Qeq_bool v 0 then (1 # 10000000000000000) else v)) hist in   (* 205 *)
  rbind (convert_to_stdev argsort hist) (fun vals =>                               (* 206 *)
  let z := transpose 0%Q vals in
  let shaded : bool := ch_cfg c Fshade && alpha_positive (ch_cfg c Fshade_alpha) in   (* 208 *)
  rbind (if shaded then filled_args (ch_cfg c Fshade_alpha) xc yc z levels else Ok tt) (fun _ =>
  rbind (contour_args xc yc z levels false) (fun _ =>
  Ok ((if shaded then [Filled xc yc z levels (fst cols) (ch_cfg c Fshade_alpha) (ch_cfg c Fzorder - 2)] else []) ++   (* 209-217 *)
      [Lines xc yc z levels (snd cols) (ch_cfg c Flinestyle) (ch_cfg c Flinewidth) (ch_cfg c Fzorder)] ++             (* 218-227 *)
      (if (ch_cfg c Fshow_contour_labels : bool)
       then [LevelLabels (map (fun l => (l, level_label l)) (nonzero_levels levels))] else []))))))))%Z.        (* 229-232 *)

(** x[::skip] *)
(** plotting/contours.py:50, 55-56 *)
Fixpoint every_fuel {A} (fuel : nat) (skip : nat) (l : list A) : list A :=
  match fuel, l with
  | S k, x :: r => x :: every_fuel k skip (skipn (skip - 1) r)
  | _, _ => []
  end.
(** plotting/contours.py:50, 55-56; plotter.py:377, 400, 416 *)
Definition every {A} (skip : nat) (l : list A) : list A := every_fuel (length l) skip l.
(** plotting/contours.py:48: max(1, int(x.size / chain.num_cloud)); dividing by zero is a ZeroDivisionError. *)
Definition cloud_skip (n : nat) (num_cloud : Q) : res nat :=
  if Qeq_bool num_cloud 0 then Err ZeroDivisionError
  else Ok (Z.to_nat (Z.max 1 (trunc (nq n / num_cloud)))).
(** plotting/contours.py:45-65 plot_cloud: the call and the returned colour-bar entry *)
Definition plot_cloud (c : chain) (f : frame) (px py : string) : res (draw * dict draw) :=
  rbind (get_data f px) (fun x => rbind (get_data f py) (fun y =>                  (* 46-47 *)
  rbind (cloud_skip (length x) (ch_cfg c Fnum_cloud)) (fun skip =>                 (* 48 *)
  rbind (color_data c f) (fun cd =>
  rbind (match cd with
         | Some v => Ok (ByValue (every skip v) (ch_cfg c Fcmap))                  (* 49-50 *)
         | None => rmap (fun col => OneColour col (3 # 10)) (chain_colour c)       (* 52 *)
         end) (fun col =>
  let h := Scatter (combine (every skip x) (every skip y)) col 10 "."%string (ch_cfg c Fzorder - 5) in   (* 54-62 *)
  Ok (h, match cd, ch_cfg c Fcolor_param with Some _, Some p => [(p, h)] | _, _ => [] end))))))%Z.       (* 63-65 *)

(** plotting/contours.py:239-255 plot_point *)
Definition plot_point (c : chain) (f : frame) (px py : string) : res (list draw) :=
  rbind (get_max_posterior_point c f) (fun p =>
  match p with
  | None => Ok []
  | Some (_, coordinate) =>
      match dget px coordinate, dget py coordinate with
      | Some x, Some y =>
          rbind (chain_colour c) (fun c0 =>
          rbind (if (ch_cfg c Fplot_contour : bool) then scale_colour (fun _ => EmptyString) (CName c0) (1 # 2) else Ok c0) (fun col =>
          if opacity_ok (AQ (ch_cfg c Fmarker_alpha)) 1
          then Ok [Scatter [(x, y)] (OneColour col (ch_cfg c Fmarker_alpha)) (ch_cfg c Fmarker_size) (ch_cfg c Fmarker_style) (ch_cfg c Fzorder + 1)]
          else Err ValueError))
      | _, _ => Ok []
      end
  end)%Z.

(** plotting/contours.py:14-42 plot_surface: the calls in order and the colour-bar entries *)
Definition surface_one (sigma2d : bool) (c : chain) (f : frame) (px py : string) : res (list draw * dict draw) :=
  if negb (smem px (plotting_columns c f)) || negb (smem py (plotting_columns c f)) then Ok ([], [])   (* 30-31 *)
  else
    rbind (if (ch_cfg c Fplot_cloud : bool) then rmap (fun h => ([fst h], snd h)) (plot_cloud c f px py) else Ok ([], [])) (fun cloud =>   (* 33-34 *)
    rbind (if (ch_cfg c Fplot_contour : bool) then plot_contour sigma2d c f px py else Ok []) (fun contour =>   (* 36-37 *)
    rbind (if (ch_cfg c Fplot_point : bool) then plot_point c f px py else Ok []) (fun point =>                 (* 39-40 *)
    Ok (fst cloud ++ contour ++ point, snd cloud)))).
(** plotting/contours.py:14-42 *)
Fixpoint plot_surface (sigma2d : bool) (chains : list (chain * frame)) (px py : string) : res (list draw * dict draw) :=
  match chains with
  | [] => Ok ([], [])
  | (c, f) :: r =>
      rbind (surface_one sigma2d c f px py) (fun one =>
      rbind (plot_surface sigma2d r px py) (fun rest =>
      Ok (fst one ++ fst rest, dmerge (snd one) (snd rest))))
  end.
End draws.
