(** Model of plotting/contours.py:68-178 plot_dist: the distribution of one parameter on an axis of the user's. *)
From Coq Require Import String List Bool Arith ZArith QArith Reals.
From Verif Require Import Py NumModel HelpersModel MarginalModel FrameModel ConfigModel ChainModel TextModel AnalysisModel SurfaceModel FigureModel.
Import ListNotations.
Open Scope string_scope.
Open Scope list_scope.

(** The calls made on the axis.  [DFill lo hi linear xs ys c a k z]: fill_between from 0 to the interpolant of (xs, ys),
    at 1000 points from lo to hi, with opacity a * k. *)
(** plotting/contours.py:68-178, the calls on ax *)
Inductive dist_call :=
| DLine (xs ys : list Q) (colour : option string) (ls : string) (lw : Q) (zorder : Z)      (* ax.plot *)
| DSteps (edges ys : list Q) (colour : option string) (ls : string) (lw : Q) (zorder : Z)  (* ax.hist *)
| DFill (lo hi : Q) (linear : bool) (xs ys : list Q) (colour : option string) (a : alpha) (k : Q) (zorder : Z)
| DTitle (s : string).                                                             (* ax.set_title; fontsize and pad not modelled *)

Section dist.
Variable num : numerics.
(** MegKDE(data, weights, truncation).evaluate at one point (plotting/contours.py:96-98; KdeModel.kde_dist over the reals) *)
Variable kde1 : list Q -> list Q -> Q -> Q -> Q.
(** The number of points of the curve: 1000 (plotting/contours.py:97) *)
Variable points : nat.
(** str of fit_values.center: a float or None *)
Variable str_center : option Q -> string.

(** plotting/contours.py:84-138: the outline, and the points the shading interpolates *)
Definition dist_outline (c : chain) (f : frame) (px : string) : res (dist_call * list Q * list Q) :=
  let sv := smooth_value (ch_cfg c Fsmooth) (ch_grid c) in
  let nb := get_bins (ch_cfg c Fbins) (ch_cfg c Fsmooth) (ch_grid c) (f_rows f) (length (f_cols f)) in
  let scale := map (fun y => (y * ch_relheight c)%Q) in
  rbind (get_data f px) (fun data =>                                               (* 85 *)
  if negb (sv =? 0)%Z || kde_on (ch_cfg c Fkde) then                               (* 88 *)
    rbind (weights c f) (fun w =>
    rbind (rmap fst (get_smoothed_bins (n_bins num) sv nb (combine data w) false true)) (fun bins =>   (* 95, 103 *)
    rbind (if kde_on (ch_cfg c Fkde) then                                          (* 92 *)
             match bins with
             | [] => Err ValueError                                                (* min of an empty array *)
             | b :: r => let xs := linspace (qmin_list b r) (qmax_list b r) points in   (* 97 *)
                         Ok (xs, map (n_power num (ch_power c)) (map (kde1 data w (kde_value (ch_cfg c Fkde))) xs))   (* 96-100 *)
             end
           else
             rbind (hist_density bins (combine data w)) (fun hist0 =>              (* 104 *)
             let hist1 := map (n_power num (ch_power c)) hist0 in                  (* 105-106 *)
             (* 107: scipy skips axes with sigma <= 1e-15 *)
             let hist := if (0 <? sv)%Z then filter1d (n_kernel num sv) hist1 else hist1 in
             Ok (bin_centers bins, hist))) (fun out =>                             (* 108-109 *)
    let xs := fst out in let ys := scale (snd out) in                              (* 111 *)
    Ok (DLine xs ys (ch_cfg c Fcolor) (ch_cfg c Flinestyle) (ch_cfg c Flinewidth) (ch_cfg c Fzorder), xs, ys))))   (* 112 *)
  else
    rbind (weights c f) (fun w =>
    rbind (if ch_grid c then get_grid_bins data                                    (* 115-116 *)
           else rmap fst (get_smoothed_bins (n_bins num) sv nb (combine data w) false false)) (fun bins =>   (* 118 *)
    rbind (hist_density bins (combine data w)) (fun hist =>                        (* 120 *)
    let xs := bin_centers bins in                                                  (* 124-125 *)
    let ys := scale (map (n_power num (ch_power c)) hist) in                       (* 121-122, 126 *)
    Ok (DSteps bins ys (ch_cfg c Fcolor) (ch_cfg c Flinestyle) (ch_cfg c Flinewidth) (ch_cfg c Fzorder), xs, ys)))))%Z.   (* 128-138 *)

(** plotting/contours.py:149-170: the shaded interval of a summary; interp1d refuses points outside the range of xs *)
Definition dist_shade (c : chain) (fit : bound) (xs ys : list Q) : res (list dist_call) :=
  if (ch_cfg c Fshade : bool) && alpha_positive (ch_cfg c Fshade_alpha) then       (* 149 *)
    match b_lower fit, b_upper fit with
    | Some lower, Some upper =>                                                    (* 150-152 *)
        match xs with
        | [] => Err ValueError
        | x :: r =>
            let lo := qmax lower (qmin_list x r) in let hi := qmin upper (qmax_list x r) in   (* 155-156 *)
            let k := (1 # 5) + (4 # 5) * ch_cfg c Fshade_gradient in               (* 161 *)
            if negb (in_range xs lo hi) then Err ValueError else                   (* 154, 166 *)
            if negb (opacity_ok (ch_cfg c Fshade_alpha) k) then Err ValueError else
            Ok [DFill lo hi (negb (smooth_value (ch_cfg c Fsmooth) (ch_grid c) =? 0)%Z) xs ys (ch_cfg c Fcolor) (ch_cfg c Fshade_alpha) k (ch_cfg c Fzorder - 1)]   (* 163-170 *)
        end
    | _, _ => Ok []
    end
  else Ok [].
(** plotting/contours.py:172-178: the title *)
Definition dist_title (px : string) (fit : bound) : res (list dist_call) :=
  rmap (fun text => [DTitle ("$" ++ px ++ " = " ++ (if String.eqb text "" then str_center (b_center fit) else text) ++ "$")%string])
       (get_parameter_text (BOne fit) false None).

(** plotting/contours.py:68-178 plot_dist.  The configuration is used for the size of the title only, which is not modelled. *)
Definition plot_dist (cfg : plot_config) (c : chain) (f : frame) (px : string) (summary : bool) : res (list dist_call) :=
  rbind (dist_outline c f px) (fun out =>
  let '(outline, xs, ys) := out in
  if ((ch_cfg c Fshade : bool) && alpha_positive (ch_cfg c Fshade_alpha)) || summary then   (* 142 *)
    rbind (get_parameter_summary num c f px) (fun fit =>                           (* 145-146 *)
    rbind (dist_shade c fit xs ys) (fun shade =>
    rbind (if summary then dist_title px fit else Ok []) (fun title =>
    Ok (outline :: shade ++ title))))
  else Ok [outline]).
End dist.
