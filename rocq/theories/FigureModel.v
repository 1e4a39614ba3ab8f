(** plotter.py, plotting/config.py, plotting/truth.py, plotting/watermark.py and truth.py: the figures.
    A figure is the grid of its axes with, for every axis, the matplotlib calls made on it in order.
    Not modelled: font sizes and rotation of texts, margins, number formatters, the font size of the
    watermark, what matplotlib does with the calls (except [shows_ticks] and [current_label] below). *)
From Coq Require Import String Ascii List Bool Arith ZArith QArith Qround Qabs Reals.
From Verif Require Import Py NumModel ColorModel HelpersModel MarginalModel FrameModel ConfigModel ChainModel RegistryModel FormatModel TextModel AnalysisModel SurfaceModel.
Import ListNotations.
Open Scope string_scope.
Open Scope list_scope.

(** ** Configuration *)
(** Values of free-form keyword arguments. *)
(** plotting/config.py:9-49, the dictionaries of keywords *)
Inductive pyval := VNum (q : Q) | VStr (s : string) | VBool (b : bool) | VOther (n : nat).
(** plotting/config.py:9-49 PlotConfig (font sizes of ticks and contour labels omitted) *)
Record plot_config := {
  p_labels : dict string; p_max_ticks : Z; p_plot_hists : bool; p_flip : bool;
  p_serif : option bool; p_usetex : option bool; p_label_font_size : Z; p_spacing : option Q;
  p_show_legend : option bool; p_legend_kwargs : dict pyval; p_legend_location : option (Z * Z);
  p_legend_artists : option bool; p_legend_color_text : bool;
  p_watermark : option string; p_watermark_text_kwargs : dict pyval;
  p_summarise : bool; p_sigma2d : bool; p_blind : blind_opt; p_log_scales : list string;
  p_extents : dict (Q * Q); p_dpi : Z }.
(** plotting/config.py:10-49 defaults *)
Definition default_plot_config : plot_config := {|
  p_labels := []; p_max_ticks := 5; p_plot_hists := true; p_flip := false;
  p_serif := Some false; p_usetex := Some false; p_label_font_size := 12; p_spacing := None;
  p_show_legend := None; p_legend_kwargs := []; p_legend_location := None;
  p_legend_artists := None; p_legend_color_text := true;
  p_watermark := None; p_watermark_text_kwargs := [];
  p_summarise := true; p_sigma2d := false; p_blind := BlindBool false; p_log_scales := [];
  p_extents := []; p_dpi := 300 |}.
(** plotting/config.py:51-62 legend_kwargs_final *)
Definition legend_kwargs_final (cfg : plot_config) : dict pyval :=
  dmerge [("labelspacing", VNum (3 # 10)); ("loc", VStr "upper right"); ("frameon", VBool false);
          ("fontsize", VNum (inject_Z (p_label_font_size cfg))); ("handlelength", VNum 1);
          ("handletextpad", VNum (1 # 5)); ("borderaxespad", VNum 0)] (p_legend_kwargs cfg).
(** plotting/config.py:64-73 watermark_text_kwargs_final *)
Definition watermark_text_kwargs_final (cfg : plot_config) : dict pyval :=
  dmerge [("color", VStr "#333333"); ("alpha", VNum (7 # 10)); ("verticalalignment", VStr "center");
          ("horizontalalignment", VStr "center"); ("weight", VStr "bold")] (p_watermark_text_kwargs cfg).
(** plotting/config.py:75-76 get_label *)
Definition label_of (cfg : plot_config) (column : string) : string := get_label (p_labels cfg) column.

(** ** Matplotlib's rc parameters *)
(** The two parameters ChainConsumer touches, and all others. *)
(** plotter.py:120-121, 736-750 *)
Record rc_params := { rc_usetex : bool; rc_family : list string; rc_other : dict pyval }.
(** plotter.py:115-121 Plotter.__init__, 123-136 set_config and config *)
Record plotter := { pl_config : option plot_config; pl_usetex_old : bool; pl_serif_old : list string }.
(** plotter.py:115-121 *)
Definition new_plotter (rc : rc_params) : plotter :=
  {| pl_config := None; pl_usetex_old := rc_usetex rc; pl_serif_old := rc_family rc |}.
(** plotter.py:123-130 *)
Definition set_config (p : plotter) (cfg : plot_config) : plotter :=
  {| pl_config := Some cfg; pl_usetex_old := pl_usetex_old p; pl_serif_old := pl_serif_old p |}.
(** plotter.py:132-136 *)
Definition config_in_use (p : plotter) : plot_config := dflt default_plot_config (pl_config p).
(** plotter.py:736-740 set_rc_params (rcParams stores a family as a list) *)
Definition set_rc_params (cfg : plot_config) (rc : rc_params) : rc_params := {|
  rc_usetex := match p_usetex cfg with Some b => b | None => rc_usetex rc end;
  rc_family := match p_serif cfg with Some b => [if b then "serif" else "sans-serif"] | None => rc_family rc end;
  rc_other := rc_other rc |}.
(** plotter.py:742-750 restore_rc_params *)
Definition restore_rc_params (p : plotter) (rc : rc_params) : rc_params :=
  {| rc_usetex := pl_usetex_old p; rc_family := pl_serif_old p; rc_other := rc_other rc |}.

(** ** Truths *)
(** truth.py:13-31 Truth *)
Record truth := {
  t_location : dict Q; t_name : option string; t_color : colour_input; t_edge_color : option colour_input;
  t_line_width : Q; t_line_style : string; t_alpha : Q; t_zorder : Z;
  t_marker : option string; t_marker_size : Q; t_marker_edge_width : Q }.
(** truth.py:42-53 validate_model: pydantic reports the ValueError as a ValidationError. [filled m]: m is in
    matplotlib's Line2D.filled_markers. *)
Definition new_truth (filled : string -> bool) (t : truth) : res truth :=
  match t_marker t with
  | Some m => if negb (filled m) && qltb 1 (t_marker_edge_width t) then Err ValidationError else Ok t
  | None => Ok t
  end.
(** truth.py:59-67 _kwargs *)
Record line_style := { l_ls : string; l_c : colour_input; l_lw : Q; l_alpha : Q; l_zorder : Z }.
(** truth.py:59-67 *)
Definition truth_line (t : truth) : line_style :=
  {| l_ls := t_line_style t; l_c := t_color t; l_lw := t_line_width t; l_alpha := t_alpha t; l_zorder := t_zorder t |}.
(** truth.py:69-82 _marker_kwargs; [mk_fill] is (edgecolor, facecolor, linewidth) *)
Record marker_style := { mk_marker : string; mk_size : Q; mk_color : colour_input; mk_alpha : Q; mk_zorder : Z;
                         mk_fill : option (colour_input * colour_input * Q) }.
(** truth.py:69-82 *)
Definition truth_marker (filled : string -> bool) (t : truth) (m : string) : marker_style := {|
  mk_marker := m; mk_size := t_marker_size t; mk_color := t_color t; mk_alpha := t_alpha t; mk_zorder := t_zorder t;
  mk_fill := if filled m then Some (dflt (t_color t) (t_edge_color t), t_color t, t_marker_edge_width t) else None |}.

(** ** Calls on an axis *)
(** plotter.py:138-282, the axes x and y *)
Inductive dir := AX | AY.
(** plotter.py:138-1063 and plotting/, the calls made on one axis *)
Inductive call :=
| FrameOff                                                   (* set_frame_on(False) *)
| AxisOff                                                    (* set_axis_off() *)
| SpineOff (top : bool)                                      (* spines["top" / "bottom"].set_visible(False) *)
| NoTicks (d : dir)                                          (* set_xticks([]) / set_yticks([]) *)
| LogScale (d : dir)                                         (* set_xscale("log") / set_yscale("log") *)
| Locator (d : dir) (log : bool) (max_ticks : Z)             (* set_major_locator(LogLocator / MaxNLocator) *)
| Limits (d : dir) (lo hi : Q)                               (* set_xlim / set_ylim *)
| AxisLabel (d : dir) (s : string)                           (* set_xlabel / set_ylabel *)
| Title (s : string)                                         (* set_title *)
| NameText (s : string) (colour : string)                    (* ax.text with a chain's name *)
| Surface (d : draw)                                         (* a call made by plot_surface *)
| VLine (x : Q) (s : line_style)                             (* axvline *)
| HLine (y : Q) (s : line_style)                             (* axhline *)
| Marker (x y : Q) (s : marker_style)                        (* scatter of a truth *)
| Curve (flip : bool) (xs ys : list Q) (colour : option string) (ls : string) (lw : Q) (zorder : Z)   (* plot *)
| Bars (flip : bool) (edges ys : list Q) (colour : option string) (ls : string) (lw : Q) (zorder : Z) (* hist *)
| Fill (flip : bool) (lo hi : Q) (linear : bool) (xs ys : list Q) (colour : option string) (zorder : Z)
     (* fill_between (fill_betweenx when flipped) from 0 to the interpolant of (xs, ys), for 1000 points
        from lo to hi *)
| ErrorBar (center lower upper : Q) (colour : string)
| Walk (ys : list Q) (colour : string)                       (* scatter of the values against 0, 1, 2, ... *)
| Smoothed (pts : list (Q * Q)) (colour : string).           (* the convolved walk *)

(** Matplotlib: whether an axis shows tick labels after the calls.  set_xticks([]) removes the major ticks
    only; setting a log scale installs fresh major and minor ticks, and minor ticks of a log axis are
    labelled when the axis spans at most one decade (LogFormatter, minor_thresholds = (1, 0.4)); an axis
    whose range is not set might span less.  Locators with max_ticks = 0 are not treated specially. *)
(** plotter.py:138-282 *)
Definition dir_eqb (a b : dir) : bool := match a, b with AX, AX | AY, AY => true | _, _ => false end.
(** plotter.py:502, 641, 812-874 *)
Record ticks := { tk_off : bool; tk_major : bool; tk_minor : bool; tk_range : option (Q * Q) }.
(** plotter.py:502, 641, 812-874 *)
Definition tick_step (d : dir) (t : ticks) (c : call) : ticks :=
  match c with
  | NoTicks d' => if dir_eqb d d' then {| tk_off := tk_off t; tk_major := false; tk_minor := tk_minor t; tk_range := tk_range t |} else t
  | LogScale d' => if dir_eqb d d' then {| tk_off := tk_off t; tk_major := true; tk_minor := true; tk_range := tk_range t |} else t
  | Locator d' _ _ => if dir_eqb d d' then {| tk_off := tk_off t; tk_major := true; tk_minor := tk_minor t; tk_range := tk_range t |} else t
  | Limits d' lo hi => if dir_eqb d d' then {| tk_off := tk_off t; tk_major := tk_major t; tk_minor := tk_minor t; tk_range := Some (lo, hi) |} else t
  | AxisOff => {| tk_off := true; tk_major := tk_major t; tk_minor := tk_minor t; tk_range := tk_range t |}
  | _ => t
  end.
(** plotter.py:502, 641, 812-874 *)
Definition final_ticks (d : dir) (calls : list call) : ticks :=
  fold_left (tick_step d) calls {| tk_off := false; tk_major := true; tk_minor := false; tk_range := None |}.
(** matplotlib, for plotter.py:800-874 *)
Definition within_decade (r : option (Q * Q)) : bool :=
  match r with Some (lo, hi) => negb (qltb 0 lo && qltb (10 * lo)%Q hi) | None => true end.
(** plotter.py:502, 641, 812-874 *)
Definition shows_ticks (d : dir) (calls : list call) : bool :=
  let t := final_ticks d calls in negb (tk_off t) && (tk_major t || tk_minor t && within_decade (tk_range t)).
(** get_xlim / get_ylim, when set *)
(** plotter.py:223-225, 513, 525, 643, 677, 873-874, 1031-1034 *)
Definition current_limits (d : dir) (calls : list call) : option (Q * Q) := tk_range (final_ticks d calls).
(** get_xlabel / get_ylabel *)
(** plotter.py:269, 273 *)
Definition label_step (d : dir) (l : string) (c : call) : string :=
  match c with AxisLabel d' s => if dir_eqb d d' then s else l | _ => l end.
(** plotter.py:269, 273 *)
Definition current_label (d : dir) (calls : list call) : string := fold_left (label_step d) calls "".

(** plotting/truth.py:7-24 plot_truths *)
Definition truth_value (t : truth) (p : option string) : option Q := match p with Some p => dget p (t_location t) | None => None end.
(** plotting/truth.py:9-23, one truth *)
Definition plot_truth (filled : string -> bool) (px py : option string) (t : truth) : list call :=
  match truth_value t px, truth_value t py, t_marker t with
  | None, None, _ => []                                                            (* 13-14 *)
  | Some x, Some y, Some m => [Marker x y (truth_marker filled t m)]               (* 17-18 *)
  | vx, vy, _ => match vx with Some x => [VLine x (truth_line t)] | None => [] end ++   (* 20-21 *)
                 match vy with Some y => [HLine y (truth_line t)] | None => [] end       (* 22-23 *)
  end.
(** plotting/truth.py:7-23 *)
Definition plot_truths (filled : string -> bool) (truths : list truth) (px py : option string) : list call :=
  flat_map (plot_truth filled px py) truths.

(** ** What is plotted *)
(** An axis range; [None] is (inf, -inf). *)
(** plotter.py:878-904 *)
Definition extent := option (Q * Q).
(** plotter.py:901-902 *)
Definition hull (a b : extent) : extent :=
  match a, b with
  | None, e | e, None => e
  | Some (l, u), Some (l', u') => Some (qmin l l', qmax u u')
  end.
(** plotter.py:34-39 PlottingBase *)
Record plot_base := { pb_chains : list (chain * frame); pb_columns : list string; pb_extents : dict extent;
                      pb_blind : list string; pb_logs : list string }.

Section figures.
Variable num : numerics.

(** plotter.py:878-904 _get_parameter_extents *)
Definition chain_extent (wide : bool) (column : string) (cf : chain * frame) : res extent :=
  let '(c, f) := cf in
  if negb (f_has f column) then Ok None                                            (* 883-884 *)
  else rbind (get_data f column) (fun data =>                                      (* 886 *)
    if ch_cfg c Fplot_contour || ch_cfg c Fplot_cloud then                         (* 888 *)
      if ch_grid c then
        match data with [] => Err NaNResult | x :: r => Ok (Some (qmin_list x r, qmax_list x r)) end   (* 889-891 *)
      else rbind (weights c f) (fun w => rmap Some (get_extents (n_bins num) (combine data w) true wide false false))   (* 893 *)
    else rbind (get_max_posterior_point c f) (fun point =>                         (* 896 *)
      match point with
      | Some (_, coordinate) => Ok (match dget column coordinate with Some v => Some (v, v) | None => None end)   (* 897-899 *)
      | None => Ok None
      end)).
(** plotter.py:878-904 *)
Fixpoint get_parameter_extents (wide : bool) (column : string) (chains : list (chain * frame)) (acc : extent) : res extent :=
  match chains with
  | [] => Ok acc                                                                   (* 904 *)
  | cf :: r => rbind (chain_extent wide column cf) (fun e => get_parameter_extents wide column r (hull e acc))   (* 901-902 *)
  end.
(** plotter.py:752-765 _get_custom_extents *)
Fixpoint custom_extents_loop (wide : bool) (initial : dict (Q * Q)) (chains : list (chain * frame)) (columns : list string) (acc : dict extent) : res (dict extent) :=
  match columns with
  | [] => Ok acc
  | p :: r =>
      if dmem p initial then custom_extents_loop wide initial chains r acc         (* 763 *)
      else rbind (get_parameter_extents wide p chains None) (fun e =>
           custom_extents_loop wide initial chains r (dset p e acc))               (* 764 *)
  end.
(** plotter.py:752-765 *)
Definition get_custom_extents (wide : bool) (initial : dict (Q * Q)) (chains : list (chain * frame)) (columns : list string) : res (dict extent) :=
  custom_extents_loop wide initial chains columns (map (fun kv => (fst kv, Some (snd kv))) initial).   (* 761 *)
(** plotter.py:714-734 _sanitise.  The rc parameters are set after the extents are known. *)
Definition sanitise (cfg : plot_config) (w : world) (rc : rc_params) (chains : chain_request) (columns : option (list string)) (wide : bool)
  : world * rc_params * res plot_base :=
  match sanitise_chains w chains false with                                        (* 723 *)
  | (w1, Err e) => (w1, rc, Err e)
  | (w1, Ok locs) =>
      match rmapM (ref_object (fst w1)) (map ByChain locs) with
      | Err e => (w1, rc, Err e)                                                   (* not reachable *)
      | Ok final =>
          let cols := sanitise_columns columns final in                            (* 724 *)
          match get_custom_extents wide (p_extents cfg) final cols with            (* 725 *)
          | Err e => (w1, rc, Err e)
          | Ok ext => (w1, set_rc_params cfg rc,                                   (* 726 *)
              Ok {| pb_chains := final; pb_columns := cols; pb_extents := ext;
                    pb_blind := sanitise_blinds (p_blind cfg) cols; pb_logs := p_log_scales cfg |})   (* 728-734 *)
          end
      end
  end.

(** ax.set_xlim / set_ylim with an entry of the extents: infinite limits are a ValueError. *)
(** plotter.py:513, 643, 873-874 *)
Definition set_limits (d : dir) (e : option extent) : res (list call) :=
  match e with
  | None => Err KeyError
  | Some None => Err ValueError
  | Some (Some (lo, hi)) => Ok [Limits d lo hi]
  end.

(** ** One-dimensional distributions *)
(** plotter.py:919-1018 _plot_bars.  interp1d refuses points outside the range of xs (ValueError). *)
Definition in_range (xs : list Q) (lo hi : Q) : bool :=
  match xs with
  | [] => false
  | x :: r => let a := qmin_list x r in let b := qmax_list x r in
              Qle_bool a lo && Qle_bool lo b && Qle_bool a hi && Qle_bool hi b
  end.
(** str.strip("$") *)
(** plotter.py:1007 *)
Definition dollar : ascii := "$"%char.
(** plotter.py:1007 *)
Fixpoint lstrip (s : string) : string := match s with String a r => if Ascii.eqb a dollar then lstrip r else s | EmptyString => EmptyString end.
(** plotter.py:1007 *)
Fixpoint rstrip (s : string) : string :=
  match s with
  | EmptyString => EmptyString
  | String a r => match rstrip r with EmptyString => if Ascii.eqb a dollar then EmptyString else String a EmptyString | r' => String a r' end
  end.
(** plotter.py:1007 *)
Definition strip_dollar (s : string) : string := rstrip (lstrip s).

(** plotter.py:928-957 _plot_bars, the curve *)
Definition bar_outline (c : chain) (f : frame) (column : string) (flip : bool) : res (call * list Q * list Q) :=
  let sv := smooth_value (ch_cfg c Fsmooth) (ch_grid c) in
  let scale := map (fun y => (y * ch_relheight c)%Q) in
  rbind (get_data f column) (fun data =>                                           (* 928 *)
  if negb (sv =? 0)%Z || kde_on (ch_cfg c Fkde) then                               (* 929 *)
    rbind (chain_marginal num c f column true) (fun m =>                           (* 930 *)
    let xs := mg_xs m in let ys := scale (mg_ys m) in                              (* 931 *)
    Ok (Curve flip xs ys (ch_cfg c Fcolor) (ch_cfg c Flinestyle) (ch_cfg c Flinewidth) (ch_cfg c Fzorder), xs, ys))   (* 932-935 *)
  else
    rbind (weights c f) (fun w =>
    rbind (if ch_grid c then get_grid_bins data                                    (* 937-938 *)
           else rmap fst (get_smoothed_bins (n_bins num) sv
                  (get_bins (ch_cfg c Fbins) (ch_cfg c Fsmooth) (ch_grid c) (f_rows f) (length (f_cols f))) (combine data w) false false)) (fun bins =>   (* 940 *)
    rbind (hist_density bins (combine data w)) (fun hist =>                        (* 941 *)
    let xs := bin_centers bins in                                                  (* 944 *)
    let ys := scale (map (n_power num (ch_power c)) hist) in                       (* 942-943, 946 *)
    Ok (Bars flip bins ys (ch_cfg c Fcolor) (ch_cfg c Flinestyle) (ch_cfg c Flinewidth) (ch_cfg c Fzorder), xs, ys)))))%Z.   (* 947-957 *)

(** plotter.py:964-986: the shaded intervals and the bounds shown in the title *)
Definition shaded (c : chain) (f : frame) (column : string) (base : bound) (lower upper : Q) (xs : list Q) : res (list (Q * Q) * bounds_in) :=
  if (ch_cfg c Fmultimodal : bool) then
    rbind (get_parameter_hdi_intervals num c f column) (fun intervals =>           (* 968 *)
    rbind (get_parameter_multimodal_bounds num c f column intervals) (fun bounds =>   (* 969-973 *)
    Ok (if (length intervals <? 2)%nat then [(lower, upper)] else intervals, BMany bounds)))   (* 976-977 *)
  else
    match xs with
    | [] => Err ValueError
    | x :: r => Ok ([(qmax lower (qmin_list x r), qmin upper (qmax_list x r))], BOne base)   (* 980-982 *)
    end.
(** plotter.py:919-1018 _plot_bars *)
Definition plot_bars (cfg : plot_config) (column : string) (flip summary : bool) (cf : chain * frame) : res (list call * Q) :=
  let '(c, f) := cf in
  rbind (bar_outline c f column flip) (fun out =>
  let '(outline, xs, ys) := out in
  let linear := negb (smooth_value (ch_cfg c Fsmooth) (ch_grid c) =? 0)%Z in       (* 958 *)
  rbind (if (ch_cfg c Fbar_shade : bool) then                                      (* 961 *)
           rbind (get_parameter_summary num c f column) (fun base =>               (* 962 *)
           match b_lower base, b_upper base with
           | Some lower, Some upper =>                                             (* 964 *)
               rbind (shaded c f column base lower upper xs) (fun sh =>
               rbind (rmapM (fun iv => if in_range xs (fst iv) (snd iv)
                                       then Ok (Fill flip (fst iv) (snd iv) linear xs ys (ch_cfg c Fcolor) (ch_cfg c Fzorder))
                                       else Err ValueError) (fst sh)) (fun fills =>   (* 984-1006 *)
               rbind (if summary then
                        rmap (fun t => if String.eqb t "" then [] else [Title t])
                             (get_parameter_text (snd sh) true (Some (strip_dollar (label_of cfg column))))   (* 1008-1016 *)
                      else Ok []) (fun title => Ok (fills ++ title))))
           | _, _ => Ok []
           end)
         else Ok []) (fun shade =>
  match ys with
  | [] => Err ValueError                                                           (* 1018: max of an empty array *)
  | y :: r => Ok (outline :: shade, qmax_list y r)
  end)).
(** The loop over the chains of a panel; the highest value drawn ([None]: nothing drawn). *)
(** plotter.py:218-219, 522-523, 671-672 *)
Definition tallest (ms : list Q) : option Q := match ms with [] => None | m :: r => Some (qmax_list m r) end.
(** plotter.py:205-219, 516-523 *)
Definition bars_panel (cfg : plot_config) (column : string) (flip summary : bool) (chains : list (chain * frame)) : res (list call * option Q) :=
  rmap (fun outs => (concat (map fst outs), tallest (map snd outs))) (rmapM (plot_bars cfg column flip summary) chains).

(** ** The triangle *)
(** plotter.py:767-876 _get_triangle_figure: the calls on panel (i, j) of n x n *)
Definition triangle_panel (cfg : plot_config) (b : plot_base) (n i j : nat) (p1 p2 : string) : res (list call) :=
  if (i <? j)%nat then Ok [FrameOff; NoTicks AX; NoTicks AY]                       (* 810-813 *)
  else
    let log1 := smem p1 (pb_logs b) in let log2 := smem p2 (pb_logs b) in
    let same := String.eqb p1 p2 in
    let last_flipped := p_flip cfg && (j =? n - 1)%nat in
    let logy := log1 && (negb same || last_flipped) in                             (* 817-821, 826-828 *)
    let logx := if same then log1 && negb last_flipped else log2 in                (* 822-824, 829-831 *)
    let bottom := (i =? n - 1)%nat && negb last_flipped in                         (* 832 *)
    let left := (j =? 0)%nat && negb (p_plot_hists cfg && (i =? 0)%nat) in         (* 841 *)
    let blind1 := smem p1 (pb_blind b) in let blind2 := smem p2 (pb_blind b) in
    rbind (if (negb (i =? j)%nat || negb (p_plot_hists cfg)) || (p_flip cfg && (i =? 1)%nat)   (* 872 *)
           then set_limits AY (dget p1 (pb_extents b)) else Ok []) (fun ylim =>    (* 873 *)
    rbind (set_limits AX (dget p2 (pb_extents b))) (fun xlim =>                    (* 874 *)
    Ok ((if logy then [LogScale AY] else []) ++ (if logx then [LogScale AX] else []) ++
        (if bottom then (if blind2 then [NoTicks AX] else []) ++ [AxisLabel AX (label_of cfg p2)] else [NoTicks AX]) ++   (* 832-840 *)
        (if left then (if blind1 then [NoTicks AY] else []) ++ [AxisLabel AY (label_of cfg p1)] else [NoTicks AY]) ++     (* 841-849 *)
        (if bottom && negb blind2 then [Locator AX logx (p_max_ticks cfg)] else [NoTicks AX]) ++                          (* 850-860 *)
        (if left && negb blind1 then [Locator AY logy (p_max_ticks cfg)] else [NoTicks AY]) ++                            (* 861-871 *)
        ylim ++ xlim))).

(** A grid of values: row i, column j. *)
(** plotter.py:189-191, 800-801 *)
Definition grid_of {A} (rows cols : list string) (f : nat -> nat -> string -> string -> res A) : res (list (list A)) :=
  rmapM (fun ip => rmapM (fun jp => f (fst ip) (fst jp) (snd ip) (snd jp)) (combine (seq 0 (length cols)) cols))
        (combine (seq 0 (length rows)) rows).
(** plt.subplots: at least one row and one column.  Figure: no negative size. *)
(** plotter.py:367, 486, 605-607, 782 *)
Definition subplots (rows cols : nat) (size : Q * Q) : res unit :=
  if negb (Qle_bool 0 (fst size) && Qle_bool 0 (snd size)) then Err ValueError
  else match rows, cols with S _, S _ => Ok tt | _, _ => Err ValueError end.
(** plotter.py:795, 798 *)
Definition params_x (cfg : plot_config) (cols : list string) : list string := if p_plot_hists cfg then cols else tl cols.   (* 795, 798 *)
(** plotter.py:796, 799 *)
Definition params_y (cfg : plot_config) (cols : list string) : list string := if p_plot_hists cfg then cols else removelast cols.   (* 796, 799 *)
(** plotter.py:770-772 *)
Definition triangle_size (cfg : plot_config) (cols : list string) : nat := if p_plot_hists cfg then length cols else (length cols - 1)%nat.   (* 770-772 *)
(** plotter.py:767-876 _get_triangle_figure *)
Definition triangle_figure (cfg : plot_config) (b : plot_base) (size : Q * Q) : res (list (list (list call))) :=
  let n := triangle_size cfg (pb_columns b) in
  rbind (subplots n n size) (fun _ =>                                              (* 782 *)
  if Qeq_bool (fst size) 0 || Qeq_bool (snd size) 0 then Err ZeroDivisionError     (* 783-784 *)
  else grid_of (params_x cfg (pb_columns b)) (params_y cfg (pb_columns b)) (triangle_panel cfg b n)).   (* 800-874 *)

(** ** The legend *)
(** plotter.py:69-111 get_artists_from_chains; [ar_marker]: style and squared size *)
Record artist := { ar_label : string; ar_color : string; ar_ls : string; ar_lw : Q; ar_marker : option (string * Q) }.
(** plotter.py:69-111, one chain *)
Definition chain_artist (c : chain) : res artist :=
  rmap (fun col =>
    let contour : bool := ch_cfg c Fplot_contour in let point : bool := ch_cfg c Fplot_point in
    {| ar_label := "  " ++ ch_name c; ar_color := col; ar_ls := ch_cfg c Flinestyle;
       ar_lw := if negb contour && point then 0 else ch_cfg c Flinewidth;          (* 93 *)
       ar_marker := if contour && negb point then None else Some (ch_cfg c Fmarker_style, ch_cfg c Fmarker_size) |})   (* 74-84, 94-95, 106-107 *)
    (chain_colour c).
(** plotter.py:69-111 *)
Definition get_artists_from_chains (chains : list chain) : res (list artist) :=
  rmapM chain_artist (filter ch_showlabel chains).                                 (* 71-73 *)
(** [lg_text_colors]: the colours of the texts, when coloured *)
(** plotter.py:253-265 *)
Record legend := { lg_row : nat; lg_col : nat; lg_handles : list artist; lg_kwargs : dict pyval; lg_text_colors : option (list string) }.
(** axes[k] with a possibly negative index *)
(** plotter.py:254 *)
Definition py_axis (n : nat) (k : Z) : res nat :=
  if ((0 <=? k) && (k <? Z.of_nat n))%Z then Ok (Z.to_nat k)
  else if ((k <? 0) && (- Z.of_nat n <=? k))%Z then Ok (Z.to_nat (Z.of_nat n + k)) else Err IndexError.
(** plotter.py:181 *)
Definition flipped (cfg : plot_config) (b : plot_base) : bool := (length (pb_columns b) =? 2)%nat && p_plot_hists cfg && p_flip cfg.   (* 181 *)
(** plotter.py:248-265 *)
Definition make_legend (cfg : plot_config) (b : plot_base) : res legend :=
  let loc := dflt (if negb (flipped cfg b) || (2 <? length (pb_columns b))%nat then (0, -1) else (-1, 0))%Z (p_legend_location cfg) in   (* 248-250 *)
  let n := triangle_size cfg (pb_columns b) in
  rbind (py_axis n (fst loc)) (fun i => rbind (py_axis n (snd loc)) (fun j =>      (* 254 *)
  let kw := legend_kwargs_final cfg in
  let kw := if dmem "markerfirst" kw then kw
            else dset "markerfirst" (VBool ((snd loc <=? fst loc)%Z || negb (dflt false (p_legend_artists cfg)))) kw in   (* 251, 255-257 *)
  let shown := filter ch_showlabel (map fst (pb_chains b)) in                      (* 259 *)
  rbind (get_artists_from_chains shown) (fun artists =>                            (* 260-261 *)
  rbind (if p_legend_color_text cfg then rmap Some (rmapM chain_colour shown) else Ok None) (fun cols =>   (* 262-265 *)
  Ok {| lg_row := i; lg_col := j; lg_handles := artists; lg_kwargs := kw; lg_text_colors := cols |})))).

(** ** Figures *)
(** plotting/watermark.py:10-51: the text, on one axis or on the whole figure, with its properties and
    whether LaTeX renders it *)
Record watermark := { wm_axis : option (nat * nat); wm_text : string; wm_kwargs : dict pyval; wm_usetex : option pyval }.
(** plotting/watermark.py:10-51, what is written *)
Definition add_watermark (cfg : plot_config) (axis : option (nat * nat)) : option watermark :=
  match p_watermark cfg with
  | None => None                                                                   (* 19-20 *)
  | Some t => let kw := watermark_text_kwargs_final cfg in
              Some {| wm_axis := axis; wm_text := t; wm_kwargs := kw;
                      wm_usetex := match dget "usetex" kw with Some v => Some v | None => option_map VBool (p_usetex cfg) end |}   (* 29 *)
  end.
(** plotter.py:284-289 _save_fig: the files written, with their resolution *)
Inductive filename_arg := FileNone | FileOne (s : string) | FileList (l : list string).
(** plotter.py:284-289 *)
Definition saved_files (cfg : plot_config) (a : filename_arg) : list (string * Z) :=
  map (fun s => (s, p_dpi cfg)) (match a with FileNone => [] | FileOne s => [s] | FileList l => l end).
(** plotter.py:138-282, 291-682, what a returned figure shows *)
Record figure := { fg_size : Q * Q; fg_axes : list (list (list call)); fg_bars : list (string * draw);
                   fg_legend : option legend; fg_watermark : option watermark; fg_saved : list (string * Z) }.
(** plotter.py:42-66 FigSize.get_size *)
Inductive figsize_arg := FPage | FColumn | FGrow | FFloat (q : Q) | FInt (z : Z) | FTuple (w h : Q).
(** plotter.py:49-66 *)
Definition get_size (a : figsize_arg) (num_columns : nat) (has_cax : bool) : Q * Q :=
  let cax : Q := if has_cax then 1 else 0 in
  let grow g := ((3 + g * 2 * nq num_columns + cax)%Q, (3 + g * 2 * nq num_columns)%Q) in   (* 66 *)
  match a with
  | FPage => (10, 10)                                                              (* 53-54 *)
  | FColumn => ((5 + cax)%Q, 5)                                                    (* 55-56 *)
  | FFloat q => grow q                                                             (* 58-59 *)
  | FInt z => (inject_Z z, inject_Z z)                                             (* 60-61 *)
  | FTuple w h => (w, h)                                                           (* 62-63 *)
  | FGrow => grow 1
  end.

Variable kde2 : list Q -> list Q -> list Q -> Q -> Q * Q -> Q.
Variable argsort : list Q -> list nat.
Variable Phi : R -> R.
Variable filled : string -> bool.
(** The text matplotlib factors out of the tick labels of axis (i, j), known once the figure is drawn. *)
Variable offset : dir -> nat -> nat -> string.

(** plotter.py:193-229: the calls of [plot] on panel (i, j), and the entries for the colour bars *)
Definition plot_panel (cfg : plot_config) (truths : list truth) (b : plot_base) (i j : nat) (p1 p2 : string) : res (list call * dict draw) :=
  if (i <? j)%nat then Ok ([], [])                                                 (* 191-192 *)
  else
    let do_flip := flipped cfg b && (i =? length (params_x cfg (pb_columns b)) - 1)%nat in   (* 194 *)
    let summarise := p_summarise cfg && (length (filter (fun cf => ch_cfg (fst cf) Fplot_contour) (pb_chains b)) =? 1)%nat in   (* 185-186 *)
    if p_plot_hists cfg && (i =? j)%nat then                                       (* 197 *)
      rbind (bars_panel cfg p1 do_flip (summarise && negb (smem p1 (pb_blind b)))
               (filter (fun cf => ch_cfg (fst cf) Fplot_contour && f_has (snd cf) p1) (pb_chains b))) (fun bars =>   (* 205-219 *)
      Ok ((if do_flip then plot_truths filled truths None (Some p1) else plot_truths filled truths (Some p1) None) ++   (* 198-201 *)
          fst bars ++
          match snd bars with Some m => [Limits (if do_flip then AX else AY) 0 ((11 # 10) * m)%Q] | None => [] end, []))   (* 221-225 *)
    else
      rbind (plot_surface num kde2 argsort Phi (p_sigma2d cfg) (pb_chains b) p2 p1) (fun s =>   (* 228 *)
      Ok (map Surface (fst s) ++ plot_truths filled truths (Some p2) (Some p1), snd s)).        (* 229 *)

(** plotter.py:237-243: the label of a colour bar *)
Definition bar_label (cfg : plot_config) (column : string) : string :=
  let label := label_of cfg column in
  if String.eqb label "weight" then "Weights"
  else if String.eqb label "log_weight" then "log(Weights)"
  else if String.eqb label "posterior" then "log(Posterior)" else label.
(** plotter.py:267-274: the offset text is appended to the labels of the bottom row and the left column *)
Definition with_offset (d : dir) (i j : nat) (calls : list call) : list call :=
  let o := offset d i j in
  calls ++ [AxisLabel d (current_label d calls ++ " " ++ (if String.eqb o "" then "" else "[" ++ o ++ "]"))].
(** plotter.py:267-274 *)
Definition relabel (n i j : nat) (calls : list call) : list call :=
  let c1 := if (i =? n - 1)%nat then with_offset AX i j calls else calls in
  if (j =? 0)%nat then with_offset AY i j c1 else c1.
(** plotter.py:189-193, the loop over the panels *)
Definition mapij {A B} (f : nat -> nat -> A -> B) (m : list (list A)) : list (list B) :=
  map (fun ir => map (fun jx => f (fst ir) (fst jx) (snd jx)) (combine (seq 0 (length (snd ir))) (snd ir))) (combine (seq 0 (length m)) m).
(** plotter.py:182-230, the calls of _get_triangle_figure before those of plot *)
Definition zip_axes {A B} (a : list (list (list A))) (b : list (list (list A * B))) : list (list (list A)) :=
  map (fun ab => map (fun xy => fst xy ++ fst (snd xy)) (combine (fst ab) (snd ab))) (combine a b).

(** plotter.py:174-282 plot, after _sanitise *)
Definition plot_figure (cfg : plot_config) (truths : list truth) (b : plot_base) (figsize : figsize_arg) (file : filename_arg) : res figure :=
  let cols := pb_columns b in
  let n := triangle_size cfg cols in
  let show_legend := dflt (1 <? length (pb_chains b))%nat (p_show_legend cfg) in   (* 174-176 *)
  let has_cax := existsb (fun cf => match ch_cfg (fst cf) Fcolor_param with Some _ => true | None => false end) (pb_chains b) in   (* 178 *)
  let size := get_size figsize (length cols) has_cax in                            (* 179 *)
  rbind (triangle_figure cfg b size) (fun base_axes =>                             (* 182 *)
  rbind (grid_of (params_x cfg cols) (params_y cfg cols) (plot_panel cfg truths b)) (fun panels =>   (* 189-229 *)
  let paths := fold_left (fun acc row => fold_left (fun acc p => dmerge acc (snd p)) row acc) panels [] in   (* 188, 228 *)
  rbind (if show_legend then rmap Some (make_legend cfg b) else Ok None) (fun leg =>   (* 253 *)
  Ok {| fg_size := size;
        fg_axes := mapij (relabel n) (zip_axes base_axes panels);                  (* 267-274 *)
        fg_bars := map (fun kv => (bar_label cfg (fst kv), snd kv)) paths;         (* 232-246 *)
        fg_legend := leg;
        fg_watermark := add_watermark cfg (if flipped cfg b && (length cols =? 2)%nat then Some ((n - 1)%nat, 0%nat) else None);   (* 276-278 *)
        fg_saved := saved_files cfg file |}))).                                    (* 280 *)

(** ** Walks *)
Variable log10 : Q -> Q.
Variable max_points : nat.                                                         (* 368: 100000 *)
(** data[:: int(len(data) / max_points)] above max_points values, 376-377 *)
(** plotter.py:376-377, 399-400, 415-416 *)
Definition thin (l : list Q) : list Q := if (max_points <? length l)%nat then every (length l / max_points) l else l.
(** np.convolve(data, np.ones(w) / w, mode="same") at position i, for w <= len(data) *)
(** plotter.py:1049-1050 *)
Definition box_mean (w : nat) (data : list Q) (i : nat) : Q :=
  (qsum (map (fun k => if (Nat.div2 w <=? i + k)%nat then nth (i + k - Nat.div2 w) data 0 else 0) (seq 0 w)) / nq w)%Q.
(** plotter.py:1046-1051: np.ones of a negative or empty window is a ValueError.  With a window longer
    than the data numpy returns as many values as the window has: nothing is left of the positions, and
    one value of an odd window. *)
Definition smoothed_walk (w : Z) (data : list Q) : res (list (Q * Q)) :=
  if (w <=? 0)%Z then Err ValueError
  else
    let w := Z.to_nat w in let n := length data in
    let trim := Nat.div2 w in                                                      (* 1047 *)
    if (n <? w)%nat then if Nat.even w then Ok [] else Err ValueError
    else if (trim =? 0)%nat then Ok []                                             (* x[0:-0] *)
    else Ok (map (fun i => (nq i, box_mean w data i)) (seq trim (n - 2 * trim))).  (* 1049-1051 *)
(** plotter.py:1020-1051 _plot_walk *)
Definition plot_walk (cfg : plot_config) (column : string) (data : list Q) (extents : option extent) (convolve : option Z) (color : string) (log_scale : bool) : res (list call) :=
  rbind (match extents with Some e => set_limits AY (Some e) | None => Ok [] end) (fun ylim =>   (* 1030-1031 *)
  match data with
  | [] => Err IndexError                                                           (* 1034: x[-1] *)
  | _ =>
      rbind (match convolve with
             | None => Ok []
             | Some w => rbind (scale_colour (fun _ => EmptyString) (CName color) (1 # 2)) (fun c2 =>
                         rmap (fun pts => [Smoothed pts c2]) (smoothed_walk w data))
             end) (fun conv =>
      Ok (ylim ++ [Limits AX 0 (nq (length data - 1)); AxisLabel AY (label_of cfg column); Walk data color] ++   (* 1034-1038 *)
          (if log_scale then [LogScale AY; Locator AY true (p_max_ticks cfg)] else [Locator AY false (p_max_ticks cfg)]) ++   (* 1039-1044 *)
          conv))
  end).
(** plotter.py:404 *)
Definition log_p : string := "$\log(P)$".
(** plotter.py:373, 396, 412, the loop over the chains *)
Definition walk_rows {A} (f : A -> res (list call)) (l : list A) : res (list call) := rmap (@concat call) (rmapM f l).
(** plotter.py:395-408, 409-423, 371-393: the three kinds of row *)
Definition posterior_row (cfg : plot_config) (convolve : option Z) (chains : list (chain * frame)) : res (list call) :=
  walk_rows (fun cf =>
    match log_posterior (fst cf) (snd cf) with
    | None => Ok []
    | Some p => match p with
                | [] => Err IndexError
                | x :: r => rbind (chain_colour (fst cf)) (fun col =>
                            plot_walk cfg log_p (thin (map (fun v => (v - qmax_list x r)%Q) p)) None convolve col false)
                end
    end) chains.
(** plotter.py:409-422 *)
Definition weight_row (cfg : plot_config) (convolve : option Z) (log_weight : bool) (chains : list (chain * frame)) : res (list call) :=
  walk_rows (fun cf => rbind (weights (fst cf) (snd cf)) (fun w => rbind (chain_colour (fst cf)) (fun col =>
    plot_walk cfg (if log_weight then "$\log_{10}$Weight" else "Weight") ((if log_weight then map log10 else fun l => l) (thin w)) None convolve col false))) chains.
(** plotter.py:371-392 *)
Definition column_row (cfg : plot_config) (truths : list truth) (b : plot_base) (convolve : option Z) (p : string) : res (list call) :=
  rbind (walk_rows (fun cf =>
    if smem p (data_columns (fst cf) (snd cf))
    then rbind (get_data (snd cf) p) (fun d => rbind (chain_colour (fst cf)) (fun col =>
         plot_walk cfg p (thin d) (dget p (pb_extents b)) convolve col (smem p (pb_logs b))))
    else Ok []) (pb_chains b)) (fun calls =>
  Ok (calls ++ flat_map (fun t => match dget p (t_location t) with Some v => [HLine v (truth_line t)] | None => [] end) truths ++   (* 388-390, 1053-1054 *)
      (if smem p (pb_blind b) then [NoTicks AY] else []))).                        (* 392-393 *)
(** A figure-size argument: nothing, a number or a pair. *)
(** plotter.py:50-53 *)
Inductive size_arg := SizeNone | SizeNum (q : Q) | SizePair (w h : Q).
(** plotter.py:351-428 plot_walks, after _sanitise.  The rows share their horizontal axis (sharex=True, 367):
    the last of all [Limits AX] calls counts for every row. *)
Definition walks_figure (cfg : plot_config) (truths : list truth) (b : plot_base) (figsize : size_arg) (convolve : option Z)
  (plot_weights plot_posterior log_weight : bool) (file : filename_arg) : res figure :=
  let with_post := plot_posterior && existsb (fun cf => match log_posterior (fst cf) (snd cf) with Some _ => true | None => false end) (pb_chains b) in   (* 354 *)
  let extra := ((if plot_weights then 1 else 0) + (if with_post then 1 else 0))%nat in   (* 355-358 *)
  let n := length (pb_columns b) in
  let size := match figsize with SizeNone => (8, ((3 # 4) + nq (n + extra))%Q) | SizeNum q => (q, q) | SizePair w h => (w, h) end in   (* 360-365 *)
  rbind (subplots (n + extra) 1 size) (fun _ =>                                    (* 367 *)
  rbind (if with_post then rmap (fun r => [[r]]) (posterior_row cfg convolve (pb_chains b)) else Ok []) (fun r1 =>
  rbind (if plot_weights then rmap (fun r => [[r]]) (weight_row cfg convolve log_weight (pb_chains b)) else Ok []) (fun r2 =>
  rbind (rmapM (fun p => rmap (fun r => [r]) (column_row cfg truths b convolve p)) (pb_columns b)) (fun r3 =>
  Ok {| fg_size := size; fg_axes := r1 ++ r2 ++ r3; fg_bars := []; fg_legend := None;
        fg_watermark := add_watermark cfg None; fg_saved := saved_files cfg file |})))).   (* 425-426 *)

(** ** Distributions *)
(** plotter.py:496-526: one panel *)
Definition distribution_panel (cfg : plot_config) (truths : list truth) (b : plot_base) (summary : bool) (p : string) : res (list call) :=
  let log := smem p (pb_logs b) in let blind := smem p (pb_blind b) in
  rbind (match dget p (pb_extents b) with
         | Some e => set_limits AX (Some e)
         | None => rbind (get_parameter_extents true p (pb_chains b) None) (fun e => set_limits AX (Some e))
         end) (fun xlim =>                                                         (* 513 *)
  rbind (bars_panel cfg p false (summary && negb blind)
           (filter (fun cf => ch_cfg (fst cf) Fplot_contour && smem p (plotting_columns (fst cf) (snd cf))) (pb_chains b))) (fun bars =>   (* 515-523 *)
  match snd bars with
  | None => Err ValueError                                                         (* 525: -inf *)
  | Some m =>
      Ok ([NoTicks AY] ++ (if log then [LogScale AX] else []) ++                   (* 498-500 *)
          (if blind then [NoTicks AX] else [Locator AX log (p_max_ticks cfg)]) ++  (* 501-512 *)
          xlim ++ fst bars ++ plot_truths filled truths None (Some p) ++           (* 524 *)
          [Limits AY 0 ((11 # 10) * m)%Q; AxisLabel AX p])                         (* 525-526 *)
  end)).
(** plotter.py:473-474, 486 the axes in rows of num_cols *)
Fixpoint rows_of {A} (fuel w : nat) (l : list A) : list (list A) :=
  match fuel, l with S k, _ :: _ => firstn w l :: rows_of k w (skipn w l) | _, _ => [] end.
(** plotter.py:472-530 plot_distributions, after _sanitise *)
Definition distributions_figure (cfg : plot_config) (truths : list truth) (b : plot_base) (col_wrap : Z) (figsize : size_arg) (file : filename_arg) : res figure :=
  let n := length (pb_columns b) in
  if (col_wrap =? 0)%Z then Err ZeroDivisionError                                  (* 474 *)
  else
    let num_cols := Z.min (Z.of_nat n) col_wrap in                                 (* 473 *)
    let num_rows := (- ((- Z.of_nat n) / col_wrap))%Z in                           (* 474: ceil *)
    let scaled q := ((inject_Z num_cols * (5 # 2) * q)%Q, (inject_Z num_rows * (5 # 2) * q)%Q) in
    let size := match figsize with SizeNone => scaled 1 | SizeNum q => scaled q | SizePair w h => (w, h) end in   (* 476-482 *)
    if match figsize with SizeNum q => Qeq_bool q 0 | _ => false end then Err ZeroDivisionError   (* 485 *)
    else
      let summary := p_summarise cfg && (length (pb_chains b) =? 1)%nat in         (* 484 *)
      rbind (subplots (Z.to_nat num_rows) (Z.to_nat num_cols) size) (fun _ =>      (* 486 *)
      rbind (rmapM (distribution_panel cfg truths b summary) (pb_columns b)) (fun panels =>
      let spare := repeat [AxisOff] (Z.to_nat num_rows * Z.to_nat num_cols - n)%nat in   (* 493-495 *)
      Ok {| fg_size := size; fg_axes := rows_of (Z.to_nat num_rows) (Z.to_nat num_cols) (panels ++ spare);
            fg_bars := []; fg_legend := None; fg_watermark := add_watermark cfg None; fg_saved := saved_files cfg file |})).   (* 528-529 *)

(** ** Summaries *)
(** plotter.py:634-672: the panel of chain i and column p, and the height of what was drawn *)
Definition summary_panel (cfg : plot_config) (truths : list truth) (b : plot_base) (errorbar : bool) (i : nat) (cf : chain * frame) (colour p : string) : res (list call * option Q) :=
  let last_row := negb (i <? length (pb_chains b) - 1)%nat in
  rbind (set_limits AX (dget p (pb_extents b))) (fun xlim =>                       (* 643 *)
  let frame_calls :=
    (if (0 <? i)%nat then [SpineOff true] else []) ++ (if last_row then [] else [SpineOff false]) ++   (* 636-639 *)
    (if negb last_row || smem p (pb_blind b) then [NoTicks AX] else []) ++ [NoTicks AY] ++ xlim ++     (* 640-643 *)
    (if smem p (pb_logs b) then [LogScale AX] else []) ++                          (* 644-645 *)
    (if (i =? 0)%nat then [Title (label_of cfg p)] else []) ++                     (* 648-649 *)
    flat_map (fun t => match dget p (t_location t) with Some v => [VLine v (truth_line t)] | None => [] end) truths in   (* 652-655 *)
  if negb (smem p (data_columns (fst cf) (snd cf))) then Ok (frame_calls, None)    (* 658-659 *)
  else if errorbar then
    rbind (get_parameter_summary num (fst cf) (snd cf) p) (fun fv =>               (* 663 *)
    Ok (frame_calls ++ match b_lower fv, b_center fv, b_upper fv with
                       | Some l, Some c, Some u => [ErrorBar c (Qabs (c - l)) (Qabs (u - c)) colour]   (* 664-668 *)
                       | _, _, _ => []
                       end, None))
  else rmap (fun o => (frame_calls ++ fst o, Some (snd o))) (plot_bars cfg p false false cf)).   (* 670 *)
(** plotter.py:614-632: a row *)
Definition summary_row (cfg : plot_config) (truths : list truth) (b : plot_base) (errorbar : bool) (icf : nat * (chain * frame)) : res (list (list call * option Q)) :=
  let '(i, cf) := icf in
  rbind (chain_colour (fst cf)) (fun colour =>                                     (* 616 *)
  rmap (fun ps => ([AxisOff; NameText (ch_name (fst cf)) (if p_legend_color_text cfg then colour else "k")], None) :: ps)   (* 619-631 *)
       (rmapM (summary_panel cfg truths b errorbar i cf colour) (pb_columns b))).
(** plotter.py:671-672 max_vals *)
Definition max_vals_step (acc : dict Q) (pm : string * option Q) : dict Q :=
  match snd pm with
  | None => acc
  | Some m => match dget (fst pm) acc with
              | None => dset (fst pm) m acc
              | Some m0 => if qltb m0 m then dset (fst pm) m acc else acc
              end
  end.
(** plotter.py:612-613, 669-672 *)
Definition max_vals (cols : list string) (rows : list (list (list call * option Q))) : dict Q :=
  fold_left (fun acc row => fold_left max_vals_step (combine cols (map snd (tl row))) acc) rows [].
(** plotter.py:674-677: the k-th axis of a row - the first of which holds the name - with the k-th column *)
Definition scale_row (cols : list string) (mv : dict Q) (row : list (list call)) : res (list (list call)) :=
  rmap (fun lims => map (fun ab => fst ab ++ snd ab) (combine row (lims ++ repeat [] (length row - length lims)%nat)))
       (rmapM (fun ap => match dget (snd ap) mv with Some m => Ok [Limits AY 0 ((11 # 10) * m)%Q] | None => Err KeyError end) (combine row cols)).
(** [text_width]: matplotlib's width of a text, 684-688 *)
Variable text_width : string -> Q.
(** plotter.py:684-688 *)
Definition size_of_texts (texts : list string) : res Q :=
  match map text_width texts with [] => Err ValueError | x :: r => Ok (qmax_list x r) end.
(** plotter.py:584-682 plot_summary, after _sanitise *)
Definition summary_figure (cfg : plot_config) (truths : list truth) (b : plot_base) (figsize : Q) (errorbar : bool)
  (extra_parameter_spacing vertical_spacing_ratio : Q) (file : filename_arg) : res figure :=
  rbind (size_of_texts (pb_columns b)) (fun max_param =>                           (* 586 *)
  rbind (size_of_texts (map (fun cf => ch_name (fst cf)) (pb_chains b))) (fun max_model =>   (* 589 *)
  let param_width := (extra_parameter_spacing + qmax (1 # 2) (max_param / 65))%Q in   (* 588 *)
  let model_width := ((1 # 4) + max_model / 65)%Q in                               (* 590 *)
  let width := (param_width * nq (length (pb_columns b)) + model_width)%Q in       (* 599 *)
  let height := ((1 # 2) + (if errorbar then (1 # 2) else (4 # 5)) * vertical_spacing_ratio * nq (length (pb_chains b)))%Q in   (* 598, 600 *)
  if Qeq_bool height 0 then Err ZeroDivisionError                                  (* 601 *)
  else
    let size := ((width * figsize)%Q, (height * figsize)%Q) in                     (* 604 *)
    rbind (subplots (length (pb_chains b)) (1 + length (pb_columns b)) size) (fun _ =>   (* 605 *)
    rbind (rmapM (summary_row cfg truths b errorbar) (combine (seq 0 (length (pb_chains b))) (pb_chains b))) (fun rows =>   (* 614-672 *)
    rbind (if errorbar then Ok (map (map fst) rows)
           else rmapM (fun row => scale_row (pb_columns b) (max_vals (pb_columns b) rows) (map fst row)) rows) (fun axes =>   (* 674-677 *)
    Ok {| fg_size := size; fg_axes := axes; fg_bars := []; fg_legend := None;
          fg_watermark := add_watermark cfg None; fg_saved := saved_files cfg file |}))))).   (* 679-680 *)
End figures.

(** ** The public calls *)
(** A session: the consumer's world, its truths, its plotter and matplotlib's rc parameters.
    chainconsumer.py:20-32, 39-49 add_truth, 65-75 set_plot_config *)
Record session := { s_world : world; s_truths : list truth; s_plotter : plotter; s_rc : rc_params }.
(** chainconsumer.py:20-32, the other fields stay *)
Definition with_world (s : session) (w : world) : session := {| s_world := w; s_truths := s_truths s; s_plotter := s_plotter s; s_rc := s_rc s |}.
(** chainconsumer.py:39-49 *)
Definition add_truth (s : session) (t : truth) : session :=
  {| s_world := s_world s; s_truths := s_truths s ++ [t]; s_plotter := s_plotter s; s_rc := s_rc s |}.
(** chainconsumer.py:65-75 *)
Definition set_plot_config (s : session) (cfg : plot_config) : session :=
  {| s_world := s_world s; s_truths := s_truths s; s_plotter := set_config (s_plotter s) cfg; s_rc := s_rc s |}.
(** plotter.py:742-750 *)
Definition restore (s : session) : session :=
  {| s_world := s_world s; s_truths := s_truths s; s_plotter := s_plotter s; s_rc := restore_rc_params (s_plotter s) (s_rc s) |}.
(** Every plotting call: _sanitise, then the figure. *)
(** plotter.py:138-282, 291-428, 430-530, 532-682; each begins with 714-734 *)
Definition with_base (num : numerics) (s : session) (chains : chain_request) (columns : option (list string)) (wide : bool)
  (k : plot_config -> list truth -> plot_base -> res figure) : session * res figure :=
  let cfg := config_in_use (s_plotter s) in
  let '(w1, rc1, rb) := sanitise num cfg (s_world s) (s_rc s) chains columns wide in
  ({| s_world := w1; s_truths := s_truths s; s_plotter := s_plotter s; s_rc := rc1 |}, rbind rb (k cfg (s_truths s))).
(** Matplotlib, scipy and numpy as used by the figures *)
(** no code of its own; see the list of oracles in DESIGN.md *)
Record backend := {
  bk_num : numerics; bk_kde2 : list Q -> list Q -> list Q -> Q -> Q * Q -> Q; bk_argsort : list Q -> list nat; bk_Phi : R -> R;
  bk_filled : string -> bool; bk_offset : dir -> nat -> nat -> string; bk_log10 : Q -> Q; bk_max_points : nat; bk_text_width : string -> Q }.
(** plotter.py:138-282, 291-428, 430-530, 532-682 *)
Definition plot (k : backend) (s : session) (chains : chain_request) (columns : option (list string)) (file : filename_arg) (figsize : figsize_arg) : session * res figure :=
  with_base (bk_num k) s chains columns true (fun cfg ts b =>
    plot_figure (bk_num k) (bk_kde2 k) (bk_argsort k) (bk_Phi k) (bk_filled k) (bk_offset k) cfg ts b figsize file).
(** plotter.py:291-428 *)
Definition plot_walks (k : backend) (s : session) (chains : chain_request) (columns : option (list string)) (file : filename_arg) (figsize : size_arg)
  (convolve : option Z) (plot_weights plot_posterior log_weight : bool) : session * res figure :=
  with_base (bk_num k) s chains columns true (fun cfg ts b =>
    walks_figure (bk_log10 k) (bk_max_points k) cfg ts b figsize convolve plot_weights plot_posterior log_weight file).
(** plotter.py:430-530 *)
Definition plot_distributions (k : backend) (s : session) (chains : chain_request) (columns : option (list string)) (file : filename_arg) (col_wrap : Z) (figsize : size_arg) : session * res figure :=
  with_base (bk_num k) s chains columns true (fun cfg ts b =>
    distributions_figure (bk_num k) (bk_filled k) cfg ts b col_wrap figsize file).
(** plotter.py:532-682 *)
Definition plot_summary (k : backend) (s : session) (chains : chain_request) (columns : option (list string)) (file : filename_arg) (figsize : Q)
  (errorbar : bool) (extra_parameter_spacing vertical_spacing_ratio : Q) : session * res figure :=
  with_base (bk_num k) s chains columns (negb errorbar) (fun cfg ts b =>
    summary_figure (bk_num k) (bk_text_width k) cfg ts b figsize errorbar extra_parameter_spacing vertical_spacing_ratio file).
