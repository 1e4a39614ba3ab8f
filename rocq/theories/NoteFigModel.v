(** The figures with the warnings about unconstrained parameters (analysis.py:682-684) that they log on the way.
    The functions follow those of FigureModel.v and PlotDistModel.v; everything but get_parameter_summary logs nothing. *)
From Coq Require Import String List Bool Arith ZArith QArith Qabs Reals.
From Verif Require Import Py NumModel ColorModel HelpersModel MarginalModel FrameModel ConfigModel ChainModel RegistryModel TextModel AnalysisModel SurfaceModel FigureModel PlotDistModel WarnModel NoteModel VerdictModel.
Import ListNotations.
Open Scope string_scope.
Open Scope list_scope.

Section noted_figures.
Variable num : numerics.
(** plotter.py:919-1018 _plot_bars *)
Definition noted_bars (cfg : plot_config) (column : string) (flip summary : bool) (cf : chain * frame) : logged (list call * Q) :=
  let '(c, f) := cf in
  lbind (silent (bar_outline num c f column flip)) (fun out =>                     (* 928-957 *)
  let '(outline, xs, ys) := out in
  let linear := negb (smooth_value (ch_cfg c Fsmooth) (ch_grid c) =? 0)%Z in       (* 958 *)
  lbind (if (ch_cfg c Fbar_shade : bool) then                                      (* 961 *)
           lbind (noted_parameter_summary num c f column) (fun base =>             (* 962 *)
           silent (match b_lower base, b_upper base with
           | Some lower, Some upper =>                                             (* 964 *)
               rbind (shaded num c f column base lower upper xs) (fun sh =>        (* 965-982 *)
               rbind (rmapM (fun iv => if in_range xs (fst iv) (snd iv)
                                       then Ok (Fill flip (fst iv) (snd iv) linear xs ys (ch_cfg c Fcolor) (ch_cfg c Fzorder))
                                       else Err ValueError) (fst sh)) (fun fills =>   (* 984-1006 *)
               rbind (if summary then
                        rmap (fun t => if String.eqb t "" then [] else [Title t])
                             (get_parameter_text (snd sh) true (Some (strip_dollar (label_of cfg column))))   (* 1008-1016 *)
                      else Ok []) (fun title => Ok (fills ++ title))))
           | _, _ => Ok []
           end))
         else silent (Ok [])) (fun shade =>
  silent (match ys with
  | [] => Err ValueError                                                           (* 1018 *)
  | y :: r => Ok (outline :: shade, qmax_list y r)
  end))).
(** plotter.py:205-219, 516-523 *)
Definition noted_bars_panel (cfg : plot_config) (column : string) (flip summary : bool) (chains : list (chain * frame)) : logged (list call * option Q) :=
  lbind (lmapM (noted_bars cfg column flip summary) chains) (fun outs => silent (Ok (concat (map fst outs), tallest (map snd outs)))).
(** The panels of a grid, row by row *)
(** plotter.py:189-191 *)
Definition noted_grid {A} (rows cols : list string) (f : nat -> nat -> string -> string -> logged A) : logged (list (list A)) :=
  lmapM (fun ip => lmapM (fun jp => f (fst ip) (fst jp) (snd ip) (snd jp)) (combine (seq 0 (length cols)) cols))
        (combine (seq 0 (length rows)) rows).

Variable kde2 : list Q -> list Q -> list Q -> Q -> Q * Q -> Q.
Variable argsort : list Q -> list nat.
Variable Phi : R -> R.
Variable filled : string -> bool.
Variable offset : dir -> nat -> nat -> string.
(** plotter.py:193-229: the calls of [plot] on panel (i, j); only the panels on the diagonal log. *)
Definition noted_plot_panel (cfg : plot_config) (truths : list truth) (b : plot_base) (i j : nat) (p1 p2 : string) : logged (list call * dict draw) :=
  if (i <? j)%nat then silent (Ok ([], []))                                        (* 191-192 *)
  else
    let do_flip := flipped cfg b && (i =? length (params_x cfg (pb_columns b)) - 1)%nat in   (* 194 *)
    let summarise := p_summarise cfg && (length (filter (fun cf => ch_cfg (fst cf) Fplot_contour) (pb_chains b)) =? 1)%nat in   (* 185-186 *)
    if p_plot_hists cfg && (i =? j)%nat then                                       (* 197 *)
      lbind (noted_bars_panel cfg p1 do_flip (summarise && negb (smem p1 (pb_blind b)))
               (filter (fun cf => ch_cfg (fst cf) Fplot_contour && f_has (snd cf) p1) (pb_chains b))) (fun bars =>   (* 205-219 *)
      silent (Ok ((if do_flip then plot_truths filled truths None (Some p1) else plot_truths filled truths (Some p1) None) ++   (* 198-201 *)
          fst bars ++
          match snd bars with Some m => [Limits (if do_flip then AX else AY) 0 ((11 # 10) * m)%Q] | None => [] end, [])))   (* 221-225 *)
    else silent (plot_panel num kde2 argsort Phi filled cfg truths b i j p1 p2).   (* 228-229 *)
(** plotter.py:174-282 plot, after _sanitise *)
Definition noted_plot_figure (cfg : plot_config) (truths : list truth) (b : plot_base) (figsize : figsize_arg) (file : filename_arg) : logged figure :=
  let cols := pb_columns b in
  let n := triangle_size cfg cols in
  let show_legend := dflt (1 <? length (pb_chains b))%nat (p_show_legend cfg) in   (* 174-176 *)
  let has_cax := existsb (fun cf => match ch_cfg (fst cf) Fcolor_param with Some _ => true | None => false end) (pb_chains b) in   (* 178 *)
  let size := get_size figsize (length cols) has_cax in                            (* 179 *)
  lbind (silent (triangle_figure cfg b size)) (fun base_axes =>                    (* 182 *)
  lbind (noted_grid (params_x cfg cols) (params_y cfg cols) (noted_plot_panel cfg truths b)) (fun panels =>   (* 189-229 *)
  let paths := fold_left (fun acc row => fold_left (fun acc p => dmerge acc (snd p)) row acc) panels [] in   (* 188, 228 *)
  silent (rbind (if show_legend then rmap Some (make_legend cfg b) else Ok None) (fun leg =>   (* 253 *)
  Ok {| fg_size := size;
        fg_axes := mapij (relabel offset n) (zip_axes base_axes panels);           (* 267-274 *)
        fg_bars := map (fun kv => (bar_label cfg (fst kv), snd kv)) paths;         (* 232-246 *)
        fg_legend := leg;
        fg_watermark := add_watermark cfg (if flipped cfg b && (length cols =? 2)%nat then Some ((n - 1)%nat, 0%nat) else None);   (* 276-278 *)
        fg_saved := saved_files cfg file |})))).                                   (* 280 *)

(** plotter.py:496-526: one panel of the distributions *)
Definition noted_distribution (cfg : plot_config) (truths : list truth) (b : plot_base) (summary : bool) (p : string) : logged (list call) :=
  let log := smem p (pb_logs b) in let blind := smem p (pb_blind b) in
  lbind (silent (match dget p (pb_extents b) with
         | Some e => set_limits AX (Some e)
         | None => rbind (get_parameter_extents num true p (pb_chains b) None) (fun e => set_limits AX (Some e))
         end)) (fun xlim =>                                                        (* 513 *)
  lbind (noted_bars_panel cfg p false (summary && negb blind)
           (filter (fun cf => ch_cfg (fst cf) Fplot_contour && smem p (plotting_columns (fst cf) (snd cf))) (pb_chains b))) (fun bars =>   (* 515-523 *)
  silent (match snd bars with
  | None => Err ValueError                                                         (* 525 *)
  | Some m =>
      Ok ([NoTicks AY] ++ (if log then [LogScale AX] else []) ++                   (* 498-500 *)
          (if blind then [NoTicks AX] else [Locator AX log (p_max_ticks cfg)]) ++  (* 501-512 *)
          xlim ++ fst bars ++ plot_truths filled truths None (Some p) ++           (* 524 *)
          [Limits AY 0 ((11 # 10) * m)%Q; AxisLabel AX p])                         (* 525-526 *)
  end))).
(** plotter.py:472-530 plot_distributions, after _sanitise *)
Definition noted_distributions_figure (cfg : plot_config) (truths : list truth) (b : plot_base) (col_wrap : Z) (figsize : size_arg) (file : filename_arg) : logged figure :=
  let n := length (pb_columns b) in
  if (col_wrap =? 0)%Z then silent (Err ZeroDivisionError)                         (* 474 *)
  else
    let num_cols := Z.min (Z.of_nat n) col_wrap in                                 (* 473 *)
    let num_rows := (- ((- Z.of_nat n) / col_wrap))%Z in                           (* 474 *)
    let scaled q := ((inject_Z num_cols * (5 # 2) * q)%Q, (inject_Z num_rows * (5 # 2) * q)%Q) in
    let size := match figsize with SizeNone => scaled 1 | SizeNum q => scaled q | SizePair w h => (w, h) end in   (* 476-482 *)
    if match figsize with SizeNum q => Qeq_bool q 0 | _ => false end then silent (Err ZeroDivisionError)   (* 485 *)
    else
      let summary := p_summarise cfg && (length (pb_chains b) =? 1)%nat in         (* 484 *)
      lbind (silent (subplots (Z.to_nat num_rows) (Z.to_nat num_cols) size)) (fun _ =>   (* 486 *)
      lbind (lmapM (noted_distribution cfg truths b summary) (pb_columns b)) (fun panels =>
      let spare := repeat [AxisOff] (Z.to_nat num_rows * Z.to_nat num_cols - n)%nat in   (* 493-495 *)
      silent (Ok {| fg_size := size; fg_axes := rows_of (Z.to_nat num_rows) (Z.to_nat num_cols) (panels ++ spare);
            fg_bars := []; fg_legend := None; fg_watermark := add_watermark cfg None; fg_saved := saved_files cfg file |}))).   (* 528-529 *)

(** plotter.py:634-672: the panel of chain i and column p *)
Definition noted_summary_panel (cfg : plot_config) (truths : list truth) (b : plot_base) (errorbar : bool) (i : nat) (cf : chain * frame) (colour p : string) : logged (list call * option Q) :=
  let last_row := negb (i <? length (pb_chains b) - 1)%nat in
  lbind (silent (set_limits AX (dget p (pb_extents b)))) (fun xlim =>              (* 643 *)
  let frame_calls :=
    (if (0 <? i)%nat then [SpineOff true] else []) ++ (if last_row then [] else [SpineOff false]) ++   (* 636-639 *)
    (if negb last_row || smem p (pb_blind b) then [NoTicks AX] else []) ++ [NoTicks AY] ++ xlim ++     (* 640-643 *)
    (if smem p (pb_logs b) then [LogScale AX] else []) ++                          (* 644-645 *)
    (if (i =? 0)%nat then [Title (label_of cfg p)] else []) ++                     (* 648-649 *)
    flat_map (fun t => match dget p (t_location t) with Some v => [VLine v (truth_line t)] | None => [] end) truths in   (* 652-655 *)
  if negb (smem p (data_columns (fst cf) (snd cf))) then silent (Ok (frame_calls, None))   (* 658-659 *)
  else if errorbar then
    lbind (noted_parameter_summary num (fst cf) (snd cf) p) (fun fv =>             (* 663 *)
    silent (Ok (frame_calls ++ match b_lower fv, b_center fv, b_upper fv with
                       | Some l, Some c, Some u => [ErrorBar c (Qabs (c - l)) (Qabs (u - c)) colour]   (* 664-668 *)
                       | _, _, _ => []
                       end, None)))
  else lbind (noted_bars cfg p false false cf) (fun o => silent (Ok (frame_calls ++ fst o, Some (snd o))))).   (* 670 *)
(** plotter.py:614-632: a row *)
Definition noted_summary_row (cfg : plot_config) (truths : list truth) (b : plot_base) (errorbar : bool) (icf : nat * (chain * frame)) : logged (list (list call * option Q)) :=
  let '(i, cf) := icf in
  lbind (silent (chain_colour (fst cf))) (fun colour =>                            (* 616 *)
  lbind (lmapM (noted_summary_panel cfg truths b errorbar i cf colour) (pb_columns b)) (fun ps =>
  silent (Ok (([AxisOff; NameText (ch_name (fst cf)) (if p_legend_color_text cfg then colour else "k")], None) :: ps)))).   (* 619-631 *)
Variable text_width : string -> Q.
(** plotter.py:584-682 plot_summary, after _sanitise *)
Definition noted_summary_figure (cfg : plot_config) (truths : list truth) (b : plot_base) (figsize : Q) (errorbar : bool)
  (extra_parameter_spacing vertical_spacing_ratio : Q) (file : filename_arg) : logged figure :=
  lbind (silent (size_of_texts text_width (pb_columns b))) (fun max_param =>       (* 586 *)
  lbind (silent (size_of_texts text_width (map (fun cf => ch_name (fst cf)) (pb_chains b)))) (fun max_model =>   (* 589 *)
  let param_width := (extra_parameter_spacing + qmax (1 # 2) (max_param / 65))%Q in   (* 588 *)
  let model_width := ((1 # 4) + max_model / 65)%Q in                               (* 590 *)
  let width := (param_width * nq (length (pb_columns b)) + model_width)%Q in       (* 599 *)
  let height := ((1 # 2) + (if errorbar then (1 # 2) else (4 # 5)) * vertical_spacing_ratio * nq (length (pb_chains b)))%Q in   (* 598, 600 *)
  if Qeq_bool height 0 then silent (Err ZeroDivisionError)                         (* 601 *)
  else
    let size := ((width * figsize)%Q, (height * figsize)%Q) in                     (* 604 *)
    lbind (silent (subplots (length (pb_chains b)) (1 + length (pb_columns b)) size)) (fun _ =>   (* 605 *)
    lbind (lmapM (noted_summary_row cfg truths b errorbar) (combine (seq 0 (length (pb_chains b))) (pb_chains b))) (fun rows =>   (* 614-672 *)
    silent (rbind (if errorbar then Ok (map (map fst) rows)
           else rmapM (fun row => scale_row (pb_columns b) (max_vals (pb_columns b) rows) (map fst row)) rows) (fun axes =>   (* 674-677 *)
    Ok {| fg_size := size; fg_axes := axes; fg_bars := []; fg_legend := None;
          fg_watermark := add_watermark cfg None; fg_saved := saved_files cfg file |})))))).   (* 679-680 *)

Variable kde1 : list Q -> list Q -> Q -> Q -> Q.
Variable points : nat.
Variable str_center : option Q -> string.
(** plotting/contours.py:68-178 plot_dist *)
Definition noted_dist (cfg : plot_config) (c : chain) (f : frame) (px : string) (summary : bool) : logged (list dist_call) :=
  lbind (silent (dist_outline num kde1 points c f px)) (fun out =>
  let '(outline, xs, ys) := out in
  if ((ch_cfg c Fshade : bool) && alpha_positive (ch_cfg c Fshade_alpha)) || summary then   (* 142 *)
    lbind (noted_parameter_summary num c f px) (fun fit =>                         (* 145-146 *)
    silent (rbind (dist_shade c fit xs ys) (fun shade =>
    rbind (if summary then dist_title str_center px fit else Ok []) (fun title =>
    Ok (outline :: shade ++ title)))))
  else silent (Ok [outline])).
End noted_figures.

(** Every plotting call: _sanitise, which logs nothing, then the figure. *)
(** plotter.py:714-734 and the four figures *)
Definition noted_base (num : numerics) (s : session) (chains : chain_request) (columns : option (list string)) (wide : bool)
  (k : plot_config -> list truth -> plot_base -> logged figure) : session * logged figure :=
  let cfg := config_in_use (s_plotter s) in
  let '(w1, rc1, rb) := sanitise num cfg (s_world s) (s_rc s) chains columns wide in
  ({| s_world := w1; s_truths := s_truths s; s_plotter := s_plotter s; s_rc := rc1 |}, lbind (silent rb) (k cfg (s_truths s))).
(** plotter.py:138-282, 430-530, 532-682; plot_walks (291-428) asks for no summary and logs nothing. *)
Definition noted_plot (k : backend) (s : session) (chains : chain_request) (columns : option (list string)) (file : filename_arg) (figsize : figsize_arg) : session * logged figure :=
  noted_base (bk_num k) s chains columns true (fun cfg ts b =>
    noted_plot_figure (bk_num k) (bk_kde2 k) (bk_argsort k) (bk_Phi k) (bk_filled k) (bk_offset k) cfg ts b figsize file).
(** plotter.py:430-530 *)
Definition noted_plot_distributions (k : backend) (s : session) (chains : chain_request) (columns : option (list string)) (file : filename_arg) (col_wrap : Z) (figsize : size_arg) : session * logged figure :=
  noted_base (bk_num k) s chains columns true (fun cfg ts b =>
    noted_distributions_figure (bk_num k) (bk_filled k) cfg ts b col_wrap figsize file).
(** plotter.py:532-682 *)
Definition noted_plot_summary (k : backend) (s : session) (chains : chain_request) (columns : option (list string)) (file : filename_arg) (figsize : Q)
  (errorbar : bool) (extra_parameter_spacing vertical_spacing_ratio : Q) : session * logged figure :=
  noted_base (bk_num k) s chains columns (negb errorbar) (fun cfg ts b =>
    noted_summary_figure (bk_num k) (bk_text_width k) cfg ts b figsize errorbar extra_parameter_spacing vertical_spacing_ratio file).
