(** C109: the values documented in chain.py:51-85 and plotting/config.py:10-49, written out. *)
From Coq Require Import String List Bool ZArith QArith.
From Verif Require Import Py MarginalModel ConfigModel TextModel AnalysisModel SurfaceModel FigureModel.
Import ListNotations.
Open Scope string_scope.
Open Scope list_scope.

(** [documented s v]: the documentation gives [v] for the setting [s].  (The statistic depends on [multimodal], see [C109_chain].) *)
Inductive documented : forall s : cfield, ctype s -> Prop :=
| doc_summary_area : documented Fsummary_area (6827 # 10000)
| doc_sigmas : documented Fsigmas [0; 1; 2]
| doc_color : documented Fcolor None
| doc_linestyle : documented Flinestyle "-"
| doc_linewidth : documented Flinewidth 1
| doc_show_contour_labels : documented Fshow_contour_labels false
| doc_shade : documented Fshade true
| doc_shade_alpha : documented Fshade_alpha (AQ (1 # 2))
| doc_shade_gradient : documented Fshade_gradient 1
| doc_bar_shade : documented Fbar_shade true
| doc_multimodal : documented Fmultimodal false
| doc_bins : documented Fbins None
| doc_kde : documented Fkde (KBool false)
| doc_smooth : documented Fsmooth None
| doc_color_param : documented Fcolor_param None
| doc_cmap : documented Fcmap "viridis"
| doc_num_cloud : documented Fnum_cloud 10000
| doc_plot_cloud : documented Fplot_cloud false
| doc_plot_contour : documented Fplot_contour true
| doc_plot_point : documented Fplot_point false
| doc_marker_style : documented Fmarker_style "."
| doc_marker_size : documented Fmarker_size 10
| doc_marker_alpha : documented Fmarker_alpha 1
| doc_zorder : documented Fzorder 10%Z
| doc_shift_params : documented Fshift_params false.

(** A configuration that gives every documented value explicitly: no labels, ranges, logarithmic or blinded axes,
    five ticks, histograms, sans-serif fonts without LaTeX, size 12, automatic spacing and legend with coloured
    texts, no watermark, summaries as titles, one-dimensional sigmas, 300 dots per inch. *)
Definition documented_config : plot_config := {|
  p_labels := []; p_max_ticks := 5; p_plot_hists := true; p_flip := false; p_serif := Some false; p_usetex := Some false;
  p_label_font_size := 12; p_spacing := None; p_show_legend := None; p_legend_kwargs := []; p_legend_location := None;
  p_legend_artists := None; p_legend_color_text := true; p_watermark := None; p_watermark_text_kwargs := [];
  p_summarise := true; p_sigma2d := false; p_blind := BlindBool false; p_log_scales := []; p_extents := []; p_dpi := 300 |}.
