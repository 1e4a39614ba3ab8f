(** C112: what a figure shows of the data, and settings that leave it alone. *)
From Coq Require Import String List Bool ZArith QArith.
From Verif Require Import Py ConfigModel ChainModel SurfaceModel FigureModel.
Import ListNotations.

(** The calls on an axis that place data on it: everything but ticks and their kind, the kind of scale, axis labels, titles and names. *)
Definition places_data (c : call) : bool :=
  match c with NoTicks _ | LogScale _ | Locator _ _ _ | AxisLabel _ _ | Title _ | NameText _ _ => false | _ => true end.
Definition content (calls : list call) : list call := filter places_data calls.
(** Two figures show the same: size, the data on every axis, in the same order, what the colour bars are of, the files. *)
Definition same_content (fig fig' : figure) : Prop :=
  fg_size fig' = fg_size fig /\ map (map content) (fg_axes fig') = map (map content) (fg_axes fig) /\ map snd (fg_bars fig') = map snd (fg_bars fig) /\ map fst (fg_saved fig') = map fst (fg_saved fig).
(** All but watermark and resolution *)
Definition same_but_decoration (fig fig' : figure) : Prop :=
  fg_size fig' = fg_size fig /\ fg_axes fig' = fg_axes fig /\ fg_bars fig' = fg_bars fig /\ fg_legend fig' = fg_legend fig /\ map fst (fg_saved fig') = map fst (fg_saved fig).
(** [cfg] with other fonts, another or no watermark and another resolution *)
Definition redecorated (cfg : plot_config) (serif usetex : option bool) (watermark : option string) (kw : dict pyval) (dpi : Z) : plot_config := {|
  p_labels := p_labels cfg; p_max_ticks := p_max_ticks cfg; p_plot_hists := p_plot_hists cfg; p_flip := p_flip cfg; p_serif := serif; p_usetex := usetex;
  p_label_font_size := p_label_font_size cfg; p_spacing := p_spacing cfg; p_show_legend := p_show_legend cfg; p_legend_kwargs := p_legend_kwargs cfg; p_legend_location := p_legend_location cfg;
  p_legend_artists := p_legend_artists cfg; p_legend_color_text := p_legend_color_text cfg; p_watermark := watermark; p_watermark_text_kwargs := kw;
  p_summarise := p_summarise cfg; p_sigma2d := p_sigma2d cfg; p_blind := p_blind cfg; p_log_scales := p_log_scales cfg; p_extents := p_extents cfg; p_dpi := dpi |}.
