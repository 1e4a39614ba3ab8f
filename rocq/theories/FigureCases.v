(** Sessions for the examples about figures. *)
From Coq Require Import String List Bool Arith ZArith QArith.
From Verif Require Import Py NumModel ColorModel HelpersModel MarginalModel FrameModel ConfigModel ChainModel RegistryModel RegistrySpec RegistryProps TextModel AnalysisModel AnalysisProps SurfaceModel SurfaceProofs SurfaceProps FigureModel.
Import ListNotations.
Open Scope string_scope.
Open Scope list_scope.

Definition ex_backend : backend := {| bk_num := ex34_num; bk_kde2 := ex43_kde2; bk_argsort := sorted_argsort; bk_Phi := logistic; bk_filled := fun m => String.eqb m "o";
  bk_offset := fun d i j => match d with AX => if (i =? 0)%nat then "" else "1e3" | AY => "" end; bk_log10 := fun x => x; bk_max_points := 2; bk_text_width := fun s => inject_Z (Z.of_nat (String.length s)) |}.
Definition fig_f1 : frame := {| f_index := [LInt 0; LInt 1; LInt 2]; f_cols := [(CStr "x", [Fin 0; Fin 1; Fin 2]); (CStr "y", [Fin 4; Fin 2; Fin 6]); (CStr "z", [Fin 1; Fin 3; Fin 2]); (CStr "log_posterior", [Fin (-3); Fin (-1); Fin (-2)])] |}.
Definition fig_f2 : frame := {| f_index := [LInt 0; LInt 1; LInt 2]; f_cols := [(CStr "x", [Fin 3; Fin 4; Fin 5]); (CStr "y", [Fin 4; Fin 2; Fin 6])] |}.
Definition fig_heap : heap := {| h_frames := [fig_f1; fig_f2]; h_chains := [] |}.
(** Two chains A (x, y, z) and B (x, y). *)
Definition fig_rc : rc_params := {| rc_usetex := false; rc_family := ["cursive"]; rc_other := [] |}.
Definition fig_world (k1 k2 : kwargs) : world := fst (run ex_rgb (fig_heap, new_consumer) [OpNewChain (ex34_args "A" 0 k1); OpNewChain (ex34_args "B" 1 k2); OpAdd 0; OpAdd 1]).
Lemma fig_reachable k1 k2 : reachable ex_rgb (fig_world k1 k2).
Proof. eexists fig_heap, _. eexists. apply surjective_pairing. Qed.
Definition fig_session (k1 k2 : kwargs) (truths : list truth) (cfg : plot_config) : session :=
  set_plot_config {| s_world := fig_world k1 k2; s_truths := truths; s_plotter := new_plotter fig_rc; s_rc := fig_rc |} cfg.
Definition fig_cfg (flip hists : bool) (blind : blind_opt) (logs : list string) : plot_config := {|
  p_labels := [("x", "$x$")]; p_max_ticks := 5; p_plot_hists := hists; p_flip := flip; p_serif := None; p_usetex := Some true; p_label_font_size := 12; p_spacing := None;
  p_show_legend := None; p_legend_kwargs := [("loc", VStr "best")]; p_legend_location := None; p_legend_artists := None; p_legend_color_text := true;
  p_watermark := Some "Draft"; p_watermark_text_kwargs := []; p_summarise := true; p_sigma2d := false; p_blind := blind; p_log_scales := logs; p_extents := [("y", (2, 6)%Q)]; p_dpi := 200 |}.
Definition fig_truth (loc : dict Q) (m : option string) : truth := {| t_location := loc; t_name := None; t_color := CName "black"; t_edge_color := None; t_line_width := 1; t_line_style := "--"; t_alpha := 1; t_zorder := 100;
  t_marker := m; t_marker_size := 20; t_marker_edge_width := 1 |}.
Definition fig_truths : list truth := [fig_truth [("x", 1)] None; fig_truth [("x", 2); ("y", 3)] (Some "o"); fig_truth [("q", 2)] None]%Q.
(** Both chains draw points only, A's coloured by z. *)
Definition cloud_kw : kwargs := kset (kset no_kw Fplot_contour false) Fplot_cloud true.
Definition cloud_z : kwargs := kset cloud_kw Fcolor_param (Some "z").
Definition fig_pair := fig_session cloud_z cloud_kw fig_truths.
(** A draws contours, B points only. *)
Definition fig_mixed := fig_session (kset no_kw Fsmooth (Some 0%Z)) cloud_kw fig_truths.
(** As [fig_session], where B has two samples only. *)
Definition short_f2 : frame := {| f_index := [LInt 0; LInt 1]; f_cols := [(CStr "x", [Fin 3; Fin 4]); (CStr "y", [Fin 4; Fin 2])] |}.
Definition short_world : world := fst (run ex_rgb ({| h_frames := [fig_f1; short_f2]; h_chains := [] |}, new_consumer) [OpNewChain (ex34_args "A" 0 cloud_kw); OpNewChain (ex34_args "B" 1 cloud_kw); OpAdd 0; OpAdd 1]).
Lemma short_reachable : reachable ex_rgb short_world.
Proof. eexists {| h_frames := [fig_f1; short_f2]; h_chains := [] |}, _. eexists. apply surjective_pairing. Qed.
Definition short_session : session := {| s_world := short_world; s_truths := fig_truths; s_plotter := new_plotter fig_rc; s_rc := fig_rc |}.
