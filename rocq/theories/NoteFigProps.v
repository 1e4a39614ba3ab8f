(** C108: distributions drawn without an interval are announced. *)
From Coq Require Import String List Bool Arith ZArith QArith Lia.
From Verif Require Import Py NumModel ColorModel HelpersModel MarginalModel FrameModel ConfigModel ChainModel RegistryModel TextModel AnalysisModel SurfaceModel FigureModel PlotDistModel WarnModel NoteModel VerdictModel
  ChainSpec RegistrySpec AnalysisSpec ReportSpec FigureSpec NoteSpec NoteFigModel NoteFigSpec HeapFacts RegistryProofs RegistryProps ChainProofs AnalysisProofs AnalysisProps BarProofs NoteProofs NoteProps VerdictProofs ConsumerProofs KeywordSpec KeywordProps FigureCases NoteFigProofs.
Import ListNotations.
Open Scope string_scope.
Open Scope list_scope.

(** The functions that log are the functions of the other theorems. *)
Theorem C108_results : forall k s req columns file,
  (forall size, fst (noted_plot k s req columns file size) = fst (plot k s req columns file size) /\ snd (snd (noted_plot k s req columns file size)) = snd (plot k s req columns file size)) /\
  (forall wrap size, fst (noted_plot_distributions k s req columns file wrap size) = fst (plot_distributions k s req columns file wrap size) /\
    snd (snd (noted_plot_distributions k s req columns file wrap size)) = snd (plot_distributions k s req columns file wrap size)) /\
  (forall size errorbar es vs, fst (noted_plot_summary k s req columns file size errorbar es vs) = fst (plot_summary k s req columns file size errorbar es vs) /\
    snd (snd (noted_plot_summary k s req columns file size errorbar es vs)) = snd (plot_summary k s req columns file size errorbar es vs)).
Proof.
  intros k s req columns file. repeat split; unfold noted_plot, plot, noted_plot_distributions, plot_distributions, noted_plot_summary, plot_summary; apply noted_base_result; intros;
    [apply noted_figure_result|apply noted_figure_result|apply noted_distributions_result|apply noted_distributions_result|apply noted_summary_figure_result|apply noted_summary_figure_result].
Qed.
Print Assumptions C108_results.
(** The columns and the configuration of a figure *)
Lemma asked_cols columns l cols : AnalysisSpec.asked columns l cols -> sanitise_columns columns l = cols.
Proof. intros A. pose proof (asked_columns columns l) as B. destruct columns as [c|]; cbn [AnalysisSpec.asked] in A, B; [congruence|]. exact (first_seen_fun _ _ B _ A). Qed.
Lemma config_used s cfg : config_of s cfg -> config_in_use (s_plotter s) = cfg.
Proof. unfold config_of, given, config_in_use, dflt. destruct (pl_config (s_plotter s)); congruence. Qed.
Lemma same_contents w req l final : shown w req false l -> contents w req false = Ok final -> final = l.
Proof. intros S C. apply shown_contents in S. congruence. Qed.
(** [plot]: panel by panel down the diagonal, of each chain drawn there in order, one warning if its distribution is to
    be shaded and there is no interval; without the diagonal, none. *)
Theorem C108_triangle : forall k s req columns file size s' ws fig cfg l cols, noted_plot k s req columns file size = (s', (ws, Ok fig)) ->
  config_of s cfg -> shown (s_world s) req false l -> AnalysisSpec.asked columns l cols ->
  (p_plot_hists cfg = true -> exists parts, ws = concat parts /\ Forall2 (panel_warned (bk_num k) draws_bars l) cols parts) /\ (p_plot_hists cfg = false -> ws = []).
Proof.
  intros k s req columns file size s' ws fig cfg l cols H C S A. apply noted_base_ok in H as [final [ext [E H]]]. apply (same_contents _ _ _ _ S) in E. subst final. apply asked_cols in A. subst cols. apply config_used in C. subst cfg.
  apply noted_figure_ok in H. exact H.
Qed.
Print Assumptions C108_triangle.
(** [plot_distributions]: column by column, of the chains that plot it. *)
Theorem C108_distributions : forall k s req columns file wrap size s' ws fig l cols, noted_plot_distributions k s req columns file wrap size = (s', (ws, Ok fig)) ->
  shown (s_world s) req false l -> AnalysisSpec.asked columns l cols -> exists parts, ws = concat parts /\ Forall2 (panel_warned (bk_num k) draws_plotted l) cols parts.
Proof.
  intros k s req columns file wrap size s' ws fig l cols H S A. apply noted_base_ok in H as [final [ext [E H]]]. apply (same_contents _ _ _ _ S) in E. subst final. apply asked_cols in A. subst cols. apply noted_distributions_ok in H. exact H.
Qed.
Print Assumptions C108_distributions.
(** [plot_summary]: chain by chain and column by column; with error bars also of the chains whose distributions are not shaded. *)
Theorem C108_summary : forall k s req columns file size errorbar es vs s' ws fig l cols, noted_plot_summary k s req columns file size errorbar es vs = (s', (ws, Ok fig)) ->
  shown (s_world s) req false l -> AnalysisSpec.asked columns l cols -> exists parts, ws = concat parts /\ Forall2 (row_warned (bk_num k) errorbar cols) l parts.
Proof.
  intros k s req columns file size errorbar es vs s' ws fig l cols H S A. apply noted_base_ok in H as [final [ext [E H]]]. apply (same_contents _ _ _ _ S) in E. subst final. apply asked_cols in A. subst cols. apply noted_summary_figure_ok in H. exact H.
Qed.
Print Assumptions C108_summary.
(** [plot_dist]: one warning if its summary is wanted, for the shading or the title, and has no interval. *)
Theorem C108_dist : forall num kde1 points str_center cfg c f px summary ws calls, noted_dist num kde1 points str_center cfg c f px summary = (ws, Ok calls) ->
  plot_dist num kde1 points str_center cfg c f px summary = Ok calls /\
  let wanted := (ch_cfg c Fshade = true /\ alpha_positive (ch_cfg c Fshade_alpha) = true) \/ summary = true in
  (wanted -> summary_warned num px (c, f) ws) /\ (~ wanted -> ws = []).
Proof.
  intros num kde1 points sc cfg c f px summary ws calls H. unfold noted_dist in H. apply lbind_ok in H as [w1 [[[o xs] ys] [w2 [E1 [H ->]]]]]. apply silent_ok in E1 as [-> E1]. cbn [app]. unfold plot_dist. rewrite E1. cbn [rbind]. cbv zeta.
  assert (W : ((ch_cfg c Fshade : bool) && alpha_positive (ch_cfg c Fshade_alpha)) || summary = true <-> (ch_cfg c Fshade = true /\ alpha_positive (ch_cfg c Fshade_alpha) = true) \/ summary = true) by (rewrite orb_true_iff, andb_true_iff; reflexivity).
  destruct (((ch_cfg c Fshade : bool) && alpha_positive (ch_cfg c Fshade_alpha)) || summary).
  - apply lbind_ok in H as [w3 [b [w4 [E2 [H ->]]]]]. apply silent_ok in H as [-> H]. rewrite app_nil_r. destruct (noted_parameter_ok _ _ _ _ _ _ E2) as [G D]. rewrite G. cbn [rbind]. split; [exact H|]. split; [intros _; exists b; split; [exact G|exact D]|]. intros N. exfalso. apply N, W. reflexivity.
  - apply silent_ok in H as [-> H]. split; [exact H|]. split; [intros K; apply W in K; discriminate|reflexivity].
Qed.
Print Assumptions C108_dist.
(** Chain A has no interval for x and one for y; chain B, which shows narrowest intervals, has both. *)
Definition ex108_backend : backend := {| bk_num := ex104_num; bk_kde2 := bk_kde2 ex_backend; bk_argsort := bk_argsort ex_backend; bk_Phi := bk_Phi ex_backend;
  bk_filled := bk_filled ex_backend; bk_offset := bk_offset ex_backend; bk_log10 := bk_log10 ex_backend; bk_max_points := bk_max_points ex_backend; bk_text_width := bk_text_width ex_backend |}.
Definition ex108 : FigureModel.session := {| s_world := ex104; s_truths := fig_truths; s_plotter := new_plotter fig_rc; s_rc := fig_rc |}.
Definition ex108_fills (r : res figure) : nat := match r with Ok g => length (filter (fun c => match c with Fill _ _ _ _ _ _ _ _ => true | _ => false end) (concat (concat (fg_axes g)))) | Err _ => 0%nat end.
Definition ex108_seen (r : session * logged figure) : list string * nat := (fst (snd r), ex108_fills (snd (snd r))).
Example C108_nonvacuous : reachable ex_rgb (s_world ex108) /\
  ex108_seen (noted_plot ex108_backend ex108 ReqAll (Some ["x"]) FileNone FGrow) = (["Parameter x in chain A is not constrained"], 1%nat) /\
  ex108_seen (noted_plot_distributions ex108_backend ex108 ReqAll (Some ["x"; "y"]) FileNone 4 SizeNone) = (["Parameter x in chain A is not constrained"], 3%nat) /\
  ex108_seen (noted_plot_summary ex108_backend ex108 ReqAll (Some ["x"; "y"]) FileNone 1 true 1 1) = (["Parameter x in chain A is not constrained"], 0%nat).
Proof. split; [exact ex104_reachable|]. split; [|split]; vm_compute; reflexivity. Qed.
