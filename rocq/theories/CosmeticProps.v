(** C112: settings of appearance leave the data alone. *)
From Coq Require Import String List Bool Arith ZArith QArith Reals Lia.
From Verif Require Import Py NumSpec NumModel HelpersSpec ColorModel HelpersModel MarginalModel FrameModel ConfigModel ChainModel RegistryModel RegistrySpec RegistryProps ChainSpec TextModel AnalysisModel EquivSpec SurfaceModel SurfaceProofs FigureModel FigureSpec FigureProofs FigureCases ConsumerSpec CosmeticSpec CosmeticProofs.
Import ListNotations.
Open Scope string_scope.
Open Scope list_scope.

Lemma in_use s cfg : config_of s cfg -> cfg = config_in_use (s_plotter s).
Proof. unfold config_of, config_in_use, ChainSpec.given. destruct (pl_config (s_plotter s)); cbn [dflt]; congruence. Qed.
(** [plot]: two sessions with the same chains and truths, whose configurations agree on whether histograms are drawn and
    turned, on the ranges and on the kind of sigma, and are otherwise free (labels, ticks, logarithmic axes, blinding,
    summaries, legend, fonts, spacing, watermark, resolution): wherever both figures are drawn, they show the same. *)
Theorem C112_triangle : forall k s s' cfg cfg' req columns file size t t' fig fig', s_world s' = s_world s -> s_truths s' = s_truths s -> config_of s cfg -> config_of s' cfg' ->
  p_plot_hists cfg' = p_plot_hists cfg -> p_flip cfg' = p_flip cfg -> p_sigma2d cfg' = p_sigma2d cfg -> p_extents cfg' = p_extents cfg ->
  plot k s req columns file size = (t, Ok fig) -> plot k s' req columns file size = (t', Ok fig') -> same_content fig fig'.
Proof.
  intros k s s' cfg cfg' req columns file size t t' fig fig' EW ET C C' E1 E2 E3 E4 H H'. apply in_use in C. apply in_use in C'. subst cfg cfg'. apply (f_equal snd) in H. apply (f_equal snd) in H'. cbn [snd] in H, H'. revert fig fig' H H'.
  unfold plot. apply base_alike; try assumption. intros b b' B. apply figure_alike; assumption.
Qed.
Print Assumptions C112_triangle.
(** The other figures: only the ranges need to be the same. *)
Theorem C112_walks : forall k s s' cfg cfg' req columns file size convolve pw pp lw t t' fig fig', s_world s' = s_world s -> s_truths s' = s_truths s -> config_of s cfg -> config_of s' cfg' -> p_extents cfg' = p_extents cfg ->
  plot_walks k s req columns file size convolve pw pp lw = (t, Ok fig) -> plot_walks k s' req columns file size convolve pw pp lw = (t', Ok fig') -> same_content fig fig'.
Proof.
  intros k s s' cfg cfg' req columns file size convolve pw pp lw t t' fig fig' EW ET C C' E4 H H'. apply in_use in C. apply in_use in C'. subst cfg cfg'. apply (f_equal snd) in H. apply (f_equal snd) in H'. cbn [snd] in H, H'. revert fig fig' H H'.
  unfold plot_walks. apply base_alike; try assumption. intros b b' B. apply walks_alike; assumption.
Qed.
Print Assumptions C112_walks.
Theorem C112_distributions : forall k s s' cfg cfg' req columns file wrap size t t' fig fig', s_world s' = s_world s -> s_truths s' = s_truths s -> config_of s cfg -> config_of s' cfg' -> p_extents cfg' = p_extents cfg ->
  plot_distributions k s req columns file wrap size = (t, Ok fig) -> plot_distributions k s' req columns file wrap size = (t', Ok fig') -> same_content fig fig'.
Proof.
  intros k s s' cfg cfg' req columns file wrap size t t' fig fig' EW ET C C' E4 H H'. apply in_use in C. apply in_use in C'. subst cfg cfg'. apply (f_equal snd) in H. apply (f_equal snd) in H'. cbn [snd] in H, H'. revert fig fig' H H'.
  unfold plot_distributions. apply base_alike; try assumption. intros b b' B. apply distributions_alike; assumption.
Qed.
Print Assumptions C112_distributions.
Theorem C112_summary : forall k s s' cfg cfg' req columns file size err es vs t t' fig fig', s_world s' = s_world s -> s_truths s' = s_truths s -> config_of s cfg -> config_of s' cfg' -> p_extents cfg' = p_extents cfg ->
  plot_summary k s req columns file size err es vs = (t, Ok fig) -> plot_summary k s' req columns file size err es vs = (t', Ok fig') -> same_content fig fig'.
Proof.
  intros k s s' cfg cfg' req columns file size err es vs t t' fig fig' EW ET C C' E4 H H'. apply in_use in C. apply in_use in C'. subst cfg cfg'. apply (f_equal snd) in H. apply (f_equal snd) in H'. cbn [snd] in H, H'. revert fig fig' H H'.
  unfold plot_summary. apply base_alike; try assumption. intros b b' B. apply summary_alike; assumption.
Qed.
Print Assumptions C112_summary.

(** Fonts, watermark and resolution: every figure is drawn, or raises, as without them, and is otherwise the same in
    every call, legend and colour bar. *)
Theorem C112_decoration : forall k s s' cfg serif usetex wm kw dpi d, s_world s' = s_world s -> s_truths s' = s_truths s -> config_of s cfg -> config_of s' (redecorated cfg serif usetex wm kw dpi) ->
  agree same_but_decoration (snd (draw_figure k s d)) (snd (draw_figure k s' d)).
Proof.
  intros k s s' cfg serif usetex wm kw dpi d EW ET C C'. apply in_use in C. apply in_use in C'.
  assert (B : forall req columns wide f, (forall ts b, agree same_but_decoration (f cfg ts b) (f (redecorated cfg serif usetex wm kw dpi) ts b)) ->
    agree same_but_decoration (snd (with_base (bk_num k) s req columns wide f)) (snd (with_base (bk_num k) s' req columns wide f))).
  { intros req columns wide f F. unfold with_base, sanitise. rewrite <- C', <- C, EW, ET. cbn [redecorated p_extents p_blind p_log_scales]. destruct (sanitise_chains (s_world s) req false) as [w1 [locs|e]]; [|reflexivity].
    destruct (rmapM (ref_object (fst w1)) (map ByChain locs)) as [final|e]; [|reflexivity]. destruct (get_custom_extents _ _ _ _ _) as [ext|e]; [|reflexivity]. cbn [snd rbind]. apply F. }
  set (cfg' := redecorated cfg serif usetex wm kw dpi) in *.
  destruct d as [r c f z|r c f z cv w p l|r c f w z|r c f z e sp vr]; cbn [draw_figure]; [unfold plot|unfold plot_walks|unfold plot_distributions|unfold plot_summary]; apply B; clear; intros ts b.
  - unfold plot_figure. cbv zeta. change (triangle_figure cfg') with (triangle_figure cfg). change (params_x cfg') with (params_x cfg). change (params_y cfg') with (params_y cfg). change (triangle_size cfg') with (triangle_size cfg).
    change (plot_panel (bk_num k) (bk_kde2 k) (bk_argsort k) (bk_Phi k) (bk_filled k) cfg') with (plot_panel (bk_num k) (bk_kde2 k) (bk_argsort k) (bk_Phi k) (bk_filled k) cfg). change (make_legend cfg') with (make_legend cfg). change (p_show_legend cfg') with (p_show_legend cfg).
    destruct (triangle_figure cfg b _); [|reflexivity]. cbn [rbind]. match goal with |- agree _ (rbind ?m _) _ => destruct m end; [|reflexivity]. cbn [rbind]. match goal with |- agree _ (rbind ?m _) _ => destruct m end; [|reflexivity]. cbn [rbind agree]. repeat split. apply saved_names.
  - unfold walks_figure. cbv zeta. change (posterior_row (bk_max_points k) cfg') with (posterior_row (bk_max_points k) cfg). change (weight_row (bk_log10 k) (bk_max_points k) cfg') with (weight_row (bk_log10 k) (bk_max_points k) cfg). change (column_row (bk_max_points k) cfg') with (column_row (bk_max_points k) cfg).
    destruct (subplots _ _ _); [|reflexivity]. cbn [rbind]. match goal with |- agree _ (rbind ?m _) _ => destruct m end; [|reflexivity]. cbn [rbind]. match goal with |- agree _ (rbind ?m _) _ => destruct m end; [|reflexivity]. cbn [rbind]. match goal with |- agree _ (rbind ?m _) _ => destruct m end; [|reflexivity]. cbn [rbind agree]. repeat split. apply saved_names.
  - unfold distributions_figure. cbv zeta. change (distribution_panel (bk_num k) (bk_filled k) cfg') with (distribution_panel (bk_num k) (bk_filled k) cfg). change (p_summarise cfg') with (p_summarise cfg). destruct (w =? 0)%Z; [reflexivity|]. destruct (match z with SizeNum q => Qeq_bool q 0 | _ => false end); [reflexivity|].
    destruct (subplots _ _ _); [|reflexivity]. cbn [rbind]. match goal with |- agree _ (rbind ?m _) _ => destruct m end; [|reflexivity]. cbn [rbind agree]. repeat split. apply saved_names.
  - unfold summary_figure. change (summary_row (bk_num k) cfg') with (summary_row (bk_num k) cfg). destruct (size_of_texts _ (pb_columns b)); [|reflexivity]. cbn [rbind]. match goal with |- agree _ (rbind ?m _) _ => destruct m end; [|reflexivity]. cbn [rbind]. cbv zeta. destruct (Qeq_bool _ 0); [reflexivity|].
    destruct (subplots _ _ _); [|reflexivity]. cbn [rbind]. match goal with |- agree _ (rbind ?m _) _ => destruct m end; [|reflexivity]. cbn [rbind]. match goal with |- agree _ (rbind ?m _) _ => destruct m end; [|reflexivity]. cbn [rbind agree]. repeat split. apply saved_names.
Qed.
Print Assumptions C112_decoration.

(** The same two chains, once with y blinded and a logarithmic x axis, once with neither: both triangles are drawn,
    their calls differ, what they show of the data does not, and it is not nothing. *)
Definition ex112 (blind : blind_opt) (logs : list string) : session * res figure := plot ex_backend (fig_pair (fig_cfg false true blind logs)) ReqAll (Some ["x"; "y"]) (FileOne "a.png") FColumn.
Example C112_nonvacuous : match snd (ex112 (BlindList ["y"]) ["x"]), snd (ex112 BlindNone []) with
  | Ok fig, Ok fig' => fg_axes fig <> fg_axes fig' /\ map (map content) (fg_axes fig) = map (map content) (fg_axes fig') /\ existsb (existsb (fun calls => 3 <? length (content calls))%nat) (fg_axes fig) = true
  | _, _ => False
  end.
Proof. vm_compute. repeat split. intros H. discriminate H. Qed.
Example C112_decorated_nonvacuous : let s := fig_pair (fig_cfg false true BlindNone []) in
  match snd (draw_figure ex_backend s (DSummary ReqAll (Some ["x"; "y"]) (FileOne "a.png") 1 true 1 1)), snd (draw_figure ex_backend (set_plot_config s (redecorated (fig_cfg false true BlindNone []) (Some true) None None [] 72)) (DSummary ReqAll (Some ["x"; "y"]) (FileOne "a.png") 1 true 1 1)) with
  | Ok fig, Ok fig' => fg_watermark fig <> fg_watermark fig' /\ fg_saved fig <> fg_saved fig' /\ fg_axes fig' = fg_axes fig
  | _, _ => False
  end.
Proof. vm_compute. repeat split; intros H; discriminate H. Qed.
