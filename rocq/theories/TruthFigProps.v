(** C113: truths change nothing but the lines and markers drawn for them. *)
From Coq Require Import String List Bool Arith ZArith QArith Reals Lia.
From Verif Require Import Py NumSpec NumModel HelpersSpec ColorModel HelpersModel MarginalModel FrameModel ConfigModel ChainModel RegistryModel RegistrySpec RegistryProps ChainSpec TextModel AnalysisModel EquivSpec EquivFacts SurfaceModel SurfaceProofs FigureModel FigureSpec FigureProofs FigureCases ConsumerSpec TruthFigSpec TruthFigProofs.
Import ListNotations.
Open Scope string_scope.
Open Scope list_scope.

(** Two sessions with the same chains and plotting configuration, whatever their truths: each figure is drawn in both, and
    is the same apart from truth lines and markers, or raises the same exception in both. *)
Theorem C113_truths : forall k s s' d, s_world s' = s_world s -> s_plotter s' = s_plotter s -> agree same_but_truths (snd (draw_figure k s d)) (snd (draw_figure k s' d)).
Proof.
  intros k s s' d EW EP.
  assert (B : forall req columns wide f, (forall cfg b, rrel same_but_truths (f cfg (s_truths s) b) (f cfg (s_truths s') b)) -> rrel same_but_truths (snd (with_base (bk_num k) s req columns wide f)) (snd (with_base (bk_num k) s' req columns wide f))).
  { intros req columns wide f F. unfold with_base, sanitise. rewrite EP, EW. destruct (sanitise_chains (s_world s) req false) as [w1 [locs|e]]; [|reflexivity].
    destruct (rmapM (ref_object (fst w1)) (map ByChain locs)) as [final|e]; [|reflexivity]. destruct (get_custom_extents _ _ _ _ _) as [ext|e]; [|reflexivity]. cbn [snd rbind]. apply F. }
  destruct d as [r c f z|r c f z cv w p l|r c f w z|r c f z e sp vr]; cbn [draw_figure]; [unfold plot|unfold plot_walks|unfold plot_distributions|unfold plot_summary]; apply B; clear; intros cfg b; [apply figure_alike|apply walks_alike|apply distributions_alike|apply summary_alike].
Qed.
Print Assumptions C113_truths.
(** In particular, ranges do not follow truths: every limit set on an axis is the same. *)
Theorem C113_ranges : forall k s s' d t t' fig fig', s_world s' = s_world s -> s_plotter s' = s_plotter s -> draw_figure k s d = (t, Ok fig) -> draw_figure k s' d = (t', Ok fig') ->
  forall i j calls, axis fig i j calls -> exists calls', axis fig' i j calls' /\ forall dir, current_limits dir calls' = current_limits dir calls.
Proof.
  intros k s s' d t t' fig fig' EW EP H H' i j calls [row [R C]]. pose proof (C113_truths k s s' d EW EP) as A. rewrite H, H' in A. cbn [snd agree] in A. destruct A as [_ [A _]].
  assert (X : nth_error (map (map without_truths) (fg_axes fig')) i = Some (map without_truths row)) by (rewrite A; apply map_nth_error; exact R).
  destruct (nth_error (fg_axes fig') i) as [row'|] eqn:R'; [|apply nth_error_None in R'; assert (N : nth_error (map (map without_truths) (fg_axes fig')) i = None) by (apply nth_error_None; rewrite map_length; exact R'); rewrite N in X; discriminate X].
  rewrite (map_nth_error _ _ _ R') in X. injection X as X. assert (Y : nth_error (map without_truths row') j = Some (without_truths calls)) by (rewrite X; apply map_nth_error; exact C).
  destruct (nth_error row' j) as [calls'|] eqn:C'; [|apply nth_error_None in C'; assert (N : nth_error (map without_truths row') j = None) by (apply nth_error_None; rewrite map_length; exact C'); rewrite N in Y; discriminate Y].
  rewrite (map_nth_error _ _ _ C') in Y. injection Y as Y. exists calls'. split; [exists row'; auto|]. intros dir.
  assert (E : forall l u, fold_left (tick_step dir) l u = fold_left (tick_step dir) (without_truths l) u).
  { clear. induction l as [|c l IH]; intros u; [reflexivity|]. unfold without_truths. cbn [fold_left filter]. destruct c; cbn [not_truth]; try exact (IH _); cbn [fold_left]; exact (IH _). }
  unfold current_limits, final_ticks. rewrite (E calls), (E calls'), Y. reflexivity.
Qed.
Print Assumptions C113_ranges.
(** A session with the truths of the examples and the same session without: both triangles are drawn, their axes differ. *)
Example C113_nonvacuous : let s := fig_pair (fig_cfg false true BlindNone []) in let s' := {| s_world := s_world s; s_truths := []; s_plotter := s_plotter s; s_rc := s_rc s |} in let d := DTriangle ReqAll (Some ["x"; "y"]) FileNone FColumn in
  s_truths s <> [] /\ match snd (draw_figure ex_backend s d), snd (draw_figure ex_backend s' d) with Ok fig, Ok fig' => fg_axes fig <> fg_axes fig' /\ fg_size fig = fg_size fig' | _, _ => False end.
Proof. cbv zeta. split; [vm_compute; intros H; discriminate H|]. vm_compute. split; [intros H; discriminate H|reflexivity]. Qed.
