(** C106: distributions and summaries depend only on the weighted samples. *)
From Coq Require Import String List Bool Arith ZArith QArith Permutation Lia.
From Verif Require Import Py NumModel MarginalModel FrameModel ConfigModel ChainModel RegistryModel RegistrySpec RegistryProps TextModel AnalysisModel AnalysisSpec AnalysisProps SurfaceModel FigureModel FigureSpec FigureCases EquivSpec AxisEquivSpec
  KeywordSpec KeywordProps SessionProofs TextEquivSpec TextEquivProps FigEquivSpec FigEquivProofs.
From Verif Require ConsumerProofs.
Import ListNotations.
Open Scope string_scope.
Open Scope list_scope.

(** * C106 *)
(** Two sessions with the same truths and configuration show the same chains, their tables holding the same weighted
    samples of the columns asked for.  Then [plot_distributions] draws the same figure - curves, bars, shaded intervals,
    titles and axis limits - or raises the same exception. *)
Theorem C106_distributions : forall k s s' req req' columns file wrap size l l' cols, s_plotter s' = s_plotter s -> s_truths s' = s_truths s ->
  shown (s_world s) req false l -> shown (s_world s') req' false l' -> asked columns l cols -> Forall2 (drawn_alike (bk_num k) cols) l l' ->
  agree same_figure (snd (plot_distributions k s req columns file wrap size)) (snd (plot_distributions k s' req' columns file wrap size)).
Proof.
  intros k s s' req req' columns file wrap size l l' cols EP ET S S' A F. apply shown_contents in S, S'. unfold plot_distributions. apply (base_rel (bk_num k) s s' req req' columns true l l' _ EP ET S S'); [exact (asked_alike _ _ _ _ _ A F)|].
  intros cfg ts b b' BA. eapply distributions_rel. exact BA.
Qed.
Print Assumptions C106_distributions.
(** The same for [plot_summary], with distributions or error bars. *)
Theorem C106_summary : forall k s s' req req' columns file size errorbar es vs l l' cols, s_plotter s' = s_plotter s -> s_truths s' = s_truths s ->
  shown (s_world s) req false l -> shown (s_world s') req' false l' -> asked columns l cols -> Forall2 (drawn_alike (bk_num k) cols) l l' ->
  agree same_figure (snd (plot_summary k s req columns file size errorbar es vs)) (snd (plot_summary k s' req' columns file size errorbar es vs)).
Proof.
  intros k s s' req req' columns file size errorbar es vs l l' cols EP ET S S' A F. apply shown_contents in S, S'. unfold plot_summary. apply (base_rel (bk_num k) s s' req req' columns (negb errorbar) l l' _ EP ET S S'); [exact (asked_alike _ _ _ _ _ A F)|].
  intros cfg ts b b' BA. eapply summary_rel. exact BA.
Qed.
Print Assumptions C106_summary.
(** Shuffling the rows of every table leaves both figures as they were, if no chain is drawn as a point only. *)
Theorem C106_shuffled : forall rgb2hex plain k s h' names req, session rgb2hex plain (s_world s) -> rows_shuffled (fst (s_world s)) h' -> order_free (bk_num k) -> (forall p, power_law (n_power (bk_num k) p)) ->
  requested (s_world s) req = map Some names -> (forall l cf, shown (s_world s) req false l -> In cf l -> extended (fst cf)) ->
  let s' := with_world s (h', snd (s_world s)) in
  (forall columns file wrap size, agree same_figure (snd (plot_distributions k s req columns file wrap size)) (snd (plot_distributions k s' req columns file wrap size))) /\
  (forall columns file size errorbar es vs, agree same_figure (snd (plot_summary k s req columns file size errorbar es vs)) (snd (plot_summary k s' req columns file size errorbar es vs))).
Proof.
  intros rgb plain k s h' names req S R OF P HR EX. cbv zeta. split; intros.
  - unfold plot_distributions. eapply shuffled_base; try eassumption. intros cols cfg ts b b' BA. eapply distributions_rel. exact BA.
  - unfold plot_summary. eapply shuffled_base; try eassumption. intros cols cfg ts b b' BA. eapply summary_rel. exact BA.
Qed.
Print Assumptions C106_shuffled.
(** Two chains, the rows of both tables reversed: bars, limits and titles are drawn. *)
Definition ex106_session : FigureModel.session := {| s_world := ex34; s_truths := fig_truths; s_plotter := new_plotter fig_rc; s_rc := fig_rc |}.
Definition ex106_bars (r : res figure) : nat := match r with Ok g => length (filter (fun c => match c with Bars _ _ _ _ _ _ _ => true | _ => false end) (concat (concat (fg_axes g)))) | Err _ => 0%nat end.
Example C106_nonvacuous : session ex_rgb true (s_world ex106_session) /\ rows_shuffled (fst (s_world ex106_session)) ex91_heap /\ order_free (bk_num ex_backend) /\ (forall p, power_law (n_power (bk_num ex_backend) p)) /\
  requested (s_world ex106_session) ReqAll = map Some ["A"; "B"] /\ (forall l cf, shown (s_world ex106_session) ReqAll false l -> In cf l -> extended (fst cf)) /\ h_frames ex91_heap <> h_frames (fst (s_world ex106_session)) /\
  ex106_bars (snd (plot_distributions ex_backend (with_world ex106_session (ex91_heap, snd ex34)) ReqAll (Some ["x"; "y"]) FileNone 4 SizeNone)) = 3%nat /\
  ex106_bars (snd (plot_summary ex_backend (with_world ex106_session (ex91_heap, snd ex34)) ReqAll (Some ["x"]) FileNone 1 false 1 1)) = 2%nat.
Proof.
  destruct C91_nonvacuous as [S [R [OF [P [HR [NE _]]]]]]. split; [exact S|]. split; [exact R|]. split; [exact OF|]. split; [exact P|]. split; [exact HR|]. split.
  { intros l cf SH HI. apply shown_contents in SH. cbn [s_world ex106_session] in SH. assert (X : match ConsumerProofs.contents ex34 ReqAll false with Ok l => forallb (fun cf => ch_cfg (fst cf) Fplot_contour) l | Err _ => false end = true) by (vm_compute; reflexivity). rewrite SH in X. rewrite forallb_forall in X. left. exact (X cf HI). }
  split; [exact NE|]. split; vm_compute; reflexivity.
Qed.
