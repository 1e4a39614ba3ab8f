(** C46, C47, C50, C65, C66, C68, C71: the figure of distributions. *)
From Coq Require Import String List Bool Arith ZArith QArith Reals Lia Lqa.
From Verif Require Import Py NumSpec NumModel NumFacts HelpersSpec ColorModel HelpersModel MarginalModel FrameModel ConfigModel ChainModel RegistryModel RegistrySpec RegistryProofs RegistryProps ChainSpec ChainProofs ChainUseProofs DiagProofs
  TextModel AnalysisModel AnalysisSpec AnalysisProofs SurfaceModel PanelSpec SurfaceProofs PanelProofs FigureModel FigureSpec FigureProofs BarProofs TriangleProofs WalkProofs DistProofs AnalysisProps FigureCases.
Import ListNotations.
Open Scope string_scope.
Open Scope list_scope.

(** One panel for each parameter in reading order, [wrap] panels to a row (all of them, if they are fewer); the
    panels left over are switched off.  Missing: the panel is labelled with the parameter's name rather than the
    label configured for it (C71_refuted). *)
Theorem C71_partial : forall rgb2hex k s req columns file wrap size s' fig chains cols cfg,
  reachable rgb2hex (s_world s) -> plots s req columns chains cols -> config_of s cfg -> plot_distributions k s req columns file wrap size = (s', Ok fig) ->
  exists rows w, Z.of_nat w = Z.min (Z.of_nat (length cols)) wrap /\ ((rows - 1) * w < length cols <= rows * w)%nat /\ grid_shape fig rows w /\
  (forall n p, nth_error cols n = Some p -> exists i j calls, wrapped w n i j /\ axis fig i j calls /\ current_label AX calls = p /\ current_label AY calls = "" /\ shows_ticks AY calls = false) /\
  (forall n i j calls, wrapped w n i j -> axis fig i j calls -> (length cols <= n)%nat -> calls = [AxisOff]).
Proof.
  intros rgb k s req columns file wrap size s' fig chains cols cfg RE P HC H. destruct (dist_parts _ _ _ _ _ _ _ _ _ _ _ _ H (reachable_ok _ _ RE) P HC) as [b [<- [<- [B1 [B2 [B3 HW]]]]]].
  destruct (dist_figure_ok _ _ _ _ _ _ _ _ _ HW) as [NP [WP [rows [w [E1 [E2 [E3 [G [PN [AXS _]]]]]]]]]]. exists rows, w. split; [exact E1|]. split; [exact E3|]. split; [exact G|]. split.
  - intros n p Hn. assert (HL : (n < length (pb_columns b))%nat) by (apply nth_error_Some; congruence). pose proof (Nat.div_mod n w ltac:(lia)) as D. pose proof (Nat.mod_upper_bound n w ltac:(lia)) as M.
    destruct (AXS (n / w)%nat (n mod w)%nat) as [calls HA]; [apply Nat.div_lt_upper_bound; lia|exact M|]. assert (WR : wrapped w n (n / w)%nat (n mod w)%nat) by (split; [exact M|lia]). exists (n / w)%nat, (n mod w)%nat, calls. split; [exact WR|]. split; [exact HA|].
    destruct (PN _ _ _ _ WR HA) as [K _]. specialize (K p Hn). destruct (extents_present _ _ _ _ _ _ _ B1 (nth_error_In _ _ Hn)) as [e ED].
    destruct (dist_panel_ok _ _ _ _ _ _ _ _ _ K ED) as [lo [hi [tops [m [_ [_ [_ [_ [T2 [_ [L1 L2]]]]]]]]]]]. split; [exact L1|]. split; [exact L2|]. unfold shows_ticks. rewrite T2. reflexivity.
  - intros n i j calls WR HA HN. exact (proj2 (PN _ _ _ _ WR HA) HN).
Qed.
Print Assumptions C71_partial.

(** [calls] were made on the panel of [p]. *)
Definition panel_of (wrap : Z) (cols : list string) (fig : figure) (p : string) (calls : list call) : Prop :=
  exists w n i j, Z.of_nat w = Z.min (Z.of_nat (length cols)) wrap /\ nth_error cols n = Some p /\ wrapped w n i j /\ axis fig i j calls.
Lemma panel_of_ok rgb2hex k s req columns file wrap size s' fig chains cols cfg p calls :
  reachable rgb2hex (s_world s) -> plots s req columns chains cols -> config_of s cfg -> plot_distributions k s req columns file wrap size = (s', Ok fig) -> panel_of wrap cols fig p calls ->
  exists blind lo hi tops m, In p cols /\ (blind = true <-> hidden (p_blind cfg) p) /\ range_of (bk_num k) cfg true chains p (lo, hi) /\ is_max m tops /\
    bars_shown_by (draws_plotted p) (bk_num k) cfg p false (p_summarise cfg && (length chains =? 1)%nat && negb blind) chains calls tops /\
    final_ticks AX calls = {| tk_off := false; tk_major := negb blind; tk_minor := smem p (p_log_scales cfg); tk_range := Some (lo, hi) |} /\
    final_ticks AY calls = {| tk_off := false; tk_major := false; tk_minor := false; tk_range := Some (0, (11 # 10) * m)%Q |} /\
    marks calls = plot_truths (bk_filled k) (s_truths s) None (Some p).
Proof.
  intros RE P HC H [w [n [i [j [EW [Hn [WR HA]]]]]]]. destruct (dist_parts _ _ _ _ _ _ _ _ _ _ _ _ H (reachable_ok _ _ RE) P HC) as [b [<- [<- [B1 [B2 [B3 HW]]]]]].
  destruct (dist_figure_ok _ _ _ _ _ _ _ _ _ HW) as [NP [WP [rows [w' [E1 [E2 [E3 [G [PN _]]]]]]]]]. assert (w' = w) by lia. subst w'. destruct (PN _ _ _ _ WR HA) as [K _]. specialize (K p Hn).
  pose proof (nth_error_In _ _ Hn) as HI. destruct (extents_present _ _ _ _ _ _ _ B1 HI) as [e ED]. destruct (dist_panel_ok _ _ _ _ _ _ _ _ _ K ED) as [lo [hi [tops [m [-> [Q1 [Q2 [T1 [T2 [Q3 _]]]]]]]]]].
  exists (smem p (pb_blind b)), lo, hi, tops, m. split; [exact HI|]. split; [rewrite B2; apply hidden_blind; exact HI|]. split; [eapply extents_range; eassumption|]. rewrite B3 in T1. auto 10.
Qed.

(** A truth with a value for the parameter is drawn on its panel and the others are not.  Missing: the line is
    horizontal, across the density axis, at the height of the value (C46_distributions_refuted). *)
Theorem C46_distributions_partial : forall rgb2hex k s req columns file wrap size s' fig chains cols cfg,
  reachable rgb2hex (s_world s) -> plots s req columns chains cols -> config_of s cfg -> plot_distributions k s req columns file wrap size = (s', Ok fig) ->
  forall p calls, panel_of wrap cols fig p calls -> shows_truths (bk_filled k) (s_truths s) None (Some p) calls.
Proof.
  intros rgb k s req columns file wrap size s' fig chains cols cfg RE P HC H p calls HP. destruct (panel_of_ok _ _ _ _ _ _ _ _ _ _ _ _ _ _ _ RE P HC H HP) as [blind [lo [hi [tops [m [_ [_ [_ [_ [_ [_ [_ M]]]]]]]]]]]].
  destruct (plot_truths_ok (bk_filled k) (s_truths s) None (Some p)) as [l [L1 [L2 _]]]. exists l. split; [exact L1|]. rewrite M. exact L2.
Qed.
Print Assumptions C46_distributions_partial.

(** The panel of a hidden parameter has neither ticks nor a title.  Missing: a logarithmic axis of at most a decade
    shows its minor ticks (C47_distributions_refuted). *)
Theorem C47_distributions_partial : forall rgb2hex k s req columns file wrap size s' fig chains cols cfg,
  reachable rgb2hex (s_world s) -> plots s req columns chains cols -> config_of s cfg -> plot_distributions k s req columns file wrap size = (s', Ok fig) ->
  forall p calls, panel_of wrap cols fig p calls -> hidden (p_blind cfg) p ->
    (no_minor_ticks (bk_num k) cfg true chains p -> shows_ticks AX calls = false) /\ shows_ticks AY calls = false /\ forall t, ~ In (Title t) calls.
Proof.
  intros rgb k s req columns file wrap size s' fig chains cols cfg RE P HC H p calls HP HB. destruct (panel_of_ok _ _ _ _ _ _ _ _ _ _ _ _ _ _ _ RE P HC H HP) as [blind [lo [hi [tops [m [HI [BL [RG [_ [BS [T1 [T2 _]]]]]]]]]]]].
  apply BL in HB. subst blind. unfold shows_ticks. rewrite T1, T2. cbn [tk_off tk_major tk_minor tk_range negb andb orb]. split; [|split; [reflexivity|]].
  - intros HN. destruct (smem p (p_log_scales cfg)) eqn:EL; [|reflexivity]. apply smem_In in EL. destruct (HN EL (lo, hi) RG) as [X1 X2]. cbn [fst snd] in *. unfold within_decade. apply negb_false_iff, andb_true_iff. split; apply qlt_true; assumption.
  - intros t K. apply (titles_shown_by _ _ _ _ _ _ _ _ _ t BS) in K as [K _]. rewrite andb_false_r in K. discriminate.
Qed.
Print Assumptions C47_distributions_partial.

(** The horizontal axis has the user's range, otherwise the smallest one covering all chains. *)
Theorem C50_distributions : forall rgb2hex k s req columns file wrap size s' fig chains cols cfg,
  reachable rgb2hex (s_world s) -> plots s req columns chains cols -> config_of s cfg -> plot_distributions k s req columns file wrap size = (s', Ok fig) ->
  forall p calls, panel_of wrap cols fig p calls -> exists r, range_of (bk_num k) cfg true chains p r /\ current_limits AX calls = Some r.
Proof.
  intros rgb k s req columns file wrap size s' fig chains cols cfg RE P HC H p calls HP. destruct (panel_of_ok _ _ _ _ _ _ _ _ _ _ _ _ _ _ _ RE P HC H HP) as [blind [lo [hi [tops [m [_ [_ [RG [_ [_ [T1 _]]]]]]]]]]].
  exists (lo, hi). split; [exact RG|]. unfold current_limits. rewrite T1. reflexivity.
Qed.
Print Assumptions C50_distributions.

(** 2.5 inches for each row and column, times the factor given; or the pair given. *)
Theorem C65_distributions : forall rgb2hex k s req columns file wrap size s' fig chains cols cfg rows w,
  reachable rgb2hex (s_world s) -> plots s req columns chains cols -> config_of s cfg -> plot_distributions k s req columns file wrap size = (s', Ok fig) -> grid_shape fig rows w ->
  match size with
  | SizePair x y => fg_size fig = (x, y)
  | _ => let g := match size with SizeNum q => q | _ => 1 end in (fst (fg_size fig) == (5 # 2) * g * nq w /\ snd (fg_size fig) == (5 # 2) * g * nq rows)%Q
  end /\ saves cfg file (fg_saved fig).
Proof.
  intros rgb k s req columns file wrap size s' fig chains cols cfg rows w RE P HC H [G1 G2]. destruct (dist_parts _ _ _ _ _ _ _ _ _ _ _ _ H (reachable_ok _ _ RE) P HC) as [b [<- [<- [B1 [B2 [B3 HW]]]]]].
  destruct (dist_figure_ok _ _ _ _ _ _ _ _ _ HW) as [NP [WP [rows' [w' [E1 [E2 [E3 [[G3 G4] [PN [AXS [SZ [SV _]]]]]]]]]]]]. split; [|exact SV].
  assert (rows' = rows) by congruence. clear G3. subst rows'. assert (w' = w). { destruct (fg_axes fig) as [|r0 rs] eqn:EA; [cbn in G1; lia|]. rewrite <- (G2 r0 (or_introl eq_refl)). symmetry. apply G4. left. reflexivity. } subst w'.
  rewrite SZ. destruct size as [|q|x y]; cbv zeta; cbn [fst snd]; [split; unfold nq; ring|split; unfold nq; ring|reflexivity].
Qed.
Print Assumptions C65_distributions.

(** The panel shows, for every chain that draws contours and plots the parameter, its outline and its shaded
    intervals; the density axis ends at 1.1 times the highest value. *)
Theorem C66_distributions : forall rgb2hex k s req columns file wrap size s' fig chains cols cfg,
  reachable rgb2hex (s_world s) -> plots s req columns chains cols -> config_of s cfg -> plot_distributions k s req columns file wrap size = (s', Ok fig) ->
  forall p calls, panel_of wrap cols fig p calls ->
    exists tops summary m, (summary = true <-> summarised_alone cfg chains p) /\ bars_shown_by (draws_plotted p) (bk_num k) cfg p false summary chains calls tops /\
      is_max m tops /\ current_limits AY calls = Some (0, (11 # 10) * m)%Q.
Proof.
  intros rgb k s req columns file wrap size s' fig chains cols cfg RE P HC H p calls HP. destruct (panel_of_ok _ _ _ _ _ _ _ _ _ _ _ _ _ _ _ RE P HC H HP) as [blind [lo [hi [tops [m [_ [BL [_ [MX [BS [_ [T2 _]]]]]]]]]]]].
  exists tops, (p_summarise cfg && (length chains =? 1)%nat && negb blind), m. split; [|split; [exact BS|split; [exact MX|unfold current_limits; rewrite T2; reflexivity]]].
  unfold summarised_alone. rewrite !andb_true_iff, negb_true_iff, Nat.eqb_eq, <- BL. split.
  - intros [[S1 S2] S3]. split; [exact S1|]. split; [|congruence]. destruct chains as [|cf [|]]; try discriminate. eauto.
  - intros [S1 [[cf ->] S3]]. split; [split; [exact S1|reflexivity]|]. destruct blind; congruence.
Qed.
Print Assumptions C66_distributions.

(** A panel has a title if it shows a single chain, summaries are wanted, the parameter is not hidden and the chain's
    summary has a text. *)
Theorem C68_distributions : forall rgb2hex k s req columns file wrap size s' fig chains cols cfg,
  reachable rgb2hex (s_world s) -> plots s req columns chains cols -> config_of s cfg -> plot_distributions k s req columns file wrap size = (s', Ok fig) ->
  forall p calls, panel_of wrap cols fig p calls -> forall t, In (Title t) calls <-> summarised_alone cfg chains p /\ t <> "" /\
    exists cf bs label stripped, In cf chains /\ draws_plotted p cf /\ title_bounds (bk_num k) p cf bs /\ shown_label (p_labels cfg) p label /\ trimmed label stripped /\ get_parameter_text bs true (Some stripped) = Ok t.
Proof.
  intros rgb k s req columns file wrap size s' fig chains cols cfg RE P HC H p calls HP t. destruct (C66_distributions _ _ _ _ _ _ _ _ _ _ _ _ _ RE P HC H p calls HP) as [tops [summary [m [SU [BS _]]]]].
  rewrite (titles_shown_by _ _ _ _ _ _ _ _ _ t BS), SU. reflexivity.
Qed.
Print Assumptions C68_distributions.

(** ** Examples and counterexamples *)
Definition calls_of (fig : figure) (i j : nat) : list call := match nth_error (fg_axes fig) i with Some row => match nth_error row j with Some c => c | None => [] end | None => [] end.
Definition dist_drawn (s : session) (cs : list string) (wrap : Z) (cfg : plot_config) (fig : figure) : Prop :=
  reachable ex_rgb (s_world s) /\ config_of s cfg /\ (exists s', plot_distributions ex_backend s ReqAll (Some cs) (FileOne "a.png") wrap SizeNone = (s', Ok fig)) /\ exists chains, plots s ReqAll (Some cs) chains cs.
Lemma dist_drawn_by s cs wrap cfg fig names : reachable ex_rgb (s_world s) -> config_of s cfg -> snd (plot_distributions ex_backend s ReqAll (Some cs) (FileOne "a.png") wrap SizeNone) = Ok fig ->
  requested (s_world s) ReqAll = map Some names -> dist_drawn s cs wrap cfg fig.
Proof.
  intros R C H HR. assert (E : exists s', plot_distributions ex_backend s ReqAll (Some cs) (FileOne "a.png") wrap SizeNone = (s', Ok fig)) by (destruct (plot_distributions _ _ _ _ _ _ _) as [s' r]; cbn [snd] in H; subst; eauto).
  split; [exact R|]. split; [exact C|]. split; [exact E|]. destruct E as [s' E]. unfold plot_distributions in E. destruct (with_base_ok _ _ _ _ _ _ _ _ _ E (reachable_ok _ _ R) HR) as [b [B _]]. exists (pb_chains b).
  assert (EC : pb_columns b = cs) by (destruct B as [w1 [f1 [n1 [l1 [_ [_ [_ [_ A]]]]]]]]; exact A). rewrite EC in B. exact B.
Qed.
(** Three parameters, two to a row: the fourth panel is switched off. *)
Definition only_a (cfg : plot_config) : session :=
  set_plot_config {| s_world := fst (run ex_rgb (fig_heap, new_consumer) [OpNewChain (ex34_args "A" 0 (kset no_kw Fsmooth (Some 0%Z))); OpAdd 0]); s_truths := fig_truths; s_plotter := new_plotter fig_rc; s_rc := fig_rc |} cfg.
Lemma only_a_reachable cfg : reachable ex_rgb (s_world (only_a cfg)).
Proof. eexists fig_heap, _. eexists. apply surjective_pairing. Qed.
Example C71_nonvacuous : let cfg := fig_cfg false true (BlindList ["y"]) [] in exists fig, dist_drawn (only_a cfg) ["x"; "y"; "z"] 2 cfg fig /\
  map (map (fun calls => length (bars_of calls))) (fg_axes fig) = [[3; 2]; [3; 0]]%nat /\ calls_of fig 1 1 = [AxisOff] /\
  map (map (fun calls => (shows_ticks AX calls, current_label AX calls))) (fg_axes fig) = [[(true, "x"); (false, "y")]; [(true, "z"); (false, "")]] /\
  fg_size fig = (10 # 2, 10 # 2)%Q /\ current_limits AX (calls_of fig 0 1) = Some (2, 6)%Q /\ panel_of 2 ["x"; "y"; "z"] fig "z" (calls_of fig 1 0) /\ fg_saved fig = [("a.png", 200%Z)].
Proof.
  intros cfg. eexists. split; [eapply dist_drawn_by with (names := ["A"]); [apply only_a_reachable|reflexivity|vm_compute; reflexivity|vm_compute; reflexivity]|].
  do 4 (split; [vm_compute; reflexivity|]). split; [vm_compute; reflexivity|]. split; [|vm_compute; reflexivity]. exists 2%nat, 2%nat, 1%nat, 0%nat. split; [reflexivity|]. split; [reflexivity|]. split; [split; [lia|reflexivity]|]. eexists. split; reflexivity.
Qed.
(** The label configured for a parameter is not used. *)
Theorem C71_refuted : exists rgb2hex k s req columns file wrap size s' fig chains cols cfg p calls l,
  reachable rgb2hex (s_world s) /\ plots s req columns chains cols /\ config_of s cfg /\ plot_distributions k s req columns file wrap size = (s', Ok fig) /\
  panel_of wrap cols fig p calls /\ shown_label (p_labels cfg) p l /\ current_label AX calls <> l.
Proof.
  set (cfg := fig_cfg false true BlindNone []). assert (EX : exists fig, dist_drawn (only_a cfg) ["x"; "y"] 2 cfg fig /\ panel_of 2 ["x"; "y"] fig "x" (calls_of fig 0 0) /\ current_label AX (calls_of fig 0 0) = "x").
  { eexists. split; [eapply dist_drawn_by with (names := ["A"]); [apply only_a_reachable|reflexivity|vm_compute; reflexivity|vm_compute; reflexivity]|]. split; [|vm_compute; reflexivity].
    exists 2%nat, 0%nat, 0%nat, 0%nat. split; [reflexivity|]. split; [reflexivity|]. split; [split; [lia|reflexivity]|]. eexists. split; reflexivity. }
  destruct EX as [fig [[R [C [[s' W] [chains P]]]] [A L]]].
  exists ex_rgb, ex_backend, (only_a cfg), ReqAll, (Some ["x"; "y"]), (FileOne "a.png"), 2%Z, SizeNone, s', fig, chains, ["x"; "y"], cfg, "x", (calls_of fig 0 0), "$x$".
  do 5 (split; [assumption|]). split; [reflexivity|]. rewrite L. discriminate.
Qed.
Print Assumptions C71_refuted.
(** The truth x = 1 becomes the density 1. *)
Theorem C46_distributions_refuted : exists rgb2hex k s req columns file wrap size s' fig chains cols cfg p calls t v,
  reachable rgb2hex (s_world s) /\ plots s req columns chains cols /\ config_of s cfg /\ plot_distributions k s req columns file wrap size = (s', Ok fig) /\
  panel_of wrap cols fig p calls /\ In t (s_truths s) /\ has_value t (Some p) v /\ ~ In (VLine v (truth_line t)) calls /\ In (HLine v (truth_line t)) calls.
Proof.
  set (cfg := fig_cfg false true BlindNone []).
  assert (EX : exists fig, dist_drawn (only_a cfg) ["x"; "y"] 2 cfg fig /\ panel_of 2 ["x"; "y"] fig "x" (calls_of fig 0 0) /\ existsb (fun c => match c with VLine _ _ => true | _ => false end) (calls_of fig 0 0) = false /\ marks (calls_of fig 0 0) = [HLine 1 (truth_line (fig_truth [("x", 1%Q)] None)); HLine 2 (truth_line (fig_truth [("x", 2%Q); ("y", 3%Q)] (Some "o")))]).
  { eexists. split; [eapply dist_drawn_by with (names := ["A"]); [apply only_a_reachable|reflexivity|vm_compute; reflexivity|vm_compute; reflexivity]|]. split; [|split; vm_compute; reflexivity].
    exists 2%nat, 0%nat, 0%nat, 0%nat. split; [reflexivity|]. split; [reflexivity|]. split; [split; [lia|reflexivity]|]. eexists. split; reflexivity. }
  destruct EX as [fig [[R [C [[s' W] [chains P]]]] [A [L M]]]].
  exists ex_rgb, ex_backend, (only_a cfg), ReqAll, (Some ["x"; "y"]), (FileOne "a.png"), 2%Z, SizeNone, s', fig, chains, ["x"; "y"], cfg, "x", (calls_of fig 0 0), (fig_truth [("x", 1%Q)] None), 1%Q.
  do 5 (split; [assumption|]). split; [left; reflexivity|]. split; [exists "x"; split; reflexivity|]. split.
  - intros HI. assert (K : existsb (fun c => match c with VLine _ _ => true | _ => false end) (calls_of fig 0 0) = true) by (apply existsb_exists; eexists; split; [exact HI|reflexivity]). congruence.
  - assert (K : In (HLine 1 (truth_line (fig_truth [("x", 1%Q)] None))) (marks (calls_of fig 0 0))) by (rewrite M; left; reflexivity). apply filter_In in K as [K _]. exact K.
Qed.
Print Assumptions C46_distributions_refuted.
(** A hidden parameter on a logarithmic axis of at most a decade. *)
Theorem C47_distributions_refuted : exists rgb2hex k s req columns file wrap size s' fig chains cols cfg p calls,
  reachable rgb2hex (s_world s) /\ plots s req columns chains cols /\ config_of s cfg /\ plot_distributions k s req columns file wrap size = (s', Ok fig) /\
  panel_of wrap cols fig p calls /\ hidden (p_blind cfg) p /\ shows_ticks AX calls = true.
Proof.
  set (cfg := fig_cfg false true (BlindList ["y"]) ["y"]). assert (EX : exists fig, dist_drawn (only_a cfg) ["y"] 2 cfg fig /\ panel_of 2 ["y"] fig "y" (calls_of fig 0 0) /\ shows_ticks AX (calls_of fig 0 0) = true).
  { eexists. split; [eapply dist_drawn_by with (names := ["A"]); [apply only_a_reachable|reflexivity|vm_compute; reflexivity|vm_compute; reflexivity]|]. split; [|vm_compute; reflexivity].
    exists 1%nat, 0%nat, 0%nat, 0%nat. split; [reflexivity|]. split; [reflexivity|]. split; [split; [lia|reflexivity]|]. eexists. split; reflexivity. }
  destruct EX as [fig [[R [C [[s' W] [chains P]]]] [A L]]].
  exists ex_rgb, ex_backend, (only_a cfg), ReqAll, (Some ["y"]), (FileOne "a.png"), 2%Z, SizeNone, s', fig, chains, ["y"], cfg, "y", (calls_of fig 0 0).
  do 5 (split; [assumption|]). split; [left; reflexivity|exact L].
Qed.
Print Assumptions C47_distributions_refuted.
