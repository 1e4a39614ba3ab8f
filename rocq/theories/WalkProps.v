(** C46, C47, C50, C56, C65, C69, C70: the walk figure. *)
From Coq Require Import String List Bool Arith ZArith QArith Reals Lia Lqa.
From Verif Require Import Py NumSpec NumModel NumFacts HelpersSpec ColorModel HelpersModel MarginalModel FrameModel ConfigModel ChainModel RegistryModel RegistrySpec RegistryProofs RegistryProps ChainSpec ChainProofs ChainUseProofs DiagProofs
  TextModel AnalysisModel AnalysisSpec AnalysisProofs SurfaceModel PanelSpec SurfaceProofs PanelProofs FigureModel FigureSpec FigureProofs BarProofs TriangleProofs WalkProofs FigureCases.
Import ListNotations.
Open Scope string_scope.
Open Scope list_scope.

Ltac walk_start RE P HC H HM HL b FA :=
  destruct (walks_parts _ _ _ _ _ _ _ _ _ _ _ _ _ _ _ H (reachable_ok _ _ RE) P HC) as [b [<- [<- [B1 [B2 [B3 HW]]]]]]; destruct (walks_figure_ok _ _ _ _ _ _ _ _ _ _ _ HM HW) as [FA _]; destruct (FA _ HL) as [FA' SZ]; clear FA; rename FA' into FA.

(** One row for the posterior if wanted and known, one for the weights if wanted, one for every column; each shows
    its own quantity for every chain that has it, thinned to the largest number of points, under its name. *)
Theorem C56_rows : forall rgb2hex k s req columns file size convolve pw pp lw s' fig chains cols cfg,
  reachable rgb2hex (s_world s) -> plots s req columns chains cols -> config_of s cfg -> (0 < bk_max_points k)%nat ->
  plot_walks k s req columns file size convolve pw pp lw = (s', Ok fig) ->
  exists rows, walk_layout pw pp chains cols rows /\ grid_shape fig (length rows) 1 /\
    forall i kind, nth_error rows i = Some kind -> exists calls, axis fig i 0 calls /\
      shows_walks (bk_max_points k) (row_values (bk_log10 k) lw kind) chains calls /\
      (walks calls <> [] -> shown_label (p_labels cfg) (row_name lw kind) (current_label AY calls)).
Proof.
  intros rgb k s req columns file size convolve pw pp lw s' fig chains cols cfg RE P HC HM H.
  destruct (walks_parts _ _ _ _ _ _ _ _ _ _ _ _ _ _ _ H (reachable_ok _ _ RE) P HC) as [b [<- [<- [B1 [B2 [B3 HW]]]]]]. destruct (walks_figure_ok _ _ _ _ _ _ _ _ _ _ _ HM HW) as [FA [[rows HL] _]]. destruct (FA _ HL) as [F2 _].
  exists rows. split; [exact HL|]. destruct (walk_axis _ _ _ F2) as [G [_ AX]]. split; [exact G|]. intros i kind HK. destruct (AX i kind HK) as [calls [HA HR]]. exists calls. split; [exact HA|].
  destruct (row_facts _ _ _ _ _ _ _ _ HR) as [R1 [_ [_ [_ [_ [R6 _]]]]]]. split; [exact R1|]. intros NW. rewrite (R6 NW). apply label_of_shown.
Qed.
Print Assumptions C56_rows.

(** The log posterior is shown relative to its highest value. *)
Theorem C56_posterior : forall rgb2hex k s req columns file size convolve pw pp lw s' fig chains cols cfg rows,
  reachable rgb2hex (s_world s) -> plots s req columns chains cols -> config_of s cfg -> (0 < bk_max_points k)%nat ->
  plot_walks k s req columns file size convolve pw pp lw = (s', Ok fig) -> walk_layout pw pp chains cols rows ->
  forall i calls ys col y, nth_error rows i = Some RPosterior -> axis fig i 0 calls -> In (ys, col) (walks calls) -> In y ys -> (y <= 0)%Q.
Proof.
  intros rgb k s req columns file size convolve pw pp lw s' fig chains cols cfg rows RE P HC HM H HL i calls ys col y HK HA HI HY. walk_start RE P HC H HM HL b FA.
  destruct (walk_axis _ _ _ FA) as [_ [AX _]]. destruct (row_facts _ _ _ _ _ _ _ _ (AX i 0%nat _ _ HK HA)) as [[parts [F1 F2]] _]. rewrite F2 in HI. apply in_concat in HI as [part [I1 I2]].
  clear -F1 I1 I2 HY. induction F1 as [|cf part' l parts [v [HV HP]] _ IH]; [destruct I1|]. destruct I1 as [->|I1]; [|exact (IH I1)]. destruct v as [full|]; [|subst; destruct I2].
  destruct HP as [ys' [col' [TH [_ ->]]]]. destruct I2 as [E|[]]. injection E as -> ->. cbn [row_values] in HV. destruct HV as [[_ HV]|[lp [m [_ [HM HV]]]]]; [discriminate|]. injection HV as ->.
  assert (HF : In y (map (fun x => (x - m)%Q) lp)).
  { destruct TH as [[_ ->]|[_ [kk [_ [_ [TH _]]]]]]; [exact HY|]. apply In_nth_error in HY as [j HJ]. destruct (TH j) as [_ E]; [apply nth_error_Some; congruence|]. rewrite HJ in E. symmetry in E. eapply nth_error_In. exact E. }
  apply in_map_iff in HF as [x [<- HX]]. destruct HM as [_ HM]. specialize (HM x HX). lra.
Qed.
Print Assumptions C56_posterior.

(** A truth draws a horizontal line on the row of each parameter it has a value for, and nothing on the rows of
    posterior and weights. *)
Theorem C46_walks : forall rgb2hex k s req columns file size convolve pw pp lw s' fig chains cols cfg rows,
  reachable rgb2hex (s_world s) -> plots s req columns chains cols -> config_of s cfg -> (0 < bk_max_points k)%nat ->
  plot_walks k s req columns file size convolve pw pp lw = (s', Ok fig) -> walk_layout pw pp chains cols rows ->
  forall i kind calls, nth_error rows i = Some kind -> axis fig i 0 calls ->
    match kind with RColumn p => shows_truths (bk_filled k) (s_truths s) None (Some p) calls | _ => marks calls = [] end.
Proof.
  intros rgb k s req columns file size convolve pw pp lw s' fig chains cols cfg rows RE P HC HM H HL i kind calls HK HA. walk_start RE P HC H HM HL b FA.
  destruct (walk_axis _ _ _ FA) as [_ [AX _]]. destruct (row_facts _ _ _ _ _ _ _ _ (AX i 0%nat _ _ HK HA)) as [_ [M _]]. destruct kind as [| |p]; [exact M|exact M|]. cbn [row_tail] in M. rewrite marks_app in M.
  destruct (plot_truths_ok (bk_filled k) (s_truths s) None (Some p)) as [l [L1 [L2 L3]]]. exists l. split; [exact L1|]. rewrite M, <- L2.
  assert (E : plot_truths (fun _ => true) (s_truths s) None (Some p) = plot_truths (bk_filled k) (s_truths s) None (Some p)) by (unfold plot_truths; apply flat_map_ext; intros t; unfold plot_truth; cbn; destruct (dget p (t_location t)); reflexivity).
  rewrite E. unfold marks. rewrite (filter_all _ _ L3). destruct (smem p _); cbn; apply app_nil_r.
Qed.
Print Assumptions C46_walks.

(** The vertical axis of a parameter's row has the user's range, otherwise the smallest one covering all chains. *)
Theorem C50_walks : forall rgb2hex k s req columns file size convolve pw pp lw s' fig chains cols cfg rows,
  reachable rgb2hex (s_world s) -> plots s req columns chains cols -> config_of s cfg -> (0 < bk_max_points k)%nat ->
  plot_walks k s req columns file size convolve pw pp lw = (s', Ok fig) -> walk_layout pw pp chains cols rows ->
  forall i p calls, nth_error rows i = Some (RColumn p) -> axis fig i 0 calls -> walks calls <> [] ->
    exists r, range_of (bk_num k) cfg true chains p r /\ current_limits AY calls = Some r.
Proof.
  intros rgb k s req columns file size convolve pw pp lw s' fig chains cols cfg rows RE P HC HM H HL i p calls HK HA NW. walk_start RE P HC H HM HL b FA.
  destruct (walk_axis _ _ _ FA) as [_ [AX _]]. destruct (row_facts _ _ _ _ _ _ _ _ (AX i 0%nat _ _ HK HA)) as [_ [_ [_ [_ [_ [_ [EX [TK _]]]]]]]]. specialize (EX NW).
  pose proof (layout_column _ _ _ _ _ _ _ HL HK) as HI. destruct (extents_present _ _ _ _ _ _ _ B1 HI) as [[[lo hi]|] ED]; cbn beta iota zeta in EX, TK; rewrite ED in EX, TK; [|contradiction].
  exists (lo, hi). split; [eapply extents_range; eassumption|]. unfold current_limits. rewrite TK. destruct (row_tail_facts (s_truths s) b (RColumn p)) as [_ [_ [_ [_ T5]]]]. rewrite T5. destruct (walks calls); [contradiction|]. destruct (smem p (pb_blind b)); reflexivity.
Qed.
Print Assumptions C50_walks.

(** The row of a hidden parameter shows no tick labels.  Missing: a logarithmic axis of at most a decade shows
    its minor ticks (C47_walks_refuted). *)
Theorem C47_walks_partial : forall rgb2hex k s req columns file size convolve pw pp lw s' fig chains cols cfg rows,
  reachable rgb2hex (s_world s) -> plots s req columns chains cols -> config_of s cfg -> (0 < bk_max_points k)%nat ->
  plot_walks k s req columns file size convolve pw pp lw = (s', Ok fig) -> walk_layout pw pp chains cols rows ->
  forall i p calls, nth_error rows i = Some (RColumn p) -> axis fig i 0 calls -> no_minor_ticks (bk_num k) cfg true chains p ->
    hidden (p_blind cfg) p -> shows_ticks AY calls = false.
Proof.
  intros rgb k s req columns file size convolve pw pp lw s' fig chains cols cfg rows RE P HC HM H HL i p calls HK HA HN HB. walk_start RE P HC H HM HL b FA.
  destruct (walk_axis _ _ _ FA) as [_ [AX _]]. destruct (row_facts _ _ _ _ _ _ _ _ (AX i 0%nat _ _ HK HA)) as [_ [_ [_ [_ [_ [_ [EX [TK _]]]]]]]].
  pose proof (layout_column _ _ _ _ _ _ _ HL HK) as HI. apply (hidden_blind _ (pb_columns b) _ HI) in HB. rewrite <- B2 in HB. destruct (extents_present _ _ _ _ _ _ _ B1 HI) as [e ED]. cbn beta iota zeta in EX, TK. rewrite ED in EX, TK.
  destruct (row_tail_facts (s_truths s) b (RColumn p)) as [_ [_ [_ [_ T5]]]]. unfold shows_ticks. rewrite TK, T5, HB. destruct (walks calls); [reflexivity|]. cbn [tk_off tk_major tk_minor tk_range negb andb orb].
  destruct (smem p (pb_logs b)) eqn:EL; [|reflexivity]. destruct e as [[lo hi]|]; [|exfalso; apply EX; [discriminate|reflexivity]]. cbn [andb]. rewrite B3 in EL. apply smem_In in EL. destruct (HN EL (lo, hi)) as [X1 X2]; [eapply extents_range; eassumption|].
  cbn [fst snd] in *. unfold within_decade. apply negb_false_iff, andb_true_iff. split; apply qlt_true; assumption.
Qed.
Print Assumptions C47_walks_partial.

(** The size and the files. *)
Theorem C65_walks : forall rgb2hex k s req columns file size convolve pw pp lw s' fig chains cols cfg rows,
  reachable rgb2hex (s_world s) -> plots s req columns chains cols -> config_of s cfg -> (0 < bk_max_points k)%nat ->
  plot_walks k s req columns file size convolve pw pp lw = (s', Ok fig) -> walk_layout pw pp chains cols rows ->
  fg_size fig = match size with SizeNone => (8, ((3 # 4) + nq (length rows))%Q) | SizeNum q => (q, q) | SizePair w h => (w, h) end /\ saves cfg file (fg_saved fig).
Proof.
  intros rgb k s req columns file size convolve pw pp lw s' fig chains cols cfg rows RE P HC HM H HL. destruct (walks_parts _ _ _ _ _ _ _ _ _ _ _ _ _ _ _ H (reachable_ok _ _ RE) P HC) as [b [<- [<- [B1 [B2 [B3 HW]]]]]].
  destruct (walks_figure_ok _ _ _ _ _ _ _ _ _ _ _ HM HW) as [FA [_ [SV _]]]. split; [apply FA; exact HL|exact SV].
Qed.
Print Assumptions C65_walks.

(** The smoothed line of every walk: the means of windows of [w] values; without [convolve] there is none. *)
Theorem C69_smoothed : forall rgb2hex k s req columns file size convolve pw pp lw s' fig chains cols cfg rows,
  reachable rgb2hex (s_world s) -> plots s req columns chains cols -> config_of s cfg -> (0 < bk_max_points k)%nat ->
  plot_walks k s req columns file size convolve pw pp lw = (s', Ok fig) -> walk_layout pw pp chains cols rows ->
  forall i calls, axis fig i 0 calls ->
    (convolve = None -> smooths calls = []) /\
    (forall w, convolve = Some (Z.of_nat w) -> (2 <= w)%nat -> (forall ys col, In (ys, col) (walks calls) -> (w <= length ys)%nat) ->
       Forall2 (fun walk pts => smooth_of w (fst walk) pts) (walks calls) (smooths calls)).
Proof.
  intros rgb k s req columns file size convolve pw pp lw s' fig chains cols cfg rows RE P HC HM H HL i calls HA. walk_start RE P HC H HM HL b FA.
  destruct (walk_axis _ _ _ FA) as [[G1 _] [AX _]]. assert (HK : exists kind, nth_error rows i = Some kind). { destruct HA as [row [HA _]]. destruct (nth_error rows i) eqn:E; [eauto|]. apply nth_error_None in E. rewrite <- G1 in E. apply nth_error_None in E. congruence. }
  destruct HK as [kind HK]. destruct (row_facts _ _ _ _ _ _ _ _ (AX i 0%nat _ _ HK HA)) as [_ [_ [S1 [S2 _]]]]. split; [exact S1|]. intros w EW W2 WL. specialize (S2 _ EW). clear -S2 W2 WL.
  induction S2 as [|[ys col] pts wk sm H1 _ IH]; constructor; [apply smoothed_walk_ok; [exact H1|exact W2|eapply WL; left; reflexivity]|]. apply IH. intros y c HI. eapply WL. right. exact HI.
Qed.
Print Assumptions C69_smoothed.

(** All rows share one horizontal axis: it ends at the last point of the last walk drawn.  Missing: that is not
    the longest one (C70_refuted). *)
Theorem C70_partial : forall rgb2hex k s req columns file size convolve pw pp lw s' fig chains cols cfg,
  reachable rgb2hex (s_world s) -> plots s req columns chains cols -> config_of s cfg -> (0 < bk_max_points k)%nat ->
  plot_walks k s req columns file size convolve pw pp lw = (s', Ok fig) ->
  forall n, (exists i calls, axis fig i 0 calls /\ walks calls <> []) -> (forall i calls ys col, axis fig i 0 calls -> In (ys, col) (walks calls) -> length ys = n) ->
    (0 < n)%nat /\ shared_limits fig = Some (0, nq (n - 1)).
Proof.
  intros rgb k s req columns file size convolve pw pp lw s' fig chains cols cfg RE P HC HM H n SOME ALL.
  destruct (walks_parts _ _ _ _ _ _ _ _ _ _ _ _ _ _ _ H (reachable_ok _ _ RE) P HC) as [b [<- [<- [B1 [B2 [B3 HW]]]]]]. destruct (walks_figure_ok _ _ _ _ _ _ _ _ _ _ _ HM HW) as [FA [[rows HL] _]]. destruct (FA _ HL) as [F2 _]. clear FA HW H.
  unfold shared_limits, current_limits, final_ticks, axis in *. revert SOME ALL. generalize (fg_axes fig) F2. clear F2. intros axes F2.
  assert (G : forall axes rows, Forall2 (fun kind row => exists calls, row = [calls] /\ row_calls k cfg (s_truths s) b convolve lw kind calls) rows axes ->
    (forall i calls ys col, (exists row, nth_error axes i = Some row /\ nth_error row 0 = Some calls) -> In (ys, col) (walks calls) -> length ys = n) ->
    (forall t, tk_range (fold_left (tick_step AX) (concat (concat axes)) t) = tk_range t \/ tk_range (fold_left (tick_step AX) (concat (concat axes)) t) = Some (0, nq (n - 1))) /\
    ((exists i calls, (exists row, nth_error axes i = Some row /\ nth_error row 0 = Some calls) /\ walks calls <> []) -> (0 < n)%nat /\ forall t, tk_range (fold_left (tick_step AX) (concat (concat axes)) t) = Some (0, nq (n - 1)))).
  { clear. intros axes rows F2. induction F2 as [|kind row rows axes [calls [-> HR]] F2 IH]; intros ALL.
    - split; [intros t; left; reflexivity|]. intros [i [calls [[row [E _]] _]]]. destruct i; discriminate.
    - destruct IH as [I1 I2]. { intros i c ys col [row [E1 E2]] HI. apply (ALL (S i) c ys col); [exists row; auto|exact HI]. }
      destruct (row_facts _ _ _ _ _ _ _ _ HR) as [_ [_ [_ [_ [NE [_ [_ [_ RX]]]]]]]].
      assert (CX : walks calls = [] \/ (0 < n)%nat /\ forall t, tk_range (fold_left (tick_step AX) calls t) = Some (0, nq (n - 1))).
      { destruct (walks calls) as [|w0 ws] eqn:EW; [left; reflexivity|right]. assert (AL : forall wk, In wk (w0 :: ws) -> length (fst wk) = n). { intros [ys col] HI. rewrite <- EW in HI. apply (ALL 0%nat calls ys col); [exists [calls]; auto|exact HI]. }
        split; [rewrite <- (AL w0) by (left; reflexivity); inversion NE as [|x l NX _]; subst; destruct (fst w0); [contradiction|cbn; lia]|]. intros t. rewrite RX. destruct (rev (w0 :: ws)) as [|wl wr] eqn:ER; [apply (f_equal (@length _)) in ER; rewrite rev_length in ER; discriminate|].
        rewrite (AL wl); [reflexivity|]. apply in_rev. rewrite ER. left. reflexivity. }
      cbn [concat app]. split.
      + intros t. rewrite fold_left_app. destruct (I1 (fold_left (tick_step AX) calls t)) as [E|E]; [|right; exact E]. rewrite E. destruct CX as [CX|[_ CX]]; [left; rewrite RX, CX; reflexivity|right; apply CX].
      + intros [i [c [[row [E1 E2]] NW]]]. destruct i as [|i].
        * injection E1 as <-. injection E2 as <-. destruct CX as [CX|[N0 CX]]; [contradiction|]. split; [exact N0|]. intros t. rewrite fold_left_app. destruct (I1 (fold_left (tick_step AX) calls t)) as [E|E]; [rewrite E; apply CX|exact E].
        * destruct I2 as [N0 I2]; [exists i, c; split; [exists row; auto|exact NW]|]. split; [exact N0|]. intros t. rewrite fold_left_app. apply I2. }
  intros SOME ALL. destruct (G axes rows F2 ALL) as [_ G2]. destruct (G2 SOME) as [N0 G3]. split; [exact N0|apply G3].
Qed.
Print Assumptions C70_partial.

(** ** Examples and counterexamples *)
Definition calls_of (fig : figure) (i j : nat) : list call := match nth_error (fg_axes fig) i with Some row => match nth_error row j with Some c => c | None => [] end | None => [] end.
Definition walked (s : session) (cs : list string) (cfg : plot_config) (fig : figure) : Prop :=
  reachable ex_rgb (s_world s) /\ config_of s cfg /\ (0 < bk_max_points ex_backend)%nat /\ (exists s', plot_walks ex_backend s ReqAll (Some cs) (FileOne "a.png") SizeNone (Some 2%Z) true true false = (s', Ok fig)) /\ exists chains, plots s ReqAll (Some cs) chains cs.
Lemma walked_by s cs cfg fig names : reachable ex_rgb (s_world s) -> config_of s cfg -> snd (plot_walks ex_backend s ReqAll (Some cs) (FileOne "a.png") SizeNone (Some 2%Z) true true false) = Ok fig ->
  requested (s_world s) ReqAll = map Some names -> walked s cs cfg fig.
Proof.
  intros R C H HR. assert (E : exists s', plot_walks ex_backend s ReqAll (Some cs) (FileOne "a.png") SizeNone (Some 2%Z) true true false = (s', Ok fig)) by (destruct (plot_walks _ _ _ _ _ _ _ _ _ _) as [s' r]; cbn [snd] in H; subst; eauto).
  split; [exact R|]. split; [exact C|]. split; [cbn; lia|]. split; [exact E|]. destruct E as [s' E]. unfold plot_walks in E. destruct (with_base_ok _ _ _ _ _ _ _ _ _ E (reachable_ok _ _ R) HR) as [b [B _]]. exists (pb_chains b).
  assert (EC : pb_columns b = cs) by (destruct B as [w1 [f1 [n1 [l1 [_ [_ [_ [_ A]]]]]]]]; exact A). rewrite EC in B. exact B.
Qed.
Example C56_nonvacuous : let cfg := fig_cfg false true (BlindList ["y"]) [] in exists fig, walked (fig_pair cfg) ["x"; "y"] cfg fig /\
  map (fun row => walks (concat row)) (fg_axes fig) = [[([-2; 0; -1]%Q, "#3b82f6")]; [([1; 1; 1]%Q, "#3b82f6"); ([1; 1; 1]%Q, "#10b981")]; [([0; 1; 2]%Q, "#3b82f6"); ([3; 4; 5]%Q, "#10b981")]; [([4; 2; 6]%Q, "#3b82f6"); ([4; 2; 6]%Q, "#10b981")]] /\
  map (fun row => length (marks (concat row))) (fg_axes fig) = [0; 0; 2; 1]%nat /\ map (fun row => current_label AY (concat row)) (fg_axes fig) = ["$\log(P)$"; "Weight"; "$x$"; "y"] /\
  shows_ticks AY (calls_of fig 3 0) = false /\ shows_ticks AY (calls_of fig 2 0) = true /\ current_limits AY (calls_of fig 3 0) = Some (2, 6)%Q /\
  smooths (calls_of fig 2 0) = [[(1, 1 # 2)]; [(1, 7 # 2)]]%Q /\ shared_limits fig = Some (0, 2)%Q /\ fg_saved fig = [("a.png", 200%Z)].
Proof. intros cfg. eexists. split; [eapply walked_by with (names := ["A"; "B"]); [apply fig_reachable|reflexivity|vm_compute; reflexivity|vm_compute; reflexivity]|]. repeat split; vm_compute; reflexivity. Qed.
(** A hidden parameter on a logarithmic axis of at most a decade. *)
Theorem C47_walks_refuted : exists rgb2hex k s req columns file size convolve pw pp lw s' fig chains cols cfg rows i p calls,
  reachable rgb2hex (s_world s) /\ plots s req columns chains cols /\ config_of s cfg /\ (0 < bk_max_points k)%nat /\
  plot_walks k s req columns file size convolve pw pp lw = (s', Ok fig) /\ walk_layout pw pp chains cols rows /\
  nth_error rows i = Some (RColumn p) /\ axis fig i 0 calls /\ hidden (p_blind cfg) p /\ shows_ticks AY calls = true.
Proof.
  set (cfg := fig_cfg false true (BlindList ["y"]) ["y"]). assert (EX : exists fig, walked (fig_pair cfg) ["y"] cfg fig /\ shows_ticks AY (calls_of fig 2 0) = true /\ axis fig 2 0 (calls_of fig 2 0)).
  { eexists. split; [eapply walked_by with (names := ["A"; "B"]); [apply fig_reachable|reflexivity|vm_compute; reflexivity|vm_compute; reflexivity]|]. split; [vm_compute; reflexivity|]. eexists. split; reflexivity. }
  destruct EX as [fig [[R [C [M [[s' W] [chains P]]]]] [T A]]]. destruct (C56_rows _ _ _ _ _ _ _ _ _ _ _ _ _ _ _ _ R P C M W) as [rows [L [[G _] _]]].
  exists ex_rgb, ex_backend, (fig_pair cfg), ReqAll, (Some ["y"]), (FileOne "a.png"), SizeNone, (Some 2%Z), true, true, false, s', fig, chains, ["y"], cfg, rows, 2%nat, "y", (calls_of fig 2 0).
  do 6 (split; [assumption|]). split; [|split; [exact A|split; [left; reflexivity|exact T]]].
  assert (LR : (2 < length rows)%nat). { rewrite <- G. destruct A as [row [A _]]. apply nth_error_Some. congruence. }
  destruct L as [a [b [-> [L1 [L2 [L3 _]]]]]]. rewrite (L3 eq_refl) in *. rewrite !app_length in LR. cbn [length map] in LR. destruct a as [|a0 [|a1 a]]; [cbn in LR; lia|reflexivity|exfalso].
  destruct (existsb (fun cf => match log_posterior (fst cf) (snd cf) with Some _ => true | None => false end) chains) eqn:E.
  - apply existsb_exists in E as [cf [E2 E3]]. assert (K : a0 :: a1 :: a = [RPosterior]); [|discriminate]. apply L1. split; [reflexivity|]. exists cf. split; [exact E2|]. destruct (log_posterior _ _); congruence.
  - assert (K : a0 :: a1 :: a = []); [|discriminate]. apply L2. intros [_ [cf [E2 E3]]]. assert (existsb (fun cf => match log_posterior (fst cf) (snd cf) with Some _ => true | None => false end) chains = true); [|congruence]. apply existsb_exists. exists cf. split; [exact E2|]. destruct (log_posterior _ _); congruence.
Qed.
Print Assumptions C47_walks_refuted.
(** The last chain is shorter: the figure cuts off the end of the longer walk. *)
Theorem C70_refuted : exists rgb2hex k s req columns file size convolve pw pp lw s' fig chains cols cfg i calls ys col lo hi,
  reachable rgb2hex (s_world s) /\ plots s req columns chains cols /\ config_of s cfg /\ (0 < bk_max_points k)%nat /\
  plot_walks k s req columns file size convolve pw pp lw = (s', Ok fig) /\
  axis fig i 0 calls /\ In (ys, col) (walks calls) /\ shared_limits fig = Some (lo, hi) /\ (hi < nq (length ys - 1))%Q.
Proof.
  assert (EX : exists fig, walked short_session ["x"; "y"] default_plot_config fig /\ In ([0; 1; 2]%Q, "#3b82f6") (walks (calls_of fig 2 0)) /\ axis fig 2 0 (calls_of fig 2 0) /\ shared_limits fig = Some (0, 1)%Q).
  { eexists. split; [eapply walked_by with (names := ["A"; "B"]); [apply short_reachable|reflexivity|vm_compute; reflexivity|vm_compute; reflexivity]|]. split; [left; reflexivity|]. split; [eexists; split; reflexivity|vm_compute; reflexivity]. }
  destruct EX as [fig [[R [C [M [[s' W] [chains P]]]]] [T [A S2]]]].
  exists ex_rgb, ex_backend, short_session, ReqAll, (Some ["x"; "y"]), (FileOne "a.png"), SizeNone, (Some 2%Z), true, true, false, s', fig, chains, ["x"; "y"], default_plot_config, 2%nat, (calls_of fig 2 0), [0; 1; 2]%Q, "#3b82f6", 0%Q, 1%Q.
  do 5 (split; [assumption|]). split; [exact A|]. split; [exact T|]. split; [exact S2|reflexivity].
Qed.
Print Assumptions C70_refuted.
