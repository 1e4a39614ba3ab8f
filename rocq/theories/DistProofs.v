(** Lemmas about the figure of distributions. *)
From Coq Require Import String List Bool Arith ZArith QArith Reals Lia Lqa.
From Verif Require Import Py NumSpec NumModel NumFacts HelpersSpec ColorModel HelpersModel MarginalModel FrameModel ConfigModel ChainModel RegistryModel RegistrySpec RegistryProofs ChainSpec ChainProofs ChainUseProofs DiagProofs
  MaxProofs TextModel AnalysisModel AnalysisSpec AnalysisProofs SurfaceModel PanelSpec SurfaceProofs PanelProofs FigureModel FigureSpec FigureProofs BarProofs TriangleProofs WalkProofs.
Import ListNotations.
Open Scope string_scope.
Open Scope list_scope.

Lemma nth_error_skipn' {A} (l : list A) a k : nth_error (skipn a l) k = nth_error l (a + k).
Proof. revert l. induction a as [|a IH]; intros l; [reflexivity|]. destruct l as [|x l]; [destruct k; reflexivity|]. cbn [skipn plus nth_error]. apply IH. Qed.
Lemma nth_error_firstn' {A} (l : list A) w k : (k < w)%nat -> nth_error (firstn w l) k = nth_error l k.
Proof. revert l k. induction w as [|w IH]; intros l k H; [lia|]. destruct l as [|x l]; [destruct k; reflexivity|]. destruct k as [|k]; [reflexivity|]. cbn. apply IH. lia. Qed.
Lemma rows_of_ok {A} w : (0 < w)%nat -> forall rows (l : list A), length l = (rows * w)%nat ->
  length (rows_of rows w l) = rows /\ (forall r, In r (rows_of rows w l) -> length r = w) /\
  forall i j x, (j < w)%nat -> (exists row, nth_error (rows_of rows w l) i = Some row /\ nth_error row j = Some x) <-> nth_error l (i * w + j) = Some x.
Proof.
  intros W. induction rows as [|rows IH]; intros l HL.
  - destruct l; [|discriminate]. split; [reflexivity|]. split; [intros r []|]. intros i j x HJ. split; [intros [row [H _]]; destruct i; discriminate|]. destruct (i * w + j)%nat; discriminate.
  - cbn [rows_of]. destruct l as [|x0 l0] eqn:EL; [cbn in HL; lia|]. rewrite <- EL in *. clear EL x0 l0.
    destruct (IH (skipn w l)) as [I1 [I2 I3]]; [rewrite skipn_length, HL; lia|].
    split; [cbn [length]; rewrite I1; reflexivity|]. split.
    + intros r [<-|HI]; [rewrite firstn_length, HL; cbn; lia|apply I2; exact HI].
    + intros i j x HJ. destruct i as [|i].
      * cbn [nth_error Nat.mul plus]. rewrite <- (nth_error_firstn' l w j HJ). split; [intros [row [H1 H2]]; injection H1 as <-; exact H2|intros H; eauto].
      * cbn [nth_error]. rewrite (I3 i j x HJ), nth_error_skipn'. replace (w + (i * w + j))%nat with (S i * w + j)%nat by (cbn; lia). reflexivity.
Qed.

Lemma dist_parts k s req columns file wrap size s' fig chains cols cfg : plot_distributions k s req columns file wrap size = (s', Ok fig) -> world_ok (s_world s) -> plots s req columns chains cols -> config_of s cfg ->
  exists b, pb_chains b = chains /\ pb_columns b = cols /\ get_custom_extents (bk_num k) true (p_extents cfg) chains cols = Ok (pb_extents b) /\ pb_blind b = sanitise_blinds (p_blind cfg) cols /\ pb_logs b = p_log_scales cfg /\
    distributions_figure (bk_num k) (bk_filled k) cfg (s_truths s) b wrap size file = Ok fig.
Proof. intros H W P HC. unfold plot_distributions in H. destruct (with_base_plots _ _ _ _ _ _ _ _ _ _ H W P _ HC) as [b [B1 [B2 [B3 [B4 [B5 B6]]]]]]. exists b. auto 10. Qed.

(** ceil(n / w) rows of min(n, w) panels *)
Lemma ceil_rows n w : (0 < n)%nat -> (0 < w)%Z ->
  let rows := Z.to_nat (- ((- Z.of_nat n) / w)) in let cols := Z.to_nat (Z.min (Z.of_nat n) w) in
  (0 < cols)%nat /\ Z.of_nat cols = Z.min (Z.of_nat n) w /\ ((rows - 1) * cols < n <= rows * cols)%nat.
Proof.
  intros HN HW rows cols. assert (C : Z.of_nat cols = Z.min (Z.of_nat n) w) by (unfold cols; rewrite Z2Nat.id; lia). split; [lia|]. split; [exact C|].
  pose proof (Z.div_mod (- Z.of_nat n) w ltac:(lia)) as D. pose proof (Z.mod_pos_bound (- Z.of_nat n) w HW) as M. set (q := ((- Z.of_nat n) / w)%Z) in *. set (m := ((- Z.of_nat n) mod w)%Z) in *.
  assert (Q0 : (q < 0)%Z) by nia. assert (R : Z.of_nat rows = (- q)%Z) by (unfold rows; rewrite Z2Nat.id; lia).
  destruct (Z.le_gt_cases (Z.of_nat n) w) as [L|L].
  - assert (q = -1)%Z by nia. assert (rows = 1)%nat by lia. assert (cols = n) by lia. lia.
  - assert (EC : Z.of_nat cols = w) by lia. split; apply Nat2Z.inj_lt || apply Nat2Z.inj_le.
    + rewrite Nat2Z.inj_mul, Nat2Z.inj_sub by lia. rewrite R, EC. nia.
    + rewrite Nat2Z.inj_mul, R, EC. nia.
Qed.
Lemma dist_figure_ok num filled cfg truths b wrap size file fig : distributions_figure num filled cfg truths b wrap size file = Ok fig ->
  let n := length (pb_columns b) in
  (0 < n)%nat /\ (0 < wrap)%Z /\ exists rows w, Z.of_nat w = Z.min (Z.of_nat n) wrap /\ (0 < w)%nat /\ ((rows - 1) * w < n <= rows * w)%nat /\ grid_shape fig rows w /\
  (forall i j k calls, wrapped w k i j -> axis fig i j calls ->
     (forall p, nth_error (pb_columns b) k = Some p -> distribution_panel num filled cfg truths b (p_summarise cfg && (length (pb_chains b) =? 1)%nat) p = Ok calls) /\
     ((n <= k)%nat -> calls = [AxisOff])) /\
  (forall i j, (i < rows)%nat -> (j < w)%nat -> exists calls, axis fig i j calls) /\
  fg_size fig = (let scaled q := ((inject_Z (Z.of_nat w) * (5 # 2) * q)%Q, (inject_Z (Z.of_nat rows) * (5 # 2) * q)%Q) in match size with SizeNone => scaled 1 | SizeNum q => scaled q | SizePair x y => (x, y) end) /\
  saves cfg file (fg_saved fig) /\ fg_legend fig = None /\ fg_bars fig = [].
Proof.
  unfold distributions_figure. destruct (Z.eqb_spec wrap 0) as [|N0]; [discriminate|]. cbv zeta. destruct (match size with SizeNum q => Qeq_bool q 0 | _ => false end); [discriminate|]. intros H.
  apply rbind_ok in H as [u [HS H]]. apply subplots_ok in HS as [R0 [C0 _]]. apply rbind_ok in H as [panels [HP H]]. apply rmapM_Ok_iff in HP as [LP HP].
  assert (WP : (0 < wrap)%Z) by lia. assert (NP : (0 < length (pb_columns b))%nat) by lia.
  destruct (ceil_rows (length (pb_columns b)) wrap NP WP) as [E1 [E2 E3]]. split; [exact NP|]. split; [exact WP|].
  assert (EQ1 : (- ((- Z.of_nat (length (pb_columns b))) / wrap))%Z = Z.of_nat (Z.to_nat (- ((- Z.of_nat (length (pb_columns b))) / wrap)))) by (rewrite Z2Nat.id; lia).
  assert (EQ2 : Z.min (Z.of_nat (length (pb_columns b))) wrap = Z.of_nat (Z.to_nat (Z.min (Z.of_nat (length (pb_columns b))) wrap))) by (rewrite Z2Nat.id; lia).
  set (rows := Z.to_nat (- ((- Z.of_nat (length (pb_columns b))) / wrap))) in *. set (w := Z.to_nat (Z.min (Z.of_nat (length (pb_columns b))) wrap)) in *.
  exists rows, w. split; [exact E2|]. split; [exact E1|]. split; [exact E3|]. injection H as <-. unfold grid_shape, axis. cbn [fg_axes fg_size fg_saved fg_legend fg_bars].
  set (spare := repeat [AxisOff] (rows * w - length (pb_columns b))%nat).
  assert (LS : length (panels ++ spare) = (rows * w)%nat) by (unfold spare; rewrite app_length, repeat_length; lia).
  destruct (rows_of_ok w E1 rows _ LS) as [G1 [G2 G3]]. split; [split; assumption|]. split; [|split; [|split; [|split; [apply saved_files_ok|split; reflexivity]]]].
  - intros i j k calls [HJ ->] HA. apply (G3 i j calls HJ) in HA. split.
    + intros p Hp. assert (HL : (i * w + j < length panels)%nat) by (rewrite LP; apply nth_error_Some; congruence). rewrite nth_error_app1 in HA by exact HL. destruct (HP _ _ Hp) as [c [K1 K2]]. congruence.
    + intros HK. rewrite nth_error_app2 in HA by lia. apply nth_error_In in HA. apply repeat_spec in HA. exact HA.
  - intros i j HI HJ. destruct (nth_error (panels ++ spare) (i * w + j)) as [calls|] eqn:E; [exists calls; apply (G3 i j calls HJ); exact E|]. apply nth_error_None in E. rewrite LS in E. nia.
  - rewrite EQ1, EQ2. reflexivity.
Qed.

Lemma dist_panel_ok num filled cfg truths b summary p calls e : distribution_panel num filled cfg truths b summary p = Ok calls -> dget p (pb_extents b) = Some e ->
  exists lo hi tops m, e = Some (lo, hi) /\ is_max m tops /\
    bars_shown_by (draws_plotted p) num cfg p false (summary && negb (smem p (pb_blind b))) (pb_chains b) calls tops /\
    final_ticks AX calls = {| tk_off := false; tk_major := negb (smem p (pb_blind b)); tk_minor := smem p (pb_logs b); tk_range := Some (lo, hi) |} /\
    final_ticks AY calls = {| tk_off := false; tk_major := false; tk_minor := false; tk_range := Some (0, (11 # 10) * m)%Q |} /\
    marks calls = plot_truths filled truths None (Some p) /\ current_label AX calls = p /\ current_label AY calls = "".
Proof.
  intros H HE. unfold distribution_panel in H. cbv zeta in H. rewrite HE in H. apply rbind_ok in H as [xlim [HX H]]. apply set_limits_ok in HX as [lo [hi [EE ->]]]. injection EE as ->.
  apply rbind_ok in H as [[bars top] [HB H]]. cbn [fst snd] in H. destruct top as [m|]; [|discriminate].
  apply (bars_panel_by (draws_plotted p)) in HB as [tops [BS [BM BB]]].
  2: { intros cf _. unfold draws_plotted. rewrite andb_true_iff, smem_In. reflexivity. }
  destruct (plot_truths_ok filled truths None (Some p)) as [l [_ [_ TM]]].
  exists lo, hi, tops, m. split; [reflexivity|]. split; [exact BM|].
  set (pre := [NoTicks AY] ++ (if smem p (pb_logs b) then [LogScale AX] else []) ++ (if smem p (pb_blind b) then [NoTicks AX] else [Locator AX (smem p (pb_logs b)) (p_max_ticks cfg)]) ++ [Limits AX lo hi]).
  set (post := plot_truths filled truths None (Some p) ++ [Limits AY 0 ((11 # 10) * m)%Q; AxisLabel AX p]).
  assert (E : calls = pre ++ bars ++ post). { injection H as <-. unfold pre, post. rewrite <- !app_assoc. reflexivity. }
  assert (BP : bars_of pre = []) by (unfold pre; destruct (smem p (pb_logs b)), (smem p (pb_blind b)); reflexivity).
  assert (BT : bars_of post = []). { unfold post. rewrite bars_app. unfold bars_of at 1. rewrite filter_none; [reflexivity|]. eapply Forall_impl; [|exact TM]. intros c; destruct c; cbn; congruence. }
  split; [rewrite E; apply BS; assumption|].
  assert (QB : forall d t, fold_left (tick_step d) bars t = t) by (intros d t; apply fold_quiet; eapply Forall_impl; [|exact BB]; exact is_bar_quiet).
  assert (QT : forall d t, fold_left (tick_step d) (plot_truths filled truths None (Some p)) t = t) by (intros d t; apply fold_quiet; eapply Forall_impl; [|exact TM]; exact is_mark_quiet).
  assert (LB : forall d t, fold_left (label_step d) bars t = t). { intros d t. clear -BB. revert t. induction BB as [|c r HC _ IH]; intros t; [reflexivity|]. cbn [fold_left]. rewrite IH. destruct c; try discriminate; reflexivity. }
  assert (LT : forall d t, fold_left (label_step d) (plot_truths filled truths None (Some p)) t = t). { intros d t. clear -TM. revert t. induction TM as [|c r HC _ IH]; intros t; [reflexivity|]. cbn [fold_left]. rewrite IH. destruct c; try discriminate; reflexivity. }
  rewrite E. unfold final_ticks, current_label. rewrite !fold_left_app, !QB, !LB. unfold post. rewrite !fold_left_app, !QT, !LT.
  split; [unfold pre; destruct (smem p (pb_logs b)), (smem p (pb_blind b)); reflexivity|]. split; [unfold pre; destruct (smem p (pb_logs b)), (smem p (pb_blind b)); reflexivity|].
  split.
  - rewrite !marks_app. assert (M1 : marks pre = []) by (unfold pre; destruct (smem p (pb_logs b)), (smem p (pb_blind b)); reflexivity). rewrite M1.
    assert (M2 : marks bars = []) by (unfold marks; apply filter_none; eapply Forall_impl; [|exact BB]; intros c; destruct c; cbn; congruence). rewrite M2. cbn [app]. unfold marks at 1. rewrite (filter_all _ _ TM). apply app_nil_r.
  - split; unfold pre; destruct (smem p (pb_logs b)), (smem p (pb_blind b)); reflexivity.
Qed.
