(** C46-C50, C65-C68: the triangle figure. *)
From Coq Require Import String Ascii List Bool Arith ZArith QArith Reals Lia Lqa.
From Verif Require Import Py NumSpec NumModel NumFacts HelpersSpec ColorModel HelpersModel MarginalModel FrameModel ConfigModel ChainModel RegistryModel RegistrySpec RegistryProofs RegistryProps ChainSpec ChainProofs ChainUseProofs DiagProofs
  TextModel AnalysisModel AnalysisSpec AnalysisProofs SurfaceModel PanelSpec SurfaceProofs PanelProofs FigureModel FigureSpec FigureProofs BarProofs TriangleProofs FigureCases.
Import ListNotations.
Open Scope string_scope.
Open Scope list_scope.

(** Every panel below the diagonal draws each truth on the axes of its two parameters, every panel on the
    diagonal along its one parameter, and the blank panels none. *)
Theorem C46_triangle : forall rgb2hex k s req columns file size s' fig chains cols cfg,
  reachable rgb2hex (s_world s) -> plots s req columns chains cols -> config_of s cfg -> plot k s req columns file size = (s', Ok fig) ->
  (forall i j calls, axis fig i j calls -> (i < j)%nat -> marks calls = []) /\
  forall i j px py calls, axis fig i j calls -> panel_at cfg cols i j px py -> (j <= i)%nat ->
    (~ diagonal cfg i j -> shows_truths (bk_filled k) (s_truths s) (Some px) (Some py) calls) /\
    (diagonal cfg i j -> ~ sideways cfg cols i -> shows_truths (bk_filled k) (s_truths s) (Some px) None calls) /\
    (diagonal cfg i j -> sideways cfg cols i -> shows_truths (bk_filled k) (s_truths s) None (Some py) calls).
Proof.
  intros rgb k s req columns file size s' fig chains cols cfg RE P HC H. destruct (plot_axes _ _ _ _ _ _ _ _ _ _ _ H (reachable_ok _ _ RE) P HC) as [b [<- [<- [B1 [B2 [B3 [N [G [BL PA]]]]]]]]].
  split; [intros i j calls HA HJ; rewrite (BL i j calls HA HJ), relabel_marks; reflexivity|].
  intros i j px py calls HA HP HJ. destruct (PA i j px py calls HP HJ HA) as [fc [pc [paths [K1 [K2 ->]]]]]. destruct (panel_frame _ _ _ _ _ _ _ _ K1 HJ) as [r [yr [_ [_ [_ [_ [_ [_ [M _]]]]]]]]].
  assert (DG : diagonal cfg i j -> px = py). { intros [E ->]. destruct HP as [Q1 Q2]. rewrite E in Q2. congruence. }
  assert (SD : forall X Y, diagonal cfg i j -> (if turned cfg b i then None else Some py) = X -> (if turned cfg b i then Some py else None) = Y ->
               shows_truths (bk_filled k) (s_truths s) X Y (relabel (bk_offset k) (triangle_size cfg (pb_columns b)) i j (fc ++ pc))).
  { intros X Y HD HX HY. destruct (diagonal_panel _ _ _ _ _ _ _ _ _ _ _ _ _ _ K2 HD) as [bars [tops [top [-> [_ [_ [HB _]]]]]]]. rewrite HX, HY.
    destruct (plot_truths_ok (bk_filled k) (s_truths s) X Y) as [l [L1 [L2 L3]]]. exists l. split; [exact L1|]. rewrite relabel_marks, !marks_app, M, (is_bar_no_mark _ HB). cbn [app].
    unfold marks at 1. rewrite (filter_all _ _ L3), L2. destruct top; cbn; apply app_nil_r. }
  split; [|split].
  - intros HD. destruct (surface_panel _ _ _ _ _ _ _ _ _ _ _ _ _ _ K2 HJ HD) as [ds [-> _]]. destruct (plot_truths_ok (bk_filled k) (s_truths s) (Some px) (Some py)) as [l [L1 [L2 L3]]]. exists l. split; [exact L1|].
    rewrite relabel_marks, !marks_app, M, marks_surfaces. cbn [app]. unfold marks. rewrite (filter_all _ _ L3). exact L2.
  - intros HD HS. apply (SD _ _ HD); destruct (turned cfg b i) eqn:ET; try (exfalso; apply HS, turned_iff; exact ET); [rewrite (DG HD)|]; reflexivity.
  - intros HD HS. apply turned_iff in HS. apply (SD _ _ HD); rewrite HS; reflexivity.
Qed.
Print Assumptions C46_triangle.

(** A hidden parameter shows no tick labels on any panel, and no title is written for it.  Missing: a
    logarithmic axis of at most a decade shows its minor ticks (C47_minor_refuted), and the colour bar of a
    hidden parameter shows its values (C47_colourbar_refuted). *)
Theorem C47_triangle_partial : forall rgb2hex k s req columns file size s' fig chains cols cfg,
  reachable rgb2hex (s_world s) -> plots s req columns chains cols -> config_of s cfg -> plot k s req columns file size = (s', Ok fig) ->
  (forall i j calls d, axis fig i j calls -> (i < j)%nat -> shows_ticks d calls = false) /\
  forall i j px py calls, axis fig i j calls -> panel_at cfg cols i j px py -> (j <= i)%nat ->
    (hidden (p_blind cfg) px -> no_minor_ticks (bk_num k) cfg true chains px -> shows_ticks AX calls = false) /\
    (hidden (p_blind cfg) py -> no_minor_ticks (bk_num k) cfg true chains py -> ~ diagonal cfg i j \/ sideways cfg cols i -> shows_ticks AY calls = false) /\
    (hidden (p_blind cfg) px -> diagonal cfg i j -> forall t, ~ In (Title t) calls).
Proof.
  intros rgb k s req columns file size s' fig chains cols cfg RE P HC H. destruct (plot_axes _ _ _ _ _ _ _ _ _ _ _ H (reachable_ok _ _ RE) P HC) as [b [<- [<- [B1 [B2 [B3 [N [G [BL PA]]]]]]]]].
  split; [intros i j calls d HA HJ; rewrite (BL i j calls HA HJ); unfold shows_ticks; rewrite relabel_ticks; destruct d; reflexivity|].
  intros i j px py calls HA HP HJ. destruct (PA i j px py calls HP HJ HA) as [fc [pc [paths [K1 [K2 ->]]]]]. destruct (panel_frame _ _ _ _ _ _ _ _ K1 HJ) as [r [yr [R1 [R2 [T1 [T2 _]]]]]].
  destruct (panel_at_bounds _ _ _ _ _ _ HP HJ) as [I1 [I2 [I3 I4]]].
  assert (DG : diagonal cfg i j -> px = py). { intros [E ->]. destruct HP as [Q1 Q2]. rewrite E in Q2. congruence. }
  assert (MN : forall p q, In p (pb_columns b) -> no_minor_ticks (bk_num k) cfg true (pb_chains b) p -> dget p (pb_extents b) = Some (Some q) -> smem p (pb_logs b) = true -> within_decade (Some q) = false).
  { intros p [lo hi] HI HN HE HL. rewrite B3 in HL. apply smem_In in HL. destruct (HN HL (lo, hi)) as [X1 X2]; [eapply extents_range; eassumption|]. cbn [fst snd] in *. unfold within_decade. apply negb_false_iff, andb_true_iff. split; apply qlt_true; assumption. }
  assert (DIA : diagonal cfg i j \/ ~ diagonal cfg i j). { destruct (p_plot_hists cfg && (i =? j)%nat) eqn:E; [left|right]; rewrite <- diagonal_bool; congruence. }
  split; [|split].
  - intros HB HN. apply (hidden_blind _ (pb_columns b) _ I3) in HB. rewrite <- B2 in HB. unfold shows_ticks. rewrite relabel_ticks, final_ticks_app, T1, HB. cbn [negb]. rewrite andb_false_r.
    destruct DIA as [HD|HD].
    + destruct (pc_ticks_diag _ _ _ _ _ _ _ _ _ _ _ _ _ _ AX {| tk_off := false; tk_major := false; tk_minor := logx_of cfg b (triangle_size cfg (pb_columns b)) j py px; tk_range := Some r |} K2 HD) as [E|[E1 [m E]]]; rewrite E; cbn [tk_off tk_major tk_minor tk_range negb andb orb].
      * destruct (logx_of _ _ _ _ _ _) eqn:EL; [|reflexivity]. cbn [andb]. apply (MN px); auto. unfold logx_of in EL. rewrite (DG HD) in *. rewrite String.eqb_refl in EL. apply andb_true_iff in EL. tauto.
      * (* sideways: the horizontal axis is not logarithmic *)
        assert (ET : turned cfg b i = true) by (destruct (turned cfg b i); congruence). apply turned_iff in ET as [F1 [F2 [F3 F4]]]. unfold logx_of. rewrite (DG HD), String.eqb_refl, F1. destruct HD as [_ <-]. subst i.
        unfold triangle_size. rewrite F2, F3. cbn [Nat.sub Nat.eqb andb negb]. rewrite andb_false_r. reflexivity.
    + rewrite (pc_ticks_surface _ _ _ _ _ _ _ _ _ _ _ _ _ _ _ _ K2 HJ HD). cbn [tk_off tk_major tk_minor tk_range negb andb orb]. destruct (logx_of _ _ _ _ _ _) eqn:EL; [|reflexivity]. cbn [andb]. apply (MN px); auto.
      unfold logx_of in EL. destruct (String.eqb py px) eqn:ES; [|exact EL]. apply String.eqb_eq in ES. subst. apply andb_true_iff in EL. tauto.
  - intros HB HN HW. apply (hidden_blind _ (pb_columns b) _ I4) in HB. rewrite <- B2 in HB. unfold shows_ticks. rewrite relabel_ticks, final_ticks_app, T2, HB. cbn [negb]. rewrite andb_false_r.
    assert (YC : ycond cfg i j = true).
    { unfold ycond. destruct HW as [HD|[F1 [F2 [F3 F4]]]]; [|subst; rewrite F1; apply orb_true_r]. apply orb_true_iff. left. rewrite <- negb_andb. apply negb_true_iff. rewrite andb_comm. destruct (p_plot_hists cfg && (i =? j)%nat) eqn:E; [|reflexivity]. exfalso. apply HD, diagonal_bool, E. }
    rewrite YC in R2. destruct R2 as [q [-> R2]].
    assert (E : fold_left (tick_step AY) pc {| tk_off := false; tk_major := false; tk_minor := logy_of cfg b (triangle_size cfg (pb_columns b)) j py px; tk_range := Some q |} = {| tk_off := false; tk_major := false; tk_minor := logy_of cfg b (triangle_size cfg (pb_columns b)) j py px; tk_range := Some q |}).
    { destruct DIA as [HD|HD]; [|apply (pc_ticks_surface _ _ _ _ _ _ _ _ _ _ _ _ _ _ _ _ K2 HJ HD)]. destruct (pc_ticks_diag _ _ _ _ _ _ _ _ _ _ _ _ _ _ AY {| tk_off := false; tk_major := false; tk_minor := logy_of cfg b (triangle_size cfg (pb_columns b)) j py px; tk_range := Some q |} K2 HD) as [E|[E1 [m E]]]; [exact E|].
      exfalso. destruct HW as [HW|HW]; [exact (HW HD)|]. apply turned_iff in HW. rewrite HW in E1. discriminate. }
    rewrite E. cbn [tk_off tk_major tk_minor tk_range negb andb orb]. destruct (logy_of _ _ _ _ _ _) eqn:EL; [|reflexivity]. cbn [andb]. apply (MN py); auto. unfold logy_of in EL. apply andb_true_iff in EL. tauto.
  - intros HB HD t HI. apply (hidden_blind _ (pb_columns b) _ I3) in HB. rewrite <- B2, (DG HD) in HB.
    assert (HI2 : In (Title t) (bars_of (relabel (bk_offset k) (triangle_size cfg (pb_columns b)) i j (fc ++ pc)))) by (apply filter_In; split; [exact HI|reflexivity]).
    destruct (panel_frame _ _ _ _ _ _ _ _ K1 HJ) as [r' [yr' [_ [_ [_ [_ [_ [_ [_ [BB _]]]]]]]]]].
    destruct (diagonal_panel _ _ _ _ _ _ _ _ _ _ _ _ _ _ K2 HD) as [bars [tops [top [-> [S1 _]]]]]. rewrite HB in S1. rewrite andb_false_r in S1.
    rewrite relabel_bars in HI2. destruct (plot_truths_ok (bk_filled k) (s_truths s) (if turned cfg b i then None else Some py) (if turned cfg b i then Some py else None)) as [l [_ [_ L3]]].
    destruct (S1 (fc ++ plot_truths (bk_filled k) (s_truths s) (if turned cfg b i then None else Some py) (if turned cfg b i then Some py else None)) match top with Some m => [Limits (if turned cfg b i then AX else AY) 0 ((11 # 10) * m)%Q] | None => [] end) as [drawn [groups [_ [L1 [L2 [GR ES]]]]]].
    { rewrite bars_app, BB, (is_mark_not_bar _ L3). reflexivity. }
    { destruct top; reflexivity. }
    rewrite <- app_assoc in ES. rewrite ES in HI2. apply in_concat in HI2 as [g [HG HT]]. apply In_nth_error in HG as [x HG].
    assert (LX : (x < length groups)%nat) by (apply nth_error_Some; congruence).
    destruct (nth_error drawn x) as [cf|] eqn:ED; [|apply nth_error_None in ED; lia]. destruct (nth_error tops x) as [tp|] eqn:ETP; [|apply nth_error_None in ETP; lia].
    destruct (GR x cf g tp ED HG ETP) as [out [xs [ys [fills [titles [-> [OO [_ CASES]]]]]]]].
    assert (NT : titles = [] /\ forall c, In c fills -> c <> Title t).
    { destruct CASES as [[_ [-> ->]]|[_ [bb [lw [up [ivs [bs [_ [_ [_ [_ [-> [_ ->]]]]]]]]]]]]]; (split; [reflexivity|]); [intros c []|]. intros c HIc. apply in_map_iff in HIc as [iv [<- _]]. discriminate. }
    destruct NT as [-> NF]. rewrite app_nil_r in HT. destruct HT as [HT|HT]; [destruct OO; discriminate|exact (NF _ HT eq_refl)].
Qed.
Print Assumptions C47_triangle_partial.

(** The grid is square; its blank half shows nothing. *)
Theorem C48_grid : forall rgb2hex k s req columns file size s' fig chains cols cfg,
  reachable rgb2hex (s_world s) -> plots s req columns chains cols -> config_of s cfg -> plot k s req columns file size = (s', Ok fig) ->
  (if p_plot_hists cfg then grid_shape fig (length cols) (length cols) else grid_shape fig (length cols - 1) (length cols - 1)) /\
  forall i j calls, axis fig i j calls -> (i < j)%nat -> In FrameOff calls /\ surfaces calls = [] /\ bars_of calls = [] /\ marks calls = [] /\ shows_ticks AX calls = false /\ shows_ticks AY calls = false /\
    current_label AX calls = "" /\ current_label AY calls = "".
Proof.
  intros rgb k s req columns file size s' fig chains cols cfg RE P HC H. destruct (plot_axes _ _ _ _ _ _ _ _ _ _ _ H (reachable_ok _ _ RE) P HC) as [b [<- [<- [B1 [B2 [B3 [N [G [BL PA]]]]]]]]].
  split; [unfold triangle_size in G; destruct (p_plot_hists cfg); exact G|]. intros i j calls HA HJ. destruct (axis_bounds _ _ _ _ _ _ G HA) as [I1 I2]. rewrite (BL i j calls HA HJ).
  unfold shows_ticks. rewrite relabel_surfaces, relabel_bars, relabel_marks, !relabel_ticks, !relabel_label. unfold relabel. destruct (Nat.eqb_spec i (triangle_size cfg (pb_columns b) - 1)); [lia|]. destruct (Nat.eqb_spec j 0); [lia|]. repeat split. left. reflexivity.
Qed.
Print Assumptions C48_grid.

(** Every unordered pair of different parameters has exactly one panel below the diagonal and every single
    parameter one on it; without distributions no panel shows a parameter against itself. *)
Theorem C48_once : forall cfg cols, NoDup cols ->
  (forall p q, In p cols -> In q cols -> p <> q ->
     exists i j, ((j <= i)%nat /\ (panel_at cfg cols i j p q \/ panel_at cfg cols i j q p)) /\
       forall i' j', (j' <= i')%nat -> panel_at cfg cols i' j' p q \/ panel_at cfg cols i' j' q p -> i' = i /\ j' = j) /\
  (p_plot_hists cfg = true -> forall p, In p cols -> exists i, panel_at cfg cols i i p p /\ forall i' j', panel_at cfg cols i' j' p p -> i' = i /\ j' = i) /\
  (p_plot_hists cfg = false -> forall i j p, (j <= i)%nat -> ~ panel_at cfg cols i j p p).
Proof.
  intros cfg cols ND.
  assert (U : forall a b p, nth_error cols a = Some p -> nth_error cols b = Some p -> a = b).
  { intros a b p Ha Hb. apply (proj1 (NoDup_nth_error cols) ND); [apply nth_error_Some; congruence|congruence]. }
  split; [|split].
  - assert (G : forall p q a b, nth_error cols a = Some p -> nth_error cols b = Some q -> (a < b)%nat -> exists i j, ((j <= i)%nat /\ panel_at cfg cols i j p q) /\ forall i' j', (j' <= i')%nat -> panel_at cfg cols i' j' p q \/ panel_at cfg cols i' j' q p -> i' = i /\ j' = j).
    { intros p q a b Ha Hb HL. exists (if p_plot_hists cfg then b else (b - 1)%nat), a. split.
      - split; [destruct (p_plot_hists cfg); lia|]. split; [exact Ha|]. destruct (p_plot_hists cfg); [exact Hb|]. replace (S (b - 1)) with b by lia. exact Hb.
      - intros i' j' HJ [[X1 X2]|[X1 X2]].
        + pose proof (U _ _ _ Ha X1). pose proof (U _ _ _ Hb X2). destruct (p_plot_hists cfg); split; lia.
        + pose proof (U _ _ _ Hb X1). pose proof (U _ _ _ Ha X2). exfalso. destruct (p_plot_hists cfg); lia. }
    intros p q Hp Hq NE. apply In_nth_error in Hp as [a Ha]. apply In_nth_error in Hq as [b Hb]. destruct (Nat.lt_trichotomy a b) as [L|[L|L]].
    + destruct (G p q a b Ha Hb L) as [i [j [[X1 X2] X3]]]. exists i, j. split; [auto|exact X3].
    + subst. congruence.
    + destruct (G q p b a Hb Ha L) as [i [j [[X1 X2] X3]]]. exists i, j. split; [auto|]. intros i' j' HJ HP. apply X3; [exact HJ|tauto].
  - intros E p Hp. apply In_nth_error in Hp as [a Ha]. exists a. unfold panel_at. rewrite E. split; [auto|]. intros i' j' [X1 X2]. split; eapply U; eassumption.
  - intros E i j p HJ [X1 X2]. rewrite E in X2. pose proof (U _ _ _ X1 X2). lia.
Qed.
Print Assumptions C48_once.

(** A panel below the diagonal shows, chain by chain, clouds, contours and points of its two parameters; one on
    the diagonal shows distributions only. *)
Theorem C48_panels : forall rgb2hex k s req columns file size s' fig chains cols cfg,
  reachable rgb2hex (s_world s) -> plots s req columns chains cols -> config_of s cfg -> plot k s req columns file size = (s', Ok fig) ->
  forall i j px py, panel_at cfg cols i j px py -> (j <= i)%nat -> exists calls, axis fig i j calls /\
    (~ diagonal cfg i j -> bars_of calls = [] /\ exists parts, Forall2 (panel_part px py) chains parts /\ surfaces calls = concat parts) /\
    (diagonal cfg i j -> px = py /\ surfaces calls = []).
Proof.
  intros rgb k s req columns file size s' fig chains cols cfg RE P HC H. destruct (plot_axes _ _ _ _ _ _ _ _ _ _ _ H (reachable_ok _ _ RE) P HC) as [b [<- [<- [B1 [B2 [B3 [N [G [BL PA]]]]]]]]].
  intros i j px py HP HJ. destruct (panel_at_bounds _ _ _ _ _ _ HP HJ) as [I1 [I2 _]].
  assert (HA : exists calls, axis fig i j calls).
  { destruct G as [G1 G2]. destruct (nth_error (fg_axes fig) i) as [row|] eqn:E1; [|apply nth_error_None in E1; lia]. pose proof (G2 row (nth_error_In _ _ E1)) as L.
    destruct (nth_error row j) as [calls|] eqn:E2; [exists calls, row; auto|apply nth_error_None in E2; lia]. }
  destruct HA as [calls HA]. exists calls. split; [exact HA|]. destruct (PA i j px py calls HP HJ HA) as [fc [pc [paths [K1 [K2 ->]]]]]. destruct (panel_frame _ _ _ _ _ _ _ _ K1 HJ) as [r [yr [_ [_ [_ [_ [_ [_ [_ [BB SS]]]]]]]]]].
  rewrite relabel_bars, relabel_surfaces, bars_app, surfaces_app, BB, SS. cbn [app]. split.
  - intros HD. destruct (surface_panel _ _ _ _ _ _ _ _ _ _ _ _ _ _ K2 HJ HD) as [ds [-> HS]]. destruct (plot_truths_ok (bk_filled k) (s_truths s) (Some px) (Some py)) as [l [_ [_ L3]]].
    rewrite bars_app, bars_surfaces, (is_mark_not_bar _ L3), surfaces_app, surfaces_map, (is_mark_no_surface _ L3). split; [reflexivity|]. rewrite app_nil_r. apply plot_surface_ok in HS as [HS _]. exact HS.
  - intros HD. destruct (diagonal_panel _ _ _ _ _ _ _ _ _ _ _ _ _ _ K2 HD) as [bars [tops [top [-> [_ [_ [HB _]]]]]]]. split; [destruct HD as [E ->]; destruct HP as [Q1 Q2]; rewrite E in Q2; congruence|].
    destruct (plot_truths_ok (bk_filled k) (s_truths s) (if turned cfg b i then None else Some py) (if turned cfg b i then Some py else None)) as [l [_ [_ L3]]].
    rewrite !surfaces_app, (is_mark_no_surface _ L3), (is_bar_no_surface _ HB). destruct top; reflexivity.
Qed.
Print Assumptions C48_panels.

(** The bottom row and the left column carry the labels and the ticks; the diagonal has no vertical label.
    Missing: with flip=True the last panel of the diagonal has neither (C48_flip_refuted). *)
Theorem C48_labels_partial : forall rgb2hex k s req columns file size s' fig chains cols cfg,
  reachable rgb2hex (s_world s) -> plots s req columns chains cols -> config_of s cfg -> plot k s req columns file size = (s', Ok fig) ->
  forall i j px py calls, axis fig i j calls -> panel_at cfg cols i j px py -> (j <= i)%nat ->
    let last_row := nth_error (fg_axes fig) (S i) = None in
    (last_row -> p_flip cfg = false \/ j <> i -> exists l, shown_label (p_labels cfg) px l /\ current_label AX calls = (l ++ " " ++ offset_text (bk_offset k AX i j))%string) /\
    (last_row -> p_flip cfg = false \/ j <> i -> ~ hidden (p_blind cfg) px -> shows_ticks AX calls = true) /\
    (~ last_row -> current_label AX calls = "" /\ (no_minor_ticks (bk_num k) cfg true chains px -> shows_ticks AX calls = false)) /\
    (j = 0%nat -> ~ diagonal cfg i j -> exists l, shown_label (p_labels cfg) py l /\ current_label AY calls = (l ++ " " ++ offset_text (bk_offset k AY i j))%string) /\
    (j = 0%nat -> ~ diagonal cfg i j -> ~ hidden (p_blind cfg) py -> shows_ticks AY calls = true) /\
    (j <> 0%nat -> current_label AY calls = "" /\ (~ diagonal cfg i j -> no_minor_ticks (bk_num k) cfg true chains py -> shows_ticks AY calls = false)).
Proof.
  intros rgb k s req columns file size s' fig chains cols cfg RE P HC H. destruct (plot_axes _ _ _ _ _ _ _ _ _ _ _ H (reachable_ok _ _ RE) P HC) as [b [<- [<- [B1 [B2 [B3 [N [G [BL PA]]]]]]]]].
  intros i j px py calls HA HP HJ last_row. destruct (PA i j px py calls HP HJ HA) as [fc [pc [paths [K1 [K2 ->]]]]]. destruct (panel_frame _ _ _ _ _ _ _ _ K1 HJ) as [r [yr [R1 [R2 [T1 [T2 [L1 [L2 _]]]]]]]].
  destruct (panel_at_bounds _ _ _ _ _ _ HP HJ) as [I1 [I2 [I3 I4]]]. set (n := triangle_size cfg (pb_columns b)) in *.
  assert (LR : last_row <-> i = (n - 1)%nat). { unfold last_row. rewrite nth_error_None. destruct G as [-> _]. lia. }
  assert (DIA : diagonal cfg i j \/ ~ diagonal cfg i j). { destruct (p_plot_hists cfg && (i =? j)%nat) eqn:E; [left|right]; rewrite <- diagonal_bool; congruence. }
  assert (MN : forall p q, In p (pb_columns b) -> no_minor_ticks (bk_num k) cfg true (pb_chains b) p -> dget p (pb_extents b) = Some (Some q) -> smem p (pb_logs b) = true -> within_decade (Some q) = false).
  { intros p [lo hi] HI HN HE HL. rewrite B3 in HL. apply smem_In in HL. destruct (HN HL (lo, hi)) as [X1 X2]; [eapply extents_range; eassumption|]. cbn [fst snd] in *. unfold within_decade. apply negb_false_iff, andb_true_iff. split; apply qlt_true; assumption. }
  assert (LX : current_label AX (relabel (bk_offset k) n i j (fc ++ pc)) = if (i =? n - 1)%nat then ((if bottom_of cfg n i j then label_of cfg px else "") ++ " " ++ offset_text (bk_offset k AX i j))%string else (if bottom_of cfg n i j then label_of cfg px else "")).
  { rewrite relabel_label, current_label_app, (pc_label _ _ _ _ _ _ _ _ _ _ _ _ _ _ _ _ K2 HJ), L1. destruct (bk_offset k AX i j); reflexivity. }
  assert (LY : current_label AY (relabel (bk_offset k) n i j (fc ++ pc)) = if (j =? 0)%nat then ((if left_of cfg i j then label_of cfg py else "") ++ " " ++ offset_text (bk_offset k AY i j))%string else (if left_of cfg i j then label_of cfg py else "")).
  { rewrite relabel_label, current_label_app, (pc_label _ _ _ _ _ _ _ _ _ _ _ _ _ _ _ _ K2 HJ), L2. destruct (bk_offset k AY i j); reflexivity. }
  assert (FX : exists x, tk_off (final_ticks AX (relabel (bk_offset k) n i j (fc ++ pc))) = false /\ tk_major (final_ticks AX (relabel (bk_offset k) n i j (fc ++ pc))) = bottom_of cfg n i j && negb (smem px (pb_blind b)) /\
    tk_minor (final_ticks AX (relabel (bk_offset k) n i j (fc ++ pc))) = logx_of cfg b n j py px /\ tk_range (final_ticks AX (relabel (bk_offset k) n i j (fc ++ pc))) = x /\ (~ (diagonal cfg i j /\ turned cfg b i = true) -> x = Some r)).
  { rewrite relabel_ticks, final_ticks_app, T1. destruct DIA as [HD|HD].
    - destruct (pc_ticks_diag _ _ _ _ _ _ _ _ _ _ _ _ _ _ AX {| tk_off := false; tk_major := bottom_of cfg n i j && negb (smem px (pb_blind b)); tk_minor := logx_of cfg b n j py px; tk_range := Some r |} K2 HD) as [E|[E1 [m E]]]; rewrite E; [exists (Some r); auto|]. eexists. do 4 (split; [reflexivity|]).
      intros NT. exfalso. apply NT. split; [exact HD|]. destruct (turned cfg b i); congruence.
    - rewrite (pc_ticks_surface _ _ _ _ _ _ _ _ _ _ _ _ _ _ _ _ K2 HJ HD). exists (Some r). auto. }
  destruct FX as [x [X1 [X2 [X3 [X4 X5]]]]]. unfold shows_ticks. rewrite X1, X2, X3, X4, LX, LY.
  assert (BO : last_row -> p_flip cfg = false \/ j <> i -> bottom_of cfg n i j = true).
  { intros HL HF. apply LR in HL. unfold bottom_of. rewrite HL, Nat.eqb_refl. cbn [andb]. destruct HF as [-> | HF]; [reflexivity|]. replace (j =? n - 1)%nat with false by (symmetry; apply Nat.eqb_neq; lia). rewrite andb_false_r. reflexivity. }
  assert (LE : j = 0%nat -> ~ diagonal cfg i j -> left_of cfg i j = true).
  { intros -> HD. unfold left_of. cbn [Nat.eqb andb]. apply negb_true_iff. destruct (p_plot_hists cfg && (i =? 0)%nat) eqn:E; [|reflexivity]. exfalso. apply HD, diagonal_bool. exact E. }
  split; [|split; [|split; [|split; [|split]]]].
  - intros HL HF. exists (label_of cfg px). split; [apply label_of_shown|]. rewrite (BO HL HF). apply LR in HL. rewrite HL at 1. rewrite Nat.eqb_refl. reflexivity.
  - intros HL HF NB. rewrite (BO HL HF). assert (EB : smem px (pb_blind b) = false) by (rewrite B2; destruct (smem px (sanitise_blinds (p_blind cfg) (pb_columns b))) eqn:EB; [exfalso; apply NB, (hidden_blind _ _ _ I3); exact EB|reflexivity]). rewrite EB. reflexivity.
  - intros HL. assert (E0 : (i =? n - 1)%nat = false) by (apply Nat.eqb_neq; tauto). assert (EB : bottom_of cfg n i j = false) by (unfold bottom_of; rewrite E0; reflexivity). rewrite E0, EB. split; [reflexivity|]. intros HN. cbn [negb andb orb].
    destruct (logx_of cfg b n j py px) eqn:EL; [|reflexivity]. cbn [andb].
    assert (NS : ~ (diagonal cfg i j /\ turned cfg b i = true)). { intros [[E ->] HT]. apply turned_iff in HT as [F1 [F2 [F3 F4]]]. apply HL, LR. unfold n, triangle_size. rewrite F2, F3. exact F4. }
    rewrite (X5 NS). apply (MN px); auto. unfold logx_of in EL. destruct (String.eqb py px) eqn:ES; [|exact EL]. apply String.eqb_eq in ES. subst. apply andb_true_iff in EL. tauto.
  - intros HJ0 HD. exists (label_of cfg py). split; [apply label_of_shown|]. rewrite (LE HJ0 HD), HJ0. reflexivity.
  - intros HJ0 HD NB. rewrite relabel_ticks, final_ticks_app, T2, (pc_ticks_surface _ _ _ _ _ _ _ _ _ _ _ _ _ _ _ _ K2 HJ HD). cbn [tk_off tk_major]. rewrite (LE HJ0 HD).
    assert (EB : smem py (pb_blind b) = false) by (rewrite B2; destruct (smem py (sanitise_blinds (p_blind cfg) (pb_columns b))) eqn:EB; [exfalso; apply NB, (hidden_blind _ _ _ I4); exact EB|reflexivity]). rewrite EB. reflexivity.
  - intros HJ0. assert (E0 : (j =? 0)%nat = false) by (apply Nat.eqb_neq; exact HJ0). assert (EL : left_of cfg i j = false) by (unfold left_of; rewrite E0; reflexivity). rewrite E0, EL. split; [reflexivity|].
    intros HD HN. rewrite relabel_ticks, final_ticks_app, T2, (pc_ticks_surface _ _ _ _ _ _ _ _ _ _ _ _ _ _ _ _ K2 HJ HD), EL. cbn [tk_off tk_major tk_minor tk_range negb andb orb].
    assert (YC : ycond cfg i j = true). { unfold ycond. apply orb_true_iff. left. rewrite <- negb_andb. apply negb_true_iff. rewrite andb_comm. destruct (p_plot_hists cfg && (i =? j)%nat) eqn:E; [|reflexivity]. exfalso. apply HD, diagonal_bool, E. }
    rewrite YC in R2. destruct R2 as [q [-> R2]]. destruct (logy_of _ _ _ _ _ _) eqn:EY; [|reflexivity]. cbn [andb]. apply (MN py); auto. unfold logy_of in EY. apply andb_true_iff in EY. tauto.
Qed.
Print Assumptions C48_labels_partial.

(** The legend is there exactly when wanted (by default: for more than one chain); it has one entry for every
    chain to be shown, in order, in the chain's colour and under its name.  It stands in the configured panel,
    otherwise in the upper right one (lower left if the second distribution is drawn sideways). *)
Theorem C49_legend : forall rgb2hex k s req columns file size s' fig chains cols cfg,
  reachable rgb2hex (s_world s) -> plots s req columns chains cols -> config_of s cfg -> plot k s req columns file size = (s', Ok fig) ->
  (~ legend_wanted cfg chains -> fg_legend fig = None) /\
  (legend_wanted cfg chains -> exists lg shown r c, fg_legend fig = Some lg /\
     those (fun cf => ch_showlabel (fst cf) = true) chains shown /\ Forall2 legend_entry shown (lg_handles lg) /\
     (p_legend_color_text cfg = true -> exists colours, lg_text_colors lg = Some colours /\ Forall2 (fun cf col => chain_colour (fst cf) = Ok col) shown colours) /\
     (p_legend_color_text cfg = false -> lg_text_colors lg = None) /\
     at_index (length (fg_axes fig)) r (lg_row lg) /\ at_index (length (fg_axes fig)) c (lg_col lg) /\
     (forall l, p_legend_location cfg = Some l -> (r, c) = l) /\
     (p_legend_location cfg = None -> sideways cfg cols 1 -> (r, c) = (-1, 0)%Z) /\ (p_legend_location cfg = None -> ~ sideways cfg cols 1 -> (r, c) = (0, -1)%Z)).
Proof.
  intros rgb k s req columns file size s' fig chains cols cfg RE P HC H. destruct (plot_axes _ _ _ _ _ _ _ _ _ _ _ H (reachable_ok _ _ RE) P HC) as [b0 [_ [E0 [_ [_ [_ [N0 [[G _] _]]]]]]]].
  destruct (plot_parts _ _ _ _ _ _ _ _ _ _ _ H (reachable_ok _ _ RE) P HC) as [b [<- [E1 HF]]]. apply plot_figure_parts in HF as [_ [_ [L1 [L2 _]]]]. split; [exact L2|].
  intros W. destruct (L1 W) as [lg [F1 F2]]. apply make_legend_ok in F2 as [r [c [shown [M1 [M2 [M3 [M4 [M5 [M6 _]]]]]]]]]. exists lg, shown, r, c. rewrite G, E0, <- E1.
  split; [exact F1|]. split; [exact M4|]. split; [exact M5|]. split; [intros EC; rewrite EC in M6; exact M6|]. split; [intros EC; rewrite EC in M6; exact M6|]. split; [exact M2|]. split; [exact M3|].
  assert (FL : flipped cfg b = true <-> sideways cfg (pb_columns b) 1). { unfold flipped, sideways. rewrite !andb_true_iff, Nat.eqb_eq. tauto. }
  split; [intros l EL; rewrite EL in M1; injection M1 as ->; reflexivity|]. split; intros EL HS; rewrite EL in M1; cbn in M1.
  - apply FL in HS. rewrite HS in M1. exact M1.
  - destruct (flipped cfg b); [exfalso; apply HS, FL; reflexivity|exact M1].
Qed.
Print Assumptions C49_legend.

(** The axis of a parameter has the user's range, otherwise the smallest range covering all chains. *)
Theorem C50_triangle : forall rgb2hex k s req columns file size s' fig chains cols cfg,
  reachable rgb2hex (s_world s) -> plots s req columns chains cols -> config_of s cfg -> plot k s req columns file size = (s', Ok fig) ->
  forall i j px py calls, axis fig i j calls -> panel_at cfg cols i j px py -> (j <= i)%nat ->
    (~ sideways cfg cols j -> exists r, range_of (bk_num k) cfg true chains px r /\ current_limits AX calls = Some r) /\
    (~ diagonal cfg i j \/ sideways cfg cols j -> exists r, range_of (bk_num k) cfg true chains py r /\ current_limits AY calls = Some r).
Proof.
  intros rgb k s req columns file size s' fig chains cols cfg RE P HC H. destruct (plot_axes _ _ _ _ _ _ _ _ _ _ _ H (reachable_ok _ _ RE) P HC) as [b [<- [<- [B1 [B2 [B3 [N [G [BL PA]]]]]]]]].
  intros i j px py calls HA HP HJ. destruct (PA i j px py calls HP HJ HA) as [fc [pc [paths [K1 [K2 ->]]]]]. destruct (panel_frame _ _ _ _ _ _ _ _ K1 HJ) as [r [yr [R1 [R2 [T1 [T2 _]]]]]].
  destruct (panel_at_bounds _ _ _ _ _ _ HP HJ) as [I1 [I2 [I3 I4]]].
  assert (DIA : diagonal cfg i j \/ ~ diagonal cfg i j). { destruct (p_plot_hists cfg && (i =? j)%nat) eqn:E; [left|right]; rewrite <- diagonal_bool; congruence. }
  unfold current_limits. rewrite !relabel_ticks, !final_ticks_app, T1, T2. split.
  - intros HS. exists r. split; [destruct r; eapply extents_range; eassumption|]. destruct DIA as [HD|HD]; [|rewrite (pc_ticks_surface _ _ _ _ _ _ _ _ _ _ _ _ _ _ _ _ K2 HJ HD); reflexivity].
    match goal with |- tk_range (fold_left _ _ ?t) = _ => destruct (pc_ticks_diag _ _ _ _ _ _ _ _ _ _ _ _ _ _ AX t K2 HD) as [E|[E1 [m E]]] end; rewrite E; [reflexivity|]. exfalso. apply HS. destruct HD as [_ <-]. apply turned_iff. destruct (turned cfg b i); congruence.
  - intros HW. assert (HW' : ~ diagonal cfg i j \/ sideways cfg (pb_columns b) i /\ diagonal cfg i j). { destruct HW as [HW|HW]; [auto|]. destruct DIA as [HD|HD]; [|auto]. right. split; [|exact HD]. destruct HD as [_ ->]. exact HW. }
    assert (YC : ycond cfg i j = true).
    { unfold ycond. destruct HW' as [HD|[[F1 [F2 [F3 F4]]] _]]; [|subst; rewrite F1; apply orb_true_r]. apply orb_true_iff. left. rewrite <- negb_andb. apply negb_true_iff. rewrite andb_comm. destruct (p_plot_hists cfg && (i =? j)%nat) eqn:E; [|reflexivity]. exfalso. apply HD, diagonal_bool, E. }
    rewrite YC in R2. destruct R2 as [q [-> R2]]. exists q. split; [destruct q; eapply extents_range; eassumption|].
    destruct HW' as [HD|[HS HD]]; [rewrite (pc_ticks_surface _ _ _ _ _ _ _ _ _ _ _ _ _ _ _ _ K2 HJ HD); reflexivity|].
    match goal with |- tk_range (fold_left _ _ ?t) = _ => destruct (pc_ticks_diag _ _ _ _ _ _ _ _ _ _ _ _ _ _ AY t K2 HD) as [E|[E1 [m E]]] end; rewrite E; [reflexivity|]. exfalso. apply turned_iff in HS. rewrite HS in E1. discriminate.
Qed.
Print Assumptions C50_triangle.

(** The size asked for, and one file for every name. *)
Theorem C65_triangle : forall rgb2hex k s req columns file size s' fig chains cols cfg,
  reachable rgb2hex (s_world s) -> plots s req columns chains cols -> config_of s cfg -> plot k s req columns file size = (s', Ok fig) ->
  figure_size (length cols) (exists cf p, In cf chains /\ ch_cfg (fst cf) Fcolor_param = Some p) size (fg_size fig) /\ saves cfg file (fg_saved fig).
Proof.
  intros rgb k s req columns file size s' fig chains cols cfg RE P HC H. destruct (plot_parts _ _ _ _ _ _ _ _ _ _ _ H (reachable_ok _ _ RE) P HC) as [b [<- [<- HF]]]. apply plot_figure_parts in HF as [H1 [H2 _]]. split; assumption.
Qed.
Print Assumptions C65_triangle.

(** The diagonal shows, for every chain that draws contours and has the parameter, its outline and its shaded
    intervals; the density axis ends at 1.1 times the highest value. *)
Theorem C66_triangle : forall rgb2hex k s req columns file size s' fig chains cols cfg,
  reachable rgb2hex (s_world s) -> plots s req columns chains cols -> config_of s cfg -> plot k s req columns file size = (s', Ok fig) ->
  forall i j px py calls, axis fig i j calls -> panel_at cfg cols i j px py -> diagonal cfg i j ->
    exists tops flip summary, (flip = true <-> sideways cfg cols i) /\ (summary = true <-> summarised cfg chains px) /\
      bars_shown (bk_num k) cfg px flip summary chains calls tops /\
      (tops = [] \/ exists m, is_max m tops /\ current_limits (if flip then AX else AY) calls = Some (0, (11 # 10) * m)%Q).
Proof.
  intros rgb k s req columns file size s' fig chains cols cfg RE P HC H. destruct (plot_axes _ _ _ _ _ _ _ _ _ _ _ H (reachable_ok _ _ RE) P HC) as [b [<- [<- [B1 [B2 [B3 [N [G [BL PA]]]]]]]]].
  intros i j px py calls HA HP HD. assert (HJ : (j <= i)%nat) by (destruct HD; lia). destruct (PA i j px py calls HP HJ HA) as [fc [pc [paths [K1 [K2 ->]]]]]. destruct (panel_frame _ _ _ _ _ _ _ _ K1 HJ) as [r [yr [_ [_ [_ [_ [_ [_ [_ [BB _]]]]]]]]]].
  assert (EP : px = py). { destruct HD as [E ->]. destruct HP as [Q1 Q2]. rewrite E in Q2. congruence. } subst py.
  destruct (panel_at_bounds _ _ _ _ _ _ HP HJ) as [_ [_ [I3 _]]].
  destruct (diagonal_panel _ _ _ _ _ _ _ _ _ _ _ _ _ _ K2 HD) as [bars [tops [top [-> [S1 [S2 _]]]]]].
  exists tops, (turned cfg b i), (p_summarise cfg && one_contour (pb_chains b) && negb (smem px (pb_blind b))).
  split; [symmetry; symmetry; apply turned_iff|]. split; [apply summary_flag; assumption|].
  destruct (plot_truths_ok (bk_filled k) (s_truths s) (if turned cfg b i then None else Some px) (if turned cfg b i then Some px else None)) as [l [_ [_ L3]]]. split.
  - specialize (S1 (fc ++ plot_truths (bk_filled k) (s_truths s) (if turned cfg b i then None else Some px) (if turned cfg b i then Some px else None)) match top with Some m => [Limits (if turned cfg b i then AX else AY) 0 ((11 # 10) * m)%Q] | None => [] end).
    destruct S1 as [drawn [groups [TH [E1 [E2 [GR ES]]]]]]; [rewrite bars_app, BB, (is_mark_not_bar _ L3); reflexivity|destruct top; reflexivity|]. exists drawn, groups. do 4 (split; [assumption|]). rewrite relabel_bars, <- ES. rewrite <- app_assoc. reflexivity.
  - destruct top as [m|]; [|left; exact S2]. right. exists m. split; [exact S2|]. unfold current_limits. rewrite relabel_ticks, !app_assoc, final_ticks_app. destruct (turned cfg b i); reflexivity.
Qed.
Print Assumptions C66_triangle.

(** One colour bar for every parameter that colours the points of a chain in some panel, under its label. *)
Theorem C67_colourbars : forall rgb2hex k s req columns file size s' fig chains cols cfg,
  reachable rgb2hex (s_world s) -> plots s req columns chains cols -> config_of s cfg -> plot k s req columns file size = (s', Ok fig) ->
  let coloured p h := exists i j px py cf, panel_at cfg cols i j px py /\ (j <= i)%nat /\ ~ diagonal cfg i j /\ In cf chains /\ wants_bar px py p h cf in
  exists params, NoDup params /\ (forall p, In p params <-> exists h, coloured p h) /\
    Forall2 (fun p bar => bar_text cfg p (fst bar) /\ coloured p (snd bar)) params (fg_bars fig).
Proof.
  intros rgb k s req columns file size s' fig chains cols cfg RE P HC H coloured. destruct (plot_parts _ _ _ _ _ _ _ _ _ _ _ H (reachable_ok _ _ RE) P HC) as [b [<- [<- HF]]].
  apply plot_figure_parts in HF as [_ [_ [_ [_ [_ [d [D1 [D2 [D3 D4]]]]]]]]]. exists (dkeys d). split; [exact D1|]. split.
  - intros p. split; [|intros [h [i [j [px [py [cf K]]]]]]; apply D4; exists i, j, px, py, cf, h; exact K]. intros HI. destruct (dget p d) as [h|] eqn:E; [|apply dget_None in E; contradiction]. exists h. exact (D3 p h E).
  - rewrite D2. assert (G : forall l, (forall kv, In kv l -> In kv d) -> Forall2 (fun p bar => bar_text cfg p (fst bar) /\ coloured p (snd bar)) (dkeys l) (map (fun kv : string * draw => (bar_label cfg (fst kv), snd kv)) l)); [|apply (G d); auto].
    induction l as [|[p h] l IH]; intros HL; cbn; constructor; [|apply IH; intros; apply HL; right; assumption]. cbn. split; [apply bar_label_ok|]. apply D3. apply dget_nodup; [exact D1|]. apply HL. left. reflexivity.
Qed.
Print Assumptions C67_colourbars.

(** A panel on the diagonal has a title exactly if there is one chain with contours, summaries are wanted and the
    parameter is not hidden, and the chain's summary has a text: the title is that text. *)
Theorem C68_title : forall rgb2hex k s req columns file size s' fig chains cols cfg,
  reachable rgb2hex (s_world s) -> plots s req columns chains cols -> config_of s cfg -> plot k s req columns file size = (s', Ok fig) ->
  forall i j p py calls, axis fig i j calls -> panel_at cfg cols i j p py -> (j <= i)%nat ->
    (~ diagonal cfg i j -> forall t, ~ In (Title t) calls) /\
    (diagonal cfg i j -> forall t, In (Title t) calls <-> summarised cfg chains p /\ t <> "" /\
      exists cf bs label stripped, In cf chains /\ draws_bars p cf /\ title_bounds (bk_num k) p cf bs /\ shown_label (p_labels cfg) p label /\ trimmed label stripped /\
        get_parameter_text bs true (Some stripped) = Ok t).
Proof.
  intros rgb k s req columns file size s' fig chains cols cfg RE P HC H i j p py calls HA HP HJ. split.
  - intros HD t HI. destruct (C48_panels _ _ _ _ _ _ _ _ _ _ _ _ RE P HC H i j p py HP HJ) as [calls' [[row' [A1 A2]] [F _]]]. destruct HA as [row [A3 A4]]. assert (calls' = calls) by congruence. subst. destruct (F HD) as [E _].
    assert (K : In (Title t) (bars_of calls)) by (apply filter_In; split; [exact HI|reflexivity]). rewrite E in K. destruct K.
  - intros HD t. destruct (C66_triangle _ _ _ _ _ _ _ _ _ _ _ _ RE P HC H i j p py calls HA HP HD) as [tops [flip [summary [_ [S1 [S2 _]]]]]]. rewrite (titles_shown _ _ _ _ _ _ _ _ _ S2), S1. reflexivity.
Qed.
Print Assumptions C68_title.

(** ** Examples and counterexamples *)
Lemma plots_by k s req columns file size s' fig names : plot k s req columns file size = (s', Ok fig) -> world_ok (s_world s) -> requested (s_world s) req = map Some names -> exists chains cols, plots s req columns chains cols.
Proof. intros H W R. unfold plot in H. destruct (with_base_ok _ _ _ _ _ _ _ _ _ H W R) as [b [B _]]. eauto. Qed.
(** Asked for the list [cs], these are the columns. *)
Lemma plots_columns s req cs chains cols : plots s req (Some cs) chains cols -> cols = cs.
Proof. intros [w1 [f1 [names [l1 [_ [_ [_ [_ A]]]]]]]]. exact A. Qed.
(** All hypotheses of the theorems above, for a session and a figure. *)
Definition drawn_figure (s : session) (cs : list string) (cfg : plot_config) (fig : figure) : Prop :=
  reachable ex_rgb (s_world s) /\ config_of s cfg /\ (exists s', plot ex_backend s ReqAll (Some cs) (FileOne "a.png") FGrow = (s', Ok fig)) /\ exists chains, plots s ReqAll (Some cs) chains cs.
Lemma drawn k1 k2 truths cfg cs fig : snd (plot ex_backend (fig_session k1 k2 truths cfg) ReqAll (Some cs) (FileOne "a.png") FGrow) = Ok fig ->
  requested (fig_world k1 k2) ReqAll = map Some ["A"; "B"] -> drawn_figure (fig_session k1 k2 truths cfg) cs cfg fig.
Proof.
  intros H HR. assert (E : exists s', plot ex_backend (fig_session k1 k2 truths cfg) ReqAll (Some cs) (FileOne "a.png") FGrow = (s', Ok fig)) by (destruct (plot _ _ _ _ _ _) as [s' r]; cbn [snd] in H; subst; eauto).
  split; [apply fig_reachable|]. split; [reflexivity|]. split; [exact E|]. destruct E as [s' E]. destruct (plots_by _ _ _ _ _ _ _ _ _ E (reachable_ok _ _ (fig_reachable k1 k2)) HR) as [chains [cols P]]. exists chains. rewrite <- (plots_columns _ _ _ _ _ P) at 2. exact P.
Qed.
Definition fig_get (r : session * res figure) : option figure := match snd r with Ok f => Some f | Err _ => None end.
Definition calls_of (fig : figure) (i j : nat) : list call := match nth_error (fg_axes fig) i with Some row => match nth_error row j with Some c => c | None => [] end | None => [] end.

(** Two chains of points, a hidden parameter, three truths: two marks below the diagonal, a legend in the corner,
    a colour bar. *)
Example C46_triangle_nonvacuous : exists fig, drawn_figure (fig_pair (fig_cfg false true (BlindList ["y"]) [])) ["x"; "y"] (fig_cfg false true (BlindList ["y"]) []) fig /\
  length (marks (calls_of fig 1 0)) = 2%nat /\ length (marks (calls_of fig 0 0)) = 2%nat /\ length (marks (calls_of fig 1 1)) = 1%nat /\
  (shows_ticks AX (calls_of fig 1 0), shows_ticks AY (calls_of fig 1 0), shows_ticks AX (calls_of fig 1 1)) = (true, false, false) /\
  current_label AX (calls_of fig 1 0) = "$x$ [1e3]" /\ length (surfaces (calls_of fig 1 0)) = 2%nat /\ (exists lg, fg_legend fig = Some lg /\ map ar_label (lg_handles lg) = ["  A"; "  B"]) /\ current_limits AX (calls_of fig 1 1) = Some (2, 6)%Q /\
  map fst (fg_bars fig) = ["z"] /\ fg_size fig = (8, 7)%Q /\ fg_saved fig = [("a.png", 200%Z)].
Proof. eexists. split; [apply drawn; vm_compute; reflexivity|]. repeat (split; [vm_compute; reflexivity|]). split; [eexists; split; vm_compute; reflexivity|]. repeat split. Qed.
(** One chain with contours: its distribution, shaded, under a title. *)
Example C66_triangle_nonvacuous : exists fig, drawn_figure (fig_mixed (fig_cfg false true BlindNone [])) ["x"] (fig_cfg false true BlindNone []) fig /\
  map (fun c => match c with Curve _ _ _ _ _ _ _ => 1 | Bars _ _ _ _ _ _ _ => 2 | Fill _ _ _ _ _ _ _ _ => 3 | _ => 4 end)%nat (bars_of (calls_of fig 0 0)) = [2; 3; 4]%nat /\ In (Title "$x = 0.0^{+1.0}_{-0.0}$") (calls_of fig 0 0).
Proof. eexists. split; [apply drawn; vm_compute; reflexivity|]. split; [vm_compute; reflexivity|]. vm_compute. tauto. Qed.
(** Without distributions, and with the second one sideways. *)
Example C48_nonvacuous : (exists fig, drawn_figure (fig_pair (fig_cfg false false BlindNone [])) ["x"; "y"] (fig_cfg false false BlindNone []) fig /\ grid_shape fig 1 1) /\
  (exists fig, drawn_figure (fig_pair (fig_cfg true true BlindNone [])) ["x"; "y"] (fig_cfg true true BlindNone []) fig /\ sideways (fig_cfg true true BlindNone []) ["x"; "y"] 1 /\ current_limits AY (calls_of fig 1 1) = Some (2, 6)%Q /\ exists lg, fg_legend fig = Some lg /\ (lg_row lg, lg_col lg) = (1, 0)%nat).
Proof.
  split; (eexists; split; [apply drawn; vm_compute; reflexivity|]).
  - split; [reflexivity|]. intros row [<-|[]]. reflexivity.
  - split; [repeat split|]. split; [vm_compute; reflexivity|]. eexists. split; vm_compute; reflexivity.
Qed.

(** A hidden parameter on a logarithmic axis of at most a decade: its minor ticks are labelled. *)
Theorem C47_minor_refuted : exists rgb2hex k s req columns file size s' fig chains cols cfg i j px py calls,
  reachable rgb2hex (s_world s) /\ plots s req columns chains cols /\ config_of s cfg /\ plot k s req columns file size = (s', Ok fig) /\
  axis fig i j calls /\ panel_at cfg cols i j px py /\ (j <= i)%nat /\ hidden (p_blind cfg) px /\ shows_ticks AX calls = true.
Proof.
  destruct (plot ex_backend (fig_mixed (fig_cfg false true (BlindList ["y"]) ["y"])) ReqAll (Some ["y"]) (FileOne "a.png") FGrow) as [s' r] eqn:E.
  assert (ER : exists fig, r = Ok fig /\ shows_ticks AX (calls_of fig 0 0) = true /\ axis fig 0 0 (calls_of fig 0 0)).
  { pose proof (f_equal snd E) as ES. cbn [snd] in ES. rewrite <- ES. eexists. split; [vm_compute; reflexivity|]. split; [vm_compute; reflexivity|]. eexists. split; reflexivity. }
  destruct ER as [fig [-> [T A]]]. destruct (drawn (kset no_kw Fsmooth (Some 0%Z)) cloud_kw fig_truths (fig_cfg false true (BlindList ["y"]) ["y"]) ["y"] fig) as [R [C [_ [chains P]]]]; [exact (f_equal snd E)|vm_compute; reflexivity|].
  exists ex_rgb, ex_backend, (fig_mixed (fig_cfg false true (BlindList ["y"]) ["y"])), ReqAll, (Some ["y"]), (FileOne "a.png"), FGrow, s', fig, chains, ["y"], (fig_cfg false true (BlindList ["y"]) ["y"]), 0%nat, 0%nat, "y", "y", (calls_of fig 0 0).
  do 4 (split; [assumption|]). split; [exact A|]. split; [split; reflexivity|]. split; [lia|]. split; [left; reflexivity|exact T].
Qed.
Print Assumptions C47_minor_refuted.
(** The colour bar of a hidden parameter shows its values. *)
Theorem C47_colourbar_refuted : exists rgb2hex k s req columns file size s' fig chains cols cfg p t points values cmap ms marker zorder,
  reachable rgb2hex (s_world s) /\ plots s req columns chains cols /\ config_of s cfg /\ plot k s req columns file size = (s', Ok fig) /\
  hidden (p_blind cfg) p /\ bar_text cfg p t /\ In (t, Scatter points (ByValue values cmap) ms marker zorder) (fg_bars fig).
Proof.
  set (cfg := fig_cfg false true (BlindList ["z"]) []). destruct (plot ex_backend (fig_pair cfg) ReqAll (Some ["x"; "y"]) (FileOne "a.png") FGrow) as [s' r] eqn:E.
  assert (ER : exists fig, r = Ok fig /\ fg_bars fig = [("z", Scatter [(0, 4); (1, 2); (2, 6)] (ByValue [1; 3; 2] "viridis") 10 "." 5)]%Q).
  { pose proof (f_equal snd E) as ES. cbn [snd] in ES. rewrite <- ES. eexists. split; vm_compute; reflexivity. }
  destruct ER as [fig [-> T]]. destruct (drawn cloud_z cloud_kw fig_truths cfg ["x"; "y"] fig) as [R [C [_ [chains P]]]]; [exact (f_equal snd E)|vm_compute; reflexivity|].
  exists ex_rgb, ex_backend, (fig_pair cfg), ReqAll, (Some ["x"; "y"]), (FileOne "a.png"), FGrow, s', fig, chains, ["x"; "y"], cfg, "z", "z". do 6 eexists.
  do 4 (split; [eassumption|]). split; [left; reflexivity|]. split; [exists "z"; split; reflexivity|]. rewrite T. left. reflexivity.
Qed.
Print Assumptions C47_colourbar_refuted.
(** With flip=True a figure of one parameter, whose distribution is not drawn sideways, has no label and no ticks
    on its only axis. *)
Theorem C48_flip_refuted : exists rgb2hex k s req columns file size s' fig chains p cfg calls,
  reachable rgb2hex (s_world s) /\ plots s req columns chains [p] /\ config_of s cfg /\ plot k s req columns file size = (s', Ok fig) /\
  axis fig 0 0 calls /\ panel_at cfg [p] 0 0 p p /\ ~ sideways cfg [p] 0 /\ ~ hidden (p_blind cfg) p /\ shown_label (p_labels cfg) p "$x$" /\
  current_label AX calls = " " /\ shows_ticks AX calls = false.
Proof.
  set (cfg := fig_cfg true true BlindNone []). destruct (plot ex_backend (fig_mixed cfg) ReqAll (Some ["x"]) (FileOne "a.png") FGrow) as [s' r] eqn:E.
  assert (ER : exists fig, r = Ok fig /\ shows_ticks AX (calls_of fig 0 0) = false /\ current_label AX (calls_of fig 0 0) = " " /\ axis fig 0 0 (calls_of fig 0 0)).
  { pose proof (f_equal snd E) as ES. cbn [snd] in ES. rewrite <- ES. eexists. split; [vm_compute; reflexivity|]. split; [vm_compute; reflexivity|]. split; [vm_compute; reflexivity|]. eexists. split; reflexivity. }
  destruct ER as [fig [-> [T [L A]]]]. destruct (drawn (kset no_kw Fsmooth (Some 0%Z)) cloud_kw fig_truths cfg ["x"] fig) as [R [C [_ [chains P]]]]; [exact (f_equal snd E)|vm_compute; reflexivity|].
  exists ex_rgb, ex_backend, (fig_mixed cfg), ReqAll, (Some ["x"]), (FileOne "a.png"), FGrow, s', fig, chains, "x", cfg, (calls_of fig 0 0).
  do 4 (split; [assumption|]). split; [exact A|]. split; [split; reflexivity|]. split; [intros [_ [_ [K _]]]; discriminate|]. split; [intros []|]. split; [reflexivity|]. split; assumption.
Qed.
Print Assumptions C48_flip_refuted.
