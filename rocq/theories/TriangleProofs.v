(** Lemmas about the triangle figure. *)
From Coq Require Import String Ascii List Bool Arith ZArith QArith Reals Lia Lqa.
From Verif Require Import Py NumSpec NumModel NumFacts HelpersSpec ColorModel HelpersModel MarginalModel FrameModel ConfigModel ChainModel RegistryModel RegistrySpec RegistryProofs ChainSpec ChainProofs ChainUseProofs DiagProofs
  TextModel AnalysisModel AnalysisSpec AnalysisProofs SurfaceModel PanelSpec SurfaceProofs PanelProofs FigureModel FigureSpec FigureProofs BarProofs.
Import ListNotations.
Open Scope string_scope.
Open Scope list_scope.

Lemma selected_fun h finals b names l1 : selected h finals b names l1 -> forall l2, selected h finals b names l2 -> l1 = l2.
Proof.
  induction 1 as [|n ns l ls c H1 H2 H3 H4 H IH|n ns l ls c H1 H2 H3 H4 H5 H IH]; intros l2 K; inversion K as [|n' ns' l' ls' c' J1 J2 J3 J4 J5|n' ns' l' ls' c' J1 J2 J3 J4 J5 J6]; subst; try reflexivity.
  - assert (l = l') by congruence. subst. f_equal. apply IH. assumption.
  - assert (l = l') by congruence. subst. assert (c = c') by congruence. subst. destruct H4; [congruence|contradiction].
  - assert (l = l') by congruence. subst. assert (c = c') by congruence. subst. destruct J4; [congruence|contradiction].
  - apply IH. assumption.
Qed.
Lemma first_seen_fun l u : first_seen l u -> forall v, first_seen l v -> u = v.
Proof. induction 1 as [|x l u H IH]; intros v K; inversion K; subst; [reflexivity|]. f_equal. apply IH. assumption. Qed.
Lemma map_Some_inj {A} (l m : list A) : map Some l = map Some m -> l = m.
Proof. revert m. induction l as [|x l IH]; intros [|y m] H; try discriminate; [reflexivity|]. injection H as -> H. f_equal. apply IH. exact H. Qed.
Lemma plots_fun s req columns c1 p1 c2 p2 : plots s req columns c1 p1 -> plots s req columns c2 p2 -> c1 = c2 /\ p1 = p2.
Proof.
  intros [w1 [f1 [n1 [l1 [A1 [A2 [A3 [A4 A5]]]]]]]] [w2 [f2 [n2 [l2 [B1 [B2 [B3 [B4 B5]]]]]]]].
  rewrite A1 in B1. injection B1 as <- <-. rewrite A2 in B2. apply map_Some_inj in B2. subst n2. rewrite (selected_fun _ _ _ _ _ A3 _ B3) in A4. pose proof (objects_fun _ _ _ _ A4 B4). subst c2. split; [reflexivity|].
  destruct columns; cbn [AnalysisSpec.asked] in *; [congruence|]. exact (first_seen_fun _ _ A5 _ B5).
Qed.
(** Every successful plotting call plots the chains and columns of the property. *)
Lemma with_base_plots num s req columns wide k s' fig chains cols : with_base num s req columns wide k = (s', Ok fig) -> world_ok (s_world s) -> plots s req columns chains cols ->
  forall cfg, config_of s cfg ->
  exists b, pb_chains b = chains /\ pb_columns b = cols /\ k cfg (s_truths s) b = Ok fig /\
    get_custom_extents num wide (p_extents cfg) chains cols = Ok (pb_extents b) /\
    pb_blind b = sanitise_blinds (p_blind cfg) cols /\ pb_logs b = p_log_scales cfg.
Proof.
  intros H W P cfg HC. pose proof P as P0. destruct P as [w1 [f1 [names [l1 [A1 [A2 _]]]]]]. destruct (with_base_ok _ _ _ _ _ _ _ _ _ H W A2) as [b [B1 [B2 [B3 [B4 B5]]]]].
  destruct (plots_fun _ _ _ _ _ _ _ B1 P0) as [<- <-]. assert (E : config_in_use (s_plotter s) = cfg).
  { pose proof (config_in_use_ok s) as HD. unfold config_of, given in *. destruct (pl_config _); congruence. }
  rewrite E in *. exists b. auto 10.
Qed.
Lemma hidden_blind blind cols p : In p cols -> smem p (sanitise_blinds blind cols) = true <-> hidden blind p.
Proof.
  intros HI. rewrite smem_In. destruct blind as [|[|]|l]; cbn; [tauto|split; auto|split; [tauto|discriminate]|tauto].
Qed.
Lemma final_ticks_app d a b : final_ticks d (a ++ b) = fold_left (tick_step d) b (final_ticks d a).
Proof. unfold final_ticks. apply fold_left_app. Qed.
Lemma current_label_app d a b : current_label d (a ++ b) = fold_left (label_step d) b (current_label d a).
Proof. unfold current_label. apply fold_left_app. Qed.

(** ** The frame of a panel *)
Definition bottom_of (cfg : plot_config) (n i j : nat) : bool := (i =? n - 1)%nat && negb (p_flip cfg && (j =? n - 1)%nat).
Definition left_of (cfg : plot_config) (i j : nat) : bool := (j =? 0)%nat && negb (p_plot_hists cfg && (i =? 0)%nat).
Definition ycond (cfg : plot_config) (i j : nat) : bool := (negb (i =? j)%nat || negb (p_plot_hists cfg)) || (p_flip cfg && (i =? 1)%nat).
Definition logx_of (cfg : plot_config) (b : plot_base) (n j : nat) (p1 p2 : string) : bool :=
  if String.eqb p1 p2 then smem p1 (pb_logs b) && negb (p_flip cfg && (j =? n - 1)%nat) else smem p2 (pb_logs b).
Definition logy_of (cfg : plot_config) (b : plot_base) (n j : nat) (p1 p2 : string) : bool :=
  smem p1 (pb_logs b) && (negb (String.eqb p1 p2) || p_flip cfg && (j =? n - 1)%nat).
Lemma blank_panel cfg b n i j p1 p2 fc : triangle_panel cfg b n i j p1 p2 = Ok fc -> (i < j)%nat -> fc = [FrameOff; NoTicks AX; NoTicks AY].
Proof. unfold triangle_panel. intros H HJ. destruct (Nat.ltb_spec i j); [congruence|lia]. Qed.
Lemma panel_frame cfg b n i j p1 p2 fc : triangle_panel cfg b n i j p1 p2 = Ok fc -> (j <= i)%nat ->
  exists r yr, dget p2 (pb_extents b) = Some (Some r) /\ (if ycond cfg i j then exists q, yr = Some q /\ dget p1 (pb_extents b) = Some (Some q) else yr = None) /\
  final_ticks AX fc = {| tk_off := false; tk_major := bottom_of cfg n i j && negb (smem p2 (pb_blind b)); tk_minor := logx_of cfg b n j p1 p2; tk_range := Some r |} /\
  final_ticks AY fc = {| tk_off := false; tk_major := left_of cfg i j && negb (smem p1 (pb_blind b)); tk_minor := logy_of cfg b n j p1 p2; tk_range := yr |} /\
  current_label AX fc = (if bottom_of cfg n i j then label_of cfg p2 else "") /\ current_label AY fc = (if left_of cfg i j then label_of cfg p1 else "") /\
  marks fc = [] /\ bars_of fc = [] /\ surfaces fc = [].
Proof.
  unfold triangle_panel. intros H HJ. destruct (Nat.ltb_spec i j); [lia|]. cbv zeta in H. fold (bottom_of cfg n i j) (left_of cfg i j) (ycond cfg i j) (logx_of cfg b n j p1 p2) (logy_of cfg b n j p1 p2) in H.
  apply rbind_ok in H as [yl [HY H]]. apply rbind_ok in H as [xl [HX H]]. injection H as <-. apply set_limits_ok in HX as [lo [hi [HX ->]]]. exists (lo, hi).
  assert (GY : exists yr, (if ycond cfg i j then exists q, yr = Some q /\ dget p1 (pb_extents b) = Some (Some q) else yr = None) /\ yl = match yr with Some (a, c) => [Limits AY a c] | None => [] end).
  { destruct (ycond cfg i j); [|injection HY as <-; exists None; split; reflexivity]. apply set_limits_ok in HY as [l2 [h2 [HY ->]]]. exists (Some (l2, h2)). split; [exists (l2, h2); auto|reflexivity]. }
  destruct GY as [yr [G1 ->]]. exists yr. split; [exact HX|]. split; [exact G1|]. clear.
  generalize (bottom_of cfg n i j), (left_of cfg i j), (logx_of cfg b n j p1 p2), (logy_of cfg b n j p1 p2), (smem p1 (pb_blind b)), (smem p2 (pb_blind b)), (label_of cfg p1), (label_of cfg p2).
  intros bo le lx ly b1 b2 l1 l2. destruct bo, le, lx, ly, b1, b2, yr as [[a c]|]; repeat split.
Qed.

(** ** The contents of a panel *)
Lemma axis_bounds fig n m i j calls : grid_shape fig n m -> axis fig i j calls -> (i < n)%nat /\ (j < m)%nat.
Proof.
  intros [G1 G2] [row [A1 A2]]. split; [rewrite <- G1; apply nth_error_Some; congruence|]. rewrite <- (G2 row); [apply nth_error_Some; congruence|]. apply nth_error_In in A1. exact A1.
Qed.
Lemma panel_at_bounds cfg cols i j px py : panel_at cfg cols i j px py -> (j <= i)%nat -> (i < triangle_size cfg cols)%nat /\ (j < triangle_size cfg cols)%nat /\ In px cols /\ In py cols.
Proof.
  unfold panel_at, triangle_size. intros [H1 H2] HJ. assert (In px cols) by (apply nth_error_In in H1; exact H1). assert (In py cols) by (apply nth_error_In in H2; exact H2).
  assert (H3 : (j < length cols)%nat) by (apply nth_error_Some; congruence). destruct (p_plot_hists cfg).
  - assert ((i < length cols)%nat) by (apply nth_error_Some; congruence). auto.
  - assert ((S i < length cols)%nat) by (apply nth_error_Some; congruence). repeat split; auto; lia.
Qed.
Definition turned (cfg : plot_config) (b : plot_base) (i : nat) : bool := flipped cfg b && (i =? length (params_x cfg (pb_columns b)) - 1)%nat.
Lemma turned_iff cfg b i : turned cfg b i = true <-> sideways cfg (pb_columns b) i.
Proof.
  unfold turned, flipped, sideways. rewrite params_x_length. unfold triangle_size. split.
  - intros H. apply andb_true_iff in H as [H H4]. apply andb_true_iff in H as [H H3]. apply andb_true_iff in H as [H1 H2]. rewrite H2 in H4. apply Nat.eqb_eq in H1, H4. repeat split; auto. lia.
  - intros [H1 [H2 [H3 H4]]]. rewrite H1, H2, H3. subst. reflexivity.
Qed.
Lemma diagonal_bool cfg i j : p_plot_hists cfg && (i =? j)%nat = true <-> diagonal cfg i j.
Proof. unfold diagonal. rewrite andb_true_iff, Nat.eqb_eq. reflexivity. Qed.
Lemma is_mark_not_bar l : Forall (fun c => is_mark c = true) l -> bars_of l = [].
Proof. intros H. apply filter_none. eapply Forall_impl; [|exact H]. intros [] K; cbn in *; congruence. Qed.
Lemma is_mark_no_surface l : Forall (fun c => is_mark c = true) l -> surfaces l = [].
Proof. induction 1 as [|c l H _ IH]; [reflexivity|]. unfold surfaces in *. cbn [flat_map]. rewrite IH. destruct c; cbn in *; congruence. Qed.
Lemma is_bar_no_mark l : Forall (fun c => is_bar c = true) l -> marks l = [].
Proof. intros H. apply filter_none. eapply Forall_impl; [|exact H]. intros [] K; cbn in *; congruence. Qed.
Lemma is_bar_no_surface l : Forall (fun c => is_bar c = true) l -> surfaces l = [].
Proof. induction 1 as [|c l H _ IH]; [reflexivity|]. unfold surfaces in *. cbn [flat_map]. rewrite IH. destruct c; cbn in *; congruence. Qed.
Lemma marks_app a b : marks (a ++ b) = marks a ++ marks b. Proof. apply filter_app. Qed.
Lemma bars_app a b : bars_of (a ++ b) = bars_of a ++ bars_of b. Proof. apply filter_app. Qed.
Lemma surfaces_app a b : surfaces (a ++ b) = surfaces a ++ surfaces b. Proof. apply flat_map_app. Qed.
Lemma surfaces_map l : surfaces (map Surface l) = l.
Proof. induction l as [|d l IH]; [reflexivity|]. unfold surfaces in *. cbn [map flat_map]. rewrite IH. reflexivity. Qed.
Lemma marks_surfaces l : marks (map Surface l) = [].
Proof. induction l; [reflexivity|assumption]. Qed.
Lemma bars_surfaces l : bars_of (map Surface l) = [].
Proof. induction l; [reflexivity|assumption]. Qed.
Lemma surfaces_quiet l : Forall quiet (map Surface l).
Proof. induction l; constructor; [intros d t; reflexivity|assumption]. Qed.
Definition unlabelled (c : call) : Prop := forall d s, label_step d s c = s.
Lemma fold_unlabelled d l s : Forall unlabelled l -> fold_left (label_step d) l s = s.
Proof. intros H. revert s. induction H as [|c l H _ IH]; intros s; [reflexivity|]. cbn [fold_left]. rewrite H. apply IH. Qed.
Lemma is_bar_unlabelled c : is_bar c = true -> unlabelled c.
Proof. destruct c; cbn; intros H; try discriminate; intros d t; reflexivity. Qed.
Lemma is_mark_unlabelled c : is_mark c = true -> unlabelled c.
Proof. destruct c; cbn; intros H; try discriminate; intros d t; reflexivity. Qed.
Lemma surfaces_unlabelled l : Forall unlabelled (map Surface l).
Proof. induction l; constructor; [intros d t; reflexivity|assumption]. Qed.
Definition one_contour (chains : list (chain * frame)) : bool := (length (filter (fun cf => ch_cfg (fst cf) Fplot_contour) chains) =? 1)%nat.
Lemma one_contour_iff chains : one_contour chains = true <-> exists cf, those (fun cf => ch_cfg (fst cf) Fplot_contour = true) chains [cf].
Proof.
  unfold one_contour. rewrite Nat.eqb_eq. pose proof (those_filter (fun cf : chain * frame => ch_cfg (fst cf) Fplot_contour = true) (fun cf => ch_cfg (fst cf) Fplot_contour) chains (fun x _ => iff_refl _)) as T.
  assert (F : forall (A : Type) (P : A -> Prop) l a b, those P l a -> those P l b -> a = b).
  { intros A P l a b Ha. revert b. induction Ha as [|x l l' H1 H2 IH|x l l' H1 H2 IH]; intros b Hb; inversion Hb; subst; try contradiction; [reflexivity|f_equal; apply IH; assumption|apply IH; assumption]. }
  split.
  - intros L. destruct (filter _ chains) as [|x [|y r]]; try discriminate. exists x. exact T.
  - intros [cf H]. rewrite (F _ _ _ _ _ T H). reflexivity.
Qed.

Section contents.
Variables (num : numerics) (kde2 : list Q -> list Q -> list Q -> Q -> Q * Q -> Q) (argsort : list Q -> list nat) (Phi : R -> R) (filled : string -> bool).
Notation plot_panel := (plot_panel num kde2 argsort Phi filled).
Lemma diagonal_panel cfg truths b i j p1 p2 pc paths : plot_panel cfg truths b i j p1 p2 = Ok (pc, paths) -> diagonal cfg i j ->
  exists bars tops top, pc = plot_truths filled truths (if turned cfg b i then None else Some p1) (if turned cfg b i then Some p1 else None) ++ bars ++ match top with Some m => [Limits (if turned cfg b i then AX else AY) 0 ((11 # 10) * m)%Q] | None => [] end /\
    (forall before rest, bars_of before = [] -> bars_of rest = [] ->
      bars_shown num cfg p1 (turned cfg b i) (p_summarise cfg && one_contour (pb_chains b) && negb (smem p1 (pb_blind b))) (pb_chains b) (before ++ bars ++ rest) tops) /\
    match top with None => tops = [] | Some m => is_max m tops end /\ Forall (fun c => is_bar c = true) bars /\ paths = [].
Proof.
  intros H HD. unfold FigureModel.plot_panel in H. destruct HD as [HH ->]. rewrite Nat.ltb_irrefl in H. cbv zeta in H. fold (turned cfg b j) (one_contour (pb_chains b)) in H.
  rewrite HH, Nat.eqb_refl in H. cbn [andb] in H. apply rbind_ok in H as [[bars top] [HB H]]. cbn [fst snd] in H. injection H as <- <-.
  apply bars_panel_ok in HB as [tops [B1 [B2 B3]]].
  - exists bars, tops, top. split; [destruct (turned cfg b j); reflexivity|]. split; [intros before rest G1 G2; apply B1; assumption|]. auto.
  - intros [c f] HI. unfold draws_bars. cbn [fst snd]. rewrite andb_true_iff, is_column_has. reflexivity.
Qed.
Lemma surface_panel cfg truths b i j p1 p2 pc paths : plot_panel cfg truths b i j p1 p2 = Ok (pc, paths) -> (j <= i)%nat -> ~ diagonal cfg i j ->
  exists ds, pc = map Surface ds ++ plot_truths filled truths (Some p2) (Some p1) /\ plot_surface num kde2 argsort Phi (p_sigma2d cfg) (pb_chains b) p2 p1 = Ok (ds, paths).
Proof.
  intros H HJ HD. unfold FigureModel.plot_panel in H. destruct (Nat.ltb_spec i j); [lia|]. cbv zeta in H. destruct (p_plot_hists cfg && (i =? j)%nat) eqn:E; [exfalso; apply HD, diagonal_bool; exact E|].
  apply rbind_ok in H as [[ds bs] [HS H]]. injection H as <- <-. exists ds. auto.
Qed.
Lemma blank_contents cfg truths b i j p1 p2 panel : plot_panel cfg truths b i j p1 p2 = Ok panel -> (i < j)%nat -> panel = ([], []).
Proof. unfold FigureModel.plot_panel. intros H HJ. destruct (Nat.ltb_spec i j); [congruence|lia]. Qed.
End contents.

(** ** The public call *)
Definition the_triangle (k : backend) (cfg : plot_config) (truths : list truth) (b : plot_base) (fig : figure) : Prop :=
  let n := triangle_size cfg (pb_columns b) in (0 < n)%nat /\ grid_shape fig n n /\
  (forall i j calls, axis fig i j calls -> (i < j)%nat -> calls = relabel (bk_offset k) n i j [FrameOff; NoTicks AX; NoTicks AY]) /\
  forall i j px py calls, panel_at cfg (pb_columns b) i j px py -> (j <= i)%nat -> axis fig i j calls ->
    exists fc pc paths, triangle_panel cfg b n i j py px = Ok fc /\ plot_panel (bk_num k) (bk_kde2 k) (bk_argsort k) (bk_Phi k) (bk_filled k) cfg truths b i j py px = Ok (pc, paths) /\
      calls = relabel (bk_offset k) n i j (fc ++ pc).
Lemma plot_axes k s req columns file figsize s' fig chains cols cfg : plot k s req columns file figsize = (s', Ok fig) -> world_ok (s_world s) -> plots s req columns chains cols -> config_of s cfg ->
  exists b, pb_chains b = chains /\ pb_columns b = cols /\
    get_custom_extents (bk_num k) true (p_extents cfg) chains cols = Ok (pb_extents b) /\ pb_blind b = sanitise_blinds (p_blind cfg) cols /\ pb_logs b = p_log_scales cfg /\
    the_triangle k cfg (s_truths s) b fig.
Proof.
  intros H W P HC. unfold plot in H. destruct (with_base_plots _ _ _ _ _ _ _ _ _ _ H W P _ HC) as [b [B1 [B2 [B3 [B4 [B5 B6]]]]]]. exists b. repeat (split; [assumption|]).
  destruct (plot_figure_ok _ _ _ _ _ _ _ _ _ _ _ _ B3) as [N [G A]]. split; [exact N|]. split; [exact G|]. split.
  - intros i j calls HA HJ. destruct (axis_bounds _ _ _ _ _ _ G HA) as [I1 I2].
    destruct (nth_error (params_x cfg (pb_columns b)) i) as [p1|] eqn:E1; [|apply nth_error_None in E1; rewrite params_x_length in E1; lia].
    destruct (nth_error (params_y cfg (pb_columns b)) j) as [p2|] eqn:E2; [|apply nth_error_None in E2; rewrite params_y_length in E2; lia].
    destruct (A i j p1 p2 calls E1 E2 HA) as [fc [panel [K1 [K2 ->]]]]. rewrite (blank_panel _ _ _ _ _ _ _ _ K1 HJ), (blank_contents _ _ _ _ _ _ _ _ _ _ _ _ _ K2 HJ). reflexivity.
  - intros i j px py calls HP HJ HA. destruct (panel_params _ _ _ _ _ _ HP HJ) as [E1 E2]. destruct (A i j py px calls E1 E2 HA) as [fc [[pc paths] [K1 [K2 ->]]]]. exists fc, pc, paths. auto.
Qed.
Lemma relabel_marks offset n i j calls : marks (relabel offset n i j calls) = marks calls.
Proof. apply relabel_keeps. reflexivity. Qed.
Lemma relabel_bars offset n i j calls : bars_of (relabel offset n i j calls) = bars_of calls.
Proof. apply relabel_keeps. reflexivity. Qed.
Lemma relabel_surfaces offset n i j calls : surfaces (relabel offset n i j calls) = surfaces calls.
Proof. apply relabel_filter. reflexivity. Qed.
Lemma relabel_label offset n i j calls d : current_label d (relabel offset n i j calls) =
  if match d with AX => (i =? n - 1)%nat | AY => (j =? 0)%nat end
  then (current_label d calls ++ " " ++ (if String.eqb (offset d i j) "" then "" else "[" ++ offset d i j ++ "]"))%string
  else current_label d calls.
Proof.
  assert (G : forall d' c, current_label d (with_offset offset d' i j c) = if dir_eqb d d' then (current_label d' c ++ " " ++ (if String.eqb (offset d' i j) "" then "" else "[" ++ offset d' i j ++ "]"))%string else current_label d c).
  { intros d' c. unfold with_offset. cbv zeta. rewrite current_label_app. reflexivity. }
  unfold relabel. cbv zeta. destruct (i =? n - 1)%nat, (j =? 0)%nat; rewrite ?G; destruct d; cbn [dir_eqb]; rewrite ?G; cbn [dir_eqb]; reflexivity.
Qed.
(** Ticks and labels of a panel. *)
Lemma pc_ticks_diag num kde2 argsort Phi filled cfg truths b i j p1 p2 pc paths d t : plot_panel num kde2 argsort Phi filled cfg truths b i j p1 p2 = Ok (pc, paths) -> diagonal cfg i j ->
  fold_left (tick_step d) pc t = t \/
  (d = (if turned cfg b i then AX else AY) /\ exists m, fold_left (tick_step d) pc t = {| tk_off := tk_off t; tk_major := tk_major t; tk_minor := tk_minor t; tk_range := Some (0, ((11 # 10) * m)%Q) |}).
Proof.
  intros H HD. destruct (diagonal_panel _ _ _ _ _ _ _ _ _ _ _ _ _ _ H HD) as [bars [tops [top [-> [_ [_ [HB _]]]]]]].
  destruct (plot_truths_ok filled truths (if turned cfg b i then None else Some p1) (if turned cfg b i then Some p1 else None)) as [l [_ [_ HM]]].
  rewrite !fold_left_app, (fold_quiet _ (plot_truths _ _ _ _)) by (eapply Forall_impl; [|exact HM]; exact is_mark_quiet). rewrite (fold_quiet _ bars) by (eapply Forall_impl; [|exact HB]; exact is_bar_quiet).
  destruct top as [m|]; [|left; reflexivity]. cbn [fold_left tick_step]. destruct (dir_eqb d _) eqn:E; [|left; reflexivity]. right. split; [destruct d, (turned cfg b i); cbn in E; congruence|]. exists m. reflexivity.
Qed.
Lemma pc_ticks_surface num kde2 argsort Phi filled cfg truths b i j p1 p2 pc paths d t : plot_panel num kde2 argsort Phi filled cfg truths b i j p1 p2 = Ok (pc, paths) -> (j <= i)%nat -> ~ diagonal cfg i j ->
  fold_left (tick_step d) pc t = t.
Proof.
  intros H HJ HD. destruct (surface_panel _ _ _ _ _ _ _ _ _ _ _ _ _ _ H HJ HD) as [ds [-> _]]. destruct (plot_truths_ok filled truths (Some p2) (Some p1)) as [l [_ [_ HM]]].
  rewrite fold_left_app, (fold_quiet _ (map Surface ds)) by apply surfaces_quiet. apply fold_quiet. eapply Forall_impl; [|exact HM]. exact is_mark_quiet.
Qed.
Lemma pc_label num kde2 argsort Phi filled cfg truths b i j p1 p2 pc paths d s : plot_panel num kde2 argsort Phi filled cfg truths b i j p1 p2 = Ok (pc, paths) -> (j <= i)%nat ->
  fold_left (label_step d) pc s = s.
Proof.
  intros H HJ. destruct (p_plot_hists cfg && (i =? j)%nat) eqn:E.
  - apply diagonal_bool in E. destruct (diagonal_panel _ _ _ _ _ _ _ _ _ _ _ _ _ _ H E) as [bars [tops [top [-> [_ [_ [HB _]]]]]]].
    destruct (plot_truths_ok filled truths (if turned cfg b i then None else Some p1) (if turned cfg b i then Some p1 else None)) as [l [_ [_ HM]]].
    rewrite !fold_left_app, (fold_unlabelled _ (plot_truths _ _ _ _)) by (eapply Forall_impl; [|exact HM]; exact is_mark_unlabelled). rewrite (fold_unlabelled _ bars) by (eapply Forall_impl; [|exact HB]; exact is_bar_unlabelled).
    destruct top; reflexivity.
  - assert (HD : ~ diagonal cfg i j) by (rewrite <- diagonal_bool; congruence). destruct (surface_panel _ _ _ _ _ _ _ _ _ _ _ _ _ _ H HJ HD) as [ds [-> _]]. destruct (plot_truths_ok filled truths (Some p2) (Some p1)) as [l [_ [_ HM]]].
    rewrite fold_left_app, (fold_unlabelled _ (map Surface ds)) by apply surfaces_unlabelled. apply fold_unlabelled. eapply Forall_impl; [|exact HM]. exact is_mark_unlabelled.
Qed.

(** ** The other parts of the figure *)
Lemma fold_rows {A B} (g : A -> B -> A) rows acc : fold_left (fun acc row => fold_left g row acc) rows acc = fold_left g (concat rows) acc.
Proof. revert acc. induction rows as [|r rows IH]; intros acc; [reflexivity|]. cbn [fold_left concat]. rewrite fold_left_app. apply IH. Qed.
Lemma fold_dmerge {A B} (l : list (A * dict B)) acc p h : NoDup (dkeys acc) -> (forall x, In x l -> NoDup (dkeys (snd x))) ->
  NoDup (dkeys (fold_left (fun acc x => dmerge acc (snd x)) l acc)) /\
  (dget p (fold_left (fun acc x => dmerge acc (snd x)) l acc) = Some h -> dget p acc = Some h \/ exists x, In x l /\ dget p (snd x) = Some h) /\
  ((dget p acc = Some h \/ exists x, In x l /\ dget p (snd x) = Some h) -> exists h', dget p (fold_left (fun acc x => dmerge acc (snd x)) l acc) = Some h').
Proof.
  revert acc h. induction l as [|x l IH]; intros acc h ND HN; cbn [fold_left].
  - split; [exact ND|]. split; [intros H; left; exact H|]. intros [H|[x [[] _]]]. eauto.
  - assert (NX : NoDup (dkeys (snd x))) by (apply HN; left; reflexivity). assert (ND' : NoDup (dkeys (dmerge acc (snd x)))) by (apply dmerge_nodup; exact ND).
    assert (HN' : forall y, In y l -> NoDup (dkeys (snd y))) by (intros y Hy; apply HN; right; exact Hy). split; [exact (proj1 (IH _ h ND' HN'))|]. split.
    + intros H. destruct (proj1 (proj2 (IH _ h ND' HN')) H) as [K|[y [Y1 Y2]]]; [|right; exists y; split; [right; exact Y1|exact Y2]]. rewrite dmerge_get in K by exact NX. destruct (dget p (snd x)) as [v|] eqn:E; [|left; exact K]. injection K as ->. right. exists x. split; [left; reflexivity|exact E].
    + intros H. assert (K : (exists h', dget p (dmerge acc (snd x)) = Some h') \/ exists y, In y l /\ dget p (snd y) = Some h).
      { rewrite dmerge_get by exact NX. destruct H as [H|[y [[<-|Y1] Y2]]]; [left; destruct (dget p (snd x)); eauto|left; rewrite Y2; eauto|right; eauto]. }
      destruct K as [[h' K]|K]; [exact (proj2 (proj2 (IH _ h' ND' HN')) (or_introl K))|exact (proj2 (proj2 (IH _ h ND' HN')) (or_intror K))].
Qed.
Lemma grid_of_In {A} rows cols (g : nat -> nat -> string -> string -> res A) m x : grid_of rows cols g = Ok m -> In x (concat m) -> exists i j p q, nth_error rows i = Some p /\ nth_error cols j = Some q /\ g i j p q = Ok x.
Proof.
  intros H HI. destruct (grid_of_ok _ _ _ _ H) as [L1 [L2 L3]]. apply in_concat in HI as [row [H1 H2]]. pose proof (L2 row H1) as LR. apply In_nth_error in H1 as [i H1]. apply In_nth_error in H2 as [j H2].
  assert (I1 : (i < length m)%nat) by (apply nth_error_Some; congruence). assert (I2 : (j < length row)%nat) by (apply nth_error_Some; congruence).
  destruct (nth_error rows i) as [p|] eqn:E1; [|apply nth_error_None in E1; lia]. destruct (nth_error cols j) as [q|] eqn:E2; [|apply nth_error_None in E2; lia].
  destruct (L3 i j p q E1 E2) as [row' [y [Y1 [Y2 Y3]]]]. exists i, j, p, q. repeat split; auto. congruence.
Qed.
Lemma params_panel cfg cols i j px py : nth_error (params_x cfg cols) i = Some py -> nth_error (params_y cfg cols) j = Some px -> panel_at cfg cols i j px py.
Proof.
  unfold panel_at, params_x, params_y. intros H1 H2. destruct (p_plot_hists cfg); [split; assumption|]. rewrite nth_error_tl in H1. split; [|exact H1].
  assert (HL : (j < length (removelast cols))%nat) by (apply nth_error_Some; congruence). rewrite removelast_length in HL. rewrite nth_error_removelast in H2 by lia. exact H2.
Qed.
Lemma py_axis_ok n z i : py_axis n z = Ok i -> at_index n z i.
Proof.
  unfold py_axis, at_index. destruct ((0 <=? z) && (z <? Z.of_nat n))%Z eqn:E1.
  - apply andb_true_iff in E1 as [A B]. apply Z.leb_le in A. apply Z.ltb_lt in B. intros H. injection H as <-. split; [lia|]. left. lia.
  - destruct ((z <? 0) && (- Z.of_nat n <=? z))%Z eqn:E2; [|discriminate]. apply andb_true_iff in E2 as [A B]. apply Z.ltb_lt in A. apply Z.leb_le in B. intros H. injection H as <-. split; [lia|]. right. lia.
Qed.
Lemma chain_artist_ok cf a : chain_artist (fst cf) = Ok a -> legend_entry cf a.
Proof.
  unfold chain_artist, legend_entry. cbv zeta. destruct (chain_colour (fst cf)) as [col|] eqn:E; [|discriminate]. intros H. injection H as <-. cbn [ar_label ar_color ar_ls ar_lw ar_marker].
  split; [reflexivity|]. split; [first [exact E|reflexivity]|]. split; [reflexivity|]. split; [intros -> ->; auto|]. split; [intros -> ->; auto|]. intros ->. destruct (ch_cfg (fst cf) Fplot_point : bool); auto.
Qed.
Lemma filter_idem {A} (p : A -> bool) l : filter p (filter p l) = filter p l.
Proof. induction l as [|x l IH]; [reflexivity|]. cbn [filter]. destruct (p x) eqn:E; [cbn [filter]; rewrite E, IH; reflexivity|exact IH]. Qed.
Lemma filter_map_fst {A B} (p : A -> bool) (l : list (A * B)) : filter p (map fst l) = map fst (filter (fun x => p (fst x)) l).
Proof. induction l as [|x l IH]; [reflexivity|]. cbn [map filter]. destruct (p (fst x)); cbn [map]; rewrite IH; reflexivity. Qed.
Lemma make_legend_ok cfg b lg : make_legend cfg b = Ok lg ->
  exists r c shown, (if match p_legend_location cfg with Some l => true | None => false end then p_legend_location cfg = Some (r, c) else (r, c) = (if flipped cfg b then (-1, 0) else (0, -1))%Z) /\
    at_index (triangle_size cfg (pb_columns b)) r (lg_row lg) /\ at_index (triangle_size cfg (pb_columns b)) c (lg_col lg) /\
    those (fun cf => ch_showlabel (fst cf) = true) (pb_chains b) shown /\ Forall2 legend_entry shown (lg_handles lg) /\
    (if p_legend_color_text cfg then exists cols, lg_text_colors lg = Some cols /\ Forall2 (fun cf col => chain_colour (fst cf) = Ok col) shown cols else lg_text_colors lg = None) /\
    exists v, lg_kwargs lg = (if dmem "markerfirst" (legend_kwargs_final cfg) then legend_kwargs_final cfg else dset "markerfirst" (VBool v) (legend_kwargs_final cfg)) /\
      (v = true <-> (c <= r)%Z \/ p_legend_artists cfg <> Some true).
Proof.
  unfold make_legend. cbv zeta. intros H. apply rbind_ok in H as [i [Hi H]]. apply rbind_ok in H as [j [Hj H]]. apply rbind_ok in H as [arts [Ha H]]. apply rbind_ok in H as [cols [Hc H]]. injection H as <-.
  set (loc := dflt (if negb (flipped cfg b) || (2 <? length (pb_columns b))%nat then (0, -1)%Z else (-1, 0)%Z) (p_legend_location cfg)) in *.
  exists (fst loc), (snd loc), (filter (fun cf => ch_showlabel (fst cf)) (pb_chains b)). cbn [lg_row lg_col lg_handles lg_text_colors lg_kwargs]. split; [|split; [apply py_axis_ok; exact Hi|]; split; [apply py_axis_ok; exact Hj|]; split; [|split; [|split]]].
  - unfold loc. destruct (p_legend_location cfg) as [[r c]|]; [reflexivity|]. cbn [dflt]. destruct (flipped cfg b) eqn:EF; cbn [negb orb]; [|reflexivity]. unfold flipped in EF. apply andb_true_iff in EF as [EF _]. apply andb_true_iff in EF as [EF _]. apply Nat.eqb_eq in EF. rewrite EF. reflexivity.
  - apply those_filter. intros cf _. reflexivity.
  - unfold get_artists_from_chains in Ha. rewrite filter_idem, filter_map_fst in Ha. apply rmapM_Forall2 in Ha. clear -Ha. revert arts Ha. induction (filter _ (pb_chains b)) as [|cf l IH]; intros arts Ha; inversion Ha; subst; constructor; [apply chain_artist_ok; assumption|apply IH; assumption].
  - destruct (p_legend_color_text cfg); [|injection Hc as <-; reflexivity]. destruct (rmapM _ _) as [cs|] eqn:E; [|discriminate]. injection Hc as <-. exists cs. split; [reflexivity|]. rewrite filter_map_fst in E. apply rmapM_Forall2 in E.
    clear -E. revert cs E. induction (filter _ (pb_chains b)) as [|cf l IH]; intros cs Ha; inversion Ha; subst; constructor; [assumption|apply IH; assumption].
  - eexists. split; [reflexivity|]. rewrite orb_true_iff, Z.leb_le, negb_true_iff. destruct (p_legend_artists cfg) as [[|]|]; cbn [dflt]; split; intros [K|K]; auto; try discriminate; try (right; discriminate); congruence.
Qed.
Lemma get_size_ok a n (c : bool) : figure_size n (c = true) a (get_size a n c).
Proof.
  unfold get_size. destruct c, a; cbv zeta.
  - apply fs_page.
  - apply fs_column_bar. reflexivity.
  - apply fs_grow_bar; [reflexivity|ring|ring].
  - apply fs_float_bar; [reflexivity|ring|ring].
  - apply fs_int.
  - apply fs_tuple.
  - apply fs_page.
  - apply fs_column. discriminate.
  - apply fs_grow; [discriminate|ring|ring].
  - apply fs_float; [discriminate|ring|ring].
  - apply fs_int.
  - apply fs_tuple.
Qed.
Lemma figure_size_iff n (c c' : Prop) a r : (c <-> c') -> figure_size n c a r -> figure_size n c' a r.
Proof.
  intros E [| H|H|w h H H1 H2|w h H H1 H2|g w h H H1 H2|g w h H H1 H2| | ].
  - apply fs_page.
  - apply fs_column. tauto.
  - apply fs_column_bar. tauto.
  - apply fs_grow; tauto.
  - apply fs_grow_bar; tauto.
  - apply fs_float; tauto.
  - apply fs_float_bar; tauto.
  - apply fs_int.
  - apply fs_tuple.
Qed.
Lemma bar_label_ok cfg p : bar_text cfg p (bar_label cfg p).
Proof.
  exists (label_of cfg p). split; [apply label_of_shown|]. unfold bar_label. cbv zeta. cbn [dget]. destruct (String.eqb (label_of cfg p) "weight"); [reflexivity|]. destruct (String.eqb (label_of cfg p) "log_weight"); [reflexivity|].
  destruct (String.eqb (label_of cfg p) "posterior"); reflexivity.
Qed.
Lemma saved_files_ok cfg file : saves cfg file (saved_files cfg file).
Proof.
  unfold saves, saved_files. rewrite map_map. cbn [fst]. rewrite map_id. split; [reflexivity|]. intros s d H. apply in_map_iff in H as [x [E _]]. congruence.
Qed.
Lemma plot_figure_parts num kde2 argsort Phi filled offset cfg truths b figsize file fig : plot_figure num kde2 argsort Phi filled offset cfg truths b figsize file = Ok fig ->
  let has_bar := exists cf p, In cf (pb_chains b) /\ ch_cfg (fst cf) Fcolor_param = Some p in
  figure_size (length (pb_columns b)) has_bar figsize (fg_size fig) /\ saves cfg file (fg_saved fig) /\
  (legend_wanted cfg (pb_chains b) -> exists lg, fg_legend fig = Some lg /\ make_legend cfg b = Ok lg) /\ (~ legend_wanted cfg (pb_chains b) -> fg_legend fig = None) /\
  fg_watermark fig = add_watermark cfg (if flipped cfg b then Some ((triangle_size cfg (pb_columns b) - 1)%nat, 0%nat) else None) /\
  exists d, NoDup (dkeys d) /\ fg_bars fig = map (fun kv => (bar_label cfg (fst kv), snd kv)) d /\
    (forall p h, dget p d = Some h -> exists i j px py cf, panel_at cfg (pb_columns b) i j px py /\ (j <= i)%nat /\ ~ diagonal cfg i j /\ In cf (pb_chains b) /\ wants_bar px py p h cf) /\
    (forall p, (exists i j px py cf h, panel_at cfg (pb_columns b) i j px py /\ (j <= i)%nat /\ ~ diagonal cfg i j /\ In cf (pb_chains b) /\ wants_bar px py p h cf) -> In p (dkeys d)).
Proof.
  unfold plot_figure. cbv zeta. intros H. apply rbind_ok in H as [m [Hm H]]. apply rbind_ok in H as [panels [Hp H]]. apply rbind_ok in H as [leg [Hl H]]. injection H as <-. cbn [fg_size fg_saved fg_legend fg_watermark fg_bars].
  split; [|split; [apply saved_files_ok|split; [|split; [|split]]]].
  - match goal with |- figure_size _ _ _ (get_size _ _ ?e) => set (cx := e) end. assert (EC : cx = true <-> exists cf p, In cf (pb_chains b) /\ ch_cfg (fst cf) Fcolor_param = Some p).
    { unfold cx. rewrite existsb_exists. split; [intros [cf [H1 H2]]; destruct (ch_cfg (fst cf) Fcolor_param) as [p|] eqn:E; [eauto|discriminate]|]. intros [cf [p [H1 H2]]]. exists cf. rewrite H2. auto. }
    exact (figure_size_iff _ _ _ _ _ EC (get_size_ok figsize (length (pb_columns b)) cx)).
  - intros LW. assert (E : dflt (1 <? length (pb_chains b))%nat (p_show_legend cfg) = true). { unfold legend_wanted in LW. destruct (p_show_legend cfg); cbn [dflt]; [exact LW|apply Nat.ltb_lt; exact LW]. }
    rewrite E in Hl. destruct (make_legend cfg b) as [lg|]; [|discriminate]. injection Hl as <-. eauto.
  - intros LW. assert (E : dflt (1 <? length (pb_chains b))%nat (p_show_legend cfg) = false). { unfold legend_wanted in LW. destruct (p_show_legend cfg) as [[|]|]; cbn [dflt]; [congruence|reflexivity|apply Nat.ltb_nlt; exact LW]. }
    rewrite E in Hl. congruence.
  - f_equal. destruct (flipped cfg b) eqn:EF; [|reflexivity]. unfold flipped in EF. apply andb_true_iff in EF as [EF _]. apply andb_true_iff in EF as [EF _]. rewrite EF. reflexivity.
  - rewrite fold_rows. set (d := fold_left (fun (acc : dict draw) (x : list call * dict draw) => dmerge acc (snd x)) (concat panels) []).
    assert (PN : forall x, In x (concat panels) -> NoDup (dkeys (snd x)) /\ forall p h, dget p (snd x) = Some h -> exists i j px py cf, panel_at cfg (pb_columns b) i j px py /\ (j <= i)%nat /\ ~ diagonal cfg i j /\ In cf (pb_chains b) /\ wants_bar px py p h cf).
    { intros [pc bs] HI. destruct (grid_of_In _ _ _ _ _ Hp HI) as [i [j [p1 [p2 [G1 [G2 G3]]]]]]. cbn [snd]. destruct (Nat.lt_ge_cases i j) as [HJ|HJ].
      - apply blank_contents in G3; [|exact HJ]. injection G3 as -> ->. split; [constructor|discriminate].
      - destruct (p_plot_hists cfg && (i =? j)%nat) eqn:E.
        + apply diagonal_bool in E. destruct (diagonal_panel _ _ _ _ _ _ _ _ _ _ _ _ _ _ G3 E) as [bars [tops [top [_ [_ [_ [_ ->]]]]]]]. split; [constructor|discriminate].
        + assert (HD : ~ diagonal cfg i j) by (rewrite <- diagonal_bool; congruence). destruct (surface_panel _ _ _ _ _ _ _ _ _ _ _ _ _ _ G3 HJ HD) as [ds [_ HS]]. apply plot_surface_ok in HS as [_ [ND HW]]. split; [exact ND|].
          intros p h HG. apply HW in HG as [be [cf [af [EC [WB _]]]]]. exists i, j, p2, p1, cf. split; [apply params_panel; assumption|]. split; [exact HJ|]. split; [exact HD|]. split; [rewrite EC; apply in_elt|exact WB]. }
    assert (FD := fun p h => fold_dmerge (concat panels) [] p h (NoDup_nil _) (fun x Hx => proj1 (PN x Hx))). exists d.
    split; [exact (proj1 (FD "" (Scatter [] (OneColour "" 1) 0 "" 0%Z)))|]. split; [reflexivity|]. split.
    + intros p h HG. destruct (proj1 (proj2 (FD p h)) HG) as [K|[x [X1 X2]]]; [discriminate|]. exact (proj2 (PN x X1) p h X2).
    + intros p [i [j [px [py [cf [h [P1 [P2 [P3 [P4 P5]]]]]]]]]]. destruct (panel_params _ _ _ _ _ _ P1 P2) as [E1 E2]. destruct (grid_of_ok _ _ _ _ Hp) as [_ [_ GO]]. destruct (GO i j py px E1 E2) as [row [[pc bs] [Y1 [Y2 Y3]]]].
      destruct (surface_panel _ _ _ _ _ _ _ _ _ _ _ _ _ _ Y3 P2 P3) as [ds [_ HS]]. apply plot_surface_ok in HS as [_ [_ HW]].
      assert (GX : exists h', dget p bs = Some h').
      { destruct (last_such (fun cf => exists h, wants_bar px py p h cf) (pb_chains b) (wants_dec px py p)) as [NN|[be [c2 [af [EC [[h0 W1] W2]]]]]]; [exfalso; apply (NN cf P4); eauto|]. exists h0. apply HW. exists be, c2, af. split; [exact EC|]. split; [exact W1|]. intros c3 h3 I3 C3. apply (W2 c3 I3). eauto. }
      destruct GX as [h' GX]. destruct (proj2 (proj2 (FD p h'))) as [h2 GD].
      { right. exists (pc, bs). split; [|exact GX]. apply in_concat. exists row. split; [eapply nth_error_In; exact Y1|eapply nth_error_In; exact Y2]. }
      apply dget_In in GD. apply (in_map fst) in GD. exact GD.
Qed.
Lemma plot_parts k s req columns file figsize s' fig chains cols cfg : plot k s req columns file figsize = (s', Ok fig) -> world_ok (s_world s) -> plots s req columns chains cols -> config_of s cfg ->
  exists b, pb_chains b = chains /\ pb_columns b = cols /\
    plot_figure (bk_num k) (bk_kde2 k) (bk_argsort k) (bk_Phi k) (bk_filled k) (bk_offset k) cfg (s_truths s) b figsize file = Ok fig.
Proof. intros H W P HC. unfold plot in H. destruct (with_base_plots _ _ _ _ _ _ _ _ _ _ H W P _ HC) as [b [B1 [B2 [B3 _]]]]. exists b. auto. Qed.
Lemma summary_flag cfg b p : In p (pb_columns b) -> pb_blind b = sanitise_blinds (p_blind cfg) (pb_columns b) ->
  p_summarise cfg && one_contour (pb_chains b) && negb (smem p (pb_blind b)) = true <-> summarised cfg (pb_chains b) p.
Proof.
  intros HI HB. unfold summarised. rewrite <- one_contour_iff, !andb_true_iff, negb_true_iff, HB, <- (hidden_blind _ (pb_columns b) _ HI). destruct (smem p _); intuition congruence.
Qed.
Definition dollars (n : nat) : string := String.concat "" (repeat "$" n).
Lemma dollars_cons n : dollars (S n) = String dollar (dollars n).
Proof. apply dollars_S. Qed.
Lemma dollars_add n m : dollars (n + m) = (dollars n ++ dollars m)%string.
Proof. induction n as [|n IH]; [reflexivity|]. cbn [Nat.add]. rewrite !dollars_cons. cbn [append]. rewrite IH. reflexivity. Qed.
Lemma ascii_app a b : list_ascii_of_string (a ++ b) = list_ascii_of_string a ++ list_ascii_of_string b.
Proof. induction a as [|x a IH]; [reflexivity|]. cbn [append list_ascii_of_string app]. rewrite IH. reflexivity. Qed.
Lemma append_cancel a b c : (a ++ c)%string = (b ++ c)%string -> a = b.
Proof. intros H. apply (f_equal list_ascii_of_string) in H. rewrite !ascii_app in H. apply app_inv_tail in H. rewrite <- (string_of_list_ascii_of_string a), <- (string_of_list_ascii_of_string b), H. reflexivity. Qed.
Lemma append_assoc_s a b c : ((a ++ b) ++ c)%string = (a ++ (b ++ c))%string.
Proof. induction a as [|x a IH]; [reflexivity|]. cbn [append]. rewrite IH. reflexivity. Qed.
Lemma append_empty a : (a ++ "")%string = a.
Proof. induction a as [|x a IH]; [reflexivity|]. cbn [append]. rewrite IH. reflexivity. Qed.
Lemma dollars_front n m a b : (forall r, a <> String dollar r) -> (forall r, b <> String dollar r) -> (dollars n ++ a)%string = (dollars m ++ b)%string -> a = b.
Proof.
  intros Ha Hb. revert m. induction n as [|n IH]; intros [|m] H; rewrite ?dollars_cons in H; cbn [append dollars String.concat repeat] in H.
  - exact H.
  - exfalso. exact (Ha _ H).
  - exfalso. symmetry in H. exact (Hb _ H).
  - injection H as H. exact (IH m H).
Qed.
Lemma dollars_back n m a b : (forall r, a <> (r ++ "$")%string) -> (forall r, b <> (r ++ "$")%string) -> (a ++ dollars n)%string = (b ++ dollars m)%string -> a = b.
Proof.
  assert (G : forall n d a b, (forall r, a <> (r ++ "$")%string) -> (a ++ dollars n)%string = (b ++ dollars (d + n))%string -> a = b).
  { clear. intros n d a b Ha H. rewrite dollars_add, <- append_assoc_s in H. apply append_cancel in H. destruct d as [|d]; [rewrite append_empty in H; exact H|]. exfalso. apply (Ha (b ++ dollars d)%string). rewrite H, append_assoc_s. f_equal.
    change (dollars 1 = "$") with ("$" = "$"). replace (S d) with (d + 1)%nat by lia. rewrite dollars_add. reflexivity. }
  intros Ha Hb H. destruct (Nat.le_ge_cases n m) as [L|L].
  - apply (G n (m - n)%nat a b Ha). replace (m - n + n)%nat with m by lia. exact H.
  - symmetry. apply (G m (n - m)%nat b a Hb). replace (n - m + m)%nat with n by lia. symmetry. exact H.
Qed.
Lemma dollars_only n m t x : (forall r, t <> String dollar r) -> dollars n = (dollars m ++ t ++ x)%string -> t = "".
Proof.
  intros Ht. revert m. induction n as [|n IH]; intros [|m] H; rewrite ?dollars_cons in H; cbn [append dollars String.concat repeat] in H; destruct t as [|a t]; try reflexivity; try discriminate.
  - exfalso. cbn [append] in H. injection H as H _. exact (Ht t (f_equal (fun c => String c t) (eq_sym H))).
  - injection H as H. apply (IH m H).
Qed.
Lemma trimmed_fun s t u : trimmed s t -> trimmed s u -> t = u.
Proof.
  intros [k [n [m [-> [E [T1 T2]]]]]] [k' [n' [m' [-> [E' [U1 U2]]]]]]. rewrite E in E'. clear E s. change (dollars n ++ t ++ dollars m = dollars n' ++ u ++ dollars m')%string in E'.
  assert (T3 : forall r, t <> String dollar r) by exact T1. assert (U3 : forall r, u <> String dollar r) by exact U1.
  destruct t as [|a t].
  - cbn [append] in E'. rewrite <- dollars_add in E'. symmetry. exact (dollars_only _ _ _ _ U3 E').
  - destruct u as [|b u].
    + cbn [append] in E'. symmetry in E'. change (dollars n' ++ dollars m' = dollars n ++ String a t ++ dollars m)%string in E'. rewrite <- dollars_add in E'. exact (dollars_only _ _ _ _ T3 E').
    + apply dollars_front in E'; [exact (dollars_back _ _ _ _ T2 U2 E')| |]; cbn [append]; intros r H; injection H as H _; [apply (T3 t)|apply (U3 u)]; rewrite H; reflexivity.
Qed.
(** What the groups of a panel say about its titles. *)
Lemma titles_shown_by (draws : chain * frame -> Prop) num cfg p flip summary chains calls tops t : bars_shown_by draws num cfg p flip summary chains calls tops ->
  In (Title t) calls <-> summary = true /\ t <> "" /\ exists cf bs label stripped, In cf chains /\ draws cf /\ title_bounds num p cf bs /\ shown_label (p_labels cfg) p label /\ trimmed label stripped /\ get_parameter_text bs true (Some stripped) = Ok t.
Proof.
  intros [drawn [groups [TH [L1 [L2 [GR EB]]]]]].
  assert (TI : forall cf, In cf drawn <-> In cf chains /\ draws cf).
  { clear -TH. induction TH as [|x l l' H H2 IH|x l l' H H2 IH]; intros cf; cbn [In]; [tauto| |]; rewrite IH.
    - split; [intros [<-|[K1 K2]]; auto|intros [[<-|K1] K2]; auto].
    - split; [intros [K1 K2]; auto|intros [[<-|K1] K2]; [contradiction|auto]]. }
  assert (IT : In (Title t) calls <-> exists g, In g groups /\ In (Title t) g).
  { assert (E : In (Title t) calls <-> In (Title t) (bars_of calls)) by (unfold bars_of; rewrite filter_In; cbn; tauto). rewrite E, EB, in_concat. reflexivity. }
  rewrite IT.
  assert (TG : forall cf g top, bar_group num cfg p flip summary cf g top -> In (Title t) g <-> summary = true /\ t <> "" /\ exists bs label stripped, title_bounds num p cf bs /\ shown_label (p_labels cfg) p label /\ trimmed label stripped /\ get_parameter_text bs true (Some stripped) = Ok t).
  { intros cf g top [out [xs [ys [fills [titles [-> [OO [_ CASES]]]]]]]].
    assert (NO : out <> Title t) by (destruct OO; discriminate).
    destruct CASES as [[UN [-> ->]]|[SH [b [lw [up [ivs [bs [S1 [S2 [S3 [S4 [-> [_ TT]]]]]]]]]]]]].
    - split; [intros [K|K]; [contradiction|destruct K]|]. intros [_ [_ [bs [l [st [[B1 [b [lw [up [B2 [B3 [B4 _]]]]]]] _]]]]]]. exfalso. destruct UN as [UN|[b' [U1 U2]]]; [congruence|]. rewrite B2 in U1. injection U1 as <-. destruct U2; congruence.
    - assert (TB : title_bounds num p cf bs).
      { split; [exact SH|]. exists b, lw, up. split; [exact S1|]. split; [exact S2|]. split; [exact S3|]. inversion S4 as [lo hi mn mx M1|bands l M1 M2 M3|bands l M1 M2 M3]; subst; rewrite M1; eauto 6. }
      assert (TBU : forall bs', title_bounds num p cf bs' -> bs' = bs).
      { intros bs' [_ [b' [l' [u' [X1 [X2 [X3 X4]]]]]]]. rewrite S1 in X1. injection X1 as <-. destruct TB as [_ [b2 [l2 [u2 [Y1 [Y2 [Y3 Y4]]]]]]]. rewrite S1 in Y1. injection Y1 as <-. destruct (ch_cfg (fst cf) Fmultimodal : bool); [|congruence].
        destruct X4 as [bd [ll [Z1 [Z2 ->]]]], Y4 as [bd' [ll' [W1 [W2 ->]]]]. congruence. }
      assert (NF : forall l, ~ In (Title t) (map (fun iv : Q * Q => Fill flip (fst iv) (snd iv) (negb (smooth_value (ch_cfg (fst cf) Fsmooth) (ch_grid (fst cf)) =? 0)%Z) xs ys (ch_cfg (fst cf) Fcolor) (ch_cfg (fst cf) Fzorder)) l)).
      { intros l K. apply in_map_iff in K as [iv [K _]]. discriminate. }
      destruct summary; [|subst titles; rewrite app_nil_r; split; [intros [K|K]; [contradiction|exfalso; exact (NF _ K)]|intros [K _]; discriminate]].
      destruct TT as [label [st [text [T1 [T2 [T3 ->]]]]]]. split.
      + intros [K|K]; [contradiction|]. apply in_app_or in K as [K|K]; [exfalso; exact (NF _ K)|]. destruct (String.eqb_spec text ""); [destruct K|]. destruct K as [K|[]]. injection K as <-. split; [reflexivity|]. split; [assumption|]. exists bs, label, st. auto.
      + intros [_ [NE [bs' [l' [st' [X1 [X2 [X3 X4]]]]]]]]. rewrite (TBU _ X1) in X4.
        assert (EL : l' = label). { unfold shown_label in *. destruct (dget p (p_labels cfg)); congruence. } subst l'.
        assert (ES : st' = st) by (eapply trimmed_fun; eassumption). subst st'. rewrite T3 in X4. injection X4 as ->. right. apply in_or_app. right. destruct (String.eqb_spec t ""); [contradiction|]. left. reflexivity. }
  split.
  - intros [g [HG HT]]. apply In_nth_error in HG as [x HG]. assert (LX : (x < length groups)%nat) by (apply nth_error_Some; congruence).
    destruct (nth_error drawn x) as [cf|] eqn:ED; [|apply nth_error_None in ED; lia]. destruct (nth_error tops x) as [tp|] eqn:ETP; [|apply nth_error_None in ETP; lia].
    apply (TG cf g tp (GR x cf g tp ED HG ETP)) in HT as [H1 [H2 [bs [l [st H3]]]]]. apply nth_error_In, TI in ED as [D1 D2]. split; [exact H1|]. split; [exact H2|]. exists cf, bs, l, st. auto.
  - intros [H1 [H2 [cf [bs [l [st [I1 [I2 H3]]]]]]]]. assert (ID : In cf drawn) by (apply TI; auto). apply In_nth_error in ID as [x ID]. assert (LX : (x < length drawn)%nat) by (apply nth_error_Some; congruence).
    destruct (nth_error groups x) as [g|] eqn:EG; [|apply nth_error_None in EG; lia]. destruct (nth_error tops x) as [tp|] eqn:ETP; [|apply nth_error_None in ETP; lia].
    exists g. split; [eapply nth_error_In; exact EG|]. apply (TG cf g tp (GR x cf g tp ID EG ETP)). eauto 10.
Qed.
Lemma titles_shown num cfg p flip summary chains calls tops t : bars_shown num cfg p flip summary chains calls tops ->
  In (Title t) calls <-> summary = true /\ t <> "" /\ exists cf bs label stripped, In cf chains /\ draws_bars p cf /\ title_bounds num p cf bs /\ shown_label (p_labels cfg) p label /\ trimmed label stripped /\ get_parameter_text bs true (Some stripped) = Ok t.
Proof. apply titles_shown_by. Qed.
