(** Lemmas about the walk figure. *)
From Coq Require Import String List Bool Arith ZArith QArith Reals Lia Lqa.
From Verif Require Import Py NumSpec NumModel NumFacts HelpersSpec ColorModel HelpersModel MarginalModel FrameModel ConfigModel ChainModel RegistryModel RegistrySpec RegistryProofs ChainSpec ChainProofs ChainUseProofs DiagProofs
  MaxProofs TextModel AnalysisModel AnalysisSpec AnalysisProofs SurfaceModel PanelSpec SurfaceProofs PanelProofs FigureModel FigureSpec FigureProofs BarProofs TriangleProofs.
Import ListNotations.
Open Scope string_scope.
Open Scope list_scope.

Lemma every_map {A B} (g : A -> B) k l : every k (map g l) = map g (every k l).
Proof.
  unfold every. rewrite map_length. generalize (length l) as fuel. intros fuel. revert l. induction fuel as [|fuel IH]; intros l; [reflexivity|]. destruct l as [|x r]; [reflexivity|].
  cbn [map every_fuel]. f_equal. rewrite <- IH. f_equal. rewrite <- skipn_map. reflexivity.
Qed.
Lemma thin_map max (g : Q -> Q) l : thin max (map g l) = map g (thin max l).
Proof. unfold thin. rewrite map_length. destruct (_ <? _)%nat; [apply every_map|reflexivity]. Qed.
Lemma thin_ok max l : (0 < max)%nat -> thinned max l (thin max l).
Proof.
  intros HM. unfold thin, thinned. destruct (Nat.ltb_spec max (length l)) as [HL|HL]; [right|left; auto]. split; [exact HL|]. exists (length l / max)%nat. split; [reflexivity|].
  assert (HK : (1 <= length l / max)%nat) by (apply Nat.div_le_lower_bound; lia). split; [lia|]. pose proof (every_spec _ l HK) as E. destruct (every_kth_length _ _ _ HK E) as [E1 E2]. split; [|exact E1].
  intros i HI. pose proof (E i) as EI. split; [|exact EI]. apply nth_error_Some. rewrite <- EI. apply nth_error_Some. exact HI.
Qed.
Lemma thin_nonempty max l : (0 < max)%nat -> l <> [] -> thin max l <> [].
Proof.
  intros HM HL E. destruct (thin_ok max l HM) as [[_ H]|[H1 [k [_ [_ [_ H2]]]]]]; rewrite E in *; [congruence|]. cbn in H2. lia.
Qed.

(** ** One walk *)
Lemma walks_app a b : walks (a ++ b) = walks a ++ walks b.
Proof. apply flat_map_app. Qed.
Lemma smooths_app a b : smooths (a ++ b) = smooths a ++ smooths b.
Proof. apply flat_map_app. Qed.
Lemma box_mean_ok w data j : (0 < w)%nat -> (box_mean w data (Nat.div2 w + j) * nq w == qsum (firstn w (skipn j data)))%Q \/ (length data < j + w)%nat.
Proof.
  intros HW. destruct (Nat.le_gt_cases (j + w) (length data)) as [L|L]; [left|right; exact L]. unfold box_mean.
  assert (NW : ~ nq w == 0). { unfold nq. intros E. unfold Qeq in E. cbn in E. lia. }
  assert (ES : map (fun k => if (Nat.div2 w <=? Nat.div2 w + j + k)%nat then nth (Nat.div2 w + j + k - Nat.div2 w) data 0 else 0) (seq 0 w) = firstn w (skipn j data)).
  { match goal with |- map ?f _ = _ => set (g := f) end. apply (nth_ext _ _ 0 0); [rewrite map_length, seq_length, firstn_length, skipn_length; lia|]. intros i Hi. rewrite map_length, seq_length in Hi.
    rewrite (nth_indep _ 0 (g 0%nat)) by (rewrite map_length, seq_length; exact Hi). rewrite map_nth, seq_nth by exact Hi. unfold g. replace (Nat.div2 w <=? Nat.div2 w + j + (0 + i))%nat with true by (symmetry; apply Nat.leb_le; lia).
    replace (Nat.div2 w + j + (0 + i) - Nat.div2 w)%nat with (j + i)%nat by lia. rewrite nth_firstn_lt, nth_skipn_plus by exact Hi. reflexivity. }
  rewrite ES. field. exact NW.
Qed.
Lemma smoothed_walk_ok w data pts : smoothed_walk (Z.of_nat w) data = Ok pts -> (2 <= w)%nat -> (w <= length data)%nat -> smooth_of w data pts.
Proof.
  unfold smoothed_walk. intros H W2 WN. destruct (Z.leb_spec (Z.of_nat w) 0) as [X|_]; [lia|]. rewrite Nat2Z.id in H. cbv zeta in H. destruct (Nat.ltb_spec (length data) w) as [X|_]; [lia|].
  assert (HT : (w <= 2 * Nat.div2 w + 1)%nat /\ (2 * Nat.div2 w <= w)%nat). { rewrite Nat.div2_div. pose proof (Nat.div_mod w 2 ltac:(lia)). pose proof (Nat.mod_upper_bound w 2 ltac:(lia)). lia. }
  destruct (Nat.eqb_spec (Nat.div2 w) 0) as [X|_]; [lia|]. unfold smooth_of. cbv zeta. rewrite <- Nat.div2_div. set (m := (length data - 2 * Nat.div2 w)%nat) in *. injection H as <-. split; [rewrite map_length, seq_length; reflexivity|].
  intros j x v HN. assert (LJ : (j < m)%nat) by (assert (K : nth_error (map (fun i => (nq i, box_mean w data i)) (seq (Nat.div2 w) m)) j <> None) by (rewrite HN; discriminate); apply nth_error_Some in K; rewrite map_length, seq_length in K; exact K).
  rewrite nth_error_map, nth_error_seq' in HN by exact LJ. cbn [option_map] in HN. injection HN as <- <-. split; [reflexivity|]. split; [lia|]. destruct (box_mean_ok w data j) as [E|E]; [lia|exact E|lia].
Qed.
Lemma plot_walk_ok cfg column data ext convolve color log calls : plot_walk cfg column data ext convolve color log = Ok calls ->
  data <> [] /\ walks calls = [(data, color)] /\ marks calls = [] /\
  (convolve = None -> smooths calls = []) /\ (forall w, convolve = Some w -> exists pts, smooths calls = [pts] /\ smoothed_walk w data = Ok pts) /\
  (forall t, fold_left (tick_step AY) calls t = {| tk_off := tk_off t; tk_major := true; tk_minor := tk_minor t || log; tk_range := match ext with Some (Some e) => Some e | _ => tk_range t end |}) /\
  (forall t, tk_range (fold_left (tick_step AX) calls t) = Some (0, nq (length data - 1))) /\
  (forall l, fold_left (label_step AY) calls l = label_of cfg column) /\ ext <> Some None.
Proof.
  unfold plot_walk. intros H. apply rbind_ok in H as [yl [HY H]]. assert (ND : data <> []) by (destruct data; discriminate). destruct data as [|d0 data]; [contradiction|]. remember (d0 :: data) as ys eqn:EY. clear EY. apply rbind_ok in H as [conv [HC H]]. injection H as <-.
  assert (GY : ext <> Some None /\ yl = match ext with Some (Some e) => [Limits AY (fst e) (snd e)] | _ => [] end).
  { destruct ext as [e|]; [|injection HY as <-; split; [discriminate|reflexivity]]. apply set_limits_ok in HY as [lo [hi [E ->]]]. injection E as ->. split; [discriminate|reflexivity]. }
  destruct GY as [NE ->].
  assert (GC : (convolve = None /\ conv = []) \/ exists w pts c2, convolve = Some w /\ smoothed_walk w ys = Ok pts /\ conv = [Smoothed pts c2]).
  { destruct convolve as [w|]; [right|left; injection HC as <-; auto]. apply rbind_ok in HC as [c2 [_ HC]]. destruct (smoothed_walk w ys) as [pts|] eqn:E; [|discriminate]. injection HC as <-. exists w, pts, c2. auto. }
  clear HY HC. split; [exact ND|].
  destruct GC as [[-> ->]|[w [pts [c2 [-> [GC ->]]]]]]; (destruct ext as [[[lo hi]|]|]; [|contradiction|]); destruct log;
    (split; [reflexivity|split; [reflexivity|split; [first [reflexivity|discriminate]|split; [first [discriminate|intros w' E; injection E as <-; exists pts; split; [reflexivity|exact GC]]|
     split; [intros [o m n r]; cbn; rewrite ?orb_true_r, ?orb_false_r; reflexivity|split; [intros [o m n r]; reflexivity|split; [reflexivity|exact NE]]]]]]]).
Qed.

(** ** A row *)
Definition row_part (cfg : plot_config) (max : nat) (val : chain * frame -> option (list Q) -> Prop) (column : string) (ext : option extent) (convolve : option Z) (log : bool) (cf : chain * frame) (part : list call) : Prop :=
  (val cf None /\ part = []) \/
  (exists full ys col, val cf (Some full) /\ thinned max full ys /\ chain_colour (fst cf) = Ok col /\ plot_walk cfg column ys ext convolve col log = Ok part).
Lemma row_ok cfg max val column ext convolve log chains parts : Forall2 (row_part cfg max val column ext convolve log) chains parts ->
  shows_walks max val chains (concat parts) /\ marks (concat parts) = [] /\ (convolve = None -> smooths (concat parts) = []) /\
  (forall w, convolve = Some w -> Forall2 (fun wk pts => smoothed_walk w (fst wk) = Ok pts) (walks (concat parts)) (smooths (concat parts))) /\
  Forall (fun wk => fst wk <> []) (walks (concat parts)) /\
  (forall t, fold_left (tick_step AY) (concat parts) t = match walks (concat parts) with [] => t | _ => {| tk_off := tk_off t; tk_major := true; tk_minor := tk_minor t || log; tk_range := match ext with Some (Some e) => Some e | _ => tk_range t end |} end) /\
  (forall t, tk_range (fold_left (tick_step AX) (concat parts) t) = match rev (walks (concat parts)) with [] => tk_range t | wk :: _ => Some (0, nq (length (fst wk) - 1)) end) /\
  (forall l, fold_left (label_step AY) (concat parts) l = match walks (concat parts) with [] => l | _ => label_of cfg column end) /\
  (walks (concat parts) <> [] -> ext <> Some None).
Proof.
  induction 1 as [|cf part chains parts HP HF IH]; [cbn; repeat split; try constructor; try contradiction; exists []; split; [constructor|reflexivity]|].
  destruct IH as [[ps [S1 S2]] [M [SN [SW [NE [TY [TX [LB EX]]]]]]]]. cbn [concat]. rewrite walks_app, smooths_app, marks_app.
  destruct HP as [[V ->]|[full [ys [col [V [TH [CC PW]]]]]]].
  - cbn [app walks smooths flat_map marks filter]. split; [exists ([] :: ps); split; [constructor; [exists None; auto|exact S1]|exact S2]|]. repeat (split; [assumption|]). assumption.
  - destruct (plot_walk_ok _ _ _ _ _ _ _ _ PW) as [W0 [W1 [W2 [W3 [W4 [W5 [W6 [W7 W8]]]]]]]]. rewrite W1, W2, M. cbn [app].
    split; [exists ([(ys, col)] :: ps); split; [constructor; [exists (Some full); split; [exact V|]; exists ys, col; auto|exact S1]|rewrite walks_app, W1, S2; reflexivity]|].
    split; [reflexivity|]. split; [intros E; rewrite (W3 E), (SN E); reflexivity|]. split; [intros w E; destruct (W4 w E) as [pts [-> E2]]; constructor; [exact E2|exact (SW w E)]|].
    split; [constructor; [exact W0|exact NE]|]. split; [|split; [|split]].
    + intros t. rewrite fold_left_app, W5, TY. destruct (walks (concat parts)); [reflexivity|]. cbn [tk_off tk_major tk_minor tk_range]. f_equal; [destruct (tk_minor t), log; reflexivity|]. destruct ext as [[e|]|]; reflexivity.
    + intros t. rewrite fold_left_app, TX. cbn [rev]. destruct (rev (walks (concat parts))) eqn:ER; [cbn; apply W6|reflexivity].
    + intros l. rewrite fold_left_app, W7, LB. destruct (walks (concat parts)); reflexivity.
    + intros _. exact W8.
Qed.
Lemma posterior_row_ok log10 max cfg convolve chains calls : (0 < max)%nat -> posterior_row max cfg convolve chains = Ok calls ->
  exists parts, calls = concat parts /\ Forall2 (row_part cfg max (row_values log10 false RPosterior) (row_name false RPosterior) None convolve false) chains parts.
Proof.
  intros HM H. unfold posterior_row, walk_rows in H. match type of H with rmap _ ?e = _ => destruct e as [parts|] eqn:E; [|discriminate] end. injection H as <-. exists parts. split; [reflexivity|].
  apply rmapM_Forall2 in E. clear -E HM. induction E as [|cf part chains parts H HF IH]; constructor; [|exact IH]. unfold row_part, row_values, posterior_values.
  destruct (log_posterior (fst cf) (snd cf)) as [p|] eqn:EP; [|injection H as <-; left; auto]. destruct p as [|x r]; [discriminate|]. apply rbind_ok in H as [col [HC H]]. right.
  exists (map (fun v => (v - qmax_list x r)%Q) (x :: r)), (thin max (map (fun v => (v - qmax_list x r)%Q) (x :: r))), col. split; [right; exists (x :: r), (qmax_list x r); split; [reflexivity|]; split; [|reflexivity]|].
  - destruct (qmax_list_spec x r) as [X1 X2]. split; assumption.
  - split; [apply thin_ok; exact HM|]. split; [exact HC|exact H].
Qed.
Lemma weight_row_ok log10 max cfg convolve lw chains calls : (0 < max)%nat -> weight_row log10 max cfg convolve lw chains = Ok calls ->
  exists parts, calls = concat parts /\ Forall2 (row_part cfg max (row_values log10 lw RWeights) (row_name lw RWeights) None convolve false) chains parts.
Proof.
  intros HM H. unfold weight_row, walk_rows in H. match type of H with rmap _ ?e = _ => destruct e as [parts|] eqn:E; [|discriminate] end. injection H as <-. exists parts. split; [reflexivity|].
  apply rmapM_Forall2 in E. clear -E HM. induction E as [|cf part chains parts H HF IH]; constructor; [|exact IH]. right. cbn [row_values row_name]. unfold shown_weights. apply rbind_ok in H as [w [HW H]]. apply rbind_ok in H as [col [HC H]].
  destruct lw; [exists (map log10 w), (thin max (map log10 w)), col|exists w, (thin max w), col]; (split; [exists w; auto|]); (split; [apply thin_ok; exact HM|]); (split; [exact HC|]); [rewrite thin_map|]; exact H.
Qed.
Lemma column_row_ok log10 lw max cfg truths b convolve p calls : (0 < max)%nat -> column_row max cfg truths b convolve p = Ok calls ->
  exists parts, calls = concat parts ++ plot_truths (fun _ => true) truths None (Some p) ++ (if smem p (pb_blind b) then [NoTicks AY] else []) /\
    Forall2 (row_part cfg max (row_values log10 lw (RColumn p)) (row_name lw (RColumn p)) (dget p (pb_extents b)) convolve (smem p (pb_logs b))) (pb_chains b) parts.
Proof.
  intros HM H. unfold column_row in H. apply rbind_ok in H as [calls' [HW H]]. injection H as <-. unfold walk_rows in HW. match type of HW with rmap _ ?e = _ => destruct e as [parts|] eqn:E; [|discriminate] end. injection HW as <-. exists parts.
  split; [f_equal; f_equal; unfold plot_truths; apply flat_map_ext; intros t; unfold plot_truth; cbn; destruct (dget p (t_location t)); reflexivity|].
  apply rmapM_Forall2 in E. clear -E HM. induction E as [|cf part chains parts H HF IH]; constructor; [|exact IH]. unfold row_part. cbn [row_values row_name]. unfold parameter_values. destruct (smem p (data_columns (fst cf) (snd cf))) eqn:ES.
  - apply smem_In in ES. apply rbind_ok in H as [d [HD H]]. apply rbind_ok in H as [col [HC H]]. right. exists d, (thin max d), col. split; [right; eauto|]. split; [apply thin_ok; exact HM|]. split; [exact HC|exact H].
  - left. injection H as <-. split; [left; split; [intros K; apply smem_In in K; congruence|reflexivity]|reflexivity].
Qed.

(** ** The figure *)
Definition row_tail (truths : list truth) (b : plot_base) (kind : row_kind) : list call :=
  match kind with RColumn p => plot_truths (fun _ => true) truths None (Some p) ++ (if smem p (pb_blind b) then [NoTicks AY] else []) | _ => [] end.
Definition row_calls (k : backend) (cfg : plot_config) (truths : list truth) (b : plot_base) (convolve : option Z) (lw : bool) (kind : row_kind) (calls : list call) : Prop :=
  exists parts, calls = concat parts ++ row_tail truths b kind /\
    Forall2 (row_part cfg (bk_max_points k) (row_values (bk_log10 k) lw kind) (row_name lw kind) (match kind with RColumn p => dget p (pb_extents b) | _ => None end) convolve (match kind with RColumn p => smem p (pb_logs b) | _ => false end)) (pb_chains b) parts.
Lemma subplots_ok r c size u : subplots r c size = Ok u -> (0 < r)%nat /\ (0 < c)%nat /\ (0 <= fst size /\ 0 <= snd size)%Q.
Proof.
  unfold subplots. destruct (negb _) eqn:E; [discriminate|]. apply negb_false_iff, andb_true_iff in E as [E1 E2]. destruct r as [|r]; [discriminate|]. destruct c as [|c]; [discriminate|]. intros _. split; [lia|]. split; [lia|]. split; apply qle_true; assumption.
Qed.
Lemma walks_figure_ok k cfg truths b size convolve pw pp lw file fig : (0 < bk_max_points k)%nat ->
  walks_figure (bk_log10 k) (bk_max_points k) cfg truths b size convolve pw pp lw file = Ok fig ->
  (forall rows, walk_layout pw pp (pb_chains b) (pb_columns b) rows -> Forall2 (fun kind row => exists calls, row = [calls] /\ row_calls k cfg truths b convolve lw kind calls) rows (fg_axes fig) /\
     fg_size fig = match size with SizeNone => (8, ((3 # 4) + nq (length rows))%Q) | SizeNum q => (q, q) | SizePair w h => (w, h) end) /\
  (exists rows, walk_layout pw pp (pb_chains b) (pb_columns b) rows) /\ saves cfg file (fg_saved fig) /\ fg_legend fig = None /\ fg_bars fig = [].
Proof.
  intros HM H. unfold walks_figure in H. cbv zeta in H. set (post := pp && existsb _ (pb_chains b)) in *.
  assert (PO : post = true <-> pp = true /\ exists cf, In cf (pb_chains b) /\ log_posterior (fst cf) (snd cf) <> None).
  { unfold post. rewrite andb_true_iff, existsb_exists. split; (intros [X [cf [Y Z]]]; split; [exact X|]; exists cf; split; [exact Y|]); destruct (log_posterior _ _); [discriminate|discriminate|reflexivity|congruence]. }
  apply rbind_ok in H as [u [HS H]]. apply rbind_ok in H as [r1 [H1 H]]. apply rbind_ok in H as [r2 [H2 H]]. apply rbind_ok in H as [r3 [H3 H]].
  assert (LA : forall rows, walk_layout pw pp (pb_chains b) (pb_columns b) rows <-> rows = (if post then [RPosterior] else []) ++ (if pw then [RWeights] else []) ++ map RColumn (pb_columns b)).
  { intros rows. unfold walk_layout. split.
    - intros [x [y [-> [X1 [X2 [X3 X4]]]]]]. f_equal; [|f_equal; destruct pw; auto]. destruct post; [apply X1, PO; reflexivity|apply X2]. intros K. apply PO in K. discriminate.
    - intros ->. eexists _, _. split; [reflexivity|]. split; [intros K; apply PO in K; rewrite K; reflexivity|]. split; [intros K; destruct post; [exfalso; apply K, PO; reflexivity|reflexivity]|]. split; intros ->; reflexivity. }
  injection H as <-. cbn [fg_axes fg_size fg_saved fg_legend fg_bars]. split; [|split; [eexists; apply LA; reflexivity|split; [apply saved_files_ok|auto]]].
  intros rows HL. apply LA in HL. subst rows. split.
  - apply Forall2_app; [|apply Forall2_app].
    + destruct post; [|injection H1 as <-; constructor]. destruct (posterior_row _ _ _ _) as [calls|] eqn:E; [|discriminate]. injection H1 as <-. constructor; [|constructor]. exists calls. split; [reflexivity|].
      apply (posterior_row_ok (bk_log10 k)) in E as [parts [-> HP]]; [|exact HM]. exists parts. cbn [row_tail]. rewrite app_nil_r. split; [reflexivity|exact HP].
    + destruct pw; [|injection H2 as <-; constructor]. destruct (weight_row _ _ _ _ _ _) as [calls|] eqn:E; [|discriminate]. injection H2 as <-. constructor; [|constructor]. exists calls. split; [reflexivity|].
      apply weight_row_ok in E as [parts [-> HP]]; [|exact HM]. exists parts. cbn [row_tail]. rewrite app_nil_r. split; [reflexivity|exact HP].
    + apply rmapM_Forall2 in H3. clear -H3 HM. induction H3 as [|p row cols r3 H HF IH]; cbn [map]; constructor; [|exact IH]. destruct (column_row _ _ _ _ _ _) as [calls|] eqn:E; [|discriminate]. injection H as <-. exists calls. split; [reflexivity|].
      apply (column_row_ok (bk_log10 k) lw) in E as [parts [-> HP]]; [|exact HM]. exists parts. split; [reflexivity|exact HP].
  - destruct size; [|reflexivity|reflexivity]. do 2 f_equal. f_equal. rewrite !app_length, map_length. destruct post, pw; cbn [length]; lia.
Qed.
Lemma walks_parts k s req columns file size convolve pw pp lw s' fig chains cols cfg : plot_walks k s req columns file size convolve pw pp lw = (s', Ok fig) -> world_ok (s_world s) -> plots s req columns chains cols -> config_of s cfg ->
  exists b, pb_chains b = chains /\ pb_columns b = cols /\ get_custom_extents (bk_num k) true (p_extents cfg) chains cols = Ok (pb_extents b) /\ pb_blind b = sanitise_blinds (p_blind cfg) cols /\ pb_logs b = p_log_scales cfg /\
    walks_figure (bk_log10 k) (bk_max_points k) cfg (s_truths s) b size convolve pw pp lw file = Ok fig.
Proof. intros H W P HC. unfold plot_walks in H. destruct (with_base_plots _ _ _ _ _ _ _ _ _ _ H W P _ HC) as [b [B1 [B2 [B3 [B4 [B5 B6]]]]]]. exists b. auto 10. Qed.
Lemma F2_length {A B} (P : A -> B -> Prop) l m : Forall2 P l m -> length l = length m.
Proof. induction 1; cbn; congruence. Qed.
Lemma walk_axis {A} (R : A -> list call -> Prop) rows fig : Forall2 (fun kind row => exists calls, row = [calls] /\ R kind calls) rows (fg_axes fig) ->
  grid_shape fig (length rows) 1 /\ (forall i j kind calls, nth_error rows i = Some kind -> axis fig i j calls -> R kind calls) /\ (forall i kind, nth_error rows i = Some kind -> exists calls, axis fig i 0 calls /\ R kind calls).
Proof.
  unfold grid_shape, axis. generalize (fg_axes fig) as axes. intros axes H. split; [|split].
  - split; [symmetry; eapply F2_length; exact H|]. intros row HI. apply In_nth_error in HI as [i HI]. revert i HI. induction H as [|a row' rows axes [calls [-> _]] _ IH]; intros [|i] HI; try discriminate; [injection HI as <-; reflexivity|exact (IH i HI)].
  - intros i j kind calls. revert i. induction H as [|a row' rows axes [calls' [-> HR]] _ IH]; intros [|i] HK [row [HA HB]]; try discriminate.
    + injection HK as ->. injection HA as <-. destruct j as [|[|j]]; try discriminate. injection HB as ->. exact HR.
    + apply (IH i HK). exists row. auto.
  - intros i kind. revert i. induction H as [|a row' rows axes [calls' [-> HR]] _ IH]; intros [|i] HK; try discriminate.
    + injection HK as ->. exists calls'. split; [exists [calls']; auto|exact HR].
    + destruct (IH i HK) as [c [[row [HA HB]] HR2]]. exists c. split; [exists row; auto|exact HR2].
Qed.
Lemma row_tail_facts truths b kind : walks (row_tail truths b kind) = [] /\ smooths (row_tail truths b kind) = [] /\
  (forall t, tk_range (fold_left (tick_step AX) (row_tail truths b kind) t) = tk_range t) /\ (forall l, fold_left (label_step AY) (row_tail truths b kind) l = l) /\
  (forall t, fold_left (tick_step AY) (row_tail truths b kind) t = match kind with RColumn p => if smem p (pb_blind b) then {| tk_off := tk_off t; tk_major := false; tk_minor := tk_minor t; tk_range := tk_range t |} else t | _ => t end).
Proof.
  destruct kind as [| |p]; cbn [row_tail]; [repeat split..|]. destruct (plot_truths_ok (fun _ => true) truths None (Some p)) as [l [_ [_ L3]]]. revert L3. generalize (plot_truths (fun _ : string => true) truths None (Some p)) as m. intros m L3.
  assert (F : walks m = [] /\ smooths m = [] /\ (forall l, fold_left (label_step AY) m l = l)).
  { induction L3 as [|c m HC _ [I1 [I2 I3]]]; [repeat split|]. destruct c; try discriminate HC; cbn; auto. }
  destruct F as [F1 [F2 F3]]. assert (FQ : Forall quiet m) by (eapply Forall_impl; [intros c; apply is_mark_quiet|exact L3]).
  rewrite walks_app, smooths_app, F1, F2. split; [destruct (smem p _); reflexivity|]. split; [destruct (smem p _); reflexivity|].
  split; [intros t; rewrite fold_left_app, (fold_quiet _ _ _ FQ); destruct (smem p _); reflexivity|]. split; [intros l'; rewrite fold_left_app, F3; destruct (smem p _); reflexivity|].
  intros t. rewrite fold_left_app, (fold_quiet _ _ _ FQ). destruct (smem p _); reflexivity.
Qed.
Lemma row_facts k cfg truths b convolve lw kind calls : row_calls k cfg truths b convolve lw kind calls ->
  let ext := match kind with RColumn p => dget p (pb_extents b) | _ => None end in let log := match kind with RColumn p => smem p (pb_logs b) | _ => false end in
  shows_walks (bk_max_points k) (row_values (bk_log10 k) lw kind) (pb_chains b) calls /\ marks calls = marks (row_tail truths b kind) /\
  (convolve = None -> smooths calls = []) /\ (forall w, convolve = Some w -> Forall2 (fun wk pts => smoothed_walk w (fst wk) = Ok pts) (walks calls) (smooths calls)) /\
  Forall (fun wk => fst wk <> []) (walks calls) /\
  (walks calls <> [] -> current_label AY calls = label_of cfg (row_name lw kind)) /\ (walks calls <> [] -> ext <> Some None) /\
  final_ticks AY calls = fold_left (tick_step AY) (row_tail truths b kind) match walks calls with [] => {| tk_off := false; tk_major := true; tk_minor := false; tk_range := None |} | _ => {| tk_off := false; tk_major := true; tk_minor := log; tk_range := match ext with Some (Some e) => Some e | _ => None end |} end /\
  (forall t, tk_range (fold_left (tick_step AX) calls t) = match rev (walks calls) with [] => tk_range t | wk :: _ => Some (0, nq (length (fst wk) - 1)) end).
Proof.
  intros [parts [-> HP]] ext log. destruct (row_ok _ _ _ _ _ _ _ _ _ HP) as [[ps [S1 S2]] [M [SN [SW [NE [TY [TX [LB EX]]]]]]]]. destruct (row_tail_facts truths b kind) as [T1 [T2 [T3 [T4 T5]]]].
  rewrite marks_app, walks_app, smooths_app, M, T1, T2, !app_nil_r. split; [exists ps; split; [exact S1|rewrite walks_app, T1, app_nil_r; exact S2]|]. split; [reflexivity|].
  do 3 (split; [assumption|]). split; [intros NW; unfold current_label; rewrite fold_left_app, T4, LB; destruct (walks (concat parts)); [contradiction|reflexivity]|]. split; [exact EX|]. split.
  - unfold final_ticks. rewrite fold_left_app, TY. f_equal.
  - intros t. rewrite fold_left_app, T3, TX. reflexivity.
Qed.
Lemma layout_column pw pp chains cols rows i p : walk_layout pw pp chains cols rows -> nth_error rows i = Some (RColumn p) -> In p cols.
Proof.
  intros [x [y [-> [X1 [X2 [X3 X4]]]]]] HK. apply nth_error_In in HK. apply in_app_or in HK as [K|K]; [exfalso|apply in_app_or in K as [K|K]; [exfalso|]].
  - destruct (pp && existsb (fun cf => match log_posterior (fst cf) (snd cf) with Some _ => true | None => false end) chains) eqn:E.
    + apply andb_true_iff in E as [E1 E2]. apply existsb_exists in E2 as [cf [E2 E3]]. rewrite X1 in K; [destruct K as [K|[]]; discriminate|]. split; [exact E1|]. exists cf. split; [exact E2|]. destruct (log_posterior _ _); congruence.
    + rewrite X2 in K; [destruct K|]. intros [E1 [cf [E2 E3]]]. rewrite E1 in E. cbn [andb] in E. assert (existsb (fun cf => match log_posterior (fst cf) (snd cf) with Some _ => true | None => false end) chains = true); [|congruence]. apply existsb_exists. exists cf. split; [exact E2|]. destruct (log_posterior _ _); congruence.
  - destruct pw; [rewrite (X3 eq_refl) in K; destruct K as [K|[]]; discriminate|rewrite (X4 eq_refl) in K; destruct K].
  - apply in_map_iff in K as [q [E K]]. injection E as ->. exact K.
Qed.
Lemma extents_present num wide cfg chains cols ext p : get_custom_extents num wide (p_extents cfg) chains cols = Ok ext -> In p cols -> exists e, dget p ext = Some e.
Proof.
  intros H HI. destruct (custom_extents_ok _ _ _ _ _ _ _ H) as [E1 [_ E3]]. destruct (dmem p (p_extents cfg)) eqn:EM; [|destruct (E3 p HI EM) as [e [K _]]; eauto].
  rewrite (E1 p EM), dget_map_some. destruct (dget p (p_extents cfg)) as [r|] eqn:ED; [eexists; reflexivity|]. apply dget_None in ED. apply dmem_In in EM. contradiction.
Qed.
