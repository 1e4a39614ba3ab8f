(** C46, C47, C50, C55, C65, C66, C72: the summary figure. *)
From Coq Require Import String List Bool Arith ZArith QArith Qabs Reals Lia Lqa.
From Verif Require Import Py NumSpec NumModel NumFacts HelpersSpec ColorModel HelpersModel MarginalModel FrameModel ConfigModel ChainModel RegistryModel RegistrySpec RegistryProofs RegistryProps ChainSpec ChainProofs ChainUseProofs DiagProofs
  TextModel AnalysisModel AnalysisSpec AnalysisProofs SurfaceModel PanelSpec SurfaceProofs PanelProofs FigureModel FigureSpec FigureProofs BarProofs TriangleProofs WalkProofs DistProofs SummaryFigProofs AnalysisProps FigureCases DistProps.
Import ListNotations.
Open Scope string_scope.
Open Scope list_scope.

Definition names (calls : list call) : list (string * string) := flat_map (fun c => match c with NameText t col => [(t, col)] | _ => [] end) calls.
(** [calls] were made on the panel of the chain [cf] and the column [p]. *)
Definition cell (fig : figure) (chains : list (chain * frame)) (cols : list string) (i j : nat) (cf : chain * frame) (p : string) (calls : list call) : Prop :=
  nth_error chains i = Some cf /\ nth_error cols j = Some p /\ axis fig i (S j) calls.

Lemma cell_of rgb2hex k s req columns file size err sp vr s' fig chains cols cfg i j cf p calls :
  reachable rgb2hex (s_world s) -> plots s req columns chains cols -> config_of s cfg -> plot_summary k s req columns file size err sp vr = (s', Ok fig) -> cell fig chains cols i j cf p calls ->
  exists blind last lo hi colour, In p cols /\ (blind = true <-> hidden (p_blind cfg) p) /\ (last = true <-> S i = length chains) /\ range_of (bk_num k) cfg (negb err) chains p (lo, hi) /\ chain_colour (fst cf) = Ok colour /\
    marks calls = plot_truths (bk_filled k) (s_truths s) (Some p) None /\
    (exists l, shown_label (p_labels cfg) p l /\ panel_titles calls = if (i =? 0)%nat then [l] else []) /\
    final_ticks AX calls = {| tk_off := false; tk_major := (last && negb blind) || smem p (p_log_scales cfg); tk_minor := smem p (p_log_scales cfg); tk_range := Some (lo, hi) |} /\
    (exists v, final_ticks AY calls = {| tk_off := false; tk_major := false; tk_minor := false; tk_range := v |}) /\
    (~ In p (data_columns (fst cf) (snd cf)) -> panel_bars calls = [] /\ error_bars calls = []) /\
    (In p (data_columns (fst cf) (snd cf)) -> err = true -> panel_bars calls = [] /\ summary_bar (bk_num k) p colour cf (error_bars calls)) /\
    (In p (data_columns (fst cf) (snd cf)) -> err = false -> error_bars calls = [] /\ exists t, bar_group (bk_num k) cfg p false false cf (panel_bars calls) t).
Proof.
  intros RE P HC H [H1 [H2 [row [H3 H4]]]]. destruct (summary_parts _ _ _ _ _ _ _ _ _ _ _ _ _ _ H (reachable_ok _ _ RE) P HC) as [b [<- [<- [B1 [B2 [B3 HW]]]]]].
  destruct (summary_figure_ok _ _ _ _ _ _ _ _ _ _ _ HW) as [N0 [M0 [G [[tops [TL T]] _]]]]. destruct (T i cf H1) as [colour [trow [C1 [C2 [_ C3]]]]]. destruct (C3 j p H2) as [calls' [top [[row' [A1 A2]] [C4 C5]]]].
  assert (row' = row) by congruence. subst row'. assert (calls' = calls) by congruence. subst calls'.
  assert (F : exists v, cell_facts (bk_num k) cfg (s_truths s) b err i cf colour p calls top v). { destruct C5 as [[_ K]|[_ K]]; [eauto|]. destruct (nth_error (pb_columns b) (S j)) as [q|]; [destruct K as [h [K _]]; eauto|eauto]. }
  destruct F as [v [lo [hi [E [M [TI [X [Y R]]]]]]]]. pose proof (nth_error_In _ _ H2) as HI.
  exists (smem p (pb_blind b)), (last_row b i), lo, hi, colour. split; [exact HI|]. split; [rewrite B2; apply hidden_blind; exact HI|]. split.
  { unfold last_row. assert ((i < length (pb_chains b))%nat) by (apply nth_error_Some; congruence). rewrite negb_true_iff, Nat.ltb_ge. lia. }
  split; [eapply extents_range; eassumption|]. split; [exact C1|]. split; [rewrite M; apply truth_vlines_truths|]. split; [exists (label_of cfg p); split; [apply label_of_shown|exact TI]|]. rewrite <- B3. split; [exact X|]. split; [eauto|].
  destruct (smem p (data_columns (fst cf) (snd cf))) eqn:ED.
  - apply smem_In in ED. split; [intros K; contradiction|]. split; intros _ EE; rewrite EE in R; [destruct R as [_ R]; exact R|]. destruct R as [R1 [t [_ R2]]]. split; [exact R1|eauto].
  - assert (NI : ~ In p (data_columns (fst cf) (snd cf))) by (intros K; apply smem_In in K; congruence). split; [intros _; tauto|]. split; intros K; contradiction.
Qed.
Ltac cell_start RE P HC H HP := destruct (cell_of _ _ _ _ _ _ _ _ _ _ _ _ _ _ _ _ _ _ _ _ RE P HC H HP) as [blind [last [lo [hi [colour [HI [BL [LA [RG [CC [MK [[lab [LB TI]] [TX [[v TY] [NO [EB PB]]]]]]]]]]]]]]]].

(** One row for each chain, starting with its name; one column for each parameter, under its label. *)
Theorem C72_layout : forall rgb2hex k s req columns file size err sp vr s' fig chains cols cfg,
  reachable rgb2hex (s_world s) -> plots s req columns chains cols -> config_of s cfg -> plot_summary k s req columns file size err sp vr = (s', Ok fig) ->
  grid_shape fig (length chains) (1 + length cols) /\
  (forall i cf, nth_error chains i = Some cf -> exists calls colour, axis fig i 0 calls /\ In AxisOff calls /\ chain_colour (fst cf) = Ok colour /\
     names calls = [(ch_name (fst cf), if p_legend_color_text cfg then colour else "k")] /\ panel_bars calls = [] /\ error_bars calls = [] /\ marks calls = []) /\
  (forall i j cf p, nth_error chains i = Some cf -> nth_error cols j = Some p -> exists calls label, cell fig chains cols i j cf p calls /\ shown_label (p_labels cfg) p label /\
     (i = 0%nat -> panel_titles calls = [label]) /\ (i <> 0%nat -> panel_titles calls = [])).
Proof.
  intros rgb k s req columns file size err sp vr s' fig chains cols cfg RE P HC H.
  destruct (summary_parts _ _ _ _ _ _ _ _ _ _ _ _ _ _ H (reachable_ok _ _ RE) P HC) as [b [E1 [E2 [B1 [B2 [B3 HW]]]]]]. destruct (summary_figure_ok _ _ _ _ _ _ _ _ _ _ _ HW) as [N0 [M0 [G [[tops [TL T]] _]]]].
  rewrite E1, E2 in *. split; [exact G|]. split.
  - intros i cf Hi. destruct (T i cf Hi) as [colour [trow [C1 [_ [[lims [A1 A2]] _]]]]]. eexists _, colour. split; [exact A1|]. split; [left; reflexivity|]. split; [exact C1|].
    unfold names, panel_bars, error_bars, marks. rewrite !flat_map_app, !filter_app. cbn [flat_map filter app is_bar is_mark].
    assert (L : flat_map (fun c => match c with NameText t col => [(t, col)] | _ => [] end) lims = [] /\ filter (fun c => match c with Title _ => false | _ => is_bar c end) lims = [] /\
      flat_map (fun c => match c with ErrorBar x l u col => [(x, l, u, col)] | _ => [] end) lims = [] /\ filter is_mark lims = []).
    { clear -A2. induction A2 as [|c l [lo [hi ->]] _ [I1 [I2 [I3 I4]]]]; [repeat split|]. cbn [flat_map filter is_bar is_mark app]. auto. }
    destruct L as [-> [-> [-> ->]]]. repeat split.
  - intros i j cf p Hi Hj. destruct (T i cf Hi) as [col0 [trow [_ [_ [_ C3]]]]]. destruct (C3 j p Hj) as [calls [top [A _]]]. assert (HP : cell fig chains cols i j cf p calls) by (split; [exact Hi|split; [exact Hj|exact A]]).
    cell_start RE P HC H HP. exists calls, lab. split; [exact HP|]. split; [exact LB|]. rewrite TI. split; intros K; [subst i; reflexivity|]. destruct (Nat.eqb_spec i 0); [contradiction|reflexivity].
Qed.
Print Assumptions C72_layout.

(** Error bars: the chain's summary in its colour; nothing for a parameter the chain lacks or a summary without ends. *)
Theorem C72_errorbars : forall rgb2hex k s req columns file size sp vr s' fig chains cols cfg,
  reachable rgb2hex (s_world s) -> plots s req columns chains cols -> config_of s cfg -> plot_summary k s req columns file size true sp vr = (s', Ok fig) ->
  forall i j cf p calls, cell fig chains cols i j cf p calls -> panel_bars calls = [] /\
    (~ In p (data_columns (fst cf) (snd cf)) -> error_bars calls = []) /\
    (In p (data_columns (fst cf) (snd cf)) -> exists colour, chain_colour (fst cf) = Ok colour /\ summary_bar (bk_num k) p colour cf (error_bars calls)).
Proof.
  intros rgb k s req columns file size sp vr s' fig chains cols cfg RE P HC H i j cf p calls HP. cell_start RE P HC H HP.
  destruct (smem p (data_columns (fst cf) (snd cf))) eqn:ED.
  - apply smem_In in ED. destruct (EB ED eq_refl) as [E1 E2]. split; [exact E1|]. split; [intros K; contradiction|eauto].
  - assert (NI : ~ In p (data_columns (fst cf) (snd cf))) by (intros K; apply smem_In in K; congruence). destruct (NO NI) as [N1 N2]. split; [exact N1|]. split; [auto|intros K; contradiction].
Qed.
Print Assumptions C72_errorbars.

(** Without error bars: the distribution of every chain that has the parameter, and nothing else. *)
Theorem C66_summary : forall rgb2hex k s req columns file size sp vr s' fig chains cols cfg,
  reachable rgb2hex (s_world s) -> plots s req columns chains cols -> config_of s cfg -> plot_summary k s req columns file size false sp vr = (s', Ok fig) ->
  (forall i j cf p calls, cell fig chains cols i j cf p calls -> error_bars calls = []) /\
  forall j p, nth_error cols j = Some p -> exists tops, column_tops (bk_num k) cfg fig chains p j tops.
Proof.
  intros rgb k s req columns file size sp vr s' fig chains cols cfg RE P HC H. split.
  - intros i j cf p calls HP. cell_start RE P HC H HP. destruct (smem p (data_columns (fst cf) (snd cf))) eqn:ED; [apply smem_In in ED; exact (proj1 (PB ED eq_refl))|].
    apply NO. intros K; apply smem_In in K; congruence.
  - intros j p Hj. destruct (C72_layout _ _ _ _ _ _ _ _ _ _ _ _ _ _ _ RE P HC H) as [_ [_ L]].
    assert (K : forall l, (forall i cf, nth_error l i = Some cf -> exists calls o, (exists i', nth_error l i = nth_error chains i' /\ i' = (length chains - length l + i)%nat /\ axis fig i' (S j) calls) /\
        match o with Some t => In p (data_columns (fst cf) (snd cf)) /\ bar_group (bk_num k) cfg p false false cf (panel_bars calls) t | None => ~ In p (data_columns (fst cf) (snd cf)) /\ panel_bars calls = [] end) ->
        exists tops, length tops = length l /\ forall i cf o, nth_error l i = Some cf -> nth_error tops i = Some o -> exists calls, axis fig (length chains - length l + i) (S j) calls /\
          match o with Some t => In p (data_columns (fst cf) (snd cf)) /\ bar_group (bk_num k) cfg p false false cf (panel_bars calls) t | None => ~ In p (data_columns (fst cf) (snd cf)) /\ panel_bars calls = [] end).
    { intros l Hl. set (base := (length chains - length l)%nat) in *. assert (Hl' : forall i cf, nth_error l i = Some cf -> exists calls o, axis fig (base + i) (S j) calls /\
        match o with Some t => In p (data_columns (fst cf) (snd cf)) /\ bar_group (bk_num k) cfg p false false cf (panel_bars calls) t | None => ~ In p (data_columns (fst cf) (snd cf)) /\ panel_bars calls = [] end).
      { intros i cf Hi. destruct (Hl i cf Hi) as [calls [o [[i' [_ [-> X1]]] X2]]]. eauto. }
      clear Hl. revert Hl'. generalize base as b0. clear base. induction l as [|cf l IH]; intros b0 Hl; [exists []; split; [reflexivity|intros [|i] cf o Hi; discriminate]|].
      destruct (Hl 0%nat cf eq_refl) as [calls [o [X1 X2]]]. destruct (IH (S b0)) as [tops [T1 T2]]. { intros i cf' Hi. replace (S b0 + i)%nat with (b0 + S i)%nat by lia. apply Hl. exact Hi. }
      exists (o :: tops). split; [cbn; congruence|]. intros [|i] cf' o' Hi Ho; cbn in Hi, Ho; [injection Hi as <-; injection Ho as <-; eauto|]. replace (b0 + S i)%nat with (S b0 + i)%nat by lia. exact (T2 i cf' o' Hi Ho). }
    destruct (K chains) as [tops [T1 T2]].
    { intros i cf Hi. destruct (L i j cf p Hi Hj) as [calls [label [HP _]]]. cell_start RE P HC H HP. destruct HP as [_ [_ HA]]. exists calls.
      destruct (smem p (data_columns (fst cf) (snd cf))) eqn:ED.
      - apply smem_In in ED. destruct (PB ED eq_refl) as [_ [t G]]. exists (Some t). split; [exists i; split; [reflexivity|split; [lia|exact HA]]|split; assumption].
      - assert (NI : ~ In p (data_columns (fst cf) (snd cf))) by (intros Z; apply smem_In in Z; congruence). exists None. split; [exists i; split; [reflexivity|split; [lia|exact HA]]|]. split; [exact NI|]. apply NO. exact NI. }
    exists tops. split; [exact T1|]. rewrite Nat.sub_diag in T2. exact T2.
Qed.
Print Assumptions C66_summary.

(** A truth draws a vertical line on the panels of each parameter it has a value for. *)
Theorem C46_summary : forall rgb2hex k s req columns file size err sp vr s' fig chains cols cfg,
  reachable rgb2hex (s_world s) -> plots s req columns chains cols -> config_of s cfg -> plot_summary k s req columns file size err sp vr = (s', Ok fig) ->
  forall i j cf p calls, cell fig chains cols i j cf p calls -> shows_truths (bk_filled k) (s_truths s) (Some p) None calls.
Proof.
  intros rgb k s req columns file size err sp vr s' fig chains cols cfg RE P HC H i j cf p calls HP. cell_start RE P HC H HP.
  destruct (plot_truths_ok (bk_filled k) (s_truths s) (Some p) None) as [l [L1 [L2 _]]]. exists l. split; [exact L1|]. rewrite MK. exact L2.
Qed.
Print Assumptions C46_summary.

(** On linear axes the panels of a hidden parameter show no tick labels, nor do panels above the last row.  Missing: on a logarithmic axis
    the ticks reappear (C47_summary_refuted). *)
Theorem C47_summary_partial : forall rgb2hex k s req columns file size err sp vr s' fig chains cols cfg,
  reachable rgb2hex (s_world s) -> plots s req columns chains cols -> config_of s cfg -> plot_summary k s req columns file size err sp vr = (s', Ok fig) ->
  forall i j cf p calls, cell fig chains cols i j cf p calls ->
    (hidden (p_blind cfg) p \/ S i <> length chains -> ~ In p (p_log_scales cfg) -> shows_ticks AX calls = false) /\ shows_ticks AY calls = false /\
    (~ hidden (p_blind cfg) p -> S i = length chains -> shows_ticks AX calls = true).
Proof.
  intros rgb k s req columns file size err sp vr s' fig chains cols cfg RE P HC H i j cf p calls HP. cell_start RE P HC H HP. unfold shows_ticks. rewrite TX, TY. cbn [tk_off tk_major tk_minor tk_range negb andb orb]. split; [|split; [reflexivity|]].
  - intros HB NL. destruct (smem p (p_log_scales cfg)) eqn:EL; [apply smem_In in EL; contradiction|]. cbn [andb orb]. rewrite !orb_false_r. apply andb_false_iff. destruct HB as [HB|HB]; [right|left].
    + apply BL in HB. rewrite HB. reflexivity.
    + destruct last; [|reflexivity]. destruct HB. apply LA. reflexivity.
  - intros NH HL. apply LA in HL. rewrite HL. destruct blind; [destruct NH; apply BL; reflexivity|]. reflexivity.
Qed.
Print Assumptions C47_summary_partial.

(** The horizontal axis has the user's range, otherwise the smallest one covering all chains (wider for distributions). *)
Theorem C50_summary : forall rgb2hex k s req columns file size err sp vr s' fig chains cols cfg,
  reachable rgb2hex (s_world s) -> plots s req columns chains cols -> config_of s cfg -> plot_summary k s req columns file size err sp vr = (s', Ok fig) ->
  forall i j cf p calls, cell fig chains cols i j cf p calls -> exists r, range_of (bk_num k) cfg (negb err) chains p r /\ current_limits AX calls = Some r.
Proof.
  intros rgb k s req columns file size err sp vr s' fig chains cols cfg RE P HC H i j cf p calls HP. cell_start RE P HC H HP. exists (lo, hi). split; [exact RG|]. unfold current_limits. rewrite TX. reflexivity.
Qed.
Print Assumptions C50_summary.

(** Without error bars each panel is scaled from 0 to 1.1 times the highest value drawn for a column.  Missing: for its own column.
    It is the next one, and the panels of the last column are not scaled (C55_refuted). *)
Theorem C55_partial : forall rgb2hex k s req columns file size sp vr s' fig chains cols cfg,
  reachable rgb2hex (s_world s) -> plots s req columns chains cols -> config_of s cfg -> plot_summary k s req columns file size false sp vr = (s', Ok fig) -> NoDup cols ->
  (forall i j cf p q calls, cell fig chains cols i j cf p calls -> nth_error cols (S j) = Some q ->
     exists tops m, column_tops (bk_num k) cfg fig chains q (S j) tops /\ is_max m (somes tops) /\ current_limits AY calls = Some (0, (11 # 10) * m)%Q) /\
  (forall i j cf p calls, cell fig chains cols i j cf p calls -> nth_error cols (S j) = None -> current_limits AY calls = None).
Proof.
  intros rgb k s req columns file size sp vr s' fig chains cols cfg RE P HC H ND. destruct (summary_parts _ _ _ _ _ _ _ _ _ _ _ _ _ _ H (reachable_ok _ _ RE) P HC) as [b [<- [<- [B1 [B2 [B3 HW]]]]]].
  destruct (summary_figure_ok _ _ _ _ _ _ _ _ _ _ _ HW) as [N0 [M0 [G [[tops [TL T]] _]]]].
  assert (U : forall x y p, nth_error (pb_columns b) x = Some p -> nth_error (pb_columns b) y = Some p -> x = y).
  { intros x y p Hx Hy. apply (proj1 (NoDup_nth_error _) ND); [apply nth_error_Some; congruence|congruence]. }
  assert (CT : forall j q, nth_error (pb_columns b) j = Some q -> column_tops (bk_num k) cfg fig (pb_chains b) q j (map (fun trow => match nth_error trow j with Some o => o | None => None end) (firstn (length (pb_chains b)) tops))).
  { intros j q Hq. assert (LT : (length (pb_chains b) <= length tops)%nat).
    { destruct (length (pb_chains b)) as [|n] eqn:EN; [lia|]. destruct (nth_error (pb_chains b) n) as [cf|] eqn:E; [|apply nth_error_None in E; lia]. destruct (T n cf E) as [c [tr [_ [K _]]]]. assert (n < length tops)%nat by (apply nth_error_Some; congruence). lia. }
    split; [rewrite map_length, firstn_length; lia|]. intros i cf o Hi Ho. assert (LI : (i < length (pb_chains b))%nat) by (apply nth_error_Some; congruence).
    destruct (T i cf Hi) as [colour [trow [_ [C2 [_ C3]]]]]. destruct (C3 j q Hq) as [calls [top [A1 [C4 C5]]]]. rewrite nth_error_map, nth_error_firstn', C2 in Ho by exact LI. cbn [option_map] in Ho. rewrite C4 in Ho. injection Ho as <-.
    exists calls. split; [exact A1|]. destruct C5 as [[E _]|[_ C5]]; [discriminate|].
    assert (F : exists v, cell_facts (bk_num k) cfg (s_truths s) b false i cf colour q calls top v). { destruct (nth_error (pb_columns b) (S j)) as [q'|]; [destruct C5 as [h [C5 _]]; eauto|eauto]. }
    destruct F as [v [lo [hi [_ [_ [_ [_ [_ R]]]]]]]]. destruct (smem q (data_columns (fst cf) (snd cf))) eqn:ED.
    - destruct R as [_ [t [-> R]]]. apply smem_In in ED. split; assumption.
    - destruct R as [-> [R _]]. split; [intros K; apply smem_In in K; congruence|exact R]. }
  assert (LEN : forall i trow, nth_error tops i = Some trow -> (i < length (pb_chains b))%nat -> exists cf, nth_error (pb_chains b) i = Some cf). { intros i trow _ L. destruct (nth_error (pb_chains b) i) eqn:E; [eauto|apply nth_error_None in E; lia]. }
  split.
  - intros i j cf p q calls [H1 [H2 [row [H3 H4]]]] HQ. destruct (T i cf H1) as [colour [trow [_ [_ [_ C3]]]]]. destruct (C3 j p H2) as [calls' [top [[row' [A1 A2]] [_ C5]]]].
    assert (row' = row) by congruence. subst row'. assert (calls' = calls) by congruence. subst calls'. destruct C5 as [[E _]|[_ C5]]; [discriminate|]. rewrite HQ in C5. destruct C5 as [h [[lo [hi [_ [_ [_ [_ [TY _]]]]]]] [V1 V2]]].
    eexists _, h. split; [apply CT; exact HQ|]. split; [|unfold current_limits; rewrite TY; reflexivity]. split.
    + destruct V2 as [i' [j' [trow' [W1 [W2 W3]]]]]. pose proof (U _ _ _ W2 HQ). subst j'. unfold somes. apply in_flat_map. exists (Some h). split; [|left; reflexivity]. apply in_map_iff. exists trow'. rewrite W3. split; [reflexivity|].
      destruct (Nat.lt_ge_cases i' (length (pb_chains b))) as [L|L]; [apply nth_error_In with (n := i'); rewrite nth_error_firstn' by exact L; exact W1|].
      assert (i' < length tops)%nat by (apply nth_error_Some; congruence). lia.
    + intros y HY. apply in_flat_map in HY as [o [HO HY]]. destruct o as [t|]; [|destruct HY]. destruct HY as [->|[]]. apply in_map_iff in HO as [tr [E HO]]. destruct (nth_error tr (S j)) as [o|] eqn:EO; [|discriminate]. subst o.
      apply In_nth_error in HO as [i' HO]. assert (LI : (i' < length (pb_chains b))%nat). { assert (K : (i' < length (firstn (length (pb_chains b)) tops))%nat) by (apply nth_error_Some; congruence). rewrite firstn_length in K. lia. }
      rewrite nth_error_firstn' in HO by exact LI. exact (V1 i' (S j) tr y HO HQ EO).
  - intros i j cf p calls [H1 [H2 [row [H3 H4]]]] HQ. destruct (T i cf H1) as [colour [trow [_ [_ [_ C3]]]]]. destruct (C3 j p H2) as [calls' [top [[row' [A1 A2]] [_ C5]]]].
    assert (row' = row) by congruence. subst row'. assert (calls' = calls) by congruence. subst calls'. destruct C5 as [[E _]|[_ C5]]; [discriminate|]. rewrite HQ in C5. destruct C5 as [lo [hi [_ [_ [_ [_ [TY _]]]]]]]. unfold current_limits. rewrite TY. reflexivity.
Qed.
Print Assumptions C55_partial.

(** Each parameter takes the width of the widest name, each row a height; the files asked for are written. *)
Theorem C65_summary : forall rgb2hex k s req columns file size err sp vr s' fig chains cols cfg,
  reachable rgb2hex (s_world s) -> plots s req columns chains cols -> config_of s cfg -> plot_summary k s req columns file size err sp vr = (s', Ok fig) ->
  saves cfg file (fg_saved fig) /\ fg_legend fig = None /\ fg_bars fig = [] /\
  exists mp mn, is_max mp (map (bk_text_width k) cols) /\ is_max mn (map (fun cf => bk_text_width k (ch_name (fst cf))) chains) /\
    (fst (fg_size fig) == (nq (length cols) * (sp + (if Qle_bool (mp / 65) (1 # 2) then (1 # 2) else mp / 65)) + (1 # 4) + mn / 65) * size)%Q /\
    (snd (fg_size fig) == ((1 # 2) + nq (length chains) * vr * (if err then (1 # 2) else (4 # 5))) * size)%Q.
Proof.
  intros rgb k s req columns file size err sp vr s' fig chains cols cfg RE P HC H. destruct (summary_parts _ _ _ _ _ _ _ _ _ _ _ _ _ _ H (reachable_ok _ _ RE) P HC) as [b [<- [<- [B1 [B2 [B3 HW]]]]]].
  destruct (summary_figure_ok _ _ _ _ _ _ _ _ _ _ _ HW) as [_ [_ [_ [_ [[mp [mn [M1 [M2 SZ]]]] [SV [LG BR]]]]]]]. split; [exact SV|]. split; [exact LG|]. split; [exact BR|]. exists mp, mn. split; [exact M1|]. split; [rewrite map_map in M2; exact M2|].
  rewrite SZ. cbn [fst snd]. split; [|unfold nq; ring]. assert (E : (qmax (1 # 2) (mp / 65) == if Qle_bool (mp / 65) (1 # 2) then (1 # 2) else mp / 65)%Q).
  { unfold qmax. destruct (Qle_bool (1 # 2) (mp / 65)) eqn:E1, (Qle_bool (mp / 65) (1 # 2)) eqn:E2; try reflexivity; rewrite ?qle_true, ?qle_false in *; lra. }
  rewrite E. unfold nq. ring.
Qed.
Print Assumptions C65_summary.

(** ** Examples *)
Definition summary_drawn (s : session) (cs : list string) (err : bool) (cfg : plot_config) (fig : figure) : Prop :=
  reachable ex_rgb (s_world s) /\ config_of s cfg /\ (exists s', plot_summary ex_backend s ReqAll (Some cs) (FileOne "a.png") 1 err 1 1 = (s', Ok fig)) /\ exists chains, plots s ReqAll (Some cs) chains cs /\ length chains = 2%nat.
Lemma summary_drawn_by s cs err cfg fig n1 n2 : reachable ex_rgb (s_world s) -> config_of s cfg -> snd (plot_summary ex_backend s ReqAll (Some cs) (FileOne "a.png") 1 err 1 1) = Ok fig ->
  requested (s_world s) ReqAll = map Some [n1; n2] -> length (fg_axes fig) = 2%nat -> summary_drawn s cs err cfg fig.
Proof.
  intros R C H HR HL. assert (E : exists s', plot_summary ex_backend s ReqAll (Some cs) (FileOne "a.png") 1 err 1 1 = (s', Ok fig)) by (destruct (plot_summary _ _ _ _ _ _ _ _ _) as [s' r]; cbn [snd] in H; subst; eauto).
  split; [exact R|]. split; [exact C|]. split; [exact E|]. destruct E as [s' E]. pose proof E as E'. unfold plot_summary in E. destruct (with_base_ok _ _ _ _ _ _ _ _ _ E (reachable_ok _ _ R) HR) as [b [B _]]. exists (pb_chains b).
  assert (EC : pb_columns b = cs) by (destruct B as [w1 [f1 [q1 [l1 [_ [_ [_ [_ A]]]]]]]]; exact A). rewrite EC in B. split; [exact B|].
  destruct (C72_layout _ _ _ _ _ _ _ _ _ _ _ _ _ _ _ R B C E') as [[G _] _]. congruence.
Qed.
(** Two chains, three parameters; the second chain has no z; y is hidden. *)
Example C72_nonvacuous : let cfg := fig_cfg false true (BlindList ["y"]) [] in exists fig1 fig2, summary_drawn (fig_mixed cfg) ["x"; "y"; "z"] true cfg fig1 /\ summary_drawn (fig_mixed cfg) ["x"; "y"; "z"] false cfg fig2 /\
  map (map (fun calls => length (error_bars calls))) (fg_axes fig1) = [[0; 1; 1; 1]; [0; 1; 1; 0]]%nat /\ map (map (fun calls => length (panel_bars calls))) (fg_axes fig2) = [[0; 2; 2; 2]; [0; 2; 2; 0]]%nat /\
  map (map names) (fg_axes fig1) = [[[("A", "#3b82f6")]; []; []; []]; [[("B", "#10b981")]; []; []; []]] /\ map (map panel_titles) (fg_axes fig2) = [[[]; ["$x$"]; ["y"]; ["z"]]; [[]; []; []; []]] /\
  map (map (shows_ticks AX)) (fg_axes fig2) = [[false; false; false; false]; [false; true; false; true]] /\ map (map (fun calls => length (marks calls))) (fg_axes fig2) = [[0; 2; 1; 0]; [0; 2; 1; 0]]%nat /\
  current_limits AY (calls_of fig2 0 1) = Some (0, 44 # 240)%Q /\ fg_size fig1 = (2478 # 520, 6 # 4)%Q.
Proof.
  intros cfg. eexists. eexists. split; [eapply summary_drawn_by with (n1 := "A") (n2 := "B"); [apply fig_reachable|reflexivity|vm_compute; reflexivity|vm_compute; reflexivity|reflexivity]|].
  split; [eapply summary_drawn_by with (n1 := "A") (n2 := "B"); [apply fig_reachable|reflexivity|vm_compute; reflexivity|vm_compute; reflexivity|reflexivity]|].
  repeat split; vm_compute; reflexivity.
Qed.
(** The scale of the next parameter cuts off what is drawn; the last column is not scaled. *)
Theorem C55_refuted : exists rgb2hex k s req columns file size sp vr s' fig chains cols cfg,
  reachable rgb2hex (s_world s) /\ plots s req columns chains cols /\ config_of s cfg /\ plot_summary k s req columns file size false sp vr = (s', Ok fig) /\ NoDup cols /\
  (exists cf p calls edges ys col ls lw z hi y, cell fig chains cols 0 0 cf p calls /\ In (Bars false edges ys col ls lw z) calls /\ In y ys /\ current_limits AY calls = Some (0, hi)%Q /\ (hi < y)%Q) /\
  (exists cf p calls, cell fig chains cols 0 2 cf p calls /\ panel_bars calls <> [] /\ current_limits AY calls = None).
Proof.
  set (cfg := fig_cfg false true BlindNone []).
  assert (EX : exists fig, summary_drawn (fig_mixed cfg) ["x"; "y"; "z"] false cfg fig /\ axis fig 0 1 (calls_of fig 0 1) /\ axis fig 0 3 (calls_of fig 0 3) /\
    nth_error (panel_bars (calls_of fig 0 1)) 0 = Some (Bars false [-1 # 2; 1 # 2; 3 # 2; 5 # 2] [4 # 12; 4 # 12; 4 # 12] (Some "#3b82f6") "-" 1 10)%Q /\ current_limits AY (calls_of fig 0 1) = Some (0, 44 # 240)%Q /\
    length (panel_bars (calls_of fig 0 3)) = 2%nat /\ current_limits AY (calls_of fig 0 3) = None).
  { eexists. split; [eapply summary_drawn_by with (n1 := "A") (n2 := "B"); [apply fig_reachable|reflexivity|vm_compute; reflexivity|vm_compute; reflexivity|reflexivity]|].
    split; [eexists; split; reflexivity|]. split; [eexists; split; reflexivity|]. repeat split; vm_compute; reflexivity. }
  destruct EX as [fig [[R [C [[s' W] [chains [P PL]]]]] [A1 [A2 [L1 [L2 [L3 L4]]]]]]].
  exists ex_rgb, ex_backend, (fig_mixed cfg), ReqAll, (Some ["x"; "y"; "z"]), (FileOne "a.png"), 1%Q, 1%Q, 1%Q, s', fig, chains, ["x"; "y"; "z"], cfg.
  do 4 (split; [assumption|]). split; [repeat constructor; cbn; intuition discriminate|]. destruct chains as [|cf chains]; [discriminate|]. split.
  - eexists cf, "x", (calls_of fig 0 1), _, _, _, _, _, _, _, (4 # 12)%Q. split; [split; [reflexivity|split; [reflexivity|exact A1]]|]. split; [apply nth_error_In in L1; apply filter_In in L1 as [L1 _]; exact L1|].
    split; [left; reflexivity|]. split; [exact L2|reflexivity].
  - exists cf, "z", (calls_of fig 0 3). split; [split; [reflexivity|split; [reflexivity|exact A2]]|]. split; [intros K; rewrite K in L3; discriminate|exact L4].
Qed.
Print Assumptions C55_refuted.
(** A hidden parameter on a logarithmic axis keeps its ticks. *)
Theorem C47_summary_refuted : exists rgb2hex k s req columns file size err sp vr s' fig chains cols cfg i j cf p calls,
  reachable rgb2hex (s_world s) /\ plots s req columns chains cols /\ config_of s cfg /\ plot_summary k s req columns file size err sp vr = (s', Ok fig) /\
  cell fig chains cols i j cf p calls /\ hidden (p_blind cfg) p /\ shows_ticks AX calls = true.
Proof.
  set (cfg := fig_cfg false true (BlindList ["y"]) ["y"]).
  assert (EX : exists fig, summary_drawn (fig_mixed cfg) ["x"; "y"] true cfg fig /\ axis fig 0 2 (calls_of fig 0 2) /\ shows_ticks AX (calls_of fig 0 2) = true).
  { eexists. split; [eapply summary_drawn_by with (n1 := "A") (n2 := "B"); [apply fig_reachable|reflexivity|vm_compute; reflexivity|vm_compute; reflexivity|reflexivity]|].
    split; [eexists; split; reflexivity|vm_compute; reflexivity]. }
  destruct EX as [fig [[R [C [[s' W] [chains [P PL]]]]] [A1 L1]]]. destruct chains as [|cf chains]; [discriminate|].
  exists ex_rgb, ex_backend, (fig_mixed cfg), ReqAll, (Some ["x"; "y"]), (FileOne "a.png"), 1%Q, true, 1%Q, 1%Q, s', fig, (cf :: chains), ["x"; "y"], cfg, 0%nat, 1%nat, cf, "y", (calls_of fig 0 2).
  do 4 (split; [assumption|]). split; [split; [reflexivity|split; [reflexivity|exact A1]]|]. split; [left; reflexivity|exact L1].
Qed.
Print Assumptions C47_summary_refuted.
