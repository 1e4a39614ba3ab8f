(** Lemmas: the distributions drawn for a chain do not depend on the other chains. *)
From Coq Require Import String List Bool Arith ZArith QArith Qabs Reals Lia FunctionalExtensionality.
From Verif Require Import Py NumModel ColorModel FrameModel ConfigModel ChainModel RegistryModel RegistrySpec HeapFacts RegistryProofs RegistryProps ChainSpec ChainUseProofs HelpersModel MarginalModel CovModel TextModel AnalysisModel AnalysisSpec AnalysisProofs CompareModel DiagModel DiagProofs SurfaceProofs SurfaceModel PanelProofs FigureModel FigureSpec FigureProofs BarProofs TriangleProofs DistProofs SummaryFigProofs DistProps ConsumerSpec ConsumerProofs QuerySpec QueryProofs AloneSpec AloneProofs CompanySpec.
Import ListNotations.
Open Scope string_scope.
Open Scope list_scope.

Lemma bars_panel_app a b : panel_bars (a ++ b) = panel_bars a ++ panel_bars b. Proof. apply filter_app. Qed.
Lemma panel_bars_of l : bars_of l = [] -> panel_bars l = [].
Proof. induction l as [|c l IH]; [reflexivity|]. unfold bars_of, panel_bars in *. cbn [filter]. destruct c; cbn; intros H; try discriminate; apply IH; exact H. Qed.
Lemma panel_bars_filter l : panel_bars (bars_of l) = panel_bars l.
Proof. induction l as [|c l IH]; [reflexivity|]. unfold bars_of, panel_bars in *. cbn [filter]. destruct c; cbn; try (rewrite IH; reflexivity); exact IH. Qed.
Lemma relabel_panel offset n i j calls : panel_bars (relabel offset n i j calls) = panel_bars calls.
Proof. rewrite <- panel_bars_filter, relabel_bars, panel_bars_filter. reflexivity. Qed.

Section bars.
Variables (num : numerics) (cfg : plot_config) (p : string) (flip : bool).
Lemma outline_bar c f out : bar_outline num c f p flip = Ok out -> panel_bars [fst (fst out)] = [fst (fst out)].
Proof.
  unfold bar_outline. cbv zeta. intros H. apply rbind_ok in H as [data [_ H]]. destruct (_ || _).
  - apply rbind_ok in H as [m [_ H]]. injection H as <-. reflexivity.
  - apply rbind_ok in H as [w [_ H]]. apply rbind_ok in H as [bins [_ H]]. apply rbind_ok in H as [hist [_ H]]. injection H as <-. reflexivity.
Qed.
Lemma bars_untitled summary cf g t : plot_bars num cfg p flip summary cf = Ok (g, t) -> plot_bars num cfg p flip false cf = Ok (panel_bars g, t).
Proof.
  destruct cf as [c f]. unfold plot_bars. intros H. apply rbind_ok in H as [[[outline xs] ys] [HO H]]. pose proof (outline_bar _ _ _ HO) as OB. rewrite HO. cbn [rbind]. cbv zeta in *. apply rbind_ok in H as [shade [HS H]]. destruct ys as [|y r]; [discriminate|]. injection H as <- <-. cbn [fst] in OB.
  change (outline :: shade) with ([outline] ++ shade). rewrite bars_panel_app, OB.
  match goal with |- rbind ?X _ = _ => assert (E : X = Ok (panel_bars shade)) end.
  { destruct (ch_cfg c Fbar_shade); [|injection HS as <-; reflexivity]. apply rbind_ok in HS as [base [-> HS]]. cbn [rbind]. destruct (b_lower base) as [lower|], (b_upper base) as [upper|]; try (injection HS as <-; reflexivity).
    apply rbind_ok in HS as [sh [-> HS]]. cbn [rbind]. apply rbind_ok in HS as [fills [HF HS]]. rewrite HF. cbn [rbind]. apply rbind_ok in HS as [title [HT HS]]. injection HS as <-. rewrite app_nil_r, bars_panel_app.
    assert (PF : panel_bars fills = fills). { clear -HF. apply rmapM_Forall2 in HF. induction HF as [|iv d ivs ds H1 H2 IH]; [reflexivity|]. destruct (in_range _ _ _); [|discriminate]. injection H1 as <-. unfold panel_bars in *. cbn. f_equal. exact IH. }
    assert (PT : panel_bars title = []). { destruct summary; [|injection HT as <-; reflexivity]. destruct (get_parameter_text _ _ _) as [tx|]; [|discriminate]. cbn [rmap] in HT. injection HT as <-. destruct (String.eqb tx ""); reflexivity. }
    rewrite PF, PT, app_nil_r. reflexivity. }
  rewrite E. reflexivity.
Qed.
(** What is drawn, without titles, for the chains that draw. *)
Definition drawn (d : chain * frame -> bool) (chains : list (chain * frame)) (l : list call) : Prop :=
  exists outs, rmapM (plot_bars num cfg p flip false) (filter d chains) = Ok outs /\ l = concat (map fst outs).
Lemma panel_drawn d chains summary bars top : bars_panel num cfg p flip summary (filter d chains) = Ok (bars, top) -> drawn d chains (panel_bars bars).
Proof.
  unfold bars_panel. destruct (rmapM _ _) as [outs|] eqn:E; [|discriminate]. cbn [rmap]. intros H. injection H as <- _. unfold drawn. set (l := filter d chains) in *. clearbody l. revert outs E. induction l as [|cf l IH]; intros outs E; [injection E as <-; exists []; auto|].
  cbn [rmapM] in *. apply rbind_ok in E as [[g t] [E1 E]]. apply rbind_ok in E as [r [E2 E]]. injection E as <-. destruct (IH _ E2) as [outs' [I1 I2]]. rewrite (bars_untitled _ _ _ _ E1), I1. cbn [rbind]. eexists. split; [reflexivity|]. cbn [map concat fst]. rewrite bars_panel_app. f_equal. exact I2.
Qed.
Lemma drawn_fun d chains l l' : drawn d chains l -> drawn d chains l' -> l = l'.
Proof. intros [o [H ->]] [o' [H' ->]]. congruence. Qed.
Lemma drawn_app d a b l : drawn d (a ++ b) l -> exists l1 l2, drawn d a l1 /\ drawn d b l2 /\ l = l1 ++ l2.
Proof.
  intros [outs [H ->]]. rewrite filter_app in H. apply rmapM_Forall2 in H. apply Forall2_app_inv_l in H as [o1 [o2 [H1 [H2 ->]]]]. exists (concat (map fst o1)), (concat (map fst o2)). split; [|split].
  - exists o1. split; [apply rmapM_Forall2; exact H1|reflexivity].
  - exists o2. split; [apply rmapM_Forall2; exact H2|reflexivity].
  - rewrite map_app, concat_app. reflexivity.
Qed.
Lemma drawn_concat d : forall parts l, drawn d (concat parts) l -> exists ls, Forall2 (fun part x => drawn d part x) parts ls /\ l = concat ls.
Proof.
  induction parts as [|part parts IH]; intros l H.
  - destruct H as [outs [H ->]]. cbn in H. injection H as <-. exists []. split; [constructor|reflexivity].
  - cbn [concat] in H. destruct (drawn_app _ _ _ _ H) as [l1 [l2 [D1 [D2 ->]]]]. destruct (IH _ D2) as [ls [F ->]]. exists (l1 :: ls). split; [constructor; assumption|reflexivity].
Qed.
End bars.

(** ** The diagonal of the triangle *)
Definition turns (cfg : plot_config) (cols : list string) (i : nat) : bool := (length cols =? 2)%nat && p_plot_hists cfg && p_flip cfg && (i =? length (params_x cfg cols) - 1)%nat.
Definition triangle_draws (p : string) (cf : chain * frame) : bool := ch_cfg (fst cf) Fplot_contour && f_has (snd cf) p.
Definition dist_draws (p : string) (cf : chain * frame) : bool := ch_cfg (fst cf) Fplot_contour && smem p (plotting_columns (fst cf) (snd cf)).
Lemma in_use s cfg : config_of s cfg -> config_in_use (s_plotter s) = cfg.
Proof. intros HC. unfold config_of, given in HC; unfold config_in_use; destruct (pl_config (s_plotter s)); cbn; congruence. Qed.
Lemma diag_bars k s req cols file size s' fig cfg : plot k s req (Some cols) file size = (s', Ok fig) -> config_of s cfg ->
  exists final, contents (s_world s) req false = Ok final /\
    forall i j px py calls, panel_at cfg cols i j px py -> diagonal cfg i j -> axis fig i j calls -> drawn (bk_num k) cfg px (turns cfg cols i) (triangle_draws px) final (panel_bars calls).
Proof.
  intros H HC. unfold plot in H. assert (E : snd (with_base (bk_num k) s req (Some cols) true (fun cfg truths b => plot_figure (bk_num k) (bk_kde2 k) (bk_argsort k) (bk_Phi k) (bk_filled k) (bk_offset k) cfg truths b size file)) = Ok fig) by (rewrite H; reflexivity).
  rewrite with_base_contents in E. apply rbind_ok in E as [final [EC E]]. cbv zeta in E. apply rbind_ok in E as [ext [_ E]]. exists final. split; [exact EC|]. rewrite (in_use _ _ HC) in E. cbn [sanitise_columns] in E.
  destruct (plot_figure_ok _ _ _ _ _ _ _ _ _ _ _ _ E) as [_ [_ A]]. cbn [pb_columns] in A. intros i j px py calls HP HD HA. assert (HJ : (j <= i)%nat) by (destruct HD; lia). destruct (panel_params _ _ _ _ _ _ HP HJ) as [E1 E2]. destruct (A i j py px calls E1 E2 HA) as [fc [[pc paths] [K1 [K2 ->]]]].
  assert (EP : py = px). { destruct HD as [Q ->]. destruct HP as [Q1 Q2]. rewrite Q in Q2. congruence. } subst py.
  destruct (panel_frame _ _ _ _ _ _ _ _ K1 HJ) as [r [yr [_ [_ [_ [_ [_ [_ [_ [BB _]]]]]]]]]]. unfold FigureModel.plot_panel in K2. destruct HD as [HH ->]. rewrite Nat.ltb_irrefl in K2. cbv zeta in K2. rewrite HH, Nat.eqb_refl in K2. cbn [andb] in K2. apply rbind_ok in K2 as [[bars top] [HB K2]]. cbn [fst snd] in K2. injection K2 as <- _.
  apply panel_drawn in HB. cbn [pb_chains] in HB. rewrite relabel_panel. cbn [fst]. rewrite !bars_panel_app, (panel_bars_of fc BB). cbn [app].
  assert (T1 : panel_bars (if flipped cfg {| pb_chains := final; pb_columns := cols; pb_extents := ext; pb_blind := sanitise_blinds (p_blind cfg) cols; pb_logs := p_log_scales cfg |} && (j =? length (params_x cfg cols) - 1)%nat then plot_truths (bk_filled k) (s_truths s) None (Some px) else plot_truths (bk_filled k) (s_truths s) (Some px) None) = []).
  { destruct (_ && _); [destruct (plot_truths_ok (bk_filled k) (s_truths s) None (Some px)) as [l [_ [_ L3]]]|destruct (plot_truths_ok (bk_filled k) (s_truths s) (Some px) None) as [l [_ [_ L3]]]]; apply panel_bars_of, (is_mark_not_bar _ L3). }
  cbn [pb_columns]. rewrite T1. cbn [app].
  match goal with |- context [panel_bars (match top with Some m => _ | None => _ end)] => assert (T2 : forall d, panel_bars (match top with Some m => [Limits d 0 ((11 # 10) * m)%Q] | None => [] end) = []) by (intros d; destruct top; reflexivity) end.
  rewrite T2, app_nil_r. exact HB.
Qed.
(** ** plot_distributions *)
Lemma dist_bars k s req cols file wrap size s' fig cfg : plot_distributions k s req (Some cols) file wrap size = (s', Ok fig) -> config_of s cfg ->
  exists final, contents (s_world s) req false = Ok final /\
    forall p calls, panel_of wrap cols fig p calls -> drawn (bk_num k) cfg p false (dist_draws p) final (panel_bars calls).
Proof.
  intros H HC. unfold plot_distributions in H. assert (E : snd (with_base (bk_num k) s req (Some cols) true (fun cfg ts b => distributions_figure (bk_num k) (bk_filled k) cfg ts b wrap size file)) = Ok fig) by (rewrite H; reflexivity).
  rewrite with_base_contents in E. apply rbind_ok in E as [final [EC E]]. cbv zeta in E. apply rbind_ok in E as [ext [_ E]]. exists final. split; [exact EC|]. rewrite (in_use _ _ HC) in E. cbn [sanitise_columns] in E.
  destruct (dist_figure_ok _ _ _ _ _ _ _ _ _ E) as [_ [_ [rows [w [E1 [_ [_ [_ [PN _]]]]]]]]]. cbn [pb_columns] in *. intros p calls [w' [n [i [j [W1 [W2 [W3 W4]]]]]]]. assert (w' = w) by lia. subst w'.
  destruct (PN _ _ _ _ W3 W4) as [K _]. specialize (K p W2). unfold distribution_panel in K. cbv zeta in K. apply rbind_ok in K as [xlim [HX K]]. apply rbind_ok in K as [[bars top] [HB K]]. cbn [fst snd] in K. destruct top as [m|]; [|discriminate].
  assert (EQ : calls = [NoTicks AY] ++ (if smem p (p_log_scales cfg) then [LogScale AX] else []) ++ (if smem p (sanitise_blinds (p_blind cfg) cols) then [NoTicks AX] else [Locator AX (smem p (p_log_scales cfg)) (p_max_ticks cfg)]) ++ xlim ++ bars ++ plot_truths (bk_filled k) (s_truths s) None (Some p) ++ [Limits AY 0 ((11 # 10) * m)%Q; AxisLabel AX p]) by (injection K as <-; reflexivity).
  subst calls. apply panel_drawn in HB. cbn [pb_chains] in HB.
  assert (X : panel_bars xlim = []). { assert (Y : exists e, set_limits AX e = Ok xlim) by (destruct (dget p _); [eauto|apply rbind_ok in HX as [e [_ HX]]; eauto]). destruct Y as [e Y]. apply set_limits_ok in Y as [lo [hi [_ ->]]]. reflexivity. }
  destruct (plot_truths_ok (bk_filled k) (s_truths s) None (Some p)) as [l [_ [_ L3]]]. rewrite !bars_panel_app, X, (panel_bars_of _ (is_mark_not_bar _ L3)).
  assert (Z1 : panel_bars (if smem p (p_log_scales cfg) then [LogScale AX] else []) = []) by (destruct (smem _ _); reflexivity). rewrite Z1.
  assert (Z2 : panel_bars (if smem p (sanitise_blinds (p_blind cfg) cols) then [NoTicks AX] else [Locator AX (smem p (p_log_scales cfg)) (p_max_ticks cfg)]) = []) by (destruct (smem p (sanitise_blinds _ _)); reflexivity). rewrite Z2. cbn [panel_bars filter is_bar app]. rewrite app_nil_r. exact HB.
Qed.

(** ** plot_summary *)
Definition cell_out (num : numerics) (cfg : plot_config) (errorbar : bool) (p : string) (cf : chain * frame) : res (list call * list (Q * Q * Q * string)) :=
  rbind (chain_colour (fst cf)) (fun colour =>
  if negb (smem p (data_columns (fst cf) (snd cf))) then Ok ([], [])
  else if errorbar then rbind (get_parameter_summary num (fst cf) (snd cf) p) (fun fv => Ok ([], match b_lower fv, b_center fv, b_upper fv with Some l, Some c, Some u => [(c, Qabs (c - l), Qabs (u - c), colour)] | _, _, _ => [] end))
  else rmap (fun o => (fst o, [])) (plot_bars num cfg p false false cf)).
Lemma cell_calls num cfg truths b err i cf colour p calls top : chain_colour (fst cf) = Ok colour -> summary_panel num cfg truths b err i cf colour p = Ok (calls, top) -> cell_out num cfg err p cf = Ok (panel_bars calls, error_bars calls).
Proof.
  intros CC H. unfold summary_panel in H. cbv zeta in H. apply rbind_ok in H as [xlim [HX H]]. apply set_limits_ok in HX as [lo [hi [EE ->]]]. fold (truth_vlines truths p) in H. unfold cell_out. rewrite CC. cbn [rbind].
  match type of H with (if _ then Ok (?fr, _) else _) = _ => set (fr0 := fr) in *; assert (F : panel_bars fr0 = [] /\ error_bars fr0 = []) end.
  { unfold fr0. rewrite !pbars_app, !errs_app. destruct (marks_none _ (vlines_facts truths p)) as [V1 [V2 _]]. rewrite V1, V2. destruct (0 <? i)%nat, (negb (i <? length (pb_chains b) - 1)%nat), (smem p (pb_blind b)), (smem p (pb_logs b)), (i =? 0)%nat; split; reflexivity. }
  destruct F as [F1 F2]. clearbody fr0. destruct (negb _); [injection H as <- _; rewrite F1, F2; reflexivity|]. destruct err.
  - apply rbind_ok in H as [fv [HS H]]. injection H as <- _. rewrite HS. cbn [rbind]. rewrite pbars_app, errs_app, F1, F2. destruct (b_lower fv), (b_center fv), (b_upper fv); reflexivity.
  - destruct (plot_bars num cfg p false false cf) as [[g t]|] eqn:EB; [|discriminate]. cbn [rmap fst snd] in *. injection H as <- _. pose proof (plot_bars_ok _ _ _ _ _ _ _ _ EB) as [BG BB]. destruct (untitled_group _ _ _ _ _ _ _ BG BB) as [U1 _]. rewrite pbars_app, errs_app, F1, F2, U1. cbn [app]. do 2 f_equal.
    clear -BB. unfold error_bars. induction BB as [|c g H _ IH]; [reflexivity|]. cbn [flat_map]. rewrite <- IH. destruct c; try discriminate; reflexivity.
Qed.
Lemma limits_none c m : panel_bars (c ++ [Limits AY 0 m]) = panel_bars c /\ error_bars (c ++ [Limits AY 0 m]) = error_bars c.
Proof. rewrite pbars_app, errs_app. cbn [panel_bars error_bars filter flat_map is_bar]. rewrite !app_nil_r. split; reflexivity. Qed.
Lemma summary_cells num tw cfg truths b size err sp vr file fig i j cf p calls : summary_figure num tw cfg truths b size err sp vr file = Ok fig -> nth_error (pb_chains b) i = Some cf -> nth_error (pb_columns b) j = Some p -> axis fig i (S j) calls ->
  cell_out num cfg err p cf = Ok (panel_bars calls, error_bars calls).
Proof.
  intros H Hi Hj [row [A1 A2]]. unfold summary_figure in H. apply rbind_ok in H as [mp [H1 H]]. apply rbind_ok in H as [mn [H2 H]]. cbv zeta in H. destruct (Qeq_bool _ 0); [discriminate|]. apply rbind_ok in H as [u [HS H]].
  apply rbind_ok in H as [rows [HR H]]. apply rbind_ok in H as [axes [HA H]]. injection H as <-. cbn [fg_axes] in A1. apply rmapM_Ok_iff in HR as [LR HR]. destruct (HR i (i, cf) (nth_error_enum _ _ _ Hi)) as [raw [R1 R2]].
  unfold summary_row in R2. apply rbind_ok in R2 as [colour [CC R2]]. destruct (rmapM (summary_panel _ _ _ _ _ _ _ _) _) as [cells|] eqn:E; [|discriminate]. cbn [rmap] in R2. injection R2 as <-. apply rmapM_Ok_iff in E as [L E]. destruct (E j p Hj) as [[calls0 top] [K1 K2]].
  pose proof (cell_calls _ _ _ _ _ _ _ _ _ _ _ CC K2) as R. set (name := [AxisOff; NameText _ _]) in *. destruct err.
  - injection HA as <-. rewrite nth_error_map, R1 in A1. cbn in A1. injection A1 as <-. cbn [nth_error] in A2. rewrite nth_error_map, K1 in A2. cbn in A2. injection A2 as <-. exact R.
  - apply rmapM_Ok_iff in HA as [LA HA]. destruct (HA i _ R1) as [row' [B1 B2]]. rewrite A1 in B1. injection B1 as <-. cbn [map fst] in B2. apply scale_row_ok in B2 as [_ B2]; [|cbn [length]; rewrite map_length, L; lia].
    destruct (B2 (S j) calls0) as [c' [K3 K4]]; [cbn [nth_error]; rewrite nth_error_map, K1; reflexivity|]. rewrite A2 in K3. injection K3 as <-. destruct (nth_error (pb_columns b) (S j)) as [q|]; [|subst calls; exact R]. destruct K4 as [h [_ ->]]. destruct (limits_none calls0 ((11 # 10) * h)%Q) as [-> ->]. exact R.
Qed.
Lemma summary_rows k s req cols file size err sp vr s' fig cfg : plot_summary k s req (Some cols) file size err sp vr = (s', Ok fig) -> config_of s cfg ->
  exists final, contents (s_world s) req false = Ok final /\ final <> [] /\
    forall i j cf p calls, nth_error final i = Some cf -> nth_error cols j = Some p -> axis fig i (S j) calls -> cell_out (bk_num k) cfg err p cf = Ok (panel_bars calls, error_bars calls).
Proof.
  intros H HC. unfold plot_summary in H. assert (E : snd (with_base (bk_num k) s req (Some cols) (negb err) (fun cfg ts b => summary_figure (bk_num k) (bk_text_width k) cfg ts b size err sp vr file)) = Ok fig) by (rewrite H; reflexivity).
  rewrite with_base_contents in E. apply rbind_ok in E as [final [EC E]]. cbv zeta in E. apply rbind_ok in E as [ext [_ E]]. exists final. split; [exact EC|]. rewrite (in_use _ _ HC) in E. cbn [sanitise_columns] in E. split.
  - destruct (summary_figure_ok _ _ _ _ _ _ _ _ _ _ _ E) as [N _]. cbn in N. destruct final; [cbn in N; lia|discriminate].
  - intros i j cf p calls Hi Hj HA. exact (summary_cells _ _ _ _ _ _ _ _ _ _ _ _ _ cf _ _ E Hi Hj HA).
Qed.

(** ** Several chains and each alone *)
Lemma together_parts (w : world) (D : list (chain * frame) -> list call -> Prop) names final l (alone : list (list call)) :
  (forall c a b, D c a -> D c b -> a = b) -> (forall parts x, D (concat parts) x -> exists ls, Forall2 D parts ls /\ x = concat ls) ->
  world_ok w -> contents w (ReqList (map ByName names)) false = Ok final -> D final l ->
  Forall2 (fun n a => exists final1, contents w (ReqList [ByName n]) false = Ok final1 /\ D final1 a) names alone -> l = concat alone.
Proof.
  intros DF DC W EC E FA. destruct (contents_parts _ _ _ _ W EC) as [cfs [FC [-> EN]]]. rewrite flat_map_concat_map in E. destruct (DC _ _ E) as [ls [F ->]]. f_equal. clear E EC. apply F2_len' in FC.
  revert names alone ls FC EN FA F. induction cfs as [|cf cfs IH]; intros names alone ls L EN FA F.
  - destruct names; [|discriminate]. inversion FA; subst. inversion F; subst. reflexivity.
  - destruct names as [|n names]; [discriminate|]. inversion FA as [|? a ? alone' [final1 [C1 D1]] FA']; subst. cbn [map] in F. inversion F as [|? d ? ls' D2 F']; subst. f_equal.
    + rewrite (EN n cf (or_introl eq_refl)) in C1. injection C1 as <-. exact (DF _ _ _ D2 D1).
    + apply (IH names alone' ls'); auto. intros m cf' HI. apply EN. right. exact HI.
Qed.

(** ** Two sessions *)
Lemma outlines_app a b : outlines (a ++ b) = outlines a ++ outlines b. Proof. apply flat_map_app. Qed.
Section sessions.
Variables (num : numerics) (cfg : plot_config) (p : string) (flip : bool).
Lemma outline_agree c c' f o o' : settings_agree c c' -> bar_outline num c f p flip = Ok o -> bar_outline num c' f p flip = Ok o' -> outlines [fst (fst o')] = outlines [fst (fst o)].
Proof.
  intros A H H'. pose proof (agree_cfg _ _ A) as G. unfold bar_outline in *. cbv zeta in *. apply rbind_ok in H as [data [HD H]]. apply rbind_ok in H' as [data' [HD' H']]. rewrite HD in HD'. injection HD' as <-.
  pose proof (G Fsmooth) as G1. pose proof (G Fkde) as G2. pose proof (G Fbins) as G3. pose proof (G Flinestyle) as G4. pose proof (G Flinewidth) as G5. pose proof (G Fzorder) as G6. cbn [neutral] in *.
  assert (GG : ch_grid c' = ch_grid c) by (apply (f_equal ch_grid) in A; exact A). assert (GH : ch_relheight c' = ch_relheight c) by (apply (f_equal ch_relheight) in A; exact A). assert (GP : ch_power c' = ch_power c) by (apply (f_equal ch_power) in A; exact A).
  rewrite G1, G2, G3, G4, G5, G6, GG, GH, GP in H'. destruct (_ || _).
  - assert (M : chain_marginal num c' f p true = chain_marginal num c f p true) by (transitivity (chain_marginal num (bare c') f p true); [reflexivity|rewrite A; reflexivity]). rewrite M in H'.
    apply rbind_ok in H as [m [HM H]]. rewrite HM in H'. cbn [rbind] in H'. injection H as <-. injection H' as <-. reflexivity.
  - assert (M : weights c' f = weights c f) by (transitivity (weights (bare c') f); [reflexivity|rewrite A; reflexivity]). rewrite M in H'.
    apply rbind_ok in H as [w [HW H]]. rewrite HW in H'. cbn [rbind] in H'. apply rbind_ok in H as [bins [HB H]]. rewrite HB in H'. cbn [rbind] in H'. apply rbind_ok in H as [hist [HH H]]. rewrite HH in H'. cbn [rbind] in H'. injection H as <-. injection H' as <-. reflexivity.
Qed.
Lemma bars_outline c f g t : plot_bars num cfg p flip false (c, f) = Ok (g, t) -> exists o, bar_outline num c f p flip = Ok o /\ outlines g = outlines [fst (fst o)].
Proof.
  unfold plot_bars. intros H. apply rbind_ok in H as [[[outline xs] ys] [HO H]]. cbv zeta in H. apply rbind_ok in H as [shade [HS H]]. destruct ys as [|y r]; [discriminate|]. injection H as <- _. exists (outline, xs, y :: r). split; [exact HO|]. cbn [fst].
  change (outline :: shade) with ([outline] ++ shade). rewrite outlines_app. assert (Z : outlines shade = []); [|rewrite Z; apply app_nil_r].
  destruct (ch_cfg c Fbar_shade); [|injection HS as <-; reflexivity]. apply rbind_ok in HS as [base [_ HS]]. destruct (b_lower base), (b_upper base); try (injection HS as <-; reflexivity). apply rbind_ok in HS as [sh [_ HS]]. apply rbind_ok in HS as [fills [HF HS]]. cbn [rbind] in HS. injection HS as <-. rewrite app_nil_r.
  apply rmapM_Forall2 in HF. clear -HF. induction HF as [|iv d ivs ds H1 H2 IH]; [reflexivity|]. destruct (in_range _ _ _); [|discriminate]. injection H1 as <-. exact IH.
Qed.
Lemma bars_agree c c' f g t g' t' : settings_agree c c' -> plot_bars num cfg p flip false (c, f) = Ok (g, t) -> plot_bars num cfg p flip false (c', f) = Ok (g', t') -> outlines g' = outlines g.
Proof. intros A H H'. destruct (bars_outline _ _ _ _ H) as [o [O1 ->]]. destruct (bars_outline _ _ _ _ H') as [o' [O2 ->]]. eapply outline_agree; eassumption. Qed.
Lemma bars_samples c f l : plot_bars num cfg p flip false (with_samples c l, f) = plot_bars num cfg p flip false (c, f). Proof. reflexivity. Qed.
Lemma drawn_agree d c c' f l l' : (forall k, d (bare k, f) = d (k, f)) -> settings_agree c c' -> drawn num cfg p flip d [(c, f)] l -> drawn num cfg p flip d [(c', f)] l' -> outlines l' = outlines l.
Proof.
  intros DB A [o [H ->]] [o' [H' ->]]. cbn [filter] in *. rewrite <- (DB c') in H'. rewrite A, (DB c) in H'. destruct (d (c, f)); [|injection H as <-; injection H' as <-; reflexivity]. cbn [rmapM] in *.
  apply rbind_ok in H as [[g t] [H1 H]]. injection H as <-. apply rbind_ok in H' as [[g' t'] [H1' H']]. injection H' as <-. cbn. rewrite !app_nil_r. eapply bars_agree; eassumption.
Qed.
Lemma drawn_same d c c' f l l' : (forall k n, d (with_samples k n, f) = d (k, f)) -> with_samples c' 0 = with_samples c 0 -> drawn num cfg p flip d [(c, f)] l -> drawn num cfg p flip d [(c', f)] l' -> l' = l.
Proof.
  intros DB A [o [H ->]] [o' [H' ->]]. cbn [filter] in *. rewrite <- (DB c' 0%nat) in H'. rewrite A, (DB c) in H'. destruct (d (c, f)); [|injection H as <-; injection H' as <-; reflexivity]. cbn [rmapM] in *.
  rewrite <- (bars_samples c' f 0), A, bars_samples in H'. rewrite H in H'. injection H' as <-. reflexivity.
Qed.
End sessions.
Lemma cell_agree num cfg p err c c' f a b a' b' : settings_agree c c' -> cell_out num cfg err p (c, f) = Ok (a, b) -> cell_out num cfg err p (c', f) = Ok (a', b') -> outlines a' = outlines a /\ map fst b' = map fst b.
Proof.
  intros A H H'. unfold cell_out in *. cbn [fst snd] in *. apply rbind_ok in H as [col [_ H]]. apply rbind_ok in H' as [col' [_ H']].
  assert (DC : data_columns c' f = data_columns c f) by (transitivity (data_columns (bare c') f); [reflexivity|rewrite A; reflexivity]). rewrite DC in H'. destruct (negb _); [injection H as <- <-; injection H' as <- <-; auto|]. destruct err.
  - assert (SS : get_parameter_summary num c' f p = get_parameter_summary num c f p) by (transitivity (get_parameter_summary num (bare c') f p); [reflexivity|rewrite A; reflexivity]). rewrite SS in H'. apply rbind_ok in H as [fv [HS H]]. rewrite HS in H'. cbn [rbind] in H'. injection H as <- <-. injection H' as <- <-. split; [reflexivity|]. destruct (b_lower fv), (b_center fv), (b_upper fv); reflexivity.
  - destruct (plot_bars num cfg p false false (c, f)) as [[g t]|] eqn:E; [|discriminate]. destruct (plot_bars num cfg p false false (c', f)) as [[g' t']|] eqn:E'; [|discriminate]. injection H as <- <-. injection H' as <- <-. split; [|reflexivity].
    cbn [fst]. exact (bars_agree _ _ _ _ _ _ _ _ _ _ _ A E E').
Qed.

(** ** plot_walks *)
Lemma paths_app a b : paths (a ++ b) = paths a ++ paths b. Proof. apply filter_app. Qed.
Definition chain_paths (max_points : nat) (cfg : plot_config) (convolve : option Z) (p : string) (cf : chain * frame) : res (list call) :=
  if smem p (data_columns (fst cf) (snd cf))
  then rbind (get_data (snd cf) p) (fun d => rbind (chain_colour (fst cf)) (fun col => rmap paths (plot_walk cfg p (thin max_points d) None convolve col false)))
  else Ok [].
Lemma walk_paths cfg p d e convolve col lg calls : plot_walk cfg p d e convolve col lg = Ok calls -> rmap paths (plot_walk cfg p d None convolve col false) = Ok (paths calls).
Proof.
  unfold plot_walk. intros H. apply rbind_ok in H as [ylim [HY H]]. cbn [rbind]. destruct d as [|x d]; [discriminate|]. set (xd := x :: d) in *. clearbody xd. apply rbind_ok in H as [conv [HC H]]. rewrite HC. cbn [rbind rmap]. f_equal.
  assert (Y : paths ylim = []). { destruct e as [e|]; [|injection HY as <-; reflexivity]. apply set_limits_ok in HY as [lo [hi [_ ->]]]. reflexivity. }
  assert (E : calls = ylim ++ [Limits AX 0 (nq (length xd - 1)); AxisLabel AY (label_of cfg p); Walk xd col] ++ (if lg then [LogScale AY; Locator AY true (p_max_ticks cfg)] else [Locator AY false (p_max_ticks cfg)]) ++ conv) by (injection H as <-; reflexivity).
  rewrite E. rewrite !paths_app, Y. destruct lg; reflexivity.
Qed.
Definition walked_paths (max_points : nat) (cfg : plot_config) (convolve : option Z) (p : string) (chains : list (chain * frame)) (l : list call) : Prop :=
  exists outs, rmapM (chain_paths max_points cfg convolve p) chains = Ok outs /\ l = concat outs.
Lemma row_paths max_points cfg truths b convolve p calls : column_row max_points cfg truths b convolve p = Ok calls -> walked_paths max_points cfg convolve p (pb_chains b) (paths calls).
Proof.
  unfold column_row, walk_rows. intros H. apply rbind_ok in H as [cs [HC H]]. destruct (rmapM _ _) as [outs|] eqn:E; [|discriminate]. cbn [rmap] in HC. injection HC as <-.
  assert (EQ : calls = concat outs ++ flat_map (fun t => match dget p (t_location t) with Some v => [HLine v (truth_line t)] | None => [] end) truths ++ (if smem p (pb_blind b) then [NoTicks AY] else [])) by (injection H as <-; reflexivity). subst calls. clear H.
  rewrite !paths_app. assert (Z1 : paths (flat_map (fun t => match dget p (t_location t) with Some v => [HLine v (truth_line t)] | None => [] end) truths) = []) by (clear; induction truths as [|t l IH]; [reflexivity|]; cbn [flat_map]; rewrite paths_app, IH; destruct (dget p _); reflexivity).
  assert (Z2 : paths (if smem p (pb_blind b) then [NoTicks AY] else []) = []) by (destruct (smem p (pb_blind b)); reflexivity). rewrite Z1, Z2, !app_nil_r. unfold walked_paths. apply rmapM_Forall2 in E.
  exists (map paths outs). split.
  - apply rmapM_Forall2. induction E as [|cf o l outs H E IH]; [constructor|]. cbn [map]. constructor; [|exact IH]. unfold chain_paths. destruct (smem p (data_columns (fst cf) (snd cf))); [|injection H as <-; reflexivity].
    apply rbind_ok in H as [d [-> H]]. apply rbind_ok in H as [col [-> H]]. cbn [rbind]. eapply walk_paths. exact H.
  - clear. induction outs as [|o outs IH]; [reflexivity|]. cbn. rewrite paths_app, IH. reflexivity.
Qed.
Lemma walked_fun m cfg cv p chains l l' : walked_paths m cfg cv p chains l -> walked_paths m cfg cv p chains l' -> l = l'.
Proof. intros [o [H ->]] [o' [H' ->]]. congruence. Qed.
Lemma walked_concat m cfg cv p : forall parts l, walked_paths m cfg cv p (concat parts) l -> exists ls, Forall2 (walked_paths m cfg cv p) parts ls /\ l = concat ls.
Proof.
  induction parts as [|part parts IH]; intros l [outs [H ->]]; [cbn in H; injection H as <-; exists []; split; [constructor|reflexivity]|]. cbn [concat] in H. apply rmapM_Forall2 in H. apply Forall2_app_inv_l in H as [o1 [o2 [H1 [H2 ->]]]]. apply rmapM_Forall2 in H1, H2.
  destruct (IH (concat o2)) as [ls [F E]]; [exists o2; auto|]. exists (concat o1 :: ls). split; [constructor; [exists o1; auto|exact F]|]. rewrite concat_app. cbn. f_equal. exact E.
Qed.
Lemma walk_bars k s req cols file size cv pw pp lw s' fig cfg : plot_walks k s req (Some cols) file size cv pw pp lw = (s', Ok fig) -> config_of s cfg ->
  exists final, contents (s_world s) req false = Ok final /\ forall j p calls, parameter_row fig cols j p calls -> walked_paths (bk_max_points k) cfg cv p final (paths calls).
Proof.
  intros H HC. unfold plot_walks in H. match type of H with ?X = _ => assert (E : snd X = Ok fig) by (rewrite H; reflexivity) end.
  rewrite with_base_contents in E. apply rbind_ok in E as [final [EC E]]. cbv zeta in E. apply rbind_ok in E as [ext [_ E]]. exists final. split; [exact EC|]. rewrite (in_use _ _ HC) in E. cbn [sanitise_columns] in E.
  unfold walks_figure in E. cbv zeta in E. apply rbind_ok in E as [u [_ E]]. apply rbind_ok in E as [r1 [_ E]]. apply rbind_ok in E as [r2 [_ E]]. apply rbind_ok in E as [r3 [H3 E]]. injection E as <-. cbn [pb_columns] in H3. apply rmapM_Ok_iff in H3 as [L3 H3].
  intros j p calls [HJ [above [LA [row [A1 A2]]]]]. cbn [fg_axes] in *. rewrite !app_length in LA. assert (above = (length r1 + length r2)%nat) by lia. subst above. rewrite app_assoc, nth_error_app2, app_length in A1 by (rewrite app_length; lia). replace (length r1 + length r2 + j - (length r1 + length r2))%nat with j in A1 by lia.
  destruct (H3 j p HJ) as [row' [R1 R2]]. rewrite A1 in R1. injection R1 as <-. destruct (column_row _ _ _ _ _ _) as [cs|] eqn:EC1; [|discriminate]. cbn [rmap] in R2. injection R2 as <-. cbn in A2. injection A2 as <-. apply row_paths in EC1. exact EC1.
Qed.
Lemma paths_agree m cfg cv p c c' f a a' : settings_agree c c' -> chain_paths m cfg cv p (c, f) = Ok a -> chain_paths m cfg cv p (c', f) = Ok a' -> uncoloured a' = uncoloured a.
Proof.
  intros A H H'. unfold chain_paths in *. cbn [fst snd] in *. assert (DC : data_columns c' f = data_columns c f) by (transitivity (data_columns (bare c') f); [reflexivity|rewrite A; reflexivity]). rewrite DC in H'. destruct (smem _ _); [|injection H as <-; injection H' as <-; reflexivity].
  apply rbind_ok in H as [d [HD H]]. rewrite HD in H'. cbn [rbind] in H'. apply rbind_ok in H as [col [_ H]]. apply rbind_ok in H' as [col' [_ H']].
  assert (Q : forall col a, rmap paths (plot_walk cfg p (thin m d) None cv col false) = Ok a -> uncoloured a = inl (thin m d) :: match cv with None => [] | Some w => match smoothed_walk w (thin m d) with Ok pts => [inr pts] | Err _ => [] end end).
  { clear. intros col a H. unfold plot_walk in H. cbn [rbind] in H. destruct (thin m d) as [|x r]; [discriminate|]. set (xs := x :: r) in *. clearbody xs. destruct cv as [w|].
    - destruct (scale_colour _ _ _) as [c2|]; [|discriminate]. cbn [rbind] in H. destruct (smoothed_walk w xs) as [pts|]; [|discriminate]. cbn in H. injection H as <-. reflexivity.
    - cbn in H. injection H as <-. reflexivity. }
  rewrite (Q _ _ H), (Q _ _ H'). reflexivity.
Qed.
