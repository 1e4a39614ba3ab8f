(** C114: distributions drawn in other units. *)
From Coq Require Import String List Bool Arith ZArith QArith Reals Lia Permutation.
From Verif Require Import Py NumSpec NumModel NumFacts HelpersSpec ColorModel HelpersModel MarginalModel FrameModel ConfigModel ChainModel RegistryModel RegistrySpec RegistryProofs RegistryProps ChainSpec TextModel AnalysisModel AnalysisSpec AnalysisProofs AnalysisProps
  SurfaceModel SurfaceProofs FigureModel FigureSpec FigureProofs FigureCases TriangleProofs TriangleProps DistProofs DistProps SummaryFigProofs SummaryFigProps CompanyProofs EquivSpec EquivFacts EquivProofs EquivApi EquivProps AxisEquivSpec AxisEquivProps FigEquivProofs UnitFigSpec UnitFigProofs.
From Verif Require FrameFacts ChainProofs AxisEquivProofs.
From Coq Require Import Lqa.
Import ListNotations.
Open Scope string_scope.
Open Scope list_scope.
Open Scope Q_scope.

(** What a panel of distributions is made of. *)
Lemma dist_made num filled cfg truths b summary p calls : distribution_panel num filled cfg truths b summary p = Ok calls ->
  exists bars m, bars_panel num cfg p false (summary && negb (smem p (pb_blind b))) (filter (dist_draws p) (pb_chains b)) = Ok (bars, Some m) /\ panel_bars calls = panel_bars bars /\ current_limits AY calls = Some (0, (11 # 10) * m).
Proof.
  intros K. unfold distribution_panel in K. cbv zeta in K. apply rbind_ok in K as [xlim [HX K]]. apply rbind_ok in K as [[bars top] [HB K]]. cbn [fst snd] in K. destruct top as [m|]; [|discriminate K]. exists bars, m. split; [exact HB|].
  assert (X : panel_bars xlim = []). { assert (Y : exists e, set_limits AX e = Ok xlim) by (destruct (dget p _); [eauto|apply rbind_ok in HX as [e [_ HX]]; eauto]). destruct Y as [e Y]. apply set_limits_ok in Y as [lo [hi [_ ->]]]. reflexivity. }
  destruct (plot_truths_ok filled truths None (Some p)) as [l [_ [_ L3]]].
  match type of K with Ok (?a ++ ?l0 ++ ?l1 ++ xlim ++ bars ++ ?t ++ ?z) = _ => assert (EQ : calls = (a ++ l0 ++ l1 ++ xlim ++ bars ++ t) ++ z) by (injection K as <-; rewrite <- !app_assoc; reflexivity); assert (Z1 : panel_bars l0 = []) by (destruct (smem p (pb_logs b)); reflexivity); assert (Z2 : panel_bars l1 = []) by (destruct (smem p (pb_blind b)); reflexivity) end.
  subst calls. clear K. split.
  - rewrite !bars_panel_app, X, Z1, Z2, (panel_bars_of _ (is_mark_not_bar _ L3)). cbn [panel_bars filter is_bar app]. rewrite !app_nil_r. reflexivity.
  - unfold current_limits, final_ticks. rewrite fold_left_app. reflexivity.
Qed.
Lemma filtered a b p (g : chain * frame -> bool) l l' : (forall cf cf', shown_in_units a b p cf cf' -> g cf' = g cf) -> Forall2 (shown_in_units a b p) l l' -> Forall2 (shown_in_units a b p) (filter g l) (filter g l').
Proof. intros G F. apply filter_rel; [exact F|exact G]. Qed.

(** Two sessions show the same samples of [p], the second in other units.  All chains with the power [pw] (1 unless set):
    on the panel of [p], every curve, bar chart and shading keeps its shape, and the height of the axis grows as the curves do. *)
Theorem C114_distributions : forall rgb2hex k a b p pw s req columns file wrap size t fig chains cols cfg s' req' columns' file' wrap' size' t' fig' chains' cols' cfg',
  reachable rgb2hex (s_world s) -> plots s req columns chains cols -> config_of s cfg -> plot_distributions k s req columns file wrap size = (t, Ok fig) ->
  reachable rgb2hex (s_world s') -> plots s' req' columns' chains' cols' -> config_of s' cfg' -> plot_distributions k s' req' columns' file' wrap' size' = (t', Ok fig') ->
  0 < a -> power_law (n_power (bk_num k) pw) -> (forall cf, In cf chains -> ch_power (fst cf) = pw) -> Forall2 (shown_in_units a b p) chains chains' ->
  forall calls calls', panel_of wrap cols fig p calls -> panel_of wrap' cols' fig' p calls' ->
    let factor := n_power (bk_num k) pw (/ a) in
    Forall2 (shape_in_units a b factor) (panel_bars calls) (panel_bars calls') /\
    exists h h', current_limits AY calls = Some (0, h) /\ current_limits AY calls' = Some (0, h') /\ in_units factor 0 h h'.
Proof.
  intros rgb k a b p pw s req columns file wrap size t fig chains cols cfg s' req' columns' file' wrap' size' t' fig' chains' cols' cfg' RE P HC H RE' P' HC' H' A PW HP F calls calls' PA PA'. cbv zeta.
  assert (G : forall s req columns file wrap size t fig chains cols cfg calls, reachable rgb (s_world s) -> plots s req columns chains cols -> config_of s cfg -> plot_distributions k s req columns file wrap size = (t, Ok fig) -> panel_of wrap cols fig p calls ->
    exists summary bars m, bars_panel (bk_num k) cfg p false summary (filter (dist_draws p) chains) = Ok (bars, Some m) /\ panel_bars calls = panel_bars bars /\ current_limits AY calls = Some (0, (11 # 10) * m)).
  { clear. intros s req columns file wrap size t fig chains cols cfg calls RE P HC H [w [n [i [j [EW [Hn [WR HA]]]]]]]. destruct (dist_parts _ _ _ _ _ _ _ _ _ _ _ _ H (reachable_ok _ _ RE) P HC) as [bs [<- [<- [_ [_ [_ HW]]]]]].
    destruct (dist_figure_ok _ _ _ _ _ _ _ _ _ HW) as [_ [_ [rows [w' [E1 [_ [_ [_ [PN _]]]]]]]]]. assert (w' = w) by lia. subst w'. destruct (PN _ _ _ _ WR HA) as [K _]. specialize (K p Hn). destruct (dist_made _ _ _ _ _ _ _ _ K) as [bars [m D]]. eauto. }
  destruct (G _ _ _ _ _ _ _ _ _ _ _ _ RE P HC H PA) as [sm [bars [m [B1 [B2 B3]]]]]. destruct (G _ _ _ _ _ _ _ _ _ _ _ _ RE' P' HC' H' PA') as [sm' [bars' [m' [B1' [B2' B3']]]]].
  assert (FF : Forall2 (shown_in_units a b p) (filter (dist_draws p) chains) (filter (dist_draws p) chains')).
  { apply filtered; [|exact F]. intros [c f] [c' f'] [E [_ [_ [N _]]]]. cbn [fst snd] in *. subst c'. unfold dist_draws. cbn [fst snd]. rewrite (table_columns c f f' N). reflexivity. }
  assert (GG : Forall (fun cf => ch_power (fst cf) = pw /\ f_has (snd cf) p = true) (filter (dist_draws p) chains)).
  { apply Forall_forall. intros [c f] I. apply filter_In in I as [I1 I2]. unfold dist_draws in I2. apply andb_true_iff in I2 as [_ I2]. split; [exact (HP _ I1)|exact (plotted_has _ _ _ I2)]. }
  destruct (panel_units _ a b p A pw cfg cfg' false sm sm' _ _ _ _ PW GG FF B1 B1') as [S1 S2]. cbn [fst snd orel] in S1, S2. rewrite B2, B2'. split; [exact S1|]. exists ((11 # 10) * m), ((11 # 10) * m'). split; [exact B3|]. split; [exact B3'|]. unfold in_units, aff in *. rewrite S2. ring.
Qed.
Print Assumptions C114_distributions.

(** The distributions on the diagonal of a triangle, drawn in the same direction in both. *)
Theorem C114_triangle : forall rgb2hex k a b p pw s req columns file size t fig chains cols cfg s' req' columns' file' size' t' fig' chains' cols' cfg',
  reachable rgb2hex (s_world s) -> plots s req columns chains cols -> config_of s cfg -> plot k s req columns file size = (t, Ok fig) ->
  reachable rgb2hex (s_world s') -> plots s' req' columns' chains' cols' -> config_of s' cfg' -> plot k s' req' columns' file' size' = (t', Ok fig') ->
  0 < a -> power_law (n_power (bk_num k) pw) -> (forall cf, In cf chains -> ch_power (fst cf) = pw) -> Forall2 (shown_in_units a b p) chains chains' ->
  forall i calls i' calls', diagonal cfg i i -> panel_at cfg cols i i p p -> axis fig i i calls -> diagonal cfg' i' i' -> panel_at cfg' cols' i' i' p p -> axis fig' i' i' calls' ->
    (sideways cfg cols i <-> sideways cfg' cols' i') -> Forall2 (shape_in_units a b (n_power (bk_num k) pw (/ a))) (panel_bars calls) (panel_bars calls').
Proof.
  intros rgb k a b p pw s req columns file size t fig chains cols cfg s' req' columns' file' size' t' fig' chains' cols' cfg' RE P HC H RE' P' HC' H' A PW HP F i calls i' calls' D PA HA D' PA' HA' SW.
  assert (G : forall s req columns file size t fig chains cols cfg i calls, reachable rgb (s_world s) -> plots s req columns chains cols -> config_of s cfg -> plot k s req columns file size = (t, Ok fig) -> diagonal cfg i i -> panel_at cfg cols i i p p -> axis fig i i calls ->
    exists flip summary bars top, (flip = true <-> sideways cfg cols i) /\ bars_panel (bk_num k) cfg p flip summary (filter (triangle_draws p) chains) = Ok (bars, top) /\ panel_bars calls = panel_bars bars).
  { clear. intros s req columns file size t fig chains cols cfg i calls RE P HC H D PA HA. destruct (plot_axes _ _ _ _ _ _ _ _ _ _ _ H (reachable_ok _ _ RE) P HC) as [bs [<- [<- [_ [_ [_ [_ [_ [_ T]]]]]]]]].
    destruct (T i i p p calls PA (le_n i) HA) as [fc [pc [paths [K1 [K2 ->]]]]]. destruct (panel_frame _ _ _ _ _ _ _ _ K1 (le_n i)) as [r [yr [_ [_ [_ [_ [_ [_ [_ [BB _]]]]]]]]]].
    unfold FigureModel.plot_panel in K2. destruct D as [HH _]. rewrite Nat.ltb_irrefl in K2. cbv zeta in K2. fold (turned cfg bs i) in K2. rewrite HH, Nat.eqb_refl in K2. cbn [andb] in K2. apply rbind_ok in K2 as [[bars top] [HB K2]]. cbn [fst snd] in K2. injection K2 as <- _.
    eexists _, _, bars, top. split; [apply turned_iff|]. split; [exact HB|]. rewrite relabel_panel, !bars_panel_app, (panel_bars_of fc BB).
    assert (T1 : panel_bars (if turned cfg bs i then plot_truths (bk_filled k) (s_truths s) None (Some p) else plot_truths (bk_filled k) (s_truths s) (Some p) None) = []).
    { destruct (turned cfg bs i); [destruct (plot_truths_ok (bk_filled k) (s_truths s) None (Some p)) as [l [_ [_ L3]]]|destruct (plot_truths_ok (bk_filled k) (s_truths s) (Some p) None) as [l [_ [_ L3]]]]; apply panel_bars_of, (is_mark_not_bar _ L3). }
    rewrite T1. destruct top; cbn [app panel_bars filter is_bar]; rewrite ?app_nil_r; reflexivity. }
  destruct (G _ _ _ _ _ _ _ _ _ _ _ _ RE P HC H D PA HA) as [fl [sm [bars [top [B0 [B1 B2]]]]]]. destruct (G _ _ _ _ _ _ _ _ _ _ _ _ RE' P' HC' H' D' PA' HA') as [fl' [sm' [bars' [top' [B0' [B1' B2']]]]]].
  assert (E : fl' = fl) by (apply eq_true_iff_eq; rewrite B0, B0'; symmetry; exact SW). subst fl'.
  assert (FF : Forall2 (shown_in_units a b p) (filter (triangle_draws p) chains) (filter (triangle_draws p) chains')).
  { apply filtered; [|exact F]. intros [c f] [c' f'] [E [_ [_ [N _]]]]. cbn [fst snd] in *. subst c'. unfold triangle_draws. cbn [fst snd]. rewrite (has_names f f' p N). reflexivity. }
  assert (GG : Forall (fun cf => ch_power (fst cf) = pw /\ f_has (snd cf) p = true) (filter (triangle_draws p) chains)).
  { apply Forall_forall. intros [c f] I. apply filter_In in I as [I1 I2]. unfold triangle_draws in I2. apply andb_true_iff in I2 as [_ I2]. split; [exact (HP _ I1)|exact I2]. }
  destruct (panel_units _ a b p A pw cfg cfg' fl sm sm' _ _ _ _ PW GG FF B1 B1') as [S1 _]. rewrite B2, B2'. exact S1.
Qed.
Print Assumptions C114_triangle.

(** The cells of a summary figure drawn with distributions: each chain with its own power. *)
Theorem C114_summary : forall rgb2hex k a b p s req columns file size sp vr t fig chains cols cfg s' req' columns' file' size' sp' vr' t' fig' chains' cols' cfg',
  reachable rgb2hex (s_world s) -> plots s req columns chains cols -> config_of s cfg -> plot_summary k s req columns file size false sp vr = (t, Ok fig) ->
  reachable rgb2hex (s_world s') -> plots s' req' columns' chains' cols' -> config_of s' cfg' -> plot_summary k s' req' columns' file' size' false sp' vr' = (t', Ok fig') ->
  0 < a -> forall i j cf calls i' j' cf' calls', SummaryFigProps.cell fig chains cols i j cf p calls -> SummaryFigProps.cell fig' chains' cols' i' j' cf' p calls' ->
    power_law (n_power (bk_num k) (ch_power (fst cf))) -> shown_in_units a b p cf cf' ->
    Forall2 (shape_in_units a b (n_power (bk_num k) (ch_power (fst cf)) (/ a))) (panel_bars calls) (panel_bars calls').
Proof.
  intros rgb k a b p s req columns file size sp vr t fig chains cols cfg s' req' columns' file' size' sp' vr' t' fig' chains' cols' cfg' RE P HC H RE' P' HC' H' A i j cf calls i' j' cf' calls' [I1 [J1 X1]] [I2 [J2 X2]] PW SU.
  destruct (summary_parts _ _ _ _ _ _ _ _ _ _ _ _ _ _ H (reachable_ok _ _ RE) P HC) as [bs [<- [<- [_ [_ [_ S1]]]]]]. destruct (summary_parts _ _ _ _ _ _ _ _ _ _ _ _ _ _ H' (reachable_ok _ _ RE') P' HC') as [bs' [<- [<- [_ [_ [_ S2]]]]]].
  pose proof (summary_cells _ _ _ _ _ _ _ _ _ _ _ _ _ _ _ _ S1 I1 J1 X1) as C1. pose proof (summary_cells _ _ _ _ _ _ _ _ _ _ _ _ _ _ _ _ S2 I2 J2 X2) as C2. unfold cell_out in C1, C2.
  apply rbind_ok in C1 as [col [_ C1]]. apply rbind_ok in C2 as [col' [_ C2]]. destruct cf as [c f], cf' as [c' f']. assert (E : c' = c) by exact (proj1 SU). subst c'. assert (N : map fst (f_cols f') = map fst (f_cols f)) by exact (proj1 (proj2 (proj2 (proj2 SU)))). cbn [fst snd] in *.
  replace (data_columns c f') with (data_columns c f) in C2 by (unfold data_columns, f_names; rewrite (FrameFacts.str_labels_ext _ _ N); reflexivity).
  destruct (smem p (data_columns c f)) eqn:M; cbn [negb] in C1, C2; [|injection C1 as <- _; injection C2 as <- _; constructor].
  assert (HF : f_has f p = true). { apply smem_In in M. apply FrameFacts.f_has_names. unfold data_columns in M. repeat (apply filter_In in M as [M _]). exact M. }
  destruct (plot_bars (bk_num k) cfg p false false (c, f)) as [[o top]|] eqn:B1; [|discriminate C1]. destruct (plot_bars (bk_num k) cfg' p false false (c, f')) as [[o' top']|] eqn:B2; [|discriminate C2]. cbn [rmap fst] in C1, C2. injection C1 as E1 _. injection C2 as E2 _.
  destruct (bars_units (bk_num k) a b p A cfg cfg' false false false (c, f) (c, f') _ _ PW HF SU B1 B2) as [R _]. cbn [fst] in R. rewrite E1, E2 in R. unfold panel_bars in *. rewrite !filter_idem in R. exact R.
Qed.
Print Assumptions C114_summary.

(** ** Chains shown in other units *)
Lemma set_wf f p x x' : frame_wf f -> f_get f p = Some x -> length x' = length x -> frame_wf (f_set f p x').
Proof.
  intros [ND WL] X L. destruct (set_shape f p x' x X) as [S1 _]. split; [rewrite S1; exact ND|]. change (f_index (f_set f p x')) with (f_index f). intros c l I. pose proof (WL _ _ (FrameFacts.f_get_In _ _ _ X)) as LX.
  assert (G : forall cols, (forall c l, In (c, l) cols -> length l = length (f_index f)) -> In (c, l) (col_set (CStr p) x' cols) -> length l = length (f_index f)).
  { clear -L LX. induction cols as [|[d m] cols IH]; intros W I; cbn [col_set] in I.
    - destruct I as [I|[]]. injection I as _ <-. congruence.
    - destruct (clabel_eqb (CStr p) d); destruct I as [I|I]; [injection I as _ <-; congruence|exact (W c l (or_intror I))|injection I as <- <-; exact (W _ _ (or_introl eq_refl))|]. apply IH; [|exact I]. intros c0 l0 I0. exact (W c0 l0 (or_intror I0)). }
  exact (G _ WL I).
Qed.
(** The column in other units; for a change of size, with a summary that is no narrowest interval or without shading. *)
Theorem C114_converted : forall a b c f f' p d, 0 < a -> frame_wf f -> (0 < f_rows f)%nat -> converted a b p f f' -> p <> ch_weight c -> sample c f p d -> a == 1 \/ spread d -> kde_on (ch_cfg c Fkde) = false ->
  (ch_cfg c Fstatistics <> Some SHdi /\ ch_cfg c Fmultimodal = false) \/ a == 1 \/ ch_cfg c Fbar_shade = false -> shown_in_units a b p (c, f) (c, f').
Proof.
  intros a b c f f' p d A WF R C NW D SP K M. pose proof (sample_ne _ _ _ _ WF R D) as NE. destruct (converted_sample _ _ _ _ _ _ _ A C NW D) as [d' [D' [SS B]]]. destruct C as [x [x' [X [-> U]]]]. destruct (set_shape f p x' x X) as [S1 _].
  unfold shown_in_units. cbn [fst snd]. split; [reflexivity|]. split; [exact WF|]. split; [exact (set_wf _ _ _ _ WF X (AxisEquivProofs.units_length _ _ _ _ U))|]. split; [exact S1|]. split; [exact B|]. split; [exact K|]. split; [exact M|]. intros _. exists 1, d, d'. auto 6.
Qed.
Print Assumptions C114_converted.

(** ** Example: one chain in metres and in centimetres from another zero, its rows in another order *)
Definition ex114_args (n : string) : cargs := {| a_cfg := kset (kset (kset (kset no_kw Fsummary_area (3#5)) Fstatistics (Some SMean)) Fbins (Some 5%Z)) Fsmooth (Some 0%Z); a_samples := 0; a_name := n; a_weight := None; a_post := None; a_walkers := None; a_grid := Some true; a_nfree := None; a_ndata := None; a_power := None; a_showlabel := None; a_relheight := None |}.
Definition ex114_rows := [(0, 1); (1, 4); (2, 6); (3, 3); (4, 1)].
Definition ex114_rows' := [(405, 1); (5, 1); (105, 4); (205, 6); (305, 3)].
Definition ex114_session (rows : list (Q * Q)) : session :=
  {| s_world := fst (run ex_rgb ({| h_frames := [{| f_index := map (fun i => LInt (Z.of_nat i)) (seq 0 (length rows)); f_cols := [(CStr "x", map (fun r => Fin (fst r)) rows); (CStr "weight", map (fun r => Fin (snd r)) rows)] |}]; h_chains := [] |}, new_consumer)
       [OpNewChain (ex114_args "A"); OpAdd 0]); s_truths := []; s_plotter := new_plotter fig_rc; s_rc := fig_rc |}.
Definition ex114_chains (s : session) : list (chain * frame) := match snd (sanitise ex34_num default_plot_config (s_world s) fig_rc ReqAll (Some ["x"]) true) with Ok b => pb_chains b | Err _ => [] end.
Lemma ex114_reachable rows : reachable ex_rgb (s_world (ex114_session rows)).
Proof. eexists _, _. eexists. apply surjective_pairing. Qed.
Lemma ex114_plots rows fig : snd (plot_distributions ex_backend (ex114_session rows) ReqAll (Some ["x"]) FileNone 4 SizeNone) = Ok fig -> requested (s_world (ex114_session rows)) ReqAll = map Some ["A"] ->
  plots (ex114_session rows) ReqAll (Some ["x"]) (ex114_chains (ex114_session rows)) ["x"].
Proof.
  intros H HR. unfold plot_distributions, with_base in H. unfold ex114_chains. set (s := ex114_session rows) in *. change (config_in_use (s_plotter s)) with default_plot_config in H. change (s_rc s) with fig_rc in H. change (bk_num ex_backend) with ex34_num in H. cbv zeta in H.
  destruct (sanitise ex34_num default_plot_config (s_world s) fig_rc ReqAll (Some ["x"]) true) as [[w1 rc1] [b|e]] eqn:E; cbn [snd rbind] in H; [|discriminate]. cbn [snd].
  destruct (sanitise_ok _ _ _ _ _ _ _ _ _ _ _ E (reachable_ok _ _ (ex114_reachable rows)) HR) as [[finals [locs [E1 [E2 E3]]]] [E4 _]]. exists w1, finals, ["A"], locs. repeat (split; [assumption|]). cbn in E4. rewrite <- E4 at 2. exact E4.
Qed.
Lemma ex114_sample : same_sample 100 5 1 ex114_rows ex114_rows'.
Proof.
  assert (S1 : same_sample 100 5 1 (combine [0; 1; 2; 3; 4] [1; 4; 6; 3; 1]) (combine [5; 105; 205; 305; 405] [1; 4; 6; 3; 1])) by (apply same_units; [reflexivity|repeat constructor]).
  assert (S2 : Permutation (combine [5; 105; 205; 305; 405] [1; 4; 6; 3; 1]) ex114_rows') by (cbn; change (Permutation ([(5, 1); (105, 4); (205, 6); (305, 3)] ++ [(405, 1)]) ([(405, 1)] ++ [(5, 1); (105, 4); (205, 6); (305, 3)])); apply Permutation_app_comm).
  apply same_perm in S2. destruct S1 as [_ S1], S2 as [_ S2]. split; [reflexivity|]. intros x x' U. destruct (S1 x x' U) as [O1 W1]. assert (U' : in_units 1 0 x' x') by (unfold in_units; lra). destruct (S2 x' x' U') as [O2 W2]. split; [exact (iff_trans O1 O2)|]. rewrite W2, W1. change (combine [0; 1; 2; 3; 4] [1; 4; 6; 3; 1]) with ex114_rows. ring.
Qed.
Lemma ex114_shown : Forall2 (shown_in_units 100 5 "x") (ex114_chains (ex114_session ex114_rows)) (ex114_chains (ex114_session ex114_rows')).
Proof.
  destruct (ex114_chains (ex114_session ex114_rows)) as [|[c f] [|? ?]] eqn:E; [vm_compute in E; discriminate| |vm_compute in E; discriminate]. destruct (ex114_chains (ex114_session ex114_rows')) as [|[c' f'] [|? ?]] eqn:E'; [vm_compute in E'; discriminate| |vm_compute in E'; discriminate].
  constructor; [|constructor]. assert (F : fst (hd (c, f) (ex114_chains (ex114_session ex114_rows))) = c /\ snd (hd (c, f) (ex114_chains (ex114_session ex114_rows))) = f) by (rewrite E; auto). assert (F' : fst (hd (c, f) (ex114_chains (ex114_session ex114_rows'))) = c' /\ snd (hd (c, f) (ex114_chains (ex114_session ex114_rows'))) = f') by (rewrite E'; auto).
  destruct F as [F1 F2], F' as [F1' F2']. assert (CC : c' = c) by (rewrite <- F1, <- F1'; vm_compute; reflexivity). vm_compute in F2, F2'. unfold shown_in_units. cbn [fst snd]. rewrite CC, <- F1, <- F2, <- F2'. clear.
  split; [reflexivity|]. split; [split; [apply NoDup_cons; [intros [I|[]]; discriminate I|apply NoDup_cons; [intros []|apply NoDup_nil]]|intros c0 l0 [I|[I|[]]]; injection I as _ <-; reflexivity]|].
  split; [split; [apply NoDup_cons; [intros [I|[]]; discriminate I|apply NoDup_cons; [intros []|apply NoDup_nil]]|intros c0 l0 [I|[I|[]]]; injection I as _ <-; reflexivity]|].
  split; [reflexivity|]. split; [right; split; reflexivity|]. split; [vm_compute; reflexivity|]. split; [left; split; [vm_compute; discriminate|vm_compute; reflexivity]|].
  intros _. exists 1, ex114_rows, ex114_rows'. split; [eexists _, _; split; [vm_compute; reflexivity|split; [vm_compute; reflexivity|reflexivity]]|]. split; [eexists _, _; split; [vm_compute; reflexivity|split; [vm_compute; reflexivity|reflexivity]]|].
  split; [discriminate|]. split; [exact ex114_sample|right; exists 0, 1; split; [exists 0, 1; split; [left; reflexivity|reflexivity]|split; [exists 1, 4; split; [right; left; reflexivity|reflexivity]|intros K; discriminate K]]].
Qed.
Lemma ex114_power cf : In cf (ex114_chains (ex114_session ex114_rows)) -> ch_power (fst cf) = 1.
Proof.
  assert (E : map (fun cf => ch_power (fst cf)) (ex114_chains (ex114_session ex114_rows)) = [1]) by (vm_compute; reflexivity). intros I. apply (in_map (fun cf => ch_power (fst cf))) in I. rewrite E in I. destruct I as [I|[]]. congruence.
Qed.
Lemma ex114_figure rows : In rows [ex114_rows; ex114_rows'] -> exists fig calls, snd (plot_distributions ex_backend (ex114_session rows) ReqAll (Some ["x"]) FileNone 4 SizeNone) = Ok fig /\ panel_of 4 ["x"] fig "x" calls /\ length (panel_bars calls) = 2%nat.
Proof. intros [<-|[<-|[]]]; (eexists _, _; split; [vm_compute; reflexivity|]; split; [exists 1%nat, 0%nat, 0%nat, 0%nat; split; [reflexivity|split; [reflexivity|split; [split; [lia|reflexivity]|eexists; split; reflexivity]]]|vm_compute; reflexivity]). Qed.
(** Two calls: the curve and its shading. *)
Example C114_nonvacuous : exists t fig t' fig' chains chains' calls calls', let s := ex114_session ex114_rows in let s' := ex114_session ex114_rows' in
  reachable ex_rgb (s_world s) /\ plots s ReqAll (Some ["x"]) chains ["x"] /\ config_of s default_plot_config /\ plot_distributions ex_backend s ReqAll (Some ["x"]) FileNone 4 SizeNone = (t, Ok fig) /\
  reachable ex_rgb (s_world s') /\ plots s' ReqAll (Some ["x"]) chains' ["x"] /\ config_of s' default_plot_config /\ plot_distributions ex_backend s' ReqAll (Some ["x"]) FileNone 4 SizeNone = (t', Ok fig') /\
  power_law (n_power (bk_num ex_backend) 1) /\ (forall cf, In cf chains -> ch_power (fst cf) = 1) /\ Forall2 (shown_in_units 100 5 "x") chains chains' /\
  panel_of 4 ["x"] fig "x" calls /\ panel_of 4 ["x"] fig' "x" calls' /\ length (panel_bars calls) = 2%nat /\ length (panel_bars calls') = 2%nat.
Proof.
  destruct (ex114_figure ex114_rows) as [fig [calls [S1 [PA L]]]]; [left; reflexivity|]. destruct (ex114_figure ex114_rows') as [fig' [calls' [S2 [PA' L']]]]; [right; left; reflexivity|]. pose proof (ex114_plots _ _ S1) as P1. pose proof (ex114_plots _ _ S2) as P2.
  exists (fst (plot_distributions ex_backend (ex114_session ex114_rows) ReqAll (Some ["x"]) FileNone 4 SizeNone)), fig, (fst (plot_distributions ex_backend (ex114_session ex114_rows') ReqAll (Some ["x"]) FileNone 4 SizeNone)), fig'.
  exists (ex114_chains (ex114_session ex114_rows)), (ex114_chains (ex114_session ex114_rows')), calls, calls'. cbv zeta. split; [apply ex114_reachable|]. split; [apply P1; vm_compute; reflexivity|]. split; [reflexivity|].
  split; [rewrite <- S1; apply surjective_pairing|]. split; [apply ex114_reachable|]. split; [apply P2; vm_compute; reflexivity|]. split; [reflexivity|]. split; [rewrite <- S2; apply surjective_pairing|].
  split; [exact power_id|]. split; [exact ex114_power|]. split; [exact ex114_shown|]. repeat split; assumption.
Qed.
