(** C95: the range of an axis follows the weighted samples shown. *)
From Coq Require Import String List Bool Arith ZArith QArith Lia Permutation.
From Verif Require Import Py NumSpec NumModel NumFacts HelpersSpec ColorModel HelpersModel MarginalModel FrameModel ConfigModel ChainModel RegistryModel RegistrySpec RegistryProofs RegistryProps ChainSpec ChainProofs
  TextModel AnalysisModel AnalysisSpec AnalysisProofs AnalysisProps SurfaceModel PanelSpec FigureModel FigureSpec FigureProofs FigureCases TriangleProps DistProps SummaryFigProps WalkProps EquivSpec EquivFacts EquivProofs EquivApi AxisEquivSpec AxisEquivProofs.
From Verif Require FrameFacts.
From Coq Require Import Lqa.
Import ListNotations.
Open Scope string_scope.
Open Scope list_scope.
Open Scope Q_scope.

(** Some panel of a triangle shows the parameter [p] over the range [r]. *)
Definition triangle_limits (cfg : plot_config) (cols : list string) (fig : figure) (p : string) (r : Q * Q) : Prop :=
  exists i j px py calls, axis fig i j calls /\ panel_at cfg cols i j px py /\ (j <= i)%nat /\
    ((p = px /\ ~ sideways cfg cols j /\ current_limits AX calls = Some r) \/ (p = py /\ (~ diagonal cfg i j \/ sideways cfg cols j) /\ current_limits AY calls = Some r)).

(** Two sessions show the same samples of [p], the second perhaps in other units, rows in another order or split; no
    range is configured for [p].  Then every panel of [p] has the same range, in the units of its samples. *)
Theorem C95_triangle : forall rgb2hex k a b p s req columns file size t fig chains cols cfg s' req' columns' file' size' t' fig' chains' cols' cfg',
  reachable rgb2hex (s_world s) -> plots s req columns chains cols -> config_of s cfg -> plot k s req columns file size = (t, Ok fig) ->
  reachable rgb2hex (s_world s') -> plots s' req' columns' chains' cols' -> config_of s' cfg' -> plot k s' req' columns' file' size' = (t', Ok fig') ->
  0 < a -> Forall2 (covers_alike a b p) chains chains' -> dget p (p_extents cfg) = None -> dget p (p_extents cfg') = None ->
  forall r r', triangle_limits cfg cols fig p r -> triangle_limits cfg' cols' fig' p r' -> interval_in_units a b r r'.
Proof.
  intros rgb k a b p s req columns file size t fig chains cols cfg s' req' columns' file' size' t' fig' chains' cols' cfg' RE P HC H RE' P' HC' H' A F X X' r r' T T'.
  assert (G : forall s req columns file size t fig chains cols cfg r, reachable rgb (s_world s) -> plots s req columns chains cols -> config_of s cfg -> plot k s req columns file size = (t, Ok fig) -> triangle_limits cfg cols fig p r -> range_of (bk_num k) cfg true chains p r).
  { clear. intros s req columns file size t fig chains cols cfg r RE P HC H [i [j [px [py [calls [HA [HP [HJ D]]]]]]]]. destruct (C50_triangle _ _ _ _ _ _ _ _ _ _ _ _ RE P HC H i j px py calls HA HP HJ) as [C1 C2]. destruct D as [[-> [N L]]|[-> [N L]]].
    - destruct (C1 N) as [q [Q1 Q2]]. assert (q = r) by congruence. subst. exact Q1.
    - destruct (C2 N) as [q [Q1 Q2]]. assert (q = r) by congruence. subst. exact Q1. }
  exact (range_follows a b _ true p A cfg cfg' chains chains' r r' F X X' (G _ _ _ _ _ _ _ _ _ _ _ RE P HC H T) (G _ _ _ _ _ _ _ _ _ _ _ RE' P' HC' H' T')).
Qed.
Print Assumptions C95_triangle.

Theorem C95_distributions : forall rgb2hex k a b p s req columns file wrap size t fig chains cols cfg s' req' columns' file' wrap' size' t' fig' chains' cols' cfg',
  reachable rgb2hex (s_world s) -> plots s req columns chains cols -> config_of s cfg -> plot_distributions k s req columns file wrap size = (t, Ok fig) ->
  reachable rgb2hex (s_world s') -> plots s' req' columns' chains' cols' -> config_of s' cfg' -> plot_distributions k s' req' columns' file' wrap' size' = (t', Ok fig') ->
  0 < a -> Forall2 (covers_alike a b p) chains chains' -> dget p (p_extents cfg) = None -> dget p (p_extents cfg') = None ->
  forall calls calls', panel_of wrap cols fig p calls -> panel_of wrap' cols' fig' p calls' ->
    exists r r', current_limits AX calls = Some r /\ current_limits AX calls' = Some r' /\ interval_in_units a b r r'.
Proof.
  intros rgb k a b p s req columns file wrap size t fig chains cols cfg s' req' columns' file' wrap' size' t' fig' chains' cols' cfg' RE P HC H RE' P' HC' H' A F X X' calls calls' PA PA'.
  destruct (C50_distributions _ _ _ _ _ _ _ _ _ _ _ _ _ RE P HC H p calls PA) as [r [R L]]. destruct (C50_distributions _ _ _ _ _ _ _ _ _ _ _ _ _ RE' P' HC' H' p calls' PA') as [r' [R' L']].
  exists r, r'. split; [exact L|]. split; [exact L'|]. exact (range_follows a b _ true p A _ _ _ _ _ _ F X X' R R').
Qed.
Print Assumptions C95_distributions.

Theorem C95_summary : forall rgb2hex k a b p s req columns file size err sp vr t fig chains cols cfg s' req' columns' file' size' sp' vr' t' fig' chains' cols' cfg',
  reachable rgb2hex (s_world s) -> plots s req columns chains cols -> config_of s cfg -> plot_summary k s req columns file size err sp vr = (t, Ok fig) ->
  reachable rgb2hex (s_world s') -> plots s' req' columns' chains' cols' -> config_of s' cfg' -> plot_summary k s' req' columns' file' size' err sp' vr' = (t', Ok fig') ->
  0 < a -> Forall2 (covers_alike a b p) chains chains' -> dget p (p_extents cfg) = None -> dget p (p_extents cfg') = None ->
  forall i j cf calls i' j' cf' calls', cell fig chains cols i j cf p calls -> cell fig' chains' cols' i' j' cf' p calls' ->
    exists r r', current_limits AX calls = Some r /\ current_limits AX calls' = Some r' /\ interval_in_units a b r r'.
Proof.
  intros rgb k a b p s req columns file size err sp vr t fig chains cols cfg s' req' columns' file' size' sp' vr' t' fig' chains' cols' cfg' RE P HC H RE' P' HC' H' A F X X' i j cf calls i' j' cf' calls' PA PA'.
  destruct (C50_summary _ _ _ _ _ _ _ _ _ _ _ _ _ _ _ RE P HC H i j cf p calls PA) as [r [R L]]. destruct (C50_summary _ _ _ _ _ _ _ _ _ _ _ _ _ _ _ RE' P' HC' H' i' j' cf' p calls' PA') as [r' [R' L']].
  exists r, r'. split; [exact L|]. split; [exact L'|]. exact (range_follows a b _ (negb err) p A _ _ _ _ _ _ F X X' R R').
Qed.
Print Assumptions C95_summary.

Theorem C95_walks : forall rgb2hex k a b p s req columns file size convolve pw pp lw t fig chains cols cfg rows s' req' columns' file' size' convolve' pw' pp' lw' t' fig' chains' cols' cfg' rows',
  reachable rgb2hex (s_world s) -> plots s req columns chains cols -> config_of s cfg -> (0 < bk_max_points k)%nat -> plot_walks k s req columns file size convolve pw pp lw = (t, Ok fig) -> walk_layout pw pp chains cols rows ->
  reachable rgb2hex (s_world s') -> plots s' req' columns' chains' cols' -> config_of s' cfg' -> plot_walks k s' req' columns' file' size' convolve' pw' pp' lw' = (t', Ok fig') -> walk_layout pw' pp' chains' cols' rows' ->
  0 < a -> Forall2 (covers_alike a b p) chains chains' -> dget p (p_extents cfg) = None -> dget p (p_extents cfg') = None ->
  forall i calls i' calls', nth_error rows i = Some (RColumn p) -> axis fig i 0 calls -> walks calls <> [] -> nth_error rows' i' = Some (RColumn p) -> axis fig' i' 0 calls' -> walks calls' <> [] ->
    exists r r', current_limits AY calls = Some r /\ current_limits AY calls' = Some r' /\ interval_in_units a b r r'.
Proof.
  intros rgb k a b p s req columns file size convolve pw pp lw t fig chains cols cfg rows s' req' columns' file' size' convolve' pw' pp' lw' t' fig' chains' cols' cfg' rows' RE P HC MP H HL RE' P' HC' H' HL' A F X X' i calls i' calls' N PA W N' PA' W'.
  destruct (C50_walks _ _ _ _ _ _ _ _ _ _ _ _ _ _ _ _ _ RE P HC MP H HL i p calls N PA W) as [r [R L]]. destruct (C50_walks _ _ _ _ _ _ _ _ _ _ _ _ _ _ _ _ _ RE' P' HC' MP H' HL' i' p calls' N' PA' W') as [r' [R' L']].
  exists r, r'. split; [exact L|]. split; [exact L'|]. exact (range_follows a b _ true p A _ _ _ _ _ _ F X X' R R').
Qed.
Print Assumptions C95_walks.

(** ** Chains that cover the same values *)
Lemma whole c f p d : frame_wf f -> sample c f p d -> whole_sample c f p d.
Proof. intros [_ WF] [x [w [X [W ->]]]]. exists x, w. repeat split; try assumption. rewrite (WF _ _ (FrameFacts.f_get_In _ _ _ X)), (WF _ _ (FrameFacts.f_get_In _ _ _ W)). reflexivity. Qed.
Lemma got_column f n l : f_get f n = Some l -> is_column f n.
Proof. intros H. apply is_column_has, f_has_some. eauto. Qed.

(** The column in other units, whether the chain is drawn as contours, as a cloud, or as a point.  A column with one
    value only must keep the size of its units. *)
Theorem C95_converted : forall a b c f f' p d, 0 < a -> frame_wf f -> (0 < f_rows f)%nat -> converted a b p f f' -> p <> ch_weight c -> p <> ch_post c -> sample c f p d -> a == 1 \/ spread d ->
  covers_alike a b p (c, f) (c, f').
Proof.
  intros a b c f f' p d A WF R C NW NP D SP. pose proof (sample_ne _ _ _ _ WF R D) as NE. pose proof (whole _ _ _ _ WF D) as WD. destruct C as [x [x' [X [-> U]]]]. destruct WD as [x0 [w [X0 [W [LXW ED]]]]]. rewrite X in X0. injection X0 as <-.
  pose proof (units_length _ _ _ _ U) as LU. pose proof (proj2 WF _ _ (FrameFacts.f_get_In _ _ _ X)) as LR. assert (X' : f_get (f_set f p x') p = Some x') by apply FrameFacts.f_get_set_same.
  assert (O : forall n, n <> p -> f_get (f_set f p x') n = f_get f n) by (intros n N; apply FrameFacts.f_get_set_other; congruence).
  destruct (set_shape f p x' x X) as [S1 [S2 S3]]. assert (PC : plotting_columns c (f_set f p x') = plotting_columns c f) by (apply table_columns; exact S1).
  assert (MR : max_posterior_row c (f_set f p x') = max_posterior_row c f) by (unfold max_posterior_row; rewrite O by congruence; reflexivity).
  unfold covers_alike. cbn [fst snd]. split; [split; intros _; eapply got_column; eassumption|]. split; [reflexivity|]. split; [reflexivity|]. split; [reflexivity|]. split.
  - intros _ _. exists 1, d, (combine (qs x') (qs w)). split; [exists x, w; auto|]. split; [exists x', w; rewrite (O (ch_weight c)) by congruence; repeat split; [exact X'|exact W|congruence]|]. split; [exact NE|]. split; [subst d; apply same_units; assumption|exact SP].
  - intros _ _. split.
    + intros v V. apply (peak_row c f p v NP) in V as [i [lp [l [V1 [V2 [V3 [V4 ->]]]]]]]. rewrite X in V4. injection V4 as <-. pose proof (row_range _ _ _ V1) as I. exists (cell_q (nth i x' NaN)). split; [|apply units_nth; [exact U|unfold f_rows in *; lia]].
      apply (peak_row c _ p _ NP). exists i, lp, x'. rewrite MR, PC, (O (ch_post c)) by congruence. repeat split; assumption.
    + intros v V. apply (peak_row c _ p v NP) in V as [i [lp [l [V1 [V2 [V3 [V4 ->]]]]]]]. rewrite X' in V4. injection V4 as <-. rewrite MR in V1. rewrite PC in V3. rewrite O in V2 by congruence. pose proof (row_range _ _ _ V1) as I.
      exists (cell_q (nth i x NaN)). split; [|apply units_nth; [exact U|unfold f_rows in *; lia]]. apply (peak_row c f p _ NP). exists i, lp, x. repeat split; assumption.
Qed.
Print Assumptions C95_converted.

(** The rows in another order. *)
Theorem C95_reordered : forall c f f' p d, frame_wf f -> (0 < f_rows f)%nat -> extended c -> reordered f f' -> sample c f p d -> covers_alike 1 0 p (c, f) (c, f').
Proof.
  intros c f f' p d WF R EX RO D. destruct (reordered_sample _ _ _ _ _ WF RO D) as [d' [D' PD]]. pose proof D' as D''. pose proof D as D0. destruct D0 as [x [w [X [W ED]]]]. destruct D'' as [x' [w' [X' [W' ED']]]].
  unfold covers_alike. cbn [fst snd]. split; [split; intros _; eapply got_column; eassumption|]. split; [reflexivity|]. split; [reflexivity|]. split; [reflexivity|]. split; [|intros _ N; contradiction].
  intros _ _. exists 1, d, d'. split; [exact (whole _ _ _ _ WF D)|]. split; [|split; [exact (sample_ne _ _ _ _ WF R D)|split; [apply same_perm; exact PD|left; reflexivity]]].
  exists x', w'. repeat split; try assumption. destruct RO as [q [_ E]]. subst f'. unfold f_get in *. cbn [f_cols] in *. rewrite !(col_get_map (g := picked NaN q)) in X'. rewrite X in X'. rewrite !(col_get_map (g := picked NaN q)) in W'. rewrite W in W'. cbn [option_map] in X', W'. injection X' as <-. injection W' as <-. unfold picked. rewrite !map_length. reflexivity.
Qed.
Print Assumptions C95_reordered.

(** A row split into two that share its weight. *)
Theorem C95_split : forall c f f' p i d, frame_wf f -> extended c -> row_split (ch_weight c) i f f' -> p <> ch_weight c -> sample c f p d -> covers_alike 1 0 p (c, f) (c, f').
Proof.
  intros c f f' p i d WF EX [I [S1 S2]] NW D. pose proof D as [x [w [X [W ED]]]].
  pose proof (proj2 WF _ _ (FrameFacts.f_get_In _ _ _ X)) as LX. pose proof (proj2 WF _ _ (FrameFacts.f_get_In _ _ _ W)) as LW.
  destruct (S2 _ _ W) as [u [u' [W' U]]]. rewrite String.eqb_refl in U. destruct (S2 _ _ X) as [v [v' [X' V]]]. destruct (String.eqb_spec p (ch_weight c)) as [E|_]; [contradiction|]. destruct V as [-> ->].
  unfold covers_alike. cbn [fst snd]. split; [split; intros _; eapply got_column; eassumption|]. split; [reflexivity|]. split; [reflexivity|]. split; [reflexivity|]. split; [|intros _ N; contradiction].
  intros _ _. exists 1, d, (combine (qs (split_row i (nth i x NaN) (nth i x NaN) x)) (qs (split_row i u u' w))). split; [exact (whole _ _ _ _ WF D)|].
  split; [eexists _, _; split; [exact X'|split; [exact W'|split; [unfold split_row; rewrite !app_length, !firstn_length; cbn [length]; rewrite !skipn_length; lia|reflexivity]]]|].
  split; [eapply sample_ne; [exact WF| |exact D]; lia|]. split; [|left; reflexivity]. subst d. assert (LQ : length (qs x) = length (qs w)) by (unfold qs; rewrite !map_length; congruence). assert (IQ : (i < length (qs x))%nat) by (unfold qs; rewrite map_length; unfold f_rows in I; lia).
  rewrite !qs_split, split_combine by (try exact LQ; lia). unfold split_row. rewrite (split_at i (0, 0) (combine (qs x) (qs w))) at 1 by (rewrite combine_length; lia). rewrite combine_nth by exact LQ. assert (NQ : forall l, nth i (qs l) 0 = cell_q (nth i l NaN)) by (intros l; exact (map_nth cell_q l NaN i)). rewrite !NQ. apply same_split. exact U.
Qed.
Print Assumptions C95_split.

(** ** Example: one chain in metres and in centimetres from another zero, its rows in another order *)
Definition ex95_session (rows : list (Q * Q)) : session :=
  {| s_world := fst (run ex_rgb ({| h_frames := [{| f_index := map (fun i => LInt (Z.of_nat i)) (seq 0 (length rows)); f_cols := [(CStr "x", map (fun r => Fin (fst r)) rows); (CStr "weight", map (fun r => Fin (snd r)) rows)] |}]; h_chains := [] |}, new_consumer)
       [OpNewChain (ex34_args "A" 0 no_kw); OpAdd 0]); s_truths := []; s_plotter := new_plotter fig_rc; s_rc := fig_rc |}.
Definition ex95_rows := [(0, 1); (1, 2); (3, 1)].
Definition ex95_rows' := [(105, 2); (305, 1); (5, 1)].
Definition ex95_chains (s : session) : list (chain * frame) := match snd (sanitise ex34_num default_plot_config (s_world s) fig_rc ReqAll (Some ["x"]) true) with Ok b => pb_chains b | Err _ => [] end.
Lemma ex95_reachable rows : reachable ex_rgb (s_world (ex95_session rows)).
Proof. eexists _, _. eexists. apply surjective_pairing. Qed.
Lemma ex95_plots rows fig : snd (plot_distributions ex_backend (ex95_session rows) ReqAll (Some ["x"]) FileNone 4 SizeNone) = Ok fig -> requested (s_world (ex95_session rows)) ReqAll = map Some ["A"] ->
  plots (ex95_session rows) ReqAll (Some ["x"]) (ex95_chains (ex95_session rows)) ["x"].
Proof.
  intros H HR. unfold plot_distributions, with_base in H. unfold ex95_chains. set (s := ex95_session rows) in *. change (config_in_use (s_plotter s)) with default_plot_config in H. change (s_rc s) with fig_rc in H. change (bk_num ex_backend) with ex34_num in H. cbv zeta in H.
  destruct (sanitise ex34_num default_plot_config (s_world s) fig_rc ReqAll (Some ["x"]) true) as [[w1 rc1] [b|e]] eqn:E; cbn [snd rbind] in H; [|discriminate]. cbn [snd].
  destruct (sanitise_ok _ _ _ _ _ _ _ _ _ _ _ E (reachable_ok _ _ (ex95_reachable rows)) HR) as [[finals [locs [E1 [E2 E3]]]] [E4 _]]. exists w1, finals, ["A"], locs. repeat (split; [assumption|]). cbn in E4. rewrite <- E4 at 2. exact E4.
Qed.
Lemma ex95_alike : Forall2 (covers_alike 100 5 "x") (ex95_chains (ex95_session ex95_rows)) (ex95_chains (ex95_session ex95_rows')).
Proof.
  destruct (ex95_chains (ex95_session ex95_rows)) as [|[c f] [|? ?]] eqn:E; [vm_compute in E; discriminate| |vm_compute in E; discriminate]. destruct (ex95_chains (ex95_session ex95_rows')) as [|[c' f'] [|? ?]] eqn:E'; [vm_compute in E'; discriminate| |vm_compute in E'; discriminate].
  constructor; [|constructor]. assert (F : fst (hd (c, f) (ex95_chains (ex95_session ex95_rows))) = c /\ snd (hd (c, f) (ex95_chains (ex95_session ex95_rows))) = f) by (rewrite E; auto). assert (F' : fst (hd (c, f) (ex95_chains (ex95_session ex95_rows'))) = c' /\ snd (hd (c, f) (ex95_chains (ex95_session ex95_rows'))) = f') by (rewrite E'; auto).
  destruct F as [F1 F2], F' as [F1' F2']. vm_compute in F2, F2'. unfold covers_alike. cbn [fst snd]. rewrite <- F1, <- F1', <- F2, <- F2'. clear.
  split; [split; intros _; eexists; left; reflexivity|]. split; [vm_compute; reflexivity|]. split; [vm_compute; reflexivity|]. split; [vm_compute; reflexivity|]. split; [|intros _ N; exfalso; apply N; left; vm_compute; reflexivity].
  intros _ _. exists 1, ex95_rows, ex95_rows'. split; [eexists _, _; split; [vm_compute; reflexivity|split; [vm_compute; reflexivity|split; reflexivity]]|]. split; [eexists _, _; split; [vm_compute; reflexivity|split; [vm_compute; reflexivity|split; reflexivity]]|].
  split; [discriminate|]. split; [|right; exists 0, 1; split; [exists 0, 1; split; [left; reflexivity|reflexivity]|split; [exists 1, 2; split; [right; left; reflexivity|reflexivity]|intros K; discriminate K]]].
  assert (S1 : same_sample 100 5 1 (combine [0; 1; 3] [1; 2; 1]) (combine [5; 105; 305] [1; 2; 1])) by (apply same_units; [reflexivity|repeat constructor]).
  assert (S2 : Permutation (combine [5; 105; 305] [1; 2; 1]) ex95_rows') by (cbn; apply (perm_trans (l' := [(105, 2); (5, 1); (305, 1)])); [apply perm_swap|apply perm_skip, perm_swap]).
  apply same_perm in S2. destruct S1 as [_ S1], S2 as [_ S2]. split; [reflexivity|]. intros x x' U. destruct (S1 x x' U) as [O1 W1]. assert (U' : in_units 1 0 x' x') by (unfold in_units; lra). destruct (S2 x' x' U') as [O2 W2]. split; [exact (iff_trans O1 O2)|]. rewrite W2, W1. change (combine [0; 1; 3] [1; 2; 1]) with ex95_rows. ring.
Qed.
Lemma ex95_figure : exists fig calls, snd (plot_distributions ex_backend (ex95_session ex95_rows) ReqAll (Some ["x"]) FileNone 4 SizeNone) = Ok fig /\ panel_of 4 ["x"] fig "x" calls /\ current_limits AX calls = Some (0, 3).
Proof. eexists _, _. split; [vm_compute; reflexivity|]. split; [exists 1%nat, 0%nat, 0%nat, 0%nat; split; [reflexivity|split; [reflexivity|split; [split; [lia|reflexivity]|eexists; split; reflexivity]]]|vm_compute; reflexivity]. Qed.
Lemma ex95_figure' : exists fig calls, snd (plot_distributions ex_backend (ex95_session ex95_rows') ReqAll (Some ["x"]) FileNone 4 SizeNone) = Ok fig /\ panel_of 4 ["x"] fig "x" calls /\ current_limits AX calls = Some (5, 305).
Proof. eexists _, _. split; [vm_compute; reflexivity|]. split; [exists 1%nat, 0%nat, 0%nat, 0%nat; split; [reflexivity|split; [reflexivity|split; [split; [lia|reflexivity]|eexists; split; reflexivity]]]|vm_compute; reflexivity]. Qed.
Example C95_nonvacuous : exists t fig t' fig' chains chains' calls calls', let s := ex95_session ex95_rows in let s' := ex95_session ex95_rows' in
  reachable ex_rgb (s_world s) /\ plots s ReqAll (Some ["x"]) chains ["x"] /\ config_of s default_plot_config /\ plot_distributions ex_backend s ReqAll (Some ["x"]) FileNone 4 SizeNone = (t, Ok fig) /\
  reachable ex_rgb (s_world s') /\ plots s' ReqAll (Some ["x"]) chains' ["x"] /\ config_of s' default_plot_config /\ plot_distributions ex_backend s' ReqAll (Some ["x"]) FileNone 4 SizeNone = (t', Ok fig') /\
  Forall2 (covers_alike 100 5 "x") chains chains' /\ panel_of 4 ["x"] fig "x" calls /\ panel_of 4 ["x"] fig' "x" calls' /\ current_limits AX calls = Some (0, 3) /\ current_limits AX calls' = Some (5, 305).
Proof.
  destruct ex95_figure as [fig [calls [S1 [PA L]]]]. destruct ex95_figure' as [fig' [calls' [S2 [PA' L']]]]. pose proof (ex95_plots _ _ S1) as P1. pose proof (ex95_plots _ _ S2) as P2.
  exists (fst (plot_distributions ex_backend (ex95_session ex95_rows) ReqAll (Some ["x"]) FileNone 4 SizeNone)), fig, (fst (plot_distributions ex_backend (ex95_session ex95_rows') ReqAll (Some ["x"]) FileNone 4 SizeNone)), fig'.
  exists (ex95_chains (ex95_session ex95_rows)), (ex95_chains (ex95_session ex95_rows')), calls, calls'. cbv zeta. split; [apply ex95_reachable|]. split; [apply P1; vm_compute; reflexivity|]. split; [reflexivity|].
  split; [rewrite <- S1; apply surjective_pairing|]. split; [apply ex95_reachable|]. split; [apply P2; vm_compute; reflexivity|]. split; [reflexivity|]. split; [rewrite <- S2; apply surjective_pairing|].
  split; [exact ex95_alike|]. repeat split; assumption.
Qed.
