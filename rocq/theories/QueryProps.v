(** C81: questions change nothing and are answered the same way again. *)
From Coq Require Import String List Bool Arith ZArith QArith Reals Lia.
From Verif Require Import Py NumModel FrameModel ConfigModel ChainModel RegistryModel RegistrySpec HeapFacts RegistryProofs RegistryProps ChainUseProofs CovModel TextModel AnalysisModel AnalysisSpec AnalysisProofs CompareModel DiagModel DiagProofs SurfaceModel FigureModel FigureSpec ConsumerSpec ConsumerProofs ConsumerProps QuerySpec QueryProofs.
From Verif Require SessionProofs.
Import ListNotations.
Open Scope string_scope.
Open Scope list_scope.

(** A question leaves the registered chains, the override, the truths, the configuration and the rc parameters as they
    were, and every object that existed before it. *)
Theorem C81_untouched : forall rgb2hex o s q s' a, reachable rgb2hex (s_world s) -> ask o s q = (s', a) ->
  snd (s_world s') = snd (s_world s) /\ untouched (fst (s_world s)) (fst (s_world s')) /\ s_truths s' = s_truths s /\ s_plotter s' = s_plotter s /\ s_rc s' = s_rc s.
Proof.
  intros rgb o s q s' a RE H. assert (E : s' = s \/ exists req b, s' = with_world s (fst (sanitise_chains (s_world s) req b))).
  { destruct q as [req columns|columns req t c l h b| | | | | | | | |]; cbn [ask] in H; try (injection H as <- <-; left; reflexivity).
    - unfold get_summary in H. destruct req as [l|d|]; try (injection H as <- <-; left; apply with_world_same). destruct (sanitise_chains (s_world s) ReqAll true) as [w1 r] eqn:E. injection H as <- <-. right. exists ReqAll, true. rewrite E. reflexivity.
    - unfold get_latex_table in H. destruct (sanitise_chains (s_world s) req false) as [w1 r] eqn:E. injection H as <- <-. right. exists req, false. rewrite E. reflexivity. }
  destruct E as [->|[req [b ->]]]; [repeat split; auto|]. destruct (sanitise_world (s_world s) req b) as [U K]. split; [exact K|]. split; [exact U|]. repeat split.
Qed.
Print Assumptions C81_untouched.

(** After any questions, drawings, selections and new chain objects the same question has the same answer. *)
Theorem C81_repeatable : forall rgb2hex k o h rc before between q,
  h_chains h = [] -> (forall f, In f (h_frames h) -> frame_wf f) -> (forall e, In e before -> sane e) -> (forall e, In e between -> harmless e) ->
  let s1 := happens rgb2hex k o (fresh h rc) before in let s2 := happens rgb2hex k o s1 between in
  about_existing (s_world s1) q -> snd (ask o s2 q) = snd (ask o s1 q).
Proof.
  intros rgb k o h rc before between q H1 H2 H3 HL. cbv zeta. intros HQ. rewrite !happens_acts in *. set (la := flat_map as_actions before) in *. set (lb := flat_map as_actions between) in *.
  pose proof (fresh_good rgb k h rc la H1 H2 (sane_actions _ H3)) as SG. set (t1 := acts rgb k (fresh h rc) la) in *. destruct (looking_keeps rgb k lb t1 (harmless_actions _ HL)) as [K1 [K2 K3]].
  pose proof (SessionProofs.session_reachable _ _ _ SG) as RE. pose proof (SessionProofs.session_good _ _ _ SG) as [[_ HO] _].
  assert (U : untouched (fst (s_world t1)) (fst (s_world (acts rgb k t1 lb)))).
  { rewrite acts_world. eapply C02_untouched; [exact RE|apply surjective_pairing]. }
  set (t2 := acts rgb k t1 lb) in *. pose proof (reachable_ok _ _ RE) as W.
  assert (HF : forall l c, chain_at (fst (s_world t1)) l = Some c -> (ch_samples c < length (h_frames (fst (s_world t1))))%nat) by (intros l c Hc; exact (proj1 (HO l c Hc))).
  assert (W' : world_ok (s_world t2)) by (destruct (s_world t1) as [h1 k1], (s_world t2) as [h2 k2]; cbn [fst snd] in *; subst k2; eapply world_ok_heap; eassumption).
  assert (C : forall req b names, requested (s_world t1) req = map Some names -> contents (s_world t2) req b = contents (s_world t1) req b).
  { intros req b names HR. eapply contents_same; [exact W|exact U|exact K3|exact HR|]. intros n l c _ Hc. exact (HF l c Hc). }
  destruct q as [req columns|columns req t c l hl b|which columns c l|which columns c l|names| | | |c l hl a b d st de|r t|r f l t]; cbn [ask]; unfold about_existing in HQ; cbn [mentioned] in HQ; try rewrite K2.
  - assert (E : snd (get_summary (pr_num o) (s_world t2) req columns) = snd (get_summary (pr_num o) (s_world t1) req columns)).
    { destruct req as [refs|d|]; [exact (later_summary_list _ _ U HF _ _ _ HQ)|apply later_summary_dict|]. rewrite !summary_all by assumption. rewrite (C ReqAll true (get_names (s_world t1)) eq_refl). reflexivity. }
    destruct (get_summary _ (s_world t1) _ _) as [u1 r1], (get_summary _ (s_world t2) _ _) as [u2 r2]. cbn [snd] in *. rewrite E. reflexivity.
  - destruct (requested_known _ _ HQ) as [names HN].
    set (cf := config_in_use (s_plotter t1)). pose proof (latex_same (pr_num o) (pr_repr o) (pr_ascii o) (p_labels cf) (p_blind cf) columns t c l hl b _ _ req (C _ false _ HN)) as E.
    destruct (get_latex_table _ _ _ (s_world t1) _ _ _ _ _ _ _ _ _) as [u1 r1], (get_latex_table _ _ _ (s_world t2) _ _ _ _ _ _ _ _ _) as [u2 r2]. cbn [snd] in *. rewrite E. reflexivity.
  - cbn [snd]. f_equal. unfold get_correlation_table. rewrite (later_table _ _ U K3 HF which); [reflexivity| |exact W]. intros r0 -> l0. apply HQ.
  - cbn [snd]. f_equal. unfold get_covariance_table. rewrite (later_table _ _ U K3 HF which); [reflexivity| |exact W]. intros r0 -> l0. apply HQ.
  - cbn [snd]. rewrite (later_points _ _ U K3 HF names W). reflexivity.
  - cbn [snd]. unfold aic. rewrite (later_scores _ _ U K3 HF _ W). reflexivity.
  - cbn [snd]. unfold bic. rewrite (later_scores _ _ U K3 HF _ W). reflexivity.
  - cbn [snd]. unfold dic. rewrite (later_scores _ _ U K3 HF _ W). reflexivity.
  - cbn [snd]. unfold comparison_table, aic, bic, dic. rewrite !(later_scores _ _ U K3 HF _ W). reflexivity.
  - cbn [snd]. unfold gelman_rubin. rewrite (later_test _ _ U K3 HF _ r W HQ). reflexivity.
  - cbn [snd]. unfold geweke. rewrite (later_test _ _ U K3 HF _ r W HQ). reflexivity.
Qed.
Print Assumptions C81_repeatable.
(** Nor do questions influence the figures drawn after them. *)
Theorem C81_figures : forall rgb2hex k o h rc before between d names,
  h_chains h = [] -> (forall f, In f (h_frames h) -> frame_wf f) -> (forall e, In e before -> sane e) -> (forall e, In e between -> harmless e) ->
  let s1 := happens rgb2hex k o (fresh h rc) before in let s2 := happens rgb2hex k o s1 between in
  requested (s_world s1) (asks_for d) = map Some names -> snd (draw_figure k s2 d) = snd (draw_figure k s1 d).
Proof.
  intros rgb k o h rc before between d names H1 H2 H3 HL. cbv zeta. intros HR. rewrite !happens_acts in *.
  exact (C73_repeatable rgb k h rc _ _ d names H1 H2 (sane_actions _ H3) (harmless_actions _ HL) HR).
Qed.
Print Assumptions C81_figures.

(** A session with two chains; a table, a summary and a figure between two requests for the largest posteriors. *)
Definition query_before : list event := map Did case_before.
Definition query_between : list event := [Asked (QSummary ReqAll None); Asked (QLatex None ReqAll false None None true "--"); Did (ADraw case_draw); Asked (QGelmanRubin (DOne (DObject 0)) (1#10)); Asked QAic].
Definition query_num : numerics := {| n_bins := 4; n_points := 5; n_kde := 2; n_pad := 2; n_tries := 3; n_power := fun p h => h; n_kernel := fun _ => [1]; n_megkde := fun _ _ _ _ => 1 |}.
Definition query_prims : primitives := {| pr_num := query_num; pr_repr := fun s => s; pr_ascii := fun s => s; pr_nearest := fun _ _ => 0%nat; pr_argsort := fun l => seq 0 (length l); pr_yule_walker := fun _ _ => ([], 1%R); pr_normaltest := fun _ => Ok None |}.
Example C81_nonvacuous : let s1 := happens ex_rgb FigureCases.ex_backend query_prims (fresh FigureCases.fig_heap FigureCases.fig_rc) query_before in let s2 := happens ex_rgb FigureCases.ex_backend query_prims s1 query_between in
  (forall e, In e query_before -> sane e) /\ (forall e, In e query_between -> harmless e) /\ about_existing (s_world s1) (QSummary (ReqList [ByChain 0; ByChain 1]) (Some ["x"])) /\
  length (h_chains (fst (s_world s1))) = 2%nat /\ (4 < length (h_chains (fst (s_world s2))))%nat /\
  snd (ask query_prims s1 (QMaxPosteriors None)) = WithPoints (Ok [("A", (-1, [("x", 1); ("y", 2); ("z", 3)]))]) /\
  match snd (ask query_prims s1 (QSummary ReqAll (Some ["x"]))) with WithSummary (Ok d) => map (fun kv => (fst kv, length (snd kv))) d = [("A", 1%nat); ("B", 1%nat)] | _ => False end.
Proof.
  cbv zeta. split; [intros e He; repeat (destruct He as [<-|He]; [exact I|]); destruct He|]. split; [intros e He; repeat (destruct He as [<-|He]; [exact I|]); destruct He|].
  split. { intros l [<-|[<-|[]]]; vm_compute; eexists; reflexivity. }
  split; [vm_compute; reflexivity|]. split; [vm_compute; lia|]. split; vm_compute; reflexivity.
Qed.
