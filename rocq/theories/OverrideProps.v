(** C100: an override is as good as giving the settings to every chain. *)
From Coq Require Import String List Bool Arith ZArith QArith Reals Lia.
From Verif Require Import Py NumModel ColorModel ColorProofs MarginalModel FrameModel ConfigModel ChainModel RegistryModel RegistrySpec HeapFacts RegistryProofs RegistryProps ChainSpec AnalysisModel AnalysisSpec AnalysisProofs AnalysisProps DiagModel SurfaceModel SurfaceSpec SurfaceProofs SurfaceProps FigureModel FigureSpec FigureCases ConsumerSpec ConsumerProofs QueryProofs OverrideSpec OverrideProofs.
Import ListNotations.
Open Scope string_scope.
Open Scope list_scope.

(** Whatever is drawn of a session with an override is drawn, down to the last detail, of the session where every chain
    was given these settings.  If the override gives no colour, the same calls fail, with the same error. *)
Theorem C100_figures_partial : forall k rgb2hex s s' o d, reachable rgb2hex (s_world s) -> reachable rgb2hex (s_world s') -> spelled_out o (s_world s) (s_world s') -> leaves_contours o ->
  same_plotting s s' -> by_name (asks_for d) ->
  ((o_user o Fcolor = true -> o_cfg o Fcolor <> None) -> forall fig, snd (draw_figure k s d) = Ok fig -> snd (draw_figure k s' d) = Ok fig) /\
  (o_user o Fcolor = false -> snd (draw_figure k s' d) = snd (draw_figure k s d)).
Proof.
  intros k rgb s s' o d R R' SP HL SM BN. pose proof (reachable_ok _ _ R) as W. pose proof (reachable_ok _ _ R') as W'. split.
  - intros HC fig. eapply drawing_carries; eassumption.
  - intros OC. destruct (snd (draw_figure k s d)) as [fig|e] eqn:E; [apply (drawing_carries k s s' d o fig W W' SP HL ltac:(intros T; rewrite OC in T; discriminate T) SM BN E)|apply (drawing_fails k s s' d o e W W' SP HL OC SM BN E)].
Qed.
Print Assumptions C100_figures_partial.

(** The same for the summary of all chains and for the table of parameters. *)
Theorem C100_tables_partial : forall num rgb2hex w w' o, reachable rgb2hex w -> reachable rgb2hex w' -> spelled_out o w w' -> leaves_contours o -> (o_user o Fcolor = true -> o_cfg o Fcolor <> None) ->
  (forall columns d, snd (get_summary num w ReqAll columns) = Ok d -> snd (get_summary num w' ReqAll columns) = Ok d) /\
  (forall repr ascii labels blind columns req transpose caption label hlines fill text, by_name req ->
     snd (get_latex_table num repr ascii w labels blind columns req transpose caption label hlines fill) = Ok text ->
     snd (get_latex_table num repr ascii w' labels blind columns req transpose caption label hlines fill) = Ok text).
Proof.
  intros num rgb w w' o R R' SP HL HC. pose proof (reachable_ok _ _ R) as W. pose proof (reachable_ok _ _ R') as W'. split.
  - intros columns d. apply (summary_carries num o w w' columns d W W' SP HL HC).
  - intros repr ascii labels blind columns req transpose caption label hlines fill text BN. apply (latex_carries num repr ascii labels blind columns transpose caption label hlines fill o w w' req text W W' SP HL HC BN).
Qed.
Print Assumptions C100_tables_partial.

(** ** Examples *)
Definition over (k : kwargs) : config_obj := match new_config ex_rgb k with Ok o => o | Err _ => {| o_cfg := default_config; o_user := fun _ => false |} end.
Definition with_kw (a : cargs) (k : kwargs) : cargs :=
  {| a_cfg := k; a_samples := a_samples a; a_name := a_name a; a_weight := a_weight a; a_post := a_post a; a_walkers := a_walkers a; a_grid := a_grid a; a_nfree := a_nfree a; a_ndata := a_ndata a; a_power := a_power a; a_showlabel := a_showlabel a; a_relheight := a_relheight a |}.
Definition over_ops (a b : cargs) (o : list op) : list op := [OpNewChain a; OpNewChain b; OpAdd 0; OpAdd 1] ++ o.
Definition over_session (a b : cargs) (o : list op) : session :=
  set_plot_config {| s_world := fst (run ex_rgb (fig_heap, new_consumer) (over_ops a b o)); s_truths := fig_truths; s_plotter := new_plotter fig_rc; s_rc := fig_rc |} (fig_cfg false true (BlindBool false) []).
Lemma over_reachable a b o : reachable ex_rgb (s_world (over_session a b o)).
Proof. eexists fig_heap, _. eexists. apply surjective_pairing. Qed.
(** Red clouds and maximum-likelihood summaries, by an override or for each chain. *)
Definition red_cloud (k : kwargs) : kwargs := kset (kset (kset k Fcolor (Some (CName "red"))) Fstatistics (Some SMax)) Fnum_cloud 2.
Definition ov_a : cargs := ex34_args "A" 0 cloud_z.
Definition ov_b : cargs := ex34_args "B" 1 cloud_kw.
Definition ov_o : config_obj := over (red_cloud no_kw).
Definition ov_session : session := over_session ov_a ov_b [OpOverride ov_o].
Definition ov_session' : session := over_session (with_kw ov_a (red_cloud (a_cfg ov_a))) (with_kw ov_b (red_cloud (a_cfg ov_b))) [].
Definition ov_chain (w : world) (l : nat) : chain := match chain_at (fst w) l with Some c => c | None => build None (ex_args "" no_kw) 0 end.
Lemma ov_at w l : match chain_at (fst w) l with Some _ => true | None => false end = true -> chain_at (fst w) l = Some (ov_chain w l).
Proof. unfold ov_chain. destruct (chain_at (fst w) l); [reflexivity|discriminate]. Qed.
Ltac carries_tac := constructor; [intros [] H; vm_compute in H; try discriminate H; split; vm_compute; reflexivity|intros [] H; vm_compute in H; try discriminate H; split; vm_compute; reflexivity|..]; vm_compute; reflexivity.
Ltac spelled_tac := split; [vm_compute; reflexivity|]; split; [vm_compute; reflexivity|];
  match goal with |- Forall2 _ ?a ?b => let a' := eval vm_compute in a in let b' := eval vm_compute in b in replace a with a' by (vm_compute; reflexivity); replace b with b' by (vm_compute; reflexivity) end;
  repeat (constructor; [split; [reflexivity|]; match goal with |- exists c c', chain_at (fst ?w) (snd ?nl) = _ /\ chain_at (fst ?w') (snd ?nl') = _ /\ _ => exists (ov_chain w (snd nl)), (ov_chain w' (snd nl')) end;
    split; [apply ov_at; vm_compute; reflexivity|]; split; [apply ov_at; vm_compute; reflexivity|]; split; [vm_compute; reflexivity|]; carries_tac|]); constructor.
Lemma ov_spelled : spelled_out ov_o (s_world ov_session) (s_world ov_session').
Proof. spelled_tac. Qed.
Example C100_nonvacuous : reachable ex_rgb (s_world ov_session) /\ reachable ex_rgb (s_world ov_session') /\ spelled_out ov_o (s_world ov_session) (s_world ov_session') /\ leaves_contours ov_o /\ (o_user ov_o Fcolor = true -> o_cfg ov_o Fcolor <> None) /\
  same_plotting ov_session ov_session' /\
  (exists fig, snd (draw_figure ex_backend ov_session (DTriangle ReqAll (Some ["x"; "y"]) FileNone FPage)) = Ok fig) /\ (exists fig, snd (draw_figure ex_backend ov_session (DWalks (ReqList (map ByName ["B"])) (Some ["x"; "y"]) FileNone SizeNone None true true false)) = Ok fig) /\
  (exists d, snd (get_summary ex34_num (s_world ov_session) ReqAll None) = Ok d).
Proof.
  split; [apply over_reachable|]. split; [apply over_reachable|]. split; [exact ov_spelled|]. split; [split; vm_compute; reflexivity|]. split; [vm_compute; discriminate|]. split; [split; vm_compute; reflexivity|].
  split; [eexists; vm_compute; reflexivity|]. split; [eexists; vm_compute; reflexivity|]. eexists; vm_compute; reflexivity.
Qed.

(** Asking for the summary of a chain object ignores the override. *)
Theorem C100_object_refuted : exists w w' o l d d', reachable ex_rgb w /\ reachable ex_rgb w' /\ spelled_out o w w' /\ leaves_contours o /\ (o_user o Fcolor = true -> o_cfg o Fcolor <> None) /\
  In ("A", l) (k_chains (snd w)) /\ In ("A", l) (k_chains (snd w')) /\
  snd (get_summary ex34_num w (ReqList [ByChain l]) None) = Ok d /\ snd (get_summary ex34_num w' (ReqList [ByChain l]) None) = Ok d' /\ d <> d'.
Proof.
  exists (s_world ov_session), (s_world ov_session'), ov_o, 0%nat. do 2 eexists. split; [apply over_reachable|]. split; [apply over_reachable|]. split; [exact ov_spelled|]. split; [split; vm_compute; reflexivity|]. split; [vm_compute; discriminate|].
  split; [vm_compute; left; reflexivity|]. split; [vm_compute; left; reflexivity|]. split; [vm_compute; reflexivity|]. split; [vm_compute; reflexivity|]. discriminate.
Qed.
Print Assumptions C100_object_refuted.

(** Asking by an override for contours of chains that draw points only: the shading is chosen for no contour at all. Five
    such chains get shaded bars in the distributions, which they do not if the setting is given to the chains. *)
Definition ct_o : config_obj := over (kset no_kw Fplot_contour true).
Definition ct_session (k : kwargs) (names : list string) (o : list op) : session :=
  set_plot_config {| s_world := fst (run ex_rgb (fig_heap, new_consumer) (map (fun n => OpNewChain (ex34_args n 0 k)) names ++ map OpAdd (seq 0 (length names)) ++ o));
    s_truths := []; s_plotter := new_plotter fig_rc; s_rc := fig_rc |} (fig_cfg false false (BlindBool false) []).
Definition ct_kw : kwargs := kset (kset cloud_kw Fplot_contour true) Fplot_cloud true.
Definition ct_names : list string := ["A"; "B"; "C"; "D"; "E"].
Definition ct_ask : drawing := DDistributions ReqAll (Some ["x"]) FileNone 1 SizeNone.
Theorem C100_contours_refuted : exists s s' o fig fig', reachable ex_rgb (s_world s) /\ reachable ex_rgb (s_world s') /\ spelled_out o (s_world s) (s_world s') /\ o_user o Fcolor = false /\ same_plotting s s' /\
  snd (draw_figure ex_backend s ct_ask) = Ok fig /\ snd (draw_figure ex_backend s' ct_ask) = Ok fig' /\ fig <> fig'.
Proof.
  exists (ct_session cloud_kw ct_names [OpOverride ct_o]), (ct_session ct_kw ct_names []), ct_o. do 2 eexists.
  split; [eexists fig_heap, _; eexists; apply surjective_pairing|]. split; [eexists fig_heap, _; eexists; apply surjective_pairing|].
  split; [spelled_tac|]. split; [vm_compute; reflexivity|]. split; [split; vm_compute; reflexivity|].
  split; [vm_compute; reflexivity|]. split; [vm_compute; reflexivity|]. intros E; discriminate E.
Qed.
Print Assumptions C100_contours_refuted.
