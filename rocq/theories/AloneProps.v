(** C97: what is reported and drawn about a chain does not depend on the other chains. *)
From Coq Require Import String List Bool Arith ZArith QArith Reals Lia.
From Verif Require Import Py NumModel ColorModel FrameModel ConfigModel ChainModel RegistryModel RegistrySpec HeapFacts RegistryProofs RegistryProps ChainSpec AnalysisModel AnalysisSpec AnalysisProofs AnalysisProps DiagModel SurfaceModel SurfaceProofs FigureModel FigureSpec FigureCases ConsumerSpec ConsumerProofs QuerySpec QueryProps AloneSpec AloneProofs.
Import ListNotations.
Open Scope string_scope.
Open Scope list_scope.

(** Two sessions that both hold the chain, whatever else they hold, report the same about each of its parameters. *)
Theorem C97_summary_partial : forall num rgb2hex w w' n c f columns d d', reachable rgb2hex w -> reachable rgb2hex w' -> shared_chain w w' n c f ->
  snd (get_summary num w ReqAll columns) = Ok d -> snd (get_summary num w' ReqAll columns) = Ok d' ->
  exists e e', dget n d = Some e /\ dget n d' = Some e' /\ forall p, wanted columns (k_override (snd w)) c f p -> exists b, dget p e = Some b /\ dget p e' = Some b.
Proof.
  intros num rgb w w' n c f columns d d' R R' SH H H'. pose proof (reachable_ok _ _ R) as W. pose proof (reachable_ok _ _ R') as W'. pose proof SH as [S1 [[c' [S2 T]] O]].
  destruct (summary_one _ _ _ _ _ _ _ W H S1) as [cf [e [F1 [E1 [D1 P1]]]]]. destruct (summary_one _ _ _ _ _ _ _ W' H' S2) as [cf' [e' [F2 [E2 [D2 P2]]]]]. exists e, e'. split; [exact D1|]. split; [exact D2|]. intros p WP.
  destruct (P1 p WP) as [b [B1 B2]]. assert (WP' : wanted columns (k_override (snd w')) c' f p) by (rewrite O, (twins_eq _ _ T); exact WP). destruct (P2 p WP') as [b' [B3 B4]]. exists b. split; [exact B2|]. rewrite B4. f_equal.
  destruct (final_bare _ _ _ _ _ _ _ W W' SH F1 F2) as [BB _]. rewrite <- summary_bare, BB, summary_bare, B1 in B3. congruence.
Qed.
Print Assumptions C97_summary_partial.

(** Questions about the chain by its name (correlations, covariances, best point, convergence tests) have the same answer. *)
Theorem C97_named : forall o rgb2hex s s' n c f q, reachable rgb2hex (s_world s) -> reachable rgb2hex (s_world s') -> shared_chain (s_world s) (s_world s') n c f ->
  p_labels (config_in_use (s_plotter s')) = p_labels (config_in_use (s_plotter s)) -> asks_about n q -> snd (ask o s' q) = snd (ask o s q).
Proof.
  intros o rgb s s' n c f q R R' [S1 [[c' [S2 T]] O]] L A. pose proof (reachable_ok _ _ R) as W. pose proof (reachable_ok _ _ R') as W'. destruct (stored_get _ _ _ _ W S1) as [l [G1 [G2 G3]]]. destruct (stored_get _ _ _ _ W' S2) as [l' [G1' [G2' G3']]].
  rewrite (twins_eq _ _ T) in G2', G3'. cbn [with_samples ch_samples] in G3'. destruct A; cbn [ask snd]; try rewrite L.
  - f_equal. unfold get_correlation_table, table_chain. cbv zeta. rewrite G1, G1', G2, G2'. cbn [rbind fst snd ch_samples with_samples]. rewrite G3, G3'. reflexivity.
  - f_equal. unfold get_covariance_table, table_chain. cbv zeta. rewrite G1, G1', G2, G2'. cbn [rbind fst snd ch_samples with_samples]. rewrite G3, G3'. reflexivity.
  - f_equal. unfold get_max_posteriors, max_posterior_request. cbn [rmapM]. rewrite G1, G1'. cbn [rbind fold_left fst snd dset max_posteriors_loop]. rewrite G2, G2'. cbn [ch_samples with_samples]. rewrite G3, G3'. reflexivity.
  - f_equal. unfold gelman_rubin, over_chains, diag_chains, DiagModel.resolve, get_chain. cbv zeta. rewrite G1, G1'. cbn [rmap rbind]. rewrite G2, G2'. cbn [ch_samples with_samples]. rewrite G3, G3'. reflexivity.
  - f_equal. unfold geweke, over_chains, diag_chains, DiagModel.resolve, get_chain. cbv zeta. rewrite G1, G1'. cbn [rmap rbind]. rewrite G2, G2'. cbn [ch_samples with_samples]. rewrite G3, G3'. reflexivity.
Qed.
Print Assumptions C97_named.

(** In a panel with two parameters, a figure of several chains shows what the figures of the single chains show, one
    chain after the other. *)
Theorem C97_together : forall k rgb2hex s s1 names cols file size fig parts cfg, reachable rgb2hex (s_world s) -> config_of s cfg ->
  plot k s (ReqList (map ByName names)) (Some cols) file size = (s1, Ok fig) ->
  Forall2 (fun n part => exists s2 file' size', plot k s (ReqList [ByName n]) (Some cols) file' size' = (s2, Ok part)) names parts ->
  forall i j px py calls alone, panel_at cfg cols i j px py -> (j <= i)%nat -> ~ diagonal cfg i j -> axis fig i j calls -> Forall2 (fun part l => axis part i j l) parts alone ->
  surfaces calls = concat (map surfaces alone).
Proof.
  intros k rgb s s1 names cols file size fig parts cfg R HC H FP i j px py calls alone HP HJ HD HA FA. pose proof (reachable_ok _ _ R) as W. destruct (panel_surfaces _ _ _ _ _ _ _ _ _ H HC) as [final [EC PS]]. destruct (PS i j px py calls HP HJ HD HA) as [bars E].
  destruct (contents_parts _ _ _ _ W EC) as [cfs [FC [-> EN]]]. rewrite flat_map_concat_map in E. destruct (surface_concat _ _ _ _ _ _ _ _ _ _ E) as [dss [F ->]]. f_equal. clear E PS EC H HA. apply F2_len' in FC.
  revert names parts alone dss FC EN FP FA F. induction cfs as [|cf cfs IH]; intros names parts alone dss L EN FP FA F.
  - destruct names; [|discriminate]. inversion FP; subst. inversion FA; subst. inversion F; subst. reflexivity.
  - destruct names as [|n names]; [discriminate|]. inversion FP as [|? part ? parts' [s2 [file' [size' P1]]] FP']; subst. inversion FA as [|? l ? alone' A1 FA']; subst. cbn [map] in F. inversion F as [|? dd ? dss' [b B1] F']; subst. cbn [map]. f_equal.
    + destruct (panel_surfaces _ _ _ _ _ _ _ _ _ P1 HC) as [final1 [EC1 PS1]]. rewrite (EN n cf (or_introl eq_refl)) in EC1. injection EC1 as <-. destruct (PS1 i j px py l HP HJ HD A1) as [bars1 B2]. congruence.
    + apply (IH names parts' alone' dss'); auto. intros m cf' HI. apply EN. right. exact HI.
Qed.
Print Assumptions C97_together.

(** In two sessions with the same plotting configuration the chain is drawn with the same contours, points and styles;
    only colours and shading, which are chosen for the chains together, may differ, and they do not if they were given. *)
Theorem C97_drawn : forall k rgb2hex s s' n c f cfg cols file file' size size' s1 s2 fig fig', reachable rgb2hex (s_world s) -> reachable rgb2hex (s_world s') -> shared_chain (s_world s) (s_world s') n c f ->
  config_of s cfg -> config_of s' cfg -> plot k s (ReqList [ByName n]) (Some cols) file size = (s1, Ok fig) -> plot k s' (ReqList [ByName n]) (Some cols) file' size' = (s2, Ok fig') ->
  forall i j px py calls calls', panel_at cfg cols i j px py -> (j <= i)%nat -> ~ diagonal cfg i j -> axis fig i j calls -> axis fig' i j calls' ->
  flat_map plain (surfaces calls') = flat_map plain (surfaces calls) /\ (settled (k_override (snd (s_world s))) c -> surfaces calls' = surfaces calls).
Proof.
  intros k rgb s s' n c f cfg cols file file' size size' s1 s2 fig fig' R R' SH HC HC' H H' i j px py calls calls' HP HJ HD HA HA'. pose proof (reachable_ok _ _ R) as W. pose proof (reachable_ok _ _ R') as W'.
  destruct (panel_surfaces _ _ _ _ _ _ _ _ _ H HC) as [final [EC PS]]. destruct (PS i j px py calls HP HJ HD HA) as [bars E]. destruct (panel_surfaces _ _ _ _ _ _ _ _ _ H' HC') as [final' [EC' PS']]. destruct (PS' i j px py calls' HP HJ HD HA') as [bars' E'].
  destruct (contents_one _ _ _ W EC) as [[k1 g1] [F ->]]. destruct (contents_one _ _ _ W' EC') as [[k2 g2] [F' ->]]. destruct (final_bare _ _ _ _ _ _ _ W W' SH F F') as [B [B2 B3]].
  destruct (only_bare _ _ B B2) as [[O1 O2]|[O1 O2]]; rewrite O1 in E; rewrite O2 in E'; cbn [fst snd] in *.
  - cbn in E, E'. injection E as <- _. injection E' as <- _. auto.
  - subst g1 g2. split.
    + cbn [plot_surface] in E, E'. apply rbind_ok in E as [[d b] [E1 E]]. apply rbind_ok in E' as [[d' b'] [E1' E']]. cbn [rbind fst snd] in E, E'. injection E as <- _. injection E' as <- _. rewrite !app_nil_r. eapply one_plain; eassumption.
    + intros ST. pose proof (final_settled _ _ _ _ _ _ _ W W' SH ST F F') as Q. cbn [fst] in Q. rewrite <- (surface_samples _ _ _ _ _ _ _ k2 f 0%nat), Q, surface_samples, E in E'. congruence.
Qed.
Print Assumptions C97_drawn.

(** A's own weights (column w) are reported as a parameter as soon as another chain has a parameter called w. *)
Definition own_f1 : frame := {| f_index := [LInt 0; LInt 1; LInt 2]; f_cols := [(CStr "x", [Fin 0; Fin 1; Fin 2]); (CStr "w", [Fin 1; Fin 2; Fin 1])] |}.
Definition own_f2 : frame := {| f_index := [LInt 0; LInt 1; LInt 2]; f_cols := [(CStr "x", [Fin 3; Fin 4; Fin 5]); (CStr "w", [Fin 4; Fin 2; Fin 6])] |}.
Definition own_args : cargs := let a := ex34_args "A" 0 no_kw in
  {| a_cfg := a_cfg a; a_samples := 0; a_name := "A"; a_weight := Some "w"; a_post := None; a_walkers := None; a_grid := Some true; a_nfree := None; a_ndata := None; a_power := None; a_showlabel := None; a_relheight := None |}.
Definition own_heap : heap := {| h_frames := [own_f1; own_f2]; h_chains := [] |}.
Definition own_alone : world := fst (run ex_rgb (own_heap, new_consumer) [OpNewChain own_args; OpAdd 0]).
Definition own_pair : world := fst (run ex_rgb (own_heap, new_consumer) [OpNewChain own_args; OpNewChain (ex34_args "B" 1 no_kw); OpAdd 0; OpAdd 1]).
Lemma first_shared w w' n f l l' c : k_chains (snd w) = (n, 0%nat) :: l -> k_chains (snd w') = (n, 0%nat) :: l' -> chain_at (fst w) 0 = Some c -> chain_at (fst w') 0 = Some c ->
  frame_at (fst w) (ch_samples c) = f -> frame_at (fst w') (ch_samples c) = f -> k_override (snd w') = k_override (snd w) -> shared_chain w w' n c f.
Proof.
  intros K K' C C' F F' O. split; [exists 0%nat; rewrite K; split; [left; reflexivity|auto]|]. split; [|exact O]. exists c. split; [exists 0%nat; rewrite K'; split; [left; reflexivity|auto]|]. constructor; reflexivity.
Qed.
Theorem C97_weights_refuted : exists w w' n c f d d' e e', reachable ex_rgb w /\ reachable ex_rgb w' /\ shared_chain w w' n c f /\
  snd (get_summary ex34_num w ReqAll None) = Ok d /\ snd (get_summary ex34_num w' ReqAll None) = Ok d' /\ dget n d = Some e /\ dget n d' = Some e' /\
  is_column f (ch_weight c) /\ dget (ch_weight c) e = None /\ dget (ch_weight c) e' <> None.
Proof.
  exists own_alone, own_pair, "A". do 6 eexists. split; [eexists own_heap, _; eexists; apply surjective_pairing|]. split; [eexists own_heap, _; eexists; apply surjective_pairing|].
  split; [eapply first_shared; vm_compute; reflexivity|]. split; [vm_compute; reflexivity|]. split; [vm_compute; reflexivity|]. split; [vm_compute; reflexivity|]. split; [vm_compute; reflexivity|].
  split; [eexists; right; left; reflexivity|]. split; [vm_compute; reflexivity|]. vm_compute. discriminate.
Qed.
Print Assumptions C97_weights_refuted.

(** The chain A of the example figures on its own and beside B: both report x, and in the panel of x and y a cloud of
    points is drawn for each. *)
Definition lone_session (cfg : plot_config) : session :=
  set_plot_config {| s_world := fst (run ex_rgb (fig_heap, new_consumer) [OpNewChain (ex34_args "A" 0 cloud_z); OpAdd 0]); s_truths := []; s_plotter := new_plotter fig_rc; s_rc := fig_rc |} cfg.
Definition lone_cfg : plot_config := fig_cfg false true (BlindBool false) [].
Definition shown (r : session * res figure) (i j : nat) : nat := match snd r with Ok fig => match nth_error (fg_axes fig) i with Some row => match nth_error row j with Some calls => length (surfaces calls) | None => 0 end | None => 0 end | Err _ => 0 end.
Example C97_nonvacuous : exists c f, let s := lone_session lone_cfg in let s' := fig_pair lone_cfg in let ask s names := plot ex_backend s (ReqList (map ByName names)) (Some ["x"; "y"]) FileNone FPage in
  reachable ex_rgb (s_world s) /\ reachable ex_rgb (s_world s') /\ shared_chain (s_world s) (s_world s') "A" c f /\ config_of s lone_cfg /\ config_of s' lone_cfg /\
  (exists d d', snd (get_summary ex34_num (s_world s) ReqAll None) = Ok d /\ snd (get_summary ex34_num (s_world s') ReqAll None) = Ok d') /\ wanted None (k_override (snd (s_world s))) c f "x" /\
  panel_at lone_cfg ["x"; "y"] 1 0 "x" "y" /\ ~ diagonal lone_cfg 1 0 /\ shown (ask s ["A"]) 1 0 = 1%nat /\ shown (ask s' ["A"]) 1 0 = 1%nat /\ shown (ask s' ["B"]) 1 0 = 1%nat /\ shown (ask s' ["A"; "B"]) 1 0 = 2%nat.
Proof.
  do 2 eexists. cbv zeta. split; [eexists fig_heap, _; eexists; apply surjective_pairing|]. split; [apply fig_reachable|]. split; [eapply first_shared; vm_compute; reflexivity|]. split; [reflexivity|]. split; [reflexivity|].
  split; [do 2 eexists; split; vm_compute; reflexivity|].
  split. { split; [eexists; left; reflexivity|]. split; [vm_compute; discriminate|]. split; [vm_compute; discriminate|]. split; [intros H; vm_compute in H; repeat (destruct H as [H|H]; [discriminate|]); discriminate|]. split; [vm_compute; discriminate|]. intros o O. vm_compute in O. discriminate. }
  split; [split; reflexivity|]. split; [intros [_ D]; discriminate D|]. repeat split; vm_compute; reflexivity.
Qed.
