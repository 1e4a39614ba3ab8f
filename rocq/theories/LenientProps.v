(** C118: a more lenient threshold, or fewer chains, never turns a pass into a failure. *)
From Coq Require Import String List Bool Arith ZArith QArith Qround Lia Reals Qreals Lra Lqa.
From Verif Require Import Py NumSpec NumModel FrameModel FrameFacts ConfigModel ChainModel RegistryModel RegistrySpec CovModel CovSpec CovProofs DiagModel DiagSpec DiagProofs DiagProps LenientSpec LenientProofs RegistryProps.
Import ListNotations.
Open Scope string_scope.
Open Scope list_scope.

(** Allowing R-hat a larger deviation: same chains, same exceptions, and all that passed still passes. *)
Theorem C118_gelman_rubin : forall w r threshold threshold', (threshold <= threshold')%Q -> outcome_at_least (gelman_rubin w r threshold) (gelman_rubin w r threshold').
Proof. intros w r t t' L. apply over_rel. apply gr_one_rel. exact L. Qed.
Print Assumptions C118_gelman_rubin.
(** Asking for a smaller p-value. *)
Theorem C118_geweke : forall yule_walker normaltest w r first last threshold threshold', (threshold' <= threshold)%Q ->
  outcome_at_least (geweke yule_walker normaltest w r first last threshold) (geweke yule_walker normaltest w r first last threshold').
Proof. intros yw nt w r first last t t' L. apply over_rel. apply gw_one_rel. exact L. Qed.
Print Assumptions C118_geweke.
(** Some of the chains, in any order and any number of times: the call returns if the one for all does, and passes if that one does. *)
Theorem C118_fewer : forall yule_walker normaltest w r r' ls ls' first last threshold, asked_for w r ls -> asked_for w r' ls' -> ls' <> [] -> incl ls' ls ->
  (forall t, gelman_rubin w r threshold = Ok t -> exists t', gelman_rubin w r' threshold = Ok t' /\ (t_passed t = true -> t_passed t' = true)) /\
  (forall t, geweke yule_walker normaltest w r first last threshold = Ok t ->
     exists t', geweke yule_walker normaltest w r' first last threshold = Ok t' /\ (t_passed t = true -> t_passed t' = true)).
Proof.
  intros yw nt w r r' ls ls' first last th HA HA' NE I. split; intros t H; apply (over_fewer _ w r r' ls ls' t); try assumption; intros c f u; [apply gr_results|apply gw_results].
Qed.
Print Assumptions C118_fewer.
(** No deviation is below zero: with a threshold of zero or less a chain with a parameter never passes Gelman-Rubin. *)
Theorem C118_zero : forall w q l c xs m n threshold t, denotes w q l -> chain_at (fst w) l = Some c -> walker_data c (frame_at (fst w) (ch_samples c)) xs m n -> xs <> [] ->
  (threshold <= 0)%Q -> gelman_rubin w (DOne q) threshold = Ok t -> t_passed t = false.
Proof.
  intros w q l c xs m n th t HD HC D NE L H. unfold gelman_rubin, over_chains in H. rewrite (proj2 (diag_chains_spec w (DOne q) [l])) in H by (exists l; auto). cbn [rbind] in H. rewrite HC in H.
  unfold gelman_rubin_one in H. rewrite (select_ok _ _ xs (wk_wf _ _ _ _ _ D) (wk_cols _ _ _ _ _ D)) in H. cbn [rbind] in H. destruct (negb _); [discriminate|]. destruct (negb _); [discriminate|]. injection H as <-.
  cbn [t_passed]. destruct xs as [|x xs]; [contradiction|]. cbn [forallb]. apply andb_false_iff. left. destruct (gr_passed th _) eqn:E; [|reflexivity]. exfalso.
  destruct (gr_ratio _ _ _) as [v|]; [|discriminate]. apply gr_passed_some in E. unfold near_one in E. apply Qle_Rle in L. replace (Q2R 0) with 0%R in L by (unfold Q2R; cbn; Lra.lra).
  pose proof (Rabs_pos (sqrt (Q2R v) - 1)). Lra.lra.
Qed.
Print Assumptions C118_zero.

(** A chain that fails at 3/20 and passes at 1/2. *)
Example C118_nonvacuous : exists t t', reachable ex_rgb ex40 /\ gelman_rubin ex40 (DOne (DObject 0)) (3 # 20) = Ok t /\ t_passed t = false /\ gelman_rubin ex40 (DOne (DObject 0)) (1 # 2) = Ok t' /\ t_passed t' = true /\
  asked_for ex40 (DList [DObject 0; DObject 2]) [0; 2]%nat.
Proof.
  destruct ex40_verdicts as [[t [H [P _]]] _]. exists t.
  destruct (C40_verdict_partial ex40 (DObject 0) 0 (ex40_chain 0) [ex40_x] 2 2 (1 # 2)) as [t' [T1 [T2 T3]]]; [reflexivity|apply ex40_found; lia|exact (ex40_data 0 ltac:(lia))|lia|lia|].
  exists t'. split; [exact ex40_reachable|]. split; [exact H|]. split; [exact P|]. split; [exact T1|]. split; [|repeat constructor].
  apply T3. intros x W B [<-|[]] V. destruct (variances_unique ex40_x 2 2 W B _ _ ltac:(lia) ltac:(lia) V (var_2x2 _ _ _ _)) as [EW EB].
  split; [rewrite EW; vm_compute; discriminate|]. apply (near_one_comp _ _ _ (computed_comp 2 2 _ _ _ _ EW EB)). unfold near_one.
  match goal with |- context [Q2R ?q] => assert (E : (q == 43 # 32)%Q) by (vm_compute; reflexivity); rewrite (Qeq_eqR _ _ E) end. unfold Q2R. cbn.
  set (s := sqrt (43 * / 32)). assert (S2 : (s * s = 43 / 32)%R) by (apply sqrt_sqrt; Lra.lra). assert (S0 : (0 <= s)%R) by apply sqrt_pos.
  apply Rabs_def1; Lra.nra.
Qed.
