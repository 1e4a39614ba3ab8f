(** C105: the log of the diagnostics. *)
From Coq Require Import String Ascii List Bool Arith ZArith QArith Qround Reals Qreals Lia.
From Verif Require Import Py NumSpec NumModel FrameModel ConfigModel ChainModel RegistryModel RegistrySpec ChainSpec RegistryProps FormatSpec CompareSpec DiagModel DiagSpec DiagProofs GewekeProofs DiagProps WarnModel NoteModel VerdictModel VerdictSpec VerdictProofs.
Import ListNotations.
Open Scope string_scope.
Open Scope list_scope.

(** The diagnostics with their log return what the diagnostics return. *)
Theorem C105_results : forall yule_walker normaltest e_text w r first last threshold,
  snd (logged_gelman_rubin w r threshold) = gelman_rubin w r threshold /\
  snd (logged_geweke yule_walker normaltest e_text w r first last threshold) = geweke yule_walker normaltest w r first last threshold.
Proof. intros yw nt et w r first last th. split; apply over_same; [apply gr_same|apply gw_same]. Qed.
Print Assumptions C105_results.

(** Gelman-Rubin on one chain logs a heading with its name and then one line per parameter, in the order of the columns,
    with the ratio and the verdict.  The chain passes exactly if no line reports a failure. *)
Theorem C105_parameters : forall w q l c xs m n threshold log res, denotes w q l -> chain_at (fst w) l = Some c -> walker_data c (frame_at (fst w) (ch_samples c)) xs m n -> (2 <= m)%nat ->
  logged_gelman_rubin w (DOne q) threshold = (log, res) ->
  exists lines t, log = ("Gelman-Rubin Statistic values for chain " ++ ch_name c)%string :: lines /\ res = Ok t /\ length lines = length xs /\
    (forall i p x, nth_error (data_columns c (frame_at (fst w) (ch_samples c))) i = Some p -> nth_error xs i = Some x -> exists line, nth_error lines i = Some line /\ parameter_line m n threshold p x line) /\
    (t_passed t = true <-> Forall (fun line => ~ says_failed line) lines).
Proof.
  intros w q l c xs m n th log res HD HC D M2 H. unfold logged_gelman_rubin in H. rewrite (run_denotes _ _ _ _ HD) in H. unfold run_logged in H. rewrite HC in H.
  rewrite (one_log _ _ xs m n th D M2) in H. cbn [fst snd] in H. injection H as <- <-. do 2 eexists. split; [reflexivity|]. split; [reflexivity|]. cbn [t_passed].
  apply lines_spec; [exact (Forall2_len _ _ _ (wk_cols _ _ _ _ _ D))|exact (wk_lens _ _ _ _ _ D)|exact M2].
Qed.
Print Assumptions C105_parameters.

(** Geweke logs one line per chain, with its name and the p-value of the scores that C42_windows describes; the chain
    passes exactly if that p-value is above the threshold. *)
Theorem C105_geweke : forall yule_walker normaltest e_text w q l c xs m n first last threshold a b log t, denotes w q l -> chain_at (fst w) l = Some c ->
  walker_data c (frame_at (fst w) (ch_samples c)) xs m n -> (0 <= first <= 1)%Q -> (0 <= last <= 1)%Q -> is_floor (first * nq n) a -> is_floor ((1 - last) * nq n) b ->
  logged_geweke yule_walker normaltest e_text w (DOne q) first last threshold = (log, Ok t) ->
  exists zs p, normaltest zs = Ok p /\ log = [("Gweke Statistic for chain " ++ ch_name c ++ " has p-value " ++ e_text p)%string] /\
    (t_passed t = true <-> exists v, p = Some v /\ (Q2R threshold < v)%R) /\ length zs = (m * length xs)%nat /\
    forall k j x, (k < m)%nat -> nth_error xs j = Some x -> exists z, nth_error zs (k * length xs + j) = Some z /\ geweke_score yule_walker (window x n k 0 a) (window x n k b n) z.
Proof.
  intros yw nt et w q l c xs m n first last th a b log t HD HC D HF HL FA FB H. unfold logged_geweke in H. rewrite (run_denotes _ _ _ _ HD) in H. unfold run_logged in H. rewrite HC in H.
  destruct (gw_log _ _ _ _ _ _ _ _ _ _ H) as [zs [p [N1 [N2 [N3 N4]]]]]. exists zs, p. split; [exact N1|]. split; [exact N2|]. split; [exact N3|].
  destruct (N4 (fun z => if list_eq_dec Req_EM_T z zs then Ok p else Err ValueError)) as [t' G]; [destruct (list_eq_dec Req_EM_T zs zs); [reflexivity|contradiction]|].
  destruct (geweke_one_ok yw _ first last th c _ xs m n t' a b D HF HL FA FB G) as [zs' [p' [P1 [P2 [P3 P4]]]]]. destruct (list_eq_dec Req_EM_T zs' zs) as [->|]; [|discriminate P1]. auto.
Qed.
Print Assumptions C105_geweke.

(** Several chains log in turn what each of them logs alone; a chain that cannot be tested ends the call, logs nothing
    itself, and what the chains before it logged stays. *)
Theorem C105_in_turn : forall yule_walker normaltest e_text w r ls first last threshold, asked_for w r ls ->
  in_turn (fun l => logged_gelman_rubin w (DOne (DObject l)) threshold) ls (logged_gelman_rubin w r threshold) /\
  in_turn (fun l => logged_geweke yule_walker normaltest e_text w (DOne (DObject l)) first last threshold) ls (logged_geweke yule_walker normaltest e_text w r first last threshold).
Proof. intros yw nt et w r ls first last th HA. split; apply over_turn; try exact HA; [apply gr_quiet|apply gw_quiet]. Qed.
Print Assumptions C105_in_turn.
(** A request that names an unknown chain logs nothing. *)
Theorem C105_unknown : forall yule_walker normaltest e_text w r first last threshold, (forall ls, ~ asked_for w r ls) ->
  fst (logged_gelman_rubin w r threshold) = [] /\ fst (logged_geweke yule_walker normaltest e_text w r first last threshold) = [].
Proof.
  intros yw nt et w r first last th N. assert (E : exists e, diag_chains w r = Err e). { destruct (diag_chains w r) as [ls|e] eqn:E; [|exists e; reflexivity]. apply diag_chains_spec in E. exfalso. exact (N ls E). }
  destruct E as [e E]. unfold logged_gelman_rubin, logged_geweke, logged_over, lbind, silent. cbn [fst snd]. rewrite E. split; reflexivity.
Qed.
Print Assumptions C105_unknown.

(** Chain "A" of [ex40] fails at 0.15, the other chain of that name passes. *)
Lemma ex105_single l b : (l < 3)%nat -> ch_name (ex40_chain l) = "A" -> data_columns (ex40_chain l) (frame_at (fst ex40) (ch_samples (ex40_chain l))) = ["x"] ->
  (exists t, gelman_rubin ex40 (DOne (DObject l)) (3 # 20) = Ok t /\ t_passed t = b /\ t_results t = [("A", t_passed t)]) ->
  exists text, fst (logged_gelman_rubin ex40 (DOne (DObject l)) (3 # 20)) = ["Gelman-Rubin Statistic values for chain A"; ("x: " ++ text ++ (if b then " (Passed)" else " (Failed)"))%string].
Proof.
  intros L EN ED [t [T1 [T2 _]]]. pose proof (proj1 (C105_results (fun _ _ => ([], 0%R)) (fun _ => Err ValueError) (fun _ => "") ex40 (DOne (DObject l)) 0 0 (3 # 20))) as S0. rewrite T1 in S0.
  unfold logged_gelman_rubin in *. rewrite run_single in *. unfold run_logged in *. rewrite (ex40_found l L) in *. rewrite (one_log _ _ _ 2 2 _ (ex40_data l L) (le_n 2)) in *. cbn [fst snd map combine forallb] in *. injection S0 as S0. rewrite <- S0 in T2. cbn [t_passed] in T2. rewrite andb_true_r in T2.
  rewrite ED, EN, T2. cbn [map combine fst snd]. eexists. destruct b; reflexivity.
Qed.
Example C105_nonvacuous : reachable ex_rgb ex40 /\ asked_for ex40 (DList [DName "A"; DObject 2]) [0; 2]%nat /\
  exists t1 t2, fst (logged_gelman_rubin ex40 (DList [DName "A"; DObject 2]) (3 # 20)) =
    ["Gelman-Rubin Statistic values for chain A"; ("x: " ++ t1 ++ " (Failed)")%string; "Gelman-Rubin Statistic values for chain A"; ("x: " ++ t2 ++ " (Passed)")%string].
Proof.
  split; [exact ex40_reachable|]. assert (HA : asked_for ex40 (DList [DName "A"; DObject 2]) [0; 2]%nat) by (repeat constructor). split; [exact HA|].
  destruct (ex105_single 0 false ltac:(lia) eq_refl eq_refl (proj1 ex40_verdicts)) as [t1 E1]. destruct (ex105_single 2 true ltac:(lia) eq_refl eq_refl (proj2 ex40_verdicts)) as [t2 E2]. exists t1, t2.
  pose proof (proj1 (C105_in_turn (fun _ _ => ([], 0%R)) (fun _ => Err ValueError) (fun _ => "") ex40 _ _ 0 0 (3 # 20) HA)) as T. unfold in_turn in T.
  destruct (snd (logged_gelman_rubin ex40 (DList [DName "A"; DObject 2]) (3 # 20))) as [t|e].
  - destruct T as [_ [_ T]]. rewrite T. cbn [map concat]. rewrite E1, E2. reflexivity.
  - exfalso. destruct T as [[T _]|[before [l [after [T1 [_ [T2 _]]]]]]]; [discriminate T|]. assert (K : l = 0%nat \/ l = 2%nat).
    { destruct before as [|x [|y before]]; cbn in T1; [injection T1 as <- _; left; reflexivity|injection T1 as _ <- _; right; reflexivity|]. injection T1 as _ _ T1. destruct before; discriminate T1. }
    destruct K as [-> | ->]; rewrite T2 in *; [discriminate E1|discriminate E2].
Qed.
(** ... and a Geweke test that logs a line. *)
Example C105_geweke_nonvacuous : is_floor ((1 # 2) * nq 2) 1 /\ is_floor ((1 - (1 # 2)) * nq 2) 1 /\
  exists log t, logged_geweke (fun _ _ => ([], 1%R)) (fun zs => Ok (Some 1%R)) (fun _ => "1.000000e+00") ex40 (DOne (DName "A")) (1 # 2) (1 # 2) (1 # 20) = (log, Ok t) /\ log = ["Gweke Statistic for chain A has p-value 1.000000e+00"].
Proof.
  destruct C42_nonvacuous as [F1 [F2 [_ [[t G] _]]]]. split; [exact F1|]. split; [exact F2|].
  pose proof (proj2 (C105_results (fun _ _ => ([], 1%R)) (fun zs => Ok (Some 1%R)) (fun _ => "1.000000e+00") ex40 (DOne (DName "A")) (1 # 2) (1 # 2) (1 # 20))) as S0. rewrite G in S0.
  destruct (logged_geweke (fun _ _ => ([], 1%R)) (fun zs => Ok (Some 1%R)) (fun _ => "1.000000e+00") ex40 (DOne (DName "A")) (1 # 2) (1 # 2) (1 # 20)) as [log r] eqn:EL. cbn [snd] in S0. subst r.
  exists log, t. split; [reflexivity|].
  destruct (C105_geweke _ _ _ ex40 (DName "A") 0 (ex40_chain 0) _ 2 2 (1 # 2) (1 # 2) (1 # 20) 1 1 log t eq_refl (ex40_found 0 ltac:(lia)) (ex40_data 0 ltac:(lia)) ltac:(split; vm_compute; congruence) ltac:(split; vm_compute; congruence) F1 F2 EL) as [zs [p [_ [-> _]]]]. reflexivity.
Qed.
