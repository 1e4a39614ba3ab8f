(** C103: what is left out is announced. *)
From Coq Require Import String Ascii List Bool Arith ZArith QArith Reals Lia.
From Verif Require Import Py NumSpec NumModel NumFacts FrameModel FrameFacts ColorModel MarginalModel ConfigModel ChainModel RegistryModel RegistrySpec ChainSpec HeapFacts RegistryProofs ChainProofs
  ChainUseProofs RegistryProps ChainProps SessionProofs CovModel FormatModel CompareModel CompareSpec CompareProofs CompareProps WarnModel WarnSpec WarnProofs.
Import ListNotations.
Open Scope string_scope.
Open Scope list_scope.

(** The functions that log are the functions of the other theorems. *)
Theorem C103_results : forall nearest w req, snd (logged_aic w) = aic w /\ snd (logged_bic w) = bic w /\ snd (logged_dic nearest w) = dic nearest w /\ snd (logged_max_posteriors w req) = get_max_posteriors w req.
Proof.
  intros nearest w req. split; [apply logged_scores_result|]. split; [apply logged_scores_result|]. split; [apply logged_scores_result|]. unfold logged_max_posteriors, get_max_posteriors. destruct (max_posterior_request w req); [apply posteriors_loop_result|reflexivity].
Qed.
Print Assumptions C103_results.
(** For every chain left out of the AIC one warning, naming the chain and exactly what it lacks; no other. *)
Theorem C103_aic : forall rgb2hex w ws d, session rgb2hex false w -> logged_aic w = (ws, Ok d) -> one_each w (fun n => ~ In n (map fst d)) (asks_for "AIC") ws.
Proof.
  intros rgb w ws d S H. apply (logged_one_each _ _ _ _ _ _ (session_ok _ _ _ S) H). intros n c f R NM RN. destruct (registered_sound _ _ _ _ _ _ S R) as [SO _].
  destruct (missing_names c f SO (aic_none c f SO RN)) as [l [L1 [L2 L3]]]. exists l. split; [exact L1|]. split; [exact L2|]. unfold aic_warning. rewrite L3, NM. reflexivity.
Qed.
Print Assumptions C103_aic.
Theorem C103_bic : forall rgb2hex w ws d, session rgb2hex false w -> logged_bic w = (ws, Ok d) -> one_each w (fun n => ~ In n (map fst d)) (asks_for "BIC") ws.
Proof.
  intros rgb w ws d S H. apply (logged_one_each _ _ _ _ _ _ (session_ok _ _ _ S) H). intros n c f R NM RN. destruct (registered_sound _ _ _ _ _ _ S R) as [SO _].
  destruct (missing_names c f SO (bic_none c f SO RN)) as [l [L1 [L2 L3]]]. exists l. split; [exact L1|]. split; [exact L2|]. unfold bic_warning. rewrite L3. reflexivity.
Qed.
Print Assumptions C103_bic.
Theorem C103_dic : forall rgb2hex nearest w ws d, session rgb2hex false w -> logged_dic nearest w = (ws, Ok d) -> one_each w (fun n => ~ In n (map fst d)) asks_for_posterior ws.
Proof.
  intros rgb nearest w ws d S H. apply (logged_one_each _ _ _ _ _ _ (session_ok _ _ _ S) H). intros n c f R NM RN. destruct (registered_sound _ _ _ _ _ _ S R) as [SO _].
  split; [exact (dic_none _ _ _ SO RN)|]. unfold dic_warning. rewrite NM. reflexivity.
Qed.
Print Assumptions C103_dic.
(** The table logs what the criteria in it log, in the order of its columns. *)
Theorem C103_table : forall repr arepr nearest argsort w caption label hlines use_aic use_bic use_dic sort descending text,
  comparison_table repr arepr nearest argsort w caption label hlines use_aic use_bic use_dic sort descending = Ok text ->
  table_log nearest w use_aic use_bic use_dic sort = (if use_aic then fst (logged_aic w) else []) ++ (if use_bic then fst (logged_bic w) else []) ++ (if use_dic then fst (logged_dic nearest w) else []).
Proof.
  intros repr arepr nearest argsort w caption label hlines ua ub ud sort desc text H. unfold comparison_table in H. unfold table_log. destruct (C103_results nearest w None) as [RA [RB [RD _]]].
  destruct (String.eqb sort "bic" && negb ub); [discriminate|]. destruct (String.eqb sort "aic" && negb ua); [discriminate|]. destruct (String.eqb sort "dic" && negb ud); [discriminate|]. destruct (negb (smem sort _)); [discriminate|]. cbv zeta in H.
  destruct (col ua "aic" (aic w)) as [sa|] eqn:EA; [|discriminate]. cbn [rbind] in H. destruct (col ub "bic" (bic w)) as [sb|] eqn:EB; [|discriminate]. cbn [rbind] in H. destruct (col ud "dic" (dic nearest w)) as [sd|] eqn:ED; [|discriminate]. clear H.
  unfold col in EA, EB, ED. rewrite <- RA in EA. rewrite <- RB in EB. rewrite <- RD in ED. destruct (logged_aic w) as [wa ra], (logged_bic w) as [wb rb], (logged_dic nearest w) as [wd rd]. cbn [fst snd] in *. cbn [log_until].
  destruct ua, ub, ud; try destruct ra; try discriminate; try destruct rb; try discriminate; try destruct rd; try discriminate; cbn [app]; rewrite ?app_nil_r; reflexivity.
Qed.
Print Assumptions C103_table.
(** Also where no table comes back: what the criteria logged up to and including the one that raised stays logged; nothing
    is logged if the criterion to sort by is unknown or not in the table. *)
Theorem C103_table_raises : forall nearest w use_aic use_bic use_dic sort, let log := table_log nearest w use_aic use_bic use_dic sort in
  let wa := if use_aic then fst (logged_aic w) else [] in let wb := if use_bic then fst (logged_bic w) else [] in let wd := if use_dic then fst (logged_dic nearest w) else [] in
  ((sort <> "bic" /\ sort <> "aic" /\ sort <> "dic") \/ (sort = "bic" /\ use_bic = false) \/ (sort = "aic" /\ use_aic = false) \/ (sort = "dic" /\ use_dic = false) -> log = []) /\
  ((sort = "bic" /\ use_bic = true) \/ (sort = "aic" /\ use_aic = true) \/ (sort = "dic" /\ use_dic = true) ->
    (use_aic = true -> forall e, aic w = Err e -> log = wa) /\
    ((use_aic = true -> exists d, aic w = Ok d) -> use_bic = true -> forall e, bic w = Err e -> log = wa ++ wb) /\
    ((use_aic = true -> exists d, aic w = Ok d) -> (use_bic = true -> exists d, bic w = Ok d) -> log = wa ++ wb ++ wd)).
Proof.
  intros nearest w ua ub ud sort. cbv zeta. destruct (C103_results nearest w None) as [RA [RB [RD _]]]. unfold table_log. split.
  - intros [[N1 [N2 N3]]|[[-> ->]|[[-> ->]|[-> ->]]]]; [|reflexivity|reflexivity|reflexivity]. apply String.eqb_neq in N1, N2, N3. rewrite N1, N2, N3. cbn [andb]. unfold smem. cbn [existsb]. rewrite N1, N2, N3. reflexivity.
  - intros G. assert (E : (if String.eqb sort "bic" && negb ub then [] else if String.eqb sort "aic" && negb ua then [] else if String.eqb sort "dic" && negb ud then [] else if negb (smem sort ["bic"; "aic"; "dic"]) then []
      else log_until [(ua, logged_aic w); (ub, logged_bic w); (ud, logged_dic nearest w)]) = log_until [(ua, logged_aic w); (ub, logged_bic w); (ud, logged_dic nearest w)]) by (destruct G as [[-> ->]|[[-> ->]|[-> ->]]]; reflexivity).
    rewrite E. clear E G. rewrite <- RA, <- RB. destruct (logged_aic w) as [wa ra], (logged_bic w) as [wb rb], (logged_dic nearest w) as [wd rd]. cbn [fst snd log_until]. split; [|split].
    + intros -> e ->. reflexivity.
    + intros A -> e ->. destruct ua; [|reflexivity]. destruct (A eq_refl) as [d ->]. reflexivity.
    + intros A B. assert (L : (if ud then match rd with Ok _ => wd ++ [] | Err _ => wd end else []) = (if ud then wd else [])) by (destruct ud, rd; rewrite ?app_nil_r; reflexivity).
      destruct ua; [destruct (A eq_refl) as [d ->]|]; (destruct ub; [destruct (B eq_refl) as [d' ->]|]); cbn [app]; rewrite <- L; destruct ud; try destruct rd; reflexivity.
Qed.
Print Assumptions C103_table_raises.
(** get_max_posteriors warns once for every chain it leaves out.  Missing: the text does not say which chain
    (C103_unnamed_refuted). *)
Theorem C103_posteriors_partial : forall rgb2hex w req ws ps, reachable rgb2hex w -> logged_max_posteriors w req = (ws, Ok ps) ->
  exists u, first_seen (asked w req) u /\ sublist (dkeys ps) u /\ length u = (length (dkeys ps) + length ws)%nat /\ Forall (eq "No posterior column found, cannot find max posterior") ws.
Proof.
  intros rgb w req ws ps R H. destruct (reachable_ok _ _ R) as [ND _]. destruct (C103_results (fun _ _ => 0%nat) w req) as [_ [_ [_ RM]]]. rewrite H in RM. cbn [snd] in RM. symmetry in RM.
  unfold logged_max_posteriors in H. unfold get_max_posteriors in RM. destruct (max_posterior_request w req) as [d|] eqn:ER; [|discriminate]. cbn [rbind] in RM.
  destruct (request_keys _ _ _ ND ER) as [FS NDd]. exists (dkeys d). split; [exact FS|]. split; [exact (proj1 (max_loop_spec _ _ _ RM NDd))|]. destruct (posteriors_loop_count _ _ _ _ H) as [L F]. split; [|exact F]. unfold dkeys. rewrite !map_length. exact L.
Qed.
Print Assumptions C103_posteriors_partial.

(** ** Examples and failures *)
(** C has no posterior; D neither data points nor free parameters. *)
Lemma ok_pair {A} (l : logged A) ws r : fst l = ws -> snd l = Ok r -> l = (ws, Ok r).
Proof. destruct l; cbn. intros -> ->. reflexivity. Qed.
Example C103_nonvacuous : session ex_rgb false ex37 /\ get_names ex37 = ["A"; "B"; "C"; "D"] /\
  (exists d, logged_aic ex37 = (["You need to set posterior for chain C to get the AIC"; "You need to set num_eff_data_points, num_free_params for chain D to get the AIC"], Ok d)) /\
  (exists d, logged_bic ex37 = (["You need to set posterior for chain C to get the BIC"; "You need to set num_eff_data_points, num_free_params for chain D to get the BIC"], Ok d)) /\
  (exists d, logged_dic ex_nearest ex37 = (["You need to set the posterior for chain C to get the DIC"], Ok d)) /\
  (exists ps, logged_max_posteriors ex37 None = (["No posterior column found, cannot find max posterior"], Ok ps) /\ dkeys ps = ["A"; "B"; "D"]).
Proof.
  split; [apply ex37_session|]. split; [vm_compute; reflexivity|]. destruct C38_nonvacuous as [da [db [dd [A [B [D _]]]]]]. destruct (C103_results ex_nearest ex37 None) as [RA [RB [RD _]]]. rewrite A in RA. rewrite B in RB. rewrite D in RD.
  split; [exists da; apply ok_pair; [vm_compute; reflexivity|exact RA]|]. split; [exists db; apply ok_pair; [vm_compute; reflexivity|exact RB]|]. split; [exists dd; apply ok_pair; [vm_compute; reflexivity|exact RD]|].
  eexists. split; vm_compute; reflexivity.
Qed.
(** Two sessions with chains A and B: in one A has no posterior, in the other B; the warnings are the same. *)
Definition ex103 (a b : nat) : world := fst (run ex_rgb (ex37_heap, new_consumer) [OpNewChain (ex37_args "A" a None None); OpNewChain (ex37_args "B" b None None); OpAdd 0; OpAdd 1]).
Theorem C103_unnamed_refuted : exists rgb2hex w w' req ws ps ps', reachable rgb2hex w /\ reachable rgb2hex w' /\ get_names w = get_names w' /\ logged_max_posteriors w req = (ws, Ok ps) /\ logged_max_posteriors w' req = (ws, Ok ps') /\
  ws <> [] /\ dkeys ps = ["A"] /\ dkeys ps' = ["B"].
Proof.
  eexists ex_rgb, (ex103 0 1), (ex103 1 0), None, _, _, _. split; [eexists ex37_heap, _; eexists; apply surjective_pairing|]. split; [eexists ex37_heap, _; eexists; apply surjective_pairing|]. split; [vm_compute; reflexivity|].
  split; [vm_compute; reflexivity|]. split; [vm_compute; reflexivity|]. split; [discriminate|]. split; reflexivity.
Qed.
Print Assumptions C103_unnamed_refuted.
(** The first chain has no posterior, the AIC of the second divides by zero: the warning about the first stays. *)
Definition ex103_zero : world := fst (run ex_rgb (ex37_heap, new_consumer) [OpNewChain (ex37_args "C" 1 (Some 3%Z) (Some (Fin 20))); OpNewChain (ex37_args "Z" 0 (Some 2%Z) (Some (Fin 3))); OpAdd 0; OpAdd 1]).
Example C103_raises_nonvacuous : aic ex103_zero = Err ZeroDivisionError /\ table_log ex_nearest ex103_zero true true true "aic" = ["You need to set posterior for chain C to get the AIC"] /\ table_log ex_nearest ex103_zero true true true "waic" = [].
Proof. repeat split; vm_compute; reflexivity. Qed.
