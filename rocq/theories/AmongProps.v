(** C116: what is reported of a parameter does not depend on the other parameters asked for. *)
From Coq Require Import Ascii String List Bool Arith ZArith QArith Reals Lia.
From Verif Require Import Py NumModel FrameModel ConfigModel ChainModel RegistryModel TextModel FormatModel FormatSpec FormatProofs AnalysisModel AnalysisSpec CovModel CovSpec CovProps AnalysisProps TextEquivProofs MarginalModel AnalysisProofs ConsumerProofs AmongSpec AmongProofs.
Import ListNotations.
Open Scope string_scope.
Open Scope list_scope.

(** Summaries of the same chains for two lists of parameters say the same (or nothing) about every chain and every parameter in both lists. *)
Theorem C116_summary : forall num w req cols cols' d d' n p, In p cols -> In p cols' ->
  snd (get_summary num w req (Some cols)) = Ok d -> snd (get_summary num w req (Some cols')) = Ok d' -> reported d' n p = reported d n p.
Proof. exact summary_same. Qed.
Print Assumptions C116_summary.
(** What the summary of all parameters says is also said if the parameter is asked for by name. *)
Theorem C116_summary_all : forall num w req cols d d' n p e, In p cols ->
  snd (get_summary num w req None) = Ok d -> snd (get_summary num w req (Some cols)) = Ok d' -> reported d n p = Some e -> reported d' n p = Some e.
Proof. exact summary_default. Qed.
Print Assumptions C116_summary_all.
(** Two covariance matrices of a chain agree on every pair of parameters in both, one of them may be that of all parameters. *)
Theorem C116_covariance : forall c f columns columns' m m' p q v v',
  get_covariance c f columns = Ok m -> get_covariance c f columns' = Ok m' -> at_names m p q v -> at_names m' p q v' -> v' = v.
Proof. exact cov_same. Qed.
Print Assumptions C116_covariance.
Theorem C116_correlation : forall c f columns columns' m m' p q v v',
  get_correlation c f columns = Ok m -> get_correlation c f columns' = Ok m' -> at_names m p q v -> at_names m' p q v' -> v' = v.
Proof. exact corr_same. Qed.
Print Assumptions C116_correlation.
(** Tables: there is one text for each chain and parameter, the same for all tables, whatever the parameters and whichever way they are written. *)
Theorem C116_table : forall num repr arepr w labels blind req caption label hlines blank, (forall s, caption = Some s \/ label = Some s -> ~ contains "%"%char s) ->
  exists head names cell lab, (forall p, shown_label labels p (lab p)) /\
  forall cols shown text, kept (fun p => ~ hidden blind p) cols shown ->
    (snd (get_latex_table num repr arepr w labels blind (Some cols) req true caption label hlines blank) = Ok text ->
     text = latex_table (dflt "" caption) (dflt "" label) (centred (S (length head)))
       (table_body hlines ("Parameter" :: head) (map (fun p => lab p :: map (fun n => cell n p) names) shown))) /\
    (snd (get_latex_table num repr arepr w labels blind (Some cols) req false caption label hlines blank) = Ok text ->
     text = latex_table (dflt "" caption) (dflt "" label) (centred (S (length shown)))
       (table_body hlines ("Model" :: map lab shown) (map (fun n => n :: map (cell n) shown) names))).
Proof.
  intros num repr arepr w labels blind req caption label hlines blank HP.
  assert (HC : ~ contains percent (dflt "" caption)) by (destruct caption; [apply HP; auto|apply contains_nil]).
  assert (HL : ~ contains percent (dflt "" label)) by (destruct label; [apply HP; auto|apply contains_nil]).
  destruct (contents w req false) as [chains|e] eqn:E.
  2:{ exists [], [], (fun _ _ => ""), (get_label labels). split; [apply label_shown|]. intros cols shown text _. rewrite !table_contents, E. split; discriminate. }
  destruct (table_uniform num repr arepr labels blind caption label hlines blank chains HC HL) as [names [cell U]]. exists (map name_of chains), names, cell, (get_label labels). split; [apply label_shown|]. intros cols shown text K.
  rewrite !table_contents, E. cbn [rbind]. rewrite map_length. apply (U cols text shown). exact (kept_same _ _ _ _ K (hidden_filter blind cols)).
Qed.
Print Assumptions C116_table.

(** The two chains of C34: x alone, and x among others. *)
Example C116_nonvacuous :
  match snd (get_summary ex34_num ex34 (ReqList (map ByChain [0; 1]%nat)) (Some ["x"])), snd (get_summary ex34_num ex34 (ReqList (map ByChain [0; 1]%nat)) (Some ["z"; "x"; "q"])) with
  | Ok d, Ok d' => reported d' "B" "x" = reported d "B" "x" /\ reported d "A" "x" <> reported d "B" "x" /\ reported d "B" "x" <> None /\ reported d "B" "z" = None /\ reported d' "B" "z" <> None
  | _, _ => False
  end.
Proof. vm_compute. repeat split; intros H; discriminate H. Qed.
(** The variance of x alone is a number, with y it is an entry of a matrix. *)
Example C116_covariance_nonvacuous :
  match get_covariance ex15_chain ex15_frame (Some ["x"]), get_covariance ex15_chain ex15_frame (Some ["y"; "x"]) with
  | Ok m, Ok m' => exists v, at_names m "x" "x" v /\ at_names m' "x" "x" v /\ ~ at_names m' "y" "y" v
  | _, _ => False
  end.
Proof.
  vm_compute. eexists. split; [exists 0%nat, 0%nat; eexists; repeat split|]. split; [exists 1%nat, 1%nat; eexists; repeat split|].
  intros [i [j [row [A [B [C D]]]]]]. destruct i as [|[|[|i]]]; cbn in A; try discriminate A. destruct j as [|[|[|j]]]; cbn in B; try discriminate B. cbn in C. injection C as <-. cbn in D. discriminate D.
Qed.
(** Both tables of C34 are of this form: the cells of x do not know that y is hidden in one of them. *)
Example C116_table_nonvacuous :
  snd (get_latex_table ex34_num ex_quote ex_quote ex34 [] BlindNone (Some ["x"]) ReqAll true None None false "--") =
    Ok (latex_table "" "" "ccc" (table_body false ["Parameter"; "A"; "B"] [["x"; "$0.0^{+1.0}_{-0.0}$"; "$3.0^{+1.0}_{-0.0}$"]])) /\
  snd (get_latex_table ex34_num ex_quote ex_quote ex34 [] BlindNone (Some ["y"; "x"]) ReqAll false None None false "--") =
    Ok (latex_table "" "" "ccc" (table_body false ["Model"; "y"; "x"] [["A"; "$2.0^{+2.0}_{-0.0}$"; "$0.0^{+1.0}_{-0.0}$"]; ["B"; "--"; "$3.0^{+1.0}_{-0.0}$"]])).
Proof. split; vm_compute; reflexivity. Qed.
