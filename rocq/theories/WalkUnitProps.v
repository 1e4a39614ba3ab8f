(** C117: walks follow a change of units. *)
From Coq Require Import String List Bool Arith ZArith QArith Reals Lia.
From Verif Require Import Py NumModel FrameModel ConfigModel ChainModel RegistryModel RegistrySpec RegistryProofs RegistryProps TextModel AnalysisModel AnalysisSpec AnalysisProofs AnalysisProps SurfaceModel FigureModel FigureSpec FigureProofs WalkProofs FigureCases EquivSpec ColumnsSpec ColumnsProofs WalkUnitSpec WalkUnitProofs UnitFigProps.
From Verif Require FrameFacts EquivApi.
Import ListNotations.
Open Scope string_scope.
Open Scope list_scope.
Open Scope Q_scope.

(** Two sessions draw the walks of the same chains, in the second one the values of [p] are in other units, their configuration, truths and other parameters
    are free: every walk in the row of [p] and every smoothed line has its values in the other units and the same steps, thinned alike. *)
Theorem C117_walks : forall rgb2hex k a b p convolve s req columns file size pw pp lw t fig chains cols cfg s' req' columns' file' size' pw' pp' lw' t' fig' chains' cols' cfg' calls calls',
  reachable rgb2hex (s_world s) -> plots s req columns chains cols -> config_of s cfg -> plot_walks k s req columns file size convolve pw pp lw = (t, Ok fig) ->
  reachable rgb2hex (s_world s') -> plots s' req' columns' chains' cols' -> config_of s' cfg' -> plot_walks k s' req' columns' file' size' convolve pw' pp' lw' = (t', Ok fig') ->
  Forall2 (rows_in_units a b p) chains chains' -> walk_of cols fig p calls -> walk_of cols' fig' p calls' ->
  Forall2 (walk_in_units a b) (walks calls) (walks calls') /\ Forall2 (line_in_units a b) (smooths calls) (smooths calls').
Proof.
  intros rgb k a b p convolve s req columns file size pw pp lw t fig chains cols cfg s' req' columns' file' size' pw' pp' lw' t' fig' chains' cols' cfg' calls calls' RE P HC H RE' P' HC' H' F [n [N A]] [n' [N' A']].
  destruct (walks_parts _ _ _ _ _ _ _ _ _ _ _ _ _ _ _ H (reachable_ok _ _ RE) P HC) as [bs [<- [<- [_ [_ [_ W]]]]]]. destruct (walks_parts _ _ _ _ _ _ _ _ _ _ _ _ _ _ _ H' (reachable_ok _ _ RE') P' HC') as [bs' [<- [<- [_ [_ [_ W']]]]]].
  apply (walk_at _ _ _ _ _ _ _ _ _ _ _ _ _ _ _ W N) in A. apply (walk_at _ _ _ _ _ _ _ _ _ _ _ _ _ _ _ W' N') in A'. exact (unit_row a b _ _ _ _ _ _ _ _ _ _ _ F A A').
Qed.
Print Assumptions C117_walks.
(** Chains so related: the column replaced by its values in other units. *)
Theorem C117_converted : forall a b p c f f', converted a b p f f' -> In p (data_columns c f) -> rows_in_units a b p (c, f) (c, f').
Proof.
  intros a b p c f f' [x [x' [G [-> U]]]] I. assert (E : data_columns c (f_set f p x') = data_columns c f).
  { unfold data_columns. f_equal. unfold f_names, str_labels. destruct (EquivApi.set_shape f p x' x G) as [S _]. rewrite !flat_map_concat_map. f_equal. transitivity (map (fun n => match n with CStr s => [s] | CInt _ => [] end) (map fst (f_cols (f_set f p x')))); [rewrite map_map; reflexivity|rewrite S, map_map; reflexivity]. }
  split; [reflexivity|]. cbn [fst snd]. rewrite E. split; [reflexivity|]. intros _. exists x, x'. split; [exact G|]. split; [apply FrameFacts.f_get_set_same|exact U].
Qed.
Print Assumptions C117_converted.

(** ** Example: the chain of C114 in metres and in centimetres from another zero, in the same order, thinned to three steps and smoothed over all of them *)
Definition ex117_rows := [(5, 1); (105, 4); (205, 6); (305, 3); (405, 1)].
Definition ex117 (rows : list (Q * Q)) : session * res figure := plot_walks ex_backend (ex114_session rows) ReqAll (Some ["x"]) FileNone SizeNone (Some 3%Z) true true false.
Lemma ex117_figure rows : In rows [ex114_rows; ex117_rows] -> exists fig calls, snd (ex117 rows) = Ok fig /\ walk_of ["x"] fig "x" calls /\ length (walks calls) = 1%nat /\ map (@length _) (smooths calls) = [1%nat].
Proof. intros [<-|[<-|[]]]; (eexists _, _; split; [vm_compute; reflexivity|]; split; [exists 0%nat; split; [reflexivity|eexists; split; vm_compute; reflexivity]|split; vm_compute; reflexivity]). Qed.
Lemma ex117_plots rows : In rows [ex114_rows; ex117_rows] -> plots (ex114_session rows) ReqAll (Some ["x"]) (ex114_chains (ex114_session rows)) ["x"].
Proof.
  intros I. assert (S : exists fig, snd (plot_distributions ex_backend (ex114_session rows) ReqAll (Some ["x"]) FileNone 4 SizeNone) = Ok fig) by (destruct I as [<-|[<-|[]]]; eexists; vm_compute; reflexivity).
  destruct S as [fig S]. apply (ex114_plots _ _ S). destruct I as [<-|[<-|[]]]; vm_compute; reflexivity.
Qed.
Lemma ex117_units : Forall2 (rows_in_units 100 5 "x") (ex114_chains (ex114_session ex114_rows)) (ex114_chains (ex114_session ex117_rows)).
Proof.
  vm_compute. constructor; [|constructor]. split; [reflexivity|]. split; [split; intros H; exact H|]. intros _. eexists _, _. split; [reflexivity|]. split; [reflexivity|]. repeat constructor.
Qed.
Example C117_nonvacuous : exists t fig t' fig' chains chains' calls calls', let s := ex114_session ex114_rows in let s' := ex114_session ex117_rows in
  reachable ex_rgb (s_world s) /\ plots s ReqAll (Some ["x"]) chains ["x"] /\ config_of s default_plot_config /\ plot_walks ex_backend s ReqAll (Some ["x"]) FileNone SizeNone (Some 3%Z) true true false = (t, Ok fig) /\
  reachable ex_rgb (s_world s') /\ plots s' ReqAll (Some ["x"]) chains' ["x"] /\ config_of s' default_plot_config /\ plot_walks ex_backend s' ReqAll (Some ["x"]) FileNone SizeNone (Some 3%Z) true true false = (t', Ok fig') /\
  Forall2 (rows_in_units 100 5 "x") chains chains' /\ walk_of ["x"] fig "x" calls /\ walk_of ["x"] fig' "x" calls' /\ length (walks calls) = 1%nat /\ map (@length _) (smooths calls) = [1%nat].
Proof.
  destruct (ex117_figure ex114_rows) as [fig [calls [S1 [W1 [L1 L2]]]]]; [left; reflexivity|]. destruct (ex117_figure ex117_rows) as [fig' [calls' [S2 [W2 _]]]]; [right; left; reflexivity|].
  exists (fst (ex117 ex114_rows)), fig, (fst (ex117 ex117_rows)), fig', (ex114_chains (ex114_session ex114_rows)), (ex114_chains (ex114_session ex117_rows)), calls, calls'. cbv zeta.
  split; [apply ex114_reachable|]. split; [apply ex117_plots; left; reflexivity|]. split; [reflexivity|]. split; [rewrite <- S1; apply surjective_pairing|].
  split; [apply ex114_reachable|]. split; [apply ex117_plots; right; left; reflexivity|]. split; [reflexivity|]. split; [rewrite <- S2; apply surjective_pairing|]. split; [exact ex117_units|]. repeat split; assumption.
Qed.
