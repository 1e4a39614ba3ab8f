(** C115: what is shown of a parameter does not depend on the other parameters asked for. *)
From Coq Require Import String List Bool Arith ZArith QArith Reals Lia.
From Verif Require Import Py NumSpec NumModel HelpersSpec ColorModel HelpersModel MarginalModel FrameModel ConfigModel ChainModel RegistryModel RegistrySpec RegistryProps ChainSpec TextModel AnalysisModel EquivSpec SurfaceModel SurfaceProofs FigureModel FigureSpec FigureProofs FigureCases ConsumerSpec CosmeticSpec CosmeticProofs CosmeticProps DistProps ColumnsSpec ColumnsProofs.
Import ListNotations.
Open Scope string_scope.
Open Scope list_scope.

(** Two figures of the same chains with different lists of parameters, of any lengths and in any order.
    Distributions: the panel of a parameter in both is the same, call by call. *)
Theorem C115_distributions : forall k s req cols cols' file file' wrap wrap' size size' t t' fig fig' p calls calls',
  plot_distributions k s req (Some cols) file wrap size = (t, Ok fig) -> plot_distributions k s req (Some cols') file' wrap' size' = (t', Ok fig') ->
  distribution_of wrap cols fig p calls -> distribution_of wrap' cols' fig' p calls' -> calls' = calls.
Proof.
  intros k s req cols cols' file file' wrap wrap' size size' t t' fig fig' p calls calls' H H' D D'. destruct (bases _ _ _ _ _ _ _ _ _ _ _ _ H H') as [b [b' [<- [<- [EC [B [K K']]]]]]].
  assert (I : forall w cc f c, distribution_of w cc f p c -> In p cc) by (intros w cc f c [? [n [? [? [_ [N _]]]]]]; apply nth_error_In in N; exact N).
  apply (distribution_at _ _ _ _ _ _ _ _ _ _ _ K) in D as E. apply (distribution_at _ _ _ _ _ _ _ _ _ _ _ K') in D' as E'. rewrite EC, (distribution_same _ _ _ _ _ _ _ _ (B p (I _ _ _ _ D) (I _ _ _ _ D'))) in E'. congruence.
Qed.
Print Assumptions C115_distributions.
(** Walks: the row of a parameter is the same, call by call. *)
Theorem C115_walks : forall k s req cols cols' file file' size size' convolve pw pw' pp pp' lw lw' t t' fig fig' p calls calls',
  plot_walks k s req (Some cols) file size convolve pw pp lw = (t, Ok fig) -> plot_walks k s req (Some cols') file' size' convolve pw' pp' lw' = (t', Ok fig') ->
  walk_of cols fig p calls -> walk_of cols' fig' p calls' -> calls' = calls.
Proof.
  intros k s req cols cols' file file' size size' convolve pw pw' pp pp' lw lw' t t' fig fig' p calls calls' H H' [n [N A]] [n' [N' A']]. destruct (bases _ _ _ _ _ _ _ _ _ _ _ _ H H') as [b [b' [<- [<- [EC [B [K K']]]]]]].
  apply (walk_at _ _ _ _ _ _ _ _ _ _ _ _ _ _ _ K N) in A. apply (walk_at _ _ _ _ _ _ _ _ _ _ _ _ _ _ _ K' N') in A'. rewrite (column_same _ _ _ _ _ _ _ (B p (nth_error_In _ _ N) (nth_error_In _ _ N'))) in A'. congruence.
Qed.
Print Assumptions C115_walks.
(** Summaries: the panel of a chain and a parameter is the same, with error bars call by call and with curves apart from
    the vertical range (which belongs to the neighbour, C55_refuted). *)
Theorem C115_summary : forall k s req cols cols' file file' size size' err sp sp' vr vr' t t' fig fig' i p calls calls',
  plot_summary k s req (Some cols) file size err sp vr = (t, Ok fig) -> plot_summary k s req (Some cols') file' size' err sp' vr' = (t', Ok fig') ->
  summary_of cols fig i p calls -> summary_of cols' fig' i p calls' -> unscaled calls' = unscaled calls /\ (err = true -> calls' = calls).
Proof.
  intros k s req cols cols' file file' size size' err sp sp' vr vr' t t' fig fig' i p calls calls' H H' [n [N A]] [n' [N' A']]. destruct (bases _ _ _ _ _ _ _ _ _ _ _ _ H H') as [b [b' [<- [<- [EC [B [K K']]]]]]].
  destruct (summary_at _ _ _ _ _ _ _ _ _ _ _ _ _ _ _ K N A) as [cf [col [o [X1 [X2 [X3 [X4 X5]]]]]]]. destruct (summary_at _ _ _ _ _ _ _ _ _ _ _ _ _ _ _ K' N' A') as [cf' [col' [o' [Y1 [Y2 [Y3 [Y4 Y5]]]]]]].
  rewrite EC in Y1. assert (cf' = cf) by congruence. subst cf'. assert (col' = col) by congruence. subst col'. rewrite (cell_same _ _ _ _ _ _ _ _ _ _ (B p (nth_error_In _ _ N) (nth_error_In _ _ N'))) in Y3. assert (o' = o) by congruence. subst o'.
  split; [congruence|]. intros E. rewrite (X5 E), (Y5 E). reflexivity.
Qed.
Print Assumptions C115_summary.
(** Triangles: the panel of two parameters shows the same data in the same ranges, wherever the panel is. *)
Theorem C115_pair : forall k s req cfg cols cols' file file' size size' t t' fig fig' p q calls calls', config_of s cfg ->
  plot k s req (Some cols) file size = (t, Ok fig) -> plot k s req (Some cols') file' size' = (t', Ok fig') ->
  pair_of (p_plot_hists cfg) cols fig p q calls -> pair_of (p_plot_hists cfg) cols' fig' p q calls' -> content calls' = content calls.
Proof.
  intros k s req cfg cols cols' file file' size size' t t' fig fig' p q calls calls' C H H' D D'. apply in_use in C. subst cfg. destruct (bases _ _ _ _ _ _ _ _ _ _ _ _ H H') as [b [b' [<- [<- [EC [B [K K']]]]]]].
  assert (I : forall h cc f c, pair_of h cc f p q c -> In p cc /\ In q cc) by (intros h cc f c [m [n [i [_ [_ [M [N _]]]]]]]; apply nth_error_In in M, N; auto).
  destruct (I _ _ _ _ D), (I _ _ _ _ D'). eapply pair_same; [apply B|apply B|exact K|exact K'|exact D|exact D']; assumption.
Qed.
Print Assumptions C115_pair.
(** ... and so does the panel of a single parameter, unless two parameters are drawn with the last one turned. *)
Theorem C115_alone : forall k s req cfg cols cols' file file' size size' t t' fig fig' p calls calls', config_of s cfg -> p_plot_hists cfg = true -> p_flip cfg = false ->
  plot k s req (Some cols) file size = (t, Ok fig) -> plot k s req (Some cols') file' size' = (t', Ok fig') ->
  alone_of cols fig p calls -> alone_of cols' fig' p calls' -> content calls' = content calls.
Proof.
  intros k s req cfg cols cols' file file' size size' t t' fig fig' p calls calls' C HH HF H H' D D'. apply in_use in C. subst cfg. destruct (bases _ _ _ _ _ _ _ _ _ _ _ _ H H') as [b [b' [<- [<- [EC [B [K K']]]]]]].
  assert (I : forall cc f c, alone_of cc f p c -> In p cc) by (intros cc f c [n [N _]]; apply nth_error_In in N; exact N).
  eapply alone_same; [exact HH|exact HF|apply B|exact K|exact K'|exact D|exact D']; eauto.
Qed.
Print Assumptions C115_alone.

(** Distributions of x, y, z, two to a row, and of y, x, one to a row: the panel of y is on axis (0, 1) and on axis (0, 0).
    Triangles of x, y and of x alone: the panel of x is on axis (0, 0), with other ticks and labels. *)
Definition ex115 (s : plot_config -> session) (d : drawing) : res figure := snd (draw_figure ex_backend (s (fig_cfg false true BlindNone ["x"])) d).
Example C115_nonvacuous :
  match ex115 only_a (DDistributions ReqAll (Some ["x"; "y"; "z"]) FileNone 2 SizeNone), ex115 only_a (DDistributions ReqAll (Some ["y"; "x"]) FileNone 1 SizeNone) with
  | Ok fig, Ok fig' => calls_of fig' 0 0 = calls_of fig 0 1 /\ calls_of fig 0 0 <> calls_of fig 0 1 /\ length (calls_of fig 0 1) = 9%nat
  | _, _ => False
  end.
Proof. vm_compute. repeat split. intros H. discriminate H. Qed.
Example C115_triangle_nonvacuous :
  match ex115 fig_pair (DTriangle ReqAll (Some ["x"; "y"]) FileNone FColumn), ex115 fig_pair (DTriangle ReqAll (Some ["x"]) FileNone FGrow) with
  | Ok fig, Ok fig' => calls_of fig' 0 0 <> calls_of fig 0 0 /\ content (calls_of fig' 0 0) = content (calls_of fig 0 0) /\ (1 <? length (content (calls_of fig 0 0)))%nat = true
  | _, _ => False
  end.
Proof. vm_compute. repeat split. intros H. discriminate H. Qed.
