(** C110: the smoothed lines of the walk figure for windows of any size. *)
From Coq Require Import String List Bool Arith ZArith QArith Reals Lia Lqa.
From Verif Require Import Py NumSpec NumModel NumFacts HelpersSpec ColorModel HelpersModel MarginalModel FrameModel ConfigModel ChainModel RegistryModel RegistrySpec RegistryProofs RegistryProps ChainSpec ChainProofs ChainUseProofs DiagProofs
  TextModel AnalysisModel AnalysisSpec AnalysisProofs SurfaceModel PanelSpec SurfaceProofs PanelProofs FigureModel FigureSpec FigureProofs BarProofs TriangleProofs WalkProofs FigureCases WalkProps.
Import ListNotations.
Open Scope string_scope.
Open Scope list_scope.

(** Every walk of a row has one line, which is what [smoothed_walk] gives. *)
Lemma row_lines rgb2hex k s req columns file size w pw pp lw s' fig chains cols cfg :
  reachable rgb2hex (s_world s) -> plots s req columns chains cols -> config_of s cfg -> (0 < bk_max_points k)%nat ->
  plot_walks k s req columns file size (Some w) pw pp lw = (s', Ok fig) ->
  forall i calls, axis fig i 0 calls -> Forall2 (fun wk pts => smoothed_walk w (fst wk) = Ok pts) (walks calls) (smooths calls).
Proof.
  intros RE P HC HM H i calls HA. destruct (walks_parts _ _ _ _ _ _ _ _ _ _ _ _ _ _ _ H (reachable_ok _ _ RE) P HC) as [b [<- [<- [B1 [B2 [B3 HW]]]]]].
  destruct (walks_figure_ok _ _ _ _ _ _ _ _ _ _ _ HM HW) as [FA [[rows HL] _]]. destruct (FA _ HL) as [F2 _]. clear FA.
  destruct (walk_axis _ _ _ F2) as [[G1 _] [AX _]]. assert (HK : exists kind, nth_error rows i = Some kind). { destruct HA as [row [HA _]]. destruct (nth_error rows i) eqn:E; [eauto|]. apply nth_error_None in E. rewrite <- G1 in E. apply nth_error_None in E. congruence. }
  destruct HK as [kind HK]. destruct (row_facts _ _ _ _ _ _ _ _ (AX i 0%nat _ _ HK HA)) as [_ [_ [_ [S2 _]]]]. exact (S2 _ eq_refl).
Qed.
Lemma sum_between lo hi l : (forall y, In y l -> (lo <= y <= hi)%Q) -> (nq (length l) * lo <= qsum l <= nq (length l) * hi)%Q.
Proof.
  induction l as [|y l IH]; intros H; [cbn [length qsum]; change (nq 0) with 0%Q; lra|]. cbn [length qsum]. assert (E : (nq (S (length l)) == 1 + nq (length l))%Q) by (unfold nq; rewrite Nat2Z.inj_succ, <- Z.add_1_l, inject_Z_plus; reflexivity).
  rewrite E. destruct (H y (or_introl eq_refl)). destruct IH as [I1 I2]; [intros z Hz; apply H; right; exact Hz|]. split; lra.
Qed.

(** The smoothed line stays between any bounds of the walk's values. *)
Theorem C110_range : forall rgb2hex k s req columns file size w pw pp lw s' fig chains cols cfg,
  reachable rgb2hex (s_world s) -> plots s req columns chains cols -> config_of s cfg -> (0 < bk_max_points k)%nat ->
  plot_walks k s req columns file size (Some w) pw pp lw = (s', Ok fig) ->
  forall i calls, axis fig i 0 calls ->
    Forall2 (fun walk pts => forall lo hi, (forall y, In y (fst walk) -> (lo <= y <= hi)%Q) -> forall x v, In (x, v) pts -> (lo <= v <= hi)%Q) (walks calls) (smooths calls).
Proof.
  intros rgb k s req columns file size w pw pp lw s' fig chains cols cfg RE P HC HM H i calls HA. pose proof (row_lines _ _ _ _ _ _ _ _ _ _ _ _ _ _ _ _ RE P HC HM H i calls HA) as F. clear -F.
  induction F as [|[ys col] pts wk sm H1 _ IH]; constructor; [|exact IH]. cbn [fst] in *. intros lo hi B x v HI.
  destruct (Z.leb_spec w 0) as [W0|W0]; [unfold smoothed_walk in H1; destruct (Z.leb_spec w 0); [discriminate H1|lia]|].
  assert (EW : w = Z.of_nat (Z.to_nat w)) by (rewrite Z2Nat.id; lia). set (m := Z.to_nat w) in *. clearbody m. subst w.
  destruct (Nat.le_gt_cases 2 m) as [M2|M1].
  - destruct (Nat.le_gt_cases m (length ys)) as [ML|ML].
    + destruct (smoothed_walk_ok _ _ _ H1 M2 ML) as [_ S]. apply In_nth_error in HI as [j HJ]. destruct (S j x v HJ) as [_ [JL E]].
      assert (LF : length (firstn m (skipn j ys)) = m) by (rewrite firstn_length, skipn_length; lia).
      destruct (sum_between lo hi (firstn m (skipn j ys))) as [S1 S2]. { intros y Hy. apply B. rewrite <- (firstn_skipn j ys). apply in_or_app. right. rewrite <- (firstn_skipn m (skipn j ys)). apply in_or_app. left. exact Hy. }
      rewrite LF in S1, S2. rewrite <- E in S1, S2. assert (NM : (0 < nq m)%Q) by (unfold nq; change 0%Q with (inject_Z 0); rewrite <- Zlt_Qlt; lia).
      split; [apply (proj1 (Qmult_le_l lo v (nq m) NM)); lra|apply (proj1 (Qmult_le_l v hi (nq m) NM)); lra].
    + unfold smoothed_walk in H1. destruct (Z.leb_spec (Z.of_nat m) 0); [lia|]. cbv zeta in H1. rewrite Nat2Z.id in H1. destruct (Nat.ltb_spec (length ys) m); [|lia]. destruct (Nat.even m); [injection H1 as <-; destruct HI|discriminate H1].
  - assert (m = 1%nat) by lia. subst m. unfold smoothed_walk in H1. cbn [Z.leb Z.of_nat Z.compare Pos.of_succ_nat] in H1. cbv zeta in H1. change (Z.to_nat 1) with 1%nat in H1.
    destruct (length ys <? 1)%nat; [discriminate H1|]. cbn in H1. injection H1 as <-. destruct HI.
Qed.
Print Assumptions C110_range.

(** Windows that do not fit: a figure with a window of no samples or fewer has no walks at all; a walk shorter than
    an even window has an empty line, and none is shorter than an odd window, for which the call raises. *)
Theorem C110_long : forall rgb2hex k s req columns file size w pw pp lw s' fig chains cols cfg,
  reachable rgb2hex (s_world s) -> plots s req columns chains cols -> config_of s cfg -> (0 < bk_max_points k)%nat ->
  plot_walks k s req columns file size (Some w) pw pp lw = (s', Ok fig) ->
  forall i calls, axis fig i 0 calls -> ((w <= 0)%Z -> walks calls = []) /\
    Forall2 (fun walk pts => (Z.of_nat (length (fst walk)) < w)%Z -> Z.Even w /\ pts = []) (walks calls) (smooths calls).
Proof.
  intros rgb k s req columns file size w pw pp lw s' fig chains cols cfg RE P HC HM H i calls HA. pose proof (row_lines _ _ _ _ _ _ _ _ _ _ _ _ _ _ _ _ RE P HC HM H i calls HA) as F. clear -F. split.
  - intros W. destruct F as [|[ys col] pts wk sm H1 _]; [reflexivity|]. exfalso. unfold smoothed_walk in H1. destruct (Z.leb_spec w 0); [discriminate H1|lia].
  - induction F as [|[ys col] pts wk sm H1 _ IH]; constructor; [|exact IH]. cbn [fst] in *. intros L. unfold smoothed_walk in H1. destruct (Z.leb_spec w 0) as [|W0]; [discriminate H1|]. cbv zeta in H1.
    destruct (Nat.ltb_spec (length ys) (Z.to_nat w)) as [_|X]; [|lia]. destruct (Nat.even (Z.to_nat w)) eqn:E; [|discriminate H1]. injection H1 as <-. split; [|reflexivity].
    apply Nat.even_spec in E as [q E]. exists (Z.of_nat q). lia.
Qed.
Print Assumptions C110_long.

(** Missing: a window of one sample should show the walk itself, but its line is always empty (x[0:-0] in the code). *)
Theorem C110_one_partial : forall rgb2hex k s req columns file size pw pp lw s' fig chains cols cfg,
  reachable rgb2hex (s_world s) -> plots s req columns chains cols -> config_of s cfg -> (0 < bk_max_points k)%nat ->
  plot_walks k s req columns file size (Some 1%Z) pw pp lw = (s', Ok fig) ->
  forall i calls, axis fig i 0 calls -> Forall2 (fun walk pts => fst walk <> [] /\ pts = []) (walks calls) (smooths calls).
Proof.
  intros rgb k s req columns file size pw pp lw s' fig chains cols cfg RE P HC HM H i calls HA. pose proof (row_lines _ _ _ _ _ _ _ _ _ _ _ _ _ _ _ _ RE P HC HM H i calls HA) as F. clear -F.
  induction F as [|[ys col] pts wk sm H1 _ IH]; constructor; [|exact IH]. cbn [fst] in *. unfold smoothed_walk in H1. change (1 <=? 0)%Z with false in H1. cbv iota zeta in H1. change (Z.to_nat 1) with 1%nat in H1.
  destruct ys; [discriminate H1|]. cbn in H1. injection H1 as <-. split; [discriminate|reflexivity].
Qed.
Print Assumptions C110_one_partial.
Definition ex110_cfg : plot_config := fig_cfg false true (BlindList ["y"]) [].
Definition ex110 (w : Z) : session * res figure := plot_walks ex_backend (fig_pair ex110_cfg) ReqAll (Some ["x"; "y"]) FileNone SizeNone (Some w) true true false.
Definition ex110_view (w : Z) : list (list (list Q) * list (list (Q * Q))) :=
  match snd (ex110 w) with Ok g => map (fun row => (map fst (walks (concat row)), smooths (concat row))) (fg_axes g) | Err _ => [] end.
Theorem C110_one_refuted : exists rgb2hex k s req columns file size pw pp lw s' fig chains cols cfg i calls ys col,
  reachable rgb2hex (s_world s) /\ plots s req columns chains cols /\ config_of s cfg /\ (0 < bk_max_points k)%nat /\
  plot_walks k s req columns file size (Some 1%Z) pw pp lw = (s', Ok fig) /\ axis fig i 0 calls /\
  walks calls = [(ys, col)] /\ ys <> [] /\ ~ smooths calls = [combine (map nq (seq 0 (length ys))) ys].
Proof.
  exists ex_rgb, ex_backend, (fig_pair ex110_cfg), ReqAll, (Some ["x"; "y"]), FileNone, SizeNone, true, true, false, (fst (ex110 1)).
  destruct (snd (ex110 1)) as [fig|e] eqn:E; [|vm_compute in E; discriminate E]. exists fig.
  assert (H : plot_walks ex_backend (fig_pair ex110_cfg) ReqAll (Some ["x"; "y"]) FileNone SizeNone (Some 1%Z) true true false = (fst (ex110 1), Ok fig)) by (rewrite <- E; apply surjective_pairing).
  pose proof H as H'. unfold plot_walks in H'. destruct (with_base_ok _ _ _ _ _ _ _ _ ["A"; "B"] H' (reachable_ok _ _ (fig_reachable _ _)) ltac:(vm_compute; reflexivity)) as [b [B _]].
  assert (EC : pb_columns b = ["x"; "y"]) by (destruct B as [w1 [f1 [n1 [l1 [_ [_ [_ [_ A]]]]]]]]; exact A). rewrite EC in B.
  exists (pb_chains b), ["x"; "y"], ex110_cfg, 0%nat, (calls_of fig 0 0), [-2; 0; -1]%Q, "#3b82f6".
  split; [apply fig_reachable|]. split; [exact B|]. split; [reflexivity|]. split; [cbn; lia|]. split; [exact H|]. clear - E. vm_compute in E. injection E as <-.
  split; [eexists; split; reflexivity|]. split; [reflexivity|]. split; [discriminate|]. vm_compute. discriminate.
Qed.
Print Assumptions C110_one_refuted.
(** Windows of one, two and four samples over walks of three. *)
Example C110_nonvacuous : map snd (ex110_view 1) = [[[]]; [[]; []]; [[]; []]; [[]; []]] /\
  nth 2 (ex110_view 2) ([], []) = ([[0; 1; 2]; [3; 4; 5]]%Q, [[(1, 1 # 2)]; [(1, 7 # 2)]]%Q) /\ map snd (ex110_view 4) = [[[]]; [[]; []]; [[]; []]; [[]; []]] /\ snd (ex110 5) = Err ValueError /\ snd (ex110 0) = Err ValueError.
Proof. repeat split; vm_compute; reflexivity. Qed.
