(** Marginal facts and the quantile-based summaries (C24-C26). *)
From Coq Require Import QArith Qabs List Arith ZArith Bool Lia Lqa.
From Verif Require Import Py NumSpec NumModel NumFacts InterpFacts MarginalModel SummarySpec.
Import ListNotations.
Open Scope Q_scope.

Section Mok.
Variables (xs ys cs : list Q).
Hypothesis HM : marginal_ok xs ys cs.

Lemma mok_lens : length ys = length xs /\ length cs = length xs /\ (2 <= length xs)%nat.
Proof. unfold marginal_ok in HM. tauto. Qed.
Lemma mok_total : 0 < total ys.
Proof. unfold marginal_ok in HM. tauto. Qed.
Lemma mok_cs i : (i < length xs)%nat -> at_ cs i == sum_range (at_ ys) 0 (S i) / total ys.
Proof. unfold marginal_ok in HM. destruct HM as (_&_&_&_&_&_&H). apply H. Qed.
Lemma mok_nonneg : all_nonneg ys.
Proof. unfold marginal_ok in HM. tauto. Qed.
Lemma mok_inc : increasing xs.
Proof. unfold marginal_ok in HM. tauto. Qed.

Lemma mok_step i : (S i < length xs)%nat -> at_ cs (S i) == at_ cs i + at_ ys (S i) / total ys.
Proof.
  intros H. rewrite !mok_cs by lia. rewrite (sum_range_S _ 0 (S i)) by lia. pose proof mok_total. field. lra.
Qed.
Lemma mok_cs_nd : nondecreasing cs.
Proof.
  destruct mok_lens as [L1 [L2 L3]]. apply nondecreasing_step. intros i Hi. rewrite mok_step by lia.
  pose proof mok_total. assert (0 <= at_ ys (S i) / total ys); [|lra].
  apply Qle_shift_div_l; [assumption|]. rewrite Qmult_0_l. apply all_nonneg_at, mok_nonneg.
Qed.
Lemma mok_cs_last : at_ cs (length xs - 1) == 1.
Proof.
  destruct mok_lens as [L1 [L2 L3]]. rewrite mok_cs by lia.
  replace (S (length xs - 1)) with (length ys) by lia. fold (total ys). pose proof mok_total. field. lra.
Qed.
Lemma mok_cs_range i : (i < length xs)%nat -> 0 <= at_ cs i <= 1.
Proof.
  intros Hi. destruct mok_lens as [L1 [L2 L3]]. split.
  - rewrite mok_cs by lia. apply Qle_shift_div_l; [apply mok_total|]. rewrite Qmult_0_l.
    apply sum_range_nonneg. intros; apply all_nonneg_at, mok_nonneg.
  - rewrite <- mok_cs_last. apply mok_cs_nd; lia.
Qed.
Lemma mok_cs0 : at_ cs 0 == at_ ys 0 / total ys.
Proof.
  destruct mok_lens as [L1 [L2 L3]]. rewrite mok_cs by lia. unfold sum_range. cbn.
  pose proof mok_total. field. lra.
Qed.

Lemma interp_res_ok q : at_ cs 0 <= q <= 1 -> exists v, interp_res cs xs q = Ok v /\ is_quantile xs cs q v /\ v = np_interp q cs xs 0 0.
Proof.
  intros [H0 H1]. destruct mok_lens as [L1 [L2 L3]]. unfold interp_res.
  destruct (interp1d cs xs q) as [v|] eqn:E.
  - exists v. split; [reflexivity|]. destruct (interp1d_some _ _ _ _ E) as [A [B ->]]. split; [|reflexivity].
    pose proof (increasing_nondecreasing _ mok_inc) as Hx.
    destruct (np_interp_bracket q cs xs 0 0 L2 A mok_cs_nd Hx (proj1 B) (proj2 B)) as [P1 P2].
    split; [apply np_interp_polyline; try tauto; [lia|apply mok_cs_nd]|].
    split; intros i Hi; [apply P1|apply P2]; lia.
  - exfalso. apply interp1d_none in E. rewrite L2, mok_cs_last in E.
    destruct E as [E|[E|E]]; [rewrite E in L2; cbn in L2; lia|lra|lra].
Qed.
Lemma interp_res_err q : q < at_ cs 0 -> interp_res cs xs q = Err ValueError.
Proof.
  intros H. unfold interp_res. destruct (interp1d cs xs q) eqn:E; [|reflexivity].
  destruct (interp1d_some _ _ _ _ E) as [_ [B _]]. lra.
Qed.
Lemma interp_res_mono p q v w : p <= q -> interp_res cs xs p = Ok v -> interp_res cs xs q = Ok w -> v <= w.
Proof.
  intros Hpq Hv Hw. unfold interp_res in *.
  destruct (interp1d cs xs p) as [v'|] eqn:E1; [|discriminate]. injection Hv as <-.
  destruct (interp1d cs xs q) as [w'|] eqn:E2; [|discriminate]. injection Hw as <-.
  destruct (interp1d_some _ _ _ _ E1) as [A1 [B1 ->]]. destruct (interp1d_some _ _ _ _ E2) as [A2 [B2 ->]].
  apply np_interp_mono; try tauto; [apply mok_lens|apply mok_cs_nd|].
  apply increasing_nondecreasing, mok_inc.
Qed.
End Mok.

Definition mg_ok (m : marginal) : Prop := marginal_ok (mg_xs m) (mg_ys m) (mg_cs m).
Definition mg_quantile (m : marginal) := is_quantile (mg_xs m) (mg_cs m).

Lemma cumulative_ok m area : mg_ok m -> 0 <= area <= 1 -> at_ (mg_cs m) 0 <= (1#2) - area / 2 ->
  exists l c u, summary_cumulative area m = Ok (mkB l c u) /\ l <= c <= u /\
    mg_quantile m ((1#2) - area / 2) l /\ mg_quantile m (1#2) c /\ mg_quantile m ((1#2) + area / 2) u.
Proof.
  intros HM HA H0. assert (E2 : area / 2 == (1#2) * area) by field.
  destruct (interp_res_ok _ _ _ HM ((1#2) - area / 2)) as [l [El [Ql _]]]; [lra|].
  destruct (interp_res_ok _ _ _ HM (1#2)) as [c [Ec [Qc _]]]; [lra|].
  destruct (interp_res_ok _ _ _ HM ((1#2) + area / 2)) as [u [Eu [Qu _]]]; [lra|].
  exists l, c, u. unfold summary_cumulative. rewrite El, Ec, Eu. split; [reflexivity|].
  split; [|unfold mg_quantile; tauto].
  split; [apply (interp_res_mono _ _ _ HM ((1#2) - area / 2) (1#2)); [lra|exact El|exact Ec]
         |apply (interp_res_mono _ _ _ HM (1#2) ((1#2) + area / 2)); [lra|exact Ec|exact Eu]].
Qed.
Lemma cumulative_err m area : mg_ok m -> (1#2) - area / 2 < at_ (mg_cs m) 0 ->
  summary_cumulative area m = Err ValueError.
Proof. intros HM H. unfold summary_cumulative. rewrite (interp_res_err) by exact H. reflexivity. Qed.

Lemma mean_ok m area : mg_ok m -> 0 <= area <= 1 -> at_ (mg_cs m) 0 <= (1#2) - area / 2 ->
  exists l c u, summary_cumulative area m = Ok (mkB l c u) /\
    summary_mean area m = Ok (mkB l ((1#2) * (l + u)) u) /\ l <= (1#2) * (l + u) <= u.
Proof.
  intros HM HA H0. assert (E2 : area / 2 == (1#2) * area) by field.
  destruct (interp_res_ok _ _ _ HM ((1#2) - area / 2)) as [l [El [Ql _]]]; [lra|].
  destruct (interp_res_ok _ _ _ HM (1#2)) as [c [Ec [Qc _]]]; [lra|].
  destruct (interp_res_ok _ _ _ HM ((1#2) + area / 2)) as [u [Eu [Qu _]]]; [lra|].
  exists l, c, u. unfold summary_cumulative, summary_mean. rewrite El, Ec, Eu. split; [reflexivity|].
  split; [reflexivity|].
  assert (l <= u); [|lra].
  apply (interp_res_mono _ _ _ HM ((1#2) - area / 2) ((1#2) + area / 2)); [lra|exact El|exact Eu].
Qed.
Lemma mean_err m area : mg_ok m -> (1#2) - area / 2 < at_ (mg_cs m) 0 -> summary_mean area m = Err ValueError.
Proof. intros HM H. unfold summary_mean. rewrite (interp_res_err) by exact H. reflexivity. Qed.

Lemma argmax_mode m : mg_ok m -> is_mode (mg_xs m) (mg_ys m) (nth (argmax (mg_ys m)) (mg_xs m) 0).
Proof.
  intros HM. destruct (mok_lens _ _ _ HM) as [L1 [L2 L3]].
  assert (HN : mg_ys m <> []) by (intros E; rewrite E in L1; cbn in L1; lia).
  destruct (argmax_spec _ HN) as [[A1 A2] _].
  exists (argmax (mg_ys m)). split; [lia|]. split; [reflexivity|]. exact A2.
Qed.

Lemma np_interp_Qeq q q' xp fp : q == q' -> length xp = length fp -> xp <> [] -> nondecreasing xp -> nondecreasing fp ->
  at_ xp 0 <= q <= at_ xp (length xp - 1) -> np_interp q xp fp 0 0 == np_interp q' xp fp 0 0.
Proof.
  intros E L N H1 H2 B.
  pose proof (np_interp_mono q q' xp fp 0 0 L N H1 H2). pose proof (np_interp_mono q' q xp fp 0 0 L N H1 H2).
  apply Qle_antisym; [apply H|apply H0]; lra.
Qed.

Lemma max_central_ok m area : mg_ok m -> 0 <= area <= 1 -> at_ (mg_cs m) 0 <= (1#2) - area / 2 ->
  exists l c u, summary_max_central area m = Ok (mkB l c u) /\ l <= u /\
    is_mode (mg_xs m) (mg_ys m) c /\ mg_quantile m ((1#2) - (1#2) * area) l /\ mg_quantile m ((1#2) + (1#2) * area) u.
Proof.
  intros HM HA H0. assert (E2 : area / 2 == (1#2) * area) by field.
  destruct (interp_res_ok _ _ _ HM ((1#2) - (1#2) * area)) as [l [El [Ql _]]]; [lra|].
  destruct (interp_res_ok _ _ _ HM ((1#2) + (1#2) * area)) as [u [Eu [Qu _]]]; [lra|].
  eexists l, _, u. unfold summary_max_central. rewrite El, Eu. split; [reflexivity|].
  split; [|split; [apply argmax_mode; exact HM|unfold mg_quantile; tauto]].
  apply (interp_res_mono _ _ _ HM ((1#2) - (1#2) * area) ((1#2) + (1#2) * area)); [lra|exact El|exact Eu].
Qed.
Lemma max_central_err m area : mg_ok m -> (1#2) - (1#2) * area < at_ (mg_cs m) 0 ->
  summary_max_central area m = Err ValueError.
Proof. intros HM H. unfold summary_max_central. rewrite (interp_res_err) by exact H. reflexivity. Qed.
