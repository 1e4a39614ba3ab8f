(** C22, C24-C31, C60: marginals and their summaries. *)
From Coq Require Import QArith Qabs List Arith ZArith Bool Lia Lqa.
From Verif Require Import Py NumSpec NumModel NumFacts InterpFacts HelpersSpec HelpersModel HelpersProofs DensityProofs
  MarginalModel SummarySpec SimpsonFacts SimpsonExact MarginalProofs QuantileProofs MaxProofs HdiProofs BandProofs FilterProofs.
Import ListNotations.
Open Scope Q_scope.

(** A concrete marginal for the examples. *)
Definition ex_m : marginal :=
  {| mg_xs := [0;1;2;3;4]; mg_ys := [1;2;4;2;1]; mg_cs := [1#10; 3#10; 7#10; 9#10; 1] |}.
Ltac small_index i := repeat (destruct i as [|i]; [vm_compute; try (intros; discriminate); try reflexivity|]).
Lemma increasing_small l : (forall i, (S i < length l)%nat -> at_ l i < at_ l (S i)) -> increasing l.
Proof. apply increasing_step. Qed.
Fixpoint incb (l : list Q) : bool :=
  match l with x :: (y :: _) as r => qltb x y && incb r | _ => true end.
Lemma incb_ok l : incb l = true -> increasing l.
Proof.
  intros H. apply increasing_step. revert H. induction l as [|x [|y r] IH]; intros H i Hi; cbn [length] in Hi; try lia.
  cbn [incb] in H. apply andb_true_iff in H. destruct H as [H1 H2]. apply qlt_true in H1.
  destruct i as [|i]; [exact H1|]. rewrite !at_cons_S. apply IH; [exact H2|cbn [length]; lia].
Qed.
Fixpoint csb (acc t : Q) (ys cs : list Q) : bool :=
  match ys, cs with
  | y :: ys, c :: cs => Qeq_bool c ((acc + y) / t) && csb (acc + y) t ys cs
  | _, _ => true
  end.
Definition mokb (xs ys cs : list Q) : bool :=
  (length ys =? length xs)%nat && (length cs =? length xs)%nat && (2 <=? length xs)%nat && incb xs &&
  forallb (Qle_bool 0) ys && qltb 0 (qsum ys) && csb 0 (qsum ys) ys cs.
Lemma csb_ok : forall ys cs acc t i, csb acc t ys cs = true -> (i < length ys)%nat -> (i < length cs)%nat ->
  at_ cs i == (acc + sum_range (at_ ys) 0 (S i)) / t.
Proof.
  induction ys as [|y ys IH]; intros [|c cs] acc t i H Hy Hc; cbn [length] in *; try lia.
  cbn [csb] in H. apply andb_true_iff in H. destruct H as [H1 H2]. apply qeqb_true in H1.
  destruct i as [|i].
  - rewrite at_cons_0, H1. unfold sum_range. cbn [Nat.sub sum_n]. rewrite at_cons_0.
    assert (E : acc + (y + 0) == acc + y) by ring. rewrite E. reflexivity.
  - rewrite at_cons_S. rewrite (IH cs (acc + y) t i H2) by lia.
    assert (E : sum_range (at_ (y :: ys)) 0 (S (S i)) == y + sum_range (at_ ys) 0 (S i)).
    { unfold sum_range. rewrite !Nat.sub_0_r. change (sum_n (at_ (y :: ys)) 0 (S (S i))) with (at_ (y :: ys) 0 + sum_n (at_ (y :: ys)) 1 (S i)).
      rewrite sum_n_shift. rewrite at_cons_0. reflexivity. }
    rewrite E, Qplus_assoc. reflexivity.
Qed.
Lemma mokb_ok xs ys cs : mokb xs ys cs = true -> marginal_ok xs ys cs.
Proof.
  unfold mokb. rewrite !andb_true_iff. intros [[[[[[H1 H2] H3] H4] H5] H6] H7].
  apply Nat.eqb_eq in H1, H2. apply Nat.leb_le in H3. apply qlt_true in H6.
  repeat split; try assumption; [apply incb_ok; exact H4| | |].
  - intros x Hx. rewrite forallb_forall in H5. apply qle_true, H5; exact Hx.
  - rewrite <- qsum_total. exact H6.
  - intros i Hi. rewrite (csb_ok ys cs 0 (qsum ys) i H7) by lia. rewrite qsum_total.
    assert (E : 0 + sum_range (at_ ys) 0 (S i) == sum_range (at_ ys) 0 (S i)) by ring. rewrite E. reflexivity.
Qed.
Lemma ex_ok : mg_ok ex_m.
Proof. apply mokb_ok. vm_compute. reflexivity. Qed.

(** * C22 *)
Theorem C22_marginal : forall nbins npts nkde c d pad m,
  (2 <= nbins)%nat -> (2 <= npts)%nat -> (2 <= nkde)%nat ->
  positive_weights d -> d <> [] -> cfg_ok c ->
  smoothed_histogram nbins npts nkde c d pad = Ok m ->
  exists e, edges_of nbins c d pad e /\ increasing e /\ (2 <= length e)%nat /\
    let first_centre := (1#2) * (at_ e 0 + at_ e 1) in
    let last_centre := (1#2) * (at_ e (length e - 2) + at_ e (length e - 1)) in
    evenly_spaced first_centre last_centre npts (mg_xs m) /\
    length (mg_ys m) = npts /\ all_nonneg (mg_ys m) /\
    length (mg_cs m) = npts /\ nondecreasing (mg_cs m) /\ (forall i, (i < npts)%nat -> 0 <= at_ (mg_cs m) i <= 1) /\
    at_ (mg_cs m) (npts - 1) == 1 /\
    (forall i, (i < npts)%nat -> at_ (mg_cs m) i == sum_range (at_ (mg_ys m)) 0 (S i) / total (mg_ys m)) /\
    ((3 <= length e)%nat -> marginal_ok (mg_xs m) (mg_ys m) (mg_cs m) /\ exists h, 0 < h /\ uniform h (mg_xs m)).
Proof.
  intros nbins npts nkde c d pad m H1 H2 H3 HW HN HC H.
  destruct (smoothed_histogram_inv nbins npts nkde c d pad m H1 H2 H3 HW HN HC H) as [e (E1&E2&E3&E4&E5&E6&E7&E8&E9&_)].
  exists e. split; [exact E1|]. split; [exact E2|]. split; [exact E3|]. cbv zeta.
  assert (Lc : length (bin_centers e) = (length e - 1)%nat) by apply bin_centers_length.
  assert (C0 : at_ (bin_centers e) 0 == (1#2) * (at_ e 0 + at_ e 1)) by (rewrite bin_centers_at by lia; ring).
  assert (Cl : last (bin_centers e) 0 == (1#2) * (at_ e (length e - 2) + at_ e (length e - 1))).
  { rewrite last_at by (intros E; rewrite E in Lc; cbn in Lc; lia). rewrite Lc, bin_centers_at by lia.
    replace (length e - 1 - 1)%nat with (length e - 2)%nat by lia.
    replace (S (length e - 2)) with (length e - 1)%nat by lia. ring. }
  split.
  { rewrite E4. destruct (linspace_evenly (at_ (bin_centers e) 0) (last (bin_centers e) 0) npts H2) as (A&B&C&D).
    repeat split; [exact A|rewrite B; exact C0|rewrite C; exact Cl|exact D]. }
  split; [exact E5|]. split; [exact E6|]. split; [exact E8|].
  assert (Hnd : nondecreasing (mg_cs m)).
  { apply nondecreasing_step. intros i Hi. rewrite E8 in Hi. rewrite !E9 by lia. rewrite (sum_range_S _ 0 (S i)) by lia.
    apply Qle_shift_div_l; [exact E7|].
    assert (E : sum_range (at_ (mg_ys m)) 0 (S i) / total (mg_ys m) * total (mg_ys m) == sum_range (at_ (mg_ys m)) 0 (S i)) by (field; lra).
    rewrite E. pose proof (all_nonneg_at (mg_ys m) (S i) E6). lra. }
  assert (Hl : at_ (mg_cs m) (npts - 1) == 1).
  { rewrite E9 by lia. replace (S (npts - 1)) with (length (mg_ys m)) by lia. fold (total (mg_ys m)). field. lra. }
  split; [exact Hnd|]. split; [|split; [exact Hl|split; [exact E9|]]].
  - intros i Hi. split.
    + rewrite E9 by exact Hi. apply Qle_shift_div_l; [exact E7|]. rewrite Qmult_0_l.
      apply sum_range_nonneg. intros; apply all_nonneg_at; exact E6.
    + rewrite <- Hl. apply Hnd; lia.
  - intros H3e. assert (Lx : length (mg_xs m) = npts) by (rewrite E4; apply linspace_length).
    assert (Hlt : at_ (bin_centers e) 0 < last (bin_centers e) 0).
    { rewrite C0, Cl. assert (at_ e 0 < at_ e (length e - 2)) by (apply E2; lia).
      assert (at_ e 1 < at_ e (length e - 1)) by (apply E2; lia). lra. }
    split.
    + repeat split; try lia; try assumption; [rewrite E4; apply linspace_increasing; exact Hlt|].
      intros i Hi. apply E9. lia.
    + exists ((last (bin_centers e) 0 - at_ (bin_centers e) 0) / nq (npts - 1)). split.
      * apply Qlt_shift_div_l; [apply nq_pos; lia|]. lra.
      * rewrite E4. apply linspace_uniform; exact H2.
Qed.
Print Assumptions C22_marginal.

(** Without a KDE the curve interpolates, at the bin centres, the (smoothed) power of the normalised
    histogram: [h0] is the density, [h1] its power, [h2] the smoothed version. *)
Theorem C22_curve : forall nbins npts nkde c d pad m,
  (2 <= nbins)%nat -> (2 <= npts)%nat -> (2 <= nkde)%nat ->
  positive_weights d -> d <> [] -> cfg_ok c -> m_kde c = false ->
  smoothed_histogram nbins npts nkde c d pad = Ok m ->
  exists e h0 h1 h2, edges_of nbins c d pad e /\ increasing e /\ hist_density e d = Ok h0 /\
    h1 = map (m_power c) h0 /\
    (let s := match m_smooth c with Some s => s | None => if m_grid c then 0%Z else 3%Z end in
     if (0 <? s)%Z then is_smoothing (m_kernel c s) h1 h2 else h2 = h1) /\
    ((3 <= length e)%nat -> forall i, (i < npts)%nat ->
       on_polyline (bin_centers e) h2 (at_ (mg_xs m) i) (at_ (mg_ys m) i)).
Proof.
  intros nbins npts nkde c d pad m H1 H2 H3 HW HN HC HK H.
  destruct (smoothed_histogram_inv nbins npts nkde c d pad m H1 H2 H3 HW HN HC H) as [e (E1&E2&E3&E4&E5&E6&E7&E8&E9&E10)].
  destruct (E10 HK) as [h0 [EH EO]]. exists e, h0, (map (m_power c) h0), (smoothed_heights c h0).
  destruct (hist_density_inv _ _ _ EH) as [Lh _].
  split; [exact E1|]. split; [exact E2|]. split; [exact EH|]. split; [reflexivity|].
  assert (Nh : map (m_power c) h0 <> []) by (intros E; apply (f_equal (@length Q)) in E; rewrite map_length in E; cbn in E; lia).
  assert (Lsm : length (smoothed_heights c h0) = length h0).
  { unfold smoothed_heights. destruct (0 <? _)%Z; [rewrite filter1d_length|]; apply map_length. }
  split.
  - cbv zeta. unfold smoothed_heights, smooth_value. destruct (0 <? _)%Z; [apply filter1d_smoothing; exact Nh|reflexivity].
  - intros H3e i Hi. destruct (opt_all_some _ _ EO) as [O1 O2]. rewrite map_length in O1, O2.
    assert (Lx : length (mg_xs m) = npts) by (rewrite E4; apply linspace_length).
    specialize (O2 i 0 ltac:(lia)).
    rewrite (nth_indep _ None (interp1d (bin_centers e) (smoothed_heights c h0) 0)) in O2 by (rewrite map_length; lia).
    rewrite map_nth in O2. fold (at_ (mg_xs m) i) (at_ (mg_ys m) i) in O2.
    destruct (interp1d_some _ _ _ _ O2) as [A [B ->]].
    assert (Lc : length (bin_centers e) = (length e - 1)%nat) by apply bin_centers_length.
    apply np_interp_polyline; [lia|lia| |tauto|tauto].
    apply increasing_nondecreasing, bin_centers_increasing. exact E2.
Qed.
Print Assumptions C22_curve.

Definition ex_cfg : mcfg := {| m_grid := false; m_smooth := Some 1%Z; m_bins := Some 3%Z; m_rows := 5; m_cols := 2;
  m_power := fun x => x; m_kernel := fun _ => [1#4; 1#2; 1#4]; m_kde := false; m_kde_eval := fun _ => 1 |}.
Lemma ex_cfg_ok : cfg_ok ex_cfg.
Proof.
  split; cbn; [intros; assumption| |intros; lra].
  intros _ x [<-|[<-|[<-|[]]]]; lra.
Qed.
Definition ex_data : list (Q * Q) := [(0,1);(1,2);(2,3);(3,2);(5#2,1);(4,1)].
Example C22_example : exists m, smoothed_histogram 10 5 4 ex_cfg ex_data false = Ok m /\ positive_weights ex_data /\ ex_data <> [].
Proof.
  eexists. split; [vm_compute; reflexivity|]. split; [|discriminate].
  intros x w H. repeat (destruct H as [H|H]; [injection H as <- <-; lra|]). destruct H.
Qed.

(** * C60: smoothing with a symmetric kernel of unit sum moves mass but does not create or lose any. *)
Theorem C60_smoothing_mass : forall kern l r,
  length kern = (2 * r + 1)%nat -> (forall k, (k < length kern)%nat -> at_ kern k == at_ kern (length kern - 1 - k)) ->
  total kern == 1 -> l <> [] ->
  is_smoothing kern l (filter1d kern l) /\ total (filter1d kern l) == total l.
Proof.
  intros kern l r Hk Hs Ht Hl. split; [apply filter1d_smoothing; exact Hl|].
  rewrite (filter1d_total l ltac:(destruct l; [congruence|cbn; lia]) kern r Hk Hs), Ht. ring.
Qed.
Print Assumptions C60_smoothing_mass.
Example C60_example : total (filter1d [1#4;1#2;1#4] [1;2;0;7]) == 10 /\ total [1#4;1#2;1#4] == 1.
Proof. split; reflexivity. Qed.

(** * C24: CUMULATIVE *)
Theorem C24_quantiles : forall m area, mg_ok m -> 0 <= area <= 1 -> at_ (mg_cs m) 0 <= (1#2) - area / 2 ->
  exists l c u, summary_cumulative area m = Ok (mkB l c u) /\ l <= c <= u /\
    is_quantile (mg_xs m) (mg_cs m) ((1#2) - area / 2) l /\
    is_quantile (mg_xs m) (mg_cs m) (1#2) c /\
    is_quantile (mg_xs m) (mg_cs m) ((1#2) + area / 2) u.
Proof. exact cumulative_ok. Qed.
Print Assumptions C24_quantiles.
Theorem C24_failure : forall m area, mg_ok m -> 0 <= area <= 1 ->
  (summary_cumulative area m = Err ValueError <-> (1#2) - area / 2 < at_ (mg_cs m) 0).
Proof.
  intros m area HM HA. split; [|apply cumulative_err; exact HM].
  intros H. destruct (Qlt_le_dec ((1#2) - area / 2) (at_ (mg_cs m) 0)) as [L|L]; [exact L|].
  destruct (cumulative_ok m area HM HA L) as [l [c [u [E _]]]]. congruence.
Qed.
Print Assumptions C24_failure.
Example C24_example : mg_ok ex_m /\ at_ (mg_cs ex_m) 0 <= (1#2) - (68#100) / 2 /\
  (exists b, summary_cumulative (68#100) ex_m = Ok b) /\ summary_cumulative 1 ex_m = Err ValueError.
Proof. split; [exact ex_ok|]. split; [vm_compute; discriminate|]. split; [eexists; reflexivity|reflexivity]. Qed.

(** * C25: MEAN *)
Theorem C25_mean : forall m area, mg_ok m -> 0 <= area <= 1 -> at_ (mg_cs m) 0 <= (1#2) - area / 2 ->
  exists l c u, summary_cumulative area m = Ok (mkB l c u) /\
    summary_mean area m = Ok (mkB l ((1#2) * (l + u)) u) /\ l <= (1#2) * (l + u) <= u.
Proof. exact mean_ok. Qed.
Print Assumptions C25_mean.
Theorem C25_failure : forall m area, mg_ok m -> 0 <= area <= 1 ->
  (summary_mean area m = Err ValueError <-> summary_cumulative area m = Err ValueError).
Proof.
  intros m area HM HA. rewrite C24_failure by assumption. split; [|apply mean_err; exact HM].
  intros H. destruct (Qlt_le_dec ((1#2) - area / 2) (at_ (mg_cs m) 0)) as [L|L]; [exact L|].
  destruct (mean_ok m area HM HA L) as [l [c [u [_ [E _]]]]]. congruence.
Qed.
Print Assumptions C25_failure.
Example C25_example : exists b, summary_mean (68#100) ex_m = Ok b.
Proof. eexists; reflexivity. Qed.

(** * C26: MAX_CENTRAL.  Missing with respect to C26: [lower <= center <= upper], refuted below. *)
Theorem C26_max_central_partial : forall m area, mg_ok m -> 0 <= area <= 1 -> at_ (mg_cs m) 0 <= (1#2) - area / 2 ->
  exists l c u, summary_max_central area m = Ok (mkB l c u) /\ l <= u /\ is_mode (mg_xs m) (mg_ys m) c /\
    is_quantile (mg_xs m) (mg_cs m) ((1#2) - (1#2) * area) l /\
    is_quantile (mg_xs m) (mg_cs m) ((1#2) + (1#2) * area) u.
Proof. exact max_central_ok. Qed.
Print Assumptions C26_max_central_partial.
Theorem C26_center_outside_refuted : exists m area l c u, mg_ok m /\ 0 < area < 1 /\
  summary_max_central area m = Ok (mkB l c u) /\ c < l.
Proof.
  exists {| mg_xs := [0;1;2;3]; mg_ys := [4;2;2;2]; mg_cs := [4#10;6#10;8#10;1] |}, (1#10).
  eexists _, _, _. split; [apply mokb_ok; vm_compute; reflexivity|]. split; [split; reflexivity|].
  split; [vm_compute; reflexivity|]. vm_compute. reflexivity.
Qed.
Print Assumptions C26_center_outside_refuted.
Example C26_example : exists b, summary_max_central (68#100) ex_m = Ok b.
Proof. eexists; reflexivity. Qed.

(** * C27: MAX.  The curve is continued by ramps of [n] (= 1000) points down to 0; around its first
    highest point [k] the bounds enclose the maximal stretch above a level, holding the wanted share
    to within 0.003; otherwise, after [tries] (= 50) halvings, every level with such a share lies in
    a sliver of [peak / 2^tries], and no bounds are reported. *)
Theorem C27_max : forall n tries area m, (2 <= n)%nat -> mg_ok m ->
  exists pxs pys k, padded n (mg_xs m) (mg_ys m) pxs pys /\ is_first_argmax pys k /\
    is_mode (mg_xs m) (mg_ys m) (at_ pxs k) /\
    ((exists level i1 i2, summary_max n tries area m = Ok (mkB (at_ pxs i1) (at_ pxs k) (at_ pxs i2)) /\
        0 < level < at_ pys k /\ stretch pys k level i1 i2 /\
        Qabs (share pys i1 i2 - area) < 3 # 1000 /\ at_ pxs i1 <= at_ pxs k <= at_ pxs i2)
     \/ (summary_max n tries area m = Ok {| b_lower := None; b_center := Some (at_ pxs k); b_upper := None |} /\
         exists lo hi, 0 <= lo /\ hi <= at_ pys k /\ hi - lo == at_ pys k / inject_Z (2 ^ Z.of_nat tries) /\
         forall level i1 i2, 0 < level <= at_ pys k -> stretch pys k level i1 i2 ->
           Qabs (share pys i1 i2 - area) < 3 # 1000 -> lo <= level <= hi)).
Proof. exact summary_max_ok. Qed.
Print Assumptions C27_max.
Example C27_example : (exists l c u, summary_max 2 50 (583#1000) ex_m = Ok (mkB l c u)) /\
  (exists c, summary_max 2 50 (99#100) ex_m = Ok {| b_lower := None; b_center := Some c; b_upper := None |}).
Proof. split; [eexists _, _, _|eexists]; vm_compute; reflexivity. Qed.

(** * C28: HDI *)
Theorem C28_hdi_mass : forall m area, mg_ok m -> 0 < area <= 1 ->
  exists l c u p j, summary_hdi area m = mkB l c u /\ (p <= j < length (mg_xs m))%nat /\
    l == at_ (mg_xs m) p /\ u == at_ (mg_xs m) j /\ area <= window_mass (mg_cs m) p j /\ l <= c <= u.
Proof.
  intros m area HM HA. destruct (hdi_sound m area HM HA) as [p [j [c (P1&_&P2&P3&P4&P5&P6&P7&P8&_)]]].
  eexists _, c, _, p, j. split; [|repeat (split; [eassumption|]); exact P8].
  unfold summary_hdi, mkB in *. cbn [b_lower b_upper b_center] in *. congruence.
Qed.
Print Assumptions C28_hdi_mass.
(** The centre halves the mass of the chosen window. *)
Theorem C28_hdi_center : forall m area, mg_ok m -> 1 # 1000000000000 < area <= 1 ->
  exists l c u p j m0 m1, summary_hdi area m = mkB l c u /\ l == at_ (mg_xs m) p /\ u == at_ (mg_xs m) j /\
    (p <= j < length (mg_xs m))%nat /\
    area <= m1 - m0 /\ m1 == at_ (mg_cs m) j /\ (m0 == start_mass (mg_cs m) p \/ m0 == at_ (mg_cs m) p) /\
    on_polyline (0 :: mg_cs m) (at_ (mg_xs m) 0 :: mg_xs m) ((1#2) * (m0 + m1)) c.
Proof.
  intros m area HM [HA1 HA2]. assert (EP := eps_pos).
  destruct (hdi_sound m area HM ltac:(split; lra)) as [p [j [c (P1&_&P2&P3&P4&P5&P6&P7&P8&P9)]]].
  destruct (P9 HA1) as [m0 [m1 (Q1&Q2&Q3&Q4)]].
  eexists _, c, _, p, j, m0, m1. split; [|repeat (split; [eassumption|]); exact Q4].
  unfold summary_hdi, mkB in *. cbn [b_lower b_upper b_center] in *. congruence.
Qed.
Print Assumptions C28_hdi_center.
Theorem C28_hdi_narrowest : forall m area, mg_ok m -> 0 < area <= 1 ->
  (forall i, (S i < length (mg_xs m))%nat -> 1 # 1000000000000 < at_ (mg_xs m) (S i) - at_ (mg_xs m) i) ->
  at_ (mg_cs m) 0 < area ->
  exists l c u, summary_hdi area m = mkB l c u /\
    forall p j, (p <= j < length (mg_xs m))%nat -> area <= window_mass (mg_cs m) p j ->
      u - l <= at_ (mg_xs m) j - at_ (mg_xs m) p + (1 # 1000000000000).
Proof.
  intros m area HM HA Hsp H0. eexists _, _, _. split; [reflexivity|].
  exact (hdi_minimal m area HM HA Hsp H0).
Qed.
Print Assumptions C28_hdi_narrowest.
(** On a scale finer than 1e-12 no window is ever accepted: the HDI is the whole range for every area. *)
Lemma hdi_loop_none area cdf xp : nondecreasing xp -> length xp = length cdf ->
  at_ xp (length xp - 1) - at_ xp 0 <= hdi_eps ->
  forall starts i best, hdi_loop area cdf xp i starts best = best.
Proof.
  intros HX HL Hr. induction starts as [|mm rest IH]; intros i best; [reflexivity|]. cbn [hdi_loop].
  destruct (qltb (1 + hdi_eps) (mm + area)); [reflexivity|]. cbv zeta.
  set (e1 := if (searchsorted cdf (mm + area) <=? i)%nat then S i else searchsorted cdf (mm + area)).
  assert (He1 : (i < e1)%nat).
  { unfold e1. destruct (_ <=? i)%nat eqn:E; [lia|apply Nat.leb_gt in E; lia]. }
  destruct (length cdf <=? e1)%nat eqn:E1; [reflexivity|]. apply Nat.leb_gt in E1.
  set (e2 := if _ && _ then S e1 else e1).
  assert (He2 : (e1 <= e2 < length cdf)%nat).
  { unfold e2. destruct (_ && _) eqn:E; [|lia]. apply andb_true_iff in E. destruct E as [_ E]. apply Nat.ltb_lt in E. lia. }
  assert (Qle_bool (nth e2 xp 0 - nth i xp 0) hdi_eps = true) as ->; [|apply IH].
  apply qle_true. fold (at_ xp e2) (at_ xp i).
  assert (at_ xp e2 <= at_ xp (length xp - 1)) by (apply HX; lia).
  assert (at_ xp 0 <= at_ xp i) by (apply HX; lia). lra.
Qed.
Theorem C28_tiny_scale_refuted : forall m area, mg_ok m -> 0 < area <= 1 ->
  at_ (mg_xs m) (length (mg_xs m) - 1) - at_ (mg_xs m) 0 <= 1 # 1000000000000 ->
  exists c, summary_hdi area m = mkB (at_ (mg_xs m) 0) c (at_ (mg_xs m) (length (mg_xs m) - 1)).
Proof.
  intros m area HM HA Hr. destruct (mok_lens _ _ _ HM) as [L1 [L2 L3]].
  pose proof (increasing_nondecreasing _ (mok_inc _ _ _ HM)) as HX.
  assert (Hx0 : hd 0 (mg_xs m) = at_ (mg_xs m) 0) by (destruct (mg_xs m); reflexivity).
  unfold summary_hdi. rewrite hdi_loop_none; cbn [hb_lower hb_upper hb_m0 hb_m1].
  - eexists. rewrite Hx0. cbn [hd].
    assert (E : last (at_ (mg_xs m) 0 :: mg_xs m) 0 = at_ (mg_xs m) (length (mg_xs m) - 1)).
    { rewrite last_at by discriminate. cbn [length]. replace (S (length (mg_xs m)) - 1)%nat with (S (length (mg_xs m) - 1)) by lia.
      apply at_cons_S. }
    rewrite E. reflexivity.
  - apply nondecreasing_step. intros i Hi. cbn [length] in Hi. destruct i as [|i].
    + rewrite at_cons_0, at_cons_S, Hx0. lra.
    + rewrite !at_cons_S. apply HX; lia.
  - cbn [length]. lia.
  - cbn [length]. replace (S (length (mg_xs m)) - 1)%nat with (S (length (mg_xs m) - 1)) by lia.
    rewrite at_cons_S, at_cons_0, Hx0. exact Hr.
Qed.
Print Assumptions C28_tiny_scale_refuted.
Example C28_example : mg_ok ex_m /\ at_ (mg_cs ex_m) 0 < 6#10 /\
  exists c, summary_hdi (6#10) ex_m = mkB 0 c 2 /\ c == 9#8.
Proof.
  split; [exact ex_ok|]. split; [reflexivity|]. eexists. split; [vm_compute; reflexivity|reflexivity].
Qed.
Example C28_example_tiny : exists m, mg_ok m /\
  at_ (mg_xs m) (length (mg_xs m) - 1) - at_ (mg_xs m) 0 <= 1 # 1000000000000.
Proof.
  exists {| mg_xs := [0; 1#4000000000000; 1#2000000000000]; mg_ys := [1;2;1]; mg_cs := [1#4;3#4;1] |}.
  split; [apply mokb_ok|]; vm_compute; [reflexivity|discriminate].
Qed.

(** * C29: turning a mask into intervals *)
Theorem C29_runs : forall x mask, increasing x -> length mask = length x ->
  exists rs, mask_to_intervals x mask = Ok (map (fun se => (at_ x (fst se), at_ x (snd se))) rs) /\
    (forall s e, In (s, e) rs <-> (is_run mask s e /\ (s < e)%nat)) /\
    (forall a b, (a < b < length rs)%nat -> (snd (nth a rs (0,0)%nat) + 1 < fst (nth b rs (0,0)%nat))%nat).
Proof. exact mask_runs. Qed.
Print Assumptions C29_runs.
(** Every selected point with a selected neighbour is in an interval; no unselected point is. *)
Theorem C29_coverage : forall x mask ivs, increasing x -> length mask = length x ->
  mask_to_intervals x mask = Ok ivs -> forall k, (k < length x)%nat ->
  ((exists lo hi, In (lo, hi) ivs /\ lo <= at_ x k <= hi) <->
   (nth k mask false = true /\ (nth (S k) mask false = true \/ (1 <= k)%nat /\ nth (k - 1) mask false = true))).
Proof.
  intros x mask ivs HX HL H k Hk. destruct (mask_runs x mask HX HL) as [rs [E [HR _]]]. rewrite H in E. injection E as ->.
  assert (HXle : forall i j, (i < length x)%nat -> (j < length x)%nat -> at_ x i <= at_ x j -> (i <= j)%nat).
  { intros i j Hi Hj Hle. destruct (Nat.le_gt_cases i j) as [L|L]; [exact L|]. assert (at_ x j < at_ x i) by (apply HX; lia). lra. }
  split.
  - intros [lo [hi [HI [H1 H2]]]]. apply in_map_iff in HI. destruct HI as [[s e] [HE HI]]. cbn in HE. injection HE as <- <-.
    apply HR in HI. destruct HI as [(R1&R2&R3&_) Hse].
    assert ((s <= k)%nat) by (apply HXle; [lia|lia|exact H1]). assert ((k <= e)%nat) by (apply HXle; [lia|lia|exact H2]).
    split; [apply R3; lia|]. destruct (Nat.eq_dec k e) as [->|N].
    + right. split; [lia|]. apply R3. lia.
    + left. apply R3. lia.
  - intros [Hm Hn]. destruct (run_around mask k Hm) as [s [e [HRn [H1 H2]]]]. pose proof HRn as (R1&R2&R3&R4&R5).
    assert (Hse : (s < e)%nat).
    { destruct Hn as [Hn|[Hn1 Hn2]].
      - destruct (Nat.lt_ge_cases k e) as [L|L]; [lia|]. assert (k = e) by lia. subst k.
        destruct R5 as [R5|R5]; [rewrite nth_overflow in Hn by lia; discriminate|unfold nthb in *; congruence].
      - destruct (Nat.lt_ge_cases s k) as [L|L]; [lia|]. assert (k = s) by lia. subst k.
        destruct R4 as [R4|R4]; [lia|unfold nthb in *; congruence]. }
    exists (at_ x s), (at_ x e). split.
    + apply in_map_iff. exists (s, e). split; [reflexivity|]. apply HR. split; assumption.
    + pose proof (increasing_nondecreasing _ HX) as HN. split; apply HN; lia.
Qed.
Print Assumptions C29_coverage.
Example C29_example : mask_to_intervals [0;1;2;3;4;5;6] [true;true;false;true;false;true;true] = Ok [(0,1);(5,6)].
Proof. reflexivity. Qed.

(** * C30: multimodal bands *)
Definition peak_of (dens : list Q) : Q := qmax_list (hd 0 dens) dens.
(** The bands are the runs (of at least two points) where the normalised density is at least a
    threshold [t], and [t] is the level whose superlevel mass (scipy's Simpson rule) is the wanted
    area, up to the solver's tolerance; if there are no such runs the HDI interval is reported. *)
Theorem C30_bands : forall m area h, mg_ok m -> 0 < h -> uniform h (mg_xs m) -> 0 < area < 1 ->
  exists dens, (forall i, (i < length (mg_xs m))%nat -> at_ dens i == at_ (mg_ys m) i / simpson (mg_xs m) (mg_ys m)) /\
    length dens = length (mg_xs m) /\ simpson (mg_xs m) dens == 1 /\
    let mass := fun level => simpson (mg_xs m) (map (fun y => if Qle_bool level y then y else 0) dens) in
    let top := peak_of dens in
    let slack := (5#10000) + (8881784197001252 # 10000000000000000000000000000000) * top in
    In top dens /\ (forall i, (i < length dens)%nat -> at_ dens i <= top) /\
    (mass top < area -> top < (5#10000) * inject_Z (2 ^ 100) ->
      exists t rs ivs, 0 < t < top /\
        (mass t == area \/ ((forall v, v <= t - slack -> area < mass v) /\ (forall v, t + slack <= v -> mass v < area))) /\
        hdi_intervals area m = Ok ivs /\
        (forall s e, In (s, e) rs <-> (is_run (map (fun y => Qle_bool t y) dens) s e /\ (s < e)%nat)) /\
        (forall a b, (a < b < length rs)%nat -> (snd (nth a rs (0,0)%nat) + 1 < fst (nth b rs (0,0)%nat))%nat) /\
        ((rs <> [] /\ ivs = map (fun se => (at_ (mg_xs m) (fst se), at_ (mg_xs m) (snd se))) rs) \/
         (rs = [] /\ exists l c u, summary_hdi area m = mkB l c u /\ ivs = [(l, u)]))) /\
    (area < mass top -> hdi_intervals area m = Err ValueError).
Proof.
  intros m area h HM Hh HU HA. destruct (hdi_density_ok m HM h Hh HU) as [dens [E1 [E2 [E3 [E4 E5]]]]].
  exists dens. split; [exact E5|]. split; [exact E2|]. split; [exact E4|]. cbv zeta.
  destruct (peak_spec m HM h Hh HU dens E1) as [P1 [P2 P3]].
  split; [exact P2|]. split; [exact P1|]. split.
  - intros Hm Hp. destruct (threshold_spec m HM h Hh HU dens E1 area HA Hm Hp) as [t [T1 [T2 T3]]].
    destruct (mask_runs (mg_xs m) (map (fun y => Qle_bool t y) dens) (mok_inc _ _ _ HM) ltac:(rewrite map_length; exact E2))
      as [rs [R1 [R2 R3]]].
    exists t, rs. eexists. split; [exact T2|]. split; [exact T3|].
    split; [unfold hdi_intervals; rewrite E1; cbn [rbind]; rewrite T1; cbn [rbind]; rewrite R1; cbn [rbind]; reflexivity|].
    split; [exact R2|]. split; [exact R3|].
    destruct rs as [|[s e] rs].
    + right. split; [reflexivity|]. unfold summary_hdi, mkB. cbn [b_lower b_upper map]. eexists _, _, _. split; reflexivity.
    + left. split; [discriminate|]. reflexivity.
  - intros Hm. unfold hdi_intervals. rewrite E1. cbn [rbind].
    rewrite (threshold_err m HM h Hh HU dens E1 area ltac:(lra) Hm). reflexivity.
Qed.
Print Assumptions C30_bands.
(** The integrals above are Simpson's: exact for every parabola, on any increasing grid of three or more points. *)
Theorem C30_simpson : forall xs ys a b c, increasing xs -> (3 <= length xs)%nat -> length ys = length xs ->
  (forall i, (i < length xs)%nat -> at_ ys i = a * at_ xs i * at_ xs i + b * at_ xs i + c) ->
  let F := fun x => a / 3 * x * x * x + b / 2 * x * x + c * x in
  simpson xs ys == F (at_ xs (length xs - 1)) - F (at_ xs 0).
Proof. exact simpson_exact. Qed.
Print Assumptions C30_simpson.
Example C30_simpson_nonvacuous : increasing [0; 1; 3; 4] /\ simpson [0; 1; 3; 4] [0; 1; 9; 16] == 64 # 3.
Proof. split; [|vm_compute; reflexivity]. apply increasing_small. intros i H. cbn in H. do 3 (destruct i as [|i]; [reflexivity|]). lia. Qed.
Example C30_example : uniform 1 (mg_xs ex_m) /\ exists ivs, hdi_intervals (6#10) ex_m = Ok ivs /\ ivs <> [].
Proof.
  split; [|eexists; split; [vm_compute; reflexivity|discriminate]].
  intros i Hi. cbn in Hi. do 4 (destruct i as [|i]; [reflexivity|]). lia.
Qed.
(** The tolerance is absolute in density: on a wide axis (peak density below 1e-3) the bands are those
    at half the peak density, whatever the area. *)
Theorem C30_wide_scale_refuted : forall m area h, mg_ok m -> 0 < h -> uniform h (mg_xs m) -> 0 < area < 1 ->
  exists dens, (forall i, (i < length (mg_xs m))%nat -> at_ dens i == at_ (mg_ys m) i / simpson (mg_xs m) (mg_ys m)) /\
    (mass_above dens (mg_xs m) (peak_of dens) < area -> peak_of dens < 1 # 1000 ->
     exists t, hdi_threshold area m dens = Ok t /\ t == (1#2) * peak_of dens).
Proof.
  intros m area h HM Hh HU HA. destruct (hdi_density_ok m HM h Hh HU) as [dens [E1 [E2 [E3 [E4 E5]]]]].
  exists dens. split; [exact E5|]. intros Hm Hp. apply (threshold_wide m HM h Hh HU dens E1 area ltac:(lra) Hm).
  unfold hdi_xtol. unfold peak_of in Hp. lra.
Qed.
Print Assumptions C30_wide_scale_refuted.
(** Rescaling the axis by 1000 changes which points are in the bands. *)
Theorem C30_not_scale_free_refuted : exists m m' ivs ivs' area, mg_ok m /\ mg_ok m' /\
  mg_ys m' = mg_ys m /\ mg_cs m' = mg_cs m /\ mg_xs m' = map (fun x => 1000 * x) (mg_xs m) /\
  hdi_intervals area m = Ok ivs /\ hdi_intervals area m' = Ok ivs' /\
  ivs' <> map (fun iv => (1000 * fst iv, 1000 * snd iv)) ivs.
Proof.
  exists {| mg_xs := [0;1;2;3;4;5;6]; mg_ys := [1;2;5;9;5;2;1]; mg_cs := [1#25; 3#25; 8#25; 17#25; 22#25; 24#25; 1] |},
         {| mg_xs := [0;1000;2000;3000;4000;5000;6000]; mg_ys := [1;2;5;9;5;2;1];
            mg_cs := [1#25; 3#25; 8#25; 17#25; 22#25; 24#25; 1] |}.
  eexists _, _, (95#100).
  split; [apply mokb_ok; vm_compute; reflexivity|]. split; [apply mokb_ok; vm_compute; reflexivity|].
  split; [reflexivity|]. split; [reflexivity|]. split; [reflexivity|].
  split; [vm_compute; reflexivity|]. split; [vm_compute; reflexivity|]. vm_compute. discriminate.
Qed.
Print Assumptions C30_not_scale_free_refuted.

(** * C31: one bound per band, its centre the highest point of the band *)
Theorem C31_bounds : forall m lo hi, mg_ok m -> In lo (mg_xs m) -> In hi (mg_xs m) -> lo <= hi ->
  exists l c u k, multimodal_bound m (lo, hi) = mkB l c u /\ l == lo /\ u == hi /\ l <= c <= u /\
    (k < length (mg_xs m))%nat /\ at_ (mg_xs m) k == c /\
    forall j, (j < length (mg_xs m))%nat -> lo <= at_ (mg_xs m) j <= hi -> at_ (mg_ys m) j <= at_ (mg_ys m) k.
Proof. exact multimodal_bound_ok. Qed.
Print Assumptions C31_bounds.
Theorem C31_one_per_band : forall m ivs, length (multimodal_bounds m ivs) = length ivs /\
  forall i d1 d2, (i < length ivs)%nat -> nth i (multimodal_bounds m ivs) d1 = multimodal_bound m (nth i ivs d2).
Proof.
  intros m ivs. unfold multimodal_bounds. split; [apply map_length|]. intros i d1 d2 Hi.
  rewrite (nth_indep _ d1 (multimodal_bound m d2)) by (rewrite map_length; exact Hi). apply map_nth.
Qed.
Print Assumptions C31_one_per_band.
Example C31_example : In 1 (mg_xs ex_m) /\ In 3 (mg_xs ex_m) /\ multimodal_bound ex_m (1,3) = mkB 1 2 3.
Proof. repeat split; [right; left; reflexivity|do 3 right; left; reflexivity]. Qed.
