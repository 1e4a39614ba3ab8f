(** Proofs: the numbers of a summary are what the chosen statistic says of the density curve of the samples. *)
From Coq Require Import String QArith Qabs Qround List Arith ZArith Bool Lia.
From Verif Require Import Py NumSpec NumModel NumFacts InterpFacts HelpersSpec HelpersModel HelpersProofs ExtentsProofs MarginalModel SummarySpec SimpsonFacts MarginalProofs QuantileProofs MaxProofs HdiProofs BandProofs DensityProofs
  FrameModel FrameFacts ConfigModel ChainModel RegistryModel TextModel AnalysisModel AnalysisSpec EquivSpec EquivApi SessionProofs HelpersProps SummaryProps ReportSpec ReportProofs MeaningSpec.
From Coq Require Import Lqa.
Import ListNotations.
Open Scope list_scope.
Open Scope Q_scope.

(** ** The curve *)
Lemma falls_test e i x : falls e i x = bin_test e i x.
Proof.
  unfold falls, bin_test, in_bin. f_equal. destruct (S (S i) =? length e)%nat; cbn [andb].
  - apply eq_true_iff_eq. rewrite orb_true_iff, qlt_true, !qle_true. split; [right; assumption|intros [H|H]; lra].
  - rewrite orb_false_r. reflexivity.
Qed.
Lemma weight_same p q d : (forall x, p x = q x) -> weight_if p d == weight_if q d.
Proof. intros H. induction d as [|[x w] d IH]; cbn [weight_if]; [reflexivity|]. rewrite H, IH. reflexivity. Qed.
Lemma density_bins e d h : increasing e -> (2 <= length e)%nat -> hist_density e d = Ok h -> bin_density e d h.
Proof.
  intros HI HL H. destruct (hist_density_inv _ _ _ H) as (L&_&_&V). split; [exact L|]. intros i Hi. rewrite V by exact Hi. unfold np_histogram. rewrite hist_bins_at by exact Hi. rewrite qsum_total, hist_total by (try assumption; apply increasing_nondecreasing; exact HI).
  rewrite (weight_same (bin_test e i) (falls e i)) by (intros x; symmetry; apply falls_test). reflexivity.
Qed.
Lemma centres_of e : centres e (bin_centers e).
Proof. split; [apply bin_centers_length|]. intros i Hi. rewrite bin_centers_at by exact Hi. ring. Qed.
Lemma edges_same nbins c d pad e e' : edges_of nbins c d pad e -> edges_of nbins c d pad e' -> e = e'.
Proof. unfold edges_of. destruct (m_grid c); [intros H H'; congruence|]. intros [s H] [s' H']. congruence. Qed.
(** The kernel density estimate, interpolated. *)
Lemma kde_inv nbins npts nkde c d pad m : m_kde c = true -> smoothed_histogram nbins npts nkde c d pad = Ok m ->
  exists e n area, edges_of nbins c d pad e /\ (nkde <= n)%nat /\ ~ area == 0 /\
    let ks := linspace (at_ (bin_centers e) 0) (last (bin_centers e) 0) n in
    opt_all (map (interp1d ks (map (fun y => y / area) (map (m_kde_eval c) ks))) (mg_xs m)) = Some (mg_ys m).
Proof.
  intros K H. unfold smoothed_histogram in H. rewrite K in H.
  destruct (if m_grid c then _ else _) as [e|] eqn:EB; [|discriminate]. cbn [rbind] in H. exists e.
  assert (HE : edges_of nbins c d pad e).
  { unfold edges_of. destruct (m_grid c); [exact EB|]. destruct (get_smoothed_bins _ _ _ d false pad) as [[e' s]|]; [|discriminate]. cbn [rmap fst] in EB. injection EB as ->. exists s. reflexivity. }
  destruct (bin_centers e) as [|c0 cr]; [discriminate|]. destruct (hist_density e d) as [h0|]; [|discriminate]. cbn [rbind] in H. cbv zeta in H.
  set (n := Nat.max nkde _) in H. set (ks := linspace c0 (last (c0 :: cr) 0) n) in H. set (area := simpson ks (map (m_kde_eval c) ks)) in H.
  destruct (Qeq_bool area 0) eqn:EA; [discriminate|]. destruct (opt_all _) as [ys|] eqn:EO in H; [|discriminate].
  destruct (Qeq_bool _ 0) in H; [discriminate|]. injection H as <-. cbn [mg_xs mg_ys]. exists n, area. split; [exact HE|]. split; [unfold n; lia|]. split; [apply qeqb_false; exact EA|exact EO].
Qed.

Section curve.
Variables (num : numerics) (c : chain) (f : frame) (p : string) (d : wdata) (mn mx : Q).
Hypothesis HU : usable num c.
Hypothesis HF : frame_wf f.
Hypothesis HS : sample c f p d.
Hypothesis HW : positive_weights d.
Hypothesis Hmn : is_min mn (map fst d).
Hypothesis Hmx : is_max mx (map fst d).
Hypothesis Hlt : mn < mx.
Lemma sample_columns : exists x w, get_data f p = Ok x /\ weights c f = Ok w /\ d = combine x w /\ map fst d = x /\ map snd d = w.
Proof.
  destruct HS as [x [w [X [W E]]]]. exists (qs x), (qs w). unfold get_data, weights. rewrite X, W. split; [reflexivity|]. split; [reflexivity|]. split; [exact E|].
  assert (L : length (qs x) = length (qs w)).
  { unfold qs. rewrite !map_length. apply (f_get_wf f _ _ HF) in X. apply (f_get_wf f _ _ HF) in W. destruct HF as [_ L]. rewrite (L _ _ X), (L _ _ W). reflexivity. }
  rewrite E. clear -L. revert L. generalize (qs x) (qs w). induction l as [|a l IH]; intros [|b r] L; cbn in *; try discriminate; [auto|]. injection L as L. destruct (IH r L) as [-> ->]. auto.
Qed.
Lemma curve_facts pad m : chain_marginal num c f p pad = Ok m -> curve_of num c f d pad (mg_xs m) (mg_ys m) (mg_cs m).
Proof.
  destruct sample_columns as [x [w (X&W&E&Ex&Ew)]]. unfold chain_marginal. rewrite X, W. cbn [rbind]. rewrite <- E. intros H. pose proof HU as [U1 U2 U3 U4 U5 U6 U7 U8].
  assert (NE : d <> []) by (intros Z; rewrite Z in Hmn; destruct Hmn as [[] _]). set (k := marginal_config num c f x w) in *. assert (CK : cfg_ok k) by (apply config_ok; exact HU).
  destruct (C22_marginal _ _ _ _ _ _ _ U1 U2 U3 HW NE CK H) as [e (E1&E2&E3&K)]. cbv zeta in K. destruct K as (K1&_&_&_&_&_&_&_&K9).
  destruct (edges_range (n_bins num) k d pad e mn mx U1 HW Hmn Hmx Hlt U8 E1 E2 E3) as [L3 _]. destruct (K9 L3) as [M1 _].
  pose proof (bin_centers_length e) as LC. pose proof (centres_of e) as CC.
  assert (C0 : at_ (bin_centers e) 0 == (1#2) * (at_ e 0 + at_ e 1)) by (apply CC; lia).
  assert (CL : at_ (bin_centers e) (length (bin_centers e) - 1) == (1#2) * (at_ e (length e - 2) + at_ e (length e - 1))).
  { rewrite LC. replace (length e - 1 - 1)%nat with (length e - 2)%nat by lia. rewrite (proj2 CC) by lia. replace (S (length e - 2)) with (length e - 1)%nat by lia. reflexivity. }
  assert (LX : length (mg_xs m) = n_points num) by apply K1.
  exists e, (bin_centers e). split; [unfold bins_of, edges_of in *; cbn [k marginal_config m_grid m_smooth m_bins m_rows m_cols] in E1; destruct (ch_grid c); exact E1|]. split; [exact E2|]. split; [exact L3|]. split; [exact CC|].
  split; [destruct K1 as (A1&A2&A3&A4); split; [exact A1|]; split; [rewrite A2, C0; reflexivity|]; split; [rewrite A3, CL; reflexivity|exact A4]|]. split; [exact M1|].
  destruct (kde_on (ch_cfg c Fkde)) eqn:EK.
  - destruct (kde_inv _ _ _ _ _ _ _ (EK : m_kde k = true) H) as [e' [n [area (F1&F2&F3&F4)]]]. rewrite <- (edges_same _ _ _ _ _ _ E1 F1) in F4. cbv zeta in F4.
    set (ks := linspace _ _ n) in F4. exists n, ks, area, (map (fun y => y / area) (map (m_kde_eval k) ks)). assert (N2 : (2 <= n)%nat) by lia.
    assert (LK : length ks = n) by apply linspace_length. assert (LE : last (bin_centers e) 0 = at_ (bin_centers e) (length (bin_centers e) - 1)) by (apply last_at; intros Z; rewrite Z in LC; cbn in LC; lia).
    split; [exact F2|]. split; [unfold ks; rewrite LE; apply linspace_evenly; exact N2|]. split; [exact F3|]. split; [rewrite !map_length; exact LK|]. split.
    + intros i Hi. rewrite at_map by (rewrite map_length; lia). rewrite at_map by lia. rewrite Ex, Ew. reflexivity.
    + intros i Hi. destruct (opt_all_some _ _ F4) as [O1 O2]. rewrite map_length in O1, O2. specialize (O2 i 0 ltac:(lia)).
      rewrite (nth_indep _ None (interp1d ks (map (fun y => y / area) (map (m_kde_eval k) ks)) 0)) in O2 by (rewrite map_length; lia). rewrite map_nth in O2. fold (at_ (mg_xs m) i) (at_ (mg_ys m) i) in O2.
      destruct (interp1d_some _ _ _ _ O2) as [A [B ->]]. apply np_interp_polyline; [rewrite !map_length; lia|lia| |apply B|apply B].
      apply linspace_nondecreasing. rewrite LE. apply (increasing_nondecreasing _ (bin_centers_increasing e E2)); lia.
  - destruct (C22_curve _ _ _ _ _ _ _ U1 U2 U3 HW NE CK (EK : m_kde k = false) H) as [e' [h0 [h1 [h2 (F1&F2&F3&F4&F5&F6)]]]]. rewrite <- (edges_same _ _ _ _ _ _ E1 F1) in *. exists h0, h2.
    split; [apply density_bins; [exact E2|lia|exact F3]|]. split; [subst h1; exact F5|]. intros i Hi. apply F6; [exact L3|lia].
Qed.
End curve.

(** ** The statistics *)
Lemma given_mkB l x u : given3 (mkB l x u) l x u.
Proof. repeat split. Qed.
Section stats.
Variables (num : numerics) (m : marginal) (area : Q).
Hypothesis HM : mg_ok m.
Hypothesis HA : 0 < area <= 1.
Lemma cumulative_means b : summary_cumulative area m = Ok b -> statistic_means num SCumulative area (mg_xs m) (mg_ys m) (mg_cs m) b.
Proof.
  intros H. destruct (Qlt_le_dec ((1#2) - area / 2) (at_ (mg_cs m) 0)) as [L|L]; [rewrite (cumulative_err m area HM L) in H; discriminate|].
  destruct (C24_quantiles m area HM ltac:(lra) L) as [l [x [u (E&_&A&B&C)]]]. rewrite E in H. injection H as <-. exists l, x, u. split; [apply given_mkB|]. auto.
Qed.
Lemma mean_means b : summary_mean area m = Ok b -> statistic_means num SMean area (mg_xs m) (mg_ys m) (mg_cs m) b.
Proof.
  intros H. destruct (Qlt_le_dec ((1#2) - area / 2) (at_ (mg_cs m) 0)) as [L|L]; [rewrite (mean_err m area HM L) in H; discriminate|].
  destruct (C24_quantiles m area HM ltac:(lra) L) as [l [x [u (E&_&A&_&C)]]]. destruct (C25_mean m area HM ltac:(lra) L) as [l' [x' [u' (E1&E2&_)]]]. rewrite E in E1. injection E1 as <- <- <-. rewrite E2 in H. injection H as <-.
  exists l, ((1#2) * (l + u)), u. split; [apply given_mkB|]. split; [exact A|]. split; [exact C|]. field.
Qed.
Lemma max_central_means b : summary_max_central area m = Ok b -> statistic_means num SMaxCentral area (mg_xs m) (mg_ys m) (mg_cs m) b.
Proof.
  intros H. destruct (Qlt_le_dec ((1#2) - area / 2) (at_ (mg_cs m) 0)) as [L|L]; [rewrite (max_central_err m area HM) in H by (pose proof (half_area area) as E2; lra); discriminate|].
  destruct (C26_max_central_partial m area HM ltac:(lra) L) as [l [x [u (E&_&A&B&C)]]]. rewrite E in H. injection H as <-. exists l, x, u. split; [apply given_mkB|]. auto.
Qed.
Lemma max_means b : (2 <= n_pad num)%nat -> summary_max (n_pad num) (n_tries num) area m = Ok b -> statistic_means num SMax area (mg_xs m) (mg_ys m) (mg_cs m) b.
Proof.
  intros Hn H. destruct (C27_max (n_pad num) (n_tries num) area m Hn HM) as [pxs [pys [k (P1&P2&P3&P4)]]]. exists pxs, pys, k. split; [exact P1|]. split; [exact P2|]. split; [exact P3|].
  destruct P4 as [[level [i1 [i2 (E&A&B&C&_)]]]|[E A]]; rewrite E in H; injection H as <-; (split; [reflexivity|]); [left; exists level, i1, i2; split; [apply given_mkB|]; auto|right; split; [reflexivity|]; split; [reflexivity|exact A]].
Qed.
Lemma hdi_means : statistic_means num SHdi area (mg_xs m) (mg_ys m) (mg_cs m) (summary_hdi area m).
Proof.
  destruct (hdi_sound m area HM HA) as [p [j [x (P1&_&P2&P3&P4&P5&P6&P7&P8&P9)]]]. eexists _, x, _, p, j. split; [split; [exact P2|]; split; [exact P4|exact P3]|]. split; [exact P1|]. split; [exact P5|]. split; [exact P6|]. split; [exact P7|]. split; [exact P8|]. split; [exact P9|].
  intros SP C0 p' j' PJ MS. destruct (C28_hdi_narrowest m area HM HA SP C0) as [l [x' [u [E N]]]]. rewrite E in P2, P3. cbn [mkB b_lower b_upper] in P2, P3. injection P2 as P2. injection P3 as P3. subst l u. apply N; assumption.
Qed.
(** The bands *)
Lemma superlevel_of h ivs : 0 < h -> uniform h (mg_xs m) -> hdi_intervals area m = Ok ivs ->
  exists rs, superlevel area (mg_xs m) (mg_ys m) rs /\ (((2 <= length ivs)%nat -> ivs = map (fun se => (at_ (mg_xs m) (fst se), at_ (mg_xs m) (snd se))) rs) /\ ((length ivs < 2)%nat -> (length rs < 2)%nat)).
Proof.
  intros Hh Hu H. destruct (hdi_density_ok m HM h Hh Hu) as [dens [E1 [E2 [E3 [E4 E5]]]]]. unfold hdi_intervals in H. rewrite E1 in H. cbn [rbind] in H. apply rbind_ok in H. destruct H as [t [T H]].
  destruct (mask_runs (mg_xs m) (map (fun y => Qle_bool t y) dens) (mok_inc _ _ _ HM) ltac:(rewrite map_length; exact E2)) as [rs [R1 [R2 R3]]]. rewrite R1 in H. cbn [rbind] in H. exists rs. split.
  - exists dens, t. split; [exact E2|]. split; [exact E5|]. split; [exact E4|]. split; [exact R2|]. split; [exact R3|]. cbv zeta. intros top TM A1 MT TS.
    destruct (peak_spec m HM h Hh Hu dens E1) as [P1 [P2 P3]]. assert (EQ : top == qmax_list (hd 0 dens) dens).
    { destruct TM as [T1 T2]. pose proof (T2 _ P2). destruct (In_at _ _ T1) as [i [Hi <-]]. pose proof (P1 i Hi). lra. }
    change (mass_above dens (mg_xs m) top < area) in MT.
    assert (ME : mass_above dens (mg_xs m) top = mass_above dens (mg_xs m) (qmax_list (hd 0 dens) dens)).
    { unfold mass_above. f_equal. apply map_ext. intros y. rewrite (Qleb_comp _ _ EQ y y (Qeq_refl y)). reflexivity. }
    rewrite ME in MT. assert (TB : qmax_list (hd 0 dens) dens < hdi_xtol * inject_Z (2 ^ 100)) by (apply (Qle_lt_trans _ top); [apply Qle_lteq; right; symmetry; exact EQ|exact TS]). set (peak := qmax_list (hd 0 dens) dens) in *.
    destruct (threshold_spec m HM h Hh Hu dens E1 area ltac:(lra) MT TB) as [t' [T1 [T2 T3]]]. rewrite T in T1. injection T1 as <-. split; [split; [apply T2|apply (Qlt_le_trans _ peak); [apply T2|apply Qle_lteq; right; symmetry; exact EQ]]|].
    destruct T3 as [T3|[T3 T4]]; [left; exact T3|right]. unfold hdi_xtol, bisect_rtol in T3, T4. fold peak in T3, T4. split; intros v Hv; [apply T3|apply T4]; revert Hv; rewrite EQ; intros Hv; exact Hv.
  - destruct rs as [|r rs].
    + cbn in H. injection H as <-. cbn. split; intros L; lia.
    + cbn in H. injection H as <-. cbn. rewrite map_length. split; [intros _; reflexivity|lia].
Qed.
Lemma mode_of s e : (s < e < length (mg_xs m))%nat -> mode_means (mg_xs m) (mg_ys m) (s, e) (multimodal_bound m (at_ (mg_xs m) s, at_ (mg_xs m) e)).
Proof.
  intros SE. pose proof (mok_inc _ _ _ HM) as HI. pose proof (increasing_nondecreasing _ HI) as HN.
  destruct (C31_bounds m (at_ (mg_xs m) s) (at_ (mg_xs m) e) HM) as [l [x [u [k (E&El&Eu&O&K&Ek&N)]]]]; [apply at_In; lia|apply at_In; lia|apply HN; lia|].
  rewrite E. exists l, x, u, k. cbn [fst snd]. split; [apply given_mkB|]. split; [exact El|]. split; [exact Eu|]. split.
  - split; [destruct (le_lt_dec s k) as [Z|Z]; [exact Z|exfalso; pose proof (HI k s Z ltac:(lia)); lra]|destruct (le_lt_dec k e) as [Z|Z]; [exact Z|exfalso; pose proof (HI e k Z ltac:(lia)); lra]].
  - split; [symmetry; exact Ek|]. intros j Hj. apply N; [lia|]. split; apply HN; lia.
Qed.
End stats.

(** ** One entry *)
Section entry.
Variables (num : numerics) (c : chain) (f : frame) (p : string) (d : wdata) (mn mx : Q).
Hypothesis HU : usable num c.
Hypothesis HA : 0 < ch_cfg c Fsummary_area <= 1.
Hypothesis HF : frame_wf f.
Hypothesis HS : sample c f p d.
Hypothesis HW : positive_weights d.
Hypothesis Hmn : is_min mn (map fst d).
Hypothesis Hmx : is_max mx (map fst d).
Hypothesis Hlt : mn < mx.
Lemma one_means b : get_parameter_summary num c f p = Ok b ->
  exists s xs ys cs, ch_cfg c Fstatistics = Some s /\ curve_of num c f d (match s with SHdi => true | _ => false end) xs ys cs /\ statistic_means num s (ch_cfg c Fsummary_area) xs ys cs b.
Proof.
  intros H. destruct (ch_cfg c Fstatistics) as [st|] eqn:ES; [|unfold get_parameter_summary in H; rewrite ES in H; discriminate].
  rewrite (summary_marginal num c f p d HS st ES) in H. exists st.
  destruct st; apply rbind_ok in H; destruct H as [m [M H]]; exists (mg_xs m), (mg_ys m), (mg_cs m); (split; [reflexivity|]); (split; [eapply (curve_facts num c f p d mn mx); eassumption|]);
    destruct (marginal_facts num c f p d mn mx HU HS HW Hmn Hmx Hlt _ m M) as [OK _].
  - apply max_means; try assumption. apply HU.
  - apply mean_means; assumption.
  - apply cumulative_means; assumption.
  - apply max_central_means; assumption.
  - injection H as <-. apply hdi_means; assumption.
Qed.
Lemma entry_meaning e : entry_of num c f p e -> entry_means num c f d e.
Proof.
  intros [b [B H]]. destruct H as [[MF ->]|[MT [bands [IV H]]]].
  - split; [apply one_means; exact B|]. rewrite MF. discriminate.
  - unfold get_parameter_hdi_intervals in IV. apply rbind_ok in IV. destruct IV as [m [M IV]]. destruct (marginal_facts num c f p d mn mx HU HS HW Hmn Hmx Hlt true m M) as [OK [[h [Hh Hu]] _]].
    pose proof (curve_facts num c f p d mn mx HU HF HS HW Hmn Hmx Hlt true m M) as CV. destruct (superlevel_of m _ OK HA h bands Hh Hu IV) as [rs [SL [R2 R1]]].
    destruct H as [[L ->]|[L [bs [MB ->]]]].
    + split; [apply one_means; exact B|]. intros _. exists (mg_xs m), (mg_ys m), (mg_cs m), rs. split; [exact CV|]. split; [exact SL|apply R1; exact L].
    + split; [exact MT|]. unfold get_parameter_multimodal_bounds in MB. rewrite M in MB. cbn in MB. injection MB as <-. pose proof (R2 L) as RB. rewrite RB in L |- *. rewrite map_length in L. exists (mg_xs m), (mg_ys m), (mg_cs m), rs. split; [exact CV|]. split; [exact SL|]. split; [exact L|].
      unfold multimodal_bounds. rewrite map_map. assert (RI : forall r, In r rs -> (fst r < snd r < length (mg_xs m))%nat).
      { destruct SL as [dens [t (S1&_&_&S2&_)]]. intros [s e] HI. apply S2 in HI. destruct HI as [(_&I2&_) I1]. rewrite map_length, S1 in I2. cbn. lia. }
      clear -RI OK HA. induction rs as [|[s e] rs IH]; cbn [map]; constructor; [|apply IH; intros r Hr; apply RI; right; exact Hr].
      cbn [fst snd]. apply (mode_of m OK). apply (RI (s, e)). left. reflexivity.
Qed.
End entry.
