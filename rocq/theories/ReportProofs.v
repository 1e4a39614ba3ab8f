(** Proofs: reported intervals are ordered, lie in the range of the data and grow with the area. *)
From Coq Require Import String QArith Qabs Qround List Arith ZArith Bool Lia Permutation.
From Verif Require Import Py NumSpec NumModel NumFacts InterpFacts HelpersSpec HelpersModel HelpersProofs ExtentsProofs MarginalModel SummarySpec SimpsonFacts MarginalProofs QuantileProofs MaxProofs HdiProofs BandProofs
  FrameModel FrameFacts ConfigModel ChainModel RegistryModel TextModel AnalysisModel AnalysisSpec EquivSpec EquivApi SessionProofs HelpersProps SummaryProps ReportSpec.
From Coq Require Import Lqa.
Import ListNotations.
Open Scope list_scope.
Open Scope Q_scope.

(** ** The positions of a marginal *)
Lemma unique_range data mn mx i : is_min mn data -> is_max mx data -> (i < length (np_unique data))%nat -> mn <= at_ (np_unique data) i <= mx.
Proof.
  intros [_ M1] [_ M2] Hi. pose proof (at_In (np_unique data) i Hi) as H.
  assert (Q0 : Qin (at_ (np_unique data) i) (np_unique data)) by (exists (at_ (np_unique data) i); split; [exact H|reflexivity]).
  apply (proj1 (np_unique_in _ _)) in Q0. destruct Q0 as [y [Hy E]]. pose proof (M1 y Hy). pose proof (M2 y Hy). rewrite <- E. lra.
Qed.
Lemma get_bins_three bins smooth grid rows cols : (forall b, bins = Some b -> (3 <= b)%Z) -> (3 <= get_bins bins smooth grid rows cols)%Z.
Proof. intros H. unfold get_bins. destruct bins as [b|]; [apply H; reflexivity|]. destruct (_ <? _)%Z; lia. Qed.

(** How far beyond the samples the positions may go. *)
Definition slack_of (grid pad : bool) (mn mx : Q) : Q := if negb grid && pad then (mx - mn) / 5 else 0.
Lemma edges_range nbins c d pad e mn mx : (2 <= nbins)%nat -> positive_weights d -> is_min mn (map fst d) -> is_max mx (map fst d) -> mn < mx ->
  (forall b, m_bins c = Some b -> (3 <= b)%Z) -> edges_of nbins c d pad e -> increasing e -> (2 <= length e)%nat ->
  (3 <= length e)%nat /\ mn - slack_of (m_grid c) pad mn mx <= (1#2) * (at_ e 0 + at_ e 1) /\
  (1#2) * (at_ e (length e - 2) + at_ e (length e - 1)) <= mx + slack_of (m_grid c) pad mn mx.
Proof.
  intros Hn HW Hmn Hmx Hlt HB. unfold edges_of, slack_of. destruct (m_grid c) eqn:G; cbn [negb andb].
  - intros H HI _. destruct (grid_bins_spec _ _ H) as [H1 [H2 [H3 H4]]]. cbv zeta in *.
    pose proof (unique_range _ _ _ 0%nat Hmn Hmx ltac:(lia)) as R0. pose proof (unique_range _ _ _ (length (np_unique (map fst d)) - 1)%nat Hmn Hmx ltac:(lia)) as R1.
    set (u := np_unique (map fst d)) in *.
    split; [lia|]. split; [rewrite !H3 by lia; lra|]. rewrite H2. replace (S (length u) - 2)%nat with (length u - 1)%nat by lia. replace (S (length u) - 1)%nat with (length u) by lia. rewrite H4, H3 by lia. lra.
  - intros [s H] HI HL. unfold get_smoothed_bins in H.
    destruct (C20_extents_partial nbins d false true false mn mx Hn HW Hmn Hmx Hlt) as [lo [hi (E1&E2&E3&E4&E5&_)]].
    assert (E : exists lo' hi', get_extents nbins d false true false pad = Ok (lo', hi') /\ lo' <= hi' /\ mn - (if pad then (mx - mn) / 5 else 0) <= lo' /\ hi' <= mx + (if pad then (mx - mn) / 5 else 0)).
    { assert (F5 : (mx - mn) / 5 == (1#5) * (mx - mn)) by field. destruct pad; [exists (lo - (1#5) * (hi - lo)), (hi + (1#5) * (hi - lo))|exists lo, hi]; (split; [assumption|]); rewrite ?F5; repeat split; lra. }
    destruct E as [lo' [hi' [E [R0 [R1 R2]]]]]. rewrite E in H. cbn [rbind] in H.
    pose proof (get_bins_three (m_bins c) (m_smooth c) false (m_rows c) (m_cols c) HB) as B3. set (b := get_bins _ _ _ _ _) in *. set (sv := smooth_value _ _) in *.
    assert (K : exists k, e = linspace lo' hi' k /\ (3 <= k)%nat).
    { destruct (sv =? 0)%Z eqn:ES.
      - destruct (b <? 0)%Z; [discriminate|]. injection H as <- _. exists (Z.to_nat b). split; [reflexivity|lia].
      - destruct (2 * sv * b <? 0)%Z eqn:EN; [discriminate|]. injection H as <- _. exists (Z.to_nat (2 * sv * b)). split; [reflexivity|]. apply Z.eqb_neq in ES. apply Z.ltb_ge in EN.
        assert (1 <= sv)%Z by nia. assert (6 <= 2 * sv * b)%Z by nia. lia. }
    destruct K as [k [-> K]]. rewrite linspace_length in *.
    pose proof (linspace_range lo' hi' k 0 R0 ltac:(lia) ltac:(lia)). pose proof (linspace_range lo' hi' k 1 R0 ltac:(lia) ltac:(lia)).
    pose proof (linspace_range lo' hi' k (k - 2) R0 ltac:(lia) ltac:(lia)). pose proof (linspace_range lo' hi' k (k - 1) R0 ltac:(lia) ltac:(lia)).
    split; [lia|]. split; lra.
Qed.

Lemma even_range a b n l i : (2 <= n)%nat -> a <= b -> evenly_spaced a b n l -> (i < n)%nat -> a <= at_ l i <= b.
Proof.
  intros Hn Hab [L [E0 [E1 [st ES]]]] Hi.
  assert (F : forall j, (j < n)%nat -> at_ l j == a + nq j * st).
  { induction j as [|j IH]; intros Hj; [rewrite E0; unfold nq; cbn; ring|]. pose proof (ES j Hj) as HS. pose proof (IH ltac:(lia)) as HI. rewrite nq_S. assert (Z : at_ l (S j) == at_ l j + st) by lra. rewrite Z, HI. ring. }
  assert (S0 : 0 <= st).
  { rewrite (F (n - 1)%nat ltac:(lia)) in E1. destruct (Qlt_le_dec st 0) as [Ls|Ls]; [exfalso|exact Ls]. assert (N1 : 0 < nq (n - 1)) by (apply nq_pos; lia). nra. }
  assert (ND : nondecreasing l) by (apply nondecreasing_step; intros j Hj; rewrite L in Hj; pose proof (ES j Hj); lra).
  split; [rewrite <- E0|rewrite <- E1]; apply ND; lia.
Qed.

Section marg.
Variables (num : numerics) (c : chain) (f : frame) (p : string) (d : wdata) (mn mx : Q).
Hypothesis HU : usable num c.
Hypothesis HS : sample c f p d.
Hypothesis HW : positive_weights d.
Hypothesis Hmn : is_min mn (map fst d).
Hypothesis Hmx : is_max mx (map fst d).
Hypothesis Hlt : mn < mx.

Lemma report_ne : d <> [].
Proof. intros E. subst d. destruct Hmn as [[] _]. Qed.
Lemma config_ok x w : cfg_ok (marginal_config num c f x w).
Proof. destruct HU. constructor; cbn; auto. Qed.
Lemma marginal_facts pad m : chain_marginal num c f p pad = Ok m ->
  mg_ok m /\ (exists h, 0 < h /\ uniform h (mg_xs m)) /\
  forall i, (i < length (mg_xs m))%nat -> mn - slack_of (ch_grid c) pad mn mx <= at_ (mg_xs m) i <= mx + slack_of (ch_grid c) pad mn mx.
Proof.
  destruct (sample_data _ _ _ _ HS) as [x [w [X [W E]]]]. unfold chain_marginal. rewrite X, W. cbn [rbind]. rewrite <- E. intros H.
  pose proof HU as U. destruct U as [U1 U2 U3 U4 U5 U6 U7 U8].
  destruct (C22_marginal _ _ _ _ _ _ _ U1 U2 U3 HW report_ne (config_ok x w) H) as [e (E1&E2&E3&K)]. cbv zeta in K. destruct K as (K1&K2&K3&K4&K5&K6&K7&K8&K9).
  destruct (edges_range (n_bins num) (marginal_config num c f x w) d pad e mn mx U1 HW Hmn Hmx Hlt U8 E1 E2 E3) as [L3 [R0 R1]].
  destruct (K9 L3) as [M1 M2]. split; [exact M1|]. split; [exact M2|]. intros i Hi. cbn [marginal_config m_grid] in *.
  assert (LX : length (mg_xs m) = n_points num) by apply K1. rewrite LX in Hi.
  assert (at_ e 0 < at_ e (length e - 2)) by (apply E2; lia). assert (at_ e 1 < at_ e (length e - 1)) by (apply E2; lia).
  assert (C01 : (1#2) * (at_ e 0 + at_ e 1) <= (1#2) * (at_ e (length e - 2) + at_ e (length e - 1))) by lra.
  pose proof (even_range _ _ _ _ i U2 C01 K1 Hi) as R. lra.
Qed.
End marg.

(** ** One summary *)
Definition in_range (lo hi : Q) (xs : list Q) : Prop := forall i, (i < length xs)%nat -> lo <= at_ xs i <= hi.
Lemma polyline_range cs xs q v lo hi : length cs = length xs -> in_range lo hi xs -> on_polyline cs xs q v -> lo <= v <= hi.
Proof.
  intros L R [j [t [Hj [Ht [_ Ev]]]]]. pose proof (R j ltac:(lia)). pose proof (R (S j) ltac:(lia)). rewrite Ev. nra.
Qed.
Lemma interp_range m q v lo hi : mg_ok m -> in_range lo hi (mg_xs m) -> interp_res (mg_cs m) (mg_xs m) q = Ok v -> lo <= v <= hi.
Proof.
  intros HM R H. destruct (mok_lens _ _ _ HM) as [L1 [L2 L3]].
  destruct (Qlt_le_dec q (at_ (mg_cs m) 0)) as [Lq|Lq]; [rewrite (interp_res_err) in H by exact Lq; discriminate|].
  assert (U : q <= 1). { unfold interp_res in H. destruct (interp1d _ _ q) as [v'|] eqn:E; [|discriminate]. destruct (interp1d_some _ _ _ _ E) as [A [B _]]. rewrite L2, (mok_cs_last _ _ _ HM) in B. lra. }
  destruct (interp_res_ok _ _ _ HM q (conj Lq U)) as [v' [E [[P _] _]]]. rewrite H in E. injection E as <-. eapply polyline_range; eassumption.
Qed.
Lemma rbind_ok {A B} (r : res A) (g : A -> res B) b : rbind r g = Ok b -> exists x, r = Ok x /\ g x = Ok b.
Proof. destruct r as [x|e]; cbn; [intros H; exists x; auto|discriminate]. Qed.
Lemma inside_mkB lo hi l x u : lo <= l <= hi -> lo <= x <= hi -> lo <= u <= hi -> inside lo hi (mkB l x u).
Proof. intros A B C v [H|[H|H]]; cbn in H; injection H as <-; assumption. Qed.
Lemma ordered_mkB l x u : l <= x <= u -> ordered (mkB l x u).
Proof. intros H. exists l, x, u. auto. Qed.

Section one.
Variables (m : marginal) (area lo hi : Q).
Hypothesis HM : mg_ok m.
Hypothesis HR : in_range lo hi (mg_xs m).
Hypothesis HA : 0 < area <= 1.
Lemma half_area : area / 2 == (1#2) * area. Proof. field. Qed.
Lemma cumulative_sensible b : summary_cumulative area m = Ok b -> ordered b /\ inside lo hi b.
Proof.
  intros H. unfold summary_cumulative in H. apply rbind_ok in H. destruct H as [l [L H]]. apply rbind_ok in H. destruct H as [x [X H]]. apply rbind_ok in H. destruct H as [u [U H]]. injection H as <-. pose proof half_area as E2.
  split; [apply ordered_mkB|apply inside_mkB; eapply interp_range; eassumption].
  split; [apply (interp_res_mono _ _ _ HM ((1#2) - area / 2) (1#2)); [lra|exact L|exact X]|apply (interp_res_mono _ _ _ HM (1#2) ((1#2) + area / 2)); [lra|exact X|exact U]].
Qed.
Lemma mean_sensible b : summary_mean area m = Ok b -> ordered b /\ inside lo hi b.
Proof.
  intros H. unfold summary_mean in H. apply rbind_ok in H. destruct H as [l [L H]]. apply rbind_ok in H. destruct H as [x [X H]]. apply rbind_ok in H. destruct H as [u [U H]]. injection H as <-. pose proof half_area as E2.
  assert (LU : l <= u) by (apply (interp_res_mono _ _ _ HM ((1#2) - area / 2) ((1#2) + area / 2)); [lra|exact L|exact U]).
  pose proof (interp_range _ _ _ _ _ HM HR L). pose proof (interp_range _ _ _ _ _ HM HR U).
  split; [apply ordered_mkB; lra|apply inside_mkB; lra].
Qed.
Lemma max_central_sensible b : summary_max_central area m = Ok b -> ends_ordered b /\ inside lo hi b.
Proof.
  intros H. unfold summary_max_central in H. apply rbind_ok in H. destruct H as [l [L H]]. apply rbind_ok in H. destruct H as [u [U H]]. injection H as <-. pose proof half_area as E2.
  assert (LU : l <= u) by (apply (interp_res_mono _ _ _ HM ((1#2) - (1#2) * area) ((1#2) + (1#2) * area)); [lra|exact L|exact U]).
  pose proof (interp_range _ _ _ _ _ HM HR L). pose proof (interp_range _ _ _ _ _ HM HR U).
  split; [eexists _, _, _; split; [reflexivity|]; split; [reflexivity|]; split; [reflexivity|exact LU]|]. apply inside_mkB; try lra.
  destruct (argmax_mode m HM) as [i [Hi [E _]]]. specialize (HR i Hi). rewrite E in HR. exact HR.
Qed.
Lemma padded_range n pxs pys : padded n (mg_xs m) (mg_ys m) pxs pys -> in_range lo hi pxs.
Proof.
  intros [up [down (_&_&_&->)]] i Hi. destruct (mok_lens _ _ _ HM) as [_ [_ L]]. pose proof (at_In _ i Hi) as H. apply in_app_or in H. destruct H as [H|H]; [apply repeat_spec in H; rewrite H; apply HR; lia|].
  apply in_app_or in H. destruct H as [H|H]; [|apply repeat_spec in H; rewrite H; apply HR; lia]. destruct (In_at _ _ H) as [j [Hj <-]]. apply HR. exact Hj.
Qed.
Lemma padded_same n pxs pys : padded n (mg_xs m) (mg_ys m) pxs pys -> length pxs = length pys.
Proof.
  intros [up [down ((Lu&_)&(Ld&_)&->&->)]]. destruct (mok_lens _ _ _ HM) as [L1 _]. rewrite !app_length, !repeat_length. lia.
Qed.
Lemma max_sensible n tries b : (2 <= n)%nat -> summary_max n tries area m = Ok b -> (ordered b \/ centre_only b) /\ inside lo hi b.
Proof.
  intros Hn H. destruct (summary_max_ok n tries area m Hn HM) as [pxs [pys [k (P&K&_&R)]]]. pose proof (padded_range _ _ _ P) as PR. pose proof (padded_same _ _ _ P) as PL.
  assert (Kl : (k < length pys)%nat) by apply K. destruct R as [[level [i1 [i2 (E&_&S&_&O)]]]|[E _]]; rewrite E in H; injection H as <-.
  - destruct S as (S1&S2&_). split; [left; apply ordered_mkB; exact O|]. apply inside_mkB; apply PR; lia.
  - split; [right; repeat split; eexists; reflexivity|]. intros v [V|[V|V]]; cbn in V; try discriminate. injection V as <-. apply PR. lia.
Qed.
Lemma hdi_sensible : ordered (summary_hdi area m) /\ inside lo hi (summary_hdi area m).
Proof.
  destruct (C28_hdi_mass m area HM HA) as [l [x [u [i [j (E&I&El&Eu&_&O)]]]]]. rewrite E.
  pose proof (HR i ltac:(lia)) as Ri. pose proof (HR j ltac:(lia)) as Rj. rewrite <- El in Ri. rewrite <- Eu in Rj. split; [apply ordered_mkB; exact O|apply inside_mkB; lra].
Qed.
(** Bands: with at least two of them, each runs from one position to a later one. *)
Lemma bands_at ivs : hdi_intervals area m = Ok ivs -> (2 <= length ivs)%nat -> forall iv, In iv ivs ->
  exists s e, (s < e < length (mg_xs m))%nat /\ iv = (at_ (mg_xs m) s, at_ (mg_xs m) e).
Proof.
  intros H L iv HI. unfold hdi_intervals in H. apply rbind_ok in H. destruct H as [dens [D H]]. apply rbind_ok in H. destruct H as [t [T H]]. apply rbind_ok in H. destruct H as [bs [B H]].
  assert (LD : length dens = length (mg_xs m)).
  { unfold hdi_density in D. destruct (Qeq_bool _ 0); [discriminate|]. injection D as <-. rewrite map_length. apply (mok_lens _ _ _ HM). }
  destruct (mask_runs (mg_xs m) (map (fun y => Qle_bool t y) dens) (mok_inc _ _ _ HM) ltac:(rewrite map_length; exact LD)) as [rs [R1 [R2 _]]]. rewrite R1 in B. injection B as <-.
  assert (E : ivs = map (fun se => (at_ (mg_xs m) (fst se), at_ (mg_xs m) (snd se))) rs).
  { destruct rs as [|r rs]; [|injection H as <-; reflexivity]. cbn [map] in H. destruct (b_lower (summary_hdi area m)); [destruct (b_upper (summary_hdi area m))|]; injection H as <-; cbn in L; lia. }
  rewrite E in HI. apply in_map_iff in HI. destruct HI as [[s e] [<- HI]]. apply R2 in HI. destruct HI as [(R3&R4&_) R5]. rewrite map_length, LD in R4. exists s, e. split; [lia|reflexivity].
Qed.
Lemma modes_sensible ivs b : hdi_intervals area m = Ok ivs -> (2 <= length ivs)%nat -> In b (multimodal_bounds m ivs) -> ordered b /\ inside lo hi b.
Proof.
  intros H L HI. apply in_map_iff in HI. destruct HI as [iv [<- HI]]. destruct (bands_at ivs H L iv HI) as [s [e [SE ->]]].
  destruct (C31_bounds m (at_ (mg_xs m) s) (at_ (mg_xs m) e) HM) as [l [x [u [k (E&El&Eu&O&_)]]]]; [apply at_In; lia|apply at_In; lia|apply (increasing_nondecreasing _ (mok_inc _ _ _ HM)); lia|].
  rewrite E. pose proof (HR s ltac:(lia)) as Rs. pose proof (HR e ltac:(lia)) as Re. rewrite <- El in Rs. rewrite <- Eu in Re. split; [apply ordered_mkB; exact O|apply inside_mkB; lra].
Qed.
End one.

(** ** One entry *)
Lemma inside_0 lo hi b : inside (lo - 0) (hi + 0) b -> inside lo hi b.
Proof. intros H v V. specialize (H v V). lra. Qed.
Section entry.
Variables (num : numerics) (c : chain) (f : frame) (p : string) (d : wdata) (mn mx : Q).
Hypothesis HU : usable num c.
Hypothesis HA : 0 < ch_cfg c Fsummary_area <= 1.
Hypothesis HS : sample c f p d.
Hypothesis HW : positive_weights d.
Hypothesis Hmn : is_min mn (map fst d).
Hypothesis Hmx : is_max mx (map fst d).
Hypothesis Hlt : mn < mx.
Lemma summary_marginal st : ch_cfg c Fstatistics = Some st -> get_parameter_summary num c f p =
  match st with
  | SMax => rbind (chain_marginal num c f p false) (summary_max (n_pad num) (n_tries num) (ch_cfg c Fsummary_area))
  | SMean => rbind (chain_marginal num c f p false) (summary_mean (ch_cfg c Fsummary_area))
  | SCumulative => rbind (chain_marginal num c f p false) (summary_cumulative (ch_cfg c Fsummary_area))
  | SMaxCentral => rbind (chain_marginal num c f p false) (summary_max_central (ch_cfg c Fsummary_area))
  | SHdi => rbind (chain_marginal num c f p true) (fun m => Ok (summary_hdi (ch_cfg c Fsummary_area) m))
  end.
Proof.
  intros H. unfold get_parameter_summary, chain_marginal. rewrite H. destruct (sample_data _ _ _ _ HS) as [x [w [X [W E]]]]. rewrite X, W. cbn [rbind]. destruct st; reflexivity.
Qed.
Lemma one_sensible b : get_parameter_summary num c f p = Ok b -> sensible c mn mx (BOne b).
Proof.
  intros H b' ->. destruct (ch_cfg c Fstatistics) as [st|] eqn:ES; [|unfold get_parameter_summary in H; rewrite ES in H; discriminate].
  rewrite (summary_marginal st ES) in H. assert (G : exists pad m, chain_marginal num c f p pad = Ok m /\ pad = match st with SHdi => true | _ => false end /\
     match st with SMax => summary_max (n_pad num) (n_tries num) (ch_cfg c Fsummary_area) m | SMean => summary_mean (ch_cfg c Fsummary_area) m | SCumulative => summary_cumulative (ch_cfg c Fsummary_area) m
       | SMaxCentral => summary_max_central (ch_cfg c Fsummary_area) m | SHdi => Ok (summary_hdi (ch_cfg c Fsummary_area) m) end = Ok b)
    by (destruct st; apply rbind_ok in H; destruct H as [m [M H]]; eexists _, m; (split; [exact M|]); (split; [reflexivity|]); exact H).
  clear H. destruct G as [pad [m [M [P H]]]]. destruct (marginal_facts num c f p d mn mx HU HS HW Hmn Hmx Hlt pad m M) as [OK [_ R]].
  assert (T : match st with SMax => ordered b \/ centre_only b | SMaxCentral => ends_ordered b | _ => ordered b end /\ inside (mn - slack_of (ch_grid c) pad mn mx) (mx + slack_of (ch_grid c) pad mn mx) b).
  { destruct st; [eapply max_sensible|eapply mean_sensible|eapply cumulative_sensible|eapply max_central_sensible|injection H as <-; apply hdi_sensible]; try eassumption; apply HU. }
  destruct T as [T1 T2]. split; [destruct st; exact T1|]. cbv zeta. subst pad. unfold slack_of in T2.
  destruct (ch_grid c), st; cbn [negb andb] in T2; try (apply inside_0; exact T2); exact T2.
Qed.
Lemma entry_sensible e : entry_of num c f p e -> sensible c mn mx e.
Proof.
  intros [b [B H]]. destruct H as [[_ ->]|[_ [bands [IV [[_ ->]|[L [bs [MB ->]]]]]]]]; [apply one_sensible; exact B|apply one_sensible; exact B|].
  unfold get_parameter_hdi_intervals in IV. apply rbind_ok in IV. destruct IV as [m [M IV]]. unfold get_parameter_multimodal_bounds in MB. rewrite M in MB. cbn in MB. injection MB as <-.
  destruct (marginal_facts num c f p d mn mx HU HS HW Hmn Hmx Hlt true m M) as [OK [_ R]].
  intros b' HI. cbn in HI. destruct (modes_sensible m _ _ _ OK R bands b' IV L HI) as [O I]. split; [exact O|]. cbv zeta. unfold slack_of in I. destruct (ch_grid c); cbn [negb andb] in I; [apply inside_0|]; exact I.
Qed.
End entry.

(** ** A column with a single value *)
Lemma weight_const p v d : (forall x, In x (map fst d) -> x == v) -> (forall x, x == v -> p x = p v) -> weight_if p d == (if p v then total_weight d else 0).
Proof.
  intros H P. unfold total_weight. induction d as [|[x w] d IH]; cbn [weight_if]; [destruct (p v); reflexivity|]. rewrite IH by (intros y Hy; apply H; right; exact Hy). rewrite (P x) by (apply H; left; reflexivity). destruct (p v); lra.
Qed.
Lemma constant_extents n d v plot wide tiny pad : (2 <= n)%nat -> d <> [] -> positive_weights d -> (forall x, In x (map fst d) -> x == v) ->
  exists lo hi, get_extents n d plot wide tiny pad = Ok (lo, hi) /\ lo == hi.
Proof.
  intros Hn HN HW HC. destruct (hist_range d) as [rlo rhi] eqn:HR.
  destruct (ext_unfold n d rlo rhi Hn HN HW HR plot wide tiny pad) as [i1 [i2 [lo [hi [I1 [I2 [I12 [A [B [C [D [Elo [Ehi EG]]]]]]]]]]]]].
  set (P := fun k => sum_range (at_ (np_histogram (linspace rlo rhi (S n)) d)) 0 k) in *. pose proof (ext_W n d rlo rhi HN HW HR) as W0.
  assert (PV : forall k, (1 <= k <= n)%nat -> P k == 0 \/ P k == total_weight d).
  { intros k Hk. destruct (Nat.eq_dec k n) as [->|Nk]; [right; apply (ext_P_all n d rlo rhi Hn HN HR)|].
    unfold P. rewrite (ext_P_lt n d rlo rhi Hn HN HR k) by lia. rewrite (weight_const _ v d HC); [destruct (qltb v _); [right|left]; reflexivity|].
    intros x Ex. apply eq_true_iff_eq. rewrite !qlt_true, Ex. reflexivity. }
  pose proof (extents_threshold_range plot wide tiny) as T. set (t := extents_threshold plot wide tiny) in *.
  assert (F : P 1%nat / total_weight d == 0).
  { destruct (PV 1%nat ltac:(lia)) as [E|E]; [rewrite E; field; lra|]. pose proof (ext_P1 n d rlo rhi Hn HN HW HR) as L. change (P 1%nat < total_weight d) in L. lra. }
  change (sum_range (at_ (np_histogram (linspace rlo rhi (S n)) d)) 0 1) with (P 1%nat) in A, B, C, D. rewrite F in A, B, C, D.
  change (P i1 <= (0 + t * (1 - 0)) * total_weight d) in A. change ((0 + t * (1 - 0)) * total_weight d < P (S i1)) in B. change (total_weight d - P (S (n - i2)) <= t * (1 - 0) * total_weight d) in C. change (t * (1 - 0) * total_weight d < total_weight d - P (n - i2)%nat) in D.
  assert (R1 : (0 + t * (1 - 0)) * total_weight d == t * total_weight d) by ring. assert (R2 : t * (1 - 0) * total_weight d == t * total_weight d) by ring. rewrite R1 in A, B. rewrite R2 in C, D.
  assert (TW : 0 < t * total_weight d) by (apply Qmult_lt_0_compat; [apply T|exact W0]).
  assert (E : i1 = (n - i2)%nat).
  { destruct (Nat.eq_dec i1 (n - i2)) as [E|N]; [exact E|exfalso]. assert (L : P (S i1) <= P (n - i2)%nat) by (apply (ext_P_mono n d rlo rhi Hn HW); lia).
    destruct (PV (S i1) ltac:(lia)) as [E1|E1]; [rewrite E1 in B; lra|]. destruct (PV (n - i2)%nat ltac:(lia)) as [E2|E2]; [rewrite E1, E2 in L; lra|rewrite E2 in D; lra]. }
  assert (LH : lo == hi) by (rewrite Elo, Ehi, E; reflexivity).
  rewrite EG. destruct pad; [exists (lo - (1#5) * (hi - lo)), (hi + (1#5) * (hi - lo))|exists lo, hi]; (split; [reflexivity|]); rewrite LH; lra.
Qed.
Lemma constant_marginal num c f p d v pad : usable num c -> sample c f p d -> positive_weights d -> d <> [] -> (forall x, In x (map fst d) -> x == v) -> forall m, chain_marginal num c f p pad <> Ok m.
Proof.
  intros HU HS HW HN HC m H. destruct (sample_data _ _ _ _ HS) as [x [w [X [W E]]]]. unfold chain_marginal in H. rewrite X, W in H. cbn [rbind] in H. rewrite <- E in H. pose proof HU as [U1 U2 U3 U4 U5 U6 U7 U8].
  destruct (smoothed_histogram_inv _ _ _ _ _ _ _ U1 U2 U3 HW HN (config_ok num c f HU x w) H) as [e (E1&E2&E3&_)]. assert (L01 : at_ e 0 < at_ e 1) by (apply E2; lia).
  unfold edges_of in E1. cbn [marginal_config m_grid m_smooth m_bins m_rows m_cols] in E1. destruct (ch_grid c).
  - destruct (grid_bins_spec _ _ E1) as [H1 _]. cbv zeta in H1. set (u := np_unique (map fst d)) in *. pose proof (qsorted_increasing _ (np_unique_sorted (map fst d))) as HI. fold u in HI. specialize (HI 0%nat 1%nat ltac:(lia) ltac:(lia)).
    assert (V : forall i, (i < length u)%nat -> at_ u i == v).
    { intros i Hi. pose proof (at_In u i Hi) as Hin. assert (Q0 : Qin (at_ u i) u) by (exists (at_ u i); split; [exact Hin|reflexivity]). apply (proj1 (np_unique_in _ _)) in Q0. destruct Q0 as [y [Hy Ey]]. rewrite <- Ey. apply HC. exact Hy. }
    rewrite !V in HI by lia. lra.
  - destruct E1 as [s E1]. unfold get_smoothed_bins in E1. destruct (constant_extents (n_bins num) d v false true false pad U1 HN HW HC) as [lo [hi [EE LH]]]. rewrite EE in E1. cbn [rbind] in E1.
    assert (K : exists k, e = linspace lo hi k). { destruct (_ =? 0)%Z; destruct (_ <? 0)%Z; try discriminate; injection E1 as <- _; eexists; reflexivity. }
    destruct K as [k ->]. rewrite linspace_length in E3. pose proof (linspace_range lo hi k 0 ltac:(lra) ltac:(lia) ltac:(lia)). pose proof (linspace_range lo hi k 1 ltac:(lra) ltac:(lia) ltac:(lia)). lra.
Qed.
