(** C74: the distribution of one parameter on an axis of the user's. *)
From Coq Require Import String List Bool Arith ZArith QArith Reals Qreals Lia.
From Verif Require Import Py NumModel NumSpec NumFacts HelpersModel HelpersSpec HelpersProofs MarginalModel SummarySpec MarginalProofs FilterProofs DensityProofs SummaryProps FrameModel ConfigModel ChainModel RegistrySpec ChainSpec TextModel AnalysisModel SurfaceModel SurfaceProofs FigureModel FigureSpec FigureProofs BarProofs PlotDistModel PlotDistSpec PlotDistProofs RegistryProps RegistryModel AnalysisProps FigureCases EquivProps.
From Coq Require Import Lqa.
Import ListNotations.
Open Scope string_scope.
Open Scope list_scope.
Open Scope Q_scope.

(** A chain whose marginals are not smoothed: the same bars, with the same pen, as in the figures of the chain; their area
    is the chain's relative height. *)
Theorem C74_bars : forall num kde1 points str cfg c f px summary calls, ~ curved c -> plot_dist num kde1 points str cfg c f px summary = Ok calls ->
  exists edges ys rest, (let '(col, ls, lw, z) := pen_of c in calls = DSteps edges ys col ls lw z :: rest /\
      forall cfg' s group top, plot_bars num cfg' px false s (c, f) = Ok (group, top) -> exists group', group = Bars false edges ys col ls lw z :: group') /\
    (plain_power num c -> bars_area edges ys == ch_relheight c).
Proof.
  intros num kde1 points str cfg c f px summary calls NC H. apply plot_dist_inv in H as [out [xs [ys [rest [HO [-> _]]]]]].
  unfold dist_outline in HO. cbv zeta in HO. apply rbind_ok in HO as [v [Hv HO]]. destruct (negb _ || _) eqn:E.
  { exfalso. apply NC. apply orb_true_iff in E as [E|E]; [left; apply negb_true_iff, Z.eqb_neq in E; exact E|right; exact E]. }
  apply rbind_ok in HO as [w [Hw HO]]. apply rbind_ok in HO as [edges [He HO]]. apply rbind_ok in HO as [h [Hh HO]]. injection HO as <- <- <-.
  exists edges, (map (fun y => (y * ch_relheight c)%Q) (map (n_power num (ch_power c)) h)), rest. split.
  - cbn [pen_of]. split; [reflexivity|]. intros cfg' s group top HB. unfold plot_bars in HB. apply rbind_ok in HB as [[[o xs'] ys'] [HO HB]]. apply rbind_ok in HB as [sh [_ HB]].
    assert (o = Bars false edges (map (fun y => (y * ch_relheight c)%Q) (map (n_power num (ch_power c)) h)) (ch_cfg c Fcolor) (ch_cfg c Flinestyle) (ch_cfg c Flinewidth) (ch_cfg c Fzorder)) as ->.
    { unfold bar_outline in HO. cbv zeta in HO. rewrite Hv in HO. cbn [rbind] in HO. rewrite E, Hw in HO. cbn [rbind] in HO. rewrite He in HO. cbn [rbind] in HO. rewrite Hh in HO. cbn [rbind] in HO. injection HO as <- _ _. reflexivity. }
    destruct ys'; [discriminate|]. injection HB as <- _. exists sh. reflexivity.
  - intros PP. destruct (hist_density_inv _ _ _ Hh) as [L _]. eapply area_scaled; [apply scaled_map|rewrite map_length; exact L|]. eapply area_density; [exact Hh|apply map_length|]. intros i. unfold at_.
    destruct (Nat.lt_ge_cases i (length h)) as [K|K]; [rewrite (nth_indep _ 0 (n_power num (ch_power c) 0)) by (rewrite map_length; exact K); rewrite map_nth; apply PP|]. rewrite !nth_overflow by (rewrite ?map_length; exact K). reflexivity.
Qed.
Print Assumptions C74_bars.

(** A smoothed chain: a line through the centres of equal bins over the padded range, whose heights are the smoothed
    (power of the) normalised histogram times the relative height; the bars under them have the relative height as area. *)
Theorem C74_smoothed : forall num kde1 points str cfg c f px summary calls, let sv := smooth_value (ch_cfg c Fsmooth) (ch_grid c) in
  (0 < sv)%Z -> kde_on (ch_cfg c Fkde) = false -> plot_dist num kde1 points str cfg c f px summary = Ok calls ->
  exists data w lo hi edges xs h h' ys rest, (let '(col, ls, lw, z) := pen_of c in calls = DLine xs ys col ls lw z :: rest) /\
    get_data f px = Ok data /\ weights c f = Ok w /\ get_extents (n_bins num) (combine data w) false true false true = Ok (lo, hi) /\
    edges = linspace lo hi (length edges) /\ Z.of_nat (length edges) = (2 * sv * get_bins (ch_cfg c Fbins) (ch_cfg c Fsmooth) (ch_grid c) (f_rows f) (length (f_cols f)))%Z /\
    centres_of edges xs /\ hist_density edges (combine data w) = Ok h /\ is_smoothing (n_kernel num sv) (map (n_power num (ch_power c)) h) h' /\ scaled_by c h' ys /\
    (plain_power num c -> smoothing_kernel (n_kernel num sv) -> bars_area edges ys == ch_relheight c).
Proof.
  intros num kde1 points str cfg c f px summary calls sv SV KO H. apply plot_dist_inv in H as [out [xs [ys [rest [HO [-> _]]]]]].
  unfold dist_outline in HO. cbv zeta in HO. fold sv in HO. apply rbind_ok in HO as [v [Hv HO]]. rewrite KO in HO. assert (E : (sv =? 0)%Z = false) by (apply Z.eqb_neq; lia). rewrite E in HO. cbn [negb orb] in HO.
  apply rbind_ok in HO as [w [Hw HO]]. apply rbind_ok in HO as [edges [He HO]]. apply rbind_ok in HO as [o [Hh HO]]. apply rbind_ok in Hh as [h [Hh Ho]]. injection Ho as <-. injection HO as <- <- <-. cbn [fst snd].
  assert (SV' : (0 <? sv)%Z = true) by (apply Z.ltb_lt; exact SV). rewrite SV'.
  destruct (get_smoothed_bins _ _ _ _ _ _) as [[e s]|] eqn:EB; [|discriminate]. injection He as <-. unfold get_smoothed_bins in EB. apply rbind_ok in EB as [[lo hi] [EX EB]]. rewrite E in EB. destruct (_ <? 0)%Z eqn:NG; [discriminate|]. apply Z.ltb_ge in NG. injection EB as EE _.
  set (nb := get_bins (ch_cfg c Fbins) (ch_cfg c Fsmooth) (ch_grid c) (f_rows f) (length (f_cols f))) in *.
  change (linspace lo hi (Z.to_nat (2 * sv * nb)) = e) in EE.
  assert (LE : length e = Z.to_nat (2 * sv * nb)) by (rewrite <- EE; apply linspace_length).
  destruct (hist_density_inv _ _ _ Hh) as [L [NZ _]].
  assert (NE : h <> []). { intros ->. apply NZ. assert (Z0 : length e = O \/ length e = 1%nat) by (cbn in L; lia). destruct e as [|a [|b r]]; cbn in Z0; try lia; unfold np_histogram; cbn; reflexivity. }
  exists v, w, lo, hi, e, (bin_centers e), h, (filter1d (n_kernel num sv) (map (n_power num (ch_power c)) h)), (map (fun y => (y * ch_relheight c)%Q) (filter1d (n_kernel num sv) (map (n_power num (ch_power c)) h))), rest.
  split; [reflexivity|]. split; [exact Hv|]. split; [exact Hw|]. split; [exact EX|]. split; [rewrite LE; symmetry; exact EE|]. split; [rewrite LE, Z2Nat.id by exact NG; reflexivity|]. split; [apply centres_ok|]. split; [exact Hh|].
  assert (NE' : map (n_power num (ch_power c)) h <> []) by (destruct h; [congruence|discriminate]).
  split; [apply filter1d_smoothing; exact NE'|]. split; [apply scaled_map|]. intros PP [[r K1] [K2 K3]].
  destruct (C60_smoothing_mass (n_kernel num sv) (map (n_power num (ch_power c)) h) r K1 K2 K3 NE') as [_ T].
  assert (L2 : (2 <= length e)%nat) by (destruct h; [congruence|cbn in L; lia]).
  eapply area_scaled; [apply scaled_map|rewrite filter1d_length, map_length; exact L|]. rewrite (area_even e lo hi (length e) (map (n_power num (ch_power c)) h) _); [| |rewrite map_length; exact L|rewrite filter1d_length, map_length; exact L|exact T].
  - eapply area_density; [exact Hh|apply map_length|]. intros i. unfold at_. destruct (Nat.lt_ge_cases i (length h)) as [K|K]; [rewrite (nth_indep _ 0 (n_power num (ch_power c) 0)) by (rewrite map_length; exact K); rewrite map_nth; apply PP|]. rewrite !nth_overflow by (rewrite ?map_length; exact K). reflexivity.
  - assert (EV : evenly_spaced lo hi (Z.to_nat (2 * sv * nb)) (linspace lo hi (Z.to_nat (2 * sv * nb)))) by (apply linspace_evenly; rewrite <- LE; exact L2). rewrite EE, <- LE in EV. exact EV.
Qed.
Print Assumptions C74_smoothed.

(** A chain with a kernel density estimate: a line through the estimate, raised to the power and times the relative
    height, at the given number of equal steps over the padded range. *)
Theorem C74_kde : forall num kde1 points str cfg c f px summary calls, kde_on (ch_cfg c Fkde) = true -> plot_dist num kde1 points str cfg c f px summary = Ok calls ->
  exists data w edges s mn mx xs ys rest, (let '(col, ls, lw, z) := pen_of c in calls = DLine xs ys col ls lw z :: rest) /\ get_data f px = Ok data /\ weights c f = Ok w /\
    get_smoothed_bins (n_bins num) (smooth_value (ch_cfg c Fsmooth) (ch_grid c)) (get_bins (ch_cfg c Fbins) (ch_cfg c Fsmooth) (ch_grid c) (f_rows f) (length (f_cols f))) (combine data w) false true = Ok (edges, s) /\
    is_min mn edges /\ is_max mx edges /\ xs = linspace mn mx points /\
    scaled_by c (map (fun x => n_power num (ch_power c) (kde1 data w (kde_value (ch_cfg c Fkde)) x)) xs) ys.
Proof.
  intros num kde1 points str cfg c f px summary calls KO H. apply plot_dist_inv in H as [out [xs [ys [rest [HO [-> _]]]]]].
  unfold dist_outline in HO. cbv zeta in HO. apply rbind_ok in HO as [v [Hv HO]]. rewrite KO, orb_true_r in HO.
  apply rbind_ok in HO as [w [Hw HO]]. apply rbind_ok in HO as [edges [He HO]]. apply rbind_ok in HO as [o [Hh HO]]. destruct edges as [|b r]; [discriminate|]. injection Hh as <-. injection HO as <- <- <-. cbn [fst snd].
  destruct (get_smoothed_bins _ _ _ _ _ _) as [[e s]|] eqn:EB; [|discriminate]. injection He as ->. destruct (qmin_list_spec b r) as [M1 M2], (qmax_list_spec b r) as [N1 N2].
  exists v, w, (b :: r), s, (qmin_list b r), (qmax_list b r), (linspace (qmin_list b r) (qmax_list b r) points). eexists. exists rest. split; [reflexivity|]. split; [exact Hv|]. split; [exact Hw|]. split; [exact EB|]. split; [split; assumption|]. split; [split; assumption|]. split; [reflexivity|]. rewrite <- (map_map (kde1 v w (kde_value (ch_cfg c Fkde))) (n_power num (ch_power c))). apply scaled_map.
Qed.
Print Assumptions C74_kde.

(** The summary interval is shaded exactly if the chain's shading is on and the summary has both ends: from the axis up to
    the outline, over the part of the interval the outline covers, one layer below it. *)
Theorem C74_shading : forall num kde1 points str cfg c f px summary calls, plot_dist num kde1 points str cfg c f px summary = Ok calls ->
  (~ shade_on c -> fills calls = []) /\
  (shade_on c -> exists fit, get_parameter_summary num c f px = Ok fit /\
     (b_lower fit = None \/ b_upper fit = None -> fills calls = []) /\
     (forall lower upper, b_lower fit = Some lower -> b_upper fit = Some upper -> exists out rest xs ys lo hi k v,
        calls = out :: rest /\ outline_points out (pen_of c) xs ys /\ cut_to xs lower upper lo hi /\
        alpha_value (ch_cfg c Fshade_alpha) = Some v /\ Q2R k = (1 / 5 + 4 / 5 * Q2R (ch_cfg c Fshade_gradient))%R /\ (0 <= v * Q2R k <= 1)%R /\
        fills calls = [DFill lo hi (negb (smooth_value (ch_cfg c Fsmooth) (ch_grid c) =? 0)%Z) xs ys (ch_cfg c Fcolor) (ch_cfg c Fshade_alpha) k (ch_cfg c Fzorder - 1)%Z])).
Proof.
  intros num kde1 points str cfg c f px summary calls H. apply plot_dist_inv in H as [out [xs [ys [rest [HO [-> H]]]]]]. pose proof (outline_shape _ _ _ _ _ _ _ _ _ HO) as OS. destruct (outline_plain _ _ _ _ OS) as [O1 _].
  assert (FO : forall r, fills (out :: r) = fills r) by (intros r; change (out :: r) with ([out] ++ r); rewrite fills_app, O1; reflexivity).
  assert (FT : forall fit title, (if summary then dist_title str px fit else Ok []) = Ok title -> fills title = []).
  { intros fit title T. destruct summary; [|injection T as <-; reflexivity]. unfold dist_title in T. destruct (get_parameter_text _ _ _); [|discriminate]. injection T as <-. reflexivity. }
  destruct H as [[NS [-> ->]]|[_ [fit [shade [title [HF [HS [HT ->]]]]]]]].
  - split; [intros _; rewrite FO; reflexivity|]. intros SO. contradiction.
  - rewrite FO, fills_app, (FT _ _ HT), app_nil_r. rewrite (proj2 (shade_titles _ _ _ _ _ HS)). apply shade_inv in HS as [[-> HN]|[SO [lower [upper [lo [hi [k [E1 [E2 [CT [EK [[v [EV RV]] ->]]]]]]]]]]]].
    + split; [reflexivity|]. intros SO. exists fit. split; [exact HF|]. split; [reflexivity|]. intros lower upper E1 E2. destruct HN as [N|[N|N]]; [contradiction|congruence|congruence].
    + split; [intros N; contradiction|]. intros _. exists fit. split; [exact HF|]. split; [intros [N|N]; congruence|]. intros lower' upper' E1' E2'. rewrite E1 in E1'. rewrite E2 in E2'. injection E1' as <-. injection E2' as <-.
      exists out. eexists. exists xs, ys, lo, hi, k, v. split; [reflexivity|]. split; [exact OS|]. split; [exact CT|]. split; [exact EV|]. split; [|split; [exact RV|reflexivity]].
      rewrite (Qeq_eqR _ _ EK), Q2R_plus, Q2R_mult. reflexivity.
Qed.
Print Assumptions C74_shading.

(** With a summary asked for, the title is the parameter's name and the text of its summary, or its centre alone if the
    summary has no text; otherwise there is none. *)
Theorem C74_title_partial : forall num kde1 points str cfg c f px summary calls, plot_dist num kde1 points str cfg c f px summary = Ok calls ->
  (summary = false -> titles calls = []) /\
  (summary = true -> exists fit text shown, get_parameter_summary num c f px = Ok fit /\ get_parameter_text (BOne fit) false None = Ok text /\
     (text <> "" -> shown = text) /\ (text = "" -> shown = str (b_center fit)) /\ titles calls = [("$" ++ px ++ " = " ++ shown ++ "$")%string]).
Proof.
  intros num kde1 points str cfg c f px summary calls H. apply plot_dist_inv in H as [out [xs [ys [rest [HO [-> H]]]]]]. destruct (outline_plain _ _ _ _ (outline_shape _ _ _ _ _ _ _ _ _ HO)) as [_ O1].
  assert (FO : forall r, titles (out :: r) = titles r) by (intros r; change (out :: r) with ([out] ++ r); rewrite titles_app, O1; reflexivity). rewrite FO.
  destruct H as [[NS [-> ->]]|[_ [fit [shade [title [HF [HS [HT ->]]]]]]]].
  - split; [reflexivity|discriminate].
  - rewrite titles_app. rewrite (proj1 (shade_titles _ _ _ _ _ HS)). cbn [app]. split.
    + intros ->. injection HT as <-. reflexivity.
    + intros ->. unfold dist_title in HT. destruct (get_parameter_text _ _ _) as [text|] eqn:ET; [|discriminate]. injection HT as <-. exists fit, text, (if String.eqb text "" then str (b_center fit) else text). split; [exact HF|]. split; [exact ET|].
      destruct (String.eqb_spec text "") as [->|N]; (split; [congruence|split; [congruence|]]); cbn [titles flat_map app]; reflexivity.
Qed.
Print Assumptions C74_title_partial.

(** ** Examples and failures *)
Definition ex74_num : numerics := {| n_bins := 4; n_points := 7; n_kde := 2; n_pad := 2; n_tries := 3; n_power := fun p h => h; n_kernel := fun _ => [1#4; 1#2; 1#4]; n_megkde := ex75_kde |}.
Definition ex74_str (o : option Q) : string := match o with Some _ => "1.0" | None => "None" end.
Definition ex74 (c : chain) (summary : bool) : res (list dist_call) := plot_dist ex74_num (fun _ _ _ _ => 1) 5 ex74_str (fig_cfg false false (BlindBool false) []) c (ex75_in 1 0) "x" summary.
Definition ex74_plain : chain := ex75_chain SMean no_kw.
Definition ex74_smooth : chain := ex75_chain SMean (kset (kset (kset no_kw Fsummary_area (3#5)) Fsmooth (Some 1%Z)) Fbins (Some 2%Z)).
Definition ex74_kde : chain := ex75_chain SMean (kset (kset no_kw Fkde (KBool true)) Fshade false).
Definition shape (r : res (list dist_call)) : option (list nat * list (Q * Q) * list string) :=
  match r with
  | Ok calls => Some (map (fun c => match c with DLine xs _ _ _ _ _ => length xs | DSteps e _ _ _ _ _ => length e | _ => 0%nat end) calls,
                      flat_map (fun c => match c with DFill lo hi _ _ _ _ _ _ _ => [(Qred lo, Qred hi)] | _ => [] end) calls, titles calls)
  | Err _ => None
  end.
(** Bars, a smoothed line, an estimate; a summary without ends. *)
Example C74_nonvacuous : ~ curved ex74_plain /\ plain_power ex74_num ex74_plain /\ shade_on ex74_plain /\
  smooth_value (ch_cfg ex74_smooth Fsmooth) (ch_grid ex74_smooth) = 1%Z /\ smoothing_kernel (n_kernel ex74_num 1) /\
  shape (ex74 ex74_plain true) = Some ([8; 0; 0]%nat, [(1 # 192, 359 # 72)], ["$x = 2.5\pm 2.5$"]) /\
  shape (ex74 ex74_smooth true) = Some ([3; 0; 0]%nat, [(47 # 20, 18 # 5)], ["$x = 2.0\pm 1.6$"]) /\
  shape (ex74 (ex75_chain SMax no_kw) true) = Some ([8; 0]%nat, [], ["$x = 1.0$"]) /\
  shape (ex74 ex74_kde false) = Some ([5]%nat, [], []).
Proof.
  split; [intros [H|H]; [apply H; reflexivity|discriminate]|]. split; [intros h; reflexivity|]. split. { split; [reflexivity|]. intros a E. apply (proj1 (alpha_positive_ok (ch_cfg ex74_plain Fshade_alpha)) eq_refl a E). }
  split; [reflexivity|]. split. { split; [exists 1%nat; reflexivity|]. split; [|reflexivity]. intros [|[|[|k]]] H; try reflexivity. cbn in H. lia. }
  repeat split; vm_compute; reflexivity.
Qed.

(** The setting for shading marginal distributions has no say: it is off, the figures draw the outline alone, and the
    distribution is shaded all the same. *)
Theorem C74_bar_shade_refuted : exists num kde1 points str cfg c f px calls out top, ch_cfg c Fbar_shade = false /\
  plot_bars num cfg px false true (c, f) = Ok ([out], top) /\ plot_dist num kde1 points str cfg c f px true = Ok calls /\ fills calls <> [].
Proof.
  exists ex74_num, (fun _ _ _ _ => 1), 5%nat, ex74_str, (fig_cfg false false (BlindBool false) []), (ex75_chain SMean (kset no_kw Fbar_shade false)), (ex75_in 1 0), "x".
  do 3 eexists. split; [reflexivity|]. split; [vm_compute; reflexivity|]. split; [vm_compute; reflexivity|]. vm_compute. discriminate.
Qed.
Print Assumptions C74_bar_shade_refuted.

(** The title names the column, not the label configured for it. *)
Theorem C74_label_refuted : exists num kde1 points str cfg c f px label calls, dget px (p_labels cfg) = Some label /\
  plot_dist num kde1 points str cfg c f px true = Ok calls /\ titles calls = ["$x = 2.5\pm 2.5$"] /\ px = "x" /\ label = "$\Omega_m$".
Proof.
  exists ex74_num, (fun _ _ _ _ => 1), 5%nat, ex74_str. set (cfg := fig_cfg false false (BlindBool false) []).
  exists {| p_labels := [("x", "$\Omega_m$")]; p_max_ticks := p_max_ticks cfg; p_plot_hists := p_plot_hists cfg; p_flip := p_flip cfg; p_serif := p_serif cfg; p_usetex := p_usetex cfg; p_label_font_size := p_label_font_size cfg; p_spacing := p_spacing cfg;
    p_show_legend := p_show_legend cfg; p_legend_kwargs := p_legend_kwargs cfg; p_legend_location := p_legend_location cfg; p_legend_artists := p_legend_artists cfg; p_legend_color_text := p_legend_color_text cfg;
    p_watermark := p_watermark cfg; p_watermark_text_kwargs := p_watermark_text_kwargs cfg; p_summarise := p_summarise cfg; p_sigma2d := p_sigma2d cfg; p_blind := p_blind cfg; p_log_scales := p_log_scales cfg; p_extents := p_extents cfg; p_dpi := p_dpi cfg |}, ex74_plain, (ex75_in 1 0), "x", "$\Omega_m$".
  eexists. split; [reflexivity|]. split; [vm_compute; reflexivity|]. split; [vm_compute; reflexivity|]. split; reflexivity.
Qed.
Print Assumptions C74_label_refuted.

(** A stronger contrast between contours than the default makes the call fail, although the figures draw the chain. *)
Theorem C74_gradient_refuted : exists num kde1 points str cfg c f px group top, ch_cfg c Fshade_gradient = 3 /\
  plot_bars num cfg px false true (c, f) = Ok (group, top) /\ plot_dist num kde1 points str cfg c f px true = Err ValueError.
Proof.
  exists ex74_num, (fun _ _ _ _ => 1), 5%nat, ex74_str, (fig_cfg false false (BlindBool false) []), (ex75_chain SMean (kset no_kw Fshade_gradient 3)), (ex75_in 1 0), "x".
  do 2 eexists. split; [reflexivity|]. split; vm_compute; reflexivity.
Qed.
Print Assumptions C74_gradient_refuted.
