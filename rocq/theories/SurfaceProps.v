(** C43-C45, C62-C64: the contour surface, its levels, clouds and the content of a panel. *)
From Coq Require Import String QArith Qabs Qround List Arith ZArith Bool Permutation Reals Qreals Lia Lqa.
From Verif Require Import Py NumSpec NumModel NumFacts HelpersSpec HelpersModel HelpersProofs SummarySpec MarginalModel MarginalProofs FilterProofs
  FrameModel FrameFacts ConfigModel ChainModel ColorModel ColorSpec ColorProofs RegistryModel FormatModel AnalysisModel ChainSpec ChainProofs ChainProps ChainUseProofs FormatSpec CompareModel CompareSpec CompareProofs
  SurfaceSpec SurfaceModel SurfaceProofs ExpBounds PanelSpec PanelProofs RegistrySpec RegistryProofs RegistryProps AnalysisProps.
From Verif Require Import OpacitySpec OpacityFacts.
Import ListNotations.
Open Scope Q_scope.

(** * C43 *)
(** For every histogram with a positive total and every order argsort may give to equal cells. *)
Theorem C43_surface : forall argsort m, argsort_ok argsort -> all_nonneg (concat m) -> 0 < total (concat m) ->
  exists v, convert_to_stdev argsort m = Ok v /\ credible_surface m v.
Proof. exact convert_credible. Qed.
Print Assumptions C43_surface.
(** What matplotlib is given: one value per pair of bin centres, x horizontally, with the chain's levels;
    filled contours only when shading, two layers below the lines. *)
Theorem C43_drawn : forall num kde2 argsort Phi sigma2d c f px py ds, argsort_ok argsort ->
  (forall p v, 0 <= v -> 0 <= n_power num p v) -> (forall s, all_nonneg (n_kernel num s)) -> (forall x y w t p, 0 <= kde2 x y w t p) ->
  (forall w, weights c f = Ok w -> all_nonneg w) -> plot_contour num kde2 argsort Phi sigma2d c f px py = Ok ds ->
  exists hist xc yc vals z bands lines (shaded : bool),
    get_smoothed_histogram2d num kde2 c f px py = Ok (hist, xc, yc) /\ shaped hist (length xc) (length yc) /\
    credible_surface (map (map (fun v => if Qeq_bool v 0 then (1 # 10000000000000000) else v)) hist) vals /\
    shaped z (length yc) (length xc) /\ (forall i j, (i < length xc)%nat -> (j < length yc)%nat -> cell 0 z j i = cell 0 vals i j) /\
    let levels := get_levels Phi sigma2d (ch_cfg c Fsigmas) in
    increasing_R levels /\ (shaded = true <-> shade_on c) /\
    ds = (if shaded then [Filled xc yc z levels bands (ch_cfg c Fshade_alpha) (ch_cfg c Fzorder - 2)%Z] else []) ++
         [Lines xc yc z levels lines (ch_cfg c Flinestyle) (ch_cfg c Flinewidth) (ch_cfg c Fzorder)] ++
         (if (ch_cfg c Fshow_contour_labels : bool) then [LevelLabels (map (fun l => (l, level_label l)) (nonzero_levels levels))] else []).
Proof.
  intros num kde2 argsort Phi s2 c f px py ds HA HP HK H2 HW H. destruct (contour_drawn _ _ _ _ _ _ _ _ _ _ HA HP HK H2 HW H) as [hist [xc [yc [vals [z [bands [lines [H1 [H3 [H4 [H5 [H6 [H7 H8]]]]]]]]]]]]].
  exists hist, xc, yc, vals, z, bands, lines, (ch_cfg c Fshade && alpha_positive (ch_cfg c Fshade_alpha))%bool. cbv zeta. pose proof (shade_on_ok c) as SO. tauto.
Qed.
Print Assumptions C43_drawn.

(** * C44 *)
Theorem C44_levels : forall Phi sigma2d sigmas, normal_cdf_like Phi ->
  length (get_levels Phi sigma2d sigmas) = length sigmas /\
  (forall i, (i < length sigmas)%nat ->
     let s := Q2R (nth i sigmas 0%Q) in let l := nth i (get_levels Phi sigma2d sigmas) 0%R in
     l = (if sigma2d then 1 - exp (- (s * s) / 2) else Phi s - (1 - Phi s))%R /\ (0 <= s -> 0 <= l)%R /\ (l < 1)%R /\ (s = 0 -> l = 0)%R) /\
  (all_nonneg sigmas -> increasing sigmas -> increasing_R (get_levels Phi sigma2d sigmas)).
Proof.
  intros Phi s2 sg HP. split; [apply get_levels_length|]. split; [|apply levels_increasing, HP].
  intros i Hi. cbv zeta. rewrite get_levels_nth by exact Hi. set (s := Q2R (nth i sg 0%Q)).
  assert (Z0 : (if s2 then 1 - exp (- (1 / 2) * (0 * 0)) else 2 * Phi 0 - 1)%R = 0%R).
  { pose proof (level_zero Phi HP s2) as Z. assert (E : Q2R 0 = 0%R) by (unfold Q2R; cbn; Lra.lra). rewrite !E in Z. exact Z. }
  split; [|split; [|split]].
  - destruct s2; [do 2 f_equal; Lra.lra|Lra.lra].
  - intros H. destruct (Rle_lt_or_eq_dec _ _ H) as [L|<-]; [|rewrite Z0; apply Rle_refl]. apply Rlt_le. rewrite <- Z0 at 1. apply level_mono; [exact HP|apply Rle_refl|exact L].
  - apply (level_lt1 Phi HP s2 s).
  - intros ->. exact Z0.
Qed.
Print Assumptions C44_levels.
(** With two or more increasing non-negative sigmas, a six-digit colour and a shade gradient between -2 and 10
    matplotlib accepts the levels and the contours are drawn (see C78 for other colours and gradients). *)
Theorem C44_accepted : forall num kde2 argsort Phi sigma2d c f px py base hist xc yc, argsort_ok argsort -> normal_cdf_like Phi ->
  (forall p v, 0 <= v -> 0 <= n_power num p v) -> (forall s, all_nonneg (n_kernel num s)) -> (forall x y w t p, 0 <= kde2 x y w t p) ->
  (forall w, weights c f = Ok w -> all_nonneg w) ->
  chain_colour c = Ok base -> valid_colour base -> (-2 < Q2R (ch_cfg c Fshade_gradient) < 10)%R ->
  get_smoothed_histogram2d num kde2 c f px py = Ok (hist, xc, yc) -> (2 <= length xc)%nat -> (2 <= length yc)%nat ->
  all_nonneg (ch_cfg c Fsigmas) -> increasing (ch_cfg c Fsigmas) -> (2 <= length (ch_cfg c Fsigmas))%nat ->
  (ch_cfg c Fshade = true -> exists v, alpha_value (ch_cfg c Fshade_alpha) = Some v /\ (0 <= v <= 1)%R) ->
  exists ds, plot_contour num kde2 argsort Phi sigma2d c f px py = Ok ds.
Proof. exact contour_total. Qed.
Print Assumptions C44_accepted.
(** Sigmas that do not increase, or a single one with shading, or none, never draw a contour. *)
Theorem C44_rejected : forall num kde2 argsort Phi sigma2d c f px py, normal_cdf_like Phi ->
  ch_cfg c Fsigmas = [] \/ (exists i, (S i < length (ch_cfg c Fsigmas))%nat /\ 0 <= at_ (ch_cfg c Fsigmas) (S i) <= at_ (ch_cfg c Fsigmas) i) \/
    (length (ch_cfg c Fsigmas) = 1%nat /\ shade_on c) ->
  forall ds, plot_contour num kde2 argsort Phi sigma2d c f px py <> Ok ds.
Proof.
  intros num kde2 argsort Phi s2 c f px py HP H ds C. apply contour_inv in C as [base [cols [hist [xc [yc [vals [_ [_ [_ [_ C]]]]]]]]]]. cbv zeta in C.
  destruct C as [N0 [N1 [Inc _]]]. destruct H as [H|[[i [Hi H]]|[H1 H2]]].
  - apply N0. rewrite H. reflexivity.
  - specialize (Inc i (S i) ltac:(lia) ltac:(rewrite get_levels_length; exact Hi)). rewrite !get_levels_nth in Inc by lia.
    assert (Q0 : (0 <= Q2R (nth (S i) (ch_cfg c Fsigmas) 0%Q))%R) by (replace 0%R with (Q2R 0) by (unfold Q2R; cbn; Lra.lra); apply Qle_Rle, H).
    assert (Q1 : (Q2R (nth (S i) (ch_cfg c Fsigmas) 0%Q) <= Q2R (nth i (ch_cfg c Fsigmas) 0%Q))%R) by (apply Qle_Rle, H).
    destruct (Rle_lt_or_eq_dec _ _ Q1) as [L|E]; [|rewrite E in Inc; exact (Rlt_irrefl _ Inc)].
    pose proof (level_mono Phi HP s2 _ _ Q0 L) as M. exact (Rlt_asym _ _ M Inc).
  - apply shade_on_ok in H2. rewrite H2 in N1. specialize (N1 eq_refl). rewrite get_levels_length, H1 in N1. lia.
Qed.
Print Assumptions C44_rejected.

(** * C45 *)
Theorem C45_cloud : forall c f px py x y pts col size marker z bars, frame_wf f -> column f px x -> column f py y ->
  plot_cloud c f px py = Ok (Scatter pts col size marker z, bars) ->
  exists k, (1 <= k)%nat /\ every_kth k (combine x y) pts /\ (pts = [] <-> x = []) /\
    match ch_cfg c Fcolor_param with
    | None => exists s, chain_colour c = Ok s /\ col = OneColour s (3 # 10)
    | Some p => forall v, column f p v -> exists vs, col = ByValue vs (ch_cfg c Fcmap) /\ every_kth k v vs /\ length vs = length pts
    end.
Proof.
  intros c f px py x y pts col size marker z bars W Hx Hy H.
  assert (GD : forall n v, column f n v -> get_data f n = Ok v).
  { intros n v Hv. unfold get_data. rewrite (proj2 (f_get_wf f n (map Fin v) W) Hv), qs_fin. reflexivity. }
  unfold plot_cloud in H. rewrite (GD px x Hx), (GD py y Hy) in H. cbn [rbind] in H.
  apply rbind_ok in H as [k [Ek H]]. apply rbind_ok in H as [cd [Ec H]]. apply rbind_ok in H as [col' [El H]]. injection H as <- <- <- <- <- <-.
  pose proof (cloud_skip_pos _ _ _ Ek) as Hk. exists k. split; [exact Hk|].
  assert (LEN : forall n v, column f n v -> length v = length (f_index f)).
  { intros n v Hv. destruct W as [_ W]. specialize (W _ _ Hv). rewrite map_length in W. exact W. }
  assert (EK : every_kth k (combine x y) (combine (every k x) (every k y))).
  { apply every_kth_combine; [rewrite (LEN _ _ Hx), (LEN _ _ Hy); reflexivity|apply every_spec, Hk..]. }
  split; [exact EK|]. split.
  { pose proof (EK 0%nat) as E0. cbn [Nat.mul] in E0. pose proof (LEN _ _ Hx). pose proof (LEN _ _ Hy). split.
    - intros E. rewrite E in E0. destruct x as [|a x]; [reflexivity|]. destruct y as [|b y]; [cbn in *; lia|discriminate].
    - intros ->. reflexivity. }
  unfold color_data in Ec. destruct (ch_cfg c Fcolor_param) as [p|].
  - intros v Hv. rewrite (proj2 (f_get_wf f p (map Fin v) W) Hv), qs_fin in Ec. injection Ec as <-. injection El as <-.
    exists (every k v). split; [reflexivity|]. pose proof (every_spec k v Hk) as EV. split; [exact EV|].
    assert (LL : forall {A B} (u : list A) (u' : list B) (r : list A) (r' : list B), length u = length u' -> every_kth k u r -> every_kth k u' r' -> (length r <= length r')%nat).
    { intros A B u u' r r' L E1 E2. destruct (Nat.le_gt_cases (length r) (length r')) as [G|G]; [exact G|]. exfalso.
      assert (N : nth_error r' (length r') = None) by (apply nth_error_None; lia). rewrite (E2 (length r')) in N. apply nth_error_None in N. rewrite <- L in N.
      apply nth_error_None in N. rewrite <- (E1 (length r')) in N. apply nth_error_None in N. lia. }
    assert (LC : length (combine x y) = length v) by (rewrite combine_length, (LEN _ _ Hx), (LEN _ _ Hy), (LEN _ _ Hv); lia).
    apply Nat.le_antisymm; [apply (LL _ _ v (combine x y)); [symmetry; exact LC|exact EV|exact EK]|apply (LL _ _ (combine x y) v); [exact LC|exact EK|exact EV]].
  - injection Ec as <-. destruct (chain_colour c) as [s|]; [|discriminate]. injection El as <-. exists s. split; reflexivity.
Qed.
Print Assumptions C45_cloud.
(** With at least num_cloud samples, between num_cloud and 2 num_cloud - 1 points; with fewer, all of them. *)
Theorem C45_count : forall c f px py x y pts col size marker z bars N, frame_wf f -> column f px x -> column f py y ->
  plot_cloud c f px py = Ok (Scatter pts col size marker z, bars) -> (1 <= N)%nat -> ch_cfg c Fnum_cloud = inject_Z (Z.of_nat N) ->
  ((N <= length x)%nat -> (N <= length pts <= 2 * N - 1)%nat) /\ ((length x < N)%nat -> pts = combine x y).
Proof.
  intros c f px py x y pts col size marker z bars N W Hx Hy H HN EN.
  assert (GD : forall n v, column f n v -> get_data f n = Ok v).
  { intros n v Hv. unfold get_data. rewrite (proj2 (f_get_wf f n (map Fin v) W) Hv), qs_fin. reflexivity. }
  assert (LEN : forall n v, column f n v -> length v = length (f_index f)).
  { intros n v Hv. destruct W as [_ W']. specialize (W' _ _ Hv). rewrite map_length in W'. exact W'. }
  unfold plot_cloud in H. rewrite (GD px x Hx), (GD py y Hy), EN in H. cbn [rbind] in H.
  apply rbind_ok in H as [k [Ek H]]. apply rbind_ok in H as [cd [_ H]]. apply rbind_ok in H as [col' [_ H]]. injection H as <- _ _ _ _ _.
  pose proof (cloud_skip_pos _ _ _ Ek) as Hk.
  assert (EK : every_kth k (combine x y) (combine (every k x) (every k y))).
  { apply every_kth_combine; [rewrite (LEN _ _ Hx), (LEN _ _ Hy); reflexivity|apply every_spec, Hk..]. }
  destruct (every_kth_length k _ _ Hk EK) as [B1 B2].
  assert (LC : length (combine x y) = length x) by (rewrite combine_length, (LEN _ _ Hx), (LEN _ _ Hy); lia). rewrite LC in B1, B2.
  destruct (cloud_count (length x) N k (length (combine (every k x) (every k y))) HN Ek B1) as [C1 C2].
  { intros Z. apply B2. intros E. rewrite E in Z. apply Z. reflexivity. }
  split; [exact C2|]. intros L. specialize (C1 L). subst k. apply nth_error_ext'. intros i. rewrite (EK i), Nat.mul_1_r. reflexivity.
Qed.
Print Assumptions C45_count.
Theorem C45_zero : forall c f px py x y, frame_wf f -> column f px x -> column f py y -> ch_cfg c Fnum_cloud == 0 ->
  plot_cloud c f px py = Err ZeroDivisionError.
Proof.
  intros c f px py x y W Hx Hy H0. unfold plot_cloud, get_data.
  rewrite (proj2 (f_get_wf f px (map Fin x) W) Hx), (proj2 (f_get_wf f py (map Fin y) W) Hy). cbn [rbind]. unfold cloud_skip.
  apply Qeq_bool_iff in H0. rewrite H0. reflexivity.
Qed.
Print Assumptions C45_zero.

(** * C62 *)
(** The samples' histogram: edges as for the one-dimensional marginals, centres midway between edges, each
    cell the (powered) weight of the samples in both bins, x along the first axis; smoothing runs along
    both axes; without a power the total is the weight between the outer edges. *)
Theorem C62_histogram : forall num kde2 c f px py x y w hist xc yc, frame_wf f -> column f px x -> column f py y -> column f (ch_weight c) w ->
  kde_on (ch_cfg c Fkde) = false -> get_smoothed_histogram2d num kde2 c f px py = Ok (hist, xc, yc) -> xc <> [] -> yc <> [] ->
  exists ex ey raw,
    edges_of (n_bins num) (marginal_config num c f x w) (combine x w) false ex /\
    edges_of (n_bins num) (marginal_config num c f y w) (combine y w) false ey /\
    length ex = S (length xc) /\ (forall i, (i < length xc)%nat -> at_ xc i == (at_ ex i + at_ ex (S i)) / 2) /\
    length ey = S (length yc) /\ (forall j, (j < length yc)%nat -> at_ yc j == (at_ ey j + at_ ey (S j)) / 2) /\
    shaped raw (length xc) (length yc) /\
    (forall i j p, (i < length xc)%nat -> (j < length yc)%nat -> (forall a b, p a b = true <-> belongs ex i a /\ belongs ey j b) ->
       exists v, v == weight_where p (combine (combine x y) w) /\ cell 0 raw i j = n_power num (ch_power c) v) /\
    (let s := smooth_value (ch_cfg c Fsmooth) (ch_grid c) in
     ((s <= 0)%Z -> hist = raw) /\
     ((0 < s)%Z -> shaped hist (length xc) (length yc) /\ exists mid, shaped mid (length xc) (length yc) /\
        (forall j, (j < length yc)%nat -> is_smoothing (n_kernel num s) (map (fun r => nth j r 0) raw) (map (fun r => nth j r 0) mid)) /\
        (forall i, (i < length xc)%nat -> is_smoothing (n_kernel num s) (nth i mid []) (nth i hist [])))) /\
    ((forall v, n_power num (ch_power c) v == v) -> (forall s, kernel_ok (n_kernel num s)) -> nondecreasing ex -> nondecreasing ey ->
       total (concat hist) ==
       weight_where (fun a b => (Qle_bool (at_ ex 0) a && Qle_bool a (at_ ex (length xc))) && (Qle_bool (at_ ey 0) b && Qle_bool b (at_ ey (length yc))))
         (combine (combine x y) w)).
Proof. intros num kde2 c f px py x y w hist xc yc W Hx Hy Hw. exact (surface_histogram num kde2 c f px py x y w W Hx Hy Hw hist xc yc). Qed.
Print Assumptions C62_histogram.
(** The edges do not decrease when the weights are positive, so the total statement applies to every
    constructed chain. *)
Theorem C62_edges : forall num c f x w e, (2 <= n_bins num)%nat -> (forall q, In q w -> 0 < q) -> combine x w <> [] ->
  edges_of (n_bins num) (marginal_config num c f x w) (combine x w) false e -> nondecreasing e.
Proof.
  intros num c f x w e Hn HW HN H. apply (edges_nondecreasing _ _ _ _ _ Hn) in H; [exact H| |exact HN].
  intros a b Hab. apply HW. apply in_combine_r in Hab. exact Hab.
Qed.
Print Assumptions C62_edges.
(** With a kernel density estimate: twice as many evenly spaced points as x bins, on both axes, between the
    outer edges; each cell is the (powered) estimate at its point. *)
Theorem C62_kde : forall num kde2 c f px py x y w hist xc yc, frame_wf f -> column f px x -> column f py y -> column f (ch_weight c) w ->
  kde_on (ch_cfg c Fkde) = true -> get_smoothed_histogram2d num kde2 c f px py = Ok (hist, xc, yc) ->
  exists ex ey, let n := (2 * (length ex - 1))%nat in
    edges_of (n_bins num) (marginal_config num c f x w) (combine x w) false ex /\
    edges_of (n_bins num) (marginal_config num c f y w) (combine y w) false ey /\
    ((2 <= length ex)%nat -> exists xlo xhi ylo yhi, is_min xlo ex /\ is_max xhi ex /\ is_min ylo ey /\ is_max yhi ey /\
       evenly_spaced xlo xhi n xc /\ evenly_spaced ylo yhi n yc) /\
    shaped hist n n /\
    forall i j, (i < n)%nat -> (j < n)%nat ->
      cell 0 hist i j = n_power num (ch_power c) (kde2 x y w (kde_value (ch_cfg c Fkde)) (at_ xc i, at_ yc j)).
Proof. intros num kde2 c f px py x y w hist xc yc W Hx Hy Hw. exact (surface_kde num kde2 c f px py x y w W Hx Hy Hw hist xc yc). Qed.
Print Assumptions C62_kde.

(** * C63 *)
Theorem C63_panel : forall num kde2 argsort Phi sigma2d chains px py ds bars,
  plot_surface num kde2 argsort Phi sigma2d chains px py = Ok (ds, bars) ->
  (exists parts, Forall2 (panel_part px py) chains parts /\ ds = concat parts) /\ NoDup (dkeys bars) /\
  forall p h, dget p bars = Some h <-> exists before cf after, chains = before ++ cf :: after /\ wants_bar px py p h cf /\ forall cf' h', In cf' after -> ~ wants_bar px py p h' cf'.
Proof. exact plot_surface_ok. Qed.
Print Assumptions C63_panel.

(** The colour of a chain: what the chain stores, as it is if hexadecimal, otherwise looked up by name (see C52). *)
Theorem C63_colour : forall c s, ch_cfg c Fcolor = Some s -> (forall t, s = String hash t -> chain_colour c = Ok s) /\ forall rgb2hex, chain_colour c = format rgb2hex (Some (CName s)).
Proof. intros c s E. unfold chain_colour. rewrite E. split; [intros t ->; reflexivity|reflexivity]. Qed.
Print Assumptions C63_colour.

(** * C64 *)
(** Every drawn level but zero is labelled with its percentage, to the nearest percent below 99.1 %, to the
    nearest tenth from there on. *)
Theorem C64_labels : forall num kde2 argsort Phi sigma2d c f px py ds labels,
  plot_contour num kde2 argsort Phi sigma2d c f px py = Ok ds -> In (LevelLabels labels) ds ->
  ch_cfg c Fshow_contour_labels = true /\
  (forall l, In l (map fst labels) <-> In l (get_levels Phi sigma2d (ch_cfg c Fsigmas)) /\ l <> 0%R) /\
  forall l t, In (l, t) labels -> exists s d, t = (" " ++ s ++ "% ")%string /\ shows_R s d (100 * l)%R /\ d = (if Rlt_dec l (991 / 1000) then 0 else 1)%nat.
Proof.
  intros num kde2 argsort Phi s2 c f px py ds labels H HI. apply contour_inv in H as [base [cols [hist [xc [yc [vals [_ [_ [_ [_ H]]]]]]]]]]. cbv zeta in H.
  destruct H as [_ [_ [_ [_ [_ [_ [_ ->]]]]]]]. apply in_app_or in HI as [HI|HI]; [destruct (_ && _) in HI; [destruct HI as [HI|[]]; discriminate|destruct HI]|].
  cbn [app] in HI. destruct HI as [HI|HI]; [discriminate|]. destruct (ch_cfg c Fshow_contour_labels : bool); [|destruct HI].
  destruct HI as [HI|[]]. injection HI as <-. split; [reflexivity|]. split.
  - intros l. rewrite map_map. cbn [fst]. rewrite map_id. unfold nonzero_levels. rewrite filter_In. destruct (Req_EM_T l 0) as [E|E]; split; intros [A B]; split; try assumption; try discriminate; try reflexivity. contradiction.
  - intros l t Hl. apply in_map_iff in Hl as [l' [E _]]. injection E as <- <-. unfold level_label.
    eexists _, _. split; [reflexivity|]. split; [apply fixed_R_shows|reflexivity].
Qed.
Print Assumptions C64_labels.
Lemma fixed_int x z : (IZR z - 1 / 2 < x < IZR z + 1 / 2)%R -> (0 <= z)%Z -> (0 <= x)%R -> fixed_R 0 x = render false 0 z.
Proof.
  intros H Hz Hx. unfold fixed_R. destruct (Rlt_dec x 0) as [L|_]; [exfalso; Lra.lra|]. f_equal.
  change (pow10 0) with 1%Z. rewrite Rmult_1_r, Rabs_pos_eq by exact Hx. pose proof (round_even_R_near x) as N.
  set (r := round_even_R x) in *. assert (N' : (- / 2 <= IZR r - x <= / 2)%R) by (unfold Rabs in N; destruct (Rcase_abs _) in N; Lra.lra).
  assert (L1 : (IZR (r - z) < IZR 1)%R) by (rewrite minus_IZR; Lra.lra). assert (L2 : (IZR (z - r) < IZR 1)%R) by (rewrite minus_IZR; Lra.lra).
  apply lt_IZR in L1, L2. lia.
Qed.
Lemma Q2R_lit n d : Q2R (n # d) = (IZR n / IZR (Zpos d))%R.
Proof. reflexivity. Qed.
Lemma labels_sigma2d Phi : map level_label (get_levels Phi true [1; 2]) = [" 39% "; " 86% "]%string.
Proof.
  assert (A1 : (6053 / 10000 <= exp (- (1 / 2) * (Q2R 1 * Q2R 1)) <= 6078 / 10000)%R).
  { replace (- (1 / 2) * (Q2R 1 * Q2R 1))%R with (2 ^ 6 * Q2R (-1 # 128))%R by (rewrite !Q2R_lit; cbn; Lra.lra). split.
    - rewrite <- (Q2R_lit 6053 10000). apply exp_lower_sq; vm_compute; discriminate.
    - replace (2 ^ 6 * Q2R (-1 # 128))%R with (- (2 ^ 6 * Q2R (1 # 128)))%R by (rewrite !Q2R_lit; Lra.lra). rewrite <- (Q2R_lit 6078 10000).
      apply exp_upper_sq; vm_compute; [reflexivity|reflexivity|discriminate]. }
  assert (A2 : (13506 / 100000 <= exp (- (1 / 2) * (Q2R 2 * Q2R 2)) <= 13561 / 100000)%R).
  { replace (- (1 / 2) * (Q2R 2 * Q2R 2))%R with (2 ^ 10 * Q2R (-1 # 512))%R by (rewrite !Q2R_lit; cbn; Lra.lra). split.
    - rewrite <- (Q2R_lit 13506 100000). apply exp_lower_sq; vm_compute; discriminate.
    - replace (2 ^ 10 * Q2R (-1 # 512))%R with (- (2 ^ 10 * Q2R (1 # 512)))%R by (rewrite !Q2R_lit; Lra.lra). rewrite <- (Q2R_lit 13561 100000).
      apply exp_upper_sq; vm_compute; [reflexivity|reflexivity|discriminate]. }
  cbn [get_levels map]. set (e1 := exp _) in A1 |- *. set (e2 := exp _) in A2 |- *. unfold level_label.
  destruct (Rlt_dec (1 - e1) (991 / 1000)) as [_|C]; [|exfalso; Lra.lra]. destruct (Rlt_dec (1 - e2) (991 / 1000)) as [_|C]; [|exfalso; Lra.lra].
  rewrite (fixed_int (100 * (1 - e1)) 39) by (try lia; Lra.lra). rewrite (fixed_int (100 * (1 - e2)) 86) by (try lia; Lra.lra). reflexivity.
Qed.
(** In two dimensions one sigma is 39 %, two are 86 %. *)
Theorem C64_sigma2d : forall Phi, map level_label (get_levels Phi true [1; 2]) = [" 39% "; " 86% "]%string.
Proof. exact labels_sigma2d. Qed.
Print Assumptions C64_sigma2d.

(** * Examples *)
(** A chain on a 3 x 3 grid with cloud, contours, labels, shading and point. *)
Definition ex43_frame : frame := {| f_index := [LInt 0; LInt 1; LInt 2; LInt 3];
  f_cols := [(CStr "x", [Fin 0; Fin 1; Fin 2; Fin 1]); (CStr "y", [Fin 4; Fin 2; Fin 6; Fin 2]); (CStr "z", [Fin 1; Fin 5; Fin 2; Fin 7]);
             (CStr "log_posterior", [Fin (-3); Fin (-1); Fin (-2); Fin (-4)])] |}.
Definition ex43_args : cargs :=
  {| a_cfg := kset (kset (kset (kset (kset (kset (kset no_kw Fplot_cloud true) Fcolor_param (Some "z"%string)) Fplot_point true) Fshow_contour_labels true) Fcolor (Some (CName "blue"%string))) Fnum_cloud 2) Fshade true;
     a_samples := 0; a_name := "A"%string; a_weight := None; a_post := None; a_walkers := None; a_grid := Some true;
     a_nfree := None; a_ndata := None; a_power := None; a_showlabel := None; a_relheight := None |}.
Definition ex43_run := new_chain ex_rgb {| h_frames := [ex43_frame]; h_chains := [] |} ex43_args.
Definition ex43_chain : option chain := match ex43_run with (h, Ok l) => chain_at h l | _ => None end.
Definition ex43_kde2 : list Q -> list Q -> list Q -> Q -> Q * Q -> Q := fun _ _ _ _ _ => 1.
Lemma ex43_num_ok : (forall p v, 0 <= v -> 0 <= n_power ex34_num p v) /\ (forall s, all_nonneg (n_kernel ex34_num s)) /\
  (forall x y w t p, 0 <= ex43_kde2 x y w t p) /\ (forall s, kernel_ok (n_kernel ex34_num s)) /\ (forall p v, n_power ex34_num p v == v).
Proof.
  split; [intros p v H; exact H|]. split; [intros s x [<-|[]]; discriminate|]. split; [discriminate|]. split; [|reflexivity].
  intros s. exists 0%nat. split; [reflexivity|]. split; [|reflexivity]. intros k Hk. cbn in Hk. assert (k = 0%nat) by lia. subst. reflexivity.
Qed.
Definition x_ : string := "x"%string.
Definition y_ : string := "y"%string.
Lemma ex43_levels : all_nonneg [0; 1; 2] /\ increasing [0; 1; 2].
Proof.
  split; [intros v [<-|[<-|[<-|[]]]]; discriminate|]. intros i j Hij Hj. cbn in Hj.
  destruct i as [|[|i]], j as [|[|[|j]]]; try lia; reflexivity.
Qed.
Example C43_nonvacuous : argsort_ok sorted_argsort /\ normal_cdf_like logistic /\
  (all_nonneg (concat [[1; 3]; [0; 2]]) /\ 0 < total (concat [[1; 3]; [0; 2]]) /\ convert_to_stdev sorted_argsort [[1; 3]; [0; 2]] = Ok [[6 # 6; 3 # 6]; [6 # 6; 5 # 6]]) /\
  exists h l c, ex43_run = (h, Ok l) /\ chain_at h l = Some c /\ let f := frame_at h (ch_samples c) in
    frame_wf f /\ column f x_ [0; 1; 2; 1] /\ column f y_ [4; 2; 6; 2] /\ column f (ch_weight c) [1; 1; 1; 1] /\ all_nonneg (ch_cfg c Fsigmas) /\ increasing (ch_cfg c Fsigmas) /\
    get_smoothed_histogram2d ex34_num ex43_kde2 c f x_ y_ = Ok ([[0; 1; 0]; [2; 0; 0]; [0; 0; 1]], [0 # 8; 8 # 8; 16 # 8], [16 # 8; 32 # 8; 48 # 8]) /\
    (forall s2, exists ds, plot_contour ex34_num ex43_kde2 sorted_argsort logistic s2 c f x_ y_ = Ok ds) /\
    (exists bars, plot_cloud c f x_ y_ = Ok (Scatter [(0, 4); (2, 6)] (ByValue [1; 2] "viridis"%string) 10 "."%string 5, bars)) /\
    plot_point c f x_ y_ = Ok [Scatter [(1, 2)] (OneColour "#1d417b"%string 1) 10 "."%string 11] /\
    (forall s2, exists ds bars, plot_surface ex34_num ex43_kde2 sorted_argsort logistic s2 [(c, f)] x_ y_ = Ok (ds, bars)).
Proof.
  split; [exact sorted_argsort_ok|]. split; [exact logistic_ok|]. split.
  { split; [intros v [<-|[<-|[<-|[<-|[]]]]]; discriminate|]. split; [reflexivity|]. vm_compute. reflexivity. }
  destruct ex43_num_ok as [N1 [N2 [N3 _]]].
  eexists _, _, _. split; [vm_compute; reflexivity|]. split; [reflexivity|]. cbv zeta.
  match goal with |- frame_wf (frame_at ?h ?l) /\ _ => let f' := eval vm_compute in (frame_at h l) in change (frame_at h l) with f'; set (f := f') end.
  assert (HF : frame_wf f) by (unfold f; frame_wf_tac).
  match goal with |- context [get_smoothed_histogram2d _ _ ?cc _ _ _] => set (c := cc) end.
  assert (HG : get_smoothed_histogram2d ex34_num ex43_kde2 c f x_ y_ = Ok ([[0; 1; 0]; [2; 0; 0]; [0; 0; 1]], [0 # 8; 8 # 8; 16 # 8], [16 # 8; 32 # 8; 48 # 8])) by (vm_compute; reflexivity).
  assert (HP : plot_point c f x_ y_ = Ok [Scatter [(1, 2)] (OneColour "#1d417b"%string 1) 10 "."%string 11]) by (vm_compute; reflexivity).
  assert (HL : exists bars, plot_cloud c f x_ y_ = Ok (Scatter [(0, 4); (2, 6)] (ByValue [1; 2] "viridis"%string) 10 "."%string 5, bars)) by (eexists; vm_compute; reflexivity).
  assert (HS : ch_cfg c Fsigmas = [0; 1; 2]) by (vm_compute; reflexivity).
  assert (HW : weights c f = Ok [1; 1; 1; 1]) by (vm_compute; reflexivity).
  assert (HB : chain_colour c = Ok "#3b82f6"%string) by (vm_compute; reflexivity).
  assert (VB : valid_colour "#3b82f6"%string) by (apply validb_ok; vm_compute; reflexivity).
  assert (HGr : (-2 < Q2R (ch_cfg c Fshade_gradient) < 10)%R) by (assert (E : ch_cfg c Fshade_gradient = 1) by (vm_compute; reflexivity); rewrite E; unfold Q2R; cbn; Lra.lra).
  assert (HC : forall s2, exists ds, plot_contour ex34_num ex43_kde2 sorted_argsort logistic s2 c f x_ y_ = Ok ds).
  { intros s2. refine (contour_total _ _ _ _ _ c f _ _ _ _ _ _ sorted_argsort_ok logistic_ok N1 N2 N3 _ HB VB HGr HG _ _ _ _ _ _); [|cbn [length]; lia|cbn [length]; lia|rewrite HS; apply ex43_levels|rewrite HS; apply ex43_levels|rewrite HS; cbn [length]; lia|intros _; apply opaque_enough; vm_compute; reflexivity].
    intros w Ew. rewrite HW in Ew. injection Ew as <-. intros v [<-|[<-|[<-|[<-|[]]]]]; discriminate. }
  split; [exact HF|]. split; [left; reflexivity|]. split; [right; left; reflexivity|]. split; [vm_compute; auto 8|].
  rewrite HS. split; [apply ex43_levels|]. split; [apply ex43_levels|].
  split; [exact HG|]. split; [exact HC|]. split; [exact HL|]. split; [exact HP|].
  intros s2. destruct (HC s2) as [ds Ed]. destruct HL as [bars Eb]. cbn [plot_surface]. unfold surface_one.
  assert (E1 : negb (smem x_ (plotting_columns c f)) || negb (smem y_ (plotting_columns c f)) = false) by (vm_compute; reflexivity). rewrite E1.
  assert (E2 : (ch_cfg c Fplot_cloud : bool) = true) by (vm_compute; reflexivity). rewrite E2.
  assert (E3 : (ch_cfg c Fplot_contour : bool) = true) by (vm_compute; reflexivity). rewrite E3.
  assert (E4 : (ch_cfg c Fplot_point : bool) = true) by (vm_compute; reflexivity). rewrite E4.
  rewrite Eb, Ed, HP. cbn [rbind rmap fst snd]. eexists _, _. reflexivity.
Qed.
