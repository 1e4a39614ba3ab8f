(** C84: exchanging the two parameters of a panel. *)
From Coq Require Import String QArith Qabs Qround List Arith ZArith Bool Lia Permutation Reals Qreals.
From Verif Require Import Py NumSpec NumModel NumFacts HelpersModel MarginalModel FrameModel ConfigModel ChainModel ColorModel ColorSpec ColorProofs RegistryModel AnalysisModel HelpersSpec ChainProps RegistryProps EquivSpec EquivFacts EquivApi
  ShadeModel SurfaceModel SurfaceSpec SurfaceProofs PlanarSpec PlanarProofs PlanarProps MirrorSpec MirrorProofs.
From Coq Require Import Lqa.
Import ListNotations.
Open Scope string_scope.
Open Scope list_scope.
Open Scope Q_scope.

(** * C84 *)
(** The density of (y, x) is the density of (x, y) with rows and columns exchanged, on the same cells. *)
Theorem C84_density_partial : forall num kde2 c f px py hist xc yc, (forall v v', v == v' -> n_power num (ch_power c) v == n_power num (ch_power c) v') -> kde_symmetric kde2 c ->
  get_smoothed_histogram2d num kde2 c f px py = Ok (hist, xc, yc) -> xc <> [] -> yc <> [] ->
  exists hist', get_smoothed_histogram2d num kde2 c f py px = Ok (hist', yc, xc) /\ flipped hist hist'.
Proof. exact surface_mirror. Qed.
Print Assumptions C84_density_partial.
(** A panel with the parameters exchanged shows the same clouds, contours and points, reflected in the diagonal: the same
    layers in the same order with the same levels, colours, styles and colour bars; each pair of surfaces shows the credible regions of
    one density of one of the chains. *)
Theorem C84_panel_partial : forall num kde2 argsort Phi sigma2d chains px py ds bars, argsort_ok argsort ->
  (forall p v, 0 <= v -> 0 <= n_power num p v) -> (forall p v v', v == v' -> n_power num p v == n_power num p v') ->
  (forall s, all_nonneg (n_kernel num s)) -> (forall x y w t p, 0 <= kde2 x y w t p) ->
  (forall c f, In (c, f) chains -> frame_wf f /\ (forall w, weights c f = Ok w -> all_nonneg w) /\ kde_symmetric kde2 c) ->
  plot_surface num kde2 argsort Phi sigma2d chains px py = Ok (ds, bars) ->
  exists ds' bars', plot_surface num kde2 argsort Phi sigma2d chains py px = Ok (ds', bars') /\
    Forall2 (draw_mirrored (density_of num kde2 chains px py)) ds ds' /\
    Forall2 (fun e e' => fst e' = fst e /\ draw_mirrored (density_of num kde2 chains px py) (snd e) (snd e')) bars bars'.
Proof. intros num kde2 argsort Phi s2 chains px py ds bars HA H1 H2 H3 H4 HC H. exact (panel_mirror num kde2 argsort Phi HA H1 H2 H3 H4 s2 px py chains ds bars HC H). Qed.
Print Assumptions C84_panel_partial.
(** One panel can be drawn if and only if the other can. *)
Theorem C84_drawable_partial : forall num kde2 argsort Phi sigma2d chains px py, argsort_ok argsort ->
  (forall p v, 0 <= v -> 0 <= n_power num p v) -> (forall p v v', v == v' -> n_power num p v == n_power num p v') ->
  (forall s, all_nonneg (n_kernel num s)) -> (forall x y w t p, 0 <= kde2 x y w t p) ->
  (forall c f, In (c, f) chains -> frame_wf f /\ (forall w, weights c f = Ok w -> all_nonneg w) /\ kde_symmetric kde2 c) ->
  (exists r, plot_surface num kde2 argsort Phi sigma2d chains px py = Ok r) <-> (exists r, plot_surface num kde2 argsort Phi sigma2d chains py px = Ok r).
Proof.
  intros num kde2 argsort Phi s2 chains px py HA H1 H2 H3 H4 HC. split; intros [[ds bars] H].
  - destruct (panel_mirror num kde2 argsort Phi HA H1 H2 H3 H4 s2 px py chains ds bars HC H) as [ds' [bars' [E _]]]. exists (ds', bars'). exact E.
  - destruct (panel_mirror num kde2 argsort Phi HA H1 H2 H3 H4 s2 py px chains ds bars HC H) as [ds' [bars' [E _]]]. exists (ds', bars'). exact E.
Qed.
Print Assumptions C84_drawable_partial.

(** ** Examples *)
(** Three values of x, two of y, smoothed over three neighbouring cells. *)
Definition ex84_num : numerics := {| n_bins := 10; n_points := 3; n_kde := 4; n_pad := 4; n_tries := 5; n_power := fun p h => h; n_kernel := fun _ => [1; 2; 1]; n_megkde := fun _ _ _ _ => 1 |}.
Definition ex84_args : cargs :=
  {| a_cfg := kset (kset (kset (kset (kset no_kw Fbins (Some 4%Z)) Fsmooth (Some 1%Z)) Fshade false) Fsigmas [0; 1; 2]) Fplot_cloud true; a_samples := 0; a_name := "A"; a_weight := None; a_post := None; a_walkers := None; a_grid := Some true;
     a_nfree := None; a_ndata := None; a_power := None; a_showlabel := None; a_relheight := None |}.
Definition ex84_chain : chain := build (Some (Some "#3b82f6")) ex84_args 0.
Definition ex84_frame : frame := ex83_table [0; 1; 2; 1] [4; 2; 4; 2] [3; 1; 1; 4].
Lemma ex84_surface : exists hist xc yc hist', get_smoothed_histogram2d ex84_num ex83_kde2 ex84_chain ex84_frame "x" "y" = Ok (hist, xc, yc) /\ get_smoothed_histogram2d ex84_num ex83_kde2 ex84_chain ex84_frame "y" "x" = Ok (hist', yc, xc) /\
  length xc = 3%nat /\ length yc = 2%nat /\ cell 0 hist 0 1 == 32 /\ cell 0 hist' 1 0 == 32 /\ ~ cell 0 hist 1 0 == 32.
Proof. eexists _, _, _, _. split; [vm_compute; reflexivity|]. split; [vm_compute; reflexivity|]. split; [reflexivity|]. split; [reflexivity|]. split; [reflexivity|]. split; [reflexivity|]. discriminate. Qed.
Lemma ex84_cloud : plot_cloud ex84_chain ex84_frame "x" "y" = Ok (Scatter [(0, 4); (1, 2); (2, 4); (1, 2)] (OneColour "#3b82f6" (3 # 10)) 10 "." (ch_cfg ex84_chain Fzorder - 5)%Z, []).
Proof. vm_compute. reflexivity. Qed.
Example C84_nonvacuous : argsort_ok sorted_argsort /\ (forall p v, 0 <= v -> 0 <= n_power ex84_num p v) /\ (forall s, all_nonneg (n_kernel ex84_num s)) /\ (forall x y w t p, 0 <= ex83_kde2 x y w t p) /\
  (forall c f, In (c, f) [(ex84_chain, ex84_frame)] -> frame_wf f /\ (forall w, weights c f = Ok w -> all_nonneg w) /\ kde_symmetric ex83_kde2 c) /\
  (forall s2, exists ds bars, plot_surface ex84_num ex83_kde2 sorted_argsort logistic s2 [(ex84_chain, ex84_frame)] "x" "y" = Ok (ds, bars) /\ (2 <= length ds)%nat).
Proof.
  assert (N1 : forall p v, 0 <= v -> 0 <= n_power ex84_num p v) by (intros p v H; exact H). assert (N2 : forall s, all_nonneg (n_kernel ex84_num s)) by (intros s x [<-|[<-|[<-|[]]]]; discriminate).
  assert (N3 : forall x y w t p, 0 <= ex83_kde2 x y w t p) by discriminate. assert (HS : ch_cfg ex84_chain Fsigmas = [0; 1; 2]) by reflexivity.
  assert (NW : forall w, weights ex84_chain ex84_frame = Ok w -> all_nonneg w) by (intros w E; injection E as <-; intros v [<-|[<-|[<-|[<-|[]]]]]; discriminate).
  split; [exact sorted_argsort_ok|]. split; [exact N1|]. split; [exact N2|]. split; [exact N3|]. split.
  { intros c f [E|[]]. injection E as <- <-. split; [ex83_wf|]. split; [exact NW|]. left. reflexivity. }
  intros s2. destruct ex84_surface as [hist [xc [yc [hist' [E [_ [L1 [L2 _]]]]]]]].
  assert (D : exists ds, plot_contour ex84_num ex83_kde2 sorted_argsort logistic s2 ex84_chain ex84_frame "x" "y" = Ok ds).
  { refine (contour_total _ _ _ _ _ ex84_chain _ _ _ _ _ _ _ sorted_argsort_ok logistic_ok N1 N2 N3 NW eq_refl _ _ E _ _ _ _ _ _).
    - apply validb_ok. vm_compute. reflexivity.
    - assert (E0 : ch_cfg ex84_chain Fshade_gradient = 1) by reflexivity. rewrite E0. unfold Q2R. cbn. Lra.lra.
    - lia.
    - lia.
    - rewrite HS. intros v [<-|[<-|[<-|[]]]]; discriminate.
    - rewrite HS. intros i j Hij Hj. cbn in Hj. destruct i as [|[|i]], j as [|[|[|j]]]; try lia; reflexivity.
    - rewrite HS. cbn. lia.
    - intros _. apply opaque_enough. reflexivity. }
  destruct D as [ds D]. assert (L : (1 <= length ds)%nat). { apply contour_inv in D as [base [cols [h [x [y [vals [_ [_ [_ [_ D]]]]]]]]]]. cbv zeta in D. destruct D as [_ [_ [_ [_ [_ [_ [_ ->]]]]]]]. rewrite !app_length. cbn. lia. }
  unfold plot_surface, surface_one. replace (negb (smem "x" _) || negb (smem "y" _)) with false by (vm_compute; reflexivity).
  change (ch_cfg ex84_chain Fplot_cloud : bool) with true. change (ch_cfg ex84_chain Fplot_contour : bool) with true. change (ch_cfg ex84_chain Fplot_point : bool) with false. rewrite ex84_cloud, D. cbn [rmap rbind fst snd]. eexists _, _. split; [reflexivity|]. rewrite !app_length. cbn [length]. lia.
Qed.

(** With a kernel density estimate both axes get twice as many points as the grid has values of the horizontal parameter
    (helpers.py:111-114): two values of x and three of y give a 4 by 4 density, and 6 by 6 with the parameters exchanged. *)
Definition ex84_kde_args : cargs :=
  {| a_cfg := kset no_kw Fkde (KBool true); a_samples := 0; a_name := "A"; a_weight := None; a_post := None; a_walkers := None; a_grid := Some true;
     a_nfree := None; a_ndata := None; a_power := None; a_showlabel := None; a_relheight := None |}.
Definition ex84_kde_chain : chain := build (Some (Some "#3b82f6")) ex84_kde_args 0.
Theorem C84_grid_kde_refuted : exists num kde2 c f hist xc yc hist' xc' yc', (forall p v v', v == v' -> n_power num p v == n_power num p v') /\ symmetric_kde2 kde2 /\ frame_wf f /\
  (forall w, weights c f = Ok w -> all_nonneg w) /\
  get_smoothed_histogram2d num kde2 c f "x" "y" = Ok (hist, xc, yc) /\ get_smoothed_histogram2d num kde2 c f "y" "x" = Ok (hist', xc', yc') /\
  length xc = 4%nat /\ length yc = 4%nat /\ length xc' = 6%nat /\ length yc' = 6%nat.
Proof.
  exists ex83_num, ex83_kde2, ex84_kde_chain, (ex83_table [0; 1; 0; 1] [4; 2; 3; 2] [1; 1; 1; 1]). do 6 eexists.
  split; [intros p v v' H; exact H|]. split; [intros x y w t p q; reflexivity|]. split; [ex83_wf|]. split; [intros w E; injection E as <-; intros v [<-|[<-|[<-|[<-|[]]]]]; discriminate|].
  split; [vm_compute; reflexivity|]. split; [vm_compute; reflexivity|]. repeat split; reflexivity.
Qed.
Print Assumptions C84_grid_kde_refuted.
