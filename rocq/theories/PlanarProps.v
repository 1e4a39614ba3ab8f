(** C83: contours under a change of units and of the way the weighted points are written down. *)
From Coq Require Import String QArith Qabs Qround List Arith ZArith Bool Lia Permutation Reals Qreals.
From Verif Require Import Py NumSpec NumModel NumFacts HelpersModel MarginalModel FrameModel ConfigModel ChainModel ColorModel ColorSpec ColorProofs RegistryModel AnalysisModel HelpersSpec ChainProps RegistryProps EquivSpec EquivFacts EquivApi
  ShadeModel SurfaceModel SurfaceSpec SurfaceProofs PlanarSpec PlanarProofs.
From Coq Require Import Lqa.
Import ListNotations.
Open Scope string_scope.
Open Scope list_scope.
Open Scope Q_scope.

(** * C83 *)
(** Two tables that hold the same weighted points, up to the units of the two parameters and of the weights, in any
    order and with any number of rows at a point: the two-dimensional density is the same, on the same cells in the
    other units, up to one factor; or both calls raise the same exception. *)
Theorem C83_density : forall num kde2 u k t c f f' px py, positive_units u -> 0 < t -> power_law (n_power num (ch_power c)) -> frame_wf f -> frame_wf f' ->
  same_plane u k c f f' px py -> same_kde2 kde2 u t c f f' px py ->
  agree (surface_in_units u (n_power num (ch_power c) (if kde_on (ch_cfg c Fkde) then t else k)))
    (get_smoothed_histogram2d num kde2 c f px py) (get_smoothed_histogram2d num kde2 c f' px py).
Proof. intros num kde2 u k t c f f' px py HU T HP WF WF' [B [s [s' [P [P' [NE [S SP]]]]]]] HK. eapply surface_rel; eassumption. Qed.
Print Assumptions C83_density.

(** The contours drawn: the same layers, levels, colours and styles at the same places in the other units, and surfaces
    that show the credible regions of one density.  The weights may change units only if no cell is empty. *)
Theorem C83_contours_partial : forall num kde2 argsort Phi sigma2d u k t c f f' px py, argsort_ok argsort ->
  (forall p v, 0 <= v -> 0 <= n_power num p v) -> (forall s, all_nonneg (n_kernel num s)) -> (forall x y w t p, 0 <= kde2 x y w t p) ->
  (forall w, weights c f = Ok w -> all_nonneg w) -> (forall w, weights c f' = Ok w -> all_nonneg w) ->
  positive_units u -> 0 < t -> power_law (n_power num (ch_power c)) -> frame_wf f -> frame_wf f' ->
  same_plane u k c f f' px py -> same_kde2 kde2 u t c f f' px py ->
  (if kde_on (ch_cfg c Fkde) then t else k) == 1 \/ (forall hist xc yc, get_smoothed_histogram2d num kde2 c f px py = Ok (hist, xc, yc) -> full hist) ->
  agree (fun ds ds' => exists hist xc yc, get_smoothed_histogram2d num kde2 c f px py = Ok (hist, xc, yc) /\ Forall2 (draw_in_units u (never_empty hist)) ds ds')
    (plot_contour num kde2 argsort Phi sigma2d c f px py) (plot_contour num kde2 argsort Phi sigma2d c f' px py).
Proof.
  intros num kde2 argsort Phi s2 u k t c f f' px py HA H1 H2 H3 W W' HU T HP WF WF' SPL HK FL.
  assert (K : 0 < k) by (destruct SPL as [_ [s [s' [_ [_ [_ [[K _] _]]]]]]]; exact K).
  eapply (contour_rel num kde2 argsort Phi HA H1 H2 H3 u (n_power num (ch_power c) (if kde_on (ch_cfg c Fkde) then t else k))); [exact W|exact W'| | |].
  - apply (proj2 (proj2 HP)). destruct (kde_on _); assumption.
  - destruct FL as [E|FL]; [left|right; exact FL]. rewrite <- (power_one _ HP). apply (proj1 HP). exact E.
  - apply (C83_density num kde2 u k t c f f' px py); assumption.
Qed.
Print Assumptions C83_contours_partial.
(** Two surfaces that show the credible regions of one density give the same value to every cell no other cell ties with. *)
Theorem C83_regions : forall m v v' i j r, credible_surface m v -> credible_surface m v' -> 0 < total (concat m) ->
  nth_error m i = Some r -> (j < length r)%nat -> untied m i j -> cell 0 v i j == cell 0 v' i j.
Proof.
  intros m v v' i j r C C' T E L U. pose proof (untied_value m v i j r E L U C) as V. pose proof (untied_value m v' i j r E L U C') as V'.
  rewrite <- V' in V. apply Qmult_inj_r in V; [exact V|]. intros Z. rewrite Z in T. exact (Qlt_irrefl _ T).
Qed.
Print Assumptions C83_regions.

(** What leaves the points as they are: other units, another order of the rows, a row split into two. *)
Theorem C83_rescaled : forall u k c px py f f' s, positive_units u -> 0 < k -> frame_wf f -> (0 < f_rows f)%nat -> px <> py -> px <> ch_weight c -> py <> ch_weight c ->
  rescaled u k c px py f f' -> points c f px py s -> spread_out u s -> same_plane u k c f f' px py.
Proof. exact plane_rescaled. Qed.
Print Assumptions C83_rescaled.
Theorem C83_reordered : forall c px py f f', frame_wf f -> (0 < f_rows f)%nat -> f_has f px = true -> f_has f py = true -> f_has f (ch_weight c) = true ->
  reordered f f' -> same_plane no_units 1 c f f' px py.
Proof. exact plane_reordered. Qed.
Print Assumptions C83_reordered.
Theorem C83_split : forall c px py f f' i, frame_wf f -> ch_cfg c Fbins <> None -> f_has f px = true -> f_has f py = true -> f_has f (ch_weight c) = true ->
  px <> ch_weight c -> py <> ch_weight c -> row_split (ch_weight c) i f f' -> same_plane no_units 1 c f f' px py.
Proof. exact plane_split. Qed.
Print Assumptions C83_split.

(** ** Examples *)
Definition ex83_num : numerics := {| n_bins := 10; n_points := 3; n_kde := 4; n_pad := 4; n_tries := 5; n_power := fun p h => h; n_kernel := fun _ => [1]; n_megkde := fun _ _ _ _ => 1 |}.
Definition ex83_kde2 : list Q -> list Q -> list Q -> Q -> Q * Q -> Q := fun _ _ _ _ _ => 1.
Definition ex83_args : cargs :=
  {| a_cfg := kset (kset (kset (kset no_kw Fbins (Some 4%Z)) Fsmooth (Some 0%Z)) Fshade false) Fsigmas [0; 1; 2]; a_samples := 0; a_name := "A"; a_weight := None; a_post := None; a_walkers := None; a_grid := Some true;
     a_nfree := None; a_ndata := None; a_power := None; a_showlabel := None; a_relheight := None |}.
Definition ex83_chain : chain := build (Some (Some "#3b82f6")) ex83_args 0.
Definition ex83_table (x y w : list Q) : frame :=
  {| f_index := map (fun i => LInt (Z.of_nat i)) (seq 0 (length x)); f_cols := [(CStr "x", map Fin x); (CStr "y", map Fin y); (CStr "weight", map Fin w)] |}.
Definition ex83_frame : frame := ex83_table [0; 1; 2; 1] [4; 2; 6; 2] [3; 1; 1; 4].
Definition ex83_units : units := {| u_a := 100; u_b := 20; u_c := 2; u_d := -1 |}.
Definition ex83_converted : frame := ex83_table [20; 120; 220; 120] [7; 3; 11; 3] [3; 1; 1; 4].
Definition ex83_split : frame := ex83_table [0; 1; 2; 1; 1] [4; 2; 6; 2; 2] [3; 1; 1; 1; 3].
Definition ex83_tiny : Q := 1 # 1180591620717411303424.
Definition ex83_light : frame := ex83_table [0; 1; 2; 1] [4; 2; 6; 2] (map (fun w => ex83_tiny * w) [3; 1; 1; 4]).
Ltac ex83_wf := split; [repeat constructor; cbn; intuition discriminate|]; intros c l [H|[H|[H|[]]]]; injection H as <- <-; reflexivity.
Lemma ex83_points : points ex83_chain ex83_frame "x" "y" (combine (combine [0; 1; 2; 1] [4; 2; 6; 2]) [3; 1; 1; 4]).
Proof. eexists _, _, _. do 3 (split; [reflexivity|]). reflexivity. Qed.
Lemma ex83_spread u : spread_out u (combine (combine [0; 1; 2; 1] [4; 2; 6; 2]) [3; 1; 1; 4]).
Proof.
  split; right; exists 0, 4, 1, 2; (split; [eexists _, _, _; split; [left; reflexivity|split; reflexivity]|split; [eexists _, _, _; split; [right; left; reflexivity|split; reflexivity]|discriminate]]).
Qed.
Lemma ex83_colour : chain_colour ex83_chain = Ok "#3b82f6".
Proof. reflexivity. Qed.
Lemma ex83_num_ok : (forall p v, 0 <= v -> 0 <= n_power ex83_num p v) /\ (forall s, all_nonneg (n_kernel ex83_num s)) /\ (forall x y w t p, 0 <= ex83_kde2 x y w t p).
Proof. split; [intros p v H; exact H|]. split; [intros s x [<-|[]]; discriminate|discriminate]. Qed.
Lemma ex83_weights x y w : weights ex83_chain (ex83_table x y w) = Ok w.
Proof. unfold weights, get_data. change (f_get (ex83_table x y w) (ch_weight ex83_chain)) with (Some (map Fin w)). cbn. unfold qs. rewrite map_map, map_id. reflexivity. Qed.
Lemma ex83_drawn s2 x y w hist xc yc : all_nonneg w -> get_smoothed_histogram2d ex83_num ex83_kde2 ex83_chain (ex83_table x y w) "x" "y" = Ok (hist, xc, yc) -> (2 <= length xc)%nat -> (2 <= length yc)%nat ->
  exists ds, plot_contour ex83_num ex83_kde2 sorted_argsort logistic s2 ex83_chain (ex83_table x y w) "x" "y" = Ok ds.
Proof.
  intros NW H L1 L2. destruct ex83_num_ok as [N1 [N2 N3]]. assert (HS : ch_cfg ex83_chain Fsigmas = [0; 1; 2]) by reflexivity.
  refine (contour_total _ _ _ _ _ ex83_chain _ _ _ _ _ _ _ sorted_argsort_ok logistic_ok N1 N2 N3 _ ex83_colour _ _ H L1 L2 _ _ _ _).
  - intros w0 E. rewrite ex83_weights in E. injection E as <-. exact NW.
  - apply validb_ok. vm_compute. reflexivity.
  - assert (E : ch_cfg ex83_chain Fshade_gradient = 1) by reflexivity. rewrite E. unfold Q2R. cbn. Lra.lra.
  - rewrite HS. intros v [<-|[<-|[<-|[]]]]; discriminate.
  - rewrite HS. intros i j Hij Hj. cbn in Hj. destruct i as [|[|i]], j as [|[|[|j]]]; try lia; reflexivity.
  - rewrite HS. cbn. lia.
  - intros _. apply opaque_enough. reflexivity.
Qed.
Lemma ex83_surface : get_smoothed_histogram2d ex83_num ex83_kde2 ex83_chain ex83_frame "x" "y" = Ok ([[0; 3; 0]; [5; 0; 0]; [0; 0; 1]], [0 # 8; 8 # 8; 16 # 8], [16 # 8; 32 # 8; 48 # 8]).
Proof. vm_compute. reflexivity. Qed.
Lemma ex83_surface_units : get_smoothed_histogram2d ex83_num ex83_kde2 ex83_chain ex83_converted "x" "y" = Ok ([[0; 3; 0]; [5; 0; 0]; [0; 0; 1]], [160 # 8; 960 # 8; 1760 # 8], [24 # 8; 56 # 8; 88 # 8]).
Proof. vm_compute. reflexivity. Qed.
Example C83_nonvacuous : positive_units ex83_units /\ power_law (n_power ex83_num (ch_power ex83_chain)) /\ frame_wf ex83_frame /\ frame_wf ex83_converted /\ frame_wf ex83_split /\
  same_plane ex83_units 1 ex83_chain ex83_frame ex83_converted "x" "y" /\ same_plane no_units 1 ex83_chain ex83_frame ex83_split "x" "y" /\
  same_plane no_units ex83_tiny ex83_chain ex83_frame ex83_light "x" "y" /\ same_kde2 ex83_kde2 ex83_units 1 ex83_chain ex83_frame ex83_converted "x" "y" /\
  (forall s2, exists ds, plot_contour ex83_num ex83_kde2 sorted_argsort logistic s2 ex83_chain ex83_frame "x" "y" = Ok ds) /\
  (forall s2, exists ds, plot_contour ex83_num ex83_kde2 sorted_argsort logistic s2 ex83_chain ex83_converted "x" "y" = Ok ds) /\
  untied (never_empty [[0; 3; 0]; [5; 0; 0]; [0; 0; 1]]) 1 0 /\ ~ untied (never_empty [[0; 3; 0]; [5; 0; 0]; [0; 0; 1]]) 0 0.
Proof.
  assert (WF : frame_wf ex83_frame) by ex83_wf. assert (NX : "x" <> ch_weight ex83_chain) by discriminate. assert (NY : "y" <> ch_weight ex83_chain) by discriminate.
  split; [split; reflexivity|]. split; [split; [auto|split; [reflexivity|auto]]|]. split; [exact WF|]. split; [ex83_wf|]. split; [ex83_wf|]. split.
  { eapply plane_rescaled; [split; reflexivity|reflexivity|exact WF|cbn; lia|discriminate|exact NX|exact NY| |exact ex83_points|apply ex83_spread].
    eexists _, _, _, (map Fin [20; 120; 220; 120]), (map Fin [7; 3; 11; 3]), (map Fin [3; 1; 1; 4]). do 3 (split; [reflexivity|]). split; [repeat constructor|]. split; [repeat constructor|]. split; [repeat constructor|]. reflexivity. }
  split.
  { eapply (plane_split _ _ _ _ _ 3%nat); [exact WF|discriminate|reflexivity|reflexivity|reflexivity|exact NX|exact NY|]. split; [cbn; lia|]. split; [reflexivity|]. intros n l H.
    unfold f_get in H. cbn [ex83_frame ex83_table f_cols col_get] in H.
    destruct (clabel_eqb (CStr n) (CStr "x")) eqn:E1; [apply String.eqb_eq in E1; subst n; injection H as <-; eexists _, _; split; [reflexivity|]; split; reflexivity|].
    destruct (clabel_eqb (CStr n) (CStr "y")) eqn:E2; [apply String.eqb_eq in E2; subst n; injection H as <-; eexists _, _; split; [reflexivity|]; split; reflexivity|].
    destruct (clabel_eqb (CStr n) (CStr "weight")) eqn:E3; [apply String.eqb_eq in E3; subst n; injection H as <-; eexists (Fin 1), (Fin 3); split; reflexivity|discriminate]. }
  split.
  { eapply plane_rescaled; [split; reflexivity|reflexivity|exact WF|cbn; lia|discriminate|exact NX|exact NY| |exact ex83_points|apply ex83_spread].
    eexists _, _, _, (map Fin [0; 1; 2; 1]), (map Fin [4; 2; 6; 2]), (map Fin (map (fun w => ex83_tiny * w) [3; 1; 1; 4])). do 3 (split; [reflexivity|]). split; [repeat constructor|]. split; [repeat constructor|]. split; [repeat constructor|]. reflexivity. }
  split; [left; reflexivity|]. split; [|split].
  - intros s2. eapply ex83_drawn; [intros v [<-|[<-|[<-|[<-|[]]]]]; discriminate|exact ex83_surface|cbn; lia|cbn; lia].
  - intros s2. eapply ex83_drawn; [intros v [<-|[<-|[<-|[<-|[]]]]]; discriminate|exact ex83_surface_units|cbn; lia|cbn; lia].
  - split; [reflexivity|discriminate].
Qed.

(** Empty cells count as 1e-16 whatever the weights are (contours.py:205), so weights that are all tiny make the empty cells
    the densest ones: the populated cells are drawn as the least credible. *)
Lemma ex83_surface_light : get_smoothed_histogram2d ex83_num ex83_kde2 ex83_chain ex83_light "x" "y" =
  Ok ([[0 # 1; 3 # 1180591620717411303424; 0 # 1]; [Z.mul 5 1180591620717411303424 # Pos.mul 1180591620717411303424 1180591620717411303424; 0 # 1; 0 # 1]; [0 # 1; 0 # 1; 1 # 1180591620717411303424]], [0 # 8; 8 # 8; 16 # 8], [16 # 8; 32 # 8; 48 # 8]).
Proof. vm_compute. reflexivity. Qed.
Theorem C83_weights_refuted : exists num kde2 argsort Phi k c f f' ds ds' hist xc yc, argsort_ok argsort /\ normal_cdf_like Phi /\
  (forall p v, 0 <= v -> 0 <= n_power num p v) /\ (forall s, all_nonneg (n_kernel num s)) /\ (forall x y w t p, 0 <= kde2 x y w t p) /\
  power_law (n_power num (ch_power c)) /\ frame_wf f /\ frame_wf f' /\ rescaled no_units k c "x" "y" f f' /\ same_plane no_units k c f f' "x" "y" /\ kde_on (ch_cfg c Fkde) = false /\
  get_smoothed_histogram2d num kde2 c f "x" "y" = Ok (hist, xc, yc) /\
  plot_contour num kde2 argsort Phi true c f "x" "y" = Ok ds /\ plot_contour num kde2 argsort Phi true c f' "x" "y" = Ok ds' /\
  ~ Forall2 (draw_in_units no_units (never_empty hist)) ds ds'.
Proof.
  destruct ex83_num_ok as [N1 [N2 N3]]. assert (WF : frame_wf ex83_frame) by ex83_wf.
  destruct (ex83_drawn true [0; 1; 2; 1] [4; 2; 6; 2] [3; 1; 1; 4] _ _ _ ltac:(intros v [<-|[<-|[<-|[<-|[]]]]]; discriminate) ex83_surface ltac:(cbn; lia) ltac:(cbn; lia)) as [ds D].
  destruct (ex83_drawn true [0; 1; 2; 1] [4; 2; 6; 2] (map (fun w => ex83_tiny * w) [3; 1; 1; 4]) _ _ _ ltac:(intros v [<-|[<-|[<-|[<-|[]]]]]; discriminate) ex83_surface_light ltac:(cbn; lia) ltac:(cbn; lia)) as [ds' D'].
  assert (RS : rescaled no_units ex83_tiny ex83_chain "x" "y" ex83_frame ex83_light).
  { eexists _, _, _, (map Fin [0; 1; 2; 1]), (map Fin [4; 2; 6; 2]), (map Fin (map (fun w => ex83_tiny * w) [3; 1; 1; 4])). do 3 (split; [reflexivity|]). split; [repeat constructor|]. split; [repeat constructor|]. split; [repeat constructor|]. reflexivity. }
  exists ex83_num, ex83_kde2, sorted_argsort, logistic, ex83_tiny, ex83_chain, ex83_frame, ex83_light, ds, ds', [[0; 3; 0]; [5; 0; 0]; [0; 0; 1]], [0 # 8; 8 # 8; 16 # 8], [16 # 8; 32 # 8; 48 # 8].
  split; [exact sorted_argsort_ok|]. split; [exact logistic_ok|]. split; [exact N1|]. split; [exact N2|]. split; [exact N3|]. split; [split; [auto|split; [reflexivity|auto]]|]. split; [exact WF|]. split; [ex83_wf|]. split; [exact RS|]. split.
  { eapply plane_rescaled; [split; reflexivity|reflexivity|exact WF|cbn; lia|discriminate|discriminate|discriminate|exact RS|exact ex83_points|apply ex83_spread]. }
  split; [reflexivity|]. split; [exact ex83_surface|]. split; [exact D|]. split; [exact D'|].
  apply contour_inv in D as [base [cols [hist [xc [yc [vals [_ [_ [Eh [_ D]]]]]]]]]]. apply contour_inv in D' as [base' [cols' [hist' [xc' [yc' [vals' [_ [_ [Eh' [Ev' D']]]]]]]]]].
  assert (SF : (ch_cfg ex83_chain Fshade && alpha_positive (ch_cfg ex83_chain Fshade_alpha))%bool = false) by reflexivity. cbv zeta in D, D'. rewrite SF in D, D'. destruct D as [_ [_ [_ [_ [_ [_ [_ ->]]]]]]]. destruct D' as [_ [_ [_ [_ [_ [_ [_ ->]]]]]]].
  cbn [app]. intros K. inversion K as [|? ? ? ? K1 _]; subst. cbn [draw_in_units] in K1. destruct K1 as [_ [_ [SR _]]]. destruct SR as [v [v' [_ [C' [_ X]]]]].
  change (ex83_table [0; 1; 2; 1] [4; 2; 6; 2] (map (fun w => ex83_tiny * w) [3; 1; 1; 4])) with ex83_light in Eh'. rewrite ex83_surface_light in Eh'. injection Eh' as <- <- <-.
  set (m := never_empty [[0; 3; 0]; [5; 0; 0]; [0; 0; 1]]) in *.
  assert (EV : 9 # 10 <= cell 0 (transpose 0 vals') 0 1). { vm_compute in Ev'. injection Ev' as <-. vm_compute. discriminate. }
  destruct X as [a [b [S1 [S2 X]]]]. destruct C' as [SH [C1 _]].
  assert (La : a = 3%nat). { destruct S1 as [<- _]. transitivity (length m); [|reflexivity]. rewrite <- (map_length (@length Q) v'), <- (map_length (@length Q) m). unfold same_shape in SH. rewrite SH. reflexivity. }
  assert (Lb : b = 3%nat). { destruct S2 as [L _]. transitivity (length (transpose 0 vals')); [symmetry; exact L|]. vm_compute in Ev'. injection Ev' as <-. reflexivity. }
  rewrite (X 1%nat 0%nat) in EV by lia.
  pose proof (cell_in m v' 1 0 [5; 1 # 10000000000000000; 1 # 10000000000000000] SH eq_refl ltac:(cbn; lia)) as I. destruct (C1 _ _ I) as [_ [D2 _]]. unfold cells in D2.
  rewrite (mass_fst (fun g => Qle_bool (cell 0 m 1 0) g) (concat m) (concat v') (concat m) (eq_sym (same_shape_length _ _ SH)) eq_refl) in D2.
  assert (M5 : mass (fun h _ => Qle_bool (cell 0 m 1 0) h) (combine (concat m) (concat m)) == 5) by (vm_compute; reflexivity). rewrite M5 in D2.
  assert (T9 : 9 <= total (concat m)) by (vm_compute; discriminate). set (x := cell 0 v' 1 0) in *. set (T := total (concat m)) in *. nra.
Qed.
Print Assumptions C83_weights_refuted.
