(** Exchanging the two parameters of a panel. *)
From Coq Require Import String QArith Qabs Qround List Arith ZArith Bool Lia Permutation Reals Qreals Lqa.
From Verif Require Import Py NumSpec NumModel NumFacts HelpersModel MarginalModel FrameModel ConfigModel ChainModel RegistryModel AnalysisModel HelpersSpec HelpersProofs SummarySpec FilterProofs EquivSpec EquivFacts EquivApi.
From Verif Require Import ShadeModel SurfaceModel SurfaceSpec SurfaceProofs PlanarSpec PlanarProofs MirrorSpec.
From Verif Require FrameFacts.
Import ListNotations.
Open Scope list_scope.
Open Scope Q_scope.

(** ** Matrices *)
Lemma cell_row {A} (d : A) m i j : cell d m i j = nth j (nth i m []) d.
Proof. reflexivity. Qed.
Lemma shaped_row {A} (m : list (list A)) a b i : shaped m a b -> (i < a)%nat -> length (nth i m []) = b.
Proof. intros [L R] H. apply R, nth_In. lia. Qed.
Definition rho (n : nat) (kern : list Q) (i k : nat) : nat := reflect_index n (Z.of_nat i + Z.of_nat k - Z.of_nat (Nat.div2 (length kern))).
Lemma rho_lt n kern i k : (0 < n)%nat -> (rho n kern i k < n)%nat.
Proof. intros H. apply (reflect_mirrored n _ H). Qed.
Lemma filter_rows_cell kern m a b i j : shaped m a b -> (i < a)%nat -> (j < b)%nat ->
  cell 0 (map (filter1d kern) m) i j == sum_n (fun k => at_ kern k * cell 0 m i (rho b kern j k)) 0 (length kern).
Proof.
  intros S I J. pose proof (shaped_row m a b i S I) as L. unfold cell.
  assert (E : nth i (map (filter1d kern) m) [] = filter1d kern (nth i m [])). { change (@nil Q) with (filter1d kern []) at 1. rewrite (map_nth (filter1d kern)). reflexivity. }
  rewrite E. change (nth j (filter1d kern (nth i m [])) 0) with (at_ (filter1d kern (nth i m [])) j). rewrite filter1d_at by lia. rewrite L. unfold sum_range. rewrite Nat.sub_0_r. reflexivity.
Qed.
Lemma filter2d_cell kern m a b i j : shaped m a b -> (i < a)%nat -> (j < b)%nat ->
  cell 0 (filter2d kern m) i j == sum_n (fun l => at_ kern l * sum_n (fun k => at_ kern k * cell 0 m (rho a kern i k) (rho b kern j l)) 0 (length kern)) 0 (length kern).
Proof.
  intros S I J. assert (Pa : (0 < a)%nat) by lia. assert (Pb : (0 < b)%nat) by lia. unfold filter2d.
  pose proof (transpose_shaped 0 m a b S Pa) as S1. pose proof (map_filter_shaped kern _ _ _ S1) as S2. pose proof (transpose_shaped 0 _ b a S2 Pb) as S3.
  rewrite (filter_rows_cell kern _ a b i j S3 I J). apply sum_n_ext. intros l _. apply Qmult_comp; [reflexivity|].
  rewrite (transpose_cell 0 _ b a (rho b kern j l) i S2) by (try exact I; apply rho_lt; exact Pb). rewrite (filter_rows_cell kern _ b a _ i S1) by (try exact I; apply rho_lt; exact Pb).
  apply sum_n_ext. intros k _. apply Qmult_comp; [reflexivity|]. rewrite (transpose_cell 0 m a b) by (try exact S; apply rho_lt; assumption). reflexivity.
Qed.
Lemma filter2d_flipped kern m m' a b : (0 < a)%nat -> (0 < b)%nat -> shaped m a b -> shaped m' b a -> (forall i j, (i < a)%nat -> (j < b)%nat -> cell 0 m' j i == cell 0 m i j) ->
  forall i j, (i < a)%nat -> (j < b)%nat -> cell 0 (filter2d kern m') j i == cell 0 (filter2d kern m) i j.
Proof.
  intros Pa Pb S S' H i j I J. rewrite (filter2d_cell kern m a b i j S I J), (filter2d_cell kern m' b a j i S' J I).
  rewrite (sum_n_ext _ (fun l => sum_n (fun k => at_ kern l * (at_ kern k * cell 0 m (rho a kern i l) (rho b kern j k))) 0 (length kern))).
  2:{ intros l _. rewrite <- sum_n_scal. apply sum_n_ext. intros k _. rewrite (H (rho a kern i l) (rho b kern j k)) by (apply rho_lt; assumption). reflexivity. }
  rewrite sum_n_swap. apply sum_n_ext. intros l _. rewrite <- sum_n_scal. apply sum_n_ext. intros k _. ring.
Qed.

(** ** The histogram *)
Lemma combine_swap : forall (x y w : list Q), map (fun p : Q * Q * Q => (swap (fst p), snd p)) (combine (combine x y) w) = combine (combine y x) w.
Proof. induction x as [|a x IH]; intros [|b y] [|v w]; try reflexivity. cbn. f_equal. apply IH. Qed.
Lemma weight_where_swap P s : weight_where (fun a b => P b a) (map (fun p : Q * Q * Q => (swap (fst p), snd p)) s) == weight_where P s.
Proof. induction s as [|[[a b] w] s IH]; cbn [map weight_where swap fst snd]; [reflexivity|]. rewrite IH. reflexivity. Qed.
Lemma weight_where_ext P P' s : (forall a b, P a b = P' a b) -> weight_where P s == weight_where P' s.
Proof. intros H. induction s as [|[[a b] w] s IH]; cbn [weight_where]; [reflexivity|]. rewrite IH, H. reflexivity. Qed.
Lemma histogram2d_flipped ex ey x y w i j : (S i < length ex)%nat -> (S j < length ey)%nat -> cell 0 (histogram2d ey ex y x w) j i == cell 0 (histogram2d ex ey x y w) i j.
Proof.
  intros I J. rewrite (histogram2d_cell ex ey x y w i j I J), (histogram2d_cell ey ex y x w j i J I), <- combine_swap.
  rewrite (weight_where_ext _ (fun a b => (fun p q => bin_test ex i p && bin_test ey j q) b a)) by (intros a b; apply andb_comm). apply (weight_where_swap (fun p q => bin_test ex i p && bin_test ey j q)).
Qed.
Lemma map_cell p m a b i j : shaped m a b -> (i < a)%nat -> (j < b)%nat -> cell 0 (map (map p) m) i j = p (cell 0 m i j).
Proof.
  intros S I J. pose proof (shaped_row m a b i S I) as L. unfold cell. change (@nil Q) with (map p []) at 1. rewrite (map_nth (map p) m). rewrite (nth_indep _ 0 (p 0)) by (rewrite map_length, L; exact J). apply map_nth.
Qed.
Lemma table_cell (g : Q -> Q -> Q) l l' i j : (i < length l)%nat -> (j < length l')%nat -> cell 0 (map (fun a => map (fun b => g a b) l') l) i j = g (nth i l 0) (nth j l' 0).
Proof.
  intros I J. unfold cell. rewrite (nth_indep _ [] ((fun a => map (fun b => g a b) l') 0)) by (rewrite map_length; exact I). rewrite (map_nth (fun a => map (fun b => g a b) l') l 0 i).
  rewrite (nth_indep _ 0 (g (nth i l 0) 0)) by (rewrite map_length; exact J). apply (map_nth (fun b => g (nth i l 0) b)).
Qed.
Lemma edges_length (c : chain) num f x w y e e' :
  ch_grid c = false ->
  (if ch_grid c then get_grid_bins x else rmap fst (get_smoothed_bins (n_bins num) (smooth_value (ch_cfg c Fsmooth) (ch_grid c)) (get_bins (ch_cfg c Fbins) (ch_cfg c Fsmooth) (ch_grid c) (f_rows f) (length (f_cols f))) (combine x w) false false)) = Ok e ->
  (if ch_grid c then get_grid_bins y else rmap fst (get_smoothed_bins (n_bins num) (smooth_value (ch_cfg c Fsmooth) (ch_grid c)) (get_bins (ch_cfg c Fbins) (ch_cfg c Fsmooth) (ch_grid c) (f_rows f) (length (f_cols f))) (combine y w) false false)) = Ok e' ->
  length e' = length e.
Proof.
  intros ->. unfold get_smoothed_bins. set (sv := smooth_value _ _). set (nb := get_bins _ _ _ _ _). destruct (get_extents _ (combine x w) _ _ _ _) as [[lo hi]|]; [cbn [rbind]|discriminate]. destruct (get_extents _ (combine y w) _ _ _ _) as [[lo' hi']|]; [cbn [rbind]|discriminate].
  destruct (sv =? 0)%Z; [destruct (nb <? 0)%Z|destruct (2 * sv * nb <? 0)%Z]; cbn [rmap fst]; try discriminate; intros H H'; injection H as <-; injection H' as <-; rewrite !linspace_length; reflexivity.
Qed.

(** ** helpers.py: get_smoothed_histogram2d *)
Section mirror.
Variable num : numerics.
Variable kde2 : list Q -> list Q -> list Q -> Q -> Q * Q -> Q.
Lemma surface_mirror c f px py hist xc yc : (forall v v', v == v' -> n_power num (ch_power c) v == n_power num (ch_power c) v') -> kde_symmetric kde2 c ->
  get_smoothed_histogram2d num kde2 c f px py = Ok (hist, xc, yc) -> xc <> [] -> yc <> [] ->
  exists hist', get_smoothed_histogram2d num kde2 c f py px = Ok (hist', yc, xc) /\ flipped hist hist'.
Proof.
  intros HP HK H Nx Ny. pose proof (surface_shaped num kde2 c f px py hist xc yc H Nx Ny) as Sh.
  apply surface_inv in H as [x [y [w [ex [ey [Ex [Ey [Ew [Eex [Eey H]]]]]]]]]]. cbv zeta in H.
  assert (R : exists hist', get_smoothed_histogram2d num kde2 c f py px = Ok (hist', yc, xc) /\ forall i j, (i < length xc)%nat -> (j < length yc)%nat -> cell 0 hist' j i == cell 0 hist i j).
  { unfold get_smoothed_histogram2d. rewrite Ex, Ey, Ew. cbn [rbind]. cbv zeta. rewrite Eey. cbn [rbind]. rewrite Eex. cbn [rbind]. destruct (kde_on (ch_cfg c Fkde)) eqn:KO.
    - destruct HK as [HK|[HK G]]; [congruence|]. pose proof (edges_length c num f x w y ex ey G Eex Eey) as LE. destruct H as [N1 [N2 [Hx [Hy ->]]]]. destruct ex as [|bx rx]; [congruence|]. destruct ey as [|by_ ry]; [congruence|]. cbn [hd tl] in Hx, Hy. rewrite !bin_centers_length, LE, <- Hx, <- Hy. eexists. split; [reflexivity|].
      intros i j I J. rewrite (table_cell (fun a b => n_power num (ch_power c) (kde2 y x w (kde_value (ch_cfg c Fkde)) (a, b))) yc xc j i J I), (table_cell (fun a b => n_power num (ch_power c) (kde2 x y w (kde_value (ch_cfg c Fkde)) (a, b))) xc yc i j I J).
      apply HP, HK.
    - destruct H as [-> [-> ->]]. eexists. split; [reflexivity|]. rewrite !bin_centers_length.
      assert (Lx : (0 < length ex - 1)%nat) by (rewrite <- bin_centers_length; destruct (bin_centers ex); [congruence|cbn; lia]).
      assert (Ly : (0 < length ey - 1)%nat) by (rewrite <- bin_centers_length; destruct (bin_centers ey); [congruence|cbn; lia]).
      set (raw := map (map (n_power num (ch_power c))) (histogram2d ex ey x y w)). set (raw' := map (map (n_power num (ch_power c))) (histogram2d ey ex y x w)).
      assert (S0 : shaped raw (length ex - 1) (length ey - 1)) by (apply map_map_shaped, histogram2d_shaped). assert (S0' : shaped raw' (length ey - 1) (length ex - 1)) by (apply map_map_shaped, histogram2d_shaped).
      assert (RC : forall i j, (i < length ex - 1)%nat -> (j < length ey - 1)%nat -> cell 0 raw' j i == cell 0 raw i j).
      { intros i j I J. unfold raw, raw'. rewrite (map_cell _ _ _ _ j i (histogram2d_shaped ey ex y x w) J I), (map_cell _ _ _ _ i j (histogram2d_shaped ex ey x y w) I J). apply HP. apply histogram2d_flipped; lia. }
      destruct (0 <? smooth_value (ch_cfg c Fsmooth) (ch_grid c))%Z; [|exact RC]. apply filter2d_flipped; assumption. }
  destruct R as [hist' [E R]]. exists hist'. split; [exact E|]. exists (length xc), (length yc). split; [exact Sh|]. split; [apply (surface_shaped num kde2 c f py px hist' yc xc E Ny Nx)|exact R].
Qed.
End mirror.

(** ** Credible surfaces *)
Lemma flat_map_swap {A B C} (g : A -> B -> C) l1 l2 : Permutation (flat_map (fun i => map (g i) l2) l1) (flat_map (fun j => map (fun i => g i j) l1) l2).
Proof.
  revert l2. induction l1 as [|a l1 IH]; intros l2; cbn [flat_map].
  - induction l2 as [|b l2 IH2]; [constructor|exact IH2].
  - rewrite IH. clear IH. induction l2 as [|b l2 IH2]; [constructor|]. cbn [map flat_map]. cbn [app]. constructor. rewrite <- IH2. rewrite !app_assoc. apply Permutation_app_tail, Permutation_app_comm.
Qed.
Lemma rows_seq {A} (d : A) l b : length l = b -> l = map (fun j => nth j l d) (seq 0 b).
Proof. intros <-. induction l as [|x l IH]; [reflexivity|]. cbn [length seq map nth]. f_equal. rewrite <- seq_shift, map_map. exact IH. Qed.
Lemma concat_cells {A} (d : A) m a b : shaped m a b -> concat m = flat_map (fun i => map (fun j => cell d m i j) (seq 0 b)) (seq 0 a).
Proof.
  intros [L R]. rewrite flat_map_concat_map. f_equal. subst a. unfold cell. induction m as [|r m IH]; [reflexivity|]. cbn [length seq map nth]. f_equal.
  - apply rows_seq, R. left. reflexivity.
  - rewrite <- seq_shift, map_map. apply IH. intros q Q. apply R. right. exact Q.
Qed.
Lemma combine_app_eq {A B} (l1 l1' : list A) (l2 l2' : list B) : length l1 = length l2 -> combine (l1 ++ l1') (l2 ++ l2') = combine l1 l2 ++ combine l1' l2'.
Proof. revert l2. induction l1 as [|x l1 IH]; intros [|y l2] L; try discriminate; [reflexivity|]. cbn. f_equal. apply IH. cbn in L. lia. Qed.
Lemma cells_pairs m v a b : shaped m a b -> shaped v a b -> cells m v = flat_map (fun i => map (fun j => (cell 0 m i j, cell 0 v i j)) (seq 0 b)) (seq 0 a).
Proof.
  intros S S'. unfold cells. rewrite (concat_cells 0 m a b S), (concat_cells 0 v a b S'). induction (seq 0 a) as [|i l IH]; [reflexivity|]. cbn [flat_map].
  rewrite combine_app_eq by (rewrite !map_length; reflexivity). rewrite IH. f_equal. clear. induction (seq 0 b) as [|j r IH]; [reflexivity|]. cbn. f_equal. exact IH.
Qed.
Lemma cells_transpose m v a b : (0 < a)%nat -> shaped m a b -> shaped v a b -> Permutation (cells m v) (cells (transpose 0 m) (transpose 0 v)).
Proof.
  intros Pa S S'. rewrite (cells_pairs m v a b S S'), (cells_pairs _ _ b a (transpose_shaped 0 m a b S Pa) (transpose_shaped 0 v a b S' Pa)).
  eapply Permutation_trans; [apply (flat_map_swap (fun i j => (cell 0 m i j, cell 0 v i j)))|].
  match goal with |- Permutation ?l ?l' => replace l with l'; [apply Permutation_refl|] end. symmetry.
  rewrite !flat_map_concat_map. f_equal. apply map_ext_in. intros j J. apply in_seq in J. apply map_ext_in. intros i I. apply in_seq in I. rewrite (transpose_cell 0 m a b i j S), (transpose_cell 0 v a b i j S') by lia. reflexivity.
Qed.
Lemma shaped_same {A B} (m : list (list A)) (v : list (list B)) a b : shaped m a b -> shaped v a b -> same_shape m v.
Proof.
  intros [L R] [L' R']. unfold same_shape. subst a. revert v L' R'. induction m as [|r m IH]; intros [|q v] L' R'; try discriminate; [reflexivity|]. cbn [map]. f_equal; [rewrite (R r (or_introl eq_refl)), (R' q (or_introl eq_refl)); reflexivity|].
  apply IH; [intros z Z; apply R; right; exact Z|cbn in L'; lia|intros z Z; apply R'; right; exact Z].
Qed.
Lemma credible_transpose m v a b : (0 < a)%nat -> shaped m a b -> credible_surface m v -> credible_surface (transpose 0 m) (transpose 0 v).
Proof.
  intros Pa S [SH [C1 [C2 C3]]]. pose proof (same_shape_shaped _ _ _ _ SH S) as S'. pose proof (cells_transpose m v a b Pa S S') as P.
  assert (T : total (concat (transpose 0 m)) == total (concat m)) by (rewrite <- !qsum_total; apply (transpose_total m a b S Pa)).
  assert (PI : forall e, In e (cells (transpose 0 m) (transpose 0 v)) -> In e (cells m v)) by (intros e E; eapply Permutation_in; [symmetry; exact P|exact E]).
  split; [apply (shaped_same _ _ b a); apply transpose_shaped; assumption|]. split; [|split].
  - intros h x I. rewrite <- !(mass_perm _ _ _ P), T. apply C1, PI, I.
  - intros h x h' x' I I'. apply C2; apply PI; assumption.
  - intros L HL. rewrite <- (mass_perm _ _ _ P), T. apply C3, HL.
Qed.
Lemma shaped_mlin t m m' a b : shaped m a b -> shaped m' a b -> (forall i j, (i < a)%nat -> (j < b)%nat -> aff t 0 (cell 0 m i j) (cell 0 m' i j)) -> mlin t m m'.
Proof.
  intros [L R] [L' R'] H. subst a. unfold mlin. revert m' L' R' H. induction m as [|r m IH]; intros [|r' m'] L' R' H; try discriminate; [constructor|]. constructor.
  - assert (E : length r = b) by (apply R; left; reflexivity). assert (E' : length r' = b) by (apply R'; left; reflexivity). assert (K : forall j, (j < b)%nat -> aff t 0 (nth j r 0) (nth j r' 0)) by (intros j J; apply (H 0%nat j); [cbn; lia|exact J]).
    clear - E E' K. subst b. revert r' E' K. induction r as [|x r IH]; intros [|x' r'] E' K; try discriminate; constructor; [apply (K 0%nat); cbn; lia|]. apply IH; [cbn in E'; lia|]. intros j J. apply (K (S j)). cbn. lia.
  - apply IH; [intros z Z; apply R; right; exact Z|cbn in L'; lia|intros z Z; apply R'; right; exact Z|]. intros i j I J. apply (H (S i) j); [cbn; lia|exact J].
Qed.
Lemma never_empty_shaped m a b : shaped m a b -> shaped (never_empty m) a b.
Proof. apply map_map_shaped. Qed.
Lemma credible_flipped m m' v' : flipped m m' -> (0 < length m)%nat -> (0 < length m')%nat -> credible_surface (never_empty m') v' -> credible_surface (never_empty m) (transpose 0 v').
Proof.
  intros [a [b [S [S' H]]]] Pa Pb C. assert (La : length m = a) by apply S. assert (Lb : length m' = b) by apply S'. rewrite La in Pa. rewrite Lb in Pb.
  apply (credible_lin 1 _ (transpose 0 (never_empty m'))); [reflexivity| |apply (credible_transpose _ _ b a); [exact Pb|apply never_empty_shaped; exact S'|exact C]].
  apply (shaped_mlin 1 _ _ a b); [apply never_empty_shaped; exact S|apply transpose_shaped; [apply never_empty_shaped; exact S'|exact Pb]|]. intros i j I J.
  rewrite (transpose_cell 0 _ b a j i (never_empty_shaped _ _ _ S') J I). unfold never_empty. rewrite (map_cell _ m a b i j S I J), (map_cell _ m' b a j i S' J I). specialize (H i j I J).
  replace (Qeq_bool (cell 0 m' j i) 0) with (Qeq_bool (cell 0 m i j) 0); [destruct (Qeq_bool (cell 0 m i j) 0); [apply aff1|unfold aff; rewrite H; ring]|]. apply eq_true_iff_eq. rewrite !Qeq_bool_iff, H. reflexivity.
Qed.

(** ** Contours *)
Section contours.
Variable num : numerics.
Variable kde2 : list Q -> list Q -> list Q -> Q -> Q * Q -> Q.
Variable argsort : list Q -> list nat.
Variable Phi : R -> R.
Hypothesis HA : argsort_ok argsort.
Hypothesis HN : forall p v, 0 <= v -> 0 <= n_power num p v.
Hypothesis HE : forall p v v', v == v' -> n_power num p v == n_power num p v'.
Hypothesis HK : forall s, all_nonneg (n_kernel num s).
Hypothesis HD : forall x y w t p, 0 <= kde2 x y w t p.
Lemma contour_mirror s2 c f px py ds : (forall w, weights c f = Ok w -> all_nonneg w) -> kde_symmetric kde2 c ->
  plot_contour num kde2 argsort Phi s2 c f px py = Ok ds ->
  exists ds', plot_contour num kde2 argsort Phi s2 c f py px = Ok ds' /\ Forall2 (draw_mirrored (density_of num kde2 [(c, f)] px py)) ds ds'.
Proof.
  intros W KS H. pose proof H as H0. apply contour_drawn in H as [hist [xc [yc [vals [z [bands [lines [Eh [Sh [C [Sz [Z _]]]]]]]]]]]]; try assumption.
  unfold plot_contour in H0. cbv zeta in H0. apply rbind_ok in H0 as [base [Eb H0]]. apply rbind_ok in H0 as [cols [E0 H0]]. rewrite Eh in H0. cbn [rbind] in H0. apply rbind_ok in H0 as [vals0 [Ev H0]].
  apply rbind_ok in H0 as [u1 [E1 H0]]. apply rbind_ok in H0 as [u2 [E2 H0]]. injection H0 as <-. destruct u1, u2.
  set (levels := get_levels Phi s2 (ch_cfg c Fsigmas)) in *. set (shaded := (ch_cfg c Fshade && alpha_positive (ch_cfg c Fshade_alpha))%bool) in *.
  pose proof E2 as E2'. apply contour_args_ok in E2' as [Z1 [Z2 [Z3 [Z4 _]]]].
  assert (Nx : xc <> []) by (intros ->; cbn in Z4; lia). assert (Ny : yc <> []) by (intros ->; cbn in Z3; lia). assert (Px : (0 < length xc)%nat) by lia. assert (Py_ : (0 < length yc)%nat) by lia.
  destruct (surface_mirror num kde2 c f px py hist xc yc (HE _) KS Eh Nx Ny) as [hist' [Eh' FL]].
  pose proof (surface_shaped num kde2 c f py px hist' yc xc Eh' Ny Nx) as Sh'.
  pose proof (surface_nonneg num kde2 c f px py hist xc yc HN HK HD W Eh) as Nn. pose proof (surface_nonneg num kde2 c f py px hist' yc xc HN HK HD W Eh') as Nn'.
  assert (Lh : length hist = length xc) by apply Sh. assert (Lh' : length hist' = length yc) by apply Sh'.
  destruct (convert_cases argsort HA hist Nn) as [[_ K]|[v [Ev1 [Cv _]]]].
  { exfalso. rewrite (concat_cells 0 hist _ _ Sh) in K. destruct (length xc), (length yc); cbn in Px, Py_, K; try lia; discriminate. }
  fold (never_empty hist) in Ev. rewrite Ev in Ev1. injection Ev1 as ->.
  destruct (convert_cases argsort HA hist' Nn') as [[_ K]|[v' [Ev' [Cv' _]]]].
  { exfalso. rewrite (concat_cells 0 hist' _ _ Sh') in K. destruct (length xc), (length yc); cbn in Px, Py_, K; try lia; discriminate. }
  assert (Sv : shaped v (length xc) (length yc)) by (apply (same_shape_shaped _ _ _ _ (proj1 Cv)), never_empty_shaped, Sh).
  assert (Sv' : shaped v' (length yc) (length xc)) by (apply (same_shape_shaped _ _ _ _ (proj1 Cv')), never_empty_shaped, Sh').
  pose proof (transpose_shaped 0%Q v _ _ Sv Px) as St. pose proof (transpose_shaped 0%Q v' _ _ Sv' Py_) as St'.
  assert (A : forall b, contour_args xc yc (transpose 0%Q v) levels b = Ok tt -> contour_args yc xc (transpose 0%Q v') levels b = Ok tt).
  { intros b. unfold contour_args. destruct St as [T1 _], St' as [T1' _]. assert (W1 : width (transpose 0%Q v) = length xc) by exact Z4. assert (W1' : width (transpose 0%Q v') = length yc) by (apply (shaped_width _ (length xc)); [apply transpose_shaped; assumption|exact Px]).
    rewrite W1, W1', T1, T1', !Nat.eqb_refl. rewrite (andb_comm (2 <=? length xc)%nat). exact (fun x => x). }
  assert (M : mirror_regions (density_of num kde2 [(c, f)] px py) (transpose 0%Q v) (transpose 0%Q v')).
  { exists (never_empty hist), v. split; [exists c, f, hist, xc, yc; split; [left; reflexivity|split; [exact Eh|reflexivity]]|]. split; [exact Cv|]. split.
    - exists (length xc), (length yc). split; [exact Sv|]. split; [exact St|]. intros i j I J. apply (transpose_cell 0%Q v _ _ i j Sv I J).
    - apply (credible_flipped hist hist'); [exact FL|lia|lia|exact Cv']. }
  exists ((if shaded then [Filled yc xc (transpose 0%Q v') levels (fst cols) (ch_cfg c Fshade_alpha) (ch_cfg c Fzorder - 2)%Z] else []) ++
      [Lines yc xc (transpose 0%Q v') levels (snd cols) (ch_cfg c Flinestyle) (ch_cfg c Flinewidth) (ch_cfg c Fzorder)] ++
      (if (ch_cfg c Fshow_contour_labels : bool) then [LevelLabels (map (fun l => (l, level_label l)) (nonzero_levels levels))] else [])).
  split.
  - unfold plot_contour. cbv zeta. fold levels. rewrite Eb. cbn [rbind]. rewrite E0. cbn [rbind]. rewrite Eh'. cbn [rbind]. fold (never_empty hist'). rewrite Ev'. cbn [rbind]. fold shaded.
    rewrite (A false E2). replace (if shaded then filled_args (ch_cfg c Fshade_alpha) yc xc (transpose 0%Q v') levels else Ok tt) with (@Ok unit tt); [reflexivity|]. destruct shaded; [|reflexivity]. symmetry. apply filled_args_ok in E1 as [E0' E1]. apply filled_args_ok. split; [exact E0'|exact (A true E1)].
  - apply Forall2_app; [destruct shaded; constructor; [|constructor]; cbn; auto 10|]. constructor; [cbn; auto 10|]. destruct (ch_cfg c Fshow_contour_labels : bool); constructor; [reflexivity|constructor].
Qed.
Lemma every_swap k (x y : list Q) : combine (every k y) (every k x) = map swap (combine (every k x) (every k y)).
Proof. generalize (every k x) (every k y). induction l as [|a l IH]; intros [|b m]; try reflexivity. cbn. f_equal. apply IH. Qed.
Lemma cloud_mirror D c f px py h bars : frame_wf f -> plot_cloud c f px py = Ok (h, bars) ->
  exists h' bars', plot_cloud c f py px = Ok (h', bars') /\ draw_mirrored D h h' /\ Forall2 (fun e e' => fst e' = fst e /\ draw_mirrored D (snd e) (snd e')) bars bars'.
Proof.
  intros WF H. unfold plot_cloud in *. apply rbind_ok in H as [x [Ex H]]. apply rbind_ok in H as [y [Ey H]]. apply rbind_ok in H as [k [Ek H]]. apply rbind_ok in H as [cd [Ec H]]. apply rbind_ok in H as [col [El H]]. injection H as <- <-.
  assert (L : forall n v, get_data f n = Ok v -> length v = length (f_index f)). { intros n v G. unfold get_data in G. destruct (f_get f n) as [l|] eqn:E; [|discriminate]. injection G as <-. unfold qs. rewrite map_length. apply (proj2 WF (CStr n)). apply (FrameFacts.f_get_In _ _ _ E). }
  rewrite Ey, Ex. cbn [rbind]. rewrite (L _ _ Ey), <- (L _ _ Ex), Ek. cbn [rbind]. rewrite Ec. cbn [rbind]. rewrite El. cbn [rbind]. eexists _, _. split; [reflexivity|].
  assert (DM : draw_mirrored D (Scatter (combine (every k x) (every k y)) col 10 "."%string (ch_cfg c Fzorder - 5)%Z) (Scatter (combine (every k y) (every k x)) col 10 "."%string (ch_cfg c Fzorder - 5)%Z)) by (cbn; rewrite every_swap; auto).
  split; [exact DM|]. destruct cd, (ch_cfg c Fcolor_param); try apply Forall2_nil; apply Forall2_cons; [split; [reflexivity|exact DM]|apply Forall2_nil].
Qed.
Lemma point_mirror D c f px py ds : plot_point c f px py = Ok ds -> exists ds', plot_point c f py px = Ok ds' /\ Forall2 (draw_mirrored D) ds ds'.
Proof.
  unfold plot_point. intros H. apply rbind_ok in H as [p [E H]]. rewrite E. cbn [rbind]. destruct p as [[n co]|]; [|injection H as <-; eexists; split; [reflexivity|constructor]].
  destruct (dget px co) as [x|], (dget py co) as [y|]; try (injection H as <-; eexists; split; [reflexivity|constructor]).
  apply rbind_ok in H as [c0 [E0 H]]. rewrite E0. cbn [rbind]. apply rbind_ok in H as [col [E1 H]]. rewrite E1. cbn [rbind]. destruct (opacity_ok _ _); [|discriminate]. injection H as <-. eexists. split; [reflexivity|]. constructor; [cbn; auto|constructor].
Qed.
Lemma regions_mono (D D' : list (list Q) -> Prop) z z' : (forall m, D m -> D' m) -> mirror_regions D z z' -> mirror_regions D' z z'.
Proof. intros I [m [v [H K]]]. exists m, v. split; [apply I; exact H|exact K]. Qed.
Lemma mirrored_mono (D D' : list (list Q) -> Prop) d d' : (forall m, D m -> D' m) -> draw_mirrored D d d' -> draw_mirrored D' d d'.
Proof. intros I. destruct d, d'; cbn [draw_mirrored]; try tauto; intuition (try (eapply regions_mono; eassumption)). Qed.
Lemma mirrored_list_mono (D D' : list (list Q) -> Prop) l l' : (forall m, D m -> D' m) -> Forall2 (draw_mirrored D) l l' -> Forall2 (draw_mirrored D') l l'.
Proof. intros I. induction 1; constructor; [eapply mirrored_mono; eassumption|assumption]. Qed.
Definition bars_rel (D : list (list Q) -> Prop) : dict draw -> dict draw -> Prop := Forall2 (fun e e' => fst e' = fst e /\ draw_mirrored D (snd e) (snd e')).
Lemma bars_mono (D D' : list (list Q) -> Prop) l l' : (forall m, D m -> D' m) -> bars_rel D l l' -> bars_rel D' l l'.
Proof. intros I. induction 1 as [|e e' l l' [E K] _ IH]; constructor; [split; [exact E|eapply mirrored_mono; eassumption]|exact IH]. Qed.
Lemma surface_one_mirror s2 c f px py ds bars : frame_wf f -> (forall w, weights c f = Ok w -> all_nonneg w) -> kde_symmetric kde2 c ->
  surface_one num kde2 argsort Phi s2 c f px py = Ok (ds, bars) ->
  exists ds' bars', surface_one num kde2 argsort Phi s2 c f py px = Ok (ds', bars') /\ Forall2 (draw_mirrored (density_of num kde2 [(c, f)] px py)) ds ds' /\ bars_rel (density_of num kde2 [(c, f)] px py) bars bars'.
Proof.
  intros WF W KS H. unfold surface_one in *. rewrite (orb_comm (negb (smem py _))). destruct (_ || _); [injection H as <- <-; eexists _, _; split; [reflexivity|split; constructor]|].
  apply rbind_ok in H as [cloud [Ec H]]. apply rbind_ok in H as [cont [Eo H]]. apply rbind_ok in H as [pt [Ep H]]. injection H as <- <-. set (D := density_of num kde2 [(c, f)] px py).
  assert (C1 : exists cloud', (if (ch_cfg c Fplot_cloud : bool) then rmap (fun h => ([fst h], snd h)) (plot_cloud c f py px) else Ok ([], [])) = Ok cloud' /\ Forall2 (draw_mirrored D) (fst cloud) (fst cloud') /\ bars_rel D (snd cloud) (snd cloud')).
  { destruct (ch_cfg c Fplot_cloud : bool); [|injection Ec as <-; eexists; split; [reflexivity|split; constructor]]. destruct (plot_cloud c f px py) as [[h b]|] eqn:E; [|discriminate]. injection Ec as <-. destruct (cloud_mirror D c f px py h b WF E) as [h' [b' [E' [K1 K2]]]]. rewrite E'. eexists. split; [reflexivity|]. split; [constructor; [exact K1|constructor]|exact K2]. }
  assert (C2 : exists cont', (if (ch_cfg c Fplot_contour : bool) then plot_contour num kde2 argsort Phi s2 c f py px else Ok []) = Ok cont' /\ Forall2 (draw_mirrored D) cont cont').
  { destruct (ch_cfg c Fplot_contour : bool); [|injection Eo as <-; eexists; split; [reflexivity|constructor]]. exact (contour_mirror s2 c f px py cont W KS Eo). }
  assert (C3 : exists pt', (if (ch_cfg c Fplot_point : bool) then plot_point c f py px else Ok []) = Ok pt' /\ Forall2 (draw_mirrored D) pt pt').
  { destruct (ch_cfg c Fplot_point : bool); [|injection Ep as <-; eexists; split; [reflexivity|constructor]]. exact (point_mirror D c f px py pt Ep). }
  destruct C1 as [cloud' [E1 [K1 K1']]]. destruct C2 as [cont' [E2 K2]]. destruct C3 as [pt' [E3 K3]]. rewrite E1. cbn [rbind]. rewrite E2. cbn [rbind]. rewrite E3. cbn [rbind]. eexists _, _. split; [reflexivity|]. split; [|exact K1'].
  apply Forall2_app; [exact K1|]. apply Forall2_app; [exact K2|exact K3].
Qed.
Lemma dmerge_rel (D : list (list Q) -> Prop) b b' : bars_rel D b b' -> forall a a', bars_rel D a a' -> bars_rel D (dmerge a b) (dmerge a' b').
Proof.
  unfold dmerge. induction 1 as [|[k v] [k' v'] b b' [E V] _ IH]; intros a a' A; [exact A|]. cbn [fst snd fold_left] in *. subst k'. apply IH. apply (dset_rel (draw_mirrored D)); assumption.
Qed.
Lemma panel_mirror s2 px py : forall chains ds bars,
  (forall c f, In (c, f) chains -> frame_wf f /\ (forall w, weights c f = Ok w -> all_nonneg w) /\ kde_symmetric kde2 c) ->
  plot_surface num kde2 argsort Phi s2 chains px py = Ok (ds, bars) ->
  exists ds' bars', plot_surface num kde2 argsort Phi s2 chains py px = Ok (ds', bars') /\ Forall2 (draw_mirrored (density_of num kde2 chains px py)) ds ds' /\ bars_rel (density_of num kde2 chains px py) bars bars'.
Proof.
  induction chains as [|[c f] r IH]; intros ds bars HC H; cbn [plot_surface] in *; [injection H as <- <-; eexists _, _; split; [reflexivity|split; constructor]|].
  apply rbind_ok in H as [[d1 b1] [E1 H]]. apply rbind_ok in H as [[d2 b2] [E2 H]]. injection H as <- <-. cbn [fst snd].
  destruct (HC c f (or_introl eq_refl)) as [WF [W KS]]. destruct (surface_one_mirror s2 c f px py d1 b1 WF W KS E1) as [d1' [b1' [E1' [K1 K1']]]].
  destruct (IH d2 b2 (fun c0 f0 I => HC c0 f0 (or_intror I)) E2) as [d2' [b2' [E2' [K2 K2']]]]. rewrite E1'. cbn [rbind]. rewrite E2'. cbn [rbind fst snd]. eexists _, _. split; [reflexivity|].
  assert (M1 : forall m, density_of num kde2 [(c, f)] px py m -> density_of num kde2 ((c, f) :: r) px py m). { intros m [c0 [f0 [h [xc [yc [[I|[]] K]]]]]]. exists c0, f0, h, xc, yc. split; [left; exact I|exact K]. }
  assert (M2 : forall m, density_of num kde2 r px py m -> density_of num kde2 ((c, f) :: r) px py m). { intros m [c0 [f0 [h [xc [yc [I K]]]]]]. exists c0, f0, h, xc, yc. split; [right; exact I|exact K]. }
  split; [apply Forall2_app; [exact (mirrored_list_mono _ _ _ _ M1 K1)|exact (mirrored_list_mono _ _ _ _ M2 K2)]|]. apply dmerge_rel; [exact (bars_mono _ _ _ _ M2 K2')|exact (bars_mono _ _ _ _ M1 K1')].
Qed.
End contours.
