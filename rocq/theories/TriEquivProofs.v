(** Lemmas for C107. *)
From Coq Require Import String List Bool Arith ZArith QArith Qabs Lia Permutation Reals.
From Verif Require Import Py NumSpec NumModel NumFacts HelpersSpec HelpersModel MarginalModel FrameModel ConfigModel ChainModel ChainSpec RegistryModel RegistrySpec RegistryProofs TextModel AnalysisModel AnalysisSpec SurfaceSpec SurfaceModel FigureModel FigureSpec FigureProofs
  ConsumerProofs EquivSpec EquivFacts EquivProofs EquivApi PlanarSpec PlanarProofs AxisEquivSpec AxisEquivProofs TextEquivSpec TextEquivProofs KeywordSpec SessionProofs FigEquivSpec FigEquivProofs TriEquivSpec.
From Verif Require FrameFacts RegistryProps AnalysisProofs CovEquivProofs KeywordProps NoteProofs SurfaceProofs.
From Coq Require Import Lqa.
Import ListNotations.
Open Scope string_scope.
Open Scope list_scope.
Open Scope Q_scope.

(** ** Calls *)
Lemma call_same P c c' : same_call c c' -> same_panel_call P c c'.
Proof. destruct c, c'; cbn [same_call same_panel_call]; intros H; try exact H; try discriminate. left. congruence. Qed.
Lemma calls_same P l l' : Forall2 same_call l l' -> Forall2 (same_panel_call P) l l'.
Proof. intros F. induction F; constructor; [apply call_same; assumption|assumption]. Qed.
Lemma panel_refl P l : Forall2 (same_panel_call P) l l.
Proof. apply calls_same, calls_refl. Qed.
Lemma panel_weaken (P P' : list (list Q) -> Prop) l l' : (forall m, P m -> P' m) -> Forall2 (same_panel_call P) l l' -> Forall2 (same_panel_call P') l l'.
Proof.
  intros H F. induction F as [|c c' l l' C F IH]; constructor; [|exact IH]. clear -H C. destruct c, c'; cbn [same_panel_call] in *; try exact C. destruct C as [C|[m [M C]]]; [left; exact C|right; exists m; auto].
Qed.
Lemma label_same P d l c c' : same_panel_call P c c' -> label_step d l c' = label_step d l c.
Proof.
  destruct c, c'; cbn [same_panel_call same_call]; intros H; try discriminate; try reflexivity. congruence.
Qed.
Lemma current_same P d l l' : Forall2 (same_panel_call P) l l' -> current_label d l' = current_label d l.
Proof.
  intros F. unfold current_label. generalize ""%string. induction F as [|c c' l l' C F IH]; intros s; [reflexivity|]. cbn [fold_left]. rewrite (label_same P d s c c' C). apply IH.
Qed.
Lemma offset_rel P o d i j l l' : Forall2 (same_panel_call P) l l' -> Forall2 (same_panel_call P) (with_offset o d i j l) (with_offset o d i j l').
Proof. intros F. unfold with_offset. cbv zeta. rewrite (current_same P d l l' F). apply Forall2_app; [exact F|apply panel_refl]. Qed.
Lemma relabel_rel P o n i j l l' : Forall2 (same_panel_call P) l l' -> Forall2 (same_panel_call P) (relabel o n i j l) (relabel o n i j l').
Proof. intros F. unfold relabel. cbv zeta. destruct (i =? n - 1)%nat, (j =? 0)%nat; repeat apply offset_rel; exact F. Qed.

(** ** Grids *)
Definition irel {A B} (T : nat -> A -> B -> Prop) (l : list A) (l' : list B) : Prop :=
  length l' = length l /\ forall i x x', nth_error l i = Some x -> nth_error l' i = Some x' -> T i x x'.
Lemma mapM_irel {X A B} (T : nat -> A -> B -> Prop) (g : nat * X -> res A) (g' : nat * X -> res B) l : forall s,
  (forall i x, nth_error l i = Some x -> rrel (T (s + i)%nat) (g ((s + i)%nat, x)) (g' ((s + i)%nat, x))) ->
  rrel (irel (fun i => T (s + i)%nat)) (rmapM g (combine (seq s (length l)) l)) (rmapM g' (combine (seq s (length l)) l)).
Proof.
  induction l as [|x l IH]; intros s H; [split; [reflexivity|intros [|i] ? ? K; discriminate]|]. cbn [length seq combine rmapM].
  pose proof (H 0%nat x eq_refl) as H0. rewrite Nat.add_0_r in H0. eapply rrel_bind; [exact H0|]. intros y y' Y.
  eapply rrel_bind; [apply (IH (S s)); intros i z Z; specialize (H (S i) z Z); rewrite Nat.add_succ_r in H; exact H|]. intros r r' [L R]. cbn [rrel]. split; [cbn; congruence|]. intros [|i] a a' A1 A2; cbn [nth_error] in *.
  - injection A1 as <-. injection A2 as <-. rewrite Nat.add_0_r. exact Y.
  - rewrite Nat.add_succ_r. exact (R i a a' A1 A2).
Qed.
Definition grel {A B} (T : nat -> nat -> A -> B -> Prop) : list (list A) -> list (list B) -> Prop := irel (fun i => irel (T i)).
Lemma grid_rel {A B} (T : nat -> nat -> A -> B -> Prop) rows cols (g : nat -> nat -> string -> string -> res A) (g' : nat -> nat -> string -> string -> res B) :
  (forall i j p q, nth_error rows i = Some p -> nth_error cols j = Some q -> rrel (T i j) (g i j p q) (g' i j p q)) -> rrel (grel T) (grid_of rows cols g) (grid_of rows cols g').
Proof.
  intros H. unfold grid_of, grel. apply (mapM_irel (fun i => irel (T i)) _ _ rows 0). intros i p P. cbn [fst snd Nat.add]. apply (mapM_irel (T i) _ _ cols 0). intros j q K. cbn [fst snd Nat.add]. apply H; assumption.
Qed.
Lemma grel_snd {A B D} (T : nat -> nat -> A * D -> B * D -> Prop) m m' : (forall i j x x', T i j x x' -> snd x' = snd x) -> grel T m m' -> map (map snd) m' = map (map snd) m.
Proof.
  intros S [L H]. apply (nth_ext _ _ [] []); [rewrite !map_length; exact L|]. intros i I. rewrite map_length in I.
  destruct (nth_error m' i) as [r'|] eqn:E'; [|apply nth_error_None in E'; lia]. destruct (nth_error m i) as [r|] eqn:E; [|apply nth_error_None in E; lia].
  rewrite (nth_error_nth (map (map snd) m') i [] (map_nth_error _ _ _ E')), (nth_error_nth (map (map snd) m) i [] (map_nth_error _ _ _ E)). clear I. specialize (H i r r' E E'). destruct H as [LR H].
  apply SurfaceProofs.nth_error_ext'. intros j. rewrite !nth_error_map. destruct (nth_error r' j) as [x'|] eqn:X', (nth_error r j) as [x|] eqn:X; cbn; [f_equal; eapply S, H; eassumption| | |reflexivity].
  - apply nth_error_None in X. assert (nth_error r' j <> None) by congruence. apply nth_error_Some in H0. lia.
  - apply nth_error_None in X'. assert (nth_error r j <> None) by congruence. apply nth_error_Some in H0. lia.
Qed.

(** ** Panels *)
Section one.
Variables (k : backend) (cols : list string).
Hypothesis OK : numerics_ok k.
Notation num := (bk_num k).

Definition draws_alike (P : list (list Q) -> Prop) (o o' : list draw * dict draw) : Prop := Forall2 (same_draw P) (fst o) (fst o') /\ snd o' = snd o.
Lemma draws_refl P l : Forall2 (same_draw P) l l.
Proof. induction l; constructor; [left; reflexivity|assumption]. Qed.
Lemma same_draw_weaken (P P' : list (list Q) -> Prop) l l' : (forall m, P m -> P' m) -> Forall2 (same_draw P) l l' -> Forall2 (same_draw P') l l'.
Proof. intros H F. induction F as [|c c' l l' C F IH]; constructor; [|exact IH]. destruct C as [C|[m [M C]]]; [left; exact C|right; exists m; auto]. Qed.
Lemma one_rel s2 c f c' f' px py : In px cols -> In py cols -> panels_alike k cols (c, f) (c', f') ->
  rrel (draws_alike (density_of k [(c, f)] px py)) (surface_one num (bk_kde2 k) (bk_argsort k) (bk_Phi k) s2 c f px py) (surface_one num (bk_kde2 k) (bk_argsort k) (bk_Phi k) s2 c' f' px py).
Proof.
  intros HX HY [DA [W [W' [PL [CL PT]]]]]. cbn [fst snd] in *. assert (E : c' = c) by exact (proj1 DA). subst c'. destruct DA as [_ [PW [WF [WF' [T _]]]]]. cbn [fst snd] in *.
  unfold surface_one. rewrite (columns_same num cols c f f' T). destruct (negb (smem px (plotting_columns c f)) || negb (smem py (plotting_columns c f))) eqn:M; [split; [constructor|reflexivity]|].
  apply orb_false_iff in M as [M1 M2]. apply negb_false_iff in M1, M2. apply plotted_has in M1, M2. destruct (PL px py HX HY M1 M2) as [SP SK].
  eapply (rrel_bind eq).
  { destruct (ch_cfg c Fplot_cloud) eqn:EC; [|reflexivity]. rewrite (CL eq_refl). destruct (rmap _ _); reflexivity. }
  intros cl cl' <-. eapply (rrel_bind (Forall2 (same_draw (density_of k [(c, f)] px py)))).
  { destruct (ch_cfg c Fplot_contour); [|constructor]. destruct OK as [OA [OP [OK' OD]]].
    assert (R : rrel (surface_in_units no_units (n_power num (ch_power c) 1)) (get_smoothed_histogram2d num (bk_kde2 k) c f px py) (get_smoothed_histogram2d num (bk_kde2 k) c f' px py)).
    { destruct SP as [B [s [s' [P [P' [NE [S SS]]]]]]]. assert (PU : positive_units no_units) by (split; reflexivity). assert (T1 : 0 < 1) by reflexivity.
      pose proof (surface_rel (bk_kde2 k) num no_units 1 1 c f f' px py s s' PU T1 PW B WF WF' P P' S SS NE SK) as R. destruct (kde_on (ch_cfg c Fkde)); exact R. }
    pose proof (contour_rel num (bk_kde2 k) (bk_argsort k) (bk_Phi k) OA OP OK' OD no_units (n_power num (ch_power c) 1) s2 c f f' px py W W') as C.
    assert (P1 : n_power num (ch_power c) 1 == 1) by (apply power_one; exact PW). assert (P0 : 0 < n_power num (ch_power c) 1) by (rewrite P1; reflexivity). specialize (C P0 (or_introl P1) R).
    destruct (plot_contour _ _ _ _ _ c f px py) as [ds|e], (plot_contour _ _ _ _ _ c f' px py) as [ds'|e']; cbn [rrel] in *; try contradiction; [|exact C]. destruct C as [hist [xc [yc [G D]]]].
    clear -G D. induction D as [|d d' ds ds' X D IH]; constructor; [|exact IH]. right. exists hist. split; [exists c, f, xc, yc; split; [left; reflexivity|exact G]|exact X]. }
  intros co co' CO. eapply (rrel_bind eq).
  { destruct (ch_cfg c Fplot_point) eqn:EC; [|reflexivity]. unfold plot_point. rewrite (PT eq_refl). destruct (rbind _ _); reflexivity. }
  intros po po' <-. cbn [rrel]. split; cbn [fst snd]; [|reflexivity]. apply Forall2_app; [apply draws_refl|]. apply Forall2_app; [exact CO|apply draws_refl].
Qed.
Lemma surface_panel_rel s2 l l' px py : In px cols -> In py cols -> Forall2 (panels_alike k cols) l l' ->
  rrel (draws_alike (density_of k l px py)) (plot_surface num (bk_kde2 k) (bk_argsort k) (bk_Phi k) s2 l px py) (plot_surface num (bk_kde2 k) (bk_argsort k) (bk_Phi k) s2 l' px py).
Proof.
  intros HX HY F. induction F as [|[c f] [c' f'] l l' X F IH]; [split; [constructor|reflexivity]|]. cbn [plot_surface]. eapply rrel_bind; [apply (one_rel s2 c f c' f' px py HX HY X)|]. intros o o' [O1 O2].
  eapply rrel_bind; [exact IH|]. intros r r' [R1 R2]. cbn [rrel]. split; cbn [fst snd]; [|rewrite O2, R2; reflexivity]. apply Forall2_app.
  - eapply same_draw_weaken; [|exact O1]. intros m [c0 [f0 [xc [yc [[I|[]] G]]]]]. exists c0, f0, xc, yc. split; [left; exact I|exact G].
  - eapply same_draw_weaken; [|exact R1]. intros m [c0 [f0 [xc [yc [I G]]]]]. exists c0, f0, xc, yc. split; [right; exact I|exact G].
Qed.

Section figure.
Variables (cfg : plot_config) (truths : list truth) (b b' : plot_base).
Hypothesis BA : base_alike num cols b b'.
Hypothesis CH : Forall2 (panels_alike k cols) (pb_chains b) (pb_chains b').

Lemma triangle_panel_rel n i j p1 p2 : rrel (Forall2 same_call) (triangle_panel cfg b n i j p1 p2) (triangle_panel cfg b' n i j p1 p2).
Proof.
  destruct BA as [_ CO IN EX BL LG]. unfold triangle_panel. cbv zeta. rewrite BL, LG. destruct (i <? j)%nat; [apply calls_refl|]. eapply (rrel_bind (Forall2 same_call)).
  - match goal with |- rrel _ (if ?t then _ else _) _ => destruct t end; [apply limits_rel, ext_rel; exact EX|constructor].
  - intros yl yl' YL. eapply (rrel_bind (Forall2 same_call)); [apply limits_rel, ext_rel; exact EX|]. intros xl xl' XL. cbn [rrel]. repeat (apply Forall2_app; try exact (calls_refl _)); assumption.
Qed.
Definition panel_alike (P : list (list Q) -> Prop) (o o' : list call * dict draw) : Prop := Forall2 (same_panel_call P) (fst o) (fst o') /\ snd o' = snd o.
Lemma fst_chains : map fst (pb_chains b') = map fst (pb_chains b).
Proof. pose proof (ba_chains _ _ _ _ BA) as F. clear -F. induction F as [|x y l l' [X _] F IH]; [reflexivity|]. cbn [map]. rewrite X, IH. reflexivity. Qed.
Lemma plot_panel_rel i j p1 p2 : In p1 (pb_columns b) -> In p2 (pb_columns b) ->
  rrel (panel_alike (density_of k (pb_chains b) p2 p1)) (plot_panel num (bk_kde2 k) (bk_argsort k) (bk_Phi k) (bk_filled k) cfg truths b i j p1 p2) (plot_panel num (bk_kde2 k) (bk_argsort k) (bk_Phi k) (bk_filled k) cfg truths b' i j p1 p2).
Proof.
  intros H1 H2. unfold plot_panel. unfold flipped. cbv zeta. rewrite (ba_cols _ _ _ _ BA), (ba_blind _ _ _ _ BA). destruct (i <? j)%nat; [split; [constructor|reflexivity]|].
  assert (EL : length (filter (fun cf => ch_cfg (fst cf) Fplot_contour) (pb_chains b')) = length (filter (fun cf => ch_cfg (fst cf) Fplot_contour) (pb_chains b))).
  { apply (length_rel (drawn_alike num cols)), filter_rel; [exact (ba_chains _ _ _ _ BA)|]. intros x y [E _]. rewrite E. reflexivity. }
  rewrite EL. destruct (p_plot_hists cfg && (i =? j)%nat).
  - eapply (rrel_bind qpanel).
    + apply (panel_rel num cols); [apply (ba_in _ _ _ _ BA); exact H1| |].
      * intros cf HI. apply filter_In in HI as [_ HI]. apply andb_true_iff in HI as [_ HI]. exact HI.
      * apply filter_rel; [exact (ba_chains _ _ _ _ BA)|]. intros [c f] [c' f'] [E [_ [_ [_ [T _]]]]]. cbn [fst snd] in *. subst c'. rewrite (has_same c f f' num cols p1 T). reflexivity.
    + intros o o' [O1 O2]. cbn [rrel]. split; cbn [fst snd]; [|reflexivity]. apply Forall2_app; [apply panel_refl|]. apply Forall2_app; [apply calls_same; exact O1|].
      destruct (snd o) as [m|], (snd o') as [m'|]; cbn in O2; try contradiction; [|constructor]. constructor; [|constructor]. cbn [same_panel_call same_call]. split; [reflexivity|]. split; [reflexivity|]. apply aff_id in O2. rewrite O2. reflexivity.
  - eapply rrel_bind; [apply (surface_panel_rel (p_sigma2d cfg) _ _ p2 p1); [apply (ba_in _ _ _ _ BA); exact H2|apply (ba_in _ _ _ _ BA); exact H1|exact CH]|].
    intros o o' [O1 O2]. cbn [rrel]. split; cbn [fst snd]; [|exact O2]. apply Forall2_app; [|apply panel_refl]. clear -O1. induction O1; cbn [map]; constructor; [assumption|assumption].
Qed.
Lemma params_in_x i p : nth_error (params_x cfg (pb_columns b)) i = Some p -> nth_error (pb_columns b) (if p_plot_hists cfg then i else S i) = Some p.
Proof. unfold params_x. destruct (p_plot_hists cfg); [auto|]. rewrite nth_error_tl. auto. Qed.
Lemma params_in_y j p : nth_error (params_y cfg (pb_columns b)) j = Some p -> nth_error (pb_columns b) j = Some p.
Proof.
  unfold params_y. destruct (p_plot_hists cfg); [auto|]. intros H. assert (L : (j < length (removelast (pb_columns b)))%nat) by (apply nth_error_Some; congruence). rewrite removelast_length in L. rewrite nth_error_removelast in H by lia. exact H.
Qed.
Lemma plot_rel size file : rrel (same_triangle k cfg (pb_chains b) (pb_columns b))
  (plot_figure num (bk_kde2 k) (bk_argsort k) (bk_Phi k) (bk_filled k) (bk_offset k) cfg truths b size file) (plot_figure num (bk_kde2 k) (bk_argsort k) (bk_Phi k) (bk_filled k) (bk_offset k) cfg truths b' size file).
Proof.
  unfold plot_figure. cbv zeta. rewrite (ba_cols _ _ _ _ BA), (chains_length num cols b b' BA).
  assert (EX : existsb (fun cf => match ch_cfg (fst cf) Fcolor_param with Some _ => true | None => false end) (pb_chains b') = existsb (fun cf => match ch_cfg (fst cf) Fcolor_param with Some _ => true | None => false end) (pb_chains b)).
  { pose proof (ba_chains _ _ _ _ BA) as F. clear -F. induction F as [|x y l l' [X _] F IH]; [reflexivity|]. cbn [existsb]. rewrite X, IH. reflexivity. }
  rewrite EX. clear EX. set (sz := get_size _ _ _). set (n := triangle_size cfg (pb_columns b)).
  eapply (rrel_bind (fun m m' => (grel (fun _ _ => Forall2 same_call) m m' /\ length m = n /\ (forall r, In r m -> length r = n)) /\ length m' = n /\ (forall r, In r m' -> length r = n))).
  { assert (G : rrel (grel (fun _ _ => Forall2 same_call)) (triangle_figure cfg b sz) (triangle_figure cfg b' sz)).
    { unfold triangle_figure. cbv zeta. rewrite (ba_cols _ _ _ _ BA). destruct (subplots _ _ _) as [[]|e]; [cbn [rbind]|reflexivity]. destruct (_ || _); [reflexivity|]. apply grid_rel. intros. apply triangle_panel_rel. }
    destruct (triangle_figure cfg b sz) as [m|] eqn:E, (triangle_figure cfg b' sz) as [m'|] eqn:E'; cbn [rrel] in *; try contradiction; [|exact G].
    apply triangle_ok in E as [_ [L1 [L2 _]]]. apply triangle_ok in E' as [_ [L1' [L2' _]]]. rewrite (ba_cols _ _ _ _ BA) in L1', L2'. auto. }
  intros m m' [[G [L1 L2]] [L1' L2']].
  eapply (rrel_bind (fun p p' => (grel (fun i j => panel_alike (fun d => exists px py, panel_at cfg (pb_columns b) i j px py /\ density_of k (pb_chains b) px py d)) p p' /\ length p = n /\ (forall r, In r p -> length r = n)) /\ length p' = n /\ (forall r, In r p' -> length r = n))).
  { match goal with |- rrel _ ?x ?y => assert (G' : rrel (grel (fun i j => panel_alike (fun d => exists px py, panel_at cfg (pb_columns b) i j px py /\ density_of k (pb_chains b) px py d))) x y) end.
    { apply grid_rel. intros i j p q P K. apply params_in_x in P. apply params_in_y in K. pose proof (plot_panel_rel i j p q (nth_error_In _ _ P) (nth_error_In _ _ K)) as R.
      destruct (plot_panel _ _ _ _ _ cfg truths b i j p q) as [o|], (plot_panel _ _ _ _ _ cfg truths b' i j p q) as [o'|]; cbn [rrel] in *; try contradiction; [|exact R]. destruct R as [R1 R2]. split; [|exact R2].
      eapply panel_weaken; [|exact R1]. intros d D. exists q, p. split; [split; assumption|exact D]. }
    match type of G' with rrel _ ?x ?y => destruct x as [p|] eqn:E, y as [p'|] eqn:E' end; cbn [rrel] in *; try contradiction; [|exact G'].
    apply grid_of_ok in E as [P1 [P2 _]]. apply grid_of_ok in E' as [P1' [P2' _]]. rewrite params_x_length in P1, P1'. rewrite params_y_length in P2, P2'. auto. }
  intros p p' [[GP [P1 P2]] [P1' P2']].
  eapply (rrel_bind eq).
  { assert (ML : make_legend cfg b' = make_legend cfg b). { unfold make_legend, flipped. rewrite (ba_cols _ _ _ _ BA), fst_chains. reflexivity. }
    rewrite ML. destruct (dflt _ _); [|reflexivity]. destruct (make_legend cfg b); reflexivity. }
  intros lg lg' <-. cbn [rrel]. split; [reflexivity|]. cbn [fg_bars fg_legend fg_watermark fg_saved]. split.
  { assert (SN : map (map snd) p' = map (map snd) p) by (eapply grel_snd; [|exact GP]; intros i j x x' [_ X]; exact X).
    assert (FD : forall (q : list (list (list call * dict draw))) acc, fold_left (fun acc row => fold_left (fun acc p => dmerge acc (snd p)) row acc) q acc = fold_left (fun acc row => fold_left (fun acc d => dmerge acc d) row acc) (map (map snd) q) acc).
    { intros q. induction q as [|row q IH]; intros acc; [reflexivity|]. cbn [fold_left map]. rewrite IH. f_equal. clear IH. revert acc. induction row as [|x row IH]; intros acc; [reflexivity|]. cbn [fold_left map]. apply IH. }
    rewrite !FD, SN. reflexivity. }
  split; [reflexivity|]. split; [unfold flipped; rewrite (ba_cols _ _ _ _ BA); reflexivity|]. split; [reflexivity|].
  assert (Z : length m = length p) by congruence. assert (Z' : length m' = length p') by congruence. destruct (zip_axes_shape m p n Z L2 P2) as [ZL ZR]. destruct (zip_axes_shape m' p' n Z' L2' P2') as [ZL' ZR'].
  split.
  { exists n. unfold grid_shape. cbn [fg_axes]. destruct (mapij_shape (relabel (bk_offset k) n) _ n ZR) as [ML MR]. destruct (mapij_shape (relabel (bk_offset k) n) _ n ZR') as [ML' MR']. split; split; try assumption; congruence. }
  intros i j calls calls' [row [A1 A2]] [row' [A1' A2']]. cbn [fg_axes] in *.
  assert (I : (i < n)%nat). { destruct (mapij_shape (relabel (bk_offset k) n) _ n ZR) as [ML _]. rewrite <- L1, <- ZL, <- ML. apply nth_error_Some. congruence. }
  assert (J : (j < n)%nat). { destruct (mapij_shape (relabel (bk_offset k) n) _ n ZR) as [_ MR]. rewrite <- (MR row (nth_error_In _ _ A1)). apply nth_error_Some. congruence. }
  assert (NT : forall A (l : list A) i, (i < length l)%nat -> exists x, nth_error l i = Some x). { intros A l q Q. destruct (nth_error l q) as [x|] eqn:E; [exists x; reflexivity|]. apply nth_error_None in E. lia. }
  destruct (NT _ m i) as [rm RM]; [lia|]. destruct (NT _ m' i) as [rm' RM']; [lia|]. destruct (NT _ p i) as [rp RP]; [lia|]. destruct (NT _ p' i) as [rp' RP']; [lia|].
  destruct (NT _ rm j) as [x X]; [rewrite (L2 _ (nth_error_In _ _ RM)); lia|]. destruct (NT _ rm' j) as [x' X']; [rewrite (L2' _ (nth_error_In _ _ RM')); lia|].
  destruct (NT _ rp j) as [y Y]; [rewrite (P2 _ (nth_error_In _ _ RP)); lia|]. destruct (NT _ rp' j) as [y' Y']; [rewrite (P2' _ (nth_error_In _ _ RP')); lia|].
  destruct (zip_axes_nth m p i j rm rp x y RM RP X Y) as [zr [Z1 Z2]]. destruct (zip_axes_nth m' p' i j rm' rp' x' y' RM' RP' X' Y') as [zr' [Z1' Z2']].
  destruct (mapij_nth (relabel (bk_offset k) n) _ i j _ _ Z1 Z2) as [q [Q1 Q2]]. destruct (mapij_nth (relabel (bk_offset k) n) _ i j _ _ Z1' Z2') as [q' [Q1' Q2']].
  rewrite Q1 in A1. injection A1 as <-. rewrite Q2 in A2. injection A2 as <-. rewrite Q1' in A1'. injection A1' as <-. rewrite Q2' in A2'. injection A2' as <-.
  destruct (proj2 G i rm rm' RM RM') as [_ GX]. destruct (proj2 GP i rp rp' RP RP') as [_ GY]. apply relabel_rel. apply Forall2_app; [apply calls_same; exact (GX j x x' X X')|exact (proj1 (GY j y y' Y Y'))].
Qed.
End figure.
End one.

(** ** Whole calls *)
Lemma asked_fun columns l cols : AnalysisSpec.asked columns l cols -> cols = sanitise_columns columns l.
Proof. intros A. destruct columns as [c|]; [exact A|]. exact (NoteProofs.first_seen_fun _ _ A _ (AnalysisProofs.asked_columns None l)). Qed.
Lemma plot_call_rel k s s' req req' columns file size l l' cols : numerics_ok k -> s_plotter s' = s_plotter s -> s_truths s' = s_truths s ->
  contents (s_world s) req false = Ok l -> contents (s_world s') req' false = Ok l' -> cols = sanitise_columns columns l -> Forall2 (panels_alike k cols) l l' ->
  rrel (same_triangle k (config_in_use (s_plotter s)) l cols) (snd (plot k s req columns file size)) (snd (plot k s' req' columns file size)).
Proof.
  intros OK EP ET C C' EC F. assert (FD : Forall2 (drawn_alike (bk_num k) cols) l l'). { clear -F. induction F as [|x y l l' [X _] F IH]; constructor; assumption. }
  unfold plot. rewrite !with_base_contents, C, C', EP, ET. cbn [rbind]. cbv zeta.
  assert (EC' : sanitise_columns columns l' = cols).
  { rewrite EC. apply (alike_columns (bk_num k) cols). clear -FD. induction FD as [|x y l l' [A [B [_ [_ [T _]]]]] F IH]; constructor; [|exact IH]. split; [exact A|]. split; [exact B|exact T]. }
  rewrite EC', <- EC. eapply rrel_bind; [apply (custom_rel (bk_num k) cols); [exact FD|auto]|]. intros e e' E.
  match goal with |- rrel _ (plot_figure _ _ _ _ _ _ _ _ ?x _ _) (plot_figure _ _ _ _ _ _ _ _ ?y _ _) => apply (plot_rel k cols OK _ _ x y) end; [|exact F]. constructor; cbn; auto.
Qed.

(** ** Rows in another order *)
Lemma weights_reordered c f f' : frame_wf f -> reordered f f' -> (forall w, weights c f = Ok w -> all_nonneg w) -> forall w, weights c f' = Ok w -> all_nonneg w.
Proof.
  intros WF [q [Q0 ->]] H w. unfold weights, f_get in *. cbn [f_cols]. rewrite (col_get_map (g := picked NaN q)). destruct (col_get _ (f_cols f)) as [x|] eqn:X; cbn [option_map]; [|discriminate]. intros K. injection K as <-. specialize (H _ eq_refl).
  assert (LX : length x = f_rows f) by exact (proj2 WF _ _ (FrameFacts.f_get_In _ _ _ X)). intros v V. apply H. rewrite qs_picked in V.
  apply (Permutation_in v (picked_perm 0 q (qs x) ltac:(unfold qs; rewrite map_length, LX; exact Q0))). exact V.
Qed.
Lemma kde2_reordered k c f f' px py : order_free2 k -> frame_wf f -> reordered f f' -> same_kde2 (bk_kde2 k) no_units 1 c f f' px py.
Proof.
  intros OF WF [q [Q0 ->]]. right. intros x y w x' y' w' p r p' r' X Y W X' Y' W' P R. unfold f_get in X', Y', W'. cbn [f_cols] in X', Y', W'. rewrite (col_get_map (g := picked NaN q)) in X', Y', W'.
  pose proof (proj2 WF _ _ (FrameFacts.f_get_In _ _ _ X)) as LX. pose proof (proj2 WF _ _ (FrameFacts.f_get_In _ _ _ Y)) as LY. pose proof (proj2 WF _ _ (FrameFacts.f_get_In _ _ _ W)) as LW.
  unfold f_get in X, Y, W. rewrite X in X'. rewrite Y in Y'. rewrite W in W'. injection X' as <-. injection Y' as <-. injection W' as <-.
  rewrite (OF (qs x) (qs y) (qs w) (qs (picked NaN q x)) (qs (picked NaN q y)) (qs (picked NaN q w)) (kde_value (ch_cfg c Fkde)) p p' r r'); [ring| | | | | | | ].
  1-4: unfold qs, picked; rewrite !map_length; congruence.
  - rewrite !qs_picked, combine_picked by (unfold qs; rewrite !map_length; congruence). rewrite combine_picked by (rewrite combine_length; unfold qs; rewrite !map_length; lia). symmetry. apply picked_perm. rewrite !combine_length. unfold qs. rewrite !map_length, LX, LY, LW, !Nat.min_id. exact Q0.
  - unfold in_x, in_units, no_units in P. cbn [u_a u_b] in P. rewrite P. ring.
  - unfold in_y, in_units, no_units in R. cbn [u_c u_d] in R. rewrite R. ring.
Qed.
Lemma reordered_panels k c f f' cols : order_free (bk_num k) -> order_free2 k -> power_law (n_power (bk_num k) (ch_power c)) -> sound c f -> reordered f f' -> only_contours c f -> panels_alike k cols (c, f) (c, f').
Proof.
  intros OF OF2 PW G R [C1 [C2 [C3 C4]]]. split; [apply reordered_alike; try assumption; left; exact C1|]. cbn [fst snd]. split; [exact C4|]. split; [exact (weights_reordered c f f' (so_wf _ _ G) R C4)|].
  split; [|split; [rewrite C2; discriminate|rewrite C3; discriminate]]. intros px py _ _ HX HY. split; [apply plane_reordered; [exact (so_wf _ _ G)|exact (so_rows _ _ G)|exact HX|exact HY|exact (so_weight _ _ G)|exact R]|]. apply kde2_reordered; [exact OF2|exact (so_wf _ _ G)|exact R].
Qed.
