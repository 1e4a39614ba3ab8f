(** Lemmas about plot_dist. *)
From Coq Require Import String List Bool Arith ZArith QArith Reals Qreals Lia Lra.
From Verif Require Import Py NumModel NumSpec NumFacts HelpersModel HelpersSpec HelpersProofs MarginalModel SummarySpec MarginalProofs FilterProofs DensityProofs FrameModel ConfigModel ChainModel RegistrySpec ChainSpec TextModel AnalysisModel SurfaceModel SurfaceProofs FigureModel FigureSpec FigureProofs BarProofs PlotDistModel PlotDistSpec.
From Verif Require Export OpacityFacts.
Import ListNotations.
Open Scope string_scope.
Open Scope list_scope.
Open Scope Q_scope.

Lemma centres_ok e : centres_of e (bin_centers e).
Proof. split; [apply bin_centers_length|]. intros i H. rewrite bin_centers_length in H. rewrite bin_centers_at by lia. field. Qed.
From Coq Require Import Lqa.
Lemma sum_range_scal k f a b : sum_range (fun i => k * f i) a b == k * sum_range f a b.
Proof. unfold sum_range. apply sum_n_scal. Qed.

(** ** The outline *)
Section dist.
Variable num : numerics.
Variable kde1 : list Q -> list Q -> Q -> Q -> Q.
Variable points : nat.
Variable str_center : option Q -> string.
Lemma plot_dist_inv cfg c f px summary calls : plot_dist num kde1 points str_center cfg c f px summary = Ok calls ->
  exists out xs ys rest, dist_outline num kde1 points c f px = Ok (out, xs, ys) /\ calls = out :: rest /\
    ((~ shade_on c /\ summary = false /\ rest = []) \/
     ((shade_on c \/ summary = true) /\ exists fit shade title, get_parameter_summary num c f px = Ok fit /\ dist_shade c fit xs ys = Ok shade /\
        (if summary then dist_title str_center px fit else Ok []) = Ok title /\ rest = shade ++ title)).
Proof.
  unfold plot_dist. intros H. apply rbind_ok in H as [[[out xs] ys] [HO H]]. exists out, xs, ys. destruct (_ || summary) eqn:E.
  - apply rbind_ok in H as [fit [H1 H]]. apply rbind_ok in H as [shade [H2 H]]. apply rbind_ok in H as [title [H3 H]]. injection H as <-. exists (shade ++ title). split; [exact HO|]. split; [reflexivity|]. right.
    split; [apply orb_true_iff in E as [E|E]; [left; apply shade_on_ok; exact E|right; exact E]|]. exists fit, shade, title. auto.
  - injection H as <-. exists []. split; [exact HO|]. split; [reflexivity|]. left. apply orb_false_iff in E as [E1 E2]. split; [intros K; apply shade_on_ok in K; congruence|auto].
Qed.
Lemma outline_shape c f px out xs ys : dist_outline num kde1 points c f px = Ok (out, xs, ys) -> outline_points out (pen_of c) xs ys.
Proof.
  unfold dist_outline. cbv zeta. intros H. apply rbind_ok in H as [v [_ H]]. destruct (negb _ || _).
  - apply rbind_ok in H as [w [_ H]]. apply rbind_ok in H as [bins [_ H]]. apply rbind_ok in H as [o [_ H]]. injection H as <- <- <-. apply op_line.
  - apply rbind_ok in H as [w [_ H]]. apply rbind_ok in H as [bins [_ H]]. apply rbind_ok in H as [o [_ H]]. injection H as <- <- <-. apply op_steps. apply centres_ok.
Qed.
Lemma shade_inv c fit xs ys shade : dist_shade c fit xs ys = Ok shade ->
  (shade = [] /\ (~ shade_on c \/ b_lower fit = None \/ b_upper fit = None)) \/
  (shade_on c /\ exists lower upper lo hi k, b_lower fit = Some lower /\ b_upper fit = Some upper /\ cut_to xs lower upper lo hi /\ k == (1 # 5) + (4 # 5) * ch_cfg c Fshade_gradient /\
    (exists v, alpha_value (ch_cfg c Fshade_alpha) = Some v /\ (0 <= v * Q2R k <= 1)%R) /\
    shade = [DFill lo hi (negb (smooth_value (ch_cfg c Fsmooth) (ch_grid c) =? 0)%Z) xs ys (ch_cfg c Fcolor) (ch_cfg c Fshade_alpha) k (ch_cfg c Fzorder - 1)%Z]).
Proof.
  unfold dist_shade. destruct (_ && _) eqn:E; [|intros H; injection H as <-; left; split; [reflexivity|]; left; intros K; apply shade_on_ok in K; congruence].
  destruct (b_lower fit) as [lower|]; [|intros H; injection H as <-; left; auto]. destruct (b_upper fit) as [upper|]; [|intros H; injection H as <-; left; auto].
  destruct xs as [|x r]; [discriminate|]. destruct (negb (in_range _ _ _)) eqn:R; [discriminate|]. destruct (negb (opacity_ok _ _)) eqn:O; [discriminate|]. intros H. injection H as <-. right. split; [apply shade_on_ok; exact E|].
  apply negb_false_iff in R, O. apply opacity_ok_iff in O. unfold in_range in R. apply andb_true_iff in R as [R R4]. apply andb_true_iff in R as [R R3]. apply andb_true_iff in R as [R1 R2]. apply Qle_bool_iff in R1, R2, R3, R4.
  do 5 eexists. do 2 (split; [reflexivity|]). split; [|split; [|split; [exact O|reflexivity]]]; [|reflexivity].
  destruct (qmin_list_spec x r) as [M1 M2], (qmax_list_spec x r) as [N1 N2]. exists (qmin_list x r), (qmax_list x r). split; [split; assumption|]. split; [split; assumption|]. split.
  - destruct (qmax_cases lower (qmin_list x r)) as [[-> L]|[-> L]]; (split; [cbn; auto|intros z [<-|[<-|[]]]; lra]).
  - split; [|auto]. destruct (qmin_cases upper (qmax_list x r)) as [[-> L]|[-> L]]; (split; [cbn; auto|intros z [<-|[<-|[]]]; lra]).
Qed.
Lemma shade_titles c fit xs ys shade : dist_shade c fit xs ys = Ok shade -> titles shade = [] /\ fills shade = shade.
Proof. intros H. apply shade_inv in H as [[-> _]|[_ [? [? [? [? [? [_ [_ [_ [_ [_ ->]]]]]]]]]]]]; split; reflexivity. Qed.
Lemma outline_plain out p xs ys : outline_points out p xs ys -> fills [out] = [] /\ titles [out] = [].
Proof. intros []; split; reflexivity. Qed.
Lemma fills_app a b : fills (a ++ b) = fills a ++ fills b.
Proof. apply filter_app. Qed.
Lemma titles_app a b : titles (a ++ b) = titles a ++ titles b.
Proof. apply flat_map_app. Qed.

(** ** Areas *)
Lemma area_scaled c edges h ys : scaled_by c h ys -> length h = (length edges - 1)%nat -> bars_area edges h == 1 -> bars_area edges ys == ch_relheight c.
Proof.
  intros [L S] LH A. unfold bars_area in *. rewrite (sum_range_ext _ (fun i => ch_relheight c * (at_ h i * (at_ edges (Datatypes.S i) - at_ edges i)))).
  - rewrite sum_range_scal, A. ring.
  - intros i Hi. unfold at_ at 1. rewrite S by lia. unfold at_. ring.
Qed.
Lemma area_density edges d h h' : hist_density edges d = Ok h -> length h' = length h -> (forall i, at_ h' i == at_ h i) -> bars_area edges h' == 1.
Proof.
  intros H L E. rewrite <- (hist_density_integral _ _ _ H). unfold bars_area. apply sum_range_ext. intros i _. rewrite E. reflexivity.
Qed.
Lemma area_even edges a b n h h' : evenly_spaced a b n edges -> length h = (n - 1)%nat -> length h' = (n - 1)%nat -> total h' == total h -> bars_area edges h' == bars_area edges h.
Proof.
  intros [L [_ [_ [st E]]]] L1 L2 T. unfold bars_area. rewrite L.
  assert (K : forall g, length g = (n - 1)%nat -> sum_range (fun i => at_ g i * (at_ edges (S i) - at_ edges i)) 0 (n - 1) == st * total g).
  { intros g Lg. rewrite (sum_range_ext _ (fun i => st * at_ g i)) by (intros i Hi; rewrite E by lia; ring). rewrite sum_range_scal. unfold total. rewrite Lg. reflexivity. }
  rewrite !K by assumption. rewrite T. reflexivity.
Qed.
End dist.
