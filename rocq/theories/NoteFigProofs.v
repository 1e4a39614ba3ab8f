(** Proofs for NoteFigProps. *)
From Coq Require Import String List Bool Arith ZArith QArith Lia.
From Verif Require Import Py NumModel ColorModel HelpersModel MarginalModel FrameModel ConfigModel ChainModel RegistryModel TextModel AnalysisModel SurfaceModel FigureModel PlotDistModel WarnModel NoteModel VerdictModel
  ChainSpec AnalysisSpec ReportSpec FigureSpec NoteSpec NoteFigModel NoteFigSpec HeapFacts RegistryProofs ChainProofs AnalysisProofs BarProofs NoteProofs VerdictProofs ConsumerProofs.
Import ListNotations.
Open Scope string_scope.
Open Scope list_scope.

Lemma Forall2_impl {A B} (P Q : A -> B -> Prop) l m : (forall x y, P x y -> Q x y) -> Forall2 P l m -> Forall2 Q l m.
Proof. intros H F. induction F; constructor; auto. Qed.
Lemma lmapM_ok {A B} (g : A -> logged B) : forall l ws ys, lmapM g l = (ws, Ok ys) -> exists parts, ws = concat parts /\ Forall2 (fun x t => exists y, g x = (t, Ok y)) l parts.
Proof.
  induction l as [|x l IH]; intros ws ys H; cbn [lmapM] in H.
  - apply silent_ok in H as [-> _]. exists []. split; [reflexivity|constructor].
  - apply lbind_ok in H as [w1 [y [w2 [E1 [H ->]]]]]. apply lbind_ok in H as [w3 [zs [w4 [E2 [H ->]]]]]. apply silent_ok in H as [-> _]. destruct (IH _ _ E2) as [parts [-> F]].
    exists (w1 :: parts). split; [cbn [concat]; rewrite app_nil_r; reflexivity|]. constructor; [exists y; exact E1|exact F].
Qed.
Lemma lmapM_quiet {A B} (g : A -> logged B) l ws ys : (forall x, In x l -> fst (g x) = []) -> lmapM g l = (ws, Ok ys) -> ws = [].
Proof.
  intros Q H. apply lmapM_ok in H as [parts [-> F]]. induction F as [|x t l parts [y E] F IH]; [reflexivity|]. cbn [concat]. rewrite IH by (intros z Hz; apply Q; right; exact Hz).
  specialize (Q x (or_introl eq_refl)). rewrite E in Q. cbn [fst] in Q. rewrite Q. reflexivity.
Qed.
(** Of the members of a row only the one at position [i] logs. *)
Lemma only_one {B} (g : nat * string -> logged B) i : (forall j q, j <> i -> fst (g (j, q)) = []) -> forall l a ws ys, lmapM g (combine (seq a (length l)) l) = (ws, Ok ys) ->
  ((i < a)%nat -> ws = []) /\ forall k p, nth_error l k = Some p -> i = (a + k)%nat -> exists y, g (i, p) = (ws, Ok y).
Proof.
  intros Q. induction l as [|p l IH]; intros a ws ys H; cbn [length seq combine lmapM] in H.
  - apply silent_ok in H as [-> _]. split; [reflexivity|]. intros [|k] p H; discriminate.
  - apply lbind_ok in H as [w1 [y [w2 [E1 [H ->]]]]]. apply lbind_ok in H as [w3 [zs [w4 [E2 [H ->]]]]]. apply silent_ok in H as [-> _]. rewrite app_nil_r. destruct (IH _ _ _ E2) as [I1 I2]. split.
    + intros L. rewrite I1 by lia. rewrite app_nil_r. specialize (Q a p ltac:(lia)). rewrite E1 in Q. exact Q.
    + intros [|k] q Hq Hi; cbn [nth_error] in Hq.
      * injection Hq as ->. rewrite Nat.add_0_r in Hi. subst a. rewrite I1 by lia. rewrite app_nil_r. exists y. exact E1.
      * destruct (I2 k q Hq ltac:(lia)) as [z E]. specialize (Q a p ltac:(lia)). rewrite E1 in Q. cbn [fst] in Q. subst w1. exists z. exact E.
Qed.
Lemma enum_parts {A B} (P : nat * A -> B -> Prop) : forall (l : list A) a (parts : list B), Forall2 P (combine (seq a (length l)) l) parts -> Forall2 (fun x t => exists k, nth_error l k = Some x /\ P ((a + k)%nat, x) t) l parts.
Proof.
  induction l as [|x l IH]; intros a parts F; cbn [length seq combine] in F; inversion F; subst; constructor.
  - exists 0%nat. rewrite Nat.add_0_r. auto.
  - eapply Forall2_impl; [|apply IH; eassumption]. intros z t [k [E H]]. exists (S k). rewrite <- plus_n_Sm. auto.
Qed.

Section noted.
Variable num : numerics.
Lemma noted_bars_result cfg p flip summary cf : snd (noted_bars num cfg p flip summary cf) = plot_bars num cfg p flip summary cf.
Proof.
  destruct cf as [c f]. unfold noted_bars, plot_bars. rewrite lbind_result. cbn [silent snd]. destruct (bar_outline num c f p flip) as [[[o xs] ys]|e]; [|reflexivity]. cbn [rbind]. cbv zeta. rewrite lbind_result. cbn [silent snd].
  destruct (ch_cfg c Fbar_shade); [|reflexivity]. rewrite lbind_result, noted_parameter_result. reflexivity.
Qed.
Lemma noted_bars_ok cfg p flip summary cf ws r : noted_bars num cfg p flip summary cf = (ws, Ok r) -> shade_warned num p cf ws.
Proof.
  destruct cf as [c f]. unfold noted_bars. intros H. apply lbind_ok in H as [w1 [[[o xs] ys] [w2 [E1 [H ->]]]]]. apply silent_ok in E1 as [-> _]. cbv zeta in H. apply lbind_ok in H as [w3 [sh [w4 [E2 [H ->]]]]]. apply silent_ok in H as [-> _]. cbn [app]. rewrite app_nil_r.
  unfold shade_warned. cbn [fst snd]. destruct (ch_cfg c Fbar_shade).
  - apply lbind_ok in E2 as [w5 [b [w6 [E3 [H ->]]]]]. apply silent_ok in H as [-> _]. rewrite app_nil_r. split; [|discriminate]. intros _. exists b. exact (noted_parameter_ok _ _ _ _ _ _ E3).
  - apply silent_ok in E2 as [-> _]. split; [discriminate|reflexivity].
Qed.
Lemma noted_bars_panel_result cfg p flip summary l : snd (noted_bars_panel num cfg p flip summary l) = bars_panel num cfg p flip summary l.
Proof.
  unfold noted_bars_panel, bars_panel. rewrite lbind_result, (lmapM_same _ (plot_bars num cfg p flip summary)) by apply noted_bars_result. destruct (rmapM _ l); reflexivity.
Qed.
Lemma noted_bars_panel_ok cfg p flip summary l ws r : noted_bars_panel num cfg p flip summary l = (ws, Ok r) -> exists ts, ws = concat ts /\ Forall2 (shade_warned num p) l ts.
Proof.
  unfold noted_bars_panel. intros H. apply lbind_ok in H as [w1 [outs [w2 [E1 [H ->]]]]]. apply silent_ok in H as [-> _]. rewrite app_nil_r. apply lmapM_ok in E1 as [parts [-> F]]. exists parts. split; [reflexivity|].
  eapply Forall2_impl; [|exact F]. intros cf t [y E]. exact (noted_bars_ok _ _ _ _ _ _ _ E).
Qed.
Lemma panel_of draws sel cfg p flip summary chains ws r : (forall cf, sel cf = true <-> draws p cf) -> noted_bars_panel num cfg p flip summary (filter sel chains) = (ws, Ok r) -> panel_warned num draws chains p ws.
Proof. intros S H. apply noted_bars_panel_ok in H as [ts [-> F]]. exists (filter sel chains), ts. split; [apply those_filter; intros cf _; apply S|]. split; [reflexivity|exact F]. Qed.

Lemma noted_grid_result {A} rows cols (g : nat -> nat -> string -> string -> logged A) k : (forall i j p q, snd (g i j p q) = k i j p q) -> snd (noted_grid rows cols g) = grid_of rows cols k.
Proof. intros E. unfold noted_grid, grid_of. apply lmapM_same. intros [i p]. apply lmapM_same. intros [j q]. apply E. Qed.
(** On a square grid only the diagonal logs. *)
Lemma noted_grid_diagonal {A} cols (g : nat -> nat -> string -> string -> logged A) ws m : (forall i j p q, i <> j -> fst (g i j p q) = []) -> noted_grid cols cols g = (ws, Ok m) ->
  exists parts, ws = concat parts /\ Forall2 (fun p t => exists i y, g i i p p = (t, Ok y)) cols parts.
Proof.
  intros Q H. unfold noted_grid in H. apply lmapM_ok in H as [parts [-> F]]. exists parts. split; [reflexivity|]. apply enum_parts in F. eapply Forall2_impl; [|exact F].
  intros p t [i [E [y H]]]. cbn [fst snd plus] in H. destruct (only_one (fun jp => g i (fst jp) p (snd jp)) i (fun j q N => Q i j p q (fun E0 => N (eq_sym E0))) cols 0%nat t y H) as [_ O]. destruct (O i p E eq_refl) as [z Z]. exists i, z. exact Z.
Qed.
Lemma noted_grid_quiet {A} rows cols (g : nat -> nat -> string -> string -> logged A) ws m : (forall i j p q, fst (g i j p q) = []) -> noted_grid rows cols g = (ws, Ok m) -> ws = [].
Proof.
  intros Q H. unfold noted_grid in H. apply lmapM_ok in H as [parts [-> F]]. induction F as [|[i p] t l parts [y E] F IH]; [reflexivity|]. cbn [concat fst snd] in *. rewrite IH. rewrite app_nil_r. eapply lmapM_quiet; [|exact E]. intros [j q] _. apply Q.
Qed.

Section triangle.
Variable kde2 : list Q -> list Q -> list Q -> Q -> Q * Q -> Q.
Variable argsort : list Q -> list nat.
Variable Phi : Rdefinitions.R -> Rdefinitions.R.
Variable filled : string -> bool.
Variable offset : dir -> nat -> nat -> string.
Notation npanel := (noted_plot_panel num kde2 argsort Phi filled).
Lemma noted_panel_result cfg ts b i j p q : snd (npanel cfg ts b i j p q) = plot_panel num kde2 argsort Phi filled cfg ts b i j p q.
Proof.
  unfold noted_plot_panel. destruct (i <? j)%nat eqn:E1; [unfold plot_panel; rewrite E1; reflexivity|]. cbv zeta. destruct (p_plot_hists cfg && (i =? j)%nat) eqn:E2; [|reflexivity].
  unfold plot_panel. rewrite E1. cbv zeta. rewrite E2, lbind_result, noted_bars_panel_result. reflexivity.
Qed.
Lemma noted_panel_quiet cfg ts b i j p q : p_plot_hists cfg && (i =? j)%nat = false -> fst (npanel cfg ts b i j p q) = [].
Proof. intros E. unfold noted_plot_panel. destruct (i <? j)%nat; [reflexivity|]. cbv zeta. rewrite E. reflexivity. Qed.
Lemma noted_panel_diagonal cfg ts b i p ws r : p_plot_hists cfg = true -> npanel cfg ts b i i p p = (ws, Ok r) -> panel_warned num draws_bars (pb_chains b) p ws.
Proof.
  intros E. unfold noted_plot_panel. rewrite Nat.ltb_irrefl. cbv zeta. rewrite Nat.eqb_refl, E. cbn [andb]. intros H. apply lbind_ok in H as [w1 [bars [w2 [E1 [H ->]]]]]. apply silent_ok in H as [-> _]. rewrite app_nil_r.
  eapply panel_of; [|exact E1]. intros [c f]. unfold draws_bars. cbn [fst snd]. rewrite andb_true_iff, is_column_has. reflexivity.
Qed.
Lemma noted_figure_result cfg ts b size file : snd (noted_plot_figure num kde2 argsort Phi filled offset cfg ts b size file) = plot_figure num kde2 argsort Phi filled offset cfg ts b size file.
Proof.
  unfold noted_plot_figure, plot_figure. cbv zeta. rewrite lbind_result. cbn [silent snd]. destruct (triangle_figure _ _ _); cbn [rbind]; [|reflexivity]. rewrite lbind_result. cbn [silent snd].
  rewrite (noted_grid_result _ _ _ (plot_panel num kde2 argsort Phi filled cfg ts b)); [reflexivity|]. intros. apply noted_panel_result.
Qed.
Lemma noted_figure_ok cfg ts b size file ws fig : noted_plot_figure num kde2 argsort Phi filled offset cfg ts b size file = (ws, Ok fig) ->
  (p_plot_hists cfg = true -> exists parts, ws = concat parts /\ Forall2 (panel_warned num draws_bars (pb_chains b)) (pb_columns b) parts) /\ (p_plot_hists cfg = false -> ws = []).
Proof.
  unfold noted_plot_figure. cbv zeta. intros H. apply lbind_ok in H as [w1 [ax [w2 [E1 [H ->]]]]]. apply silent_ok in E1 as [-> _]. apply lbind_ok in H as [w3 [m [w4 [E2 [H ->]]]]]. apply silent_ok in H as [-> _]. cbn [app]. rewrite app_nil_r. split; intros EH.
  - unfold params_x, params_y in E2. rewrite EH in E2. apply noted_grid_diagonal in E2 as [parts [-> F]].
    + exists parts. split; [reflexivity|]. eapply Forall2_impl; [|exact F]. intros p t [i [y E]]. exact (noted_panel_diagonal _ _ _ _ _ _ _ EH E).
    + intros i j p q N. apply noted_panel_quiet. apply andb_false_iff. right. apply Nat.eqb_neq. exact N.
  - eapply noted_grid_quiet; [|exact E2]. intros i j p q. apply noted_panel_quiet. rewrite EH. reflexivity.
Qed.
End triangle.

Section distributions.
Variable filled : string -> bool.
Lemma noted_distribution_result cfg ts b summary p : snd (noted_distribution num filled cfg ts b summary p) = distribution_panel num filled cfg ts b summary p.
Proof.
  unfold noted_distribution, distribution_panel. cbv zeta. rewrite lbind_result. cbn [silent snd]. match goal with |- rbind ?r _ = _ => destruct r end; [|reflexivity]. cbn [rbind]. rewrite lbind_result, noted_bars_panel_result. reflexivity.
Qed.
Lemma noted_distribution_ok cfg ts b summary p ws r : noted_distribution num filled cfg ts b summary p = (ws, Ok r) -> panel_warned num draws_plotted (pb_chains b) p ws.
Proof.
  unfold noted_distribution. cbv zeta. intros H. apply lbind_ok in H as [w1 [xl [w2 [E1 [H ->]]]]]. apply silent_ok in E1 as [-> _]. apply lbind_ok in H as [w3 [bars [w4 [E2 [H ->]]]]]. apply silent_ok in H as [-> _]. cbn [app]. rewrite app_nil_r.
  eapply panel_of; [|exact E2]. intros [c f]. unfold draws_plotted. cbn [fst snd]. rewrite andb_true_iff, smem_In. reflexivity.
Qed.
Lemma noted_distributions_result cfg ts b wrap size file : snd (noted_distributions_figure num filled cfg ts b wrap size file) = distributions_figure num filled cfg ts b wrap size file.
Proof.
  unfold noted_distributions_figure, distributions_figure. cbv zeta. destruct (wrap =? 0)%Z; [reflexivity|]. match goal with |- context [if ?x then silent _ else _] => destruct x end; [reflexivity|]. rewrite lbind_result. cbn [silent snd]. destruct (subplots _ _ _); [|reflexivity]. cbn [rbind].
  rewrite lbind_result. rewrite (lmapM_same _ (distribution_panel num filled cfg ts b (p_summarise cfg && (length (pb_chains b) =? 1)%nat))) by (intros; apply noted_distribution_result). reflexivity.
Qed.
Lemma noted_distributions_ok cfg ts b wrap size file ws fig : noted_distributions_figure num filled cfg ts b wrap size file = (ws, Ok fig) ->
  exists parts, ws = concat parts /\ Forall2 (panel_warned num draws_plotted (pb_chains b)) (pb_columns b) parts.
Proof.
  unfold noted_distributions_figure. cbv zeta. destruct (wrap =? 0)%Z; [discriminate|]. match goal with |- context [if ?x then silent _ else _] => destruct x end; [discriminate|]. intros H. apply lbind_ok in H as [w1 [u [w2 [E1 [H ->]]]]]. apply silent_ok in E1 as [-> _].
  apply lbind_ok in H as [w3 [m [w4 [E2 [H ->]]]]]. apply silent_ok in H as [-> _]. cbn [app]. rewrite app_nil_r. apply lmapM_ok in E2 as [parts [-> F]]. exists parts. split; [reflexivity|]. eapply Forall2_impl; [|exact F]. intros p t [y E]. exact (noted_distribution_ok _ _ _ _ _ _ _ E).
Qed.
End distributions.

Section summaries.
Lemma noted_summary_panel_result cfg ts b eb i cf col p : snd (noted_summary_panel num cfg ts b eb i cf col p) = summary_panel num cfg ts b eb i cf col p.
Proof.
  unfold noted_summary_panel, summary_panel. cbv zeta. rewrite lbind_result. cbn [silent snd]. destruct (set_limits _ _); [|reflexivity]. cbn [rbind]. destruct (negb _); [reflexivity|]. destruct eb; rewrite lbind_result; [rewrite noted_parameter_result; reflexivity|].
  rewrite noted_bars_result. destruct (plot_bars _ _ _ _ _ _); reflexivity.
Qed.
Lemma noted_summary_panel_ok cfg ts b eb i cf col p ws r : noted_summary_panel num cfg ts b eb i cf col p = (ws, Ok r) ->
  if smem p (data_columns (fst cf) (snd cf)) then if eb then summary_warned num p cf ws else shade_warned num p cf ws else ws = [].
Proof.
  unfold noted_summary_panel. cbv zeta. intros H. apply lbind_ok in H as [w1 [xl [w2 [E1 [H ->]]]]]. apply silent_ok in E1 as [-> _]. cbn [app]. destruct (smem p (data_columns (fst cf) (snd cf))); cbn [negb] in H; [|apply silent_ok in H as [-> _]; reflexivity].
  destruct eb; apply lbind_ok in H as [w3 [o [w4 [E2 [H ->]]]]]; apply silent_ok in H as [-> _]; rewrite app_nil_r.
  - exists o. exact (noted_parameter_ok _ _ _ _ _ _ E2).
  - exact (noted_bars_ok _ _ _ _ _ _ _ E2).
Qed.
Lemma noted_summary_row_result cfg ts b eb icf : snd (noted_summary_row num cfg ts b eb icf) = summary_row num cfg ts b eb icf.
Proof.
  destruct icf as [i cf]. unfold noted_summary_row, summary_row. rewrite lbind_result. cbn [silent snd]. destruct (chain_colour (fst cf)) as [col|]; [|reflexivity]. cbn [rbind]. rewrite lbind_result.
  rewrite (lmapM_same _ (summary_panel num cfg ts b eb i cf col)) by (intros; apply noted_summary_panel_result). destruct (rmapM _ _); reflexivity.
Qed.
Lemma noted_summary_row_ok cfg ts b eb i cf ws r : noted_summary_row num cfg ts b eb (i, cf) = (ws, Ok r) -> row_warned num eb (pb_columns b) cf ws.
Proof.
  unfold noted_summary_row. intros H. apply lbind_ok in H as [w1 [col [w2 [E1 [H ->]]]]]. apply silent_ok in E1 as [-> _]. apply lbind_ok in H as [w3 [ps [w4 [E2 [H ->]]]]]. apply silent_ok in H as [-> _]. cbn [app]. rewrite app_nil_r.
  apply lmapM_ok in E2 as [parts [-> F]]. clear -F. induction F as [|p t l parts [y E] F IH]; [exists [], []; repeat split; constructor|].
  apply noted_summary_panel_ok in E. destruct IH as [mine [us [K [EQ G]]]]. cbn [concat]. rewrite EQ. destruct (smem p (data_columns (fst cf) (snd cf))) eqn:ES.
  - exists (p :: mine), (t :: us). split; [constructor; [apply smem_In; exact ES|exact K]|]. split; [reflexivity|]. constructor; [exact E|exact G].
  - subst t. exists mine, us. split; [constructor; [intros HI; apply smem_In in HI; congruence|exact K]|]. split; [reflexivity|exact G].
Qed.
Variable text_width : string -> Q.
Lemma noted_summary_figure_result cfg ts b size eb es vs file : snd (noted_summary_figure num text_width cfg ts b size eb es vs file) = summary_figure num text_width cfg ts b size eb es vs file.
Proof.
  unfold noted_summary_figure, summary_figure. rewrite lbind_result. cbn [silent snd]. destruct (size_of_texts _ _) as [mp|]; [|reflexivity]. cbn [rbind]. rewrite lbind_result. cbn [silent snd]. destruct (size_of_texts _ _) as [mm|]; [|reflexivity]. cbn [rbind]. cbv zeta.
  destruct (Qeq_bool _ 0); [reflexivity|]. rewrite lbind_result. cbn [silent snd]. destruct (subplots _ _ _); [|reflexivity]. cbn [rbind]. rewrite lbind_result. rewrite (lmapM_same _ (summary_row num cfg ts b eb)) by (intros; apply noted_summary_row_result). reflexivity.
Qed.
Lemma noted_summary_figure_ok cfg ts b size eb es vs file ws fig : noted_summary_figure num text_width cfg ts b size eb es vs file = (ws, Ok fig) ->
  exists parts, ws = concat parts /\ Forall2 (row_warned num eb (pb_columns b)) (pb_chains b) parts.
Proof.
  unfold noted_summary_figure. intros H. apply lbind_ok in H as [w1 [mp [w2 [E1 [H ->]]]]]. apply silent_ok in E1 as [-> _]. apply lbind_ok in H as [w3 [mm [w4 [E2 [H ->]]]]]. apply silent_ok in E2 as [-> _]. cbv zeta in H. destruct (Qeq_bool _ 0); [discriminate|].
  apply lbind_ok in H as [w5 [u [w6 [E3 [H ->]]]]]. apply silent_ok in E3 as [-> _]. apply lbind_ok in H as [w7 [rows [w8 [E4 [H ->]]]]]. apply silent_ok in H as [-> _]. cbn [app]. rewrite app_nil_r.
  apply lmapM_ok in E4 as [parts [-> F]]. exists parts. split; [reflexivity|]. apply enum_parts in F. eapply Forall2_impl; [|exact F]. intros cf t [k [_ [y E]]]. exact (noted_summary_row_ok _ _ _ _ _ _ _ _ E).
Qed.
End summaries.

Lemma noted_base_result s req columns wide g k : (forall cfg ts b, snd (g cfg ts b) = k cfg ts b) ->
  fst (noted_base num s req columns wide g) = fst (with_base num s req columns wide k) /\ snd (snd (noted_base num s req columns wide g)) = snd (with_base num s req columns wide k).
Proof.
  intros E. unfold noted_base, with_base. cbv zeta. destruct (sanitise _ _ _ _ _ _ _) as [[w1 rc1] rb]. cbn [fst snd]. split; [reflexivity|]. rewrite lbind_result. cbn [silent snd]. destruct rb as [b|]; [|reflexivity]. cbn [rbind]. apply E.
Qed.
Lemma noted_base_ok s req columns wide g s' ws fig : noted_base num s req columns wide g = (s', (ws, Ok fig)) ->
  exists final ext, contents (s_world s) req false = Ok final /\
    g (config_in_use (s_plotter s)) (s_truths s) {| pb_chains := final; pb_columns := sanitise_columns columns final; pb_extents := ext; pb_blind := sanitise_blinds (p_blind (config_in_use (s_plotter s))) (sanitise_columns columns final); pb_logs := p_log_scales (config_in_use (s_plotter s)) |} = (ws, Ok fig).
Proof.
  unfold noted_base, contents, sanitise. cbv zeta. destruct (sanitise_chains (s_world s) req false) as [w1 [locs|e]]; [|discriminate]. cbn [fst snd rbind]. destruct (rmapM _ _) as [final|e]; [|discriminate]. cbn [rbind].
  destruct (get_custom_extents _ _ _ _ _) as [ext|e]; [|discriminate]. cbn [rbind]. intros H. apply (f_equal snd) in H. cbn [snd] in H. apply lbind_ok in H as [w2 [b [w3 [E1 [H ->]]]]]. apply silent_ok in E1 as [-> E1]. injection E1 as <-. exists final, ext. split; [reflexivity|exact H].
Qed.
End noted.
