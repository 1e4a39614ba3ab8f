(** Lemmas for C113. *)
From Coq Require Import String List Bool Arith ZArith QArith Reals Lia.
From Verif Require Import Py NumSpec NumModel HelpersSpec ColorModel HelpersModel MarginalModel FrameModel ConfigModel ChainModel RegistryModel TextModel AnalysisModel EquivSpec EquivFacts SurfaceModel SurfaceProofs FigureModel FigureSpec FigureProofs TruthFigSpec.
From Verif Require FigEquivProofs.
Import ListNotations.
Open Scope string_scope.
Open Scope list_scope.

Definition alike (l l' : list call) : Prop := without_truths l' = without_truths l.
Lemma alike_app a b a' b' : alike a a' -> alike b b' -> alike (a ++ b) (a' ++ b').
Proof. unfold alike, without_truths. intros H1 H2. rewrite !filter_app. congruence. Qed.
Lemma alike_nil l l' : without_truths l = [] -> without_truths l' = [] -> alike l l'.
Proof. unfold alike. congruence. Qed.
Lemma rrel_refl {A} (m : res A) : rrel eq m m.
Proof. destruct m; reflexivity. Qed.
Lemma rrel_map {A B C D} (R : A -> B -> Prop) (S : C -> D -> Prop) m m' f g : rrel R m m' -> (forall x y, R x y -> S (f x) (g y)) -> rrel S (rmap f m) (rmap g m').
Proof. destruct m, m'; cbn; auto. Qed.
Lemma marks_only filled ts px py : without_truths (plot_truths filled ts px py) = [].
Proof.
  unfold plot_truths. induction ts as [|t ts IH]; [reflexivity|]. cbn [flat_map]. unfold without_truths in *. rewrite filter_app, IH, app_nil_r. unfold plot_truth. destruct (truth_value t px), (truth_value t py), (t_marker t); reflexivity.
Qed.
Lemma lines_only (g : Q -> truth -> call) p ts : (forall v t, not_truth (g v t) = false) -> without_truths (flat_map (fun t => match dget p (t_location t) with Some v => [g v t] | None => [] end) ts) = [].
Proof. intros G. unfold without_truths. induction ts as [|t ts IH]; [reflexivity|]. cbn [flat_map]. rewrite filter_app, IH, app_nil_r. destruct (dget p (t_location t)); [|reflexivity]. cbn [filter]. rewrite G. reflexivity. Qed.
Lemma contents_eq m m' : Forall2 (Forall2 alike) m m' -> map (map without_truths) m' = map (map without_truths) m.
Proof. induction 1 as [|r r' m m' H _ IH]; [reflexivity|]. cbn [map]. f_equal; [|exact IH]. clear -H. induction H as [|a b r r' E _ IH]; [reflexivity|]. cbn [map]. rewrite E, IH. reflexivity. Qed.
Lemma grid_rrel {A B} (R : A -> B -> Prop) rows cols f g : (forall i j p q, rrel R (f i j p q) (g i j p q)) -> rrel (Forall2 (Forall2 R)) (grid_of rows cols f) (grid_of rows cols g).
Proof. intros H. unfold grid_of. apply FigEquivProofs.mapM_same. intros ip _. apply FigEquivProofs.mapM_same. intros jp _. apply H. Qed.
Lemma Forall2_eq {A} (R : A -> A -> Prop) l : (forall x, R x x) -> Forall2 R l l.
Proof. intros H. induction l; constructor; auto. Qed.

Section triangle.
Variables (num : numerics) (kde2 : list Q -> list Q -> list Q -> Q -> Q * Q -> Q) (argsort : list Q -> list nat) (Phi : R -> R) (filled : string -> bool) (offset : dir -> nat -> nat -> string) (cfg : plot_config) (ts ts' : list truth) (b : plot_base).
Definition cell_alike (o o' : list call * dict draw) : Prop := alike (fst o) (fst o') /\ snd o' = snd o.
Lemma inside_alike i j p1 p2 : rrel cell_alike (plot_panel num kde2 argsort Phi filled cfg ts b i j p1 p2) (plot_panel num kde2 argsort Phi filled cfg ts' b i j p1 p2).
Proof.
  unfold plot_panel. destruct (i <? j)%nat; [split; reflexivity|]. cbv zeta. destruct (p_plot_hists cfg && (i =? j)%nat).
  - eapply rrel_bind; [apply rrel_refl|]. intros o ? <-. cbn [rrel]. split; [|reflexivity]. cbn [fst]. apply alike_app; [|reflexivity]. destruct (_ && _); apply alike_nil; apply marks_only.
  - eapply rrel_bind; [apply rrel_refl|]. intros o ? <-. cbn [rrel]. split; [|reflexivity]. cbn [fst]. apply alike_app; [reflexivity|]. apply alike_nil; apply marks_only.
Qed.
Lemma labels_alike d l l' : alike l l' -> current_label d l' = current_label d l.
Proof.
  intros H. assert (E : forall l s, fold_left (label_step d) l s = fold_left (label_step d) (without_truths l) s).
  { clear. induction l as [|c l IH]; intros s; [reflexivity|]. unfold without_truths. cbn [fold_left filter]. destruct c; cbn [not_truth]; try exact (IH _); cbn [fold_left]; exact (IH _). }
  unfold current_label. rewrite (E l), (E l'), H. reflexivity.
Qed.
Lemma relabel_alike n i j l l' : alike l l' -> alike (relabel offset n i j l) (relabel offset n i j l').
Proof.
  intros H. unfold relabel. assert (W : forall d m m', alike m m' -> alike (with_offset offset d i j m) (with_offset offset d i j m')) by (intros d m m' M; unfold with_offset; cbv zeta; rewrite (labels_alike d m m' M); apply alike_app; [exact M|reflexivity]).
  destruct (i =? n - 1)%nat, (j =? 0)%nat; auto.
Qed.
Lemma enum_alike {A B} (R : A -> B -> Prop) l l' : Forall2 R l l' -> forall k, Forall2 (fun a b => fst b = fst a /\ R (snd a) (snd b)) (combine (seq k (length l)) l) (combine (seq k (length l')) l').
Proof. induction 1 as [|x y l l' H _ IH]; intros k; [constructor|]. cbn [length seq combine]. constructor; [split; [reflexivity|exact H]|apply IH]. Qed.
Lemma mapij_alike n m m' : Forall2 (Forall2 alike) m m' -> Forall2 (Forall2 alike) (mapij (relabel offset n) m) (mapij (relabel offset n) m').
Proof.
  intros F. unfold mapij. pose proof (enum_alike _ _ _ F 0) as G. clear F. induction G as [|[i r] [i' r'] l l' [EI H] _ IH]; [constructor|]. cbn [fst snd] in *. subst i'. cbn [map]. constructor; [|exact IH]. cbn [fst snd].
  pose proof (enum_alike _ _ _ H 0) as K. clear H. induction K as [|[j x] [j' x'] q q' [EJ X] _ IHK]; [constructor|]. cbn [fst snd] in *. subst j'. cbn [map]. constructor; [apply relabel_alike; exact X|exact IHK].
Qed.
Lemma zip_alike : forall a (c c' : list (list (list call * dict draw))), Forall2 (Forall2 cell_alike) c c' -> Forall2 (Forall2 alike) (zip_axes a c) (zip_axes a c').
Proof.
  induction a as [|r a IH]; intros c c' FC; [constructor|]. destruct FC as [|s s' c c' K FC]; [constructor|]. unfold zip_axes. cbn [combine map fst snd]. constructor; [|exact (IH _ _ FC)].
  clear -K. revert s s' K. induction r as [|x r IH]; intros s s' K; [constructor|]. destruct K as [|y y' s s' [Y _] K]; [constructor|]. cbn [combine map fst snd]. constructor; [apply alike_app; [reflexivity|exact Y]|apply IH; exact K].
Qed.
Lemma paths_same : forall (c c' : list (list (list call * dict draw))), Forall2 (Forall2 cell_alike) c c' -> forall acc,
  fold_left (fun acc row => fold_left (fun acc p => dmerge acc (snd p)) row acc) c' acc = fold_left (fun acc row => fold_left (fun acc p => dmerge acc (snd p)) row acc) c acc.
Proof.
  intros c c' F. induction F as [|r r' c c' H _ IH]; intros acc; [reflexivity|]. cbn [fold_left]. rewrite IH. f_equal. clear -H. revert acc. induction H as [|x y r r' [_ E] _ IH]; intros acc; [reflexivity|]. cbn [fold_left]. rewrite E. apply IH.
Qed.
Lemma figure_alike figsize file : rrel same_but_truths (plot_figure num kde2 argsort Phi filled offset cfg ts b figsize file) (plot_figure num kde2 argsort Phi filled offset cfg ts' b figsize file).
Proof.
  unfold plot_figure. cbv zeta. eapply rrel_bind; [apply rrel_refl|]. intros fa ? <-. eapply rrel_bind; [apply grid_rrel; intros; apply inside_alike|]. intros pa pa' PA. eapply rrel_bind; [apply rrel_refl|]. intros leg ? <-. cbn [rrel].
  unfold same_but_truths. cbn [fg_size fg_axes fg_bars fg_legend fg_watermark fg_saved]. rewrite (paths_same _ _ PA). repeat split. apply contents_eq. apply mapij_alike. apply zip_alike. exact PA.
Qed.
End triangle.

Section others.
Variables (num : numerics) (filled : string -> bool) (log10 : Q -> Q) (max_points : nat) (text_width : string -> Q) (cfg : plot_config) (ts ts' : list truth) (b : plot_base).
Lemma walks_alike figsize convolve pw pp lw file : rrel same_but_truths (walks_figure log10 max_points cfg ts b figsize convolve pw pp lw file) (walks_figure log10 max_points cfg ts' b figsize convolve pw pp lw file).
Proof.
  unfold walks_figure. cbv zeta. eapply rrel_bind; [apply rrel_refl|]. intros _ _ _. eapply rrel_bind; [apply rrel_refl|]. intros r1 ? <-. eapply rrel_bind; [apply rrel_refl|]. intros r2 ? <-. eapply (rrel_bind (Forall2 (Forall2 alike))).
  - apply FigEquivProofs.mapM_same. intros p _. eapply (rrel_map alike); [|intros x y H; repeat constructor; exact H]. unfold column_row. eapply rrel_bind; [apply rrel_refl|]. intros x ? <-. cbn [rrel]. apply alike_app; [reflexivity|]. apply alike_app; [|reflexivity].
    apply alike_nil; apply lines_only; reflexivity.
  - intros r3 r3' R3. cbn [rrel]. unfold same_but_truths. cbn [fg_size fg_axes fg_bars fg_legend fg_watermark fg_saved]. repeat split. apply contents_eq. apply Forall2_app; [apply Forall2_eq; intros r; apply Forall2_eq; reflexivity|]. apply Forall2_app; [apply Forall2_eq; intros r; apply Forall2_eq; reflexivity|exact R3].
Qed.
Lemma distributions_alike wrap figsize file : rrel same_but_truths (distributions_figure num filled cfg ts b wrap figsize file) (distributions_figure num filled cfg ts' b wrap figsize file).
Proof.
  unfold distributions_figure. cbv zeta. destruct (wrap =? 0)%Z; [reflexivity|]. destruct (match figsize with SizeNum q => Qeq_bool q 0 | _ => false end); [reflexivity|]. eapply rrel_bind; [apply rrel_refl|]. intros _ _ _. eapply (rrel_bind (Forall2 alike)).
  - apply FigEquivProofs.mapM_same. intros p _. unfold distribution_panel. cbv zeta. eapply rrel_bind; [apply rrel_refl|]. intros xl ? <-. eapply rrel_bind; [apply rrel_refl|]. intros o ? <-. destruct (snd o); [|reflexivity]. cbn [rrel].
    do 5 (apply alike_app; [reflexivity|]). apply alike_app; [|reflexivity]. apply alike_nil; apply marks_only.
  - intros ps ps' F. cbn [rrel]. unfold same_but_truths. cbn [fg_size fg_axes fg_bars fg_legend fg_watermark fg_saved]. repeat split. apply contents_eq. apply FigEquivProofs.rows_rel. apply Forall2_app; [exact F|apply Forall2_eq; reflexivity].
Qed.
Definition entry_alike (o o' : list call * option Q) : Prop := alike (fst o) (fst o') /\ snd o' = snd o.
Lemma cell_ok err i cf colour p : rrel entry_alike (summary_panel num cfg ts b err i cf colour p) (summary_panel num cfg ts' b err i cf colour p).
Proof.
  unfold summary_panel. cbv zeta. eapply rrel_bind; [apply rrel_refl|]. intros xl ? <-. match goal with |- context [if negb ?c then Ok (?a, None) else _] => set (fr := a) end. match goal with |- rrel _ _ (if _ then Ok (?a, None) else _) => set (fr' := a) end.
  assert (F : alike fr fr'). { unfold fr, fr'. do 7 (apply alike_app; [reflexivity|]). apply alike_nil; apply lines_only; reflexivity. } clearbody fr fr'.
  destruct (negb _); [split; [exact F|reflexivity]|]. destruct err.
  - eapply rrel_bind; [apply rrel_refl|]. intros v ? <-. cbn [rrel]. split; [|reflexivity]. cbn [fst]. apply alike_app; [exact F|reflexivity].
  - eapply rrel_map; [apply rrel_refl|]. intros o ? <-. split; cbn [fst snd]; [apply alike_app; [exact F|reflexivity]|reflexivity].
Qed.
Lemma max_vals_same cols rows rows' : Forall2 (Forall2 entry_alike) rows rows' -> max_vals cols rows' = max_vals cols rows.
Proof.
  unfold max_vals. generalize (@nil (string * Q)). intros acc F. revert acc. induction F as [|r r' m m' H _ IH]; intros acc; [reflexivity|]. cbn [fold_left]. assert (E : map snd (tl r') = map snd (tl r)).
  { destruct H as [|x y r r' _ H]; [reflexivity|]. cbn [tl]. induction H as [|a c l l' [_ X] _ IHl]; [reflexivity|]. cbn [map]. congruence. }
  rewrite E. apply IH.
Qed.
Lemma scale_alike cols mv r r' : Forall2 alike r r' -> rrel (Forall2 alike) (scale_row cols mv r) (scale_row cols mv r').
Proof.
  intros F. unfold scale_row. assert (L : length r' = length r) by (clear -F; induction F; cbn; congruence). eapply (rrel_map eq).
  - assert (E : forall g, (forall a c p, g (a : list call, p : string) = g (c, p) :> res (list call)) -> rmapM g (combine r cols) = rmapM g (combine r' cols)).
    { intros g G. clear -F G. revert cols. induction F as [|a c r r' _ _ IH]; intros [|p cols]; try reflexivity. cbn [combine rmapM]. rewrite (G a c p), IH. reflexivity. }
    match goal with |- rrel _ (rmapM ?g _) _ => rewrite (E g (fun _ _ _ => eq_refl)) end. apply rrel_refl.
  - intros lims ? <-. rewrite L. generalize (lims ++ repeat [] (length r - length lims)). clear L. induction F as [|a c r r' H _ IH]; intros [|x xs]; cbn [combine map]; constructor; [apply alike_app; [exact H|reflexivity]|apply IH].
Qed.
Lemma summary_alike figsize err es vs file : rrel same_but_truths (summary_figure num text_width cfg ts b figsize err es vs file) (summary_figure num text_width cfg ts' b figsize err es vs file).
Proof.
  unfold summary_figure. eapply rrel_bind; [apply rrel_refl|]. intros mp ? <-. eapply rrel_bind; [apply rrel_refl|]. intros mm ? <-. cbv zeta. destruct (Qeq_bool _ 0); [reflexivity|].
  eapply rrel_bind; [apply rrel_refl|]. intros _ _ _. eapply (rrel_bind (Forall2 (Forall2 entry_alike))).
  - apply FigEquivProofs.mapM_same. intros [i cf] _. unfold summary_row. eapply rrel_bind; [apply rrel_refl|]. intros c ? <-. eapply rrel_map; [apply FigEquivProofs.mapM_same; intros p _; apply cell_ok|]. intros x y F. constructor; [split; reflexivity|exact F].
  - intros rows rows' F. assert (FF : Forall2 (Forall2 alike) (map (map fst) rows) (map (map fst) rows')).
    { clear -F. induction F as [|r r' m m' H _ IH]; cbn [map]; constructor; [|exact IH]. clear -H. induction H as [|x y r r' [X _] _ IH]; cbn [map]; constructor; assumption. }
    eapply (rrel_bind (Forall2 (Forall2 alike))).
    + destruct err; [exact FF|]. rewrite (max_vals_same _ _ _ F). generalize (max_vals (pb_columns b) rows). intros mv. clear -FF. revert rows' FF. induction rows as [|r rows IH]; intros [|r' rows'] FF; cbn [map] in FF; try (inversion FF; fail); [constructor|].
      inversion FF as [|x y l l' H K]; subst. cbn [rmapM]. eapply rrel_bind; [apply scale_alike; exact H|]. intros x y XY. eapply rrel_bind; [apply IH; exact K|]. intros xs ys XS. constructor; assumption.
    + intros ax ax' A. cbn [rrel]. unfold same_but_truths. cbn [fg_size fg_axes fg_bars fg_legend fg_watermark fg_saved]. repeat split. apply contents_eq. exact A.
Qed.
End others.
