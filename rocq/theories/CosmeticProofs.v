(** C112: proofs. *)
From Coq Require Import String List Bool Arith ZArith QArith Reals Lia.
From Verif Require Import Py NumSpec NumModel HelpersSpec ColorModel HelpersModel MarginalModel FrameModel ConfigModel ChainModel RegistryModel TextModel AnalysisModel EquivSpec SurfaceModel SurfaceProofs FigureModel FigureSpec FigureProofs CosmeticSpec.
Import ListNotations.
Open Scope string_scope.
Open Scope list_scope.

(** Where both results are values, they are related. *)
Definition meet {A B} (R : A -> B -> Prop) (r : res A) (r' : res B) : Prop := forall x y, r = Ok x -> r' = Ok y -> R x y.
Lemma meet_bind {A B C D} (R : A -> B -> Prop) (S : C -> D -> Prop) m m' f g : meet R m m' -> (forall x y, R x y -> meet S (f x) (g y)) -> meet S (rbind m f) (rbind m' g).
Proof. intros M F x y X Y. apply rbind_ok in X as [u [U X]]. apply rbind_ok in Y as [v [V Y]]. exact (F u v (M u v U V) x y X Y). Qed.
Lemma meet_map {A B C D} (R : A -> B -> Prop) (S : C -> D -> Prop) m m' f g : meet R m m' -> (forall x y, R x y -> S (f x) (g y)) -> meet S (rmap f m) (rmap g m').
Proof. intros M F. intros x y X Y. destruct m; [|discriminate]. destruct m'; [|discriminate]. injection X as <-. injection Y as <-. apply F. apply M; reflexivity. Qed.
Lemma meet_refl {A} (m : res A) : meet eq m m.
Proof. intros x y X Y. congruence. Qed.
Lemma meet_ok {A B} (R : A -> B -> Prop) x y : R x y -> meet R (Ok x) (Ok y).
Proof. intros H u v U V. injection U as <-. injection V as <-. exact H. Qed.
Lemma meet_mapM {A B C} (R : B -> C -> Prop) f g (l : list A) : (forall a, meet R (f a) (g a)) -> meet (Forall2 R) (rmapM f l) (rmapM g l).
Proof.
  intros H. induction l as [|a l IH]; [apply meet_ok; constructor|]. cbn [rmapM]. eapply meet_bind; [apply H|]. intros x y XY. eapply meet_bind; [exact IH|]. intros xs ys F. apply meet_ok. constructor; assumption.
Qed.
Definition alike (l l' : list call) : Prop := content l' = content l.
Lemma alike_app a b a' b' : alike a a' -> alike b b' -> alike (a ++ b) (a' ++ b').
Proof. unfold alike, content. intros H1 H2. rewrite !filter_app. congruence. Qed.
Lemma alike_refl l : alike l l. Proof. reflexivity. Qed.
Lemma alike_nil l l' : content l = [] -> content l' = [] -> alike l l'.
Proof. unfold alike. congruence. Qed.
Ltac bare := repeat match goal with |- context [if ?b then _ else _] => destruct b end; reflexivity.
Lemma alike_concat ll ll' : Forall2 alike ll ll' -> alike (concat ll) (concat ll').
Proof. induction 1; [reflexivity|]. cbn [concat]. apply alike_app; assumption. Qed.

Section bars.
Variable num : numerics.
Lemma bars_alike cfg cfg' column flip su su' cf : meet (fun o o' => alike (fst o) (fst o') /\ snd o' = snd o) (plot_bars num cfg column flip su cf) (plot_bars num cfg' column flip su' cf).
Proof.
  unfold plot_bars. destruct cf as [c f]. eapply meet_bind; [apply meet_refl|]. intros [[outline xs] ys] out' <-. cbv zeta.
  eapply (meet_bind alike).
  - destruct (ch_cfg c Fbar_shade : bool); [|apply meet_ok; reflexivity]. eapply meet_bind; [apply meet_refl|]. intros base base' <-. destruct (b_lower base); [|apply meet_ok; reflexivity]. destruct (b_upper base); [|apply meet_ok; reflexivity].
    eapply meet_bind; [apply meet_refl|]. intros sh sh' <-. eapply meet_bind; [apply meet_refl|]. intros fills fills' <-.
    eapply (meet_bind alike); [|intros t t' T; apply meet_ok; apply alike_app; [reflexivity|exact T]].
    assert (B : forall (s : bool) k x, (if s then rmap (fun t => if String.eqb t "" then [] else [Title t]) k else Ok []) = Ok x -> content x = []).
    { intros s k x H. destruct s; [|injection H as <-; reflexivity]. destruct k as [t|]; [|discriminate]. injection H as <-. destruct (String.eqb t ""); reflexivity. }
    intros x y X Y. apply alike_nil; eapply B; eassumption.
  - intros sh sh' S. destruct ys as [|y r]; [intros ? ? X; discriminate X|]. apply meet_ok. cbn [fst snd]. split; [|reflexivity]. apply (alike_app [outline] _ [outline]); [reflexivity|exact S].
Qed.
Lemma panel_alike cfg cfg' column flip su su' chains : meet (fun o o' => alike (fst o) (fst o') /\ snd o' = snd o) (bars_panel num cfg column flip su chains) (bars_panel num cfg' column flip su' chains).
Proof.
  unfold bars_panel. eapply meet_map; [apply meet_mapM; intros cf; apply bars_alike|]. intros o o' F. cbn [fst snd]. split.
  - apply alike_concat. induction F as [|x y l l' [H _] _ IH]; constructor; assumption.
  - f_equal. induction F as [|x y l l' [_ H] _ IH]; [reflexivity|]. cbn [map]. congruence.
Qed.
End bars.

(** The same chains, columns and ranges *)
Definition base_like (b b' : plot_base) : Prop := pb_chains b' = pb_chains b /\ pb_columns b' = pb_columns b /\ pb_extents b' = pb_extents b.
Lemma base_alike num s s' req columns wide (R : figure -> figure -> Prop) k : s_world s' = s_world s -> s_truths s' = s_truths s -> p_extents (config_in_use (s_plotter s')) = p_extents (config_in_use (s_plotter s)) ->
  (forall b b', base_like b b' -> meet R (k (config_in_use (s_plotter s)) (s_truths s) b) (k (config_in_use (s_plotter s')) (s_truths s) b')) ->
  meet R (snd (with_base num s req columns wide k)) (snd (with_base num s' req columns wide k)).
Proof.
  intros EW ET EE K. unfold with_base, sanitise. rewrite EW, EE, ET. destruct (sanitise_chains (s_world s) req false) as [w1 [locs|e]]; [|intros x y X; discriminate X].
  destruct (rmapM (ref_object (fst w1)) (map ByChain locs)) as [final|e]; [|intros x y X; discriminate X]. destruct (get_custom_extents _ _ _ _ _) as [ext|e]; [|intros x y X; discriminate X]. cbn [snd rbind].
  apply K. repeat split.
Qed.
Lemma grid_meet {A B} (R : A -> B -> Prop) rows cols f g : (forall i j p q, meet R (f i j p q) (g i j p q)) -> meet (Forall2 (Forall2 R)) (grid_of rows cols f) (grid_of rows cols g).
Proof. intros H. unfold grid_of. apply meet_mapM. intros ip. apply meet_mapM. intros jp. apply H. Qed.
Lemma saved_names cfg cfg' a : map fst (saved_files cfg' a) = map fst (saved_files cfg a).
Proof. unfold saved_files. rewrite !map_map. reflexivity. Qed.
Lemma contents_eq m m' : Forall2 (Forall2 alike) m m' -> map (map content) m' = map (map content) m.
Proof. induction 1 as [|r r' m m' H _ IH]; [reflexivity|]. cbn [map]. f_equal; [|exact IH]. clear -H. induction H as [|a b r r' E _ IH]; [reflexivity|]. cbn [map]. rewrite E, IH. reflexivity. Qed.

Section triangle.
Variables (num : numerics) (kde2 : list Q -> list Q -> list Q -> Q -> Q * Q -> Q) (argsort : list Q -> list nat) (Phi : R -> R) (filled : string -> bool) (offset : dir -> nat -> nat -> string).
Variables (cfg cfg' : plot_config).
Hypothesis E1 : p_plot_hists cfg' = p_plot_hists cfg.
Hypothesis E2 : p_flip cfg' = p_flip cfg.
Hypothesis E3 : p_sigma2d cfg' = p_sigma2d cfg.
Lemma frame_alike b b' n i j p1 p2 : base_like b b' -> meet alike (triangle_panel cfg b n i j p1 p2) (triangle_panel cfg' b' n i j p1 p2).
Proof.
  intros [B1 [B2 B3]]. unfold triangle_panel. destruct (i <? j)%nat; [apply meet_ok; reflexivity|]. cbv zeta. rewrite E1, E2, B3. eapply meet_bind; [apply meet_refl|]. intros yl yl' <-. eapply meet_bind; [apply meet_refl|]. intros xl xl' <-.
  apply meet_ok. repeat (apply alike_app); try reflexivity; apply alike_nil; bare.
Qed.
Lemma inside_alike truths b b' i j p1 p2 : base_like b b' ->
  meet (fun o o' => alike (fst o) (fst o') /\ snd o' = snd o) (plot_panel num kde2 argsort Phi filled cfg truths b i j p1 p2) (plot_panel num kde2 argsort Phi filled cfg' truths b' i j p1 p2).
Proof.
  intros [B1 [B2 B3]]. unfold plot_panel. destruct (i <? j)%nat; [apply meet_ok; split; reflexivity|]. cbv zeta. unfold flipped, params_x. rewrite E1, E2, E3, B1, B2. destruct (p_plot_hists cfg && (i =? j)%nat).
  - eapply meet_bind; [apply panel_alike|]. intros o o' [O1 O2]. rewrite O2. apply meet_ok. cbn [fst snd]. split; [|reflexivity]. apply alike_app; [reflexivity|]. apply alike_app; [exact O1|reflexivity].
  - eapply meet_bind; [apply meet_refl|]. intros d d' <-. apply meet_ok. split; reflexivity.
Qed.
Lemma relabel_alike n i j l l' : alike l l' -> alike (relabel offset n i j l) (relabel offset n i j l').
Proof. intros H. unfold relabel. assert (W : forall d m m', alike m m' -> alike (with_offset offset d i j m) (with_offset offset d i j m')) by (intros d m m' M; unfold with_offset; cbv zeta; apply alike_app; [exact M|reflexivity]). destruct (i =? n - 1)%nat, (j =? 0)%nat; auto. Qed.
Lemma enum_alike {A B} (R : A -> B -> Prop) l l' : Forall2 R l l' -> forall k, Forall2 (fun a b => fst b = fst a /\ R (snd a) (snd b)) (combine (seq k (length l)) l) (combine (seq k (length l')) l').
Proof. induction 1 as [|a b l l' H _ IH]; intros k; [constructor|]. cbn [length seq combine]. constructor; [split; [reflexivity|exact H]|apply IH]. Qed.
Lemma mapij_alike n m m' : Forall2 (Forall2 alike) m m' -> Forall2 (Forall2 alike) (mapij (relabel offset n) m) (mapij (relabel offset n) m').
Proof.
  intros F. unfold mapij. pose proof (enum_alike _ _ _ F 0) as G. clear F. induction G as [|[i r] [i' r'] l l' [EI H] _ IH]; [constructor|]. cbn [fst snd] in *. subst i'. cbn [map]. constructor; [|exact IH]. cbn [fst snd].
  pose proof (enum_alike _ _ _ H 0) as K. clear H. induction K as [|[j x] [j' x'] q q' [EJ X] _ IHK]; [constructor|]. cbn [fst snd] in *. subst j'. cbn [map]. constructor; [apply relabel_alike; exact X|exact IHK].
Qed.
Lemma zip_alike : forall a a' (c c' : list (list (list call * dict draw))), Forall2 (Forall2 alike) a a' -> Forall2 (Forall2 (fun o o' => alike (fst o) (fst o') /\ snd o' = snd o)) c c' -> Forall2 (Forall2 alike) (zip_axes a c) (zip_axes a' c').
Proof.
  intros a a' c c' FA. revert c c'. induction FA as [|r r' a a' H _ IH]; intros c c' FC; [constructor|]. destruct FC as [|s s' c c' K FC]; [constructor|]. unfold zip_axes. cbn [combine map fst snd]. constructor; [|exact (IH _ _ FC)].
  clear -H K. revert s s' K. induction H as [|x x' r r' X _ IH]; intros s s' K; [constructor|]. destruct K as [|y y' s s' [Y _] K]; [constructor|]. cbn [combine map fst snd]. constructor; [apply alike_app; assumption|apply IH; exact K].
Qed.
Lemma paths_same : forall (c c' : list (list (list call * dict draw))), Forall2 (Forall2 (fun o o' => alike (fst o) (fst o') /\ snd o' = snd o)) c c' -> forall acc,
  fold_left (fun acc row => fold_left (fun acc p => dmerge acc (snd p)) row acc) c' acc = fold_left (fun acc row => fold_left (fun acc p => dmerge acc (snd p)) row acc) c acc.
Proof.
  intros c c' F. induction F as [|r r' c c' H _ IH]; intros acc; [reflexivity|]. cbn [fold_left]. rewrite IH. f_equal. clear -H. revert acc. induction H as [|x y r r' [_ E] _ IH]; intros acc; [reflexivity|]. cbn [fold_left]. rewrite E. apply IH.
Qed.
Lemma figure_alike truths b b' figsize file : base_like b b' ->
  meet same_content (plot_figure num kde2 argsort Phi filled offset cfg truths b figsize file) (plot_figure num kde2 argsort Phi filled offset cfg' truths b' figsize file).
Proof.
  intros B. pose proof B as [B1 [B2 B3]]. unfold plot_figure. cbv zeta. rewrite B1, B2. set (size := get_size _ _ _).
  assert (TS : triangle_size cfg' (pb_columns b) = triangle_size cfg (pb_columns b)) by (unfold triangle_size; rewrite E1; reflexivity).
  assert (PX : params_x cfg' (pb_columns b) = params_x cfg (pb_columns b)) by (unfold params_x; rewrite E1; reflexivity).
  assert (PY : params_y cfg' (pb_columns b) = params_y cfg (pb_columns b)) by (unfold params_y; rewrite E1; reflexivity). rewrite TS, PX, PY.
  eapply (meet_bind (Forall2 (Forall2 alike))).
  - unfold triangle_figure. cbv zeta. rewrite B2, TS, PX, PY. eapply meet_bind; [apply meet_refl|]. intros _ _ _. destruct (_ || _); [intros x y X; discriminate X|]. apply grid_meet. intros. apply frame_alike. exact B.
  - intros fa fa' FA. eapply meet_bind; [apply grid_meet; intros; apply inside_alike; exact B|]. intros pa pa' PA. intros x y X Y. apply rbind_ok in X as [leg [_ X]]. apply rbind_ok in Y as [leg' [_ Y]]. injection X as <-. injection Y as <-.
    unfold same_content. cbn [fg_size fg_axes fg_bars fg_saved]. split; [reflexivity|]. split; [apply contents_eq; apply mapij_alike; apply zip_alike; assumption|]. split; [rewrite !map_map; cbn [snd]; rewrite (paths_same _ _ PA); reflexivity|apply saved_names].
Qed.
End triangle.

Section others.
Variables (num : numerics) (filled : string -> bool) (log10 : Q -> Q) (max_points : nat) (text_width : string -> Q) (cfg cfg' : plot_config).
Lemma walk_alike col col' data ext convolve color lg lg' : meet alike (plot_walk cfg col data ext convolve color lg) (plot_walk cfg' col' data ext convolve color lg').
Proof.
  unfold plot_walk. eapply meet_bind; [apply meet_refl|]. intros yl yl' <-. destruct data as [|x r]; [intros ? ? X; discriminate X|]. eapply meet_bind; [apply meet_refl|]. intros cv cv' <-. apply meet_ok.
  repeat (apply alike_app); try reflexivity. apply alike_nil; bare.
Qed.
Lemma rows_alike {A} f g (l : list A) : (forall a, meet alike (f a) (g a)) -> meet alike (walk_rows f l) (walk_rows g l).
Proof. intros H. unfold walk_rows. eapply meet_map; [apply meet_mapM; exact H|]. intros x y F. apply alike_concat. exact F. Qed.
Lemma walks_alike truths b b' figsize convolve pw pp lw file : base_like b b' ->
  meet same_content (walks_figure log10 max_points cfg truths b figsize convolve pw pp lw file) (walks_figure log10 max_points cfg' truths b' figsize convolve pw pp lw file).
Proof.
  intros [B1 [B2 B3]]. unfold walks_figure. cbv zeta. rewrite B1, B2. eapply meet_bind; [apply meet_refl|]. intros _ _ _.
  eapply (meet_bind (Forall2 (Forall2 alike))).
  - destruct (_ && _); [|apply meet_ok; constructor]. eapply meet_map; [|intros x y H; repeat constructor; exact H]. unfold posterior_row. apply rows_alike. intros cf. destruct (log_posterior (fst cf) (snd cf)) as [p|]; [|apply meet_ok; reflexivity].
    destruct p as [|x r]; [intros ? ? X; discriminate X|]. eapply meet_bind; [apply meet_refl|]. intros ? ? <-. apply walk_alike.
  - intros r1 r1' R1. eapply (meet_bind (Forall2 (Forall2 alike))).
    + destruct pw; [|apply meet_ok; constructor]. eapply meet_map; [|intros x y H; repeat constructor; exact H]. unfold weight_row. apply rows_alike. intros cf. eapply meet_bind; [apply meet_refl|]. intros w w' <-. eapply meet_bind; [apply meet_refl|]. intros c c' <-. apply walk_alike.
    + intros r2 r2' R2. eapply (meet_bind (Forall2 (Forall2 alike))).
      * apply meet_mapM. intros p. eapply (meet_map alike); [|intros x y H; repeat constructor; exact H]. unfold column_row. rewrite B1, B3. eapply (meet_bind alike).
        { apply rows_alike. intros cf. destruct (smem p (data_columns (fst cf) (snd cf))); [|apply meet_ok; reflexivity]. eapply meet_bind; [apply meet_refl|]. intros d d' <-. eapply meet_bind; [apply meet_refl|]. intros c c' <-. apply walk_alike. }
        intros x y XY. apply meet_ok. repeat (apply alike_app); try assumption; try reflexivity. apply alike_nil; bare.
      * intros r3 r3' R3. apply meet_ok. unfold same_content. cbn [fg_size fg_axes fg_bars fg_saved]. split; [reflexivity|]. split; [apply contents_eq; repeat apply Forall2_app; assumption|]. split; [reflexivity|apply saved_names].
Qed.
Lemma contents_flat l l' : Forall2 alike l l' -> forall fuel w, Forall2 (Forall2 alike) (rows_of fuel w l) (rows_of fuel w l').
Proof.
  intros F fuel. revert l l' F. induction fuel as [|fuel IH]; intros l l' F w; [constructor|]. cbn [rows_of]. destruct F as [|x y l l' H F]; [constructor|]. assert (G : Forall2 alike (x :: l) (y :: l')) by (constructor; assumption). clear H F.
  assert (FS : Forall2 alike (firstn w (x :: l)) (firstn w (y :: l')) /\ Forall2 alike (skipn w (x :: l)) (skipn w (y :: l'))).
  { clear IH. revert w. induction G as [|a c m m' H G IH]; intros [|w]; cbn [firstn skipn]; (split; try constructor); auto; try apply (IH w). }
  constructor; [apply FS|apply IH; apply FS].
Qed.
Lemma distributions_alike truths b b' wrap figsize file : base_like b b' ->
  meet same_content (distributions_figure num filled cfg truths b wrap figsize file) (distributions_figure num filled cfg' truths b' wrap figsize file).
Proof.
  intros [B1 [B2 B3]]. unfold distributions_figure. cbv zeta. rewrite B1, B2. destruct (wrap =? 0)%Z; [intros ? ? X; discriminate X|]. destruct (match figsize with SizeNum q => Qeq_bool q 0 | _ => false end); [intros ? ? X; discriminate X|].
  eapply meet_bind; [apply meet_refl|]. intros _ _ _. eapply (meet_bind (Forall2 alike)).
  - apply meet_mapM. intros p. unfold distribution_panel. cbv zeta. rewrite B1, B3. eapply meet_bind; [apply meet_refl|]. intros xl xl' <-. eapply meet_bind; [apply panel_alike|]. intros o o' [O1 O2]. rewrite O2. destruct (snd o); [|intros ? ? X; discriminate X].
    apply meet_ok. repeat (apply alike_app); try reflexivity; try exact O1; apply alike_nil; bare.
  - intros ps ps' F. apply meet_ok. unfold same_content. cbn [fg_size fg_axes fg_bars fg_saved]. split; [reflexivity|]. split; [|split; [reflexivity|apply saved_names]]. apply contents_eq. apply contents_flat. apply Forall2_app; [exact F|].
    match goal with |- Forall2 _ (repeat ?x ?n) _ => induction n; [constructor|constructor; [reflexivity|assumption]] end.
Qed.
Definition cell_alike (o o' : list call * option Q) : Prop := alike (fst o) (fst o') /\ snd o' = snd o.
Lemma cell_ok truths b b' err i cf colour p : base_like b b' -> meet cell_alike (summary_panel num cfg truths b err i cf colour p) (summary_panel num cfg' truths b' err i cf colour p).
Proof.
  intros [B1 [B2 B3]]. unfold summary_panel. cbv zeta. rewrite B1, B3. eapply meet_bind; [apply meet_refl|]. intros xl xl' <-. match goal with |- context [if negb ?c then Ok (?a, None) else _] => set (fr := a) end. match goal with |- meet _ _ (if _ then Ok (?a, None) else _) => set (fr' := a) end.
  assert (F : alike fr fr'). { unfold fr, fr'. repeat (apply alike_app); try reflexivity; apply alike_nil; bare. } clearbody fr fr'.
  destruct (negb _); [apply meet_ok; split; [exact F|reflexivity]|]. destruct err.
  - eapply meet_bind; [apply meet_refl|]. intros v v' <-. apply meet_ok. split; [|reflexivity]. cbn [fst]. apply alike_app; [exact F|reflexivity].
  - eapply meet_map; [apply bars_alike|]. intros o o' [O1 O2]. split; cbn [fst snd]; [apply alike_app; assumption|congruence].
Qed.
Lemma max_vals_same cols rows rows' : Forall2 (Forall2 cell_alike) rows rows' -> max_vals cols rows' = max_vals cols rows.
Proof.
  unfold max_vals. generalize (@nil (string * Q)). intros acc F. revert acc. induction F as [|r r' m m' H _ IH]; intros acc; [reflexivity|]. cbn [fold_left]. assert (E : map snd (tl r') = map snd (tl r)).
  { destruct H as [|x y r r' _ H]; [reflexivity|]. cbn [tl]. induction H as [|a c l l' [_ X] _ IHl]; [reflexivity|]. cbn [map]. congruence. }
  rewrite E. apply IH.
Qed.
Lemma scale_alike cols mv r r' : Forall2 alike r r' -> meet (Forall2 alike) (scale_row cols mv r) (scale_row cols mv r').
Proof.
  intros F. unfold scale_row. assert (L : length r' = length r) by (clear -F; induction F; cbn; congruence). eapply (meet_map eq).
  - assert (E : forall g, (forall a c p, g (a : list call, p : string) = g (c, p) :> res (list call)) -> rmapM g (combine r cols) = rmapM g (combine r' cols)).
    { intros g G. clear -F G. revert cols. induction F as [|a c r r' _ _ IH]; intros [|p cols]; try reflexivity. cbn [combine rmapM]. rewrite (G a c p), IH. reflexivity. }
    match goal with |- meet _ (rmapM ?g _) _ => rewrite (E g (fun _ _ _ => eq_refl)) end. apply meet_refl.
  - intros lims ? <-. rewrite L. generalize (lims ++ repeat [] (length r - length lims)). clear L. induction F as [|a c r r' H _ IH]; intros [|x xs]; cbn [combine map]; constructor; [apply alike_app; [exact H|reflexivity]|apply IH].
Qed.
Lemma summary_alike truths b b' figsize err es vs file : base_like b b' ->
  meet same_content (summary_figure num text_width cfg truths b figsize err es vs file) (summary_figure num text_width cfg' truths b' figsize err es vs file).
Proof.
  intros B. pose proof B as [B1 [B2 B3]]. unfold summary_figure. rewrite B1, B2. eapply meet_bind; [apply meet_refl|]. intros mp ? <-. eapply meet_bind; [apply meet_refl|]. intros mm ? <-. cbv zeta. destruct (Qeq_bool _ 0); [intros ? ? X; discriminate X|].
  eapply meet_bind; [apply meet_refl|]. intros _ _ _. eapply (meet_bind (Forall2 (Forall2 cell_alike))).
  - apply meet_mapM. intros [i cf]. unfold summary_row. rewrite B2. eapply meet_bind; [apply meet_refl|]. intros c ? <-. eapply meet_map; [apply meet_mapM; intros p; apply cell_ok; exact B|]. intros x y F. constructor; [split; reflexivity|exact F].
  - intros rows rows' F. assert (FF : Forall2 (Forall2 alike) (map (map fst) rows) (map (map fst) rows')).
    { clear -F. induction F as [|r r' m m' H _ IH]; cbn [map]; constructor; [|exact IH]. clear -H. induction H as [|x y r r' [X _] _ IH]; cbn [map]; constructor; assumption. }
    eapply (meet_bind (Forall2 (Forall2 alike))).
    + destruct err; [apply meet_ok; exact FF|]. rewrite (max_vals_same _ _ _ F). generalize (max_vals (pb_columns b) rows). intros mv. clear -FF. revert rows' FF. induction rows as [|r rows IH]; intros [|r' rows'] FF; cbn [map] in FF; try (inversion FF; fail); [apply meet_ok; constructor|].
      inversion FF as [|x y l l' H K]; subst. cbn [rmapM]. eapply meet_bind; [apply scale_alike; exact H|]. intros x y XY. eapply meet_bind; [apply IH; exact K|]. intros xs ys XS. apply meet_ok. constructor; assumption.
    + intros ax ax' A. apply meet_ok. unfold same_content. cbn [fg_size fg_axes fg_bars fg_saved]. split; [reflexivity|]. split; [apply contents_eq; exact A|]. split; [reflexivity|apply saved_names].
Qed.
End others.
