(** Lemmas for C106. *)
From Coq Require Import String List Bool Arith ZArith QArith Qabs Lia Permutation.
From Verif Require Import Py NumSpec NumModel NumFacts HelpersSpec HelpersModel MarginalModel FrameModel ConfigModel ChainModel ChainSpec RegistryModel RegistrySpec RegistryProofs TextModel AnalysisModel AnalysisSpec SurfaceModel FigureModel FigureSpec
  ConsumerProofs EquivSpec EquivFacts EquivProofs EquivApi AxisEquivSpec AxisEquivProofs TextEquivSpec TextEquivProofs KeywordSpec SessionProofs FigEquivSpec.
From Verif Require FrameFacts RegistryProps AnalysisProofs CovEquivProofs KeywordProps.
From Coq Require Import Lqa.
Import ListNotations.
Open Scope string_scope.
Open Scope list_scope.
Open Scope Q_scope.

(** ** Numbers and lists *)
Lemma aff_id x x' : aff 1 0 x x' -> x' == x.
Proof. unfold aff. intros ->. ring. Qed.
Lemma id_aff x x' : x' == x -> aff 1 0 x x'.
Proof. unfold aff. intros ->. ring. Qed.
Lemma lin_same l l' : lin 1 0 l l' -> same_numbers l l'.
Proof. intros L. unfold lin, same_numbers in *. induction L as [|x x' l l' X L IH]; constructor; [apply aff_id; exact X|exact IH]. Qed.
Lemma lin_unit s l l' : s == 1 -> lin s 0 l l' -> lin 1 0 l l'.
Proof. intros S L. unfold lin in *. induction L as [|x x' l l' X L IH]; constructor; [unfold aff in *; rewrite X, S; reflexivity|exact IH]. Qed.
Lemma same_refl c : same_call c c.
Proof.
  assert (N : forall l, same_numbers l l) by (intros l; induction l; constructor; [reflexivity|assumption]).
  destruct c; cbn; repeat split; try reflexivity; apply N.
Qed.
Lemma calls_refl l : Forall2 same_call l l.
Proof. induction l; constructor; [apply same_refl|assumption]. Qed.
Lemma mapM_rrel {A B C D} (R : A -> B -> Prop) (T : C -> D -> Prop) g g' l l' : Forall2 R l l' -> (forall x y, In x l -> R x y -> rrel T (g x) (g' y)) -> rrel (Forall2 T) (rmapM g l) (rmapM g' l').
Proof.
  intros F. induction F as [|x y l l' X F IH]; intros H; [constructor|]. cbn [rmapM]. pose proof (H x y (or_introl eq_refl) X) as E. specialize (IH (fun u v I => H u v (or_intror I))).
  destruct (g x) as [u|e], (g' y) as [u'|e']; cbn in E; try contradiction; [|exact E]. cbn [rbind]. destruct (rmapM g l) as [r|e], (rmapM g' l') as [r'|e']; cbn in IH; try contradiction; [|exact IH]. cbn. constructor; assumption.
Qed.
Lemma mapM_same {A C D} (T : C -> D -> Prop) g g' (l : list A) : (forall x, In x l -> rrel T (g x) (g' x)) -> rrel (Forall2 T) (rmapM g l) (rmapM g' l).
Proof. intros H. apply (mapM_rrel (fun x y => y = x)); [clear; induction l; constructor; auto|]. intros x y I ->. apply H. exact I. Qed.
Lemma filter_rel {A} (R : A -> A -> Prop) g l l' : Forall2 R l l' -> (forall x y, R x y -> g y = g x) -> Forall2 R (filter g l) (filter g l').
Proof. intros F H. induction F as [|x y l l' X F IH]; [constructor|]. cbn [filter]. rewrite (H x y X). destruct (g x); [constructor; assumption|exact IH]. Qed.
Lemma map_rel {A B C D} (R : A -> B -> Prop) (T : C -> D -> Prop) g g' l l' : Forall2 R l l' -> (forall x y, R x y -> T (g x) (g' y)) -> Forall2 T (map g l) (map g' l').
Proof. intros F H. induction F; constructor; auto. Qed.
Lemma concat_rel {A B} (R : A -> B -> Prop) l l' : Forall2 (Forall2 R) l l' -> Forall2 R (concat l) (concat l').
Proof. intros F. induction F as [|x y l l' X F IH]; [constructor|]. cbn [concat]. apply Forall2_app; assumption. Qed.
Lemma length_rel {A B} (R : A -> B -> Prop) l l' : Forall2 R l l' -> length l' = length l.
Proof. intros F. induction F; cbn; congruence. Qed.
Lemma combine_rel {A B C} (R : A -> B -> Prop) (k : list C) l l' : Forall2 R l l' -> Forall2 (fun x y => fst y = fst x /\ R (snd x) (snd y)) (combine k l) (combine k l').
Proof. intros F. revert k. induction F as [|x y l l' X F IH]; intros [|c k]; cbn [combine]; constructor; [split; [reflexivity|exact X]|apply IH]. Qed.
Lemma firstn_rel {A B} (R : A -> B -> Prop) n l l' : Forall2 R l l' -> Forall2 R (firstn n l) (firstn n l').
Proof. intros F. revert n. induction F; intros [|n]; cbn; constructor; auto. Qed.
Lemma skipn_rel {A B} (R : A -> B -> Prop) n l l' : Forall2 R l l' -> Forall2 R (skipn n l) (skipn n l').
Proof. intros F. revert n. induction F as [|x y l l' X F IH]; intros [|n]; cbn [skipn]; try constructor; auto. Qed.
Lemma rows_rel {A B} (R : A -> B -> Prop) w k l l' : Forall2 R l l' -> Forall2 (Forall2 R) (rows_of k w l) (rows_of k w l').
Proof. revert l l'. induction k as [|k IH]; intros l l' F; [constructor|]. destruct F as [|x y l l' X F]; [constructor|]. cbn [rows_of]. constructor; [apply firstn_rel|apply IH, skipn_rel]; constructor; assumption. Qed.

(** ** One chain *)
Lemma has_same c f f' num cols p : same_table num c f f' cols -> f_has f' p = f_has f p.
Proof.
  intros [E _]. unfold f_has, f_get. destruct (col_get (CStr p) (f_cols f)) as [l|] eqn:G, (col_get (CStr p) (f_cols f')) as [l'|] eqn:G'; try reflexivity; exfalso.
  - apply FrameFacts.col_get_None in G'. apply G'. rewrite E. apply FrameFacts.col_get_In in G. apply (in_map fst) in G. exact G.
  - apply FrameFacts.col_get_None in G. apply G. rewrite <- E. apply FrameFacts.col_get_In in G'. apply (in_map fst) in G'. exact G'.
Qed.
Lemma whole c f p d : frame_wf f -> sample c f p d -> whole_sample c f p d.
Proof.
  intros [_ WF] [x [w [X [W E]]]]. exists x, w. split; [exact X|]. split; [exact W|]. split; [|exact E]. rewrite (WF _ _ (FrameFacts.f_get_In _ _ _ X)), (WF _ _ (FrameFacts.f_get_In _ _ _ W)). reflexivity.
Qed.
Definition qpair (e e' : Q * Q) : Prop := aff 1 0 (fst e) (fst e') /\ aff 1 0 (snd e) (snd e').
Definition qout (o o' : list call * Q) : Prop := Forall2 same_call (fst o) (fst o') /\ aff 1 0 (snd o) (snd o').

Section one.
Variables (num : numerics) (cols : list string).

Lemma extent_rel wide p cf cf' : In p cols -> drawn_alike num cols cf cf' -> rrel (orel qpair) (chain_extent num wide p cf) (chain_extent num wide p cf').
Proof.
  destruct cf as [c f], cf' as [c' f']. intros HI [E [PW [WF [WF' [T X]]]]]. cbn [fst snd] in *. subst c'. unfold chain_extent. rewrite (has_same c f f' num cols p T). destruct (f_has f p) eqn:H; cbn [negb]; [|exact I].
  destruct T as [_ [_ [k T]]]. destruct (T p HI H) as [_ [d [d' [D [D' [N S]]]]]]. destruct (whole_values _ _ _ _ (whole _ _ _ _ WF D)) as [x [w [GX [GW [ED EX]]]]]. destruct (whole_values _ _ _ _ (whole _ _ _ _ WF' D')) as [x' [w' [GX' [GW' [ED' EX']]]]]. rewrite GX, GX', GW, GW'. cbn [rbind].
  assert (A1 : 0 < 1) by reflexivity. destruct (ch_cfg c Fplot_contour || ch_cfg c Fplot_cloud) eqn:PE.
  - destruct (ch_grid c).
    + pose proof (empty_iff 1 0 k d d' A1 S) as EI. destruct x as [|v r]; [destruct d; [contradiction N; reflexivity|discriminate]|]. destruct x' as [|v' r']; [destruct d'; [contradiction N; apply EI; reflexivity|discriminate]|]. cbn [rrel orel]. split; cbn [fst snd].
      * apply (min_aff 1 0 k d d' A1 S); [rewrite EX|rewrite EX']; split; apply qmin_list_spec.
      * apply (max_aff 1 0 k d d' A1 S); [rewrite EX|rewrite EX']; split; apply qmax_list_spec.
    + rewrite <- ED, <- ED'. pose proof (extents_aff 1 0 k d d' A1 S (or_introl (Qeq_refl 1)) N (n_bins num) true wide false false) as R. destruct (get_extents (n_bins num) d true wide false false), (get_extents (n_bins num) d' true wide false false); cbn in R |- *; try contradiction; exact R.
  - destruct X as [[X|X]|X]; [rewrite X in PE; discriminate|rewrite X, Bool.orb_true_r in PE; discriminate|]. rewrite X. destruct (get_max_posterior_point c f) as [[[lp co]|]|e]; cbn [rbind rrel]; try reflexivity. destruct (dget p co); [split; apply aff1|exact I].
Qed.
Lemma hull_rel a a' b b' : orel qpair a a' -> orel qpair b b' -> orel qpair (hull a b) (hull a' b').
Proof.
  intros A B. destruct a as [[l u]|], a' as [[l' u']|]; cbn in A; try contradiction; [|destruct b as [[m v]|], b' as [[m' v']|]; exact B]. destruct b as [[m v]|], b' as [[m' v']|]; cbn in B; try contradiction; [|exact A].
  destruct A as [A1 A2], B as [B1 B2]. cbn [hull orel]. split; cbn [fst snd] in *; [apply aff_min|apply aff_max]; try assumption; reflexivity.
Qed.
Lemma extents_rel wide p l l' acc acc' : In p cols -> Forall2 (drawn_alike num cols) l l' -> orel qpair acc acc' -> rrel (orel qpair) (get_parameter_extents num wide p l acc) (get_parameter_extents num wide p l' acc').
Proof.
  intros HI F. revert acc acc'. induction F as [|cf cf' l l' X F IH]; intros acc acc' A; [exact A|]. cbn [get_parameter_extents]. eapply rrel_bind; [apply extent_rel; eassumption|]. intros e e' E. apply IH. apply hull_rel; assumption.
Qed.
Definition drel {X} (R : X -> X -> Prop) : dict X -> dict X -> Prop := Forall2 (fun e e' => fst e' = fst e /\ R (snd e) (snd e')).
Lemma custom_rel wide init l l' ps : Forall2 (drawn_alike num cols) l l' -> (forall p, In p ps -> In p cols) -> rrel (drel (orel qpair)) (get_custom_extents num wide init l ps) (get_custom_extents num wide init l' ps).
Proof.
  intros F S. unfold get_custom_extents. assert (A : drel (orel qpair) (map (fun kv => (fst kv, Some (snd kv))) init) (map (fun kv => (fst kv, Some (snd kv))) init)) by (induction init; constructor; [split; [reflexivity|split; apply aff1]|assumption]).
  revert A. generalize (map (fun kv : string * (Q * Q) => (fst kv, Some (snd kv))) init) at 1 3. generalize (map (fun kv : string * (Q * Q) => (fst kv, Some (snd kv))) init). intros acc' acc A. revert acc acc' A. induction ps as [|p ps IH]; intros acc acc' A; [exact A|]. cbn [custom_extents_loop].
  destruct (dmem p init); [apply IH; [intros q Q0; apply S; right; exact Q0|exact A]|]. eapply rrel_bind; [apply (extents_rel wide p l l' None None); [apply S; left; reflexivity|exact F|exact I]|]. intros e e' E. apply IH; [intros q Q0; apply S; right; exact Q0|]. apply (dset_rel (orel qpair)); assumption.
Qed.
Lemma limits_rel d o o' : orel (orel qpair) o o' -> rrel (Forall2 same_call) (set_limits d o) (set_limits d o').
Proof.
  destruct o as [[[l u]|]|], o' as [[[l' u']|]|]; cbn; try contradiction; try reflexivity. intros [A B]. cbn in *. repeat constructor; apply aff_id; assumption.
Qed.

(** ** Bars *)
Lemma in_range_rel xs xs' lo lo' hi hi' : lin 1 0 xs xs' -> aff 1 0 lo lo' -> aff 1 0 hi hi' -> in_range xs' lo' hi' = in_range xs lo hi.
Proof.
  intros X L H. destruct X as [|x x' xs xs' E X]; [reflexivity|]. cbn [in_range]. cbv zeta. assert (P : 0 < 1) by reflexivity. pose proof (qmin_list_lin 1 0 x x' xs xs' P X E) as M. pose proof (qmax_list_lin 1 0 x x' xs xs' P X E) as M'.
  rewrite (leb_aff 1 0 _ _ _ _ P M L), (leb_aff 1 0 _ _ _ _ P L M'), (leb_aff 1 0 _ _ _ _ P M H), (leb_aff 1 0 _ _ _ _ P H M'). reflexivity.
Qed.
Definition outlined (o o' : call * list Q * list Q) : Prop := same_call (fst (fst o)) (fst (fst o')) /\ lin 1 0 (snd (fst o)) (snd (fst o')) /\ lin 1 0 (snd o) (snd o').
Lemma outline_rel c f f' p flip : In p cols -> f_has f p = true -> drawn_alike num cols (c, f) (c, f') -> rrel outlined (bar_outline num c f p flip) (bar_outline num c f' p flip).
Proof.
  intros HI H [_ [PW [WF [WF' [[_ [B [k T]]] _]]]]]. cbn [fst snd] in *. destruct (T p HI H) as [K [d [d' [D [D' [N S]]]]]]. assert (A1 : 0 < 1) by reflexivity.
  assert (SC : forall l l', lin 1 0 l l' -> lin 1 0 (map (fun y => y * ch_relheight c) l) (map (fun y => y * ch_relheight c) l')) by (intros l l' L; apply (lin_map2 1 0); [exact L|]; intros x x' _ X; apply id_aff; apply aff_id in X; rewrite X; reflexivity).
  destruct (api_marginal1 1 0 k num c f f' p d d' A1 PW B D D' S (or_introl (Qeq_refl 1)) N (or_intror (conj (Qeq_refl 1) (conj (Qeq_refl 0) K))) true) as [s [_ [S1 M]]]. specialize (S1 (Qeq_refl 1)).
  destruct (whole_values _ _ _ _ (whole _ _ _ _ WF D)) as [x [w [GX [GW [ED EX]]]]]. destruct (whole_values _ _ _ _ (whole _ _ _ _ WF' D')) as [x' [w' [GX' [GW' [ED' EX']]]]]. unfold bar_outline. rewrite GX, GX'. cbn [rbind]. cbv zeta.
  destruct (negb _ || kde_on _).
  - eapply rrel_bind; [exact M|]. intros m m' [MX MY _ _ _ _]. cbn [rrel]. apply (lin_unit s) in MY; [|exact S1]. apply SC in MY. split; [|split; assumption]. cbn. repeat split; apply lin_same; assumption.
  - rewrite GW, GW'. cbn [rbind]. rewrite <- ED, <- ED'. eapply (rrel_bind (lin 1 0)).
    + destruct (ch_grid c); [rewrite <- EX, <- EX'; apply (grid_bins_aff 1 0 k d d' A1 S)|].
      replace (get_bins (ch_cfg c Fbins) (ch_cfg c Fsmooth) false (f_rows f') (length (f_cols f'))) with (get_bins (ch_cfg c Fbins) (ch_cfg c Fsmooth) false (f_rows f) (length (f_cols f))).
      2: { unfold get_bins. destruct B as [B|[-> ->]]; [|reflexivity]. destruct (ch_cfg c Fbins); [reflexivity|contradiction B; reflexivity]. }
      match goal with |- rrel _ (rmap fst (get_smoothed_bins ?n ?sv ?bn d ?pl ?pa)) _ => pose proof (smoothed_bins_aff 1 0 k d d' A1 S (or_introl (Qeq_refl 1)) N n sv bn pl pa) as R end. destruct (get_smoothed_bins _ _ _ d _ _), (get_smoothed_bins _ _ _ d' _ _); cbn in R |- *; try contradiction; [exact (proj1 R)|exact R].
    + intros e e' E. eapply (rrel_bind (lin (/ 1) 0)); [apply (density_aff 1 0 k d d' A1 S); exact E|]. intros h h' HH. cbn [rrel]. assert (I1 : 0 < / 1) by reflexivity. apply (power_lin _ (/ 1) _ _ PW I1) in HH. apply (lin_unit (n_power num (ch_power c) (/ 1))) in HH; [|apply power_unit; [exact PW|reflexivity]]. apply SC in HH.
      split; [cbn; repeat split; apply lin_same; assumption|]. split; cbn [fst snd]; [apply bin_centers_lin; exact E|exact HH].
Qed.
Definition shaded_alike (o o' : list (Q * Q) * bounds_in) : Prop := Forall2 qpair (fst o) (fst o') /\ entry_in_units 1 0 (snd o) (snd o').
Lemma bars_rel cfg p flip summary cf cf' : In p cols -> f_has (snd cf) p = true -> drawn_alike num cols cf cf' -> rrel qout (plot_bars num cfg p flip summary cf) (plot_bars num cfg p flip summary cf').
Proof.
  destruct cf as [c f], cf' as [c' f']. intros HI H DA. assert (E : c' = c) by exact (proj1 DA). subst c'. cbn [snd] in H. pose proof (outline_rel c f f' p flip HI H DA) as OU.
  destruct DA as [_ [PW [WF [WF' [[_ [B [k T]]] _]]]]]. cbn [fst snd] in *. destruct (T p HI H) as [K [d [d' [D [D' [N S]]]]]]. assert (A1 : 0 < 1) by reflexivity. clear T WF WF'.
  assert (KD : kde_on (ch_cfg c Fkde) = false \/ 1 == 1 /\ 0 == 0 /\ same_kde num c f f' p) by (right; split; [reflexivity|split; [reflexivity|exact K]]).
  pose proof (api_summary 1 0 k num c f f' p d d' A1 PW B D D' S (or_introl (Qeq_refl 1)) N KD (or_intror (Qeq_refl 1))) as SU.
  pose proof (api_intervals 1 0 k num c f f' p d d' A1 PW B D D' S (or_introl (Qeq_refl 1)) N KD (Qeq_refl 1)) as IV.
  pose proof (api_modes 1 0 k num c f f' p d d' A1 PW B D D' S (or_introl (Qeq_refl 1)) N KD) as MO.
  unfold plot_bars. eapply rrel_bind; [exact OU|]. intros [[o xs] ys] [[o' xs'] ys'] [O1 [O2 O3]]. cbn [fst snd] in O1, O2, O3.
  eapply (rrel_bind (Forall2 same_call)).
  2: { intros sh sh' SH. destruct O3 as [|y y' ys ys' Y O3]; [reflexivity|]. cbn [rrel]. split; cbn [fst snd]; [constructor; assumption|apply qmax_list_lin; assumption]. }
  destruct (ch_cfg c Fbar_shade); [|constructor]. eapply rrel_bind; [exact SU|]. intros u u' [UL [UC UU]].
  destruct (b_lower u) as [lo|] eqn:EL, (b_lower u') as [lo'|] eqn:EL'; cbn in UL; try contradiction; [|constructor]. destruct (b_upper u) as [hi|] eqn:EU, (b_upper u') as [hi'|] eqn:EU'; cbn in UU; try contradiction; [|constructor].
  assert (SHR : rrel shaded_alike (shaded num c f p u lo hi xs) (shaded num c f' p u' lo' hi' xs')).
  { unfold shaded. destruct (ch_cfg c Fmultimodal).
    - eapply rrel_bind; [exact IV|]. intros iv iv' I. eapply rrel_bind; [exact (MO iv iv' I)|]. intros b b' BB. cbn [rrel]. split; cbn [fst snd]; [|exact BB]. rewrite (length_rel _ _ _ I). destruct (length iv <? 2)%nat; [constructor; [split; assumption|constructor]|exact I].
    - destruct O2 as [|x x' xs xs' X O2]; [reflexivity|]. cbn [rrel]. split; cbn [fst snd].
      + constructor; [|constructor]. split; cbn [fst snd]; [apply aff_max|apply aff_min]; try assumption; [apply qmin_list_lin|apply qmax_list_lin]; assumption.
      + split; [rewrite EL, EL'; exact UL|]. split; [exact UC|rewrite EU, EU'; exact UU]. }
  eapply rrel_bind; [exact SHR|]. intros sh sh' [S1 S2]. eapply (rrel_bind (Forall2 same_call)).
  - apply (mapM_rrel qpair); [exact S1|]. intros iv iv' _ [V1 V2]. rewrite (in_range_rel _ _ _ _ _ _ O2 V1 V2). destruct (in_range xs (fst iv) (snd iv)); [|reflexivity]. cbn. repeat split; try (apply aff_id; assumption); apply lin_same; assumption.
  - intros fl fl' FL. eapply (rrel_bind (Forall2 same_call)).
    + destruct summary; [|constructor]. rewrite (text_eq _ _ true (Some (strip_dollar (label_of cfg p))) S2). destruct (get_parameter_text (snd sh) true _) as [t|e]; [|reflexivity]. cbn [rmap rbind rrel]. apply calls_refl.
    + intros ti ti' TI. cbn [rrel]. apply Forall2_app; assumption.
Qed.
Definition qpanel (o o' : list call * option Q) : Prop := Forall2 same_call (fst o) (fst o') /\ orel (aff 1 0) (snd o) (snd o').
Lemma tallest_rel l l' : lin 1 0 l l' -> orel (aff 1 0) (tallest l) (tallest l').
Proof. intros L. destruct L as [|x x' l l' X L]; [exact I|]. cbn. apply qmax_list_lin; [reflexivity|exact L|exact X]. Qed.
Lemma panel_rel cfg p flip summary l l' : In p cols -> (forall cf, In cf l -> f_has (snd cf) p = true) -> Forall2 (drawn_alike num cols) l l' -> rrel qpanel (bars_panel num cfg p flip summary l) (bars_panel num cfg p flip summary l').
Proof.
  intros HI H F. unfold bars_panel. assert (R : rrel (Forall2 qout) (rmapM (plot_bars num cfg p flip summary) l) (rmapM (plot_bars num cfg p flip summary) l')) by (apply (mapM_rrel (drawn_alike num cols)); [exact F|]; intros x y I X; apply bars_rel; [exact HI|apply H; exact I|exact X]).
  destruct (rmapM _ l) as [r|e], (rmapM _ l') as [r'|e']; cbn in R; try contradiction; [|exact R]. cbn [rmap rbind rrel]. split; cbn [fst snd].
  - apply concat_rel. apply (map_rel qout); [exact R|]. intros x y [X _]. exact X.
  - apply tallest_rel. apply (map_rel qout); [exact R|]. intros x y [_ X]. exact X.
Qed.
Lemma columns_same c f f' : same_table num c f f' cols -> plotting_columns c f' = plotting_columns c f.
Proof. intros [E _]. apply table_columns. exact E. Qed.
Lemma data_columns_same c f f' : same_table num c f f' cols -> data_columns c f' = data_columns c f.
Proof. intros [E _]. unfold data_columns, f_names. rewrite (FrameFacts.str_labels_ext _ _ E). reflexivity. Qed.

(** ** Figures *)
Record base_alike (b b' : plot_base) : Prop := {
  ba_chains : Forall2 (drawn_alike num cols) (pb_chains b) (pb_chains b'); ba_cols : pb_columns b' = pb_columns b; ba_in : forall p, In p (pb_columns b) -> In p cols;
  ba_ext : drel (orel qpair) (pb_extents b) (pb_extents b'); ba_blind : pb_blind b' = pb_blind b; ba_logs : pb_logs b' = pb_logs b }.
Lemma ext_rel p (d d' : dict extent) : drel (orel qpair) d d' -> orel (orel qpair) (dget p d) (dget p d').
Proof. intros E. exact (dget_rel (orel qpair) p d d' E). Qed.
Lemma plotted_has c f p : smem p (plotting_columns c f) = true -> f_has f p = true.
Proof.
  intros M. apply smem_In in M. unfold plotting_columns in M. assert (I : In p (f_names f)).
  { cbv zeta in M. unfold data_columns in M. destruct (negb (ch_cfg c Fplot_cloud)); repeat (apply filter_In in M as [M _]); exact M. }
  apply FrameFacts.f_has_names. exact I.
Qed.
Lemma rmap_rel {A B C D} (R : A -> B -> Prop) (T : C -> D -> Prop) g g' r r' : rrel R r r' -> (forall x y, R x y -> T (g x) (g' y)) -> rrel T (rmap g r) (rmap g' r').
Proof. intros F H. destruct r, r'; cbn in F |- *; try contradiction; [apply H; exact F|exact F]. Qed.

Section figures.
Variables (filled : string -> bool) (cfg : plot_config) (truths : list truth) (b b' : plot_base).
Hypothesis BA : base_alike b b'.

Lemma chains_length : length (pb_chains b') = length (pb_chains b).
Proof. exact (length_rel _ _ _ (ba_chains _ _ BA)). Qed.
Lemma distribution_panel_rel summary p : In p (pb_columns b) -> rrel (Forall2 same_call) (distribution_panel num filled cfg truths b summary p) (distribution_panel num filled cfg truths b' summary p).
Proof.
  intros HP. destruct BA as [CH CO IN EX BL LG]. unfold distribution_panel. cbv zeta. rewrite BL, LG. eapply (rrel_bind (Forall2 same_call)).
  - pose proof (ext_rel p _ _ EX) as E. destruct (dget p (pb_extents b)) as [e|], (dget p (pb_extents b')) as [e'|]; cbn in E; try contradiction; [apply limits_rel; exact E|]. eapply rrel_bind; [apply (extents_rel true p _ _ None None (IN p HP) CH I)|]. intros e e' E'. apply limits_rel. exact E'.
  - intros xl xl' XL. eapply (rrel_bind qpanel).
    + apply panel_rel; [apply IN; exact HP| |].
      * intros [c f] HI. apply filter_In in HI as [_ HI]. apply andb_true_iff in HI as [_ HI]. cbn [fst snd] in *. exact (plotted_has _ _ _ HI).
      * apply filter_rel; [exact CH|]. intros [c f] [c' f'] [E [_ [_ [_ [T _]]]]]. cbn [fst snd] in *. subst c'. rewrite (columns_same c f f' T). reflexivity.
    + intros o o' [O1 O2]. destruct (snd o) as [m|], (snd o') as [m'|]; cbn in O2; try contradiction; [|reflexivity]. cbn [rrel].
      repeat (apply Forall2_app; try exact (calls_refl _)); try assumption. constructor; [|constructor; [apply same_refl|constructor]]. cbn [same_call]. split; [reflexivity|]. split; [reflexivity|]. apply aff_id in O2. rewrite O2. reflexivity.
Qed.
Lemma distributions_rel wrap size file : rrel same_figure (distributions_figure num filled cfg truths b wrap size file) (distributions_figure num filled cfg truths b' wrap size file).
Proof.
  unfold distributions_figure. cbv zeta. rewrite (ba_cols _ _ BA), chains_length. destruct (wrap =? 0)%Z; [reflexivity|]. destruct (match size with SizeNum q => Qeq_bool q 0 | _ => false end); [reflexivity|].
  destruct (subplots _ _ _) as [[]|e]; [|reflexivity]. cbn [rbind]. eapply (rrel_bind (Forall2 (Forall2 same_call))).
  - apply mapM_same. intros p HP. apply distribution_panel_rel. exact HP.
  - intros ps ps' PS. cbn [rrel]. split; [reflexivity|]. split; [|repeat split]. cbn [fg_axes]. apply rows_rel. apply Forall2_app; [exact PS|]. match goal with |- Forall2 _ ?l _ => generalize l end. intros l. induction l; constructor; [apply calls_refl|assumption].
Qed.

Lemma summary_panel_rel errorbar i cf cf' colour p : In p (pb_columns b) -> drawn_alike num cols cf cf' -> rrel qpanel (summary_panel num cfg truths b errorbar i cf colour p) (summary_panel num cfg truths b' errorbar i cf' colour p).
Proof.
  intros HP DA. destruct cf as [c f], cf' as [c' f']. assert (E : c' = c) by exact (proj1 DA). subst c'. pose proof chains_length as CL. destruct BA as [CH CO IN EX BL LG]. unfold summary_panel. cbv zeta. rewrite BL, LG, CL. cbn [fst snd].
  eapply rrel_bind; [apply limits_rel, ext_rel; exact EX|]. intros xl xl' XL. assert (T : same_table num c f f' cols) by exact (proj1 (proj2 (proj2 (proj2 (proj2 DA))))). rewrite (data_columns_same c f f' T).
  match goal with |- rrel _ (if _ then Ok (?a, None) else _) (if _ then Ok (?a', None) else _) => assert (FC : Forall2 same_call a a') by (repeat (apply Forall2_app; try exact (calls_refl _)); assumption); generalize dependent a; generalize dependent a' end. intros a' a FC.
  destruct (smem p (data_columns c f)) eqn:M; cbn [negb]; [|split; [exact FC|exact I]]. assert (H : f_has f p = true) by (apply FrameFacts.f_has_names; apply smem_In in M; unfold data_columns in M; apply filter_In in M as [M _]; exact M). destruct errorbar.
  - destruct DA as [_ [PW [WF [WF' [[_ [B [k T']]] _]]]]]. cbn [fst snd] in *. destruct (T' p (IN p HP) H) as [K [d [d' [D [D' [N S]]]]]]. assert (A1 : 0 < 1) by reflexivity.
    assert (KD : kde_on (ch_cfg c Fkde) = false \/ 1 == 1 /\ 0 == 0 /\ same_kde num c f f' p) by (right; split; [reflexivity|split; [reflexivity|exact K]]).
    eapply rrel_bind; [exact (api_summary 1 0 k num c f f' p d d' A1 PW B D D' S (or_introl (Qeq_refl 1)) N KD (or_intror (Qeq_refl 1)))|]. intros u u' [UL [UC UU]]. cbn [rrel]. split; cbn [fst snd]; [|exact I]. apply Forall2_app; [exact FC|].
    destruct (b_lower u) as [lo|], (b_lower u') as [lo'|]; cbn in UL; try contradiction; [|constructor]. destruct (b_center u) as [m|], (b_center u') as [m'|]; cbn in UC; try contradiction; [|constructor]. destruct (b_upper u) as [hi|], (b_upper u') as [hi'|]; cbn in UU; try contradiction; [|constructor].
    apply aff_id in UL, UC, UU. constructor; [|constructor]. cbn [same_call]. split; [exact UC|]. split; [rewrite UC, UL; reflexivity|]. split; [rewrite UC, UU; reflexivity|reflexivity].
  - eapply rmap_rel; [apply (bars_rel cfg p false false (c, f) (c, f')); [apply IN; exact HP|exact H|exact DA]|]. intros o o' [O1 O2]. split; cbn [fst snd]; [apply Forall2_app; assumption|exact O2].
Qed.
Lemma summary_row_rel errorbar icf icf' : fst icf' = fst icf /\ drawn_alike num cols (snd icf) (snd icf') -> rrel (Forall2 qpanel) (summary_row num cfg truths b errorbar icf) (summary_row num cfg truths b' errorbar icf').
Proof.
  destruct icf as [i cf], icf' as [i' cf']. cbn [fst snd]. intros [-> DA]. unfold summary_row. rewrite (proj1 DA). destruct (chain_colour (fst cf)) as [colour|e]; [|reflexivity]. cbn [rbind]. rewrite (ba_cols _ _ BA).
  eapply rmap_rel; [apply mapM_same; intros p HP; apply (summary_panel_rel errorbar i cf cf' colour p HP DA)|]. intros ps ps' PS. constructor; [split; [apply calls_refl|exact I]|exact PS].
Qed.
Lemma max_step_rel acc acc' n o o' : drel (aff 1 0) acc acc' -> orel (aff 1 0) o o' -> drel (aff 1 0) (max_vals_step acc (n, o)) (max_vals_step acc' (n, o')).
Proof.
  intros A O. unfold max_vals_step. cbn [fst snd]. destruct o as [m|], o' as [m'|]; cbn in O; try contradiction; [|exact A]. pose proof (dget_rel (aff 1 0) n acc acc' A) as G. destruct (dget n acc) as [m0|], (dget n acc') as [m0'|]; try contradiction; [|apply (dset_rel (aff 1 0)); assumption].
  rewrite (ltb_aff 1 0 m0 m m0' m') by (try assumption; reflexivity). destruct (qltb m0 m); [apply (dset_rel (aff 1 0)); assumption|exact A].
Qed.
Lemma max_row_rel ks row row' acc acc' : Forall2 qpanel row row' -> drel (aff 1 0) acc acc' -> drel (aff 1 0) (fold_left max_vals_step (combine ks (map snd row)) acc) (fold_left max_vals_step (combine ks (map snd row')) acc').
Proof.
  intros F. revert ks acc acc'. induction F as [|x y row row' [_ X] F IH]; intros [|k ks] acc acc' A; try exact A. cbn [map combine fold_left]. apply IH. apply max_step_rel; assumption.
Qed.
Lemma tl_rel {X Y} (R : X -> Y -> Prop) l l' : Forall2 R l l' -> Forall2 R (tl l) (tl l').
Proof. intros F. destruct F; [constructor|assumption]. Qed.
Lemma max_vals_rel ks rows rows' : Forall2 (Forall2 qpanel) rows rows' -> drel (aff 1 0) (max_vals ks rows) (max_vals ks rows').
Proof.
  intros F. unfold max_vals. assert (A : drel (aff 1 0) [] []) by constructor. revert A. generalize (@nil (string * Q)) at 1 3. generalize (@nil (string * Q)). intros acc' acc A. revert acc acc' A. induction F as [|x y rows rows' X F IH]; intros acc acc' A; [exact A|]. cbn [fold_left]. apply IH. apply max_row_rel; [apply tl_rel; exact X|exact A].
Qed.
Lemma append_rel row row' (l l' : list (list call)) : Forall2 (Forall2 same_call) row row' -> Forall2 (Forall2 same_call) l l' ->
  Forall2 (Forall2 same_call) (map (fun ab => fst ab ++ snd ab) (combine row l)) (map (fun ab => fst ab ++ snd ab) (combine row' l')).
Proof. intros F. revert l l'. induction F as [|x y row row' X F IH]; intros l l' L; [constructor|]. destruct L as [|u v l l' U L]; [constructor|]. cbn [combine map fst snd]. constructor; [apply Forall2_app; assumption|apply IH; exact L]. Qed.
Lemma scale_rel ks mv mv' row row' : drel (aff 1 0) mv mv' -> Forall2 (Forall2 same_call) row row' -> rrel (Forall2 (Forall2 same_call)) (scale_row ks mv row) (scale_row ks mv' row').
Proof.
  intros MV F. unfold scale_row. rewrite (length_rel _ _ _ F). eapply (rmap_rel (Forall2 (Forall2 same_call))).
  - apply (mapM_rrel (fun x y => snd y = snd x)). { clear -F. revert ks. induction F as [|x y row row' X F IH]; intros [|k ks]; cbn [combine]; constructor; [reflexivity|apply IH]. }
    intros x y _ E. rewrite E. pose proof (dget_rel (aff 1 0) (snd x) mv mv' MV) as G. destruct (dget (snd x) mv) as [m|], (dget (snd x) mv') as [m'|]; try contradiction; [|reflexivity]. cbn. constructor; [|constructor]. cbn [same_call]. split; [reflexivity|]. split; [reflexivity|]. apply aff_id in G. rewrite G. reflexivity.
  - intros l l' L. rewrite (length_rel _ _ _ L). apply append_rel; [exact F|]. apply Forall2_app; [exact L|]. generalize (length row - length l)%nat. intros n. induction n; constructor; [constructor|assumption].
Qed.
Variable text_width : string -> Q.
Lemma names_same : map (fun cf : chain * frame => ch_name (fst cf)) (pb_chains b') = map (fun cf : chain * frame => ch_name (fst cf)) (pb_chains b).
Proof. pose proof (ba_chains _ _ BA) as F. induction F as [|x y l l' [X _] F IH]; [reflexivity|]. cbn [map]. rewrite X, IH. reflexivity. Qed.
Lemma summary_rel size errorbar es vs file : rrel same_figure (summary_figure num text_width cfg truths b size errorbar es vs file) (summary_figure num text_width cfg truths b' size errorbar es vs file).
Proof.
  unfold summary_figure. rewrite (ba_cols _ _ BA), names_same, chains_length. destruct (size_of_texts _ (pb_columns b)) as [mp|e]; [|reflexivity]. cbn [rbind]. destruct (size_of_texts _ (map _ (pb_chains b))) as [mm|e]; [|reflexivity]. cbn [rbind]. cbv zeta. destruct (Qeq_bool _ 0); [reflexivity|].
  destruct (subplots _ _ _) as [[]|e]; [|reflexivity]. cbn [rbind]. eapply (rrel_bind (Forall2 (Forall2 qpanel))).
  - apply (mapM_rrel (fun x y => fst y = fst x /\ drawn_alike num cols (snd x) (snd y))); [apply combine_rel; exact (ba_chains _ _ BA)|]. intros x y _ X. apply summary_row_rel. exact X.
  - intros rows rows' RW. assert (RF : Forall2 (Forall2 (Forall2 same_call)) (map (map fst) rows) (map (map fst) rows')) by (apply (map_rel (Forall2 qpanel)); [exact RW|]; intros x y X; apply (map_rel qpanel); [exact X|]; intros u v [U _]; exact U).
    eapply (rrel_bind (Forall2 (Forall2 (Forall2 same_call)))).
    + destruct errorbar; [exact RF|]. apply (mapM_rrel (Forall2 qpanel)); [exact RW|]. intros x y _ X. apply scale_rel; [apply max_vals_rel; exact RW|]. apply (map_rel qpanel); [exact X|]. intros u v [U _]. exact U.
    + intros ax ax' AX. cbn [rrel]. split; [reflexivity|]. split; [exact AX|repeat split].
Qed.
End figures.
End one.

(** ** Whole calls *)
Lemma base_rel num s s' req req' columns wide l l' (g : plot_config -> list truth -> plot_base -> res figure) : s_plotter s' = s_plotter s -> s_truths s' = s_truths s ->
  contents (s_world s) req false = Ok l -> contents (s_world s') req' false = Ok l' -> Forall2 (drawn_alike num (sanitise_columns columns l)) l l' ->
  (forall cfg ts b b', base_alike num (sanitise_columns columns l) b b' -> rrel same_figure (g cfg ts b) (g cfg ts b')) ->
  rrel same_figure (snd (with_base num s req columns wide g)) (snd (with_base num s' req' columns wide g)).
Proof.
  intros EP ET C C' F G. rewrite !with_base_contents, C, C', EP, ET. cbn [rbind]. cbv zeta.
  assert (EC : sanitise_columns columns l' = sanitise_columns columns l).
  { apply (alike_columns num (sanitise_columns columns l)). clear -F. revert F. generalize (sanitise_columns columns l). intros cs F. induction F as [|x y l l' [A [B [_ [_ [T _]]]]] F IH]; constructor; [|exact IH]. split; [exact A|]. split; [exact B|exact T]. }
  rewrite EC. eapply rrel_bind; [apply (custom_rel num (sanitise_columns columns l)); [exact F|auto]|]. intros e e' E. apply G. constructor; cbn; auto.
Qed.
Lemma alike_less num cols ps cf cf' : (forall p, In p ps -> In p cols) -> drawn_alike num cols cf cf' -> drawn_alike num ps cf cf'.
Proof.
  intros S [A [B [C [D [[T1 [T2 [q T3]]] X]]]]]. split; [exact A|]. split; [exact B|]. split; [exact C|]. split; [exact D|]. split; [|exact X]. split; [exact T1|]. split; [exact T2|]. exists q. intros p HP. apply T3. apply S. exact HP.
Qed.
Lemma asked_in columns l cols p : asked columns l cols -> In p (sanitise_columns columns l) -> In p cols.
Proof.
  intros A. destruct columns as [c|]; [cbn in *; subst; auto|]. pose proof (AnalysisProofs.asked_columns None l) as A'. cbn [asked] in A, A'. rewrite (AnalysisProofs.first_seen_In _ _ A'), (AnalysisProofs.first_seen_In _ _ A). auto.
Qed.
Lemma asked_alike num columns l l' cols : asked columns l cols -> Forall2 (drawn_alike num cols) l l' -> Forall2 (drawn_alike num (sanitise_columns columns l)) l l'.
Proof.
  intros A F. assert (IN : forall p, In p (sanitise_columns columns l) -> In p cols) by (intros p; apply asked_in; exact A). revert IN. generalize (sanitise_columns columns l). intros ps IN. clear A. induction F as [|x y l l' X F IH]; constructor; [eapply alike_less; eassumption|exact IH].
Qed.
Lemma reordered_alike num c f f' cols : order_free num -> power_law (n_power num (ch_power c)) -> sound c f -> reordered f f' -> extended c -> drawn_alike num cols (c, f) (c, f').
Proof.
  intros OF PW G R X. split; [reflexivity|]. split; [exact PW|]. split; [exact (so_wf _ _ G)|]. split; [exact (CovEquivProofs.reordered_wf _ _ (so_wf _ _ G) R)|]. split; [|left; exact X]. cbn [fst snd].
  apply table_reordered; [exact (so_wf _ _ G)|exact (so_rows _ _ G)|exact (so_weight _ _ G)|exact R|]. intros p _ _. apply reordered_kde; [exact OF|exact (so_wf _ _ G)|exact R].
Qed.
Lemma shuffled_base rgb plain num s h' names req columns wide g : session rgb plain (s_world s) -> rows_shuffled (fst (s_world s)) h' -> order_free num -> (forall p, power_law (n_power num p)) ->
  requested (s_world s) req = map Some names -> (forall l cf, shown (s_world s) req false l -> In cf l -> extended (fst cf)) ->
  (forall cols cfg ts b b', base_alike num cols b b' -> rrel same_figure (g cfg ts b) (g cfg ts b')) ->
  rrel same_figure (snd (with_base num s req columns wide g)) (snd (with_base num (with_world s (h', snd (s_world s))) req columns wide g)).
Proof.
  intros S R OF P HR EX G. pose proof (shuffled_contents (s_world s) h' req false names (RegistryProps.reachable_ok _ _ (session_reachable _ _ _ S)) R HR) as K.
  destruct (contents (s_world s) req false) as [l|e] eqn:E, (contents (h', snd (s_world s)) req false) as [l'|e'] eqn:E'; cbn in K; try contradiction.
  - apply (base_rel num s (with_world s (h', snd (s_world s))) req req columns wide l l'); try reflexivity; try assumption; [|intros; eapply G; eassumption].
    pose proof (contents_sound _ _ _ _ _ _ S E) as SO. assert (XS : forall cf, In cf l -> extended (fst cf)) by (intros cf; apply EX; apply KeywordProps.shown_contents; exact E). clear E E' EX. revert K SO XS.
    generalize (sanitise_columns columns l). intros cols K. induction K as [|[c f] [c' f'] l l' [K1 K2] K IH]; intros SO XS; constructor; [|apply IH; [inversion SO; assumption|intros cf HI; apply XS; right; exact HI]]. inversion SO as [|? ? S1 _]; subst. cbn [fst snd] in *. subst c'.
    apply reordered_alike; [exact OF|apply P|exact S1|exact K2|exact (XS (c, f) (or_introl eq_refl))].
  - rewrite !with_base_contents. cbn [s_world with_world]. rewrite E, E'. cbn [rbind]. exact K.
Qed.
