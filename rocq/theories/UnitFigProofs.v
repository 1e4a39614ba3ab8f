(** Lemmas for C114. *)
From Coq Require Import String List Bool Arith ZArith QArith Qabs Lia Permutation.
From Verif Require Import Py NumSpec NumModel NumFacts HelpersSpec HelpersModel MarginalModel FrameModel ConfigModel ChainModel ChainSpec RegistryModel RegistrySpec RegistryProofs TextModel AnalysisModel AnalysisSpec SurfaceModel SurfaceProofs FigureModel FigureSpec
  EquivSpec EquivFacts EquivProofs EquivApi AxisEquivSpec AxisEquivProofs FigEquivSpec FigEquivProofs UnitFigSpec.
From Verif Require FrameFacts ChainProofs CosmeticProofs.
From Coq Require Import Lqa.
Import ListNotations.
Open Scope string_scope.
Open Scope list_scope.
Open Scope Q_scope.

Lemma marginal_off a b k d d' c c' nbins npts nkde pad : 0 < a -> same_sample a b k d d' -> (a == 1 \/ spread d) -> d <> [] -> power_law (m_power c) -> crel a b c c' -> m_kde c = false ->
  rrel (mrel a b (m_power c (/ a))) (smoothed_histogram nbins npts nkde c d pad) (smoothed_histogram nbins npts nkde c' d' pad).
Proof.
  intros A HS HW HN HP HC K. destruct HC as [G SM B PW KE KD EV]. assert (IA : 0 < / a) by (apply Qinv_lt_0_compat; exact A). assert (S : 0 < m_power c (/ a)) by (apply HP; exact IA).
  unfold smoothed_histogram. cbv zeta. rewrite G, SM, PW, KE, KD. rewrite SM, G in B. rewrite B.
  eapply (rrel_bind (lin a b)).
  { destruct (m_grid c); [eapply grid_bins_aff; eassumption|]. pose proof (smoothed_bins_aff a b k d d' A HS HW HN nbins (smooth_value (m_smooth c) false) (get_bins (m_bins c) (m_smooth c) false (m_rows c) (m_cols c)) false pad) as R.
    destruct (get_smoothed_bins _ _ _ d _ _) as [p|e], (get_smoothed_bins _ _ _ d' _ _) as [p'|e']; cbn in R |- *; try contradiction; [exact (proj1 R)|exact R]. }
  intros bins bins' HB. pose proof (bin_centers_lin _ _ _ _ HB) as BC. destruct BC as [|c0 c0' cr cr' C0 CR]; [reflexivity|].
  assert (CC : lin a b (c0 :: cr) (c0' :: cr')) by (constructor; assumption). eapply (rrel_bind (fun l l' => lin (/ a) 0 l l')).
  { eapply density_aff; eassumption. }
  intros h h' HH. pose proof (linspace_lin a b _ _ _ _ npts C0 (lin_last_any a b _ _ 0 0 CC ltac:(discriminate))) as HX.
  apply (finish_rel a b); [exact S|exact HX| |].
  - rewrite K. cbn [orel]. apply (interp_many a b); try assumption. pose proof (power_lin _ _ _ _ HP IA HH) as HL. destruct (0 <? _)%Z; [apply filter1d_lin|]; exact HL.
  - rewrite K. intros ys H. injection H as H; apply opt_all_length in H; rewrite map_length in H; exact H.
Qed.

Lemma has_names f f' p : map fst (f_cols f') = map fst (f_cols f) -> f_has f' p = f_has f p.
Proof.
  intros E. unfold f_has, f_get. destruct (col_get (CStr p) (f_cols f)) as [l|] eqn:G, (col_get (CStr p) (f_cols f')) as [l'|] eqn:G'; try reflexivity; exfalso.
  - apply FrameFacts.col_get_None in G'. apply G'. rewrite E. apply FrameFacts.col_get_In in G. apply (in_map fst) in G. exact G.
  - apply FrameFacts.col_get_None in G. apply G. rewrite <- E. apply FrameFacts.col_get_In in G'. apply (in_map fst) in G'. exact G'.
Qed.

Section one.
Variables (num : numerics) (a b : Q) (p : string).
Hypothesis A : 0 < a.
Definition factor (c : chain) : Q := n_power num (ch_power c) (/ a).
Definition outlined (s : Q) (o o' : call * list Q * list Q) : Prop := shape_in_units a b s (fst (fst o)) (fst (fst o')) /\ lin a b (snd (fst o)) (snd (fst o')) /\ lin s 0 (snd o) (snd o').
Lemma in_range_units xs xs' lo lo' hi hi' : lin a b xs xs' -> aff a b lo lo' -> aff a b hi hi' -> in_range xs' lo' hi' = in_range xs lo hi.
Proof.
  intros X L H. destruct X as [|x x' xs xs' E X]; [reflexivity|]. cbn [in_range]. cbv zeta. pose proof (qmin_list_lin a b x x' xs xs' A X E) as M. pose proof (qmax_list_lin a b x x' xs xs' A X E) as M'.
  rewrite (leb_aff a b _ _ _ _ A M L), (leb_aff a b _ _ _ _ A L M'), (leb_aff a b _ _ _ _ A M H), (leb_aff a b _ _ _ _ A H M'). reflexivity.
Qed.
Lemma outline_units c f f' flip : power_law (n_power num (ch_power c)) -> f_has f p = true -> shown_in_units a b p (c, f) (c, f') -> rrel (outlined (factor c)) (bar_outline num c f p flip) (bar_outline num c f' p flip).
Proof.
  intros PW H [_ [WF [WF' [E [B [KD [_ T]]]]]]]. cbn [fst snd] in *. destruct (T (proj2 (ChainProofs.is_column_has _ _) H)) as [k [d [d' [D [D' [N [S SP]]]]]]].
  assert (SC : forall s l l', lin s 0 l l' -> lin s 0 (map (fun y => y * ch_relheight c) l) (map (fun y => y * ch_relheight c) l')) by (intros s l l' L; apply (lin_map2 s 0); [exact L|]; intros x x' _ X; unfold aff in *; rewrite X; ring).
  destruct (whole_values _ _ _ _ (whole _ _ _ _ WF D)) as [x [w [GX [GW [ED EX]]]]]. destruct (whole_values _ _ _ _ (whole _ _ _ _ WF' D')) as [x' [w' [GX' [GW' [ED' EX']]]]]. unfold bar_outline. rewrite GX, GX'. cbn [rbind]. cbv zeta. rewrite KD.
  destruct (negb _ || false).
  - eapply (rrel_bind (mrel a b (factor c))).
    + unfold chain_marginal. rewrite GX, GX', GW, GW'. cbn [rbind]. rewrite <- ED, <- ED'. apply (marginal_off a b k d d' (marginal_config num c f x w) (marginal_config num c f' x' w')); try assumption. apply (config_rel a b num c f f' p); try assumption. left. exact KD.
    + intros m m' [MX MY _ _ _ _]. cbn [rrel]. apply SC in MY. split; [|split; assumption]. cbn. repeat split; assumption.
  - rewrite GW, GW'. cbn [rbind]. rewrite <- ED, <- ED'. eapply (rrel_bind (lin a b)).
    + destruct (ch_grid c); [rewrite <- EX, <- EX'; apply (grid_bins_aff a b k d d' A S)|].
      replace (get_bins (ch_cfg c Fbins) (ch_cfg c Fsmooth) false (f_rows f') (length (f_cols f'))) with (get_bins (ch_cfg c Fbins) (ch_cfg c Fsmooth) false (f_rows f) (length (f_cols f))).
      2: { unfold get_bins. destruct B as [B|[-> ->]]; [|reflexivity]. destruct (ch_cfg c Fbins); [reflexivity|contradiction B; reflexivity]. }
      match goal with |- rrel _ (rmap fst (get_smoothed_bins ?n ?sv ?bn d ?pl ?pa)) _ => pose proof (smoothed_bins_aff a b k d d' A S SP N n sv bn pl pa) as R end. destruct (get_smoothed_bins _ _ _ d _ _), (get_smoothed_bins _ _ _ d' _ _); cbn in R |- *; try contradiction; [exact (proj1 R)|exact R].
    + intros e e' EE. eapply (rrel_bind (lin (/ a) 0)); [apply (density_aff a b k d d' A S); exact EE|]. intros h h' HH. cbn [rrel]. assert (I1 : 0 < / a) by (apply Qinv_lt_0_compat; exact A). apply (power_lin _ (/ a) _ _ PW I1) in HH. apply SC in HH.
      split; [cbn; repeat split; assumption|]. split; cbn [fst snd]; [apply bin_centers_lin; exact EE|exact HH].
Qed.
Definition bars_rel (s : Q) (o o' : list call * Q) : Prop := Forall2 (shape_in_units a b s) (panel_bars (fst o)) (panel_bars (fst o')) /\ aff s 0 (snd o) (snd o').
Lemma panel_bars_app l m : panel_bars (l ++ m) = panel_bars l ++ panel_bars m.
Proof. apply filter_app. Qed.
Lemma bars_units cfg cfg' flip summary summary' cf cf' o o' : power_law (n_power num (ch_power (fst cf))) -> f_has (snd cf) p = true -> shown_in_units a b p cf cf' ->
  plot_bars num cfg p flip summary cf = Ok o -> plot_bars num cfg' p flip summary' cf' = Ok o' -> bars_rel (factor (fst cf)) o o'.
Proof.
  destruct cf as [c f], cf' as [c' f']. intros PW H SU P P'. cbn [fst snd] in *. assert (E : c' = c) by exact (proj1 SU). subst c'. pose proof (outline_units c f f' flip PW H SU) as OU. destruct SU as [_ [WF [WF' [E [B [KD [M T]]]]]]]. cbn [fst snd] in *.
  assert (S0 : 0 < factor c) by (apply PW; apply Qinv_lt_0_compat; exact A). destruct (T (proj2 (ChainProofs.is_column_has _ _) H)) as [k [d [d' [D [D' [N [S SP]]]]]]]. clear T WF WF'.
  unfold plot_bars in P, P'. apply rbind_ok in P as [[[out xs] ys] [O P]]. apply rbind_ok in P' as [[[out' xs'] ys'] [O' P']]. rewrite O, O' in OU. destruct OU as [O1 [O2 O3]]. cbn [fst snd] in O1, O2, O3. cbv zeta in P, P'.
  apply rbind_ok in P as [sh [Q P]]. apply rbind_ok in P' as [sh' [Q' P']]. destruct O3 as [|y y' ys ys' Y O3]; [discriminate P|]. injection P as <-. injection P' as <-.
  assert (OS : panel_bars [out] = [out] /\ panel_bars [out'] = [out']) by (destruct out, out'; try contradiction O1; split; reflexivity). destruct OS as [OS OS'].
  split; cbn [fst snd]; [|apply qmax_list_lin; assumption].
  change (out :: sh) with ([out] ++ sh). change (out' :: sh') with ([out'] ++ sh'). rewrite !panel_bars_app, OS, OS'. constructor; [exact O1|].
  destruct (ch_cfg c Fbar_shade) eqn:BS; [|injection Q as <-; injection Q' as <-; constructor].
  assert (M' : (ch_cfg c Fstatistics <> Some SHdi /\ ch_cfg c Fmultimodal = false) \/ a == 1) by (destruct M as [M|[M|M]]; [left; exact M|right; exact M|discriminate M]). clear M.
  apply rbind_ok in Q as [u [U Q]]. apply rbind_ok in Q' as [u' [U' Q']].
  pose proof (api_summary a b k num c f f' p d d' A PW B D D' S SP N (or_introl KD) ltac:(destruct M' as [[M' _]|M']; [left; exact M'|right; exact M'])) as SR. rewrite U, U' in SR. destruct SR as [UL [_ UU]].
  destruct (b_lower u) as [lo|] eqn:EL, (b_lower u') as [lo'|] eqn:EL'; cbn in UL; try contradiction; [|injection Q as <-; injection Q' as <-; constructor]. destruct (b_upper u) as [hi|] eqn:EU, (b_upper u') as [hi'|] eqn:EU'; cbn in UU; try contradiction; [|injection Q as <-; injection Q' as <-; constructor].
  apply rbind_ok in Q as [v [V Q]]. apply rbind_ok in Q' as [v' [V' Q']].
  assert (VV : Forall2 (paff a b a b) (fst v) (fst v')).
  { unfold shaded in V, V'. destruct (ch_cfg c Fmultimodal) eqn:MM.
    - destruct M' as [[_ M']|M']; [discriminate M'|]. apply rbind_ok in V as [iv [I V]]. apply rbind_ok in V' as [iv' [I' V']]. pose proof (api_intervals a b k num c f f' p d d' A PW B D D' S SP N (or_introl KD) M') as IR. rewrite I, I' in IR. cbn [rrel] in IR.
      apply rbind_ok in V as [bs [_ V]]. apply rbind_ok in V' as [bs' [_ V']]. injection V as <-. injection V' as <-. cbn [fst]. rewrite (length_rel _ _ _ IR). destruct (length iv <? 2)%nat; [constructor; [split; assumption|constructor]|exact IR].
    - destruct O2 as [|x x' xs xs' X O2]; [discriminate V|]. injection V as <-. injection V' as <-. cbn [fst]. constructor; [|constructor]. split; cbn [fst snd]; [apply aff_max|apply aff_min]; try assumption; [apply qmin_list_lin|apply qmax_list_lin]; assumption. }
  apply rbind_ok in Q as [fl [F Q]]. apply rbind_ok in Q' as [fl' [F' Q']].
  assert (FF : Forall2 (shape_in_units a b (factor c)) fl fl').
  { assert (R : rrel (Forall2 (shape_in_units a b (factor c))) (Ok fl) (Ok fl')); [|exact R]. rewrite <- F, <- F'. apply (mapM_rrel (paff a b a b)); [exact VV|]. intros iv iv' _ [V1 V2]. rewrite (in_range_units _ _ _ _ _ _ O2 V1 V2). destruct (in_range xs (fst iv) (snd iv)); [|reflexivity]. cbn. repeat split; try assumption; constructor; assumption. }
  assert (TI : forall (sm : bool) g g2 (tt : list call), (if sm then rmap (fun t => if String.eqb t "" then [] else [Title t]) (g : res string) else Ok []) = Ok tt -> g2 = tt -> panel_bars g2 = []).
  { clear. intros sm g g2 tt H ->. destruct sm; [|injection H as <-; reflexivity]. destruct g as [t|]; [|discriminate H]. cbn in H. injection H as <-. destruct (String.eqb t ""); reflexivity. }
  apply rbind_ok in Q as [ti [T Q]]. apply rbind_ok in Q' as [ti' [T' Q']]. injection Q as <-. injection Q' as <-. rewrite !panel_bars_app, (TI _ _ ti ti T eq_refl), (TI _ _ ti' ti' T' eq_refl), !app_nil_r.
  clear -FF. induction FF as [|x y l l' X _ IH]; [constructor|]. destruct x, y; try contradiction X; cbn [panel_bars filter is_bar]; constructor; assumption.
Qed.
Lemma panel_units pw cfg cfg' flip summary summary' l l' o o' : power_law (n_power num pw) -> Forall (fun cf => ch_power (fst cf) = pw /\ f_has (snd cf) p = true) l -> Forall2 (shown_in_units a b p) l l' ->
  bars_panel num cfg p flip summary l = Ok o -> bars_panel num cfg' p flip summary' l' = Ok o' ->
  Forall2 (shape_in_units a b (n_power num pw (/ a))) (panel_bars (fst o)) (panel_bars (fst o')) /\ orel (aff (n_power num pw (/ a)) 0) (snd o) (snd o').
Proof.
  intros PW G F P P'. unfold bars_panel in P, P'. destruct (rmapM (plot_bars num cfg p flip summary) l) as [r|] eqn:R; [|discriminate P]. destruct (rmapM (plot_bars num cfg' p flip summary') l') as [r'|] eqn:R'; [|discriminate P']. injection P as <-. injection P' as <-. cbn [fst snd].
  assert (K : Forall2 (bars_rel (n_power num pw (/ a))) r r').
  { clear -A PW G F R R'. revert r r' R R'. induction F as [|x y l l' X _ IH]; intros r r' R R'; [injection R as <-; injection R' as <-; constructor|]. inversion G as [|? ? [G1 G2] G3]; subst. cbn [rmapM] in R, R'.
    apply rbind_ok in R as [o [O R]]. apply rbind_ok in R as [r1 [R1 R]]. apply rbind_ok in R' as [o' [O' R']]. apply rbind_ok in R' as [r1' [R1' R']]. injection R as <-. injection R' as <-. constructor; [|apply IH; assumption]. exact (bars_units _ _ _ _ _ _ _ _ _ PW G2 X O O'). }
  split.
  - clear -K. induction K as [|x y r r' [X _] _ IH]; [constructor|]. cbn [map concat]. rewrite !panel_bars_app. apply Forall2_app; assumption.
  - assert (S0 : 0 < n_power num pw (/ a)) by (apply PW; apply Qinv_lt_0_compat; exact A). assert (L : lin (n_power num pw (/ a)) 0 (map snd r) (map snd r')) by (apply (map_rel (bars_rel (n_power num pw (/ a)))); [exact K|intros x y [_ X]; exact X]).
    destruct L as [|x x' m m' X L]; [exact I|]. cbn. apply qmax_list_lin; assumption.
Qed.
End one.
