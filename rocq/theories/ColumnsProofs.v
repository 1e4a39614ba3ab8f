(** C115: proofs. *)
From Coq Require Import String List Bool Arith ZArith QArith Reals Lia.
From Verif Require Import Py NumSpec NumModel HelpersSpec ColorModel HelpersModel MarginalModel FrameModel ConfigModel ChainModel ChainUseProofs RegistryModel TextModel AnalysisModel AnalysisSpec EquivSpec SurfaceModel SurfaceProofs FigureModel FigureSpec FigureProofs TriangleProofs WalkProofs DistProofs CosmeticSpec CosmeticProofs ColumnsSpec.
Import ListNotations.
Open Scope string_scope.
Open Scope list_scope.

(** The chains a request stands for *)
Definition selected (s : session) (req : chain_request) : res (list (chain * frame)) :=
  match sanitise_chains (s_world s) req false with (w1, Ok locs) => rmapM (ref_object (fst w1)) (map ByChain locs) | (_, Err e) => Err e end.
Lemma base_parts num s req cols wide k t fig : with_base num s req (Some cols) wide k = (t, Ok fig) -> exists b, pb_columns b = cols /\ selected s req = Ok (pb_chains b) /\
  get_custom_extents num wide (p_extents (config_in_use (s_plotter s))) (pb_chains b) cols = Ok (pb_extents b) /\ pb_blind b = sanitise_blinds (p_blind (config_in_use (s_plotter s))) cols /\
  pb_logs b = p_log_scales (config_in_use (s_plotter s)) /\ k (config_in_use (s_plotter s)) (s_truths s) b = Ok fig.
Proof.
  unfold with_base, sanitise, selected. destruct (sanitise_chains (s_world s) req false) as [w1 [locs|e]]; [|discriminate]. destruct (rmapM (ref_object (fst w1)) (map ByChain locs)) as [final|e]; [|discriminate].
  cbn [sanitise_columns]. destruct (get_custom_extents _ _ _ _ _) as [ext|e] eqn:EX; [|discriminate]. cbn [rbind]. intros H. injection H as _ H. eexists. repeat split; [..|exact H]; cbn [pb_chains pb_extents]; assumption || reflexivity.
Qed.
(** What two figures of the same chains know about a parameter they share *)
Definition base_for (p : string) (b b' : plot_base) : Prop :=
  pb_chains b' = pb_chains b /\ pb_logs b' = pb_logs b /\ dget p (pb_extents b') = dget p (pb_extents b) /\ smem p (pb_blind b') = smem p (pb_blind b).
Lemma entry_same num wide initial chains cols cols' ext ext' p : get_custom_extents num wide initial chains cols = Ok ext -> get_custom_extents num wide initial chains cols' = Ok ext' -> In p cols -> In p cols' -> dget p ext' = dget p ext.
Proof.
  unfold get_custom_extents. intros H H' I I'. apply custom_extents_ok in H as [A [_ C]]. apply custom_extents_ok in H' as [A' [_ C']].
  destruct (dmem p initial) eqn:M; [rewrite (A p M), (A' p M); reflexivity|]. destruct (C p I M) as [e [E1 E2]]. destruct (C' p I' M) as [e' [E1' E2']]. congruence.
Qed.
Lemma blind_same blind cols cols' p : In p cols -> In p cols' -> smem p (sanitise_blinds blind cols') = smem p (sanitise_blinds blind cols).
Proof. intros I I'. apply eq_true_iff_eq. rewrite !hidden_blind by assumption. reflexivity. Qed.
Lemma bases num s req cols cols' wide k k' t t' fig fig' : with_base num s req (Some cols) wide k = (t, Ok fig) -> with_base num s req (Some cols') wide k' = (t', Ok fig') ->
  exists b b', pb_columns b = cols /\ pb_columns b' = cols' /\ pb_chains b' = pb_chains b /\ (forall p, In p cols -> In p cols' -> base_for p b b') /\ k (config_in_use (s_plotter s)) (s_truths s) b = Ok fig /\ k' (config_in_use (s_plotter s)) (s_truths s) b' = Ok fig'.
Proof.
  intros H H'. apply base_parts in H as [b [B1 [B2 [B3 [B4 [B5 B6]]]]]]. apply base_parts in H' as [b' [C1 [C2 [C3 [C4 [C5 C6]]]]]]. exists b, b'. assert (E : pb_chains b' = pb_chains b) by congruence.
  repeat split; try assumption; [congruence| |].
  - rewrite E in C3. eapply entry_same; eassumption.
  - rewrite B4, C4. apply blind_same; assumption.
Qed.

Lemma distribution_same num filled cfg truths b b' su p : base_for p b b' -> distribution_panel num filled cfg truths b' su p = distribution_panel num filled cfg truths b su p.
Proof. intros [E1 [E2 [E3 E4]]]. unfold distribution_panel. rewrite E1, E2, E3, E4. reflexivity. Qed.
Lemma column_same mp cfg truths b b' convolve p : base_for p b b' -> column_row mp cfg truths b' convolve p = column_row mp cfg truths b convolve p.
Proof. intros [E1 [E2 [E3 E4]]]. unfold column_row. rewrite E1, E2, E3, E4. reflexivity. Qed.
Lemma cell_same num cfg truths b b' err i cf colour p : base_for p b b' -> summary_panel num cfg truths b' err i cf colour p = summary_panel num cfg truths b err i cf colour p.
Proof. intros [E1 [E2 [E3 E4]]]. unfold summary_panel. rewrite E1, E2, E3, E4. reflexivity. Qed.

Lemma walk_at lg mp cfg truths b size convolve pw pp lw file fig n p calls : walks_figure lg mp cfg truths b size convolve pw pp lw file = Ok fig -> nth_error (pb_columns b) n = Some p ->
  axis fig (length (fg_axes fig) - length (pb_columns b) + n) 0 calls -> column_row mp cfg truths b convolve p = Ok calls.
Proof.
  unfold walks_figure. cbv zeta. intros H N [row [R C]]. apply rbind_ok in H as [u [_ H]]. apply rbind_ok in H as [r1 [_ H]]. apply rbind_ok in H as [r2 [_ H]]. apply rbind_ok in H as [r3 [H3 H]]. injection H as <-. cbn [fg_axes] in R.
  apply rmapM_Ok_iff in H3 as [L H3]. destruct (H3 n p N) as [r [X Y]]. rewrite !app_length, L in R. rewrite app_assoc in R. rewrite nth_error_app2 in R by (rewrite app_length; lia). rewrite app_length in R.
  replace (length r1 + (length r2 + length (pb_columns b)) - length (pb_columns b) + n - (length r1 + length r2))%nat with n in R by lia. rewrite X in R. injection R as ->.
  destruct (column_row mp cfg truths b convolve p) as [l|]; [|discriminate]. injection Y as <-. injection C as <-. reflexivity.
Qed.
Lemma unscaled_app a c : unscaled (a ++ c) = unscaled a ++ unscaled c.
Proof. apply filter_app. Qed.
Lemma scaled_row cols mv row row' : scale_row cols mv row = Ok row' -> forall j calls', nth_error row' j = Some calls' -> exists calls lims, nth_error row j = Some calls /\ calls' = calls ++ lims /\ unscaled lims = [].
Proof.
  unfold scale_row. intros H. destruct (rmapM _ (combine row cols)) as [lims|] eqn:E; [|discriminate]. injection H as <-. intros j calls' N. rewrite nth_error_map in N.
  destruct (nth_error (combine row (lims ++ repeat [] (length row - length lims))) j) as [[x y]|] eqn:NE; [|discriminate]. injection N as <-. apply nth_error_combine_inv in NE as [X Y]. exists x, y. cbn [fst snd]. repeat split; [exact X|].
  apply nth_error_In in Y. apply in_app_or in Y as [Y|Y]; [|apply repeat_spec in Y; subst y; reflexivity].
  apply DiagProofs.rmapM_Forall2 in E. clear -E Y. induction E as [|ap l ll m H _ IH]; [destruct Y|]. destruct Y as [->|Y]; [|exact (IH Y)]. destruct (dget (snd ap) mv); [|discriminate]. injection H as <-. reflexivity.
Qed.
Lemma summary_at num tw cfg truths b size err sp vr file fig i n p calls : summary_figure num tw cfg truths b size err sp vr file = Ok fig -> nth_error (pb_columns b) n = Some p -> axis fig i (S n) calls ->
  exists cf colour o, nth_error (pb_chains b) i = Some cf /\ chain_colour (fst cf) = Ok colour /\ summary_panel num cfg truths b err i cf colour p = Ok o /\ unscaled calls = unscaled (fst o) /\ (err = true -> calls = fst o).
Proof.
  unfold summary_figure. intros H N [row [R C]]. apply rbind_ok in H as [mp [_ H]]. apply rbind_ok in H as [mm [_ H]]. cbv zeta in H. destruct (Qeq_bool _ 0); [discriminate|]. apply rbind_ok in H as [u [_ H]]. apply rbind_ok in H as [rows [HR H]]. apply rbind_ok in H as [axes [HA H]]. injection H as <-. cbn [fg_axes] in R.
  apply rmapM_Ok_iff in HR as [L HR]. rewrite enum_length in L.
  assert (P : exists orow calls0 lims, nth_error rows i = Some orow /\ nth_error (map fst orow) (S n) = Some calls0 /\ calls = calls0 ++ lims /\ unscaled lims = [] /\ (err = true -> lims = [])).
  { destruct err.
    - injection HA as <-. rewrite nth_error_map in R. destruct (nth_error rows i) as [orow|] eqn:EO; [|discriminate]. injection R as <-. exists orow, calls, []. rewrite app_nil_r. repeat split. exact C.
    - apply rmapM_Ok_iff in HA as [LA HA]. destruct (nth_error rows i) as [orow|] eqn:EO; [|apply nth_error_None in EO; assert (nth_error axes i = None) by (apply nth_error_None; lia); congruence].
      destruct (HA i orow EO) as [row' [X Y]]. rewrite R in X. injection X as <-. destruct (scaled_row _ _ _ _ Y _ _ C) as [c0 [lims [A1 [A2 A3]]]]. exists orow, c0, lims. repeat split; try assumption. discriminate. }
  destruct P as [orow [c0 [lims [P1 [P2 [P3 [P4 P5]]]]]]]. destruct (nth_error (pb_chains b) i) as [cf|] eqn:EC; [|apply nth_error_None in EC; assert (nth_error rows i = None) by (apply nth_error_None; lia); congruence].
  destruct (HR i _ (nth_error_enum _ _ _ EC)) as [orow' [X Y]]. rewrite P1 in X. injection X as <-. cbn [summary_row] in Y. apply rbind_ok in Y as [colour [HC Y]].
  destruct (rmapM _ (pb_columns b)) as [ps|] eqn:EP; [|discriminate]. injection Y as <-. apply rmapM_Ok_iff in EP as [_ EP]. destruct (EP n p N) as [o [O1 O2]]. cbn [map nth_error] in P2. rewrite nth_error_map, O1 in P2. injection P2 as <-.
  exists cf, colour, o. repeat split; try assumption; [subst calls; rewrite unscaled_app, P4, app_nil_r; reflexivity|]. intros ->. rewrite P3, (P5 eq_refl), app_nil_r. reflexivity.
Qed.
Lemma distribution_at num filled cfg truths b wrap size file fig p calls : distributions_figure num filled cfg truths b wrap size file = Ok fig -> distribution_of wrap (pb_columns b) fig p calls ->
  distribution_panel num filled cfg truths b (p_summarise cfg && (length (pb_chains b) =? 1)%nat) p = Ok calls.
Proof.
  intros H [w [n [i [j [W [N [WR A]]]]]]]. destruct (dist_figure_ok _ _ _ _ _ _ _ _ _ H) as [_ [_ [rows [w' [E1 [_ [_ [_ [PN _]]]]]]]]]. assert (w' = w) by lia. subst w'. exact (proj1 (PN _ _ _ _ WR A) p N).
Qed.

Section triangle.
Variables (num : numerics) (kde2 : list Q -> list Q -> list Q -> Q -> Q * Q -> Q) (argsort : list Q -> list nat) (Phi : R -> R) (filled : string -> bool) (offset : dir -> nat -> nat -> string).
Lemma triangle_at cfg truths b size file fig i j p q calls : plot_figure num kde2 argsort Phi filled offset cfg truths b size file = Ok fig ->
  nth_error (params_x cfg (pb_columns b)) i = Some p -> nth_error (params_y cfg (pb_columns b)) j = Some q -> axis fig i j calls ->
  exists fr ins, triangle_panel cfg b (triangle_size cfg (pb_columns b)) i j p q = Ok fr /\ plot_panel num kde2 argsort Phi filled cfg truths b i j p q = Ok ins /\ content calls = content fr ++ content (fst ins).
Proof.
  unfold plot_figure. cbv zeta. intros H P Q [row [R C]]. apply rbind_ok in H as [base [HB H]]. apply rbind_ok in H as [panels [HP H]]. apply rbind_ok in H as [leg [_ H]]. injection H as <-. cbn [fg_axes] in R.
  unfold triangle_figure in HB. cbv zeta in HB. apply rbind_ok in HB as [u [_ HB]]. destruct (_ || _); [discriminate|]. apply grid_of_ok in HB as [_ [_ HB]]. apply grid_of_ok in HP as [_ [_ HP]].
  destruct (HB i j p q P Q) as [ra [fr [A1 [A2 A3]]]]. destruct (HP i j p q P Q) as [rb [ins [B1 [B2 B3]]]]. exists fr, ins. split; [exact A3|]. split; [exact B3|].
  destruct (zip_axes_nth _ _ _ _ _ _ _ _ A1 B1 A2 B2) as [rz [Z1 Z2]]. destruct (mapij_nth (relabel offset (triangle_size cfg (pb_columns b))) _ _ _ _ _ Z1 Z2) as [rm [M1 M2]]. rewrite M1 in R. injection R as <-. rewrite M2 in C. injection C as <-.
  unfold relabel, with_offset. cbv zeta. unfold content. destruct (i =? _)%nat, (j =? 0)%nat; rewrite ?filter_app; cbn [filter places_data]; rewrite ?app_nil_r; reflexivity.
Qed.
(** The frame of a panel sets the ranges and nothing else that counts. *)
Lemma frame_content cfg b n i j p q fr : (j <= i)%nat -> triangle_panel cfg b n i j p q = Ok fr -> exists yl xl,
  (if (negb (i =? j)%nat || negb (p_plot_hists cfg)) || (p_flip cfg && (i =? 1)%nat) then set_limits AY (dget p (pb_extents b)) else Ok []) = Ok yl /\ set_limits AX (dget q (pb_extents b)) = Ok xl /\ content fr = yl ++ xl.
Proof.
  intros L H. unfold triangle_panel in H. destruct (Nat.ltb_spec i j); [lia|]. cbv zeta in H. apply rbind_ok in H as [yl [Y H]]. apply rbind_ok in H as [xl [X H]]. injection H as <-. exists yl, xl. split; [exact Y|]. split; [exact X|].
  assert (K : forall d e l, set_limits d e = Ok l -> content l = l) by (intros d e l S; apply set_limits_ok in S as [lo [hi [_ ->]]]; reflexivity).
  assert (KY : content yl = yl) by (match type of Y with (if ?c then _ else _) = _ => destruct c end; [exact (K _ _ _ Y)|injection Y as <-; reflexivity]). apply K in X.
  unfold content in *. rewrite !filter_app, KY, X. repeat match goal with |- context [if ?c then _ else _] => destruct c end; reflexivity.
Qed.
Lemma pair_same cfg truths b b' size size' file file' fig fig' p q calls calls' : base_for p b b' -> base_for q b b' ->
  plot_figure num kde2 argsort Phi filled offset cfg truths b size file = Ok fig -> plot_figure num kde2 argsort Phi filled offset cfg truths b' size' file' = Ok fig' ->
  pair_of (p_plot_hists cfg) (pb_columns b) fig p q calls -> pair_of (p_plot_hists cfg) (pb_columns b') fig' p q calls' -> content calls' = content calls.
Proof.
  intros [E1 [E2 [E3 E4]]] [F1 [F2 [F3 F4]]] H H' [m [n [i [L [M [P [Q A]]]]]]] [m' [n' [i' [L' [M' [P' [Q' A']]]]]]].
  assert (S : forall bb ff sz fl m n i cc, plot_figure num kde2 argsort Phi filled offset cfg truths bb sz fl = Ok ff -> (n < m)%nat -> m = (if p_plot_hists cfg then i else S i) -> nth_error (pb_columns bb) m = Some p -> nth_error (pb_columns bb) n = Some q -> axis ff i n cc ->
    exists yl xl s, set_limits AY (dget p (pb_extents bb)) = Ok yl /\ set_limits AX (dget q (pb_extents bb)) = Ok xl /\ plot_surface num kde2 argsort Phi (p_sigma2d cfg) (pb_chains bb) q p = Ok s /\ content cc = (yl ++ xl) ++ content (map Surface (fst s) ++ plot_truths filled truths (Some q) (Some p))).
  { clear. intros b fig size file m n i calls H L M P Q A.
    assert (PX : nth_error (params_x cfg (pb_columns b)) i = Some p) by (unfold params_x; destruct (p_plot_hists cfg); [subst m; exact P|rewrite nth_error_tl; subst m; exact P]).
    assert (PY : nth_error (params_y cfg (pb_columns b)) n = Some q).
    { unfold params_y. destruct (p_plot_hists cfg); [exact Q|]. rewrite nth_error_removelast; [exact Q|]. assert (m < length (pb_columns b))%nat by (apply nth_error_Some; congruence). lia. }
    destruct (triangle_at _ _ _ _ _ _ _ _ _ _ _ H PX PY A) as [fr [ins [T1 [T2 T3]]]]. assert (LE : (n <= i)%nat) by (destruct (p_plot_hists cfg); lia). destruct (frame_content _ _ _ _ _ _ _ _ LE T1) as [yl [xl [Y [X C]]]].
    assert (D : p_plot_hists cfg && (i =? n)%nat = false) by (destruct (p_plot_hists cfg); [|reflexivity]; cbn [andb]; apply Nat.eqb_neq; lia).
    assert (D' : ((negb (i =? n)%nat || negb (p_plot_hists cfg)) || (p_flip cfg && (i =? 1)%nat)) = true) by (destruct (p_plot_hists cfg), (i =? n)%nat; try reflexivity; discriminate D).
    rewrite D' in Y. unfold plot_panel in T2. destruct (Nat.ltb_spec i n); [lia|]. cbv zeta in T2. rewrite D in T2. apply rbind_ok in T2 as [s [S T2]]. injection T2 as <-. exists yl, xl, s. repeat split; try assumption. rewrite T3, C. reflexivity. }
  destruct (S _ _ _ _ _ _ _ _ H L M P Q A) as [yl [xl [s [Y [X [SS C]]]]]]. destruct (S _ _ _ _ _ _ _ _ H' L' M' P' Q' A') as [yl' [xl' [s' [Y' [X' [SS' C']]]]]].
  rewrite E3 in Y'. rewrite F3 in X'. rewrite E1 in SS'. assert (yl' = yl) by congruence. assert (xl' = xl) by congruence. assert (s' = s) by congruence. subst. rewrite C, C'. reflexivity.
Qed.
Lemma alone_same cfg truths b b' size size' file file' fig fig' p calls calls' : p_plot_hists cfg = true -> p_flip cfg = false -> base_for p b b' ->
  plot_figure num kde2 argsort Phi filled offset cfg truths b size file = Ok fig -> plot_figure num kde2 argsort Phi filled offset cfg truths b' size' file' = Ok fig' ->
  alone_of (pb_columns b) fig p calls -> alone_of (pb_columns b') fig' p calls' -> content calls' = content calls.
Proof.
  intros HH HF [E1 [E2 [E3 E4]]] H H' [n [P A]] [n' [P' A']].
  assert (S : forall bb ff sz fl n cc, plot_figure num kde2 argsort Phi filled offset cfg truths bb sz fl = Ok ff -> nth_error (pb_columns bb) n = Some p -> axis ff n n cc ->
    exists xl bars, set_limits AX (dget p (pb_extents bb)) = Ok xl /\
      bars_panel num cfg p false (p_summarise cfg && (length (filter (fun cf => ch_cfg (fst cf) Fplot_contour) (pb_chains bb)) =? 1)%nat && negb (smem p (pb_blind bb))) (filter (fun cf => ch_cfg (fst cf) Fplot_contour && f_has (snd cf) p) (pb_chains bb)) = Ok bars /\
      content cc = xl ++ content (plot_truths filled truths (Some p) None ++ fst bars ++ match snd bars with Some m => [Limits AY 0 ((11 # 10) * m)%Q] | None => [] end)).
  { clear -HH HF. intros b fig size file n calls H P A.
    assert (PX : nth_error (params_x cfg (pb_columns b)) n = Some p) by (unfold params_x; rewrite HH; exact P). assert (PY : nth_error (params_y cfg (pb_columns b)) n = Some p) by (unfold params_y; rewrite HH; exact P).
    destruct (triangle_at _ _ _ _ _ _ _ _ _ _ _ H PX PY A) as [fr [ins [T1 [T2 T3]]]]. destruct (frame_content _ _ _ _ _ _ _ _ (le_n n) T1) as [yl [xl [Y [X C]]]]. rewrite Nat.eqb_refl, HH, HF in Y. cbn [negb orb andb] in Y. injection Y as <-.
    unfold plot_panel in T2. rewrite Nat.ltb_irrefl in T2. cbv zeta in T2. rewrite HH, Nat.eqb_refl in T2. cbn [andb] in T2. assert (FL : flipped cfg b = false) by (unfold flipped; rewrite HF, andb_false_r; reflexivity). rewrite FL in T2. cbn [andb] in T2.
    apply rbind_ok in T2 as [bars [B T2]]. injection T2 as <-. exists xl, bars. repeat split; try assumption. rewrite T3, C. reflexivity. }
  destruct (S _ _ _ _ _ _ H P A) as [xl [bars [X [B C]]]]. destruct (S _ _ _ _ _ _ H' P' A') as [xl' [bars' [X' [B' C']]]]. rewrite E3 in X'. rewrite E1, E4 in B'. assert (xl' = xl) by congruence. assert (bars' = bars) by congruence. subst. rewrite C, C'. reflexivity.
Qed.
End triangle.
