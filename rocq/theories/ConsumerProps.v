(** C57, C58, C73: rc parameters, keyword arguments and repeated drawing over whole sessions. *)
From Coq Require Import String List Bool Arith ZArith QArith Lia.
From Verif Require Import Py NumModel ColorModel MarginalModel FrameModel ConfigModel ChainModel RegistryModel RegistrySpec ChainSpec HeapFacts RegistryProofs RegistryProps ChainUseProofs DiagProofs TextModel AnalysisModel AnalysisSpec SurfaceProofs SurfaceModel FigureModel FigureSpec FigureProofs TriangleProofs ConsumerSpec ConsumerProofs AnalysisProps FigureCases.
From Verif Require SessionProofs NumFacts.
Import ListNotations.
Open Scope string_scope.
Open Scope list_scope.

(** ** C57 *)
(** Whatever happened since the consumer was created, restoring gives back the two parameters as they were then,
    and leaves everything else alone. *)
Theorem C57_restore : forall rgb2hex k h rc0 past, let s := acts rgb2hex k (fresh h rc0) past in let s' := act rgb2hex k s ARestore in
  rc_usetex (s_rc s') = rc_usetex rc0 /\ rc_family (s_rc s') = rc_family rc0 /\ rc_other (s_rc s') = rc_other (s_rc s) /\
  s_world s' = s_world s /\ s_truths s' = s_truths s /\ s_plotter s' = s_plotter s.
Proof. intros rgb k h rc0 past s s'. destruct (acts_plotter rgb k past (fresh h rc0)) as [E1 E2]. fold s in E1, E2. unfold s', act, restore, restore_rc_params. cbn [s_rc rc_usetex rc_family rc_other s_world s_truths s_plotter]. rewrite E1, E2. repeat split. Qed.
Print Assumptions C57_restore.
(** Drawing sets the parameters the configuration has a value for (a call that raises may stop before), and no others. *)
Theorem C57_draw : forall k s d s' r cfg, config_of s cfg -> draw_figure k s d = (s', r) ->
  (s_rc s' = s_rc s \/ drawn_with cfg (s_rc s) (s_rc s')) /\ (forall fig, r = Ok fig -> drawn_with cfg (s_rc s) (s_rc s')).
Proof.
  intros k s d s' r cfg HC H. assert (EC : config_in_use (s_plotter s) = cfg) by (unfold config_of, given, config_in_use, dflt in *; destruct (pl_config (s_plotter s)); congruence).
  destruct (draw_form k d) as [num [columns [wide [f F]]]]. rewrite F in H. pose proof (with_base_rc num s (asks_for d) columns wide f) as W. cbv zeta in W. rewrite H, EC in W. cbn [fst snd] in W.
  assert (D : drawn_with cfg (s_rc s) (set_rc_params cfg (s_rc s))) by (split; [reflexivity|split; [|reflexivity]]; unfold set_rc_params; cbn [rc_family]; destruct (p_serif cfg) as [[|]|]; reflexivity).
  destruct W as [W1 W2]. split; [destruct W1 as [->| ->]; [left; reflexivity|right; exact D]|]. intros fig ->. rewrite (W2 fig eq_refl). exact D.
Qed.
Print Assumptions C57_draw.
(** Nothing else touches the rc parameters. *)
Theorem C57_only : forall rgb2hex k s a, match a with ADraw _ | ARestore | ASetRc _ => False | _ => True end -> s_rc (act rgb2hex k s a) = s_rc s.
Proof. intros rgb k s [o|t|cfg|d| |rc] H; try contradiction; cbn [act]; [reflexivity|destruct (new_truth _ _); reflexivity|reflexivity]. Qed.
Print Assumptions C57_only.
(** As long as the configuration leaves both open, no sequence of calls changes them. *)
Theorem C57_none : forall rgb2hex k l s cfg, config_of s cfg -> p_usetex cfg = None -> p_serif cfg = None ->
  (forall a, In a l -> match a with AConfig _ | ARestore | ASetRc _ => False | _ => True end) -> let s' := acts rgb2hex k s l in
  rc_usetex (s_rc s') = rc_usetex (s_rc s) /\ rc_family (s_rc s') = rc_family (s_rc s) /\ rc_other (s_rc s') = rc_other (s_rc s).
Proof.
  intros rgb k. induction l as [|a l IH]; intros s cfg HC E1 E2 H s'; [repeat split|]. unfold s'. cbn [acts fold_left]. fold (acts rgb k (act rgb k s a) l).
  assert (HC' : config_of (act rgb k s a) cfg). { specialize (H a (or_introl eq_refl)). destruct a as [o|t|c|d| |rc]; try contradiction; cbn [act]; [exact HC|destruct (new_truth _ _); exact HC|].
    unfold config_of. destruct (draw_form k d) as [num [columns [wide [f ->]]]]. destruct (with_base_rest num s (asks_for d) columns wide f) as [_ ->]. exact HC. }
  destruct (IH (act rgb k s a) cfg HC' E1 E2 (fun b Hb => H b (or_intror Hb))) as [-> [-> ->]]. specialize (H a (or_introl eq_refl)).
  destruct a as [o|t|c|d| |rc]; try contradiction; cbn [act]; [repeat split|destruct (new_truth _ _); repeat split|].
  destruct (draw_figure k s d) as [s1 r] eqn:ED. cbn [fst]. destruct (C57_draw k s d s1 r cfg HC ED) as [[->|D] _]; [repeat split|]. destruct D as [D1 [D2 D3]]. rewrite E1 in D1. rewrite E2 in D2. auto.
Qed.
Print Assumptions C57_none.

(** ** C58 *)
Lemma drawn_parts k s d s' fig cfg : config_of s cfg -> draw_figure k s d = (s', Ok fig) ->
  exists b, match d with
    | DTriangle _ _ f z => plot_figure (bk_num k) (bk_kde2 k) (bk_argsort k) (bk_Phi k) (bk_filled k) (bk_offset k) cfg (s_truths s) b z f = Ok fig
    | DWalks _ _ f z cv w p l => walks_figure (bk_log10 k) (bk_max_points k) cfg (s_truths s) b z cv w p l f = Ok fig
    | DDistributions _ _ f w z => distributions_figure (bk_num k) (bk_filled k) cfg (s_truths s) b w z f = Ok fig
    | DSummary _ _ f z e sp vr => summary_figure (bk_num k) (bk_text_width k) cfg (s_truths s) b z e sp vr f = Ok fig
    end.
Proof.
  intros HC H. assert (EC : config_in_use (s_plotter s) = cfg) by (unfold config_of, given, config_in_use, dflt in *; destruct (pl_config (s_plotter s)); congruence).
  assert (K : forall num req columns wide f, with_base num s req columns wide f = (s', Ok fig) -> exists b, f cfg (s_truths s) b = Ok fig).
  { intros num req columns wide f W. pose proof (with_base_contents num s req columns wide f) as E. rewrite W, EC in E. cbn [snd] in E. symmetry in E. apply rbind_ok in E as [final [_ E]]. cbv zeta in E. apply rbind_ok in E as [ext [_ E]]. eexists. exact E. }
  destruct d; cbn [draw_figure] in H; unfold plot, plot_walks, plot_distributions, plot_summary in H; exact (K _ _ _ _ _ H).
Qed.
Lemma drawn_watermark k s d s' fig cfg : config_of s cfg -> draw_figure k s d = (s', Ok fig) -> exists axis, fg_watermark fig = add_watermark cfg axis.
Proof.
  intros HC H. destruct (drawn_parts k s d s' fig cfg HC H) as [b P]. destruct d.
  - apply plot_figure_parts in P. destruct P as [_ [_ [_ [_ [P _]]]]]. eauto.
  - exists None. unfold walks_figure in P. cbv zeta in P. repeat match type of P with rbind _ _ = Ok _ => apply rbind_ok in P as [? [_ P]] end. injection P as <-. reflexivity.
  - exists None. unfold distributions_figure in P. cbv zeta in P. repeat match type of P with rbind _ _ = Ok _ => apply rbind_ok in P as [? [_ P]] | (if ?c then Err _ else _) = Ok _ => destruct c; [discriminate|] end. injection P as <-. reflexivity.
  - exists None. unfold summary_figure in P. cbv zeta in P. repeat match type of P with rbind _ _ = Ok _ => apply rbind_ok in P as [? [_ P]] | (if ?c then Err _ else _) = Ok _ => destruct c; [discriminate|] end. injection P as <-. reflexivity.
Qed.
(** The watermark is written exactly if one is configured, with the user's keyword arguments before the standard ones. *)
Theorem C58_watermark : forall k s d s' fig cfg, config_of s cfg -> draw_figure k s d = (s', Ok fig) -> NoDup (dkeys (p_watermark_text_kwargs cfg)) ->
  match p_watermark cfg with
  | None => fg_watermark fig = None
  | Some text => exists wm, fg_watermark fig = Some wm /\ wm_text wm = text /\
      (forall key, dget key (wm_kwargs wm) = keyword (p_watermark_text_kwargs cfg) standard_watermark key) /\
      (forall v, dget "usetex" (p_watermark_text_kwargs cfg) = Some v -> wm_usetex wm = Some v) /\
      (dget "usetex" (p_watermark_text_kwargs cfg) = None -> wm_usetex wm = option_map VBool (p_usetex cfg))
  end.
Proof.
  intros k s d s' fig cfg HC H ND. destruct (drawn_watermark k s d s' fig cfg HC H) as [axis ->]. unfold add_watermark. destruct (p_watermark cfg) as [t|]; [|reflexivity].
  assert (G : forall key, dget key (watermark_text_kwargs_final cfg) = keyword (p_watermark_text_kwargs cfg) standard_watermark key) by (intros key; unfold watermark_text_kwargs_final, keyword; rewrite (dmerge_get key _ _ ND); reflexivity).
  eexists. split; [reflexivity|]. cbn [wm_text wm_kwargs wm_usetex]. split; [reflexivity|]. split; [exact G|]. rewrite G. unfold keyword. split; [intros v ->; reflexivity|]. intros ->. reflexivity.
Qed.
Print Assumptions C58_watermark.
(** The legend is drawn with the user's keyword arguments before the standard ones. *)
Theorem C58_legend : forall k s d s' fig cfg lg, config_of s cfg -> draw_figure k s d = (s', Ok fig) -> NoDup (dkeys (p_legend_kwargs cfg)) -> fg_legend fig = Some lg ->
  exists r c first, (forall l, p_legend_location cfg = Some l -> l = (r, c)) /\ (p_legend_location cfg = None -> (r, c) = (0, -1)%Z \/ (r, c) = (-1, 0)%Z) /\
    (first = true <-> (c <= r)%Z \/ p_legend_artists cfg <> Some true) /\
    forall key, dget key (lg_kwargs lg) = keyword (p_legend_kwargs cfg) (standard_legend (p_label_font_size cfg) first) key.
Proof.
  intros k s d s' fig cfg lg HC H ND HL. destruct (drawn_parts k s d s' fig cfg HC H) as [b P].
  assert (N : match d with DTriangle _ _ _ _ => make_legend cfg b = Ok lg | _ => False end).
  { destruct d.
    - apply plot_figure_parts in P. destruct P as [_ [_ [P1 [P2 _]]]]. assert (D : legend_wanted cfg (pb_chains b) \/ ~ legend_wanted cfg (pb_chains b)).
      { unfold legend_wanted. destruct (p_show_legend cfg) as [[|]|]; [left; reflexivity|right; discriminate|]. destruct (Nat.lt_ge_cases 1 (length (pb_chains b))); [left; assumption|right; lia]. }
      destruct D as [D|D]; [destruct (P1 D) as [lg' [E1 E2]]; congruence|rewrite (P2 D) in HL; discriminate].
    - unfold walks_figure in P. cbv zeta in P. repeat match type of P with rbind _ _ = Ok _ => apply rbind_ok in P as [? [_ P]] end. injection P as <-. discriminate HL.
    - unfold distributions_figure in P. cbv zeta in P. repeat match type of P with rbind _ _ = Ok _ => apply rbind_ok in P as [? [_ P]] | (if ?c then Err _ else _) = Ok _ => destruct c; [discriminate|] end. injection P as <-. discriminate HL.
    - unfold summary_figure in P. cbv zeta in P. repeat match type of P with rbind _ _ = Ok _ => apply rbind_ok in P as [? [_ P]] | (if ?c then Err _ else _) = Ok _ => destruct c; [discriminate|] end. injection P as <-. discriminate HL. }
  destruct d; try contradiction. destruct (make_legend_ok cfg b lg N) as [r [c [shown [E1 [_ [_ [_ [_ [_ [v [E2 E3]]]]]]]]]]]. exists r, c, v.
  split; [intros l El; rewrite El in E1; congruence|]. split; [intros El; rewrite El in E1; destruct (flipped cfg b); auto|]. split; [exact E3|]. intros key. rewrite E2.
  assert (G : forall key, dget key (legend_kwargs_final cfg) = keyword (p_legend_kwargs cfg) (firstn 7 (standard_legend (p_label_font_size cfg) v)) key) by (intros key'; unfold legend_kwargs_final, keyword; rewrite (dmerge_get key' _ _ ND); reflexivity).
  assert (T : forall key, key <> "markerfirst" -> dget key (firstn 7 (standard_legend (p_label_font_size cfg) v)) = dget key (standard_legend (p_label_font_size cfg) v)).
  { intros key' NE. cbn [standard_legend firstn dget fst snd]. repeat match goal with |- context [String.eqb ?a ?b] => destruct (String.eqb_spec a b); [reflexivity || congruence|] end. reflexivity. }
  destruct (String.eqb_spec key "markerfirst") as [->|NE].
  - specialize (G "markerfirst"). unfold keyword in *. destruct (dget "markerfirst" (p_legend_kwargs cfg)) as [u|] eqn:EU.
    + assert (M : dmem "markerfirst" (legend_kwargs_final cfg) = true) by (unfold dmem; rewrite G; reflexivity). rewrite M. exact G.
    + cbn in G. assert (M : dmem "markerfirst" (legend_kwargs_final cfg) = false) by (unfold dmem; rewrite G; reflexivity). rewrite M, dget_dset_same. reflexivity.
  - assert (Q : dget key (if dmem "markerfirst" (legend_kwargs_final cfg) then legend_kwargs_final cfg else dset "markerfirst" (VBool v) (legend_kwargs_final cfg)) = dget key (legend_kwargs_final cfg)) by (destruct (dmem _ _); [reflexivity|apply dget_dset_other; congruence]).
    rewrite Q, G. unfold keyword. rewrite (T key NE). reflexivity.
Qed.
Print Assumptions C58_legend.

(** A parameter's label is the configured one, otherwise the parameter's name. *)
Theorem C58_label : forall cfg p, (forall l, dget p (p_labels cfg) = Some l -> get_label (p_labels cfg) p = l) /\ (~ In p (dkeys (p_labels cfg)) -> get_label (p_labels cfg) p = p).
Proof. intros cfg p. unfold get_label. split; [intros l ->; reflexivity|]. intros N. rewrite (proj2 (dget_None _ _)); [reflexivity|exact N]. Qed.
Print Assumptions C58_label.

(** The watermark is written on the lower left axis of a triangle of two parameters with one turned sideways, and across
    any other figure. *)
Theorem C58_place : forall rgb2hex k s d s' fig chains cols cfg wm, reachable rgb2hex (s_world s) -> config_of s cfg ->
  draw_figure k s d = (s', Ok fig) -> fg_watermark fig = Some wm -> plots s (asks_for d) (columns_of d) chains cols ->
  (is_triangle d -> p_flip cfg = true -> p_plot_hists cfg = true -> length cols = 2%nat -> wm_axis wm = Some (1%nat, 0%nat)) /\
  (~ (is_triangle d /\ p_flip cfg = true /\ p_plot_hists cfg = true /\ length cols = 2%nat) -> wm_axis wm = None).
Proof.
  intros rgb k s d s' fig chains cols cfg wm RE HC H EW P. destruct d as [req columns file size|req columns file size cv ww pp ll|req columns file wrap size|req columns file size e sp vr].
  - cbn [draw_figure asks_for columns_of is_triangle] in *. unfold plot in H. destruct (with_base_plots _ _ _ _ _ _ _ _ _ _ H (reachable_ok _ _ RE) P _ HC) as [b [B1 [B2 [B3 _]]]].
    apply plot_figure_parts in B3. destruct B3 as [_ [_ [_ [_ [B3 _]]]]]. rewrite EW in B3. unfold add_watermark in B3. destruct (p_watermark cfg); [|discriminate]. injection B3 as ->. cbn [wm_axis]. unfold flipped, triangle_size. rewrite B2.
    split.
    + intros _ -> E2 E3. rewrite E2, E3. cbn. reflexivity.
    + intros N. destruct (Nat.eqb_spec (length cols) 2) as [L|L]; [|reflexivity]. destruct (p_plot_hists cfg) eqn:E2; [|reflexivity]. destruct (p_flip cfg) eqn:E3; [|reflexivity]. exfalso. apply N. auto.
  - split; [intros []|]. intros _. destruct (drawn_parts k s _ s' fig cfg HC H) as [b Q]. unfold walks_figure in Q. cbv zeta in Q. repeat match type of Q with rbind _ _ = Ok _ => apply rbind_ok in Q as [? [_ Q]] end. injection Q as <-. cbn [fg_watermark] in EW. unfold add_watermark in EW. destruct (p_watermark cfg); [injection EW as <-; reflexivity|discriminate].
  - split; [intros []|]. intros _. destruct (drawn_parts k s _ s' fig cfg HC H) as [b Q]. unfold distributions_figure in Q. cbv zeta in Q. repeat match type of Q with rbind _ _ = Ok _ => apply rbind_ok in Q as [? [_ Q]] | (if ?c then Err _ else _) = Ok _ => destruct c; [discriminate|] end. injection Q as <-. cbn [fg_watermark] in EW. unfold add_watermark in EW. destruct (p_watermark cfg); [injection EW as <-; reflexivity|discriminate].
  - split; [intros []|]. intros _. destruct (drawn_parts k s _ s' fig cfg HC H) as [b Q]. unfold summary_figure in Q. cbv zeta in Q. repeat match type of Q with rbind _ _ = Ok _ => apply rbind_ok in Q as [? [_ Q]] | (if ?c then Err _ else _) = Ok _ => destruct c; [discriminate|] end. injection Q as <-. cbn [fg_watermark] in EW. unfold add_watermark in EW. destruct (p_watermark cfg); [injection EW as <-; reflexivity|discriminate].
Qed.
Print Assumptions C58_place.

(** Two sideways parameters: the watermark is on the lower left axis; a walk figure of the same session has it across. *)
Example C58_place_nonvacuous : let s := acts ex_rgb ex_backend (fresh fig_heap fig_rc) [ARegistry (OpNewChain (ex34_args "A" 0 cloud_kw)); ARegistry (OpAdd 0); AConfig (fig_cfg true true (BlindBool false) [])] in
  (exists s' fig wm, draw_figure ex_backend s (DTriangle ReqAll (Some ["x"; "y"]) FileNone FColumn) = (s', Ok fig) /\ fg_watermark fig = Some wm /\ wm_axis wm = Some (1%nat, 0%nat)) /\
  (exists s' fig wm, draw_figure ex_backend s (DWalks ReqAll (Some ["x"; "y"]) FileNone SizeNone None false false false) = (s', Ok fig) /\ fg_watermark fig = Some wm /\ wm_axis wm = None).
Proof. cbv zeta. split; do 3 eexists; (split; [vm_compute; reflexivity|]); split; reflexivity. Qed.

(** ** C77 *)
(** A truth is accepted exactly if its marker may have the edge asked for, and it is kept as it was given. *)
Theorem C77_accepted : forall filled t, (valid_truth filled t -> new_truth filled t = Ok t) /\ (~ valid_truth filled t -> new_truth filled t = Err ValidationError).
Proof.
  intros filled t. unfold valid_truth, new_truth. destruct (t_marker t) as [m|]; [|split; [reflexivity|intros N; exfalso; apply N; intros m E; discriminate]].
  destruct (filled m) eqn:E; cbn [negb andb].
  - split; [reflexivity|]. intros N. exfalso. apply N. intros m' E' F. injection E' as <-. congruence.
  - destruct (qltb 1 (t_marker_edge_width t)) eqn:L.
    + split; [|reflexivity]. intros V. exfalso. specialize (V m eq_refl E). apply NumFacts.qlt_true in L. exfalso. exact (Qlt_not_le _ _ L V).
    + split; [reflexivity|]. intros N. exfalso. apply N. intros _ _ _. apply NumFacts.qlt_false in L. exact L.
Qed.
Print Assumptions C77_accepted.

(** A figure is drawn with all the valid truths added before it, in the order they were added. *)
Theorem C77_truths : forall rgb2hex k h rc past ts, truths_added (bk_filled k) past ts -> s_truths (acts rgb2hex k (fresh h rc) past) = ts.
Proof.
  intros rgb k h rc past ts T. enough (K : forall s, s_truths (acts rgb k s past) = s_truths s ++ ts) by (rewrite K; reflexivity).
  induction T as [|t past ts V T IH|t past ts V T IH|a past ts NT T IH]; intros s; [symmetry; apply app_nil_r| | |]; change (acts rgb k s (?a :: past)) with (acts rgb k (act rgb k s a) past); rewrite IH.
  - cbn [act]. rewrite (proj1 (C77_accepted _ _) V). cbn [add_truth s_truths]. rewrite <- app_assoc. reflexivity.
  - cbn [act]. rewrite (proj2 (C77_accepted _ _) V). reflexivity.
  - f_equal. destruct a as [o|t|cfg|d| |rc']; cbn [act]; try reflexivity; [exfalso; exact (NT t eq_refl)|]. destruct (draw_form k d) as [num [columns [wide [f ->]]]]. apply with_base_rest.
Qed.
Print Assumptions C77_truths.

(** Three truths, the second refused for its edge, with other calls between. *)
Definition edged (loc : dict Q) (m : string) (width : Q) (edge : option colour_input) : truth :=
  {| t_location := loc; t_name := None; t_color := CName "black"; t_edge_color := edge; t_line_width := 1; t_line_style := "--"; t_alpha := 1; t_zorder := 100; t_marker := Some m; t_marker_size := 150; t_marker_edge_width := width |}.
Example C77_nonvacuous : exists a b c, truths_added (bk_filled ex_backend) [ATruth a; AConfig (fig_cfg false false (BlindBool false) []); ATruth b; ARestore; ATruth c] [a; c] /\
  bk_filled ex_backend "o" = true /\ bk_filled ex_backend "+" = false /\ t_marker b = Some "+" /\ t_marker c = Some "o" /\ t_marker_edge_width c == 2 /\
  s_truths (acts ex_rgb ex_backend (fresh fig_heap fig_rc) [ATruth a; AConfig (fig_cfg false false (BlindBool false) []); ATruth b; ARestore; ATruth c]) = [a; c].
Proof.
  exists (edged [("x", 1)] "+" 1 None), (edged [("x", 1)] "+" 2 None), (edged [("x", 1); ("y", 2)] "o" 2 (Some (CName "red"))).
  assert (T : truths_added (bk_filled ex_backend) [ATruth (edged [("x", 1)] "+" 1 None); AConfig (fig_cfg false false (BlindBool false) []); ATruth (edged [("x", 1)] "+" 2 None); ARestore; ATruth (edged [("x", 1); ("y", 2)] "o" 2 (Some (CName "red")))] [edged [("x", 1)] "+" 1 None; edged [("x", 1); ("y", 2)] "o" 2 (Some (CName "red"))]).
  { apply ta_valid; [intros m _ _; cbn; apply Qle_refl|]. apply ta_other; [discriminate|]. apply ta_refused; [intros V; specialize (V "+" eq_refl eq_refl); exact (Qlt_not_le 1 2 eq_refl V)|]. apply ta_other; [discriminate|]. apply ta_valid; [intros m E F; injection E as <-; discriminate|]. constructor. }
  split; [exact T|]. do 5 (split; [reflexivity|]). apply C77_truths. exact T.
Qed.

(** ** C73 *)
(** Drawing is repeatable: after any other drawings, selections, new chain objects or changes of the rc parameters, the
    same call gives the same figure, or fails with the same error. *)
Theorem C73_repeatable : forall rgb2hex k h rc before between d names,
  h_chains h = [] -> (forall f, In f (h_frames h) -> frame_wf f) -> (forall a, In a before -> takes_dicts a) -> (forall a, In a between -> looks a) ->
  let s1 := acts rgb2hex k (fresh h rc) before in let s2 := acts rgb2hex k s1 between in
  requested (s_world s1) (asks_for d) = map Some names -> snd (draw_figure k s2 d) = snd (draw_figure k s1 d).
Proof.
  intros rgb k h rc before between d names H1 H2 H3 HL s1 s2 HR. pose proof (fresh_good rgb k h rc before H1 H2 H3) as SG. fold s1 in SG.
  destruct (looking_keeps rgb k between s1 HL) as [K1 [K2 K3]]. fold s2 in K1, K2, K3. pose proof (SessionProofs.session_reachable _ _ _ SG) as RE. pose proof (SessionProofs.session_good _ _ _ SG) as [HO _].
  assert (U : untouched (fst (s_world s1)) (fst (s_world s2))).
  { unfold s2. rewrite acts_world. eapply C02_untouched; [exact RE|apply surjective_pairing]. }
  assert (EC : contents (s_world s2) (asks_for d) false = contents (s_world s1) (asks_for d) false).
  { eapply contents_same; [exact (reachable_ok _ _ RE)|exact U|exact K3|exact HR|]. intros n l c _ Hc. destruct HO as [_ HO]. exact (proj1 (HO l c Hc)). }
  destruct (draw_form k d) as [num [columns [wide [f F]]]]. rewrite !F, !with_base_contents, EC, K1, K2. reflexivity.
Qed.
Print Assumptions C73_repeatable.

(** A concrete session: two chains and a truth; drawing, restoring and drawing again. *)
Definition case_before : list action := [ARegistry (OpNewChain (ex34_args "A" 0 cloud_kw)); ARegistry (OpNewChain (ex34_args "B" 1 cloud_kw)); ARegistry (OpAdd 0); ARegistry (OpAdd 1); ATruth (fig_truth [("x", 1)] None); AConfig (fig_cfg false false (BlindBool false) [])].
Definition case_draw : drawing := DTriangle ReqAll None FileNone FColumn.
Definition case_between : list action := [ADraw (DSummary ReqAll None FileNone 1 false 1 1); ARegistry (OpSelect ReqAll true); ARestore; ASetRc fig_rc; ADraw case_draw].
Example C73_nonvacuous : let s1 := acts ex_rgb ex_backend (fresh fig_heap fig_rc) case_before in let s2 := acts ex_rgb ex_backend s1 case_between in
  h_chains fig_heap = [] /\ (forall f, In f (h_frames fig_heap) -> frame_wf f) /\ (forall a, In a case_before -> takes_dicts a) /\ (forall a, In a case_between -> looks a) /\
  requested (s_world s1) (asks_for case_draw) = map Some ["A"; "B"] /\ length (h_chains (fst (s_world s1))) = 2%nat /\ (4 < length (h_chains (fst (s_world s2))))%nat /\
  (exists fig lg wm, snd (draw_figure ex_backend s2 case_draw) = Ok fig /\ fg_legend fig = Some lg /\ fg_watermark fig = Some wm /\ dget "loc" (lg_kwargs lg) = Some (VStr "best") /\
     dget "frameon" (lg_kwargs lg) = Some (VBool false) /\ dget "markerfirst" (lg_kwargs lg) = Some (VBool true) /\ wm_text wm = "Draft" /\ dget "weight" (wm_kwargs wm) = Some (VStr "bold")) /\
  s_rc s2 = {| rc_usetex := true; rc_family := ["cursive"]; rc_other := [] |} /\ s_rc (act ex_rgb ex_backend s2 ARestore) = fig_rc.
Proof.
  cbv zeta. split; [reflexivity|]. split. { intros f [<-|[<-|[]]]; (split; [repeat constructor; cbn; intuition discriminate|intros c l Hc; repeat (destruct Hc as [Hc|Hc]; [injection Hc as <- <-; reflexivity|]); destruct Hc]). }
  split; [intros a Ha; repeat (destruct Ha as [<-|Ha]; [exact I|]); destruct Ha|]. split; [intros a Ha; repeat (destruct Ha as [<-|Ha]; [exact I|]); destruct Ha|].
  split; [vm_compute; reflexivity|]. split; [vm_compute; reflexivity|]. split; [vm_compute; lia|]. split; [do 3 eexists; split; [vm_compute; reflexivity|]; repeat split|]. split; vm_compute; reflexivity.
Qed.
