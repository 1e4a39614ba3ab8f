(** C107: the triangle depends only on the weighted samples. *)
From Coq Require Import String List Bool Arith ZArith QArith Permutation Lia.
From Coq Require Rdefinitions Lra.
From Verif Require Import Py NumSpec NumModel MarginalModel FrameModel ConfigModel ChainModel RegistryModel RegistrySpec RegistryProps TextModel AnalysisModel AnalysisSpec AnalysisProps SurfaceSpec SurfaceModel FigureModel FigureSpec FigureCases EquivSpec AxisEquivSpec
  KeywordSpec KeywordProps SessionProofs TextEquivSpec TextEquivProofs TextEquivProps PlanarSpec SurfaceProofs SurfaceProps FigEquivSpec FigEquivProps TriEquivSpec TriEquivProofs.
From Verif Require ConsumerProofs ColorProofs PlanarProps.
Import ListNotations.
Open Scope string_scope.
Open Scope list_scope.

(** * C107 *)
(** Two sessions with the same truths and configuration show the same chains, their tables holding the same weighted
    samples and points of the columns asked for.  Then [plot] draws the same triangle - frames, labels, limits,
    distributions, titles, truths and contours of the same credible regions - or raises the same exception. *)
Theorem C107_triangle : forall k s s' req req' columns file size cfg l l' cols, numerics_ok k -> s_plotter s' = s_plotter s -> s_truths s' = s_truths s -> config_of s cfg ->
  shown (s_world s) req false l -> shown (s_world s') req' false l' -> asked columns l cols -> Forall2 (panels_alike k cols) l l' ->
  agree (same_triangle k cfg l cols) (snd (plot k s req columns file size)) (snd (plot k s' req' columns file size)).
Proof.
  intros k s s' req req' columns file size cfg l l' cols OK EP ET CF S S' A F. apply shown_contents in S, S'. apply asked_fun in A.
  assert (E : cfg = config_in_use (s_plotter s)) by (unfold config_of, config_in_use, dflt in *; destruct (pl_config (s_plotter s)); cbn in CF; congruence). rewrite E. apply (plot_call_rel k s s' req req' columns file size l l' cols OK EP ET S S' A F).
Qed.
Print Assumptions C107_triangle.
(** Shuffling the rows of every table leaves the triangle as it was, if the chains shown are drawn as contours only. *)
Theorem C107_shuffled : forall rgb2hex plain k s h' names req columns file size cfg l cols, session rgb2hex plain (s_world s) -> rows_shuffled (fst (s_world s)) h' -> numerics_ok k -> order_free (bk_num k) -> order_free2 k ->
  (forall p, power_law (n_power (bk_num k) p)) -> config_of s cfg -> requested (s_world s) req = map Some names -> shown (s_world s) req false l -> asked columns l cols -> (forall c f, In (c, f) l -> only_contours c f) ->
  agree (same_triangle k cfg l cols) (snd (plot k s req columns file size)) (snd (plot k (with_world s (h', snd (s_world s))) req columns file size)).
Proof.
  intros rgb plain k s h' names req columns file size cfg l cols S R OK OF OF2 P CF HR SH A OC. pose proof SH as SC. apply shown_contents in SC.
  pose proof (shuffled_contents (s_world s) h' req false names (RegistryProps.reachable_ok _ _ (session_reachable _ _ _ S)) R HR) as K. rewrite SC in K.
  destruct (ConsumerProofs.contents (h', snd (s_world s)) req false) as [l'|e'] eqn:E'; cbn in K; [|contradiction].
  apply (C107_triangle k s (with_world s (h', snd (s_world s))) req req columns file size cfg l l' cols); try reflexivity; try assumption; [apply shown_contents; exact E'|].
  pose proof (contents_sound _ _ _ _ _ _ S SC) as SO. clear SC E' SH A. revert K SO OC. intros K. induction K as [|[c f] [c' f'] l l' [K1 K2] K IH]; intros SO OC; constructor; [|apply IH; [inversion SO; assumption|intros c0 f0 HI; apply OC; right; exact HI]].
  inversion SO as [|? ? S1 _]; subst. cbn [fst snd] in *. subst c'. apply reordered_panels; [exact OF|exact OF2|apply P|exact S1|exact K2|apply OC; left; reflexivity].
Qed.
Print Assumptions C107_shuffled.
(** A triangle of two parameters, one chain drawn as contours, the rows of its table reversed. *)
Definition ex107_cfg : plot_config := fig_cfg false true BlindNone [].
Definition ex107_session : FigureModel.session := set_plot_config {| s_world := ex34; s_truths := fig_truths; s_plotter := new_plotter fig_rc; s_rc := fig_rc |} ex107_cfg.
Definition ex107_req : chain_request := ReqList [ByName "A"].
Definition ex107_at : chain * frame := match ConsumerProofs.contents ex34 ex107_req false with Ok [cf] => cf | _ => (PlanarProps.ex83_chain, no_frame) end.
Definition ex107_ext : dict extent := match get_custom_extents ex34_num true (p_extents ex107_cfg) [ex107_at] ["x"; "y"] with Ok e => e | Err _ => [] end.
Definition ex107_base : plot_base := {| pb_chains := [ex107_at]; pb_columns := ["x"; "y"]; pb_extents := ex107_ext; pb_blind := sanitise_blinds (p_blind ex107_cfg) ["x"; "y"]; pb_logs := p_log_scales ex107_cfg |}.
Lemma ex107_shown : ConsumerProofs.contents ex34 ex107_req false = Ok [ex107_at].
Proof. vm_compute. reflexivity. Qed.
Lemma ex107_extents : get_custom_extents ex34_num true (p_extents ex107_cfg) [ex107_at] ["x"; "y"] = Ok ex107_ext.
Proof. vm_compute. reflexivity. Qed.
Lemma ex107_grid : exists m, triangle_figure ex107_cfg ex107_base (get_size FPage 2 false) = Ok m.
Proof. eexists. vm_compute. reflexivity. Qed.
Lemma ex107_legend : exists lg, make_legend ex107_cfg ex107_base = Ok lg.
Proof. eexists. vm_compute. reflexivity. Qed.
Lemma ex107_bars_x : exists p, bars_panel ex34_num ex107_cfg "x" false true [ex107_at] = Ok p.
Proof. eexists. vm_compute. reflexivity. Qed.
Lemma ex107_bars_y : exists p, bars_panel ex34_num ex107_cfg "y" false true [ex107_at] = Ok p.
Proof. eexists. vm_compute. reflexivity. Qed.
Lemma ex107_surface : exists hist xc yc, get_smoothed_histogram2d ex34_num ex43_kde2 (fst ex107_at) (snd ex107_at) "x" "y" = Ok (hist, xc, yc) /\ length xc = 3%nat /\ length yc = 3%nat.
Proof. eexists _, _, _. split; [vm_compute; reflexivity|]. split; reflexivity. Qed.
Lemma ex107_colour : exists base, chain_colour (fst ex107_at) = Ok base /\ ColorProofs.validb base = true.
Proof. eexists. split; vm_compute; reflexivity. Qed.
Lemma ex107_facts : let c := fst ex107_at in let f := snd ex107_at in weights c f = Ok [1; 1; 1]%Q /\ ch_cfg c Fshade_gradient = 1%Q /\ ch_cfg c Fsigmas = [0; 1; 2]%Q /\ opacity_ok (ch_cfg c Fshade_alpha) 1 = true /\
  ch_cfg c Fplot_contour = true /\ ch_cfg c Fplot_cloud = false /\ ch_cfg c Fplot_point = false /\ smem "x" (plotting_columns c f) = true /\ smem "y" (plotting_columns c f) = true /\ f_has f "x" = true /\ f_has f "y" = true /\ ch_cfg c Fcolor_param = None.
Proof. cbv zeta. repeat split; vm_compute; reflexivity. Qed.
Lemma grid_two {A} (g : nat -> nat -> string -> string -> res A) a b c d : g 0%nat 0%nat "x" "x" = Ok a -> g 0%nat 1%nat "x" "y" = Ok b -> g 1%nat 0%nat "y" "x" = Ok c -> g 1%nat 1%nat "y" "y" = Ok d ->
  grid_of ["x"; "y"] ["x"; "y"] g = Ok [[a; b]; [c; d]].
Proof. intros HA HB HC HD. unfold grid_of. cbn [length seq combine rmapM fst snd]. rewrite HA, HB, HC, HD. reflexivity. Qed.
Lemma ex107_drawn : exists c f fig row calls d, shown ex34 ex107_req false [(c, f)] /\ only_contours c f /\ snd (plot ex_backend ex107_session ex107_req (Some ["x"; "y"]) FileNone FPage) = Ok fig /\
  nth_error (fg_axes fig) 1 = Some row /\ nth_error row 0 = Some calls /\ In (Surface d) calls /\ match d with Lines _ _ _ _ _ _ _ _ => True | _ => False end.
Proof.
  destruct ex107_facts as [W [SG [HS [OP [P1 [P2 [P3 [S1 [S2 [HX [HY CP]]]]]]]]]]]. destruct ex107_colour as [base [CB VB]]. destruct ex107_surface as [hist [xc [yc [HH [L1 L2]]]]]. destruct ex107_bars_x as [p BX]. destruct ex107_bars_y as [q BY]. destruct ex107_legend as [lg ML]. destruct ex107_grid as [m TF].
  pose proof ex107_shown as C. pose proof ex107_extents as EX. unfold ex107_base in *. revert W SG HS OP P1 P2 P3 S1 S2 HX HY CP CB HH BX BY ML TF C EX. destruct ex107_at as [c f]. generalize ex107_ext. cbn [fst snd]. intros ext W SG HS OP P1 P2 P3 S1 S2 HX HY CP CB HH BX BY ML TF C EX.
  destruct ex43_num_ok as [N1 [N2 [N3 _]]]. assert (NW : forall w, weights c f = Ok w -> all_nonneg w) by (intros w E; rewrite W in E; injection E as <-; intros v [<-|[<-|[<-|[]]]]; discriminate).
  assert (D : exists ds, plot_contour ex34_num ex43_kde2 sorted_argsort logistic false c f "x" "y" = Ok ds).
  { refine (contour_total _ _ _ _ _ c f _ _ _ _ _ _ sorted_argsort_ok logistic_ok N1 N2 N3 NW CB _ _ HH _ _ _ _ _ _); [apply ColorProofs.validb_ok; exact VB|rewrite SG; unfold Rdefinitions.Q2R; cbn; Lra.lra|lia|lia|rewrite HS; apply ex43_levels|rewrite HS; apply ex43_levels|rewrite HS; cbn [length]; lia|intros _; apply opaque_enough; exact OP]. }
  destruct D as [ds D]. assert (LN : exists d, In d ds /\ match d with Lines _ _ _ _ _ _ _ _ => True | _ => False end).
  { unfold plot_contour in D. cbv zeta in D. rewrite CB in D. cbn [rbind] in D. destruct (ShadeModel.contour_colours _ _ _ _) as [cc|]; [cbn [rbind] in D|discriminate D]. rewrite HH in D. cbn [rbind] in D. destruct (convert_to_stdev _ _) as [vals|]; [cbn [rbind] in D|discriminate D].
    destruct (if ch_cfg c Fshade && alpha_positive (ch_cfg c Fshade_alpha) then _ else _) as [[]|]; [cbn [rbind] in D|discriminate D]. destruct (contour_args _ _ _ _ _) as [[]|]; [cbn [rbind] in D|discriminate D]. injection D as <-. eexists. split; [apply in_or_app; right; left; reflexivity|exact I]. }
  destruct LN as [d [LI LN]].
  assert (PS : plot_surface ex34_num ex43_kde2 sorted_argsort logistic false [(c, f)] "x" "y" = Ok (ds, [])).
  { cbn [plot_surface]. unfold surface_one. rewrite S1, S2, P1, P2, P3. cbn [negb orb rbind fst snd]. rewrite D. cbn [rbind fst snd app]. rewrite !app_nil_r. reflexivity. }
  set (b := {| pb_chains := [(c, f)]; pb_columns := ["x"; "y"]; pb_extents := ext; pb_blind := sanitise_blinds (p_blind ex107_cfg) ["x"; "y"]; pb_logs := p_log_scales ex107_cfg |}) in *.
  set (pp := plot_panel ex34_num ex43_kde2 sorted_argsort logistic (bk_filled ex_backend) ex107_cfg fig_truths b).
  assert (G1 : exists x, pp 0%nat 0%nat "x" "x" = Ok x).
  { unfold pp, plot_panel. change (0 <? 0)%nat with false. cbv iota zeta. change (p_plot_hists ex107_cfg && (0 =? 0)%nat) with true. cbv iota.
    match goal with |- context [bars_panel _ _ _ ?a ?s ?l] => replace a with false by reflexivity; replace s with true by (unfold b; cbn [pb_chains filter fst]; rewrite P1; reflexivity); replace l with [(c, f)] by (unfold b; cbn [pb_chains filter fst snd]; rewrite P1, HX; reflexivity) end.
    rewrite BX. cbn [rbind]. eexists. reflexivity. }
  assert (G4 : exists x, pp 1%nat 1%nat "y" "y" = Ok x).
  { unfold pp, plot_panel. change (1 <? 1)%nat with false. cbv iota zeta. change (p_plot_hists ex107_cfg && (1 =? 1)%nat) with true. cbv iota.
    match goal with |- context [bars_panel _ _ _ ?a ?s ?l] => replace a with false by reflexivity; replace s with true by (unfold b; cbn [pb_chains filter fst]; rewrite P1; reflexivity); replace l with [(c, f)] by (unfold b; cbn [pb_chains filter fst snd]; rewrite P1, HY; reflexivity) end.
    rewrite BY. cbn [rbind]. eexists. reflexivity. }
  assert (G3 : exists ts, pp 1%nat 0%nat "y" "x" = Ok (map Surface ds ++ ts, [])).
  { unfold pp, plot_panel. change (1 <? 0)%nat with false. cbv iota zeta. change (p_plot_hists ex107_cfg && (1 =? 0)%nat) with false. cbv iota. change (p_sigma2d ex107_cfg) with false. change (pb_chains b) with [(c, f)]. rewrite PS. cbn [rbind fst snd]. eexists. reflexivity. }
  destruct G1 as [x1 G1]. destruct G4 as [x4 G4]. destruct G3 as [ts G3]. assert (G2 : pp 0%nat 1%nat "x" "y" = Ok ([], [])) by reflexivity.
  assert (F : exists fig, snd (plot ex_backend ex107_session ex107_req (Some ["x"; "y"]) FileNone FPage) = Ok fig /\ fg_axes fig = mapij (relabel (bk_offset ex_backend) 2) (zip_axes m [[x1; ([], [])]; [(map Surface ds ++ ts, []); x4]])).
  { unfold plot. rewrite ConsumerProofs.with_base_contents. change (s_world ex107_session) with ex34. rewrite C. cbn [rbind]. cbv zeta. change (config_in_use (s_plotter ex107_session)) with ex107_cfg. change (sanitise_columns (Some ["x"; "y"]) [(c, f)]) with ["x"; "y"]. change (bk_num ex_backend) with ex34_num. rewrite EX. cbn [rbind].
    change (s_truths ex107_session) with fig_truths. fold b. unfold plot_figure. cbv zeta. change (pb_columns b) with ["x"; "y"]. change (length ["x"; "y"]) with 2%nat.
    match goal with |- context [get_size FPage 2 ?e] => assert (E : e = false) by (unfold b; cbn [pb_chains existsb fst]; rewrite CP; reflexivity); rewrite E end. rewrite TF. cbn [rbind].
    change (params_x ex107_cfg ["x"; "y"]) with ["x"; "y"]. change (params_y ex107_cfg ["x"; "y"]) with ["x"; "y"]. change (plot_panel ex34_num (bk_kde2 ex_backend) (bk_argsort ex_backend) (bk_Phi ex_backend) (bk_filled ex_backend) ex107_cfg fig_truths b) with pp. rewrite (grid_two pp _ _ _ _ G1 G2 G3 G4). cbn [rbind]. rewrite ML. destruct (dflt _ _); cbn [rmap rbind]; eexists; split; reflexivity. }
  destruct F as [fig [F AX]]. destruct (FigureProofs.triangle_ok _ _ _ _ TF) as [_ [M1 [M2 _]]]. change (triangle_size ex107_cfg (pb_columns b)) with 2%nat in *.
  destruct m as [|r0 [|r1 [|? ?]]]; try discriminate M1. pose proof (M2 r0 (or_introl eq_refl)) as R0. pose proof (M2 r1 (or_intror (or_introl eq_refl))) as R1. destruct r0 as [|a0 [|a1 [|? ?]]]; try discriminate R0. destruct r1 as [|b0 [|b1 [|? ?]]]; try discriminate R1.
  exists c, f, fig. eexists _, _, d. split; [apply shown_contents; exact C|]. split; [split; [exact P1|split; [exact P2|split; [exact P3|exact NW]]]|]. split; [exact F|]. rewrite AX. split; [reflexivity|]. split; [reflexivity|]. split; [|exact LN].
  unfold relabel, with_offset. cbn [Nat.eqb Nat.sub fst snd]. do 2 (apply in_or_app; left). apply in_or_app. right. apply in_or_app. left. apply in_map. exact LI.
Qed.
Example C107_nonvacuous : session ex_rgb true (s_world ex107_session) /\ rows_shuffled (fst (s_world ex107_session)) ex91_heap /\ numerics_ok ex_backend /\ order_free (bk_num ex_backend) /\ order_free2 ex_backend /\
  (forall p, power_law (n_power (bk_num ex_backend) p)) /\ config_of ex107_session ex107_cfg /\ requested (s_world ex107_session) ex107_req = map Some ["A"] /\ h_frames ex91_heap <> h_frames (fst (s_world ex107_session)) /\
  exists c f fig fig' row calls d, shown (s_world ex107_session) ex107_req false [(c, f)] /\ asked (Some ["x"; "y"]) [(c, f)] ["x"; "y"] /\ only_contours c f /\
    snd (plot ex_backend ex107_session ex107_req (Some ["x"; "y"]) FileNone FPage) = Ok fig /\ snd (plot ex_backend (with_world ex107_session (ex91_heap, snd ex34)) ex107_req (Some ["x"; "y"]) FileNone FPage) = Ok fig' /\
    nth_error (fg_axes fig) 1 = Some row /\ nth_error row 0 = Some calls /\ In (Surface d) calls /\ match d with Lines _ _ _ _ _ _ _ _ => True | _ => False end.
Proof.
  destruct C91_nonvacuous as [S [R [OF [P [_ [NE _]]]]]]. destruct ex43_num_ok as [N1 [N2 [N3 _]]]. assert (NO : numerics_ok ex_backend) by (split; [exact sorted_argsort_ok|]; split; [exact N1|]; split; [exact N2|exact N3]).
  assert (OF2 : order_free2 ex_backend) by (intros ? ? ? ? ? ? ? ? ? ? ? ? ? ? ? ? ? ?; reflexivity). assert (CF : config_of ex107_session ex107_cfg) by reflexivity. assert (HR : requested (s_world ex107_session) ex107_req = map Some ["A"]) by (vm_compute; reflexivity).
  split; [exact S|]. split; [exact R|]. split; [exact NO|]. split; [exact OF|]. split; [exact OF2|]. split; [exact P|]. split; [exact CF|]. split; [exact HR|]. split; [exact NE|].
  destruct ex107_drawn as [c [f [fig [row [calls [d [SH [OC [F [A1 [A2 [LI LN]]]]]]]]]]]].
  pose proof (C107_shuffled ex_rgb true ex_backend ex107_session ex91_heap ["A"] ex107_req (Some ["x"; "y"]) FileNone FPage ex107_cfg [(c, f)] ["x"; "y"] S R NO OF OF2 P CF HR SH eq_refl) as T.
  specialize (T ltac:(intros c0 f0 [E|[]]; injection E as <- <-; exact OC)). rewrite F in T. change (s_world ex107_session) with ex34 in T. destruct (snd (plot ex_backend (with_world ex107_session (ex91_heap, snd ex34)) ex107_req (Some ["x"; "y"]) FileNone FPage)) as [fig'|e] eqn:F'; [|contradiction T].
  exists c, f, fig, fig', row, calls, d. split; [exact SH|]. split; [reflexivity|]. split; [exact OC|]. split; [exact F|]. split; [reflexivity|]. auto.
Qed.
