(** C102: a parameter that no chain has. *)
From Coq Require Import String List Bool Arith ZArith QArith Reals Lia Lqa.
From Verif Require Import Py NumSpec NumModel NumFacts HelpersSpec ColorModel HelpersModel MarginalModel FrameModel ConfigModel ChainModel RegistryModel RegistrySpec RegistryProofs RegistryProps ChainSpec ChainProofs ChainUseProofs DiagProofs
  TextModel AnalysisModel AnalysisSpec AnalysisProofs SurfaceModel PanelSpec SurfaceProofs PanelProofs FigureModel FigureSpec FigureProofs BarProofs TriangleProofs WalkProofs DistProofs SummaryFigProofs AnalysisProps FigureCases TriangleProps WalkProps DistProps SummaryFigProps.
Import ListNotations.
Open Scope string_scope.
Open Scope list_scope.

(** No chain has a column [p]. *)
Definition nobody_has (chains : list (chain * frame)) (p : string) : Prop := forall cf, In cf chains -> ~ is_column (snd cf) p.
Lemma nobody_range num cfg wide chains p r : nobody_has chains p -> dget p (p_extents cfg) = None -> ~ range_of num cfg wide chains p r.
Proof. intros N E H. unfold range_of in H. rewrite E in H. destruct H as [_ [[cf [e [I [[C _] _]]]] _]]. exact (N cf I C). Qed.
Lemma shape_axis fig n m i j : grid_shape fig n m -> (i < n)%nat -> (j < m)%nat -> exists calls, axis fig i j calls.
Proof.
  intros [G1 G2] I J. destruct (nth_error (fg_axes fig) i) as [row|] eqn:E1; [|apply nth_error_None in E1; lia]. assert (L : length row = m) by (apply G2; eapply nth_error_In; exact E1).
  destruct (nth_error row j) as [calls|] eqn:E2; [|apply nth_error_None in E2; lia]. exists calls, row. auto.
Qed.

(** Asked for a parameter none of the chains shown has, and for which the user gave no range, the figures of
    distributions, summaries and pairs raise: no figure comes back, and none is saved. *)
Theorem C102_distributions : forall rgb2hex k s req columns file wrap size chains cols cfg p,
  reachable rgb2hex (s_world s) -> plots s req columns chains cols -> config_of s cfg -> In p cols -> nobody_has chains p -> dget p (p_extents cfg) = None ->
  exists e, snd (plot_distributions k s req columns file wrap size) = Err e.
Proof.
  intros rgb k s req columns file wrap size chains cols cfg p RE P HC HI NH NE. destruct (plot_distributions k s req columns file wrap size) as [s' [fig|e]] eqn:H; [exfalso|exists e; reflexivity].
  destruct (C71_partial _ _ _ _ _ _ _ _ _ _ _ _ _ RE P HC H) as [rows [w [E1 [_ [_ [PN _]]]]]]. destruct (In_nth_error _ _ HI) as [n Hn]. destruct (PN n p Hn) as [i [j [calls [WR [HA _]]]]].
  assert (HP : panel_of wrap cols fig p calls) by (exists w, n, i, j; auto). destruct (C50_distributions _ _ _ _ _ _ _ _ _ _ _ _ _ RE P HC H p calls HP) as [r [R _]]. exact (nobody_range _ _ _ _ _ _ NH NE R).
Qed.
Print Assumptions C102_distributions.
Theorem C102_summary : forall rgb2hex k s req columns file size err sp vr chains cols cfg p,
  reachable rgb2hex (s_world s) -> plots s req columns chains cols -> config_of s cfg -> In p cols -> nobody_has chains p -> dget p (p_extents cfg) = None ->
  exists e, snd (plot_summary k s req columns file size err sp vr) = Err e.
Proof.
  intros rgb k s req columns file size err sp vr chains cols cfg p RE P HC HI NH NE. destruct (plot_summary k s req columns file size err sp vr) as [s' [fig|e]] eqn:H; [exfalso|exists e; reflexivity].
  destruct (summary_parts _ _ _ _ _ _ _ _ _ _ _ _ _ _ H (reachable_ok _ _ RE) P HC) as [b [E1 [E2 [B1 [B2 [B3 HW]]]]]]. destruct (summary_figure_ok _ _ _ _ _ _ _ _ _ _ _ HW) as [N0 _]. rewrite E1 in N0.
  destruct (C72_layout _ _ _ _ _ _ _ _ _ _ _ _ _ _ _ RE P HC H) as [_ [_ L]]. destruct (In_nth_error _ _ HI) as [j Hj]. destruct chains as [|cf chains]; [cbn in N0; lia|]. destruct (L 0%nat j cf p eq_refl Hj) as [calls [lab [HP _]]].
  destruct (C50_summary _ _ _ _ _ _ _ _ _ _ _ _ _ _ _ RE P HC H _ _ _ _ _ HP) as [r [R _]]. exact (nobody_range _ _ _ _ _ _ NH NE R).
Qed.
Print Assumptions C102_summary.
Theorem C102_triangle : forall rgb2hex k s req columns file size chains cols cfg p,
  reachable rgb2hex (s_world s) -> plots s req columns chains cols -> config_of s cfg -> In p cols -> nobody_has chains p -> dget p (p_extents cfg) = None ->
  exists e, snd (plot k s req columns file size) = Err e.
Proof.
  intros rgb k s req columns file size chains cols cfg p RE P HC HI NH NE. destruct (plot k s req columns file size) as [s' [fig|e]] eqn:H; [exfalso|exists e; reflexivity].
  destruct (plot_axes _ _ _ _ _ _ _ _ _ _ _ H (reachable_ok _ _ RE) P HC) as [b [<- [<- [B1 [B2 [B3 [N [G [BL PA]]]]]]]]]. destruct (In_nth_error _ _ HI) as [n Hn]. assert (LN : (n < length (pb_columns b))%nat) by (apply nth_error_Some; congruence).
  assert (NR : forall e, dget p (pb_extents b) <> Some (Some e)). { intros [lo hi] E. exact (nobody_range _ _ _ _ _ _ NH NE (extents_range _ _ _ _ _ _ _ _ _ B1 HI E)). }
  assert (PX : forall i py, panel_at cfg (pb_columns b) i n p py -> (n <= i)%nat -> (i < triangle_size cfg (pb_columns b))%nat -> False).
  { intros i py HP HJ HB. destruct (shape_axis _ _ _ i n G HB ltac:(lia)) as [calls HA]. destruct (PA i n p py calls HP HJ HA) as [fc [pc [paths [K1 _]]]]. destruct (panel_frame _ _ _ _ _ _ _ _ K1 HJ) as [r [yr [R1 _]]]. exact (NR _ R1). }
  unfold triangle_size in *. destruct (p_plot_hists cfg) eqn:EH; [apply (PX n p); [split; [exact Hn|rewrite EH; exact Hn]|lia|lia]|].
  destruct (nth_error (pb_columns b) (S n)) as [q|] eqn:Hq; [assert (LS : (S n < length (pb_columns b))%nat) by (apply nth_error_Some; congruence); apply (PX n q); [split; [exact Hn|rewrite EH; exact Hq]|lia|lia]|].
  apply nth_error_None in Hq. destruct n as [|n]; [lia|]. destruct (nth_error (pb_columns b) 0) as [q|] eqn:H0; [|apply nth_error_None in H0; lia].
  assert (HP : panel_at cfg (pb_columns b) n 0 q p) by (split; [exact H0|rewrite EH; exact Hn]). destruct (shape_axis _ _ _ n 0%nat G ltac:(lia) ltac:(lia)) as [calls HA]. destruct (PA n 0%nat q p calls HP ltac:(lia) HA) as [fc [pc [paths [K1 _]]]].
  destruct (panel_frame _ _ _ _ _ _ _ _ K1 ltac:(lia)) as [r [yr [_ [R2 _]]]]. assert (YC : ycond cfg n 0 = true) by (unfold ycond; rewrite EH; cbn; rewrite ?orb_true_r; reflexivity). rewrite YC in R2. destruct R2 as [e [_ R2]]. exact (NR _ R2).
Qed.
Print Assumptions C102_triangle.

(** ** Examples and failures *)
Definition lacks (p : string) (f : frame) : bool := forallb (fun kv => match fst kv with CStr n => negb (String.eqb n p) | _ => true end) (f_cols f).
Lemma lacks_column p f : lacks p f = true -> ~ is_column f p.
Proof. intros H [l I]. unfold lacks in H. rewrite forallb_forall in H. specialize (H _ I). cbn in H. rewrite String.eqb_refl in H. discriminate. Qed.
Lemma nobody_by s req columns chains cols p : plots s req columns chains cols -> forallb (lacks p) (h_frames (fst (fst (get_final_chains (s_world s))))) = true -> nobody_has chains p.
Proof.
  intros [w1 [finals [names [locs [F [_ [_ [O _]]]]]]]] H. rewrite F in H. cbn [fst] in H. intros cf I. unfold objects in O. clear -O H I. induction O as [|l x locs chains [_ E] _ IH]; [destruct I|]. destruct I as [->|I]; [|exact (IH I)].
  rewrite E. apply lacks_column. unfold frame_at. destruct (Nat.lt_ge_cases (ch_samples (fst cf)) (length (h_frames (fst w1)))) as [K|K]; [rewrite forallb_forall in H; apply H, nth_In; exact K|rewrite nth_overflow by exact K; reflexivity].
Qed.
Definition cfg102 : plot_config := fig_cfg false true BlindNone [].
(** No chain has a column q: three figures refuse it.  The walks show a row with nothing in it. *)
Lemma walked102 : exists fig, walked (fig_pair cfg102) ["x"; "q"] cfg102 fig /\ walks (WalkProps.calls_of fig 3 0) = [] /\ axis fig 3 0 (WalkProps.calls_of fig 3 0) /\ fg_saved fig = [("a.png", 200%Z)].
Proof. eexists. split; [eapply walked_by with (names := ["A"; "B"]); [apply fig_reachable|reflexivity|vm_compute; reflexivity|vm_compute; reflexivity]|]. split; [vm_compute; reflexivity|]. split; [eexists; split; reflexivity|vm_compute; reflexivity]. Qed.
Example C102_nonvacuous : exists chains cols,
  reachable ex_rgb (s_world (fig_pair cfg102)) /\ plots (fig_pair cfg102) ReqAll (Some ["x"; "q"]) chains cols /\ config_of (fig_pair cfg102) cfg102 /\ In "q" cols /\ nobody_has chains "q" /\ dget "q" (p_extents cfg102) = None /\
  snd (plot_distributions ex_backend (fig_pair cfg102) ReqAll (Some ["x"; "q"]) (FileOne "a.png") 2 SizeNone) = Err ValueError /\
  snd (plot_summary ex_backend (fig_pair cfg102) ReqAll (Some ["x"; "q"]) (FileOne "a.png") 1 true 1 1) = Err ValueError /\
  snd (plot ex_backend (fig_pair cfg102) ReqAll (Some ["x"; "q"]) (FileOne "a.png") FGrow) = Err ValueError /\
  (exists fig, snd (plot ex_backend (fig_pair cfg102) ReqAll (Some ["x"; "y"]) (FileOne "a.png") FGrow) = Ok fig).
Proof.
  destruct walked102 as [fig [[R [C [M [[s' W] [chains P]]]]] _]]. exists chains, ["x"; "q"]. split; [exact R|]. split; [exact P|]. split; [exact C|]. split; [right; left; reflexivity|]. split; [eapply nobody_by; [exact P|vm_compute; reflexivity]|]. split; [reflexivity|].
  split; [vm_compute; reflexivity|]. split; [vm_compute; reflexivity|]. split; [vm_compute; reflexivity|]. eexists. vm_compute. reflexivity.
Qed.
Theorem C102_walks_refuted : exists rgb2hex k s req columns file size convolve pw pp lw s' fig chains cols cfg p i calls,
  reachable rgb2hex (s_world s) /\ plots s req columns chains cols /\ config_of s cfg /\ In p cols /\ nobody_has chains p /\ dget p (p_extents cfg) = None /\
  plot_walks k s req columns file size convolve pw pp lw = (s', Ok fig) /\ axis fig i 0 calls /\ walks calls = [] /\ fg_saved fig <> [].
Proof.
  destruct walked102 as [fig [[R [C [M [[s' W] [chains P]]]]] [E [A K]]]]. exists ex_rgb, ex_backend, (fig_pair cfg102), ReqAll, (Some ["x"; "q"]), (FileOne "a.png"), SizeNone, (Some 2%Z), true, true, false, s', fig, chains, ["x"; "q"], cfg102, "q", 3%nat, (WalkProps.calls_of fig 3 0).
  split; [exact R|]. split; [exact P|]. split; [exact C|]. split; [right; left; reflexivity|]. split; [eapply nobody_by; [exact P|vm_compute; reflexivity]|]. split; [reflexivity|]. split; [exact W|]. split; [exact A|]. split; [exact E|]. rewrite K. discriminate.
Qed.
Print Assumptions C102_walks_refuted.
(** Given a range for it, the triangle shows panels with axes and nothing drawn in them. *)
Definition cfg102x : plot_config := {|
  p_labels := []; p_max_ticks := 5; p_plot_hists := true; p_flip := false; p_serif := None; p_usetex := None; p_label_font_size := 12; p_spacing := None;
  p_show_legend := None; p_legend_kwargs := []; p_legend_location := None; p_legend_artists := None; p_legend_color_text := true;
  p_watermark := None; p_watermark_text_kwargs := []; p_summarise := true; p_sigma2d := false; p_blind := BlindNone; p_log_scales := []; p_extents := [("q", (2, 6)%Q)]; p_dpi := 200 |}.
Theorem C102_range_refuted : exists rgb2hex k s req columns file size s' fig chains cols cfg p i j calls,
  reachable rgb2hex (s_world s) /\ plots s req columns chains cols /\ config_of s cfg /\ In p cols /\ nobody_has chains p /\
  plot k s req columns file size = (s', Ok fig) /\ axis fig i j calls /\ panel_at cfg cols i j "x" p /\ current_limits AY calls = Some (2, 6)%Q /\ surfaces calls = [] /\ fg_saved fig <> [].
Proof.
  assert (EX : exists fig, drawn_figure (fig_session cloud_kw cloud_kw [] cfg102x) ["x"; "q"] cfg102x fig /\ axis fig 1 0 (TriangleProps.calls_of fig 1 0) /\ current_limits AY (TriangleProps.calls_of fig 1 0) = Some (2, 6)%Q /\
    surfaces (TriangleProps.calls_of fig 1 0) = [] /\ fg_saved fig = [("a.png", 200%Z)]).
  { eexists. split; [apply drawn; vm_compute; reflexivity|]. split; [eexists; split; reflexivity|]. repeat split; vm_compute; reflexivity. }
  destruct EX as [fig [[R [C [[s' W] [chains P]]]] [A [L [S0 K]]]]]. exists ex_rgb, ex_backend, (fig_session cloud_kw cloud_kw [] cfg102x), ReqAll, (Some ["x"; "q"]), (FileOne "a.png"), FGrow, s', fig, chains, ["x"; "q"], cfg102x, "q", 1%nat, 0%nat, (TriangleProps.calls_of fig 1 0).
  split; [exact R|]. split; [exact P|]. split; [exact C|]. split; [right; left; reflexivity|]. split; [eapply nobody_by; [exact P|vm_compute; reflexivity]|]. split; [exact W|]. split; [exact A|]. split; [split; reflexivity|]. split; [exact L|]. split; [exact S0|]. rewrite K. discriminate.
Qed.
Print Assumptions C102_range_refuted.
