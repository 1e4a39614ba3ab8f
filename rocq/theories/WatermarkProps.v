(** C87: the watermark runs along the diagonal and fits the figure's width. *)
From Coq Require Import String List Bool ZArith QArith Qreals Reals Lra.
From Verif Require Import Py NumModel ColorModel FrameModel ConfigModel ChainModel RegistryModel RegistrySpec RegistryProps TextModel AnalysisModel AnalysisProps FigureModel FigureSpec FigureProofs FigureCases ConsumerSpec ConsumerProofs ConsumerProps
  WatermarkModel WatermarkSpec WatermarkProofs.
From Verif Require MarginalModel.
Import ListNotations.
Open Scope string_scope.
Open Scope list_scope.
Open Scope R_scope.

Lemma drawn_by_tex other k s d s' fig cfg wm : config_of s cfg -> draw_figure k s d = (s', Ok fig) -> fg_watermark fig = Some wm -> NoDup (dkeys (p_watermark_text_kwargs cfg)) ->
  by_tex other cfg (rendered_by_tex other wm).
Proof.
  intros HC H HM ND. pose proof (C58_watermark k s d s' fig cfg HC H ND) as K. destruct (p_watermark cfg) as [t|]; [|congruence].
  destruct K as [wm' [E [_ [_ [K1 K2]]]]]. rewrite HM in E. injection E as <-. unfold by_tex, rendered_by_tex.
  destruct (dget "usetex" (p_watermark_text_kwargs cfg)) as [v|] eqn:EV.
  - rewrite (K1 v eq_refl). destruct v as [q|x|b|n]; cbn [truthy]; try reflexivity.
    + rewrite negb_true_iff. split; intros A.
      * intros B. apply Qeq_bool_iff in B. congruence.
      * destruct (Qeq_bool q 0) eqn:EQ; [apply Qeq_bool_iff in EQ; contradiction|reflexivity].
    + rewrite negb_true_iff, String.eqb_neq. reflexivity.
  - rewrite (K2 eq_refl). destruct (p_usetex cfg) as [b|]; cbn; [destruct b|]; split; congruence.
Qed.

(** The text is written over the middle of the figure (or axis) and turned so that it runs along the falling diagonal of the
    figure, whatever its proportions and resolution. *)
Theorem C87_diagonal : forall metrics other k s d s' fig cfg wm m, config_of s cfg -> draw_figure k s d = (s', Ok fig) -> fg_watermark fig = Some wm ->
  let W := Q2R (fst (fg_size fig)) in let H := Q2R (snd (fg_size fig)) in 0 < W -> 0 < H -> (0 < p_dpi cfg)%Z ->
  layout metrics other (fg_size fig) (p_dpi cfg) (scale_of d) wm = Ok m ->
  mk_x m = 1 / 2 /\ mk_y m = 1 / 2 /\ -90 < mk_rotation m < 0 /\
  exists r, 0 < r /\ cos (mk_rotation m * PI / 180) = r * W /\ sin (mk_rotation m * PI / 180) = - (r * H).
Proof.
  intros metrics other k s d s' fig cfg wm m HC HD HM. cbv zeta. destruct (fg_size fig) as [W H]. cbn [fst snd]. intros HW HH HP E.
  assert (HP' : 0 < IZR (p_dpi cfg)) by (apply (IZR_lt 0); exact HP). unfold layout in E. cbv zeta in E. cbn [fst snd] in E. destruct (Req_EM_T _ 0); [discriminate|]. injection E as <-. cbn [mk_x mk_y mk_rotation].
  split; [reflexivity|]. split; [reflexivity|].
  change (180 / PI * atan (- (Q2R H * IZR (p_dpi cfg)) / (Q2R W * IZR (p_dpi cfg)))) with (angle (Q2R W) (Q2R H) (IZR (p_dpi cfg))).
  split; [apply angle_range; assumption|]. rewrite angle_cos, angle_sin by assumption. pose proof (diagonal_pos (Q2R W) (Q2R H) HH) as DP.
  exists (/ diagonal (Q2R W) (Q2R H)). split; [apply Rinv_0_lt_compat; exact DP|]. unfold Rdiv. split; ring.
Qed.
Print Assumptions C87_diagonal.

(** For a text that grows in proportion to the font size: the layout succeeds, and the font size is the greatest whole number
    of points for which the turned text takes no more than its share of the figure's width; it never reaches beyond the sides. *)
Theorem C87_width : forall metrics other k s d s' fig cfg wm w h tex, config_of s cfg -> draw_figure k s d = (s', Ok fig) -> fg_watermark fig = Some wm ->
  NoDup (dkeys (p_watermark_text_kwargs cfg)) ->
  let W := Q2R (fst (fg_size fig)) in let H := Q2R (snd (fg_size fig)) in 0 < W -> 0 < H -> (0 < p_dpi cfg)%Z ->
  by_tex other cfg tex -> 0 < w -> 0 < h -> proportional metrics wm tex w h ->
  exists m e e', layout metrics other (fg_size fig) (p_dpi cfg) (scale_of d) wm = Ok m /\ (0 <= mk_size m)%Z /\
    spans fst (inches (IZR (mk_size m) * w)) (inches (IZR (mk_size m) * h)) (mk_rotation m) e /\
    spans fst (inches (IZR (mk_size m + 1) * w)) (inches (IZR (mk_size m + 1) * h)) (mk_rotation m) e' /\
    e <= share tex (is_triangle_b d) (has_axis wm) * W < e' /\ e < W.
Proof.
  intros metrics other k s d s' fig cfg wm w h tex HC HD HM ND. cbv zeta. intros HW HH HP HT Hw Hh PR.
  assert (ET : tex = rendered_by_tex other wm).
  { pose proof (drawn_by_tex other k s d s' fig cfg wm HC HD HM ND) as K. unfold by_tex in *. destruct (dget "usetex" (p_watermark_text_kwargs cfg)) as [[q|x|b|n]|]; try congruence;
      destruct tex, (rendered_by_tex other wm); try reflexivity; destruct HT as [T1 T2], K as [K1 K2]; try (symmetry; apply K2; apply T1; reflexivity); apply T2; apply K1; reflexivity. }
  destruct (fg_size fig) as [W H]. cbn [fst snd] in *. rewrite ET in PR. assert (HP' : 0 < IZR (p_dpi cfg)) by (apply (IZR_lt 0); exact HP).
  destruct (layout_ok metrics other W H (p_dpi cfg) d wm w h HW HH HP Hw Hh PR) as [m [E [_ [_ [ER [S0 [B1 B2]]]]]]]. rewrite <- ET in *.
  set (X := Q2R W) in *. set (Y := Q2R H) in *. set (p := IZR (p_dpi cfg)) in *. clearbody X Y p. pose proof (diagonal_pos X Y HH) as DP. set (D := diagonal X Y) in *.
  pose proof (angle_cos X Y p HW HH HP') as EC. pose proof (angle_sin X Y p HW HH HP') as ES. fold D in EC, ES. rewrite <- ER in EC, ES.
  assert (C1 : 0 < X / D) by (apply Rdiv_lt_0_compat; assumption). assert (C2 : 0 < Y / D) by (apply Rdiv_lt_0_compat; assumption). assert (C3 : - Y / D = - (Y / D)) by (unfold Rdiv; ring).
  assert (Z0 : 0 <= IZR (mk_size m)) by (apply (IZR_le 0); exact S0).
  assert (SPAN : forall z, 0 <= z -> spans fst (inches (z * w)) (inches (z * h)) (mk_rotation m) (z * ((w * X + h * Y) / (72 * D)))).
  { intros z Hz. replace (z * ((w * X + h * Y) / (72 * D))) with (inches (z * w) * cos (mk_rotation m * PI / 180) - inches (z * h) * sin (mk_rotation m * PI / 180)) by (rewrite EC, ES; unfold inches; field; lra).
    apply spans_x; [unfold inches; apply Rmult_le_pos; [nra|lra]|unfold inches; apply Rmult_le_pos; [nra|lra]|lra|lra]. }
  exists m. do 2 eexists. split; [exact E|]. split; [exact S0|]. split; [apply SPAN; exact Z0|]. rewrite plus_IZR. split; [apply SPAN; lra|].
  set (q := share tex (is_triangle_b d) (has_axis wm)) in *. assert (QS : q < 1) by apply share_small. assert (QP : 0 < q) by apply share_pos. clearbody q.
  assert (N : 0 < w * X + h * Y) by nra. assert (F : 0 < (w * X + h * Y) / (72 * D)) by (apply Rdiv_lt_0_compat; nra).
  assert (TE : 72 * q * X * D / (w * X + h * Y) * ((w * X + h * Y) / (72 * D)) = q * X) by (field; split; lra).
  split; [split|]; nra.
Qed.
Print Assumptions C87_width.

(** On figures that are not wider than high, and for a text written without LaTeX that is long enough, it does not reach beyond
    the lower and upper border either. *)
Theorem C87_height_partial : forall metrics other k s d s' fig cfg wm w h tex, config_of s cfg -> draw_figure k s d = (s', Ok fig) -> fg_watermark fig = Some wm ->
  NoDup (dkeys (p_watermark_text_kwargs cfg)) ->
  let W := Q2R (fst (fg_size fig)) in let H := Q2R (snd (fg_size fig)) in 0 < W -> 0 < H -> (0 < p_dpi cfg)%Z ->
  by_tex other cfg tex -> 0 < w -> 0 < h -> proportional metrics wm tex w h ->
  W <= H \/ (tex = false /\ 7 * h * W <= 2 * w * H) ->
  exists m e, layout metrics other (fg_size fig) (p_dpi cfg) (scale_of d) wm = Ok m /\
    spans snd (inches (IZR (mk_size m) * w)) (inches (IZR (mk_size m) * h)) (mk_rotation m) e /\ e < H.
Proof.
  intros metrics other k s d s' fig cfg wm w h tex HC HD HM ND. cbv zeta. intros HW HH HP HT Hw Hh PR G.
  destruct (C87_width metrics other k s d s' fig cfg wm w h tex HC HD HM ND HW HH HP HT Hw Hh PR) as [m [e [e' [E [S0 [S1 [_ [[B _] _]]]]]]]].
  assert (ER : mk_rotation m = angle (Q2R (fst (fg_size fig))) (Q2R (snd (fg_size fig))) (IZR (p_dpi cfg))).
  { unfold layout in E. cbv zeta in E. destruct (Req_EM_T _ 0); [discriminate|]. injection E as <-. reflexivity. }
  destruct (fg_size fig) as [W H]. cbn [fst snd] in *. assert (HP' : 0 < IZR (p_dpi cfg)) by (apply (IZR_lt 0); exact HP).
  set (X := Q2R W) in *. set (Y := Q2R H) in *. set (p := IZR (p_dpi cfg)) in *. clearbody X Y p. pose proof (diagonal_pos X Y HH) as DP. set (D := diagonal X Y) in *.
  pose proof (angle_cos X Y p HW HH HP') as EC. pose proof (angle_sin X Y p HW HH HP') as ES. fold D in EC, ES. rewrite <- ER in EC, ES.
  assert (C1 : 0 < X / D) by (apply Rdiv_lt_0_compat; assumption). assert (C2 : 0 < Y / D) by (apply Rdiv_lt_0_compat; assumption). assert (C3 : - Y / D = - (Y / D)) by (unfold Rdiv; ring).
  assert (Z0 : 0 <= IZR (mk_size m)) by (apply (IZR_le 0); exact S0). remember (IZR (mk_size m)) as z eqn:EZ.
  assert (A1 : 0 <= inches (z * w)) by (unfold inches; apply Rmult_le_pos; [nra|lra]). assert (A2 : 0 <= inches (z * h)) by (unfold inches; apply Rmult_le_pos; [nra|lra]).
  assert (SX : spans fst (inches (z * w)) (inches (z * h)) (mk_rotation m) (inches (z * w) * cos (mk_rotation m * PI / 180) - inches (z * h) * sin (mk_rotation m * PI / 180))) by (apply spans_x; [exact A1|exact A2|lra|lra]).
  exists m. eexists. split; [exact E|]. rewrite <- EZ. split; [apply spans_y; [exact A1|exact A2|lra|lra]|]. pose proof (spans_unique _ _ _ _ _ _ S1 SX) as EE. subst e. rewrite EC, ES in *. rewrite C3 in *.
  pose proof (share_small tex (is_triangle_b d) (has_axis wm)) as QS. assert (QT : tex = false -> share tex (is_triangle_b d) (has_axis wm) <= 7 / 9) by (intros ->; unfold share; destruct (is_triangle_b d), (has_axis wm); lra).
  pose proof (share_pos tex (is_triangle_b d) (has_axis wm)) as QP. set (q := share tex (is_triangle_b d) (has_axis wm)) in *. clearbody q.
  set (u := z / 72 / D). assert (U0 : 0 <= u) by (unfold u, Rdiv; repeat apply Rmult_le_pos; try lra; apply Rlt_le, Rinv_0_lt_compat; lra).
  replace (inches (z * w) * (X / D) - inches (z * h) * - (Y / D)) with (u * (w * X + h * Y)) in B by (unfold u, inches; field; lra).
  replace (inches (z * h) * (X / D) - inches (z * w) * - (Y / D)) with (u * (h * X + w * Y)) by (unfold u, inches; field; lra). clearbody u.
  assert (UB : u * (w * X + h * Y) * Y <= q * X * Y) by (apply Rmult_le_compat_r; lra). apply Rmult_lt_reg_l with X; [exact HW|].
  destruct G as [G|[-> G]].
  - (* X (hX + wY) <= Y (wX + hY) *) assert (K : X * (h * X + w * Y) <= (w * X + h * Y) * Y).
    { assert (0 <= h * ((Y - X) * (Y + X))) by (repeat apply Rmult_le_pos; lra). nra. }
    assert (XY : q * (X * Y) < 1 * (X * Y)) by (apply Rmult_lt_compat_r; [apply Rmult_lt_0_compat; assumption|exact QS]). assert (UK : u * (X * (h * X + w * Y)) <= u * ((w * X + h * Y) * Y)) by (apply Rmult_le_compat_l; assumption). nra.
  - specialize (QT eq_refl). assert (UW : u * (w * X + h * Y) <= 7 / 9 * X) by nra. destruct (Rle_lt_or_eq_dec 0 u U0) as [UP|U1].
    + assert (K : u * (7 * h * X) <= u * (2 * w * Y)) by (apply Rmult_le_compat_l; [lra|exact G]). assert (P1 : 0 < u * h * Y * Y) by (repeat apply Rmult_lt_0_compat; assumption).
      assert (K2 : X * (u * (7 * h * X)) <= X * (u * (2 * w * Y))) by (apply Rmult_le_compat_l; lra). assert (K3 : Y * (u * (w * X + h * Y)) <= Y * (7 / 9 * X)) by (apply Rmult_le_compat_l; lra). nra.
    + rewrite <- U1. nra.
Qed.
Print Assumptions C87_height_partial.

(** ** Examples *)
Definition ex87_metrics : text_metrics := fun _ _ _ z => (IZR z * 1, IZR z * 1).
Definition ex87_session : session := acts ex_rgb ex_backend (fresh fig_heap fig_rc)
  [ARegistry (OpNewChain (ex34_args "A" 0 cloud_kw)); ARegistry (OpAdd 0); AConfig (fig_cfg true true (BlindBool false) [])].
Definition ex87_walks : drawing := DWalks ReqAll (Some ["x"; "y"]) FileNone (SizePair 8 2) None false false false.
Definition ex87_mark : watermark := {| wm_axis := None; wm_text := "Draft"; wm_kwargs := watermark_text_kwargs_final (fig_cfg true true (BlindBool false) []); wm_usetex := Some (VBool true) |}.
Lemma ex87_drawn : exists s' fig, draw_figure ex_backend ex87_session ex87_walks = (s', Ok fig) /\ fg_size fig = (8, 2)%Q /\ fg_watermark fig = Some ex87_mark.
Proof. do 2 eexists. split; [vm_compute; reflexivity|]. split; vm_compute; reflexivity. Qed.

(** The layout of a short text on that figure of 8 by 2 inches. *)
Lemma ex87_layout : exists m, layout ex87_metrics (fun _ => false) (8, 2)%Q 200 (scale_of ex87_walks) ex87_mark = Ok m /\
  mk_rotation m = angle 8 2 200 /\ (0 <= mk_size m)%Z /\ 72 * (7 / 9) * 8 * diagonal 8 2 / 10 < IZR (mk_size m) + 1.
Proof.
  assert (E8 : Q2R 8 = 8) by (unfold Q2R; cbn; field). assert (E2 : Q2R 2 = 2) by (unfold Q2R; cbn; field).
  destruct (layout_ok ex87_metrics (fun _ => false) 8 2 200 ex87_walks ex87_mark 1 1) as [m [E [_ [_ [ER [S0 [_ B]]]]]]]; try lra; try reflexivity; [intros z; reflexivity|].
  exists m. split; [exact E|]. rewrite E8, E2 in *. split; [exact ER|]. split; [exact S0|]. eapply Rle_lt_trans; [|exact B]. apply Req_le. unfold share. cbn. field.
Qed.
Example C87_nonvacuous : exists s' fig m, draw_figure ex_backend ex87_session ex87_walks = (s', Ok fig) /\ config_of ex87_session (fig_cfg true true (BlindBool false) []) /\
  NoDup (dkeys (p_watermark_text_kwargs (fig_cfg true true (BlindBool false) []))) /\ by_tex (fun _ => false) (fig_cfg true true (BlindBool false) []) true /\
  fg_watermark fig = Some ex87_mark /\ 0 < Q2R (fst (fg_size fig)) /\ 0 < Q2R (snd (fg_size fig)) /\ proportional ex87_metrics ex87_mark true 1 1 /\
  layout ex87_metrics (fun _ => false) (fg_size fig) (p_dpi (fig_cfg true true (BlindBool false) [])) (scale_of ex87_walks) ex87_mark = Ok m.
Proof.
  destruct ex87_drawn as [s' [fig [E [ES EW]]]]. destruct ex87_layout as [m [EM _]]. exists s', fig, m. split; [exact E|]. split; [vm_compute; reflexivity|].
  split; [constructor|]. split; [split; reflexivity|]. split; [exact EW|]. rewrite ES. cbn [fst snd]. split; [unfold Q2R; cbn; lra|]. split; [unfold Q2R; cbn; lra|]. split; [intros z; reflexivity|]. exact EM.
Qed.
(** A short text, as wide as high, on a walk figure of 8 by 2 inches: the turned text is more than 4 inches high. *)
Theorem C87_height_refuted : exists metrics other rgb2hex k heap rc past d s' fig cfg wm w h tex m e, let s := acts rgb2hex k (fresh heap rc) past in
  config_of s cfg /\ draw_figure k s d = (s', Ok fig) /\ fg_watermark fig = Some wm /\ NoDup (dkeys (p_watermark_text_kwargs cfg)) /\ (0 < p_dpi cfg)%Z /\
  by_tex other cfg tex /\ 0 < w /\ 0 < h /\ proportional metrics wm tex w h /\
  fg_size fig = (8, 2)%Q /\ layout metrics other (fg_size fig) (p_dpi cfg) (scale_of d) wm = Ok m /\
  spans snd (inches (IZR (mk_size m) * w)) (inches (IZR (mk_size m) * h)) (mk_rotation m) e /\ 4 < e.
Proof.
  destruct ex87_drawn as [s' [fig [E [ES EW]]]]. destruct ex87_layout as [m [EM [ER [S0 B]]]].
  pose proof (diagonal_pos 8 2 ltac:(lra)) as DP. pose proof (diagonal_square 8 2) as DQ. assert (DB : 8 < diagonal 8 2 < 9) by nra.
  pose proof (angle_cos 8 2 200 ltac:(lra) ltac:(lra) ltac:(lra)) as EC. pose proof (angle_sin 8 2 200 ltac:(lra) ltac:(lra) ltac:(lra)) as EN. rewrite <- ER in EC, EN.
  assert (Z0 : 0 <= IZR (mk_size m)) by (apply (IZR_le 0); exact S0).
  exists ex87_metrics, (fun _ => false), ex_rgb, ex_backend, fig_heap, fig_rc, [ARegistry (OpNewChain (ex34_args "A" 0 cloud_kw)); ARegistry (OpAdd 0); AConfig (fig_cfg true true (BlindBool false) [])],
    ex87_walks, s', fig, (fig_cfg true true (BlindBool false) []), ex87_mark, 1, 1, true, m. eexists. cbv zeta.
  split; [vm_compute; reflexivity|]. split; [exact E|]. split; [exact EW|]. split; [constructor|]. split; [reflexivity|]. split; [split; reflexivity|]. split; [lra|]. split; [lra|]. split; [intros z; reflexivity|].
  split; [exact ES|]. rewrite ES. split; [exact EM|]. set (D := diagonal 8 2) in *. clearbody D.
  assert (P8 : 0 < 8 / D) by (apply Rdiv_lt_0_compat; lra). assert (P2 : 0 < 2 / D) by (apply Rdiv_lt_0_compat; lra). assert (C3 : - (2) / D = - (2 / D)) by (unfold Rdiv; ring).
  split; [apply spans_y; unfold inches; lra|]. rewrite EC, EN. unfold inches. set (z := IZR (mk_size m)) in *. clearbody z.
  replace (z * 1 / 72 * (8 / D) - z * 1 / 72 * (- (2) / D)) with (z * 10 / 72 / D) by (field; lra). apply Rmult_lt_reg_r with D; [lra|]. replace (z * 10 / 72 / D * D) with (z * 10 / 72) by (field; lra). lra.
Qed.
Print Assumptions C87_height_refuted.
