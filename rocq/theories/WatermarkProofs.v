(** Proofs about the watermark's geometry. *)
From Coq Require Import String List Bool ZArith QArith Qreals Reals Lra.
From Verif Require Import Py RegistryModel FigureModel ConsumerSpec WatermarkModel WatermarkSpec.
Open Scope R_scope.

(** ** The diagonal *)
Section Diagonal.
Variables (X Y p : R).
Hypotheses (HX : 0 < X) (HY : 0 < Y) (Hp : 0 < p).
Definition diagonal : R := sqrt (Y ^ 2 + X ^ 2).
Definition angle : R := 180 / PI * atan (- (Y * p) / (X * p)).
Lemma diagonal_pos : 0 < diagonal.
Proof. apply sqrt_lt_R0. nra. Qed.
Lemma diagonal_square : diagonal * diagonal = Y ^ 2 + X ^ 2.
Proof. apply sqrt_sqrt. nra. Qed.
Lemma angle_atan : angle * PI / 180 = atan (- Y / X).
Proof. unfold angle. replace (- (Y * p) / (X * p)) with (- Y / X) by (field; lra). field. apply PI_neq0. Qed.
Lemma hyp_root : sqrt (1 + Rsqr (- Y / X)) = diagonal / X.
Proof.
  pose proof diagonal_pos. pose proof diagonal_square. replace (1 + Rsqr (- Y / X)) with (Rsqr (diagonal / X)).
  - apply sqrt_Rsqr. apply Rlt_le, Rdiv_lt_0_compat; lra.
  - unfold Rsqr. replace (diagonal / X * (diagonal / X)) with ((diagonal * diagonal) / (X * X)) by (field; lra). rewrite H0. field. lra.
Qed.
Lemma angle_cos : cos (angle * PI / 180) = X / diagonal.
Proof. rewrite angle_atan, cos_atan, hyp_root. pose proof diagonal_pos. field. lra. Qed.
Lemma angle_sin : sin (angle * PI / 180) = - Y / diagonal.
Proof. rewrite angle_atan, sin_atan, hyp_root. pose proof diagonal_pos. field. lra. Qed.
Lemma angle_range : -90 < angle < 0.
Proof.
  unfold angle. replace (- (Y * p) / (X * p)) with (- (Y / X)) by (field; lra). rewrite atan_opp. pose proof (atan_bound (Y / X)) as [_ B]. pose proof PI_RGT_0 as P.
  assert (A : 0 < atan (Y / X)). { rewrite <- atan_0. apply atan_increasing, Rdiv_lt_0_compat; assumption. }
  assert (K : 0 < 180 / PI) by (apply Rdiv_lt_0_compat; lra).
  assert (E : 180 / PI * (PI / 2) = 90) by (field; lra). split; nra.
Qed.
Lemma scaled_diagonal : sqrt ((Y * p) ^ 2 + (X * p) ^ 2) = p * diagonal.
Proof.
  replace ((Y * p) ^ 2 + (X * p) ^ 2) with (Rsqr (p * diagonal)).
  - apply sqrt_Rsqr. pose proof diagonal_pos. nra.
  - unfold Rsqr. replace (p * diagonal * (p * diagonal)) with (p * p * (diagonal * diagonal)) by ring. rewrite diagonal_square. ring.
Qed.
End Diagonal.

(** ** Extents of a turned box *)
Lemma spans_x w h d : 0 <= w -> 0 <= h -> 0 <= cos (d * PI / 180) -> sin (d * PI / 180) <= 0 -> spans fst w h d (w * cos (d * PI / 180) - h * sin (d * PI / 180)).
Proof.
  intros Hw Hh Hc Hs. unfold spans, corner. cbv zeta. cbn [fst]. set (c := cos _) in *. set (s := sin _) in *. clearbody c s.
  assert (A : 0 <= w * c) by nra. assert (B : 0 <= h * - s) by nra. split; [intros [|] [|]; apply Rabs_le; split; nra|]. exists true, true. field.
Qed.
Lemma spans_y w h d : 0 <= w -> 0 <= h -> 0 <= cos (d * PI / 180) -> sin (d * PI / 180) <= 0 -> spans snd w h d (h * cos (d * PI / 180) - w * sin (d * PI / 180)).
Proof.
  intros Hw Hh Hc Hs. unfold spans, corner. cbv zeta. cbn [snd]. set (c := cos _) in *. set (s := sin _) in *. clearbody c s.
  assert (A : 0 <= h * c) by nra. assert (B : 0 <= w * - s) by nra. split; [intros [|] [|]; apply Rabs_le; split; nra|]. exists false, true. field.
Qed.
Lemma spans_unique side w h d s s' : spans side w h d s -> spans side w h d s' -> s = s'.
Proof.
  intros [A [r [t E]]] [A' [r' [t' E']]]. pose proof (A r' t') as B. pose proof (A' r t) as B'. rewrite E' in B. rewrite E in B'.
  pose proof (Rle_abs (s / 2)). pose proof (Rle_abs (s' / 2)). lra.
Qed.

(** ** The layout *)
Lemma share_pos tex tri ax : 0 < share tex tri ax.
Proof. unfold share. destruct tex, tri, ax; lra. Qed.
Lemma share_small tex tri ax : share tex tri ax < 1.
Proof. unfold share. destruct tex, tri, ax; lra. Qed.
Lemma layout_ok metrics other W H dpi d wm w h : 0 < Q2R W -> 0 < Q2R H -> (0 < dpi)%Z -> 0 < w -> 0 < h ->
  let tex := rendered_by_tex other wm in proportional metrics wm tex w h ->
  exists m, layout metrics other (W, H) dpi (scale_of d) wm = Ok m /\ mk_x m = 1 / 2 /\ mk_y m = 1 / 2 /\ mk_rotation m = angle (Q2R W) (Q2R H) (IZR dpi) /\ (0 <= mk_size m)%Z /\
    let t := 72 * share tex (is_triangle_b d) (has_axis wm) * Q2R W * diagonal (Q2R W) (Q2R H) / (w * Q2R W + h * Q2R H) in
    IZR (mk_size m) <= t < IZR (mk_size m) + 1.
Proof.
  intros HW HH HP Hw Hh tex PR. unfold layout. cbv zeta. cbn [fst snd]. fold tex.
  assert (HP' : 0 < IZR dpi) by (apply (IZR_lt 0); exact HP). rewrite !PR. cbn [fst snd].
  set (X := Q2R W) in *. set (Y := Q2R H) in *. set (p := IZR dpi) in *. clearbody X Y p.
  assert (EB : (IZR 51 * h - IZR 50 * h) * (p / 100) * Rabs (Y * p / (X * p)) + (IZR 51 * w - IZR 50 * w) * (p / 100) = p / 100 * (w * X + h * Y) / X).
  { assert (Q : 0 < Y / X) by (apply Rdiv_lt_0_compat; lra). replace (Y * p / (X * p)) with (Y / X) by (field; lra). rewrite Rabs_pos_eq by lra. field. lra. }
  assert (PB : 0 < p / 100 * (w * X + h * Y) / X) by (apply Rdiv_lt_0_compat; [|assumption]; apply Rmult_lt_0_compat; [lra|nra]).
  destruct (Req_EM_T _ 0) as [E0|_]; [exfalso; lra|]. rewrite EB.
  rewrite (scaled_diagonal X Y p) by assumption. pose proof (diagonal_pos X Y HH) as DP.
  set (t := 72 * share tex (is_triangle_b d) (has_axis wm) * X * diagonal X Y / (w * X + h * Y)).
  assert (N : 0 < w * X + h * Y) by nra.
  assert (ET : (match wm_axis wm with
     | Some _ => p * diagonal X Y / (p / 100 * (w * X + h * Y) / X) * (7 / 10) * (if tex then 1 else 8 / 10) * scale_of d * (if tex then 7 / 10 else 8 / 10)
     | None => p * diagonal X Y / (p / 100 * (w * X + h * Y) / X) * (7 / 10) * (if tex then 1 else 8 / 10) * scale_of d end) = t).
  { unfold t, share, has_axis. destruct (wm_axis wm) as [ij|], tex, d; cbn [is_triangle_b scale_of]; unfold triangle_scale, other_scale; field; repeat split; try lra; nra. }
  rewrite ET. assert (TP : 0 <= t). { unfold t. pose proof (share_pos tex (is_triangle_b d) (has_axis wm)) as SP. revert SP. generalize (share tex (is_triangle_b d) (has_axis wm)). intros q SP. apply Rlt_le, Rdiv_lt_0_compat; [|exact N]. repeat apply Rmult_lt_0_compat; lra. }
  destruct (Rle_dec 0 t) as [_|K]; [|contradiction]. eexists. split; [reflexivity|]. cbn [mk_x mk_y mk_rotation mk_size]. repeat (split; [reflexivity|]).
  pose proof (base_Int_part t) as [B1 B2]. split; [|lra].
  assert (I : (-1 < Int_part t)%Z) by (apply lt_IZR; lra). revert I. generalize (Int_part t). intros z I. apply Z.le_succ_l in I. exact I.
Qed.
