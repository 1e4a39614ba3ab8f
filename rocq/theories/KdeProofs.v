(** Proofs about kernel density estimates. *)
From Coq Require Import List Bool Arith QArith Reals Qreals Lra Lia.
From Verif Require Import Py ConfigModel AnalysisModel SurfaceModel SurfaceProofs KdeModel KdeSpec.
Import ListNotations.
Open Scope list_scope.
Open Scope R_scope.

(** ** Sums *)
Lemma rsum_total {A} (f : A -> R) l : rsum (map f l) = total f l.
Proof. induction l; cbn; [reflexivity|]. unfold rsum in IHl. rewrite IHl. reflexivity. Qed.
Lemma total_ext {A} (f g : A -> R) l : (forall a, In a l -> f a = g a) -> total f l = total g l.
Proof. induction l as [|a l IH]; intros H; cbn; [reflexivity|]. rewrite H, IH; [reflexivity| |left; reflexivity]. intros b Hb. apply H. right. exact Hb. Qed.
Lemma total_scale {A} (f : A -> R) c l : total (fun a => c * f a) l = c * total f l.
Proof. induction l as [|a l IH]; cbn; [ring|]. rewrite IH. ring. Qed.
Lemma total_plus {A} (f g : A -> R) l : total (fun a => f a + g a) l = total f l + total g l.
Proof. induction l as [|a l IH]; cbn; [ring|]. rewrite IH. ring. Qed.
Lemma total_nonneg {A} (f : A -> R) l : (forall a, In a l -> 0 <= f a) -> 0 <= total f l.
Proof. induction l as [|a l IH]; intros H; cbn; [lra|]. assert (0 <= f a) by (apply H; left; reflexivity). assert (0 <= total f l) by (apply IH; intros b Hb; apply H; right; exact Hb). lra. Qed.
Lemma total_pos {A} (f : A -> R) l : l <> [] -> (forall a, In a l -> 0 < f a) -> 0 < total f l.
Proof.
  destruct l as [|a l]; [congruence|]. intros _ H. cbn. assert (0 < f a) by (apply H; left; reflexivity).
  assert (0 <= total f l) by (apply total_nonneg; intros b Hb; apply Rlt_le, H; right; exact Hb). lra.
Qed.
Lemma total_map {A B} (f : B -> R) (g : A -> B) l : total f (map g l) = total (fun a => f (g a)) l.
Proof. induction l; cbn; [reflexivity|]. rewrite IHl. reflexivity. Qed.
Lemma rle_true a b : rle a b = true <-> a <= b. Proof. unfold rle. destruct (Rle_dec a b); split; auto; discriminate. Qed.
Lemma rle_false a b : rle a b = false <-> b < a. Proof. unfold rle. destruct (Rle_dec a b); split; intros; try discriminate; try lra; reflexivity. Qed.
Lemma req_false a b : req a b = false <-> a <> b. Proof. unfold req. destruct (Req_EM_T a b); split; intros; try discriminate; try contradiction; auto. Qed.

(** ** Means and covariances *)
Lemma total_combine_l {A} (g : R -> R) w (l : list A) : length w = length l -> total (fun p => g (fst p)) (combine w l) = total g w.
Proof. revert l. induction w as [|a w IH]; intros [|b l] H; cbn in *; try discriminate; [reflexivity|]. rewrite IH by lia. reflexivity. Qed.
Lemma rsum_W {A} w (l : list A) : length w = length l -> rsum w = W (combine w l).
Proof. intros H. transitivity (total (fun v => v) w); [rewrite <- (map_id w) at 1; apply rsum_total|]. symmetry. exact (total_combine_l (fun v => v) w l H). Qed.
Lemma combine_two {A} (f g : A -> R) : forall l, combine (map f l) (map g l) = map (fun x => (f x, g x)) l.
Proof. induction l as [|a l IH]; cbn; [reflexivity|]. rewrite IH. reflexivity. Qed.
Lemma combine_map2 {A B} (f : A -> B) w : forall l, combine w (map f l) = map (fun p : R * A => (fst p, f (snd p))) (combine w l).
Proof. induction w as [|a w IH]; intros [|b l]; cbn; [reflexivity..|]. rewrite IH. reflexivity. Qed.
Lemma average_mean {A} (f : A -> R) w l : length w = length l -> average w (map f l) = mean_of f (combine w l).
Proof. intros H. unfold average, mean_of. rewrite combine_map2, map_map. rewrite (rsum_W w l H), rsum_total. reflexivity. Qed.
Lemma cov_fact_W {A} w (l : list A) : length w = length l -> cov_fact w = W (combine w l) - total (fun p => fst p * fst p) (combine w l) / W (combine w l).
Proof. intros H. unfold cov_fact. rewrite (rsum_W w l H), rsum_total, (total_combine_l (fun v => v * v) w l H). reflexivity. Qed.
Lemma cov_entry_covariance {A} (f g : A -> R) w l : length w = length l -> cov_entry w (map f l) (map g l) = covariance f g (combine w l).
Proof.
  intros H. unfold cov_entry, covariance. cbv zeta. rewrite (average_mean f w l H), (average_mean g w l H), (cov_fact_W w l H), combine_two, combine_map2, map_map, rsum_total.
  f_equal. apply total_ext. intros p _. cbn [fst snd]. ring.
Qed.
Lemma mean_shift {A} (f : A -> R) c d : W d <> 0 -> mean_of (fun x => f x - c) d = mean_of f d - c.
Proof.
  intros H. unfold mean_of. rewrite (total_ext _ (fun p => fst p * f (snd p) + (- c) * fst p)) by (intros; ring). rewrite total_plus, total_scale. fold (W d). field. exact H.
Qed.
Lemma covariance_shift {A} (f g : A -> R) c e d : W d <> 0 -> covariance (fun x => f x - c) (fun x => g x - e) d = covariance f g d.
Proof. intros H. unfold covariance. rewrite !mean_shift by exact H. f_equal. apply total_ext. intros p _. ring. Qed.

(** ** The transform *)
Lemma sphere1 v a : sphere_transform [[v]] = Ok a -> 0 < v /\ a = [[sqrt (1 / v)]].
Proof.
  unfold sphere_transform. destruct (req v 0) eqn:E1; [discriminate|]. cbv zeta. destruct (rle (1 / v) 0) eqn:E2; [discriminate|]. intros H. apply req_false in E1. apply rle_false in E2. split; [|congruence].
  unfold Rdiv in E2. rewrite Rmult_1_l in E2. rewrite <- (Rinv_inv v). apply Rinv_0_lt_compat. exact E2.
Qed.
Lemma sphere2 vx vy c a : sphere_transform [[vx; c]; [c; vy]] = Ok a -> exists l11 l21 l22, a = [[l11; 0]; [l21; l22]] /\ 0 < l11 /\ 0 < l22 /\ vx * vy - c * c <> 0 /\
  l11 * l11 = vy / (vx * vy - c * c) /\ l11 * l21 = - c / (vx * vy - c * c) /\ l21 * l21 + l22 * l22 = vx / (vx * vy - c * c).
Proof.
  unfold sphere_transform. cbv zeta. destruct (req (vx * vy - c * c) 0) eqn:E1; [discriminate|]. apply req_false in E1. set (det := vx * vy - c * c) in *.
  destruct (rle (vy / det) 0) eqn:E2; [discriminate|]. apply rle_false in E2. set (l11 := sqrt (vy / det)). destruct (rle (vx / det - - c / det / l11 * (- c / det / l11)) 0) eqn:E3; [discriminate|]. apply rle_false in E3. intros H.
  assert (P : 0 < l11) by (apply sqrt_lt_R0; exact E2). assert (Q : l11 * l11 = vy / det) by (apply sqrt_sqrt; lra). set (l21 := - c / det / l11) in *. set (l22 := sqrt (vx / det - l21 * l21)) in *.
  exists l11, l21, l22. split; [congruence|]. split; [exact P|]. split; [apply sqrt_lt_R0; exact E3|]. split; [exact E1|]. split; [exact Q|]. split.
  - unfold l21. field. split; [exact E1|lra].
  - unfold l22. rewrite sqrt_sqrt by lra. ring.
Qed.

(** ** Evaluation *)
Lemma new_megkde_ok dim train w tr fa k : new_megkde dim train w tr fa = Ok k -> let col j l := map (comp j) l in
  let mean := map (fun j => average w (col j train)) (seq 0 dim) in let dx := map (fun x => minus x mean) train in
  length w = length train /\ rsum w <> 0 /\ (forall v, In v w -> 0 <= v) /\ 0 < cov_fact w /\
  sphere_transform (map (fun j => map (fun k => cov_entry w (col j dx) (col k dx)) (seq 0 dim)) (seq 0 dim)) = Ok (kd_A k) /\
  kd_mean k = mean /\ kd_d k = map (fun x => row_times x (kd_A k)) dx /\ kd_weights k = w /\ kd_sigma k = width_for fa (length train) dim /\ kd_truncation k = tr.
Proof.
  unfold new_megkde. cbv zeta. destruct (length w =? length train)%nat eqn:E1; cbn [negb]; [|discriminate]. apply Nat.eqb_eq in E1. destruct (req (rsum w) 0) eqn:E2; [discriminate|]. apply req_false in E2.
  destruct (existsb _ w) eqn:E3; [discriminate|]. destruct (rle (cov_fact w) 0) eqn:E4; [discriminate|]. apply rle_false in E4. intros H. apply rbind_ok in H as [a [H1 H2]]. injection H2 as <-. cbn [kd_A kd_mean kd_d kd_weights kd_sigma kd_truncation].
  repeat split; try assumption. intros v Hv. destruct (rle 0 v) eqn:E; [apply rle_true; exact E|]. assert (X : existsb (fun v => negb (rle 0 v)) w = true) by (apply existsb_exists; exists v; rewrite E; auto). congruence.
Qed.
Lemma nth_combine {A} (w : list R) (l : list A) (dw : R) (dl : A) i : length w = length l -> (i < length l)%nat -> nth_error (combine w l) i = Some (nth i w dw, nth i l dl).
Proof. revert l i. induction w as [|a w IH]; intros [|b l] i H Hi; cbn in *; try lia. destruct i; [reflexivity|]. cbn. apply IH; lia. Qed.
Lemma dist2_far x t : dist2 x t = total (fun p => (fst p - snd p) * (fst p - snd p)) (combine x t).
Proof. unfold dist2, minus. rewrite map_map, rsum_total. reflexivity. Qed.

Section Eval.
Context {A : Type}.
Variables (nearest : list (list R) -> list R -> nat -> list nat) (data : list A) (w : list R) (away : A -> A -> R) (row : A -> list R) (k : megkde).
Hypothesis NB : finds_nearest nearest.
Hypothesis LW : length w = length data.
Hypothesis KW : kd_weights k = w.
Hypothesis LD : length (kd_d k) = length data.
(** The rows of the transformed data are as far from a transformed target as the points. *)
Hypothesis AW : forall i x t, nth_error data i = Some x -> dist2 (nth i (kd_d k) []) (row_times (minus (row t) (kd_mean k)) (kd_A k)) = away t x.
Lemma at_d i : (i < length data)%nat -> exists p, nth_error (combine w data) i = Some p /\ nth i w 0 = fst p /\ forall t, dist2 (nth i (kd_d k) []) (row_times (minus (row t) (kd_mean k)) (kd_A k)) = away t (snd p).
Proof.
  intros Hi. destruct (nth_error data i) as [x|] eqn:E; [|apply nth_error_None in E; lia]. exists (nth i w 0, x). rewrite (nth_combine w data 0 x i LW Hi). cbn [fst snd]. rewrite (nth_error_nth _ _ x E). repeat split. intros t. apply AW. exact E.
Qed.
Lemma combine_len : length (combine w data) = length data. Proof. rewrite combine_length, LW. apply Nat.min_id. Qed.
Lemma eval_ok targets vs : evaluate nearest k (map row targets) = Ok vs ->
  estimates away (kd_sigma k) (kd_sigma k * kd_truncation k) (combine w data) targets vs.
Proof.
  unfold evaluate. destruct (req (kd_sigma k) 0) eqn:E0; [discriminate|]. apply req_false in E0. revert vs. induction targets as [|t ts IH]; intros vs; [intros H; injection H as <-; constructor|]. cbn [map]. intros H. cbn [rmapM] in H. apply rbind_ok in H as [v [H1 H]]. apply rbind_ok in H as [vs' [H2 H]].
  injection H as <-. constructor; [|apply IH; exact H2]. clear IH H2. cbv zeta in H1. apply rbind_ok in H1 as [ns [H1 H3]]. injection H3 as <-. set (tt := row_times (minus (row t) (kd_mean k)) (kd_A k)) in *. set (reach := kd_sigma k * kd_truncation k) in *.
  assert (C : counted (away t) reach (combine w data) ns).
  { set (ball := filter (fun i => rle (dist2 (nth i (kd_d k) []) tt) (reach * reach)) (seq 0 (length (kd_d k)))) in *.
    assert (B : forall i, In i ball <-> exists p, nth_error (combine w data) i = Some p /\ away t (snd p) <= reach * reach).
    { intros i. unfold ball. rewrite filter_In, in_seq, rle_true. split.
      - intros [Hi H]. destruct (at_d i) as [p [P1 [_ P2]]]; [lia|]. exists p. split; [exact P1|]. rewrite <- (P2 t). exact H.
      - intros [p [P1 P2]]. assert (Hi : (i < length data)%nat) by (rewrite <- combine_len; apply nth_error_Some; congruence). split; [lia|]. destruct (at_d i Hi) as [q [Q1 [_ Q2]]]. fold tt in Q2. unfold tt. rewrite Q2. congruence. }
    assert (NDB : NoDup ball) by (apply NoDup_filter, seq_NoDup).
    destruct (nmin <=? length ball)%nat eqn:EB.
    - injection H1 as <-. apply Nat.leb_le in EB. split; [exact NDB|]. split; [|left; split; [exact EB|exact B]]. intros i Hi. apply filter_In in Hi as [Hi _]. apply in_seq in Hi. rewrite combine_len. lia.
    - destruct (length (kd_d k) <? nmin)%nat eqn:EL; [discriminate|]. injection H1 as <-. apply Nat.leb_gt in EB. apply Nat.ltb_ge in EL. destruct (NB (kd_d k) tt nmin EL) as [N1 [N2 [N3 N4]]].
      split; [exact N1|]. split; [intros i Hi; rewrite combine_len, <- LD; apply N3; exact Hi|]. right. split; [exact N2|]. split.
      + intros l NDl Hl. assert (length l <= length ball)%nat; [|unfold nmin in EB; lia]. apply NoDup_incl_length; [exact NDl|]. intros i Hi. apply B. exact (Hl i Hi).
      + intros i j p q Hi Hj Hp Hq. assert (Lj : (j < length data)%nat) by (rewrite <- combine_len; apply nth_error_Some; congruence). specialize (N4 i j Hi Hj). rewrite LD in N4. specialize (N4 Lj). rewrite <- !dist2_far in N4.
        assert (Li : (i < length data)%nat) by (rewrite <- LD; apply N3; exact Hi). destruct (at_d i Li) as [p' [P1 [_ P2]]]. destruct (at_d j Lj) as [q' [Q1 [_ Q2]]]. unfold tt in N4. rewrite P2, Q2 in N4. congruence. }
  exists ns. split; [exact C|]. rewrite rsum_total. apply total_ext. intros i Hi. destruct C as [_ [C _]]. specialize (C i Hi). rewrite combine_len in C. destruct (at_d i C) as [p [P1 [P2 P3]]]. rewrite P1, KW, P2. unfold tt. rewrite P3. f_equal. f_equal. field. exact E0.
Qed.
End Eval.
Lemma row_times1 x s : row_times [x] [[s]] = [x * s + 0]. Proof. reflexivity. Qed.
Lemma row_times2 x y a b c : row_times [x; y] [[a; 0]; [b; c]] = [x * a + (y * b + 0); x * 0 + (y * c + 0)]. Proof. reflexivity. Qed.

Lemma kde1_ok nearest data w tr fa xs vs : finds_nearest nearest -> megkde_at nearest 1 (map (fun x => [x]) data) w tr fa (map (fun x => [x]) xs) = Ok vs ->
  let d := combine w data in length w = length data /\ (forall v, In v w -> 0 <= v) /\ 0 < covariance (fun v => v) (fun v => v) d /\
  estimates (away1 d) (width_for fa (length data) 1) (width_for fa (length data) 1 * tr) d xs vs.
Proof.
  intros NB H d. unfold megkde_at in H. apply rbind_ok in H as [k [H1 H2]]. apply new_megkde_ok in H1. cbv zeta in H1. destruct H1 as [E1 [E2 [E3 [E4 [E5 [E6 [E7 [E8 [E9 E10]]]]]]]]]. rewrite map_length in E1.
  assert (W0 : W d <> 0) by (unfold d; rewrite <- (rsum_W w data E1); exact E2). cbn [seq map] in E5, E6, E7.
  assert (AV : map (comp 0) (map (fun x : R => [x]) data) = map (fun x => x) data) by (rewrite map_map; reflexivity). rewrite AV in E5, E6, E7. rewrite !map_map in E5, E7. cbn [comp nth minus combine map fst snd] in E5, E6, E7.
  rewrite (average_mean (fun x => x) w data E1) in E5, E6, E7. fold d in E5, E6, E7. set (m := mean_of (fun x => x) d) in *. rewrite (cov_entry_covariance (fun x => x - m) (fun x => x - m) w data E1) in E5. fold d in E5. rewrite (covariance_shift (fun x => x) (fun x => x) m m d W0) in E5.
  apply sphere1 in E5 as [V E5]. set (v := covariance _ _ d) in *. split; [exact E1|]. split; [exact E3|]. split; [exact V|]. rewrite map_length in E9. rewrite <- E9, <- E10. rewrite E5 in E7.
  apply (eval_ok nearest data w (away1 d) (fun x => [x]) k NB E1 E8); [rewrite E7, map_length; reflexivity| |exact H2].
  intros i x t Hx. rewrite E5, E6, E7. cbn [minus combine map fst snd]. rewrite (nth_indep _ [] (row_times [0 - m] [[sqrt (1 / v)]])) by (rewrite map_length; apply nth_error_Some; congruence).
  rewrite (map_nth (fun x => row_times [x - m] [[sqrt (1 / v)]]) data 0 i). rewrite (nth_error_nth _ _ 0 Hx), !row_times1. unfold dist2, minus, rsum. cbn [combine map fst snd fold_right]. unfold away1. fold v. assert (S2 : sqrt (1 / v) * sqrt (1 / v) = 1 / v) by (apply sqrt_sqrt, Rlt_le, Rdiv_lt_0_compat; lra).
  replace (((x - m) * sqrt (1 / v) + 0 - ((t - m) * sqrt (1 / v) + 0)) * ((x - m) * sqrt (1 / v) + 0 - ((t - m) * sqrt (1 / v) + 0)) + 0) with ((x - t) * (x - t) * (sqrt (1 / v) * sqrt (1 / v))) by ring. rewrite S2. field. lra.
Qed.
Lemma kde2_ok nearest (data : list (R * R)) w tr fa ts vs : finds_nearest nearest -> megkde_at nearest 2 (map (fun p => [fst p; snd p]) data) w tr fa (map (fun p => [fst p; snd p]) ts) = Ok vs ->
  let d := combine w data in length w = length data /\ (forall v, In v w -> 0 <= v) /\ covariance fst fst d * covariance snd snd d - covariance fst snd d * covariance fst snd d <> 0 /\
  estimates (away2 d) (width_for fa (length data) 2) (width_for fa (length data) 2 * tr) d ts vs.
Proof.
  intros NB H d. unfold megkde_at in H. apply rbind_ok in H as [k [H1 H2]]. apply new_megkde_ok in H1. cbv zeta in H1. destruct H1 as [E1 [E2 [E3 [E4 [E5 [E6 [E7 [E8 [E9 E10]]]]]]]]]. rewrite map_length in E1.
  assert (W0 : W d <> 0) by (unfold d; rewrite <- (rsum_W w data E1); exact E2). cbn [seq map] in E5, E6, E7.
  assert (AV : map (comp 0) (map (fun p : R * R => [fst p; snd p]) data) = map fst data) by (rewrite map_map; reflexivity). assert (AV' : map (comp 1) (map (fun p : R * R => [fst p; snd p]) data) = map snd data) by (rewrite map_map; reflexivity).
  rewrite AV, AV' in E5, E6, E7. repeat rewrite map_map in E5. repeat rewrite map_map in E7. cbn [comp nth minus combine map fst snd] in E5, E6, E7.
  rewrite (average_mean fst w data E1), (average_mean snd w data E1) in E5, E6, E7. fold d in E5, E6, E7. set (mx := mean_of fst d) in *. set (my := mean_of snd d) in *.
  rewrite (cov_entry_covariance (fun x => fst x - mx) (fun x => fst x - mx) w data E1), (cov_entry_covariance (fun x => fst x - mx) (fun x => snd x - my) w data E1), (cov_entry_covariance (fun x => snd x - my) (fun x => fst x - mx) w data E1), (cov_entry_covariance (fun x => snd x - my) (fun x => snd x - my) w data E1) in E5. fold d in E5.
  rewrite (covariance_shift fst fst mx mx d W0), (covariance_shift fst snd mx my d W0), (covariance_shift snd fst my mx d W0), (covariance_shift snd snd my my d W0) in E5.
  assert (SY : covariance snd fst d = covariance fst snd d) by (unfold covariance; f_equal; apply total_ext; intros; ring). rewrite SY in E5.
  apply sphere2 in E5 as [l11 [l21 [l22 [EA [P1 [P2 [DET [Q1 [Q2 Q3]]]]]]]]]. set (vx := covariance fst fst d) in *. set (vy := covariance snd snd d) in *. set (c := covariance fst snd d) in *.
  split; [exact E1|]. split; [exact E3|]. split; [exact DET|]. rewrite map_length in E9. rewrite <- E9, <- E10. rewrite EA in E7.
  apply (eval_ok nearest data w (away2 d) (fun p => [fst p; snd p]) k NB E1 E8); [rewrite E7, map_length; reflexivity| |exact H2].
  intros i x t Hx. rewrite EA, E6, E7. cbn [minus combine map fst snd]. rewrite (nth_indep _ [] (row_times [fst (0, 0) - mx; snd (0, 0) - my] [[l11; 0]; [l21; l22]])) by (rewrite map_length; apply nth_error_Some; congruence).
  rewrite (map_nth (fun x => row_times [fst x - mx; snd x - my] [[l11; 0]; [l21; l22]]) data (0, 0) i). rewrite (nth_error_nth _ _ (0, 0) Hx), !row_times2. unfold dist2, minus, rsum. cbn [combine map fst snd fold_right]. unfold away2. cbv zeta. fold vx vy c. set (u := fst x - fst t). set (v := snd x - snd t).
  match goal with |- ?l = _ => replace l with ((l11 * l11) * (u * u) + 2 * (l11 * l21) * (u * v) + (l21 * l21 + l22 * l22) * (v * v)) by (unfold u, v; ring) end. rewrite Q1, Q2, Q3. field. exact DET.
Qed.

(** ** When an estimate exists *)
Lemma rmapM_total {A B} (f : A -> res B) l : (forall a, In a l -> exists b, f a = Ok b) -> exists bs, rmapM f l = Ok bs.
Proof. induction l as [|a l IH]; intros H; [eexists; reflexivity|]. destruct (H a (or_introl eq_refl)) as [b E]. destruct IH as [bs EB]; [intros x Hx; apply H; right; exact Hx|]. exists (b :: bs). cbn [rmapM]. rewrite E. cbn [rbind]. rewrite EB. reflexivity. Qed.
Lemma evaluate_total nearest k targets : kd_sigma k <> 0 -> (4 <= length (kd_d k))%nat -> exists vs, evaluate nearest k targets = Ok vs.
Proof.
  intros E L. unfold evaluate. rewrite (proj2 (req_false _ _) E). apply rmapM_total. intros x _. cbv zeta. destruct (_ <=? _)%nat; [eexists; reflexivity|].
  assert (EL : (length (kd_d k) <? nmin)%nat = false) by (apply Nat.ltb_ge; exact L). rewrite EL. eexists. reflexivity.
Qed.
Lemma width_nonzero fa n dim : fa <> 0 -> width_for fa n dim <> 0.
Proof. intros H. unfold width_for, Rpower. pose proof (exp_pos (- (1 / (4 + INR dim)) * ln (INR n))). apply Rmult_integral_contrapositive_currified; [apply Rmult_integral_contrapositive_currified; lra|lra]. Qed.
Lemma total_le {A} (f g : A -> R) l : (forall a, In a l -> f a <= g a) -> total f l <= total g l.
Proof. induction l as [|a l IH]; intros H; cbn; [lra|]. assert (f a <= g a) by (apply H; left; reflexivity). assert (total f l <= total g l) by (apply IH; intros b Hb; apply H; right; exact Hb). lra. Qed.
Lemma square_of_sum l : (forall v, In v l -> 0 <= v) -> total (fun v => v * v) l <= total (fun v => v) l * total (fun v => v) l /\ 0 <= total (fun v => v) l.
Proof.
  induction l as [|a l IH]; intros H; cbn; [lra|]. destruct IH as [H1 H2]; [intros v Hv; apply H; right; exact Hv|]. assert (0 <= a) by (apply H; left; reflexivity). split; [|lra].
  assert (0 <= a * total (fun v => v) l) by (apply Rmult_le_pos; assumption). nra.
Qed.
(** At least two positive weights make the divisor positive. *)
Lemma cov_fact_pos w : (2 <= length w)%nat -> (forall v, In v w -> 0 < v) -> 0 < rsum w /\ 0 < cov_fact w.
Proof.
  intros L H. destruct w as [|a [|b w]]; cbn in L; try lia. assert (Ha : 0 < a) by (apply H; cbn; auto). assert (Hb : 0 < b) by (apply H; cbn; auto).
  assert (HW : forall v, In v w -> 0 <= v) by (intros v Hv; apply Rlt_le, H; cbn; auto). destruct (square_of_sum w HW) as [S1 S2].
  assert (E : rsum (a :: b :: w) = a + (b + total (fun v => v) w)) by (rewrite <- (map_id (a :: b :: w)); rewrite rsum_total; reflexivity). set (t := total (fun v => v) w) in *. split; [rewrite E; lra|]. unfold cov_fact. rewrite rsum_total, E. cbn [total].
  set (q := total (fun v => v * v) w) in *. apply (Rmult_lt_reg_r (a + (b + t))); [lra|]. replace ((a + (b + t) - (a * a + (b * b + q)) / (a + (b + t))) * (a + (b + t))) with ((a + (b + t)) * (a + (b + t)) - (a * a + (b * b + q))) by (field; lra).
  assert (0 < a * b) by (apply Rmult_lt_0_compat; assumption). assert (0 <= a * t) by (apply Rmult_le_pos; lra). assert (0 <= b * t) by (apply Rmult_le_pos; lra). nra.
Qed.
Lemma new_total dim train w tr fa a : let col j l := map (comp j) l in let mean := map (fun j => average w (col j train)) (seq 0 dim) in let dx := map (fun x => minus x mean) train in
  length w = length train -> (2 <= length w)%nat -> (forall v, In v w -> 0 < v) ->
  sphere_transform (map (fun j => map (fun k => cov_entry w (col j dx) (col k dx)) (seq 0 dim)) (seq 0 dim)) = Ok a -> exists k, new_megkde dim train w tr fa = Ok k.
Proof.
  intros col mean dx H1 H2 H3 H4. destruct (cov_fact_pos w H2 H3) as [P1 P2]. unfold new_megkde. rewrite H1, Nat.eqb_refl. cbn [negb]. rewrite (proj2 (req_false _ _)) by lra.
  assert (E : existsb (fun v => negb (rle 0 v)) w = false). { apply Bool.not_true_is_false. intros E. apply existsb_exists in E as [v [Hv E]]. rewrite (proj2 (rle_true 0 v)) in E by (apply Rlt_le, H3; exact Hv). discriminate. }
  rewrite E, (proj2 (rle_false _ _) P2). cbv zeta. unfold dx, mean, col in H4. rewrite H4. eexists. reflexivity.
Qed.
Lemma combine_in {A} (w : list R) (l : list A) p : In p (combine w l) -> In (fst p) w /\ In (snd p) l.
Proof. destruct p as [a b]. intros H. split; [eapply in_combine_l|eapply in_combine_r]; exact H. Qed.
(** Spread: two different values give a positive variance. *)
Lemma total_zero {A} (f : A -> R) l : (forall a, In a l -> 0 <= f a) -> total f l = 0 -> forall a, In a l -> f a = 0.
Proof.
  induction l as [|b l IH]; intros H E a Ha; [destruct Ha|]. cbn in E. assert (0 <= f b) by (apply H; left; reflexivity). assert (0 <= total f l) by (apply total_nonneg; intros c Hc; apply H; right; exact Hc).
  destruct Ha as [<-|Ha]; [lra|]. apply IH; [intros c Hc; apply H; right; exact Hc|lra|exact Ha].
Qed.
Lemma in_combine_snd {A} (w : list R) (l : list A) x : length w = length l -> In x l -> exists v, In (v, x) (combine w l).
Proof. revert l. induction w as [|a w IH]; intros [|b l] H Hx; cbn in *; try discriminate; [contradiction|]. destruct Hx as [->|Hx]; [exists a; left; reflexivity|]. destruct (IH l) as [v Hv]; [lia|exact Hx|]. exists v. right. exact Hv. Qed.
Lemma variance_nonneg {A} (f : A -> R) w (l : list A) : length w = length l -> 0 < cov_fact w -> (forall v, In v w -> 0 <= v) -> 0 <= covariance f f (combine w l).
Proof.
  intros E F H. unfold covariance. rewrite (cov_fact_W w l E) in F. apply Rmult_le_pos; [|apply Rlt_le, Rinv_0_lt_compat; exact F]. apply total_nonneg. intros p Hp. apply combine_in in Hp as [Hp _]. apply Rmult_le_pos; [apply H; exact Hp|apply Rle_0_sqr].
Qed.
Lemma variance_pos {A} (f : A -> R) w (l : list A) x y : length w = length l -> 0 < cov_fact w -> (forall v, In v w -> 0 < v) -> In x l -> In y l -> f x <> f y -> 0 < covariance f f (combine w l).
Proof.
  intros E F H Hx Hy D. destruct (variance_nonneg f w l E F) as [P|P]; [intros v Hv; apply Rlt_le, H; exact Hv|exact P|]. exfalso. unfold covariance in P. rewrite (cov_fact_W w l E) in F. set (m := mean_of f (combine w l)) in *.
  assert (Z : total (fun p => fst p * ((f (snd p) - m) * (f (snd p) - m))) (combine w l) = 0). { symmetry in P. apply Rmult_integral in P as [P|P]; [exact P|]. exfalso. apply (Rinv_neq_0_compat _ (Rgt_not_eq _ _ F)). exact P. }
  assert (K : forall z, In z l -> f z = m).
  { intros z Hz. destruct (in_combine_snd w l z E Hz) as [v Hv]. apply (total_zero _ _) with (a := (v, z)) in Z; [|intros p Hp; apply combine_in in Hp as [Hp _]; apply Rmult_le_pos; [apply Rlt_le, H; exact Hp|apply Rle_0_sqr]|exact Hv]. cbn [fst snd] in Z.
    apply combine_in in Hv as [Hv _]. cbn in Hv. specialize (H v Hv). apply Rmult_integral in Z as [Z|Z]; [lra|]. apply Rmult_integral in Z as [Z|Z]; lra. }
  rewrite (K x Hx), (K y Hy) in D. contradiction.
Qed.
Lemma cauchy {A} (f g : A -> R) w (l : list A) : length w = length l -> 0 < cov_fact w -> (forall v, In v w -> 0 <= v) -> let d := combine w l in
  covariance f g d * covariance f g d <= covariance f f d * covariance g g d.
Proof.
  intros E F H d. assert (QF : forall s, 0 <= covariance f f d - 2 * s * covariance f g d + s * s * covariance g g d).
  { intros s. rewrite (cov_fact_W w l E) in F. fold d in F. unfold covariance. set (mf := mean_of f d). set (mg := mean_of g d). set (D := W d - _ / W d) in *.
    set (P := fun p : R * A => fst p * ((f (snd p) - mf - s * (g (snd p) - mg)) * (f (snd p) - mf - s * (g (snd p) - mg)))).
    assert (EP : total P d = total (fun p => fst p * ((f (snd p) - mf) * (f (snd p) - mf))) d + (-2 * s) * total (fun p => fst p * ((f (snd p) - mf) * (g (snd p) - mg))) d + s * s * total (fun p => fst p * ((g (snd p) - mg) * (g (snd p) - mg))) d).
    { rewrite <- !total_scale, <- !total_plus. apply total_ext. intros p _. unfold P. ring. }
    assert (NP : 0 <= total P d) by (apply total_nonneg; intros p Hp; apply combine_in in Hp as [Hp _]; apply Rmult_le_pos; [apply H; exact Hp|apply Rle_0_sqr]).
    replace (_ - _ + _) with (total P d / D) by (rewrite EP; field; lra). apply Rmult_le_pos; [exact NP|apply Rlt_le, Rinv_0_lt_compat; exact F]. }
  assert (NF := variance_nonneg f w l E F H). assert (NG := variance_nonneg g w l E F H). fold d in NF, NG. set (vf := covariance f f d) in *. set (vg := covariance g g d) in *. set (c := covariance f g d) in *. destruct NG as [NG|NG].
  - specialize (QF (c / vg)). replace (vf - 2 * (c / vg) * c + c / vg * (c / vg) * vg) with ((vf * vg - c * c) / vg) in QF by (field; lra). apply (Rmult_le_compat_r vg) in QF; [|lra]. replace ((vf * vg - c * c) / vg * vg) with (vf * vg - c * c) in QF by (field; lra). lra.
  - rewrite <- NG in *. specialize (QF ((vf + 1) / (2 * c))). destruct (Req_dec c 0) as [->|NC]; [lra|]. replace (vf - 2 * ((vf + 1) / (2 * c)) * c + (vf + 1) / (2 * c) * ((vf + 1) / (2 * c)) * 0) with (-1) in QF by (field; exact NC). lra.
Qed.
Lemma kde1_total nearest data w tr fa xs x y : length w = length data -> (4 <= length data)%nat -> (forall v, In v w -> 0 < v) -> In x data -> In y data -> x <> y -> fa <> 0 ->
  exists vs, megkde_at nearest 1 (map (fun x => [x]) data) w tr fa xs = Ok vs.
Proof.
  intros E L H Hx Hy D FA. assert (CF : 0 < cov_fact w) by (apply cov_fact_pos; [lia|exact H]). pose proof (proj1 (cov_fact_pos w ltac:(lia) H)) as CW. set (d := combine w data). assert (W0 : W d <> 0) by (unfold d; rewrite <- (rsum_W w data E); lra).
  assert (V : 0 < covariance (fun v => v) (fun v => v) d) by (apply (variance_pos (fun v => v) w data x y); assumption).
  assert (N : exists k, new_megkde 1 (map (fun x => [x]) data) w tr fa = Ok k).
  { eapply new_total; [rewrite map_length; exact E|lia|exact H|]. cbn [seq map]. assert (AV : map (comp 0) (map (fun x : R => [x]) data) = map (fun x => x) data) by (rewrite map_map; reflexivity). rewrite AV. repeat rewrite map_map. cbn [comp nth minus combine map fst snd].
    rewrite (average_mean (fun x => x) w data E). fold d. set (m := mean_of (fun x => x) d). rewrite (cov_entry_covariance (fun x => x - m) (fun x => x - m) w data E). fold d. rewrite (covariance_shift (fun x => x) (fun x => x) m m d W0).
    unfold sphere_transform. rewrite (proj2 (req_false _ _)) by lra. cbv zeta. rewrite (proj2 (rle_false _ _)) by (apply Rdiv_lt_0_compat; lra). reflexivity. }
  destruct N as [k N]. unfold megkde_at. rewrite N. cbn [rbind]. pose proof (new_megkde_ok _ _ _ _ _ _ N) as P. cbv zeta in P. destruct P as [_ [_ [_ [_ [_ [_ [P1 [_ [P2 _]]]]]]]]]. apply evaluate_total; [rewrite P2; apply width_nonzero; exact FA|]. rewrite P1, !map_length. exact L.
Qed.
Lemma kde2_total nearest (data : list (R * R)) w tr fa ts : let d := combine w data in length w = length data -> (4 <= length data)%nat -> (forall v, In v w -> 0 < v) ->
  covariance fst fst d * covariance snd snd d <> covariance fst snd d * covariance fst snd d -> fa <> 0 ->
  exists vs, megkde_at nearest 2 (map (fun p => [fst p; snd p]) data) w tr fa ts = Ok vs.
Proof.
  intros d E L H D FA. assert (CF : 0 < cov_fact w) by (apply cov_fact_pos; [lia|exact H]). pose proof (proj1 (cov_fact_pos w ltac:(lia) H)) as CW. assert (W0 : W d <> 0) by (unfold d; rewrite <- (rsum_W w data E); lra).
  assert (HN : forall v, In v w -> 0 <= v) by (intros v Hv; apply Rlt_le, H; exact Hv). pose proof (cauchy fst snd w data E CF HN) as CS. cbv zeta in CS. fold d in CS.
  assert (VX := variance_nonneg fst w data E CF HN). assert (VY := variance_nonneg snd w data E CF HN). fold d in VX, VY. set (vx := covariance fst fst d) in *. set (vy := covariance snd snd d) in *. set (c := covariance fst snd d) in *.
  assert (DET : 0 < vx * vy - c * c) by (destruct CS as [CS|CS]; [lra|exfalso; apply D; lra]). assert (PY : 0 < vy). { destruct VY as [VY|VY]; [exact VY|]. rewrite <- VY in DET. assert (0 <= c * c) by apply Rle_0_sqr. lra. }
  assert (N : exists k, new_megkde 2 (map (fun p => [fst p; snd p]) data) w tr fa = Ok k).
  { eapply new_total; [rewrite map_length; exact E|lia|exact H|]. cbn [seq map]. assert (AV : map (comp 0) (map (fun p : R * R => [fst p; snd p]) data) = map fst data) by (rewrite map_map; reflexivity). assert (AV' : map (comp 1) (map (fun p : R * R => [fst p; snd p]) data) = map snd data) by (rewrite map_map; reflexivity).
    rewrite AV, AV'. repeat rewrite map_map. cbn [comp nth minus combine map fst snd]. rewrite (average_mean fst w data E), (average_mean snd w data E). fold d. set (mx := mean_of fst d). set (my := mean_of snd d).
    rewrite (cov_entry_covariance (fun x => fst x - mx) (fun x => fst x - mx) w data E), (cov_entry_covariance (fun x => fst x - mx) (fun x => snd x - my) w data E), (cov_entry_covariance (fun x => snd x - my) (fun x => fst x - mx) w data E), (cov_entry_covariance (fun x => snd x - my) (fun x => snd x - my) w data E). fold d.
    rewrite (covariance_shift fst fst mx mx d W0), (covariance_shift fst snd mx my d W0), (covariance_shift snd fst my mx d W0), (covariance_shift snd snd my my d W0).
    assert (SY : covariance snd fst d = covariance fst snd d) by (unfold covariance; f_equal; apply total_ext; intros; ring). rewrite SY. fold vx vy c. unfold sphere_transform. cbv zeta. rewrite (proj2 (req_false _ _)) by lra. set (det := vx * vy - c * c) in *.
    assert (I1 : 0 < vy / det) by (apply Rdiv_lt_0_compat; assumption). rewrite (proj2 (rle_false _ _) I1). set (l := sqrt (vy / det)). assert (LL : l * l = vy / det) by (apply sqrt_sqrt; lra). assert (LP : 0 < l) by (apply sqrt_lt_R0; exact I1).
    rewrite (proj2 (rle_false _ _)); [reflexivity|]. replace (vx / det - - c / det / l * (- c / det / l)) with (vx / det - c * c / (det * det) / (l * l)) by (field; lra). rewrite LL. replace (vx / det - c * c / (det * det) / (vy / det)) with ((vx * vy - c * c) / det / vy) by (field; split; lra). fold det.
    apply Rdiv_lt_0_compat; [|exact PY]. apply Rdiv_lt_0_compat; exact DET. }
  destruct N as [k N]. unfold megkde_at. rewrite N. cbn [rbind]. pose proof (new_megkde_ok _ _ _ _ _ _ N) as P. cbv zeta in P. destruct P as [_ [_ [_ [_ [_ [_ [P1 [_ [P2 _]]]]]]]]]. apply evaluate_total; [rewrite P2; apply width_nonzero; exact FA|]. rewrite P1, !map_length. exact L.
Qed.

(** ** Scaling the weights *)
Definition scaled (c : R) (k : megkde) : megkde :=
  {| kd_mean := kd_mean k; kd_A := kd_A k; kd_d := kd_d k; kd_weights := map (Rmult c) (kd_weights k); kd_sigma := kd_sigma k; kd_truncation := kd_truncation k |}.
Lemma rsum_scaled c w : rsum (map (Rmult c) w) = c * rsum w.
Proof. rewrite rsum_total, total_scale. f_equal. rewrite <- (map_id w) at 2. symmetry. apply rsum_total. Qed.
Lemma combine_scaled {A} c w : forall l : list A, combine (map (Rmult c) w) l = map (fun p => (c * fst p, snd p)) (combine w l).
Proof. induction w as [|a w IH]; intros [|b l]; cbn; [reflexivity..|]. rewrite IH. reflexivity. Qed.
Lemma average_scaled c w x : c <> 0 -> rsum w <> 0 -> average (map (Rmult c) w) x = average w x.
Proof.
  intros H1 H2. unfold average. rewrite rsum_scaled, combine_scaled, map_map, rsum_total, rsum_total. cbn [fst snd]. rewrite (total_ext _ (fun p => c * (fst p * snd p))) by (intros; ring). rewrite total_scale. field. auto.
Qed.
Lemma cov_fact_scaled c w : c <> 0 -> rsum w <> 0 -> cov_fact (map (Rmult c) w) = c * cov_fact w.
Proof. intros H1 H2. unfold cov_fact. rewrite rsum_scaled, map_map, !rsum_total. rewrite (total_ext (fun x => c * x * (c * x)) (fun v => c * c * (v * v))) by (intros; ring). rewrite total_scale. field. auto. Qed.
Lemma cov_entry_scaled c w x y : c <> 0 -> rsum w <> 0 -> cov_fact w <> 0 -> cov_entry (map (Rmult c) w) x y = cov_entry w x y.
Proof.
  intros H1 H2 H3. unfold cov_entry. cbv zeta. rewrite !average_scaled, cov_fact_scaled, combine_scaled, map_map, !rsum_total by assumption. cbn [fst snd].
  rewrite (total_ext _ (fun p => c * ((fst (snd p) - average w x) * ((snd (snd p) - average w y) * fst p)))) by (intros; ring). rewrite total_scale. field. auto.
Qed.
Lemma req_scaled c a : c <> 0 -> req (c * a) 0 = req a 0.
Proof. intros H. unfold req. destruct (Req_EM_T (c * a) 0) as [E|E], (Req_EM_T a 0) as [F|F]; try reflexivity; exfalso; [apply Rmult_integral in E as [E|E]; contradiction|apply E; rewrite F; ring]. Qed.
Lemma rle_scaled c a : 0 < c -> rle (c * a) 0 = rle a 0.
Proof. intros H. unfold rle. destruct (Rle_dec (c * a) 0) as [E|E], (Rle_dec a 0) as [F|F]; try reflexivity; exfalso; nra. Qed.
Lemma rle_scaled' c a : 0 < c -> rle 0 (c * a) = rle 0 a.
Proof. intros H. unfold rle. destruct (Rle_dec 0 (c * a)) as [E|E], (Rle_dec 0 a) as [F|F]; try reflexivity; exfalso; nra. Qed.
Lemma existsb_map {A B} (f : A -> B) p l : existsb p (map f l) = existsb (fun a => p (f a)) l.
Proof. induction l; cbn; [reflexivity|]. rewrite IHl. reflexivity. Qed.
Lemma existsb_ext {A} (p q : A -> bool) l : (forall a, p a = q a) -> existsb p l = existsb q l.
Proof. intros H. induction l; cbn; [reflexivity|]. rewrite H, IHl. reflexivity. Qed.
Lemma new_scaled c dim train w tr fa : 0 < c -> new_megkde dim train (map (Rmult c) w) tr fa = rmap (scaled c) (new_megkde dim train w tr fa).
Proof.
  intros H. unfold new_megkde. rewrite map_length. destruct (negb _); [reflexivity|]. rewrite rsum_scaled, req_scaled by lra. destruct (req (rsum w) 0) eqn:E; [reflexivity|]. apply req_false in E. cbv zeta.
  rewrite existsb_map. rewrite (existsb_ext _ (fun v => negb (rle 0 v))) by (intros a; rewrite rle_scaled' by exact H; reflexivity). destruct (existsb _ w); [reflexivity|]. rewrite cov_fact_scaled, rle_scaled by lra. destruct (rle (cov_fact w) 0) eqn:E2; [reflexivity|]. apply rle_false in E2.
  assert (EM : map (fun j => average (map (Rmult c) w) (map (comp j) train)) (seq 0 dim) = map (fun j => average w (map (comp j) train)) (seq 0 dim)) by (apply map_ext; intros j; apply average_scaled; lra). rewrite EM.
  match goal with |- rbind (sphere_transform ?m) _ = rmap _ (rbind (sphere_transform ?m') _) => assert (EC : m = m') by (apply map_ext; intros j; apply map_ext; intros k; apply cov_entry_scaled; lra) end. rewrite EC.
  destruct (sphere_transform _) as [a|e]; reflexivity.
Qed.
Lemma rsum_pointwise {A} (f g : A -> R) c l : (forall a, In a l -> f a = c * g a) -> rsum (map f l) = c * rsum (map g l).
Proof. intros H. rewrite !rsum_total, <- total_scale. apply total_ext. exact H. Qed.
Lemma nth_scaled c w i : nth i (map (Rmult c) w) 0 = c * nth i w 0.
Proof. replace 0 with (c * 0) at 1 by ring. apply map_nth. Qed.
Lemma rmapM_rmap {A B} (f g : A -> res B) (h : B -> B) l : (forall a, f a = rmap h (g a)) -> rmapM f l = rmap (map h) (rmapM g l).
Proof. intros H. induction l as [|a l IH]; [reflexivity|]. cbn [rmapM]. rewrite H, IH. destruct (g a) as [b|e]; [|reflexivity]. cbn. destruct (rmapM g l); reflexivity. Qed.
Lemma evaluate_scaled nearest c k ts : evaluate nearest (scaled c k) ts = rmap (map (Rmult c)) (evaluate nearest k ts).
Proof.
  unfold evaluate. cbn [scaled kd_sigma kd_d kd_mean kd_A kd_truncation kd_weights]. destruct (req _ 0); [reflexivity|]. apply rmapM_rmap. intros x. cbv zeta.
  match goal with |- rbind ?m _ = rmap _ (rbind ?m _) => destruct m as [ns|e] end; [|reflexivity]. cbn [rbind rmap]. f_equal. apply rsum_pointwise. intros i _. rewrite nth_scaled. ring.
Qed.
Lemma megkde_scaled nearest c dim train w tr fa ts : 0 < c -> megkde_at nearest dim train (map (Rmult c) w) tr fa ts = rmap (map (Rmult c)) (megkde_at nearest dim train w tr fa ts).
Proof. intros H. unfold megkde_at. rewrite new_scaled by exact H. destruct (new_megkde _ _ _ _ _) as [k|e]; [|reflexivity]. cbn [rmap rbind]. apply evaluate_scaled. Qed.
