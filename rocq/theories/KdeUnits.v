(** Changing the units of the parameters does not change a density estimate. *)
From Coq Require Import List Bool Arith QArith Reals Qreals Lra Lia.
From Verif Require Import Py ConfigModel AnalysisModel SurfaceModel SurfaceProofs KdeModel KdeSpec KdeProofs.
Import ListNotations.
Open Scope list_scope.
Open Scope R_scope.

Lemma average_lin a w x : average w (map (Rmult a) x) = a * average w x.
Proof. unfold average. rewrite combine_map2, map_map, !rsum_total. cbn [fst snd]. rewrite (total_ext _ (fun p => a * (fst p * snd p))) by (intros; ring). rewrite total_scale. unfold Rdiv. ring. Qed.
Lemma combine_lin2 a b : forall x y : list R, combine (map (Rmult a) x) (map (Rmult b) y) = map (fun p => (a * fst p, b * snd p)) (combine x y).
Proof. induction x as [|u x IH]; intros [|v y]; cbn; [reflexivity..|]. rewrite IH. reflexivity. Qed.
Lemma cov_entry_lin a b w x y : cov_entry w (map (Rmult a) x) (map (Rmult b) y) = a * b * cov_entry w x y.
Proof.
  unfold cov_entry. cbv zeta. rewrite !average_lin, combine_lin2, combine_map2, map_map, !rsum_total. cbn [fst snd].
  rewrite (total_ext _ (fun p => a * b * ((fst (snd p) - average w x) * ((snd (snd p) - average w y) * fst p)))) by (intros; ring). rewrite total_scale. unfold Rdiv. ring.
Qed.
Lemma mean_affine {A} (f : A -> R) a b d : W d <> 0 -> mean_of (fun x => a * f x + b) d = a * mean_of f d + b.
Proof. intros H. unfold mean_of. rewrite (total_ext _ (fun p => a * (fst p * f (snd p)) + b * fst p)) by (intros; ring). rewrite total_plus, !total_scale. fold (W d). field. exact H. Qed.
Lemma average_affine {A} (f : A -> R) a b w l : length w = length l -> rsum w <> 0 -> average w (map (fun x => a * f x + b) l) = a * average w (map f l) + b.
Proof. intros E H. rewrite !average_mean by exact E. apply mean_affine. rewrite <- (rsum_W w l E). exact H. Qed.
Lemma req_pos c a : 0 < c -> req (c * a) 0 = req a 0. Proof. intros H. apply req_scaled. lra. Qed.
Lemma sqrt_over a x : 0 < a -> 0 <= x -> sqrt (x / (a * a)) = sqrt x / a.
Proof. intros H1 H2. rewrite sqrt_div; [|exact H2|nra]. rewrite sqrt_square by lra. reflexivity. Qed.

(** The same estimates whatever the oracle chooses. *)
Definition same_kde (k k' : megkde) : Prop := kd_d k' = kd_d k /\ kd_weights k' = kd_weights k /\ kd_sigma k' = kd_sigma k /\ kd_truncation k' = kd_truncation k.
Lemma evaluate_same {A} nearest k k' (row row' : A -> list R) ts : same_kde k k' -> (forall t, row_times (minus (row' t) (kd_mean k')) (kd_A k') = row_times (minus (row t) (kd_mean k)) (kd_A k)) ->
  evaluate nearest k' (map row' ts) = evaluate nearest k (map row ts).
Proof.
  intros [E1 [E2 [E3 E4]]] H. unfold evaluate. rewrite E1, E2, E3, E4. destruct (req _ 0); [reflexivity|]. induction ts as [|t ts IH]; [reflexivity|]. cbn [map rmapM]. rewrite H, IH. reflexivity.
Qed.

Lemma sphere1_units a v : 0 < a -> match sphere_transform [[v]] with Ok m => exists s, m = [[s]] /\ sphere_transform [[a * a * v]] = Ok [[s / a]] | Err e => sphere_transform [[a * a * v]] = Err e end.
Proof.
  intros H. assert (AA : 0 < a * a) by nra. unfold sphere_transform. rewrite req_pos by exact AA. destruct (req v 0) eqn:E; [reflexivity|]. apply req_false in E. cbv zeta.
  assert (EI : 1 / (a * a * v) = / (a * a) * (1 / v)) by (field; repeat split; (exact E || lra)). rewrite EI, rle_scaled by (apply Rinv_0_lt_compat; exact AA). destruct (rle (1 / v) 0) eqn:E2; [reflexivity|]. apply rle_false in E2. eexists. split; [reflexivity|].
  replace (/ (a * a) * (1 / v)) with (1 / v / (a * a)) by (field; repeat split; (exact E || lra)). rewrite sqrt_over by lra. reflexivity.
Qed.
Lemma sphere2_units a b vx c c' vy : 0 < a -> 0 < b ->
  match sphere_transform [[vx; c]; [c'; vy]] with
  | Ok m => exists l11 l21 l22, m = [[l11; 0]; [l21; l22]] /\ sphere_transform [[a * a * vx; a * b * c]; [b * a * c'; b * b * vy]] = Ok [[l11 / a; 0]; [l21 / b; l22 / b]]
  | Err e => sphere_transform [[a * a * vx; a * b * c]; [b * a * c'; b * b * vy]] = Err e
  end.
Proof.
  intros H1 H2. assert (AA : 0 < a * a) by nra. assert (BB : 0 < b * b) by nra. unfold sphere_transform. cbv zeta. assert (ED : a * a * vx * (b * b * vy) - a * b * c * (b * a * c') = (a * a) * (b * b) * (vx * vy - c * c')) by ring. rewrite ED. set (det := vx * vy - c * c') in *.
  rewrite req_pos by (apply Rmult_lt_0_compat; assumption). destruct (req det 0) eqn:E; [reflexivity|]. apply req_false in E.
  assert (E1 : b * b * vy / (a * a * (b * b) * det) = / (a * a) * (vy / det)) by (field; repeat split; (exact E || lra)). rewrite E1, rle_scaled by (apply Rinv_0_lt_compat; exact AA). destruct (rle (vy / det) 0) eqn:E2; [reflexivity|]. apply rle_false in E2.
  assert (EL : sqrt (/ (a * a) * (vy / det)) = sqrt (vy / det) / a) by (replace (/ (a * a) * (vy / det)) with (vy / det / (a * a)) by (field; repeat split; (exact E || lra)); apply sqrt_over; lra). rewrite EL. set (l := sqrt (vy / det)). assert (LP : 0 < l) by (apply sqrt_lt_R0; exact E2).
  assert (EM : - (b * a * c') / (a * a * (b * b) * det) / (l / a) = - c' / det / l / b) by (field; repeat split; (exact E || lra)). rewrite EM. set (l21 := - c' / det / l).
  assert (ER : a * a * vx / (a * a * (b * b) * det) - l21 / b * (l21 / b) = / (b * b) * (vx / det - l21 * l21)) by (field; repeat split; (exact E || lra)). rewrite ER, rle_scaled by (apply Rinv_0_lt_compat; exact BB). destruct (rle (vx / det - l21 * l21) 0) eqn:E3; [reflexivity|]. apply rle_false in E3.
  exists l, l21, (sqrt (vx / det - l21 * l21)). split; [reflexivity|]. replace (/ (b * b) * (vx / det - l21 * l21)) with ((vx / det - l21 * l21) / (b * b)) by (field; repeat split; (exact E || lra)). rewrite sqrt_over by lra. reflexivity.
Qed.

Lemma kde1_units nearest data w tr fa ts a b : 0 < a ->
  megkde_at nearest 1 (map (fun x => [a * x + b]) data) w tr fa (map (fun x => [a * x + b]) ts) = megkde_at nearest 1 (map (fun x => [x]) data) w tr fa (map (fun x => [x]) ts).
Proof.
  intros H. unfold megkde_at, new_megkde. rewrite !map_length. destruct (length w =? length data)%nat eqn:EL; cbn [negb]; [|reflexivity]. apply Nat.eqb_eq in EL. destruct (req (rsum w) 0) eqn:E0; [reflexivity|]. apply req_false in E0. cbv zeta. destruct (existsb _ w); [reflexivity|]. destruct (rle _ 0); [reflexivity|].
  cbn [seq map]. rewrite (map_map (fun x : R => [a * x + b]) (comp 0)), (map_map (fun x : R => [x]) (comp 0)). cbn [comp nth]. rewrite (average_affine (fun x => x) a b w data EL E0). set (m := average w (map (fun x => x) data)). repeat rewrite map_map. cbn [minus combine map fst snd comp nth].
  assert (ED : map (fun x => a * x + b - (a * m + b)) data = map (Rmult a) (map (fun x => x - m) data)) by (rewrite map_map; apply map_ext; intros; ring). rewrite ED, cov_entry_lin. pose proof (sphere1_units a (cov_entry w (map (fun x => x - m) data) (map (fun x => x - m) data)) H) as SU.
  destruct (sphere_transform [[cov_entry w (map (fun x => x - m) data) (map (fun x => x - m) data)]]) as [A|e]; [|rewrite SU; reflexivity]. destruct SU as [s [-> ->]]. cbn [rbind].
  assert (RT : forall x, row_times [a * x + b - (a * m + b)] [[s / a]] = row_times [x - m] [[s]]) by (intros x; rewrite !row_times1; f_equal; field; lra).
  apply evaluate_same; [repeat split; cbn [kd_d]; rewrite ?map_map; apply map_ext; intros x; apply RT|]. intros t. cbn [kd_mean kd_A]. apply RT.
Qed.
Lemma kde2_units nearest (data : list (R * R)) w tr fa ts a b a' b' : 0 < a -> 0 < a' -> let move := fun p : R * R => [a * fst p + b; a' * snd p + b'] in let stay := fun p : R * R => [fst p; snd p] in
  megkde_at nearest 2 (map move data) w tr fa (map move ts) = megkde_at nearest 2 (map stay data) w tr fa (map stay ts).
Proof.
  intros H H' move stay. unfold megkde_at, new_megkde. rewrite !map_length. destruct (length w =? length data)%nat eqn:EL; cbn [negb]; [|reflexivity]. apply Nat.eqb_eq in EL. destruct (req (rsum w) 0) eqn:E0; [reflexivity|]. apply req_false in E0. cbv zeta. destruct (existsb _ w); [reflexivity|]. destruct (rle _ 0); [reflexivity|].
  cbn [seq map]. rewrite (map_map move (comp 0)), (map_map stay (comp 0)), (map_map move (comp 1)), (map_map stay (comp 1)). unfold move, stay. cbn [comp nth]. rewrite (average_affine fst a b w data EL E0), (average_affine snd a' b' w data EL E0). set (mx := average w (map (fun x => fst x) data)). set (my := average w (map (fun x => snd x) data)). repeat rewrite map_map. cbn [minus combine map fst snd comp nth].
  assert (ED : map (fun x : R * R => a * fst x + b - (a * mx + b)) data = map (Rmult a) (map (fun x => fst x - mx) data)) by (rewrite map_map; apply map_ext; intros; ring).
  assert (ED' : map (fun x : R * R => a' * snd x + b' - (a' * my + b')) data = map (Rmult a') (map (fun x => snd x - my) data)) by (rewrite map_map; apply map_ext; intros; ring). change (average w (map fst data)) with mx. change (average w (map snd data)) with my. rewrite ED, ED', !cov_entry_lin.
  set (vx := cov_entry w (map (fun x => fst x - mx) data) (map (fun x => fst x - mx) data)). set (c := cov_entry w (map (fun x => fst x - mx) data) (map (fun x => snd x - my) data)). set (c' := cov_entry w (map (fun x => snd x - my) data) (map (fun x => fst x - mx) data)). set (vy := cov_entry w (map (fun x => snd x - my) data) (map (fun x => snd x - my) data)).
  pose proof (sphere2_units a a' vx c c' vy H H') as SU. destruct (sphere_transform [[vx; c]; [c'; vy]]) as [A|e]; [|rewrite SU; reflexivity]. destruct SU as [l11 [l21 [l22 [-> ->]]]]. cbn [rbind].
  assert (RT : forall x : R * R, row_times [a * fst x + b - (a * mx + b); a' * snd x + b' - (a' * my + b')] [[l11 / a; 0]; [l21 / a'; l22 / a']] = row_times [fst x - mx; snd x - my] [[l11; 0]; [l21; l22]]).
  { intros x. rewrite !row_times2. f_equal; [field; lra|]. f_equal. field. lra. }
  apply evaluate_same; [repeat split; cbn [kd_d]; rewrite ?map_map; apply map_ext; intros x; apply RT|]. intros t. cbn [kd_mean kd_A]. apply RT.
Qed.
