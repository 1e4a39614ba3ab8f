(** Covariance and correlation: proofs. *)
From Coq Require Import String List Bool Arith ZArith QArith Lia Setoid Reals Qreals Lra Lqa.
From Verif Require Import Py NumSpec NumModel NumFacts FrameModel FrameFacts ConfigModel ChainModel ChainSpec ShiftProofs CovModel CovSpec.
Import ListNotations.
Open Scope list_scope.
Open Scope Q_scope.

(** ** Sums *)
Lemma sumn_add f g a n : sum_n (fun i => f i + g i) a n == sum_n f a n + sum_n g a n.
Proof. revert a. induction n as [|n IH]; intros a; cbn [sum_n]; [ring|]. rewrite IH. ring. Qed.
Lemma sumn_scale q f a n : sum_n (fun i => q * f i) a n == q * sum_n f a n.
Proof. revert a. induction n as [|n IH]; intros a; cbn [sum_n]; [ring|]. rewrite IH. ring. Qed.
Lemma sumn_const0 a n : sum_n (fun _ => 0) a n == 0.
Proof. revert a. induction n as [|n IH]; intros a; cbn [sum_n]; [ring|]. rewrite IH. ring. Qed.
Lemma sumn_swap f a n b m : sum_n (fun i => sum_n (fun j => f i j) b m) a n == sum_n (fun j => sum_n (fun i => f i j) a n) b m.
Proof.
  revert a. induction n as [|n IH]; intros a; cbn [sum_n]; [rewrite sumn_const0; reflexivity|]. rewrite IH, <- sumn_add. reflexivity.
Qed.
Lemma sumn_nonneg f a n : (forall i, (a <= i < a + n)%nat -> 0 <= f i) -> 0 <= sum_n f a n.
Proof.
  revert a. induction n as [|n IH]; intros a H; cbn [sum_n]; [lra|]. pose proof (H a ltac:(lia)). pose proof (IH (S a) ltac:(intros i Hi; apply H; lia)). lra.
Qed.
Lemma sumr_ext f g n : (forall i, (i < n)%nat -> f i == g i) -> sum_range f 0 n == sum_range g 0 n.
Proof. intros H. unfold sum_range. apply sum_n_ext. intros i Hi. apply H. lia. Qed.
Lemma sumr_scale q f n : sum_range (fun i => q * f i) 0 n == q * sum_range f 0 n.
Proof. apply sumn_scale. Qed.
Lemma sumr_add f g n : sum_range (fun i => f i + g i) 0 n == sum_range f 0 n + sum_range g 0 n.
Proof. apply sumn_add. Qed.
Lemma sumr_swap f n m : sum_range (fun i => sum_range (fun j => f i j) 0 m) 0 n == sum_range (fun j => sum_range (fun i => f i j) 0 n) 0 m.
Proof. apply sumn_swap. Qed.
Lemma sumr_nonneg f n : (forall i, (i < n)%nat -> 0 <= f i) -> 0 <= sum_range f 0 n.
Proof. intros H. apply sumn_nonneg. intros i Hi. apply H. lia. Qed.
Lemma sumr_zero n : sum_range (fun _ => 0) 0 n == 0. Proof. apply sumn_const0. Qed.

(** ** The normalisation *)
Lemma sq_sum w : qsum (map (fun q => q * q) w) == qdot w w.
Proof. unfold qdot. induction w as [|x w IH]; cbn; [reflexivity|]. rewrite IH. reflexivity. Qed.
Lemma qdot_nonneg w : (forall x, In x w -> 0 < x) -> 0 <= qdot w w.
Proof. unfold qdot. induction w as [|x w IH]; intros H; cbn; [lra|]. pose proof (IH ltac:(intros y Hy; apply H; right; exact Hy)). pose proof (H x (or_introl eq_refl)). nra. Qed.
Lemma sq_le w : (forall x, In x w -> 0 < x) -> qdot w w <= qsum w * qsum w.
Proof.
  unfold qdot. induction w as [|x w IH]; intros H; cbn [combine map qsum fst snd]; [lra|].
  pose proof (IH ltac:(intros y Hy; apply H; right; exact Hy)). pose proof (H x (or_introl eq_refl)).
  assert (0 <= qsum w) by (apply qsum_nonneg; intros y Hy; pose proof (H y (or_intror Hy)); lra). nra.
Qed.
Lemma sq_lt w : (forall x, In x w -> 0 < x) -> (2 <= length w)%nat -> qdot w w < qsum w * qsum w.
Proof.
  intros H L. destruct w as [|x [|y w]]; cbn in L; try lia. pose proof (H x (or_introl eq_refl)).
  assert (P : 0 < qsum (y :: w)) by (apply qsum_pos; [discriminate|intros z Hz; apply H; right; exact Hz]).
  pose proof (sq_le (y :: w) ltac:(intros z Hz; apply H; right; exact Hz)) as SL.
  set (r := y :: w) in *. unfold qdot in *. cbn [combine map qsum fst snd]. nra.
Qed.
Definition fact (w : list Q) : Q := (qsum w - qsum (map (fun q => q * q) w) / qsum w)%Q.
Lemma fact_pos w : (forall x, In x w -> 0 < x) -> (2 <= length w)%nat -> 0 < fact w.
Proof.
  intros H L. assert (P : 0 < qsum w) by (apply qsum_pos; [destruct w; [cbn in L; lia|discriminate]|exact H]).
  unfold fact. rewrite sq_sum. pose proof (sq_lt w H L). assert (qdot w w / qsum w < qsum w) by (apply Qlt_shift_div_r; assumption). lra.
Qed.
Lemma fact_total w : fact w == total w - wsum w w / total w.
Proof. unfold fact. rewrite sq_sum, (qdot_wsum w w eq_refl), qsum_total. reflexivity. Qed.

(** ** One entry *)
Definition cen (x w : list Q) : list Q := map (fun q => q - qdot x w / qsum w)%Q x.
Definition covf (x y w : list Q) : Q := (dot3 (cen x w) (cen y w) w * (1 / fact w))%Q.
Lemma dot3_sum : forall w x y, length x = length w -> length y = length w -> dot3 x y w == sum_range (fun k => at_ w k * at_ x k * at_ y k) 0 (length w).
Proof.
  unfold sum_range. intros w. rewrite Nat.sub_0_r. induction w as [|c w IH]; intros [|a x] [|b y] H1 H2; cbn in H1, H2; try discriminate; [reflexivity|].
  cbn [dot3 length sum_n]. rewrite (IH x y) by lia. rewrite sum_n_shift1, !at_cons_0.
  rewrite (sum_n_ext (fun k => at_ w k * at_ x k * at_ y k) (fun i => at_ (c :: w) (S i) * at_ (a :: x) (S i) * at_ (b :: y) (S i))); [ring|].
  intros i _. rewrite !at_cons_S. reflexivity.
Qed.
Lemma at_cen x w k : (k < length x)%nat -> at_ (cen x w) k = at_ x k - qdot x w / qsum w.
Proof.
  unfold cen. generalize (qdot x w / qsum w). intros m. revert k. induction x as [|a x IH]; intros k H; cbn in H; [lia|].
  destruct k; cbn [map]; [rewrite !at_cons_0; reflexivity|]. rewrite !at_cons_S. apply IH. lia.
Qed.
Lemma mean_unique x w mx : length x = length w -> 0 < qsum w -> weighted_mean x w mx -> mx == qdot x w / qsum w.
Proof.
  intros L P H. unfold weighted_mean in H. rewrite <- qsum_total, <- (qdot_wsum x w L) in H. rewrite <- H. field. lra.
Qed.
Lemma mean_exists x w : length x = length w -> 0 < qsum w -> weighted_mean x w (qdot x w / qsum w).
Proof. intros L P. unfold weighted_mean. rewrite <- qsum_total, <- (qdot_wsum x w L). field. lra. Qed.
Lemma covf_spec x y w : length x = length w -> length y = length w -> (forall q, In q w -> 0 < q) -> (2 <= length w)%nat -> is_covariance x y w (covf x y w).
Proof.
  intros L1 L2 P L. assert (W : 0 < qsum w) by (apply qsum_pos; [destruct w; [cbn in L; lia|discriminate]|exact P]).
  intros mx my H1 H2. apply (mean_unique x w mx L1 W) in H1. apply (mean_unique y w my L2 W) in H2.
  pose proof (fact_pos w P L) as F. rewrite <- fact_total. unfold covf. rewrite dot3_sum by (unfold cen; rewrite map_length; assumption).
  rewrite (sumr_ext _ (fun k => at_ w k * (at_ x k - mx) * (at_ y k - my))); [field; lra|].
  intros i Hi. rewrite !at_cen by lia. rewrite H1, H2. reflexivity.
Qed.
Lemma cov_unique x y w c c' : length x = length w -> length y = length w -> (forall q, In q w -> 0 < q) -> (2 <= length w)%nat ->
  is_covariance x y w c -> is_covariance x y w c' -> c == c'.
Proof.
  intros L1 L2 P L H1 H2. assert (W : 0 < qsum w) by (apply qsum_pos; [destruct w; [cbn in L; lia|discriminate]|exact P]).
  specialize (H1 _ _ (mean_exists x w L1 W) (mean_exists y w L2 W)). specialize (H2 _ _ (mean_exists x w L1 W) (mean_exists y w L2 W)).
  rewrite <- H2 in H1. rewrite <- fact_total in H1. pose proof (fact_pos w P L). apply (Qmult_inj_r c c' (fact w)); [lra|exact H1].
Qed.

(** ** The matrix *)
Lemma average_ok x w : 0 < qsum w -> average x w = Ok (qdot x w / qsum w).
Proof. intros H. unfold average. destruct (Qeq_bool (qsum w) 0) eqn:E; [apply Qeq_bool_iff in E; lra|reflexivity]. Qed.
Lemma np_cov_ok xs w : xs <> [] -> (forall q, In q w -> 0 < q) -> (2 <= length w)%nat ->
  exists m, np_cov xs w = Ok m /\ rows m = map (fun x => map (fun y => covf x y w) xs) xs /\ (length xs = 1%nat <-> exists q, m = Scalar q).
Proof.
  intros N P L. assert (W : 0 < qsum w) by (apply qsum_pos; [destruct w; [cbn in L; lia|discriminate]|exact P]).
  unfold np_cov. destruct xs as [|x0 xs0]; [contradiction|]. set (xs := x0 :: xs0) in *.
  destruct (existsb _ w) eqn:EX.
  { apply existsb_exists in EX. destruct EX as [q [HI HQ]]. apply P in HI. apply negb_true_iff in HQ. rewrite <- not_true_iff_false, Qle_bool_iff in HQ. lra. }
  assert (EM : rmapM (fun x => rmap (fun mu => map (fun q => q - mu)%Q x) (average x w)) xs = Ok (map (fun x => cen x w) xs)).
  { clear N. induction xs as [|x r IH]; [reflexivity|]. cbn [rmapM map]. rewrite average_ok by exact W. cbn [rmap rbind]. rewrite IH. reflexivity. }
  rewrite EM. cbn [rbind]. fold (fact w). pose proof (fact_pos w P L) as F. destruct (Qle_bool (fact w) 0) eqn:EF; [apply Qle_bool_iff in EF; lra|].
  assert (ER : map (fun x => map (fun y => dot3 x y w * (1 / fact w)) (map (fun x => cen x w) xs)) (map (fun x => cen x w) xs) = map (fun x => map (fun y => covf x y w) xs) xs).
  { rewrite map_map. apply map_ext. intros x. rewrite map_map. reflexivity. }
  rewrite ER. unfold xs. destruct xs0 as [|x1 xs1]; cbn [map].
  - eexists. split; [reflexivity|]. split; [reflexivity|]. split; [eexists; reflexivity|reflexivity].
  - eexists. split; [reflexivity|]. split; [reflexivity|]. split; [cbn; lia|intros [q E]; discriminate].
Qed.
Lemma qs_fin l : qs (map Fin l) = l.
Proof. unfold qs. rewrite map_map. cbn. apply map_id. Qed.
Lemma select_ok f cols xs : frame_wf f -> Forall2 (column f) cols xs -> select f cols = Ok xs.
Proof.
  intros W H. unfold select. induction H as [|n x cols xs H _ IH]; [reflexivity|]. cbn [rmapM]. unfold column in H.
  apply (f_get_wf f n _ W) in H. rewrite H, qs_fin. cbn [rbind]. rewrite IH. reflexivity.
Qed.
Lemma weights_ok c f w : frame_wf f -> column f (ch_weight c) w -> weights c f = Ok w.
Proof. intros W H. unfold weights. apply (f_get_wf f _ _ W) in H. rewrite H, qs_fin. reflexivity. Qed.
Lemma wd_len c f cols xs w : weighted_data c f cols xs w -> length cols = length xs /\ forall x, In x xs -> length x = length w.
Proof.
  intros [W C WW P L]. split; [clear - C; induction C; cbn; congruence|]. intros x Hx. pose proof (proj2 W _ _ WW) as LW. rewrite map_length in LW.
  clear - W C Hx LW. induction C as [|n y cols xs H _ IH]; [destruct Hx|]. destruct Hx as [<-|Hx]; [|apply IH; exact Hx].
  pose proof (proj2 W _ _ H) as LX. rewrite map_length in LX. congruence.
Qed.
Lemma covariance_ok c f cols xs w : weighted_data c f cols xs w -> cols <> [] ->
  exists m, get_covariance c f (Some cols) = Ok {| nm_columns := cols; nm_matrix := m |} /\
    rows m = map (fun x => map (fun y => covf x y w) xs) xs /\ (length xs = 1%nat <-> exists q, m = Scalar q).
Proof.
  intros D N. destruct D as [W C WW P L]. assert (N2 : xs <> []) by (intros ->; inversion C; subst; contradiction).
  destruct (np_cov_ok xs w N2 P L) as [m [M1 [M2 M3]]]. exists m. split; [|split; assumption].
  unfold get_covariance. rewrite (select_ok f cols xs W C). cbn [rbind]. rewrite (weights_ok c f w W WW). cbn [rbind]. rewrite M1. reflexivity.
Qed.
Lemma entry_covf xs w i j : (i < length xs)%nat -> (j < length xs)%nat ->
  entry (map (fun x => map (fun y => covf x y w) xs) xs) i j = covf (nth i xs []) (nth j xs []) w.
Proof.
  intros Hi Hj. unfold entry. set (g := fun x => map (fun y => covf x y w) xs).
  rewrite (nth_indep (map g xs) [] (g [])) by (rewrite map_length; exact Hi). rewrite map_nth. unfold g.
  rewrite (nth_indep _ 0 (covf (nth i xs []) [] w)) by (rewrite map_length; exact Hj). rewrite (map_nth (fun y => covf (nth i xs []) y w)). reflexivity.
Qed.
Lemma covf_sym x y w : length x = length w -> length y = length w -> covf x y w == covf y x w.
Proof.
  intros L1 L2. unfold covf. rewrite !dot3_sum by (unfold cen; rewrite map_length; assumption).
  rewrite (sumr_ext _ (fun k => at_ w k * at_ (cen y w) k * at_ (cen x w) k)); [reflexivity|]. intros i _. ring.
Qed.
Lemma sq_nonneg q : 0 <= q * q. Proof. destruct (Qlt_le_dec q 0); nra. Qed.

(** ** Positive semi-definiteness *)
Lemma covf_times x y w : length x = length w -> length y = length w -> (forall q, In q w -> 0 < q) -> (2 <= length w)%nat ->
  covf x y w * fact w == sum_range (fun k => at_ w k * at_ (cen x w) k * at_ (cen y w) k) 0 (length w).
Proof.
  intros L1 L2 P L. pose proof (fact_pos w P L). unfold covf. rewrite dot3_sum by (unfold cen; rewrite map_length; assumption). field. lra.
Qed.
Lemma psd xs w v : (forall x, In x xs -> length x = length w) -> (forall q, In q w -> 0 < q) -> (2 <= length w)%nat -> length v = length xs ->
  0 <= quadratic (map (fun x => map (fun y => covf x y w) xs) xs) v.
Proof.
  intros LX P L LV. pose proof (fact_pos w P L) as F. set (d := length v) in *.
  set (X := fun i => cen (nth i xs []) w).
  assert (LN : forall i, (i < d)%nat -> length (nth i xs []) = length w) by (intros i Hi; apply LX; apply nth_In; lia).
  assert (E : quadratic (map (fun x => map (fun y => covf x y w) xs) xs) v * fact w ==
    sum_range (fun k => at_ w k * (sum_range (fun i => at_ v i * at_ (X i) k) 0 d * sum_range (fun i => at_ v i * at_ (X i) k) 0 d)) 0 (length w)).
  { unfold quadratic. fold d. rewrite Qmult_comm, <- sumr_scale.
    transitivity (sum_range (fun i => sum_range (fun j => sum_range (fun k => at_ w k * (at_ v i * at_ (X i) k) * (at_ v j * at_ (X j) k)) 0 (length w)) 0 d) 0 d).
    { apply sumr_ext. intros i Hi. rewrite <- sumr_scale. apply sumr_ext. intros j Hj. rewrite entry_covf by lia.
      transitivity (at_ v i * at_ v j * (covf (nth i xs []) (nth j xs []) w * fact w)); [ring|]. rewrite covf_times by (try apply LN; assumption).
      rewrite <- sumr_scale. apply sumr_ext. intros k _. unfold X. ring. }
    transitivity (sum_range (fun i => sum_range (fun k => sum_range (fun j => at_ w k * (at_ v i * at_ (X i) k) * (at_ v j * at_ (X j) k)) 0 d) 0 (length w)) 0 d).
    { apply sumr_ext. intros i Hi. apply (sumr_swap (fun j k => at_ w k * (at_ v i * at_ (X i) k) * (at_ v j * at_ (X j) k))). }
    rewrite sumr_swap. apply sumr_ext. intros k Hk.
    transitivity (sum_range (fun i => (at_ w k * sum_range (fun j => at_ v j * at_ (X j) k) 0 d) * (at_ v i * at_ (X i) k)) 0 d).
    { apply sumr_ext. intros i Hi. rewrite sumr_scale. ring. }
    rewrite sumr_scale. ring. }
  assert (G : 0 <= quadratic (map (fun x => map (fun y => covf x y w) xs) xs) v * fact w).
  { rewrite E. apply sumr_nonneg. intros k Hk. pose proof (P (at_ w k) (nth_In _ _ Hk)).
    pose proof (sq_nonneg (sum_range (fun i => at_ v i * at_ (X i) k) 0 d)). nra. }
  destruct (Qlt_le_dec (quadratic (map (fun x => map (fun y => covf x y w) xs) xs) v) 0) as [HN|HN]; [nra|exact HN].
Qed.
(** Cauchy-Schwarz. *)
Lemma var_nonneg x w : length x = length w -> (forall q, In q w -> 0 < q) -> (2 <= length w)%nat -> 0 <= covf x x w.
Proof.
  intros L1 P L. pose proof (fact_pos w P L) as F. pose proof (covf_times x x w L1 L1 P L) as E.
  assert (0 <= covf x x w * fact w). { rewrite E. apply sumr_nonneg. intros k Hk. pose proof (P (at_ w k) (nth_In _ _ Hk)). pose proof (sq_nonneg (at_ (cen x w) k)). nra. }
  destruct (Qlt_le_dec (covf x x w) 0); [nra|assumption].
Qed.
Lemma two_nonneg x y w s t : length x = length w -> length y = length w -> (forall q, In q w -> 0 < q) -> (2 <= length w)%nat ->
  0 <= s * s * covf x x w + 2 * s * t * covf x y w + t * t * covf y y w.
Proof.
  intros L1 L2 P L. pose proof (fact_pos w P L) as F. pose proof (covf_times x x w L1 L1 P L) as E1. pose proof (covf_times x y w L1 L2 P L) as E2. pose proof (covf_times y y w L2 L2 P L) as E3.
  assert (E : (s * s * covf x x w + 2 * s * t * covf x y w + t * t * covf y y w) * fact w ==
    sum_range (fun k => at_ w k * ((s * at_ (cen x w) k + t * at_ (cen y w) k) * (s * at_ (cen x w) k + t * at_ (cen y w) k))) 0 (length w)).
  { transitivity (s * s * (covf x x w * fact w) + 2 * s * t * (covf x y w * fact w) + t * t * (covf y y w * fact w)); [ring|]. rewrite E1, E2, E3.
    rewrite <- !sumr_scale, <- !sumr_add. apply sumr_ext. intros k _. ring. }
  assert (G : 0 <= (s * s * covf x x w + 2 * s * t * covf x y w + t * t * covf y y w) * fact w).
  { rewrite E. apply sumr_nonneg. intros k Hk. pose proof (P (at_ w k) (nth_In _ _ Hk)). pose proof (sq_nonneg (s * at_ (cen x w) k + t * at_ (cen y w) k)). nra. }
  destruct (Qlt_le_dec (s * s * covf x x w + 2 * s * t * covf x y w + t * t * covf y y w) 0); [nra|assumption].
Qed.
Lemma cauchy_schwarz x y w : length x = length w -> length y = length w -> (forall q, In q w -> 0 < q) -> (2 <= length w)%nat ->
  covf x y w * covf x y w <= covf x x w * covf y y w.
Proof.
  intros L1 L2 P L. pose proof (var_nonneg y w L2 P L) as VY. pose proof (var_nonneg x w L1 P L) as VX.
  pose proof (two_nonneg x y w (covf y y w) (- covf x y w) L1 L2 P L) as H.
  set (a := covf x x w) in *. set (b := covf x y w) in *. set (c := covf y y w) in *.
  destruct (Qlt_le_dec 0 c) as [C|C].
  - assert (0 <= c * (a * c - b * b)) by (ring_simplify in H; ring_simplify; lra).
    destruct (Qlt_le_dec (a * c - b * b) 0); [nra|lra].
  - assert (C0 : c == 0) by lra. pose proof (two_nonneg x y w (- b) (1 + a) L1 L2 P L) as H2. fold a b c in H2.
    pose proof (two_nonneg x y w 1 (- b * (a + 1)) L1 L2 P L) as H3. fold a b c in H3. rewrite C0 in *. ring_simplify in H3.
    pose proof (sq_nonneg b). destruct (Qlt_le_dec 0 (b * b)) as [B|B]; [|nra]. exfalso. nra.
Qed.

(** ** Affine changes *)
Lemma affine_total t w w' : affine t 0 w w' -> total w' == t * total w /\ wsum w' w' == t * t * wsum w w.
Proof.
  intros [L H]. unfold total, wsum. rewrite <- L. split; rewrite <- sumr_scale; apply sumr_ext; intros i Hi; rewrite !(H i Hi); ring.
Qed.
Lemma affine_mean t w w' a b x x' mx : affine t 0 w w' -> affine a b x x' -> length x = length w -> weighted_mean x w mx -> weighted_mean x' w' (a * mx + b).
Proof.
  intros A1 A2 L H. destruct (affine_total t w w' A1) as [E1 _]. unfold weighted_mean in *. rewrite E1. unfold wsum. rewrite <- (proj1 A1).
  transitivity (t * a * wsum x w + t * b * total w).
  - rewrite <- H. ring.
  - unfold wsum, total. rewrite <- !sumr_scale, <- sumr_add. apply sumr_ext. intros i Hi. rewrite (proj2 A1 i Hi), (proj2 A2 i) by lia. ring.
Qed.
Lemma affine_cov t w w' a b x x' p q y y' c : affine t 0 w w' -> affine a b x x' -> affine p q y y' -> 0 < t ->
  length x = length w -> length y = length w -> 0 < qsum w ->
  is_covariance x y w c -> is_covariance x' y' w' (a * p * c).
Proof.
  intros A1 A2 A3 T L1 L2 W H mx' my' H1 H2. destruct (affine_total t w w' A1) as [E1 E2].
  specialize (H _ _ (mean_exists x w L1 W) (mean_exists y w L2 W)).
  pose proof (affine_mean _ _ _ _ _ _ _ _ A1 A2 L1 (mean_exists x w L1 W)) as M1. pose proof (affine_mean _ _ _ _ _ _ _ _ A1 A3 L2 (mean_exists y w L2 W)) as M2.
  set (mx := qdot x w / qsum w) in *. set (my := qdot y w / qsum w) in *.
  assert (TW : 0 < total w) by (rewrite <- qsum_total; exact W). assert (TW' : 0 < total w') by (rewrite E1; nra).
  assert (MX : mx' == a * mx + b). { unfold weighted_mean in *. apply (Qmult_inj_r mx' (a * mx + b) (total w')); [lra|]. rewrite H1, M1. reflexivity. }
  assert (MY : my' == p * my + q). { unfold weighted_mean in *. apply (Qmult_inj_r my' (p * my + q) (total w')); [lra|]. rewrite H2, M2. reflexivity. }
  rewrite E1, E2. transitivity (t * a * p * (c * (total w - wsum w w / total w))); [field; split; lra|]. rewrite H, <- sumr_scale.
  rewrite <- (proj1 A1). apply sumr_ext. intros k Hk. rewrite (proj2 A1 k Hk), (proj2 A2 k), (proj2 A3 k) by lia. rewrite MX, MY. ring.
Qed.
Lemma affine_covf t w w' a b x x' p q y y' : affine t 0 w w' -> affine a b x x' -> affine p q y y' -> 0 < t ->
  length x = length w -> length y = length w -> (forall q, In q w -> 0 < q) -> (forall q, In q w' -> 0 < q) -> (2 <= length w)%nat ->
  covf x' y' w' == a * p * covf x y w.
Proof.
  intros A1 A2 A3 T L1 L2 P P' L. assert (W : 0 < qsum w) by (apply qsum_pos; [destruct w; [cbn in L; lia|discriminate]|exact P]).
  pose proof (proj1 A1) as K1. pose proof (proj1 A2) as K2. pose proof (proj1 A3) as K3.
  apply (cov_unique x' y' w'); try lia; try assumption; [apply covf_spec; try lia; assumption|].
  apply (affine_cov t w w' a b x x' p q y y'); try assumption. apply covf_spec; assumption.
Qed.

(** ** Equal weights *)
Lemma equal_weights x y w c t : (forall k, (k < length w)%nat -> at_ w k == t) -> 0 < t -> (2 <= length w)%nat -> length x = length w -> length y = length w ->
  is_covariance x y w c ->
  forall mx my, mx * nq (length w) == total x -> my * nq (length w) == total y ->
  c * (nq (length w) - 1) == sum_range (fun k => (at_ x k - mx) * (at_ y k - my)) 0 (length w).
Proof.
  intros E T L L1 L2 H mx my M1 M2. set (n := nq (length w)) in *. assert (N : 0 < n) by (apply nq_pos; lia).
  assert (SC : forall m, sum_range (fun _ => t) 0 m == nq m * t).
  { clear. intros m. unfold sum_range. rewrite Nat.sub_0_r. generalize 0%nat. induction m as [|m IH]; intros s; cbn [sum_n]; [unfold nq; cbn; ring|].
    rewrite IH. unfold nq. rewrite Nat2Z.inj_succ. unfold Z.succ. rewrite inject_Z_plus. change (inject_Z 1) with 1. ring. }
  assert (TT : total w == n * t). { unfold total. transitivity (sum_range (fun _ => t) 0 (length w)); [apply sumr_ext; exact E|apply SC]. }
  assert (WW : wsum w w == n * t * t). { unfold wsum. transitivity (t * sum_range (fun _ => t) 0 (length w)); [|rewrite SC; fold n; ring]. rewrite <- sumr_scale. apply sumr_ext. intros k Hk. rewrite (E k Hk). reflexivity. }
  assert (WX : forall z, length z = length w -> wsum z w == t * total z).
  { intros z Lz. unfold wsum, total. rewrite Lz, <- sumr_scale. apply sumr_ext. intros k Hk. rewrite (E k Hk). ring. }
  specialize (H mx my). unfold weighted_mean in H. rewrite TT, !WX, WW in H by assumption.
  specialize (H ltac:(rewrite <- M1; ring) ltac:(rewrite <- M2; ring)).
  assert (K : t * (c * (n - 1)) == t * sum_range (fun k => (at_ x k - mx) * (at_ y k - my)) 0 (length w)).
  { rewrite <- sumr_scale. transitivity (c * (n * t - n * t * t / (n * t))); [field; split; lra|]. rewrite H. apply sumr_ext. intros k Hk. rewrite (E k Hk). ring. }
  apply (Qmult_inj_l _ _ t); [lra|exact K].
Qed.

(** ** Failures *)
Lemma cov_one_row c f cols xs w : frame_wf f -> Forall2 (column f) cols xs -> column f (ch_weight c) [w] -> 0 < w -> cols <> [] ->
  get_covariance c f (Some cols) = Err NaNResult.
Proof.
  intros W C WW P N. unfold get_covariance. rewrite (select_ok f cols xs W C). cbn [rbind]. rewrite (weights_ok c f _ W WW). cbn [rbind].
  assert (N2 : xs <> []) by (intros ->; inversion C; subst; contradiction). destruct xs as [|x0 xs0]; [contradiction|].
  unfold np_cov. set (xs := x0 :: xs0). destruct (existsb _ [w]) eqn:EX.
  { apply existsb_exists in EX. destruct EX as [q [[HI|[]] HQ]]. subst q. apply negb_true_iff in HQ. rewrite <- not_true_iff_false, Qle_bool_iff in HQ. lra. }
  assert (EM : exists cs, rmapM (fun x => rmap (fun mu => map (fun q => q - mu)%Q x) (average x [w])) xs = Ok cs).
  { generalize xs. induction xs1 as [|x r IH]; [eexists; reflexivity|]. cbn [rmapM]. rewrite average_ok by (cbn; lra). cbn [rmap rbind]. destruct IH as [cs ->]. eexists. reflexivity. }
  destruct EM as [cs ->]. cbn [rbind]. fold (fact [w]). assert (E : fact [w] == 0) by (unfold fact; cbn; field; lra).
  destruct (Qle_bool (fact [w]) 0) eqn:EF; [reflexivity|]. rewrite <- not_true_iff_false, Qle_bool_iff in EF. lra.
Qed.
Lemma cov_unknown c f cols n : frame_wf f -> In n cols -> ~ is_column f n -> get_covariance c f (Some cols) = Err KeyError.
Proof.
  intros W HI HN. unfold get_covariance. assert (E : select f cols = Err KeyError); [|rewrite E; reflexivity].
  unfold select. induction cols as [|m r IH]; [destruct HI|]. cbn [rmapM]. destruct (f_get f m) as [l|] eqn:E; [|reflexivity]. cbn [rbind].
  destruct HI as [->|HI]; [exfalso; apply HN; exists l; apply f_get_In; exact E|]. rewrite (IH HI). reflexivity.
Qed.
(** Weights that are not all non-negative, or that sum to zero. *)
Lemma cov_bad_weights c f cols w : frame_wf f -> column f (ch_weight c) w -> qsum w <= 0 -> cols <> [] ->
  exists e, get_covariance c f (Some cols) = Err e.
Proof.
  intros W WW Q N. unfold get_covariance. destruct (select f cols) as [xs|e] eqn:ES; [|eexists; reflexivity]. cbn [rbind].
  rewrite (weights_ok c f _ W WW). cbn [rbind]. destruct xs as [|x0 xs0].
  { exfalso. destruct cols as [|m r]; [contradiction|]. unfold select in ES. cbn [rmapM] in ES. destruct (f_get f m); [|discriminate]. cbn [rbind] in ES. destruct (rmapM _ r); discriminate. }
  unfold np_cov. destruct (existsb _ w) eqn:EX; [eexists; reflexivity|].
  assert (Q0 : qsum w == 0).
  { assert (0 <= qsum w); [|lra]. apply qsum_nonneg. intros q HI. destruct (Qlt_le_dec q 0) as [L|L]; [|exact L]. exfalso.
    rewrite <- not_true_iff_false in EX. apply EX. apply existsb_exists. exists q. split; [exact HI|]. apply negb_true_iff. rewrite <- not_true_iff_false, Qle_bool_iff. lra. }
  cbn [rmapM]. unfold average at 1. rewrite (proj2 (Qeq_bool_iff _ _) Q0). cbn. eexists. reflexivity.
Qed.

(** ** Correlation *)
Open Scope R_scope.
Definition corr_of (xs : list (list Q)) (w : list Q) (i j : nat) : option R :=
  let C a b := Q2R (covf (nth a xs []) (nth b xs []) w) in
  if Req_EM_T (sqrt (C j j) * sqrt (C i i)) 0 then None else Some (C i j / (sqrt (C j j) * sqrt (C i i))).
Lemma correlation_ok c f cols xs w : weighted_data c f cols xs w -> (2 <= length cols)%nat ->
  exists m, get_correlation c f (Some cols) = Ok {| nm_columns := cols; nm_matrix := Mat m |} /\ square m (length cols) /\
    forall i j, (i < length cols)%nat -> (j < length cols)%nat -> centry m i j = corr_of xs w i j.
Proof.
  intros D L. assert (N : cols <> []) by (destruct cols; [cbn in L; lia|discriminate]). destruct (wd_len _ _ _ _ _ D) as [LX _].
  destruct (covariance_ok c f cols xs w D N) as [m [M1 [M2 M3]]]. unfold get_correlation. rewrite M1. cbn [rbind nm_matrix nm_columns].
  destruct m as [q|m]; [exfalso; assert (length xs = 1%nat) by (apply M3; eexists; reflexivity); lia|]. cbn [rows] in M2.
  assert (LM : length m = length cols) by (rewrite M2, map_length; lia). rewrite LM.
  eexists. split; [reflexivity|]. split.
  - split; [rewrite map_length, seq_length; reflexivity|]. intros r Hr. apply in_map_iff in Hr. destruct Hr as [i [<- _]]. rewrite map_length, seq_length. reflexivity.
  - intros i j Hi Hj. unfold centry.
    rewrite (nth_indep _ [] (map (fun j => correlation_entry m 0 j) (seq 0 (length cols)))) by (rewrite map_length, seq_length; exact Hi).
    rewrite (map_nth (fun i => map (fun j => correlation_entry m i j) (seq 0 (length cols)))). rewrite seq_nth by exact Hi.
    rewrite (nth_indep _ None (correlation_entry m (0 + i) 0)) by (rewrite map_length, seq_length; exact Hj).
    rewrite (map_nth (fun j => correlation_entry m (0 + i) j)). rewrite seq_nth by exact Hj. cbn [Nat.add].
    unfold correlation_entry, corr_of. change mat_at with entry. rewrite M2, !entry_covf by lia. reflexivity.
Qed.
Lemma Q2R_nonneg q : (0 <= q)%Q -> 0 <= Q2R q.
Proof. intros H. apply Qle_Rle in H. rewrite RMicromega.Q2R_0 in H. exact H. Qed.
Lemma Q2R_pos q : (0 < q)%Q -> 0 < Q2R q.
Proof. intros H. apply Qlt_Rlt in H. rewrite RMicromega.Q2R_0 in H. exact H. Qed.
Section corr.
Variables (xs : list (list Q)) (w : list Q).
Hypothesis LX : forall x, In x xs -> length x = length w.
Hypothesis P : forall q, In q w -> (0 < q)%Q.
Hypothesis L2 : (2 <= length w)%nat.
Let C a b := covf (nth a xs []) (nth b xs []) w.
Lemma corr_len i : (i < length xs)%nat -> length (nth i xs []) = length w.
Proof. intros H. apply LX. apply nth_In. exact H. Qed.
Lemma corr_pos i j : (i < length xs)%nat -> (j < length xs)%nat -> (0 < C i i)%Q -> (0 < C j j)%Q ->
  corr_of xs w i j = Some (Q2R (C i j) / (sqrt (Q2R (C j j)) * sqrt (Q2R (C i i)))) /\ 0 < sqrt (Q2R (C j j)) * sqrt (Q2R (C i i)).
Proof.
  intros Hi Hj Vi Vj. assert (S : 0 < sqrt (Q2R (C j j)) * sqrt (Q2R (C i i))) by (apply Rmult_lt_0_compat; apply sqrt_lt_R0, Q2R_pos; assumption).
  split; [|exact S]. unfold corr_of. fold (C i i) (C j j) (C i j). destruct (Req_EM_T _ 0) as [E|_]; [rewrite E in S; Lra.lra|reflexivity].
Qed.
Lemma corr_bound i j : (i < length xs)%nat -> (j < length xs)%nat -> (0 < C i i)%Q -> (0 < C j j)%Q ->
  exists r, corr_of xs w i j = Some r /\ -1 <= r <= 1.
Proof.
  intros Hi Hj Vi Vj. destruct (corr_pos i j Hi Hj Vi Vj) as [E S]. eexists. split; [exact E|].
  set (s := sqrt (Q2R (C j j)) * sqrt (Q2R (C i i))) in *.
  assert (SS : s * s = Q2R (C i i) * Q2R (C j j)).
  { unfold s. rewrite <- (sqrt_sqrt (Q2R (C i i))) at 3 by (apply Q2R_nonneg; Lqa.lra). rewrite <- (sqrt_sqrt (Q2R (C j j))) at 3 by (apply Q2R_nonneg; Lqa.lra). ring. }
  pose proof (cauchy_schwarz (nth i xs []) (nth j xs []) w (corr_len i Hi) (corr_len j Hj) P L2) as CS. fold (C i j) (C i i) (C j j) in CS.
  apply Qle_Rle in CS. rewrite !Q2R_mult in CS. rewrite <- SS in CS. set (c := Q2R (C i j)) in *.
  assert (-s <= c <= s) by (split; Lra.nra).
  split.
  - apply Rmult_le_reg_r with s; [exact S|]. unfold Rdiv. rewrite Rmult_assoc, Rinv_l by Lra.lra. Lra.lra.
  - apply Rmult_le_reg_r with s; [exact S|]. unfold Rdiv. rewrite Rmult_assoc, Rinv_l by Lra.lra. Lra.lra.
Qed.
Lemma corr_diag i : (i < length xs)%nat -> (0 < C i i)%Q -> corr_of xs w i i = Some 1.
Proof.
  intros Hi Vi. destruct (corr_pos i i Hi Hi Vi Vi) as [E S]. rewrite E. rewrite sqrt_sqrt by (apply Q2R_nonneg; Lqa.lra).
  rewrite sqrt_sqrt in S by (apply Q2R_nonneg; Lqa.lra). f_equal. field. Lra.lra.
Qed.
Lemma corr_sym i j : (i < length xs)%nat -> (j < length xs)%nat -> corr_of xs w i j = corr_of xs w j i.
Proof.
  intros Hi Hj. unfold corr_of. fold (C i i) (C j j) (C i j) (C j i). rewrite (Rmult_comm (sqrt (Q2R (C i i)))).
  assert (E : Q2R (C i j) = Q2R (C j i)) by (apply Qeq_eqR, covf_sym; apply corr_len; assumption). rewrite E. reflexivity.
Qed.
Lemma corr_none i j : (i < length xs)%nat -> (j < length xs)%nat -> (corr_of xs w i j = None <-> (C i i == 0 \/ C j j == 0)%Q).
Proof.
  intros Hi Hj. pose proof (var_nonneg _ w (corr_len i Hi) P L2) as Vi. pose proof (var_nonneg _ w (corr_len j Hj) P L2) as Vj. fold (C i i) in Vi. fold (C j j) in Vj.
  unfold corr_of. fold (C i i) (C j j) (C i j). split.
  - destruct (Req_EM_T _ 0) as [E|]; [intros _|discriminate]. apply Rmult_integral in E. destruct E as [E|E]; apply sqrt_eq_0 in E; try (apply Q2R_nonneg; assumption).
    + right. apply eqR_Qeq. rewrite E, RMicromega.Q2R_0. reflexivity.
    + left. apply eqR_Qeq. rewrite E, RMicromega.Q2R_0. reflexivity.
  - intros H. destruct (Req_EM_T _ 0) as [E|E]; [reflexivity|]. exfalso. apply E.
    destruct H as [H|H]; apply Qeq_eqR in H; rewrite RMicromega.Q2R_0 in H; rewrite H, sqrt_0; ring.
Qed.
End corr.
Lemma corr_affine xs w xs' w' t a b : (forall x, In x xs -> length x = length w) -> (forall q, In q w -> (0 < q)%Q) -> (forall q, In q w' -> (0 < q)%Q) -> (2 <= length w)%nat ->
  length xs = length xs' -> (0 < t)%Q -> affine t 0 w w' -> (forall i, (i < length xs)%nat -> (0 < at_ a i)%Q /\ affine (at_ a i) (at_ b i) (nth i xs []) (nth i xs' [])) ->
  forall i j, (i < length xs)%nat -> (j < length xs)%nat -> corr_of xs' w' i j = corr_of xs w i j.
Proof.
  intros LX P P' L LL T AW AX i j Hi Hj.
  assert (E : forall p q, (p < length xs)%nat -> (q < length xs)%nat -> Q2R (covf (nth p xs' []) (nth q xs' []) w') = Q2R (at_ a p) * Q2R (at_ a q) * Q2R (covf (nth p xs []) (nth q xs []) w)).
  { intros p q Hp Hq. rewrite <- !Q2R_mult. apply Qeq_eqR. apply (affine_covf t w w' (at_ a p) (at_ b p) _ _ (at_ a q) (at_ b q)); try assumption; try (apply AX; assumption); apply LX, nth_In; assumption. }
  assert (S : forall p, (p < length xs)%nat -> sqrt (Q2R (covf (nth p xs' []) (nth p xs' []) w')) = Q2R (at_ a p) * sqrt (Q2R (covf (nth p xs []) (nth p xs []) w))).
  { intros p Hp. rewrite E by assumption. destruct (AX p Hp) as [A _]. apply Q2R_pos in A.
    rewrite sqrt_mult; [|Lra.nra|apply Q2R_nonneg, var_nonneg; [apply LX, nth_In; assumption|assumption|assumption]]. rewrite sqrt_square by Lra.lra. reflexivity. }
  unfold corr_of. rewrite !S, E by assumption. pose proof (Q2R_pos _ (proj1 (AX i Hi))) as Ai. pose proof (Q2R_pos _ (proj1 (AX j Hj))) as Aj.
  set (si := sqrt (Q2R (covf (nth i xs []) (nth i xs []) w))). set (sj := sqrt (Q2R (covf (nth j xs []) (nth j xs []) w))). set (ai := Q2R (at_ a i)) in *. set (aj := Q2R (at_ a j)) in *.
  replace (aj * sj * (ai * si)) with (ai * aj * (sj * si)) by ring.
  destruct (Req_EM_T (sj * si) 0) as [Z|Z].
  - rewrite Z, Rmult_0_r. destruct (Req_EM_T 0 0); [reflexivity|contradiction].
  - destruct (Req_EM_T (ai * aj * (sj * si)) 0) as [Z2|Z2].
    + exfalso. apply Rmult_integral in Z2. destruct Z2 as [Z2|Z2]; [Lra.nra|contradiction].
    + f_equal. field. assert (sj <> 0) by (intros K; apply Z; rewrite K; ring). assert (si <> 0) by (intros K; apply Z; rewrite K; ring). repeat split; try assumption; Lra.lra.
Qed.
