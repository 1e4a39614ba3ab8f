(** Proofs about the convergence diagnostics. *)
From Coq Require Import String List Bool Arith ZArith QArith Qround Qfield Lia Reals Qreals Lra Lqa Permutation.
From Verif Require Import Py NumSpec NumModel NumFacts FrameModel FrameFacts ConfigModel ChainModel RegistryModel ChainSpec ChainUseProofs CovModel CovSpec CovProofs DiagModel DiagSpec.
Import ListNotations.
Open Scope list_scope.
Open Scope Q_scope.

(** ** Blocks *)
Lemma at_slice st n (x : list Q) i : (i < n)%nat -> at_ (slice st (st + n) x) i = at_ x (st + i).
Proof.
  intros H. unfold at_, slice. replace (st + n - st)%nat with n by lia.
  assert (F : forall k (l : list Q) i, (i < k)%nat -> nth i (firstn k l) 0 = nth i l 0).
  { induction k as [|k IH]; intros l j Hj; [lia|]. destruct l; [reflexivity|]. destruct j; [reflexivity|]. cbn. apply IH. lia. }
  rewrite F by exact H. clear F. revert x. induction st as [|st IH]; intros x; [reflexivity|]. destruct x; cbn; [destruct i; reflexivity|apply IH].
Qed.
Lemma slice_length {A} st n (x : list A) : (st + n <= length x)%nat -> length (slice st (st + n) x) = n.
Proof. intros H. unfold slice. rewrite firstn_length, skipn_length. lia. Qed.
Lemma blocks_length {A} m (x : list A) : length (blocks m x) = m.
Proof. unfold blocks. rewrite map_length, seq_length. reflexivity. Qed.
Lemma block_nth m n (x : list Q) k : length x = (m * n)%nat -> (k < m)%nat -> nth k (blocks m x) [] = slice (k * n) (k * n + n) x.
Proof.
  intros L H. unfold blocks. rewrite L. rewrite Nat.mul_comm, Nat.div_mul by lia.
  rewrite (nth_indep _ _ (slice (0 * n) (0 * n + n) x)) by (rewrite map_length, seq_length; exact H).
  rewrite (map_nth (fun i => slice (i * n) (i * n + n) x)), seq_nth by exact H. reflexivity.
Qed.
Lemma block_len m n (x : list Q) k : length x = (m * n)%nat -> (k < m)%nat -> length (nth k (blocks m x) []) = n.
Proof. intros L H. rewrite (block_nth m n) by assumption. apply slice_length. nia. Qed.
Lemma block_at m n (x : list Q) k i : length x = (m * n)%nat -> (k < m)%nat -> (i < n)%nat -> at_ (nth k (blocks m x) []) i = step_at x n k i.
Proof. intros L H Hi. rewrite (block_nth m n) by assumption. apply at_slice. exact Hi. Qed.

Lemma qsum_map_range {A} (F : A -> Q) l d : qsum (map F l) == sum_range (fun k => F (nth k l d)) 0 (length l).
Proof.
  unfold sum_range. rewrite Nat.sub_0_r. induction l as [|a r IH]; [reflexivity|]. cbn [map qsum fold_right length sum_n nth].
  rewrite (sum_n_shift (fun k => F (nth k (a :: r) d)) 0 (length r)). cbn [nth]. change (fold_right Qplus 0 (map F r)) with (qsum (map F r)). rewrite IH. reflexivity.
Qed.
Lemma qsum_range l : qsum l == sum_range (at_ l) 0 (length l).
Proof. apply qsum_total. Qed.
Lemma sum_blocks (g : nat -> Q) m n : sum_range g 0 (m * n) == sum_range (fun k => sum_range (fun i => g (k * n + i)%nat) 0 n) 0 m.
Proof.
  unfold sum_range. rewrite !Nat.sub_0_r. revert g. induction m as [|m IH]; intros g; [reflexivity|]. cbn [Nat.mul]. rewrite sum_n_split. cbn [sum_n].
  rewrite sum_n_shift. apply Qplus_comp.
  - apply sum_n_ext. intros i _. rewrite Nat.add_0_l. reflexivity.
  - transitivity (sum_n (fun i => g (n + i)%nat) 0 (m * n)).
    + cbn [Nat.add]. clear IH. generalize (m * n)%nat as q. intros q. transitivity (sum_n g (n + 0) q); [rewrite Nat.add_0_r; reflexivity|]. generalize 0%nat as b. induction q as [|q IH]; intros b; [reflexivity|].
      cbn [sum_n]. rewrite <- IH. rewrite Nat.add_succ_r. reflexivity.
    + rewrite IH. apply sum_n_ext. intros k _. apply sum_n_ext. intros i _. replace (S k * n + i)%nat with (n + (k * n + i))%nat by lia. reflexivity.
Qed.

(** ** The statistics *)
Lemma gt1 k : (2 <= k)%nat -> 1 < nq k. Proof. intros H. apply (nq_lt 1 k). lia. Qed.
Section stats.
Variables (x : list Q) (m n : nat).
Hypothesis L : length x = (m * n)%nat.
Hypothesis M2 : (2 <= m)%nat.
Hypothesis N2 : (2 <= n)%nat.
Definition mu0 (k : nat) : Q := mean (nth k (blocks m x) []).
Definition m0 : Q := mean x.
Definition w0 : Q := 1 / nq m * qsum (map var1 (blocks m x)).
Definition b0 : Q := nq n / (nq m - 1) * qsum (map (fun c => (mean c - mean x) * (mean c - mean x)) (blocks m x)).

Lemma mu0_spec k : (k < m)%nat -> mu0 k * nq n == sum_range (step_at x n k) 0 n.
Proof.
  intros H. unfold mu0, mean. rewrite (block_len m n) by assumption. pose proof (gt1 n N2).
  transitivity (qsum (nth k (blocks m x) [])); [field; lra|]. rewrite qsum_range, (block_len m n) by assumption.
  apply sumr_ext. intros i Hi. rewrite (block_at m n) by assumption. reflexivity.
Qed.
Lemma m0_spec : m0 * nq (m * n) == sum_range (fun k => sum_range (step_at x n k) 0 n) 0 m.
Proof.
  unfold m0, mean. rewrite L. assert (P : 0 < nq (m * n)) by (apply nq_pos; nia).
  transitivity (qsum x); [field; lra|]. rewrite qsum_range, L. apply sum_blocks.
Qed.
Lemma w0_spec : w0 * (nq m * (nq n - 1)) == sum_range (fun k => sum_range (fun i => (step_at x n k i - mu0 k) * (step_at x n k i - mu0 k)) 0 n) 0 m.
Proof.
  unfold w0. pose proof (gt1 m M2). pose proof (gt1 n N2). transitivity ((nq n - 1) * qsum (map var1 (blocks m x))); [field; lra|].
  rewrite (qsum_map_range var1 (blocks m x) []), blocks_length, <- sumr_scale. apply sumr_ext. intros k Hk. unfold var1. rewrite (block_len m n) by assumption.
  transitivity (qsum (map (fun y => (y - mean (nth k (blocks m x) [])) * (y - mean (nth k (blocks m x) []))) (nth k (blocks m x) []))); [field; lra|].
  rewrite (qsum_map_range _ _ 0), (block_len m n) by assumption. apply sumr_ext. intros i Hi. fold (at_ (nth k (blocks m x) []) i). rewrite (block_at m n) by assumption. reflexivity.
Qed.
Lemma b0_spec : b0 * (nq m - 1) == nq n * sum_range (fun k => (mu0 k - m0) * (mu0 k - m0)) 0 m.
Proof.
  unfold b0. pose proof (gt1 m M2). transitivity (nq n * qsum (map (fun c => (mean c - mean x) * (mean c - mean x)) (blocks m x))); [field; lra|].
  rewrite (qsum_map_range _ (blocks m x) []), blocks_length. reflexivity.
Qed.
Lemma variances_exist : walker_variances x m n w0 b0.
Proof. exists mu0, m0. split; [exact mu0_spec|]. split; [exact m0_spec|]. split; [exact w0_spec|exact b0_spec]. Qed.
End stats.

Lemma nq_mul a b : nq (a * b) == nq a * nq b.
Proof. unfold nq. rewrite Nat2Z.inj_mul, inject_Z_mult. reflexivity. Qed.
Lemma variances_unique x m n W B W' B' : (2 <= m)%nat -> (2 <= n)%nat -> walker_variances x m n W B -> walker_variances x m n W' B' -> W == W' /\ B == B'.
Proof.
  intros M2 N2 [mu [M [H1 [H2 [H3 H4]]]]] [mu' [M' [K1 [K2 [K3 K4]]]]].
  assert (PM : 1 < nq m) by (apply (nq_lt 1); lia). assert (PN : 1 < nq n) by (apply (nq_lt 1); lia).
  assert (EM : M == M'). { rewrite <- K2 in H2. assert (P : 0 < nq (m * n)) by (apply nq_pos; nia). apply (Qmult_inj_r _ _ (nq (m * n))); [lra|exact H2]. }
  assert (EU : forall k, (k < m)%nat -> mu k == mu' k). { intros k Hk. apply (Qmult_inj_r _ _ (nq n)); [lra|]. rewrite H1, K1 by exact Hk. reflexivity. }
  split.
  - apply (Qmult_inj_r _ _ (nq m * (nq n - 1))); [nra|]. rewrite H3, K3. apply sumr_ext. intros k Hk. apply sumr_ext. intros i _. rewrite (EU k Hk). reflexivity.
  - apply (Qmult_inj_r _ _ (nq m - 1)); [lra|]. rewrite H4, K4. apply Qmult_comp; [reflexivity|]. apply sumr_ext. intros k Hk. rewrite (EU k Hk), EM. reflexivity.
Qed.

Lemma computed_comp m n W B W' B' : W == W' -> B == B' -> computed_ratio m n W B == computed_ratio m n W' B'.
Proof. intros E F. unfold computed_ratio. rewrite E, F. reflexivity. Qed.
Lemma near_one_comp q q' t : q == q' -> (near_one q t <-> near_one q' t).
Proof. intros E. unfold near_one. rewrite (Qeq_eqR _ _ E). reflexivity. Qed.

Lemma ratio_spec x m n W B : length x = (m * n)%nat -> (2 <= m)%nat -> (2 <= n)%nat -> walker_variances x m n W B ->
  match gr_ratio x m n with None => W == 0 | Some q => ~ W == 0 /\ q == computed_ratio m n W B end.
Proof.
  intros L M2 N2 H. destruct (variances_unique x m n _ _ _ _ M2 N2 (variances_exist x m n L M2 N2) H) as [EW EB].
  pose proof (gt1 m M2) as PM. pose proof (gt1 n N2) as PN.
  unfold gr_ratio. fold (w0 x m). fold (b0 x m n). destruct (n <=? 1)%nat eqn:EN; [apply Nat.leb_le in EN; lia|]. cbn [orb].
  destruct (Qeq_bool (w0 x m) 0) eqn:E0.
  - apply Qeq_bool_iff in E0. rewrite <- EW. exact E0.
  - apply Qeq_bool_neq in E0. split; [rewrite <- EW; exact E0|]. rewrite <- (computed_comp m n _ _ _ _ EW EB). assert (HM : ~ nq m == 0) by lra. assert (HN : ~ nq n == 0) by lra. unfold computed_ratio. field. repeat (split; try assumption).
Qed.
Lemma gr_passed_some t q : gr_passed t (Some q) = true <-> near_one q t.
Proof. unfold gr_passed, near_one. destruct (Rlt_dec _ _); split; intros H; try congruence; try reflexivity; tauto. Qed.
Lemma param_passes x m n t W B : length x = (m * n)%nat -> (2 <= m)%nat -> (2 <= n)%nat -> walker_variances x m n W B ->
  (gr_passed t (gr_ratio x m n) = true <-> ~ W == 0 /\ near_one (computed_ratio m n W B) t).
Proof.
  intros L M2 N2 H. pose proof (ratio_spec x m n W B L M2 N2 H) as R. destruct (gr_ratio x m n) as [q|].
  - destruct R as [R1 R2]. rewrite gr_passed_some, (near_one_comp _ _ t R2). tauto.
  - cbn. split; [discriminate|tauto].
Qed.

(** ** The verdict of one chain *)
Lemma wk_lens c f xs m n : walker_data c f xs m n -> forall x, In x xs -> length x = (m * n)%nat.
Proof.
  intros D x Hx. destruct D as [W C _ R]. rewrite <- R. destruct W as [_ W]. clear - W C Hx. induction C as [|a y l l' H _ IH]; [destruct Hx|].
  destruct Hx as [->|Hx]; [|apply IH; exact Hx]. apply W in H. rewrite map_length in H. exact H.
Qed.
Lemma one_spec c f xs m n t : walker_data c f xs m n -> (2 <= m)%nat ->
  exists b, gelman_rubin_one c f t = Ok {| t_passed := b; t_results := [(ch_name c, b)] |} /\ b = forallb (fun x => gr_passed t (gr_ratio x m n)) xs.
Proof.
  intros D M2. unfold gelman_rubin_one. rewrite (select_ok f _ xs (wk_wf _ _ _ _ _ D) (wk_cols _ _ _ _ _ D)). cbn [rbind]. unfold f_rows. rewrite (wk_rows _ _ _ _ _ D), (wk_walkers _ _ _ _ _ D).
  rewrite Nat2Z.inj_mul. replace (Z.of_nat m * Z.of_nat n)%Z with (Z.of_nat n * Z.of_nat m)%Z by lia. rewrite Z.mod_mul by lia. cbn [Z.eqb negb].
  destruct (Z.ltb_spec 1 (Z.of_nat m)); [|lia]. cbn [negb]. rewrite Nat2Z.id. replace (m * n / m)%nat with n by (rewrite Nat.mul_comm, Nat.div_mul; lia).
  eexists. split; reflexivity.
Qed.
Lemma one_few c f xs m n t : walker_data c f xs m n -> (m = 1)%nat -> gelman_rubin_one c f t = Err AssertionError.
Proof.
  intros D ->. unfold gelman_rubin_one. rewrite (select_ok f _ xs (wk_wf _ _ _ _ _ D) (wk_cols _ _ _ _ _ D)). cbn [rbind]. rewrite (wk_walkers _ _ _ _ _ D).
  change (Z.of_nat 1) with 1%Z. rewrite Z.mod_1_r. reflexivity.
Qed.

(** Affine maps and reorderings *)
Lemma nth_range (x : list Q) m n k i : length x = (m * n)%nat -> (k < m)%nat -> (i < n)%nat -> (k * n + i < length x)%nat.
Proof. intros -> H1 H2. nia. Qed.
Lemma variances_affine x x' a b m n W B : length x = (m * n)%nat -> (2 <= m)%nat -> (2 <= n)%nat -> affine a b x x' -> walker_variances x m n W B -> walker_variances x' m n (a * a * W) (a * a * B).
Proof.
  intros L M2 N2 [_ A] [mu [M [H1 [H2 [H3 H4]]]]].
  assert (S : forall k i, (k < m)%nat -> (i < n)%nat -> step_at x' n k i == a * step_at x n k i + b). { intros k i Hk Hi. apply A. apply (nth_range x m n); assumption. }
  assert (SS : forall k, (k < m)%nat -> sum_range (step_at x' n k) 0 n == a * sum_range (step_at x n k) 0 n + b * nq n).
  { intros k Hk. transitivity (sum_range (fun i => a * step_at x n k i + b) 0 n); [apply sumr_ext; intros i Hi; apply S; assumption|].
    rewrite sumr_add, sumr_scale. apply Qplus_comp; [reflexivity|]. clear. unfold sum_range. rewrite Nat.sub_0_r. generalize 0%nat as s. induction n as [|q IH]; intros s; [cbn; unfold nq; cbn; ring|]. cbn [sum_n]. rewrite IH, nq_S. ring. }
  exists (fun k => a * mu k + b), (a * M + b). split; [|split; [|split]].
  - intros k Hk. rewrite SS by exact Hk. rewrite <- H1 by exact Hk. ring.
  - transitivity (sum_range (fun k => a * sum_range (step_at x n k) 0 n + b * nq n) 0 m); [|apply sumr_ext; intros k Hk; rewrite SS by exact Hk; reflexivity].
    rewrite sumr_add, sumr_scale, <- H2. assert (E : sum_range (fun _ => b * nq n) 0 m == b * nq (m * n)).
    { rewrite nq_mul. clear. unfold sum_range. rewrite Nat.sub_0_r. generalize 0%nat as s. induction m as [|q IH]; intros s; [cbn; unfold nq; cbn; ring|]. cbn [sum_n]. rewrite IH, nq_S. ring. }
    rewrite E. ring.
  - transitivity (a * a * (W * (nq m * (nq n - 1)))); [ring|]. rewrite H3, <- sumr_scale. apply sumr_ext. intros k Hk. rewrite <- sumr_scale. apply sumr_ext. intros i Hi. rewrite (S k i Hk Hi). ring.
  - transitivity (a * a * (B * (nq m - 1))); [ring|]. rewrite H4.
    transitivity (nq n * (a * a * sum_range (fun k => (mu k - M) * (mu k - M)) 0 m)); [ring|]. rewrite <- sumr_scale. apply Qmult_comp; [reflexivity|]. apply sumr_ext. intros k Hk. ring.
Qed.
Lemma qsum_perm l l' : Permutation l l' -> qsum l == qsum l'.
Proof.
  induction 1 as [|a l l' H IH|a b l|l l' l'' H1 IH1 H2 IH2]; [reflexivity| | |].
  - unfold qsum in *. cbn [fold_right]. rewrite IH. reflexivity.
  - unfold qsum. cbn [fold_right]. ring.
  - rewrite IH1. exact IH2.
Qed.
Lemma sum_seq (g : nat -> Q) m : qsum (map g (seq 0 m)) == sum_range g 0 m.
Proof.
  unfold sum_range. rewrite Nat.sub_0_r. generalize 0%nat as s. induction m as [|m IH]; intros s; [reflexivity|]. cbn [seq map sum_n]. change (qsum (g s :: map g (seq (S s) m))) with (g s + qsum (map g (seq (S s) m))).
  rewrite IH. reflexivity.
Qed.
Lemma sum_reorder g m p : Permutation p (seq 0 m) -> sum_range (fun k => g (nth k p 0%nat)) 0 m == sum_range g 0 m.
Proof.
  intros P. rewrite <- (sum_seq g m), <- (qsum_perm _ _ (Permutation_map g P)). rewrite (qsum_map_range g p 0%nat).
  rewrite (Permutation_length P), seq_length. reflexivity.
Qed.
Lemma variances_reordered x x' p m n W B : (2 <= m)%nat -> (2 <= n)%nat -> Permutation p (seq 0 m) -> walkers_reordered m n p x x' -> walker_variances x m n W B -> walker_variances x' m n W B.
Proof.
  intros M2 N2 P [_ A] [mu [M [H1 [H2 [H3 H4]]]]].
  assert (PK : forall k, (k < m)%nat -> (nth k p 0%nat < m)%nat).
  { intros k Hk. assert (HI : In (nth k p 0%nat) (seq 0 m)). { apply (Permutation_in _ P). apply nth_In. rewrite (Permutation_length P), seq_length. exact Hk. } apply in_seq in HI. lia. }
  assert (SS : forall k, (k < m)%nat -> sum_range (step_at x' n k) 0 n == sum_range (step_at x n (nth k p 0%nat)) 0 n).
  { intros k Hk. apply sumr_ext. intros i Hi. apply A; assumption. }
  exists (fun k => mu (nth k p 0%nat)), M. split; [|split; [|split]].
  - intros k Hk. rewrite SS by exact Hk. apply H1. apply PK. exact Hk.
  - rewrite H2. rewrite <- (sum_reorder (fun k => sum_range (step_at x n k) 0 n) m p P). apply sumr_ext. intros k Hk. symmetry. apply SS. exact Hk.
  - rewrite H3. rewrite <- (sum_reorder (fun k => sum_range (fun i => (step_at x n k i - mu k) * (step_at x n k i - mu k)) 0 n) m p P). apply sumr_ext. intros k Hk. apply sumr_ext. intros i Hi.
    rewrite (A k i Hk Hi). reflexivity.
  - rewrite H4. apply Qmult_comp; [reflexivity|]. rewrite <- (sum_reorder (fun k => (mu k - M) * (mu k - M)) m p P). reflexivity.
Qed.
Lemma bool_iff (a b : bool) : (a = true <-> b = true) -> a = b.
Proof. destruct a, b; intros [H1 H2]; try reflexivity; [symmetry; apply H1; reflexivity|apply H2; reflexivity]. Qed.
Lemma affine_passes x x' a b m n t : length x = (m * n)%nat -> (2 <= m)%nat -> (1 <= n)%nat -> affine a b x x' -> ~ a == 0 ->
  gr_passed t (gr_ratio x' m n) = gr_passed t (gr_ratio x m n).
Proof.
  intros L M2 N1 A NZ. destruct (Nat.eq_dec n 1) as [->|NE]; [reflexivity|]. assert (N2 : (2 <= n)%nat) by lia.
  pose proof (variances_exist x m n L M2 N2) as V. pose proof (variances_affine x x' a b m n _ _ L M2 N2 A V) as V'. assert (L' : length x' = (m * n)%nat) by (rewrite <- (proj1 A); exact L).
  apply bool_iff. rewrite (param_passes x' m n t _ _ L' M2 N2 V'), (param_passes x m n t _ _ L M2 N2 V). set (W := w0 x m). set (B := b0 x m n).
  assert (Z : a * a * W == 0 <-> W == 0). { split; intros H; [|rewrite H; ring]. apply Qmult_integral in H. destruct H as [H|H]; [|exact H]. apply Qmult_integral in H. tauto. }
  rewrite Z. split; intros [H1 H2]; (split; [exact H1|]); revert H2; apply near_one_comp; unfold computed_ratio; pose proof (gt1 m M2); pose proof (gt1 n N2);
    (assert (HM : ~ nq m == 0) by lra; assert (HN : ~ nq n == 0) by lra; field; repeat (split; try assumption)).
Qed.
Lemma reordered_passes x x' p m n t : length x = (m * n)%nat -> (2 <= m)%nat -> (1 <= n)%nat -> Permutation p (seq 0 m) -> walkers_reordered m n p x x' ->
  gr_passed t (gr_ratio x' m n) = gr_passed t (gr_ratio x m n).
Proof.
  intros L M2 N1 P A. destruct (Nat.eq_dec n 1) as [->|NE]; [reflexivity|]. assert (N2 : (2 <= n)%nat) by lia.
  pose proof (variances_exist x m n L M2 N2) as V. pose proof (variances_reordered x x' p m n _ _ M2 N2 P A V) as V'. assert (L' : length x' = (m * n)%nat) by (rewrite (proj1 A); exact L).
  apply bool_iff. rewrite (param_passes x' m n t _ _ L' M2 N2 V'), (param_passes x m n t _ _ L M2 N2 V). reflexivity.
Qed.

(** ** Several chains *)
Lemma rmapM_Forall2 {A B} (g : A -> res B) l : forall ys, rmapM g l = Ok ys <-> Forall2 (fun x y => g x = Ok y) l ys.
Proof.
  induction l as [|a r IH]; intros ys; cbn [rmapM].
  - split; [intros H; injection H as <-; constructor|intros H; inversion H; reflexivity].
  - split.
    + destruct (g a) as [y|] eqn:E; [|discriminate]. cbn [rbind]. destruct (rmapM g r) as [zs|]; [|discriminate]. cbn [rbind]. intros H. injection H as <-. constructor; [exact E|]. apply IH. reflexivity.
    + intros H. inversion H as [|? y ? zs H1 H2]; subst. rewrite H1. cbn [rbind]. apply IH in H2. rewrite H2. reflexivity.
Qed.
Lemma resolve_denotes w q l : resolve w q = Ok l <-> denotes w q l.
Proof. destruct q as [s|l']; cbn; [reflexivity|]. split; congruence. Qed.
Lemma diag_chains_spec w r ls : diag_chains w r = Ok ls <-> asked_for w r ls.
Proof.
  destruct r as [|qs|q]; cbn [diag_chains asked_for].
  - unfold dvalues. split; congruence.
  - rewrite rmapM_Forall2. split; intros H; (induction H; [constructor|constructor; [apply resolve_denotes; assumption|assumption]]).
  - split.
    + destruct (resolve w q) as [l|] eqn:E; [|discriminate]. cbn. intros H. injection H as <-. exists l. split; [apply resolve_denotes; exact E|reflexivity].
    + intros [l [H ->]]. apply resolve_denotes in H. rewrite H. reflexivity.
Qed.
Definition run_one (one : chain -> frame -> res test_result) (w : world) (l : nat) : res test_result :=
  match chain_at (fst w) l with Some c => one c (frame_at (fst w) (ch_samples c)) | None => Err TypeError end.
Lemma over_single one w l : over_chains one w (DOne (DObject l)) = run_one one w l.
Proof. reflexivity. Qed.
(** The verdict under name [n] is that of the last chain with that name. *)
Lemma fold_merge_single (ts : list test_result) (ns : list string) : Forall2 (fun t n => t_results t = [(n, t_passed t)]) ts ns ->
  forall d, (forall k, dget k (fold_left (fun d r => dmerge d (t_results r)) ts d) =
     fold_left (fun o p => if String.eqb k (fst p) then Some (snd p) else o) (combine ns (map t_passed ts)) (dget k d)).
Proof.
  induction 1 as [|t n ts ns H _ IH]; intros d k; [reflexivity|]. cbn [fold_left combine map]. rewrite IH. f_equal. rewrite H. unfold dmerge. cbn [fold_left fst snd].
  destruct (String.eqb_spec k n) as [->|N]; [apply dget_dset_same|apply dget_dset_other; congruence].
Qed.
Lemma fold_none {A} (k : string) (l : list (string * A)) o : ~ In k (map fst l) -> fold_left (fun o p => if String.eqb k (fst p) then Some (snd p) else o) l o = o.
Proof.
  revert o. induction l as [|[k' v] r IH]; intros o H; [reflexivity|]. cbn [fold_left fst snd]. destruct (String.eqb_spec k k') as [->|N]; [exfalso; apply H; left; reflexivity|].
  apply IH. intros HI. apply H. right. exact HI.
Qed.
Lemma fold_last {A} (l : list (string * A)) k v i o : nth_error l i = Some (k, v) -> (forall j p, (i < j)%nat -> nth_error l j = Some p -> fst p <> k) ->
  fold_left (fun o p => if String.eqb k (fst p) then Some (snd p) else o) l o = Some v.
Proof.
  revert i o. induction l as [|[k' v'] r IH]; intros i o H HL; [destruct i; discriminate|]. destruct i as [|i]; cbn in H.
  - injection H as -> ->. cbn [fold_left fst snd]. rewrite String.eqb_refl. apply fold_none. intros HI. apply in_map_iff in HI. destruct HI as [p [HP HI]]. apply In_nth_error in HI. destruct HI as [j HJ].
    exact (HL (S j) p ltac:(lia) HJ HP).
  - cbn [fold_left]. apply (IH i); [exact H|]. intros j p Hj Hp. apply (HL (S j) p); [lia|exact Hp].
Qed.
Lemma fold_in {A} (l : list (string * A)) k v o : fold_left (fun o p => if String.eqb k (fst p) then Some (snd p) else o) l o = Some v -> In (k, v) l \/ o = Some v.
Proof.
  revert o. induction l as [|[k' v'] r IH]; intros o H; [right; exact H|]. cbn [fold_left fst snd] in H. apply IH in H. destruct H as [H|H]; [left; right; exact H|].
  destruct (String.eqb_spec k k') as [->|N]; [injection H as ->; left; left; reflexivity|right; exact H].
Qed.
Lemma fold_keys (ts : list test_result) (ns : list string) : Forall2 (fun t n => t_results t = [(n, t_passed t)]) ts ns -> NoDup ns ->
  forall d, (forall n, In n ns -> ~ In n (dkeys d)) -> fold_left (fun d r => dmerge d (t_results r)) ts d = d ++ combine ns (map t_passed ts).
Proof.
  induction 1 as [|t n ts ns H _ IH]; intros ND d HD; [cbn; rewrite app_nil_r; reflexivity|]. inversion ND as [|? ? N1 N2]; subst. cbn [fold_left combine map]. rewrite H. unfold dmerge at 2. cbn [fold_left fst snd].
  rewrite dset_new by (apply HD; left; reflexivity). rewrite IH; [rewrite <- app_assoc; reflexivity|exact N2|].
  intros k Hk HI. unfold dkeys in HI. rewrite map_app in HI. apply in_app_iff in HI. destruct HI as [HI|[HI|[]]]; [exact (HD k (or_intror Hk) HI)|]. cbn in HI. subst. contradiction.
Qed.
Definition named (w : world) (l : nat) (n : string) : Prop := exists c, chain_at (fst w) l = Some c /\ ch_name c = n.
Lemma over_ok one w r ls t : (forall c f t, one c f = Ok t -> t_results t = [(ch_name c, t_passed t)]) -> asked_for w r ls ->
  over_chains one w r = Ok t -> exists ts ns, ls <> [] /\ Forall2 (fun l t => over_chains one w (DOne (DObject l)) = Ok t) ls ts /\ Forall2 (named w) ls ns /\
    (t_passed t = true <-> forall t', In t' ts -> t_passed t' = true) /\
    (NoDup ns -> t_results t = combine ns (map t_passed ts)) /\
    (forall i n b, nth_error (combine ns (map t_passed ts)) i = Some (n, b) -> (forall j p, (i < j)%nat -> nth_error (combine ns (map t_passed ts)) j = Some p -> fst p <> n) -> dget n (t_results t) = Some b) /\
    (forall n b, dget n (t_results t) = Some b -> In (n, b) (combine ns (map t_passed ts))).
Proof.
  intros HO HA H. apply diag_chains_spec in HA. unfold over_chains in H. rewrite HA in H. cbn [rbind] in H. fold (run_one one w) in H.
  assert (RN : forall l t, run_one one w l = Ok t -> exists n, named w l n /\ t_results t = [(n, t_passed t)]).
  { intros l u E. unfold run_one in E. destruct (chain_at (fst w) l) as [c|] eqn:EC; [|discriminate]. exists (ch_name c). split; [exists c; auto|]. eapply HO. exact E. }
  assert (G : forall ls ts, Forall2 (fun l t => run_one one w l = Ok t) ls ts -> exists ns, Forall2 (named w) ls ns /\ Forall2 (fun t n => t_results t = [(n, t_passed t)]) ts ns).
  { induction 1 as [|l u ls0 ts0 E _ [ns [I1 I2]]]; [exists []; split; constructor|]. destruct (RN l u E) as [n [N1 N2]]. exists (n :: ns). split; constructor; assumption. }
  assert (GEN : forall ts, Forall2 (fun l t => run_one one w l = Ok t) ls ts -> t = combine_results ts \/ (exists t0, ts = [t0] /\ t = t0) -> ls <> [] -> exists ts ns, ls <> [] /\ Forall2 (fun l t => over_chains one w (DOne (DObject l)) = Ok t) ls ts /\ Forall2 (named w) ls ns /\
    (t_passed t = true <-> forall t', In t' ts -> t_passed t' = true) /\
    (NoDup ns -> t_results t = combine ns (map t_passed ts)) /\
    (forall i n b, nth_error (combine ns (map t_passed ts)) i = Some (n, b) -> (forall j p, (i < j)%nat -> nth_error (combine ns (map t_passed ts)) j = Some p -> fst p <> n) -> dget n (t_results t) = Some b) /\
    (forall n b, dget n (t_results t) = Some b -> In (n, b) (combine ns (map t_passed ts)))).
  { intros ts FT ET NE. destruct (G ls ts FT) as [ns [N1 N2]]. exists ts, ns. split; [exact NE|]. split; [exact FT|]. split; [exact N1|].
    assert (EC : t_passed t = forallb t_passed ts /\ t_results t = fold_left (fun d r => dmerge d (t_results r)) ts []).
    { destruct ET as [->|[t0 [-> ->]]]; [split; reflexivity|]. inversion N2 as [|? n ? ? HR HN]; subst. cbn [forallb fold_left]. rewrite andb_true_r. split; [reflexivity|]. rewrite HR. reflexivity. }
    destruct EC as [-> ->]. split; [apply forallb_forall|]. split; [intros ND; apply (fold_keys ts ns N2 ND []); intros n _ []|]. split.
    - intros i n b HI HL. rewrite (fold_merge_single ts ns N2). apply (fold_last _ n b i); assumption.
    - intros n b HG. rewrite (fold_merge_single ts ns N2) in HG. apply fold_in in HG. destruct HG as [HG|HG]; [exact HG|discriminate]. }
  destruct ls as [|l1 [|l2 ls]].
  - discriminate.
  - apply (GEN [t]); [constructor; [exact H|constructor]|right; exists t; auto|discriminate].
  - destruct (rmapM (run_one one w) (l1 :: l2 :: ls)) as [ts|] eqn:ET; [|discriminate]. injection H as <-. apply rmapM_Forall2 in ET. apply (GEN ts); [exact ET|left; reflexivity|discriminate].
Qed.
Lemma over_conv one w r ls ts : asked_for w r ls -> ls <> [] -> Forall2 (fun l t => over_chains one w (DOne (DObject l)) = Ok t) ls ts -> exists t, over_chains one w r = Ok t.
Proof.
  intros HA NE HT. apply diag_chains_spec in HA. unfold over_chains. rewrite HA. cbn [rbind]. fold (run_one one w). destruct ls as [|l1 [|l2 ls]]; [contradiction| |].
  - inversion HT as [|? t ? ? H1 H2]; subst. exists t. exact H1.
  - assert (E : rmapM (run_one one w) (l1 :: l2 :: ls) = Ok ts) by (apply rmapM_Forall2; exact HT). rewrite E. eexists. reflexivity.
Qed.
Lemma over_empty one w r : asked_for w r [] -> over_chains one w r = Err IndexError.
Proof. intros HA. apply diag_chains_spec in HA. unfold over_chains. rewrite HA. reflexivity. Qed.
Lemma gr_results c f t r : gelman_rubin_one c f t = Ok r -> t_results r = [(ch_name c, t_passed r)].
Proof.
  unfold gelman_rubin_one. destruct (select f (data_columns c f)); [|discriminate]. cbn [rbind]. destruct (negb _); [discriminate|]. destruct (negb _); [discriminate|]. intros H. injection H as <-. reflexivity.
Qed.
Lemma gw_results yw nt a b t c f r : geweke_one yw nt a b t c f = Ok r -> t_results r = [(ch_name c, t_passed r)].
Proof.
  unfold geweke_one. destruct (negb _); [discriminate|]. destruct (select f (data_columns c f)); [|discriminate]. cbn [rbind]. destruct (negb _); [discriminate|].
  destruct (rmapM _ _); [|discriminate]. cbn [rbind]. destruct (nt _); [|discriminate]. cbn [rbind]. intros H. injection H as <-. reflexivity.
Qed.
