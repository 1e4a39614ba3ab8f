(** Smoothing: what the filter computes, and that a symmetric unit kernel keeps the total. *)
From Coq Require Import QArith Qabs List Arith ZArith Bool Lia Lqa.
From Verif Require Import Py NumSpec NumModel NumFacts HelpersProofs MarginalModel SummarySpec.
Import ListNotations.
Open Scope Q_scope.

Lemma reflect_mirrored n z : (0 < n)%nat -> mirrored n z (reflect_index n z).
Proof.
  intros Hn. unfold reflect_index, mirrored.
  set (N := (2 * Z.of_nat n)%Z). assert (HN : (0 < N)%Z) by lia.
  pose proof (Z.mod_pos_bound z N HN) as B. pose proof (Z.div_mod z N ltac:(lia)) as D.
  set (m := (z mod N)%Z) in *. set (q := (z / N)%Z) in *.
  destruct (m <? Z.of_nat n)%Z eqn:E.
  - apply Z.ltb_lt in E. split; [lia|]. left. exists q. rewrite Z2Nat.id by lia. lia.
  - apply Z.ltb_ge in E. split; [lia|]. right. exists (q + 1)%Z. rewrite Z2Nat.id by lia. lia.
Qed.
Lemma mult_gap k M c : (0 < c < M -> k * M = c -> False)%Z.
Proof. intros H E. destruct (Z.le_gt_cases k 0) as [L|L]; nia. Qed.
Lemma mult_zero k M c : (- M < c < M -> k * M = c -> c = 0)%Z.
Proof. intros H E. destruct (Z.lt_trichotomy k 0) as [L|[->|L]]; nia. Qed.
Lemma mirrored_unique n z i j : mirrored n z i -> mirrored n z j -> i = j.
Proof.
  intros [H1 [[a Ha]|[a Ha]]] [H2 [[b Hb]|[b Hb]]]; remember (Z.of_nat n) as N eqn:EN.
  - assert (E : ((a - b) * (2 * N) = Z.of_nat j - Z.of_nat i)%Z) by (rewrite Z.mul_sub_distr_r; lia).
    apply mult_zero in E; lia.
  - exfalso. assert (E : ((b - a) * (2 * N) = 1 + Z.of_nat i + Z.of_nat j)%Z) by (rewrite Z.mul_sub_distr_r; lia).
    apply mult_gap in E; [exact E|lia].
  - exfalso. assert (E : ((a - b) * (2 * N) = 1 + Z.of_nat i + Z.of_nat j)%Z) by (rewrite Z.mul_sub_distr_r; lia).
    apply mult_gap in E; [exact E|lia].
  - assert (E : ((a - b) * (2 * N) = Z.of_nat i - Z.of_nat j)%Z) by (rewrite Z.mul_sub_distr_r; lia).
    apply mult_zero in E; lia.
Qed.

Lemma qsum_map_seq f a n : qsum (map f (seq a n)) == sum_n f a n.
Proof. revert a. induction n as [|n IH]; intros a; cbn; [reflexivity|]. rewrite IH. reflexivity. Qed.

Lemma filter1d_at kern l i : (i < length l)%nat ->
  at_ (filter1d kern l) i == sum_range (fun k => at_ kern k *
     at_ l (reflect_index (length l) (Z.of_nat i + Z.of_nat k - Z.of_nat (Nat.div2 (length kern))))) 0 (length kern).
Proof.
  intros Hi. unfold filter1d, at_ at 1.
  set (g := fun i0 : nat => qsum _). rewrite (nth_indep _ 0 (g 0%nat)) by (rewrite map_length, seq_length; exact Hi).
  rewrite (map_nth g), seq_nth by exact Hi. cbn [Nat.add]. unfold g. rewrite qsum_map_seq.
  unfold sum_range. rewrite Nat.sub_0_r. reflexivity.
Qed.

Lemma filter1d_smoothing kern l : l <> [] -> is_smoothing kern l (filter1d kern l).
Proof.
  intros HN. split; [unfold filter1d; rewrite map_length, seq_length; reflexivity|].
  assert (0 < length l)%nat by (destruct l; [congruence|cbn; lia]).
  exists (reflect_index (length l)). split; [intros z; apply reflect_mirrored; assumption|].
  intros i Hi. apply filter1d_at; exact Hi.
Qed.

(** Total mass. *)
Section Total.
Variable l : list Q.
Let n := length l.
Hypothesis Hn : (0 < n)%nat.
Let v (z : Z) : Q := at_ l (reflect_index n z).

Lemma v_in i : (i < n)%nat -> v (Z.of_nat i) = at_ l i.
Proof.
  intros Hi. unfold v. f_equal. apply (mirrored_unique n (Z.of_nat i)); [apply reflect_mirrored; exact Hn|].
  split; [exact Hi|]. left. exists 0%Z. lia.
Qed.
Lemma v_mirror z : v (-1 - z) = v z.
Proof.
  unfold v. f_equal. apply (mirrored_unique n (-1 - z)); [apply reflect_mirrored; exact Hn|].
  destruct (reflect_mirrored n z Hn) as [A [[q B]|[q B]]]; (split; [exact A|]).
  - right. exists (- q)%Z. lia.
  - left. exists (- q)%Z. lia.
Qed.
Lemma v_period z k : v (z + 2 * Z.of_nat n * k) = v z.
Proof.
  unfold v. f_equal. apply (mirrored_unique n (z + 2 * Z.of_nat n * k)); [apply reflect_mirrored; exact Hn|].
  destruct (reflect_mirrored n z Hn) as [A [[q B]|[q B]]]; (split; [exact A|]).
  - left. exists (q + k)%Z. lia.
  - right. exists (q + k)%Z. lia.
Qed.

Definition wsum (z : Z) (len : nat) : Q := sum_n (fun i => v (z + Z.of_nat i)) 0 len.
Lemma wsum_S z len : wsum z (S len) == v z + wsum (z + 1) len.
Proof.
  unfold wsum. cbn [sum_n]. rewrite Z.add_0_r. rewrite sum_n_shift.
  assert (E : sum_n (fun i => v (z + Z.of_nat (S i))) 0 len == sum_n (fun i => v (z + 1 + Z.of_nat i)) 0 len).
  { apply sum_n_ext. intros i _. replace (z + Z.of_nat (S i))%Z with (z + 1 + Z.of_nat i)%Z by lia. reflexivity. }
  rewrite E. reflexivity.
Qed.
Lemma wsum_last z len : wsum z (S len) == wsum z len + v (z + Z.of_nat len).
Proof. unfold wsum. rewrite sum_n_last. cbn [Nat.add]. reflexivity. Qed.
Lemma wsum_app z a b : wsum z (a + b) == wsum z a + wsum (z + Z.of_nat a) b.
Proof.
  revert z. induction a as [|a IH]; intros z.
  - cbn [Nat.add]. replace (z + Z.of_nat 0)%Z with z by lia. unfold wsum at 2. cbn. lra.
  - cbn [Nat.add]. rewrite !wsum_S, IH. replace (z + 1 + Z.of_nat a)%Z with (z + Z.of_nat (S a))%Z by lia. ring.
Qed.
Lemma wsum_rev z len : wsum z len == wsum (- z - Z.of_nat len) len.
Proof.
  revert z. induction len as [|len IH]; intros z; [reflexivity|].
  rewrite (wsum_S z). rewrite (wsum_last (- z - Z.of_nat (S len))). rewrite (IH (z + 1)%Z).
  replace (- (z + 1) - Z.of_nat len)%Z with (- z - Z.of_nat (S len))%Z by lia.
  replace (- z - Z.of_nat (S len) + Z.of_nat len)%Z with (-1 - z)%Z by lia. rewrite v_mirror. ring.
Qed.
Lemma wsum_period_step z : wsum (z + 1) (2 * n) == wsum z (2 * n).
Proof.
  replace (2 * n)%nat with (S (2 * n - 1)) by lia. rewrite (wsum_S z). rewrite (wsum_last (z + 1)).
  replace (z + 1 + Z.of_nat (2 * n - 1))%Z with (z + 2 * Z.of_nat n * 1)%Z by lia. rewrite v_period. ring.
Qed.
Lemma wsum_period z : wsum z (2 * n) == wsum 0 (2 * n).
Proof.
  destruct (Z.le_ge_cases 0 z) as [H|H].
  - rewrite <- (Z2Nat.id z H). generalize (Z.to_nat z). intros k. induction k as [|k IH]; [reflexivity|].
    rewrite <- IH. rewrite Nat2Z.inj_succ. unfold Z.succ. apply wsum_period_step.
  - replace z with (- Z.of_nat (Z.to_nat (- z)))%Z by lia. generalize (Z.to_nat (- z)). intros k.
    induction k as [|k IH]; [reflexivity|]. rewrite <- IH.
    rewrite <- (wsum_period_step (- Z.of_nat (S k))).
    replace (- Z.of_nat (S k) + 1)%Z with (- Z.of_nat k)%Z by lia. reflexivity.
Qed.
Lemma wsum_0 : wsum 0 n == total l.
Proof.
  unfold wsum, total, sum_range. fold n. rewrite Nat.sub_0_r. apply sum_n_ext. intros i Hi.
  rewrite Z.add_0_l, v_in by lia. reflexivity.
Qed.
Lemma wsum_full : wsum 0 (2 * n) == 2 * total l.
Proof.
  replace (2 * n)%nat with (n + n)%nat by lia. rewrite wsum_app. rewrite (wsum_rev (0 + Z.of_nat n) n).
  replace (- (0 + Z.of_nat n) - Z.of_nat n)%Z with (0 + 2 * Z.of_nat n * (-1))%Z by lia.
  assert (E : wsum (0 + 2 * Z.of_nat n * -1) n == wsum 0 n).
  { unfold wsum. apply sum_n_ext. intros i _.
    replace (0 + 2 * Z.of_nat n * -1 + Z.of_nat i)%Z with (0 + Z.of_nat i + 2 * Z.of_nat n * -1)%Z by lia.
    rewrite v_period. reflexivity. }
  rewrite E, wsum_0. ring.
Qed.
(** Opposite shifts together see every sample twice. *)
Lemma shift_pair s : wsum s n + wsum (- s) n == 2 * total l.
Proof.
  rewrite (wsum_rev (- s) n). replace (- - s - Z.of_nat n)%Z with (s + Z.of_nat n + 2 * Z.of_nat n * -1)%Z by lia.
  assert (E : wsum (s + Z.of_nat n + 2 * Z.of_nat n * -1) n == wsum (s + Z.of_nat n) n).
  { unfold wsum. apply sum_n_ext. intros i _.
    replace (s + Z.of_nat n + 2 * Z.of_nat n * -1 + Z.of_nat i)%Z with (s + Z.of_nat n + Z.of_nat i + 2 * Z.of_nat n * -1)%Z by lia.
    rewrite v_period. reflexivity. }
  rewrite E, <- wsum_app. replace (n + n)%nat with (2 * n)%nat by lia. rewrite wsum_period, wsum_full. reflexivity.
Qed.

Lemma sum_n_swap (f : nat -> nat -> Q) a m b k :
  sum_n (fun i => sum_n (f i) b k) a m == sum_n (fun j => sum_n (fun i => f i j) a m) b k.
Proof.
  revert a. induction m as [|m IH]; intros a; cbn [sum_n].
  - clear. revert b. induction k as [|k IH]; intros b; cbn; [reflexivity|]. rewrite <- IH. lra.
  - rewrite IH. rewrite <- sum_n_plus. reflexivity.
Qed.
Lemma sum_n_rev f m : sum_n f 0 m == sum_n (fun i => f (m - 1 - i)%nat) 0 m.
Proof.
  induction m as [|m IH]; [reflexivity|]. rewrite sum_n_last. cbn [Nat.add].
  change (sum_n (fun i => f (S m - 1 - i)%nat) 0 (S m)) with (f (S m - 1 - 0)%nat + sum_n (fun i => f (S m - 1 - i)%nat) 1 m).
  rewrite sum_n_shift. replace (S m - 1 - 0)%nat with m by lia. rewrite IH.
  assert (E : sum_n (fun i => f (S m - 1 - S i)%nat) 0 m == sum_n (fun i => f (m - 1 - i)%nat) 0 m).
  { apply sum_n_ext. intros i Hi. replace (S m - 1 - S i)%nat with (m - 1 - i)%nat by lia. reflexivity. }
  rewrite E. ring.
Qed.

Variable kern : list Q.
Variable r : nat.
Hypothesis Hk : length kern = (2 * r + 1)%nat.
Hypothesis Hsym : forall k, (k < length kern)%nat -> at_ kern k == at_ kern (length kern - 1 - k).

Lemma filter1d_total : total (filter1d kern l) == total kern * total l.
Proof.
  unfold total at 1. assert (L : length (filter1d kern l) = n) by (unfold filter1d; rewrite map_length, seq_length; reflexivity).
  rewrite L. unfold sum_range. rewrite Nat.sub_0_r.
  assert (Er : Nat.div2 (length kern) = r) by (rewrite Hk; replace (2 * r + 1)%nat with (S (2 * r)) by lia; apply Nat.div2_succ_double).
  set (K := length kern) in *.
  assert (E1 : sum_n (at_ (filter1d kern l)) 0 n ==
    sum_n (fun i => sum_n (fun k => at_ kern k * v (Z.of_nat i + Z.of_nat k - Z.of_nat r)) 0 K) 0 n).
  { apply sum_n_ext. intros i Hi. rewrite filter1d_at by (fold n; lia). fold K. rewrite Er.
    unfold sum_range. rewrite Nat.sub_0_r. reflexivity. }
  rewrite E1, sum_n_swap.
  assert (E2 : sum_n (fun k => sum_n (fun i => at_ kern k * v (Z.of_nat i + Z.of_nat k - Z.of_nat r)) 0 n) 0 K ==
    sum_n (fun k => at_ kern k * wsum (Z.of_nat k - Z.of_nat r) n) 0 K).
  { apply sum_n_ext. intros k Hkk. rewrite sum_n_scal.
    assert (E : sum_n (fun i => v (Z.of_nat i + Z.of_nat k - Z.of_nat r)) 0 n == wsum (Z.of_nat k - Z.of_nat r) n).
    { unfold wsum. apply sum_n_ext. intros i _.
      replace (Z.of_nat i + Z.of_nat k - Z.of_nat r)%Z with (Z.of_nat k - Z.of_nat r + Z.of_nat i)%Z by lia. reflexivity. }
    rewrite E. reflexivity. }
  rewrite E2. set (g := fun k => at_ kern k * wsum (Z.of_nat k - Z.of_nat r) n).
  assert (E3 : 2 * sum_n g 0 K == sum_n (fun k => at_ kern k * (2 * total l)) 0 K).
  { assert (E4 : 2 * sum_n g 0 K == sum_n g 0 K + sum_n (fun k => g (K - 1 - k)%nat) 0 K) by (rewrite <- sum_n_rev; ring).
    rewrite E4, <- sum_n_plus. apply sum_n_ext. intros k Hkk. unfold g.
    rewrite <- (Hsym k) by lia.
    replace (Z.of_nat (K - 1 - k) - Z.of_nat r)%Z with (- (Z.of_nat k - Z.of_nat r))%Z by lia.
    rewrite <- (shift_pair (Z.of_nat k - Z.of_nat r)). ring. }
  assert (E5 : sum_n (fun k => at_ kern k * (2 * total l)) 0 K == 2 * (total kern * total l)).
  { rewrite (sum_n_ext _ (fun k => (2 * total l) * at_ kern k)) by (intros; ring). rewrite sum_n_scal.
    unfold total at 2, sum_range. fold K. rewrite Nat.sub_0_r. ring. }
  rewrite E5 in E3. lra.
Qed.
End Total.
