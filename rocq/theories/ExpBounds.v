(** Rational bounds for the exponential function. *)
From Coq Require Import QArith Reals Qreals ZArith Lia Lra.
Open Scope R_scope.

Lemma exp_nat x n : exp (INR n * x) = (exp x) ^ n.
Proof.
  induction n as [|n IH]; [rewrite Rmult_0_l, exp_0; reflexivity|].
  rewrite S_INR, Rmult_plus_distr_r, Rmult_1_l, exp_plus, IH. cbn [pow]. ring.
Qed.
Lemma exp_lower x n : 0 <= 1 + x -> (1 + x) ^ n <= exp (INR n * x).
Proof. intros H. rewrite exp_nat. apply pow_incr. split; [exact H|]. apply exp_ineq1_le. Qed.
Lemma exp_upper x n : 0 < 1 + x -> exp (- (INR n * x)) <= / (1 + x) ^ n.
Proof.
  intros H. rewrite exp_Ropp. apply Rinv_le_contravar; [apply pow_lt, H|]. apply exp_lower. lra.
Qed.
(** x ^ (2 ^ k) by squaring *)
Fixpoint sq (k : nat) (q : Q) : Q := match k with O => q | S k => let r := sq k q in Qred (r * r) end.
Lemma sq_pow k q : Q2R (sq k q) = (Q2R q) ^ (2 ^ k).
Proof.
  induction k as [|k IH]; cbn [sq]; [rewrite pow_1; reflexivity|].
  rewrite (Qeq_eqR _ _ (Qred_correct _)), Q2R_mult, IH. replace (2 ^ S k)%nat with (2 ^ k + 2 ^ k)%nat by (cbn [Nat.pow]; lia). rewrite pow_add. reflexivity.
Qed.
Lemma pow2_INR k : INR (2 ^ k) = 2 ^ k.
Proof. induction k as [|k IH]; [reflexivity|]. replace (2 ^ S k)%nat with (2 ^ k + 2 ^ k)%nat by (cbn [Nat.pow]; lia). rewrite plus_INR, IH. cbn [pow]. ring. Qed.
(** exp (2^k q) >= (1 + q)^(2^k), exp (- 2^k q) <= 1 / (1 + q)^(2^k) *)
Lemma exp_lower_sq k q lo : (0 <= 1 + q)%Q -> (lo <= sq k (1 + q))%Q -> Q2R lo <= exp (2 ^ k * Q2R q).
Proof.
  intros H L. apply Qle_Rle in L. rewrite sq_pow in L. rewrite <- pow2_INR. eapply Rle_trans; [exact L|].
  rewrite Q2R_plus. replace (Q2R 1) with 1 by (unfold Q2R; cbn; lra). apply exp_lower.
  apply Qle_Rle in H. rewrite Q2R_plus in H. unfold Q2R at 1 2 in H. cbn in H. lra.
Qed.
Lemma exp_upper_sq k q hi : (0 < 1 + q)%Q -> (0 < hi)%Q -> (/ hi <= sq k (1 + q))%Q -> exp (- (2 ^ k * Q2R q)) <= Q2R hi.
Proof.
  intros H Hh L. assert (HQ : (0 <= 1 + q)%Q) by (apply Qlt_le_weak, H). pose proof (exp_lower_sq k q (/ hi) HQ L) as B.
  assert (Hp : 0 < Q2R hi) by (apply Qlt_Rlt in Hh; unfold Q2R at 1 in Hh; cbn in Hh; lra).
  rewrite Q2R_inv in B by (intros C; rewrite C in Hh; discriminate). rewrite exp_Ropp.
  rewrite <- (Rinv_inv (Q2R hi)). apply Rinv_le_contravar; [apply Rinv_0_lt_compat, Hp|exact B].
Qed.
