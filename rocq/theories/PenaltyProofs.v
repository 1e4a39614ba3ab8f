(** Arithmetic of the criteria, and the scores of two models. *)
From Coq Require Import String Ascii List Bool Arith ZArith QArith Lia Reals Qreals Lra.
From Verif Require Import Py NumSpec NumModel FrameModel FrameFacts ConfigModel ChainModel RegistryModel RegistrySpec ChainSpec RegistryProofs SessionProofs CompareModel CompareSpec CompareProofs OffsetProofs
  CompareProps PenaltySpec.
Import ListNotations.
Open Scope R_scope.

(** k (k + 1) / (N - k - 1) grows with k and falls with N. *)
Lemma correction_le k k' N N' : 0 <= k -> k <= k' -> N' <= N -> k' + 1 < N' -> k * (k + 1) / (N - k - 1) <= k' * (k' + 1) / (N' - k' - 1).
Proof.
  intros K0 KK NN L. apply Rle_trans with (k' * (k' + 1) / (N - k - 1)).
  - unfold Rdiv. apply Rmult_le_compat_r; [left; apply Rinv_0_lt_compat; lra|]. apply Rmult_le_compat; lra.
  - unfold Rdiv. apply Rmult_le_compat_l; [apply Rmult_le_pos; lra|]. apply Rinv_le_contravar; lra.
Qed.
Lemma AICc_split k N P : AICc k N P = -2 * Q2R P + 2 * IZR k + 2 * (IZR k * (IZR k + 1) / (Q2R N - IZR k - 1)).
Proof. unfold AICc, Rdiv. ring. Qed.
Lemma aic_of rgb w n k N P c f x : session rgb false w -> model w n k N P -> registered w n c f -> has_aic c f x -> x = AICc k N P.
Proof.
  intros S (c' & f' & p & R' & HP & HL & HK & HN) R (q & Q0 & N' & k' & H1 & H2 & H3 & H4 & _ & ->). destruct (registered_unique _ _ _ _ _ _ (session_ok _ _ _ S) R R') as [<- <-].
  destruct (registered_sound _ _ _ _ _ _ S R) as [SO _]. rewrite (column_unique _ _ _ _ (so_wf _ _ SO) H1 HP) in *. rewrite HN in H2. rewrite HK in H3. injection H2 as <-. injection H3 as <-.
  unfold AICc. rewrite (Qeq_eqR _ _ (largest_unique _ _ _ H4 HL)). reflexivity.
Qed.
Lemma bic_of rgb w n k N P c f x : session rgb false w -> model w n k N P -> registered w n c f -> has_bic c f x -> x = BIC k N P.
Proof.
  intros S (c' & f' & p & R' & HP & HL & HK & HN) R (q & Q0 & N' & k' & H1 & H2 & H3 & H4 & _ & ->). destruct (registered_unique _ _ _ _ _ _ (session_ok _ _ _ S) R R') as [<- <-].
  destruct (registered_sound _ _ _ _ _ _ S R) as [SO _]. rewrite (column_unique _ _ _ _ (so_wf _ _ SO) H1 HP) in *. rewrite HN in H2. rewrite HK in H3. injection H2 as <-. injection H3 as <-.
  unfold BIC. rewrite (Qeq_eqR _ _ (largest_unique _ _ _ H4 HL)). reflexivity.
Qed.
Lemma aic_diff rgb w d n m k k' N N' P P' u v : session rgb false w -> aic w = Ok d -> dget n d = Some u -> dget m d = Some v -> model w n k N P -> model w m k' N' P' -> u - v = AICc k N P - AICc k' N' P'.
Proof.
  intros S H U V M M'. destruct (proj2 (proj2 (C37_aic rgb w d S H)) n m u v U V) as (cn & fn & cm & fm & x & y & R1 & R2 & X & Y & ->).
  rewrite (aic_of rgb w n k N P cn fn x S M R1 X), (aic_of rgb w m k' N' P' cm fm y S M' R2 Y). reflexivity.
Qed.
Lemma bic_diff rgb w d n m k k' N N' P P' u v : session rgb false w -> bic w = Ok d -> dget n d = Some u -> dget m d = Some v -> model w n k N P -> model w m k' N' P' -> u - v = BIC k N P - BIC k' N' P'.
Proof.
  intros S H U V M M'. destruct (proj2 (proj2 (C37_bic rgb w d S H)) n m u v U V) as (cn & fn & cm & fm & x & y & R1 & R2 & X & Y & ->).
  rewrite (bic_of rgb w n k N P cn fn x S M R1 X), (bic_of rgb w m k' N' P' cm fm y S M' R2 Y). reflexivity.
Qed.
Lemma model_counts rgb w n k N P : session rgb false w -> model w n k N P -> (0 <= k)%Z /\ (0 <= N)%Q.
Proof.
  intros S (c & f & p & R & _ & _ & HK & HN). destruct (registered_sound _ _ _ _ _ _ S R) as [SO _]. split; [exact (so_nfree _ _ SO _ HK)|]. destruct (so_ndata _ _ SO _ HN) as [q [E L]]. injection E as <-. exact L.
Qed.
Lemma bic_positive rgb w d n k N P : session rgb false w -> bic w = Ok d -> model w n k N P -> (0 < N)%Q.
Proof.
  intros S H M. destruct (model_counts rgb w n k N P S M) as [_ N0]. destruct (Qlt_le_dec 0 N) as [L|L]; [exact L|]. exfalso. destruct M as (c & f & p & R & HP & _ & HK & HN).
  assert (HE : bic w = Err NaNResult). { apply (C38_bic_infinite rgb w _ S). split; [reflexivity|]. exists n, c, f, N. split; [exact R|]. split; [split; [eexists; exact HP|rewrite HK, HN; split; discriminate]|]. split; [exact HN|]. apply Qle_antisym; assumption. }
  congruence.
Qed.
Lemma Q2R_0 : Q2R 0 = 0. Proof. unfold Q2R. cbn. lra. Qed.
Lemma Q2R_1 : Q2R 1 = 1. Proof. unfold Q2R. cbn. lra. Qed.
Lemma ln_ge1 N : (1 <= N)%Q -> 0 <= ln (Q2R N).
Proof. intros H. apply Qle_Rle in H. rewrite Q2R_1 in H. destruct (Rle_lt_or_eq_dec _ _ H) as [L|E]; [left; rewrite <- ln_1; apply ln_increasing; lra|rewrite <- E, ln_1; lra]. Qed.
Lemma ln_gt1 N : (1 < N)%Q -> 0 < ln (Q2R N).
Proof. intros H. apply Qlt_Rlt in H. rewrite Q2R_1 in H. rewrite <- ln_1. apply ln_increasing; lra. Qed.
