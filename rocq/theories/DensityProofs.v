(** hist_density: the density histogram integrates to one. *)
From Coq Require Import QArith Qabs Qround List Arith ZArith Bool Lia Lqa.
From Verif Require Import Py NumSpec NumModel NumFacts HelpersSpec HelpersModel HelpersProofs MarginalModel.
Import ListNotations.
Open Scope Q_scope.

Lemma existsb_false {A} (f : A -> bool) l x : existsb f l = false -> In x l -> f x = false.
Proof.
  intros H Hx. destruct (f x) eqn:E; [|reflexivity].
  assert (existsb f l = true) by (apply existsb_exists; exists x; auto). congruence.
Qed.

Lemma hist_density_inv e d dens : hist_density e d = Ok dens ->
  length dens = (length e - 1)%nat /\ ~ qsum (np_histogram e d) == 0 /\
  (forall i, (S i < length e)%nat -> ~ at_ e (S i) - at_ e i == 0) /\
  (forall i, (S i < length e)%nat ->
     at_ dens i == at_ (np_histogram e d) i / (at_ e (S i) - at_ e i) / qsum (np_histogram e d)).
Proof.
  unfold hist_density. destruct (Qeq_bool (qsum (np_histogram e d)) 0) eqn:E1; cbn [orb]; [discriminate|].
  destruct (existsb _ (bin_widths e)) eqn:E2; [discriminate|]. intros H. injection H as <-.
  apply qeqb_false in E1. 
  assert (L1 : length (np_histogram e d) = (length e - 1)%nat) by apply hist_bins_length.
  assert (L2 : length (bin_widths e) = (length e - 1)%nat) by apply bin_widths_length.
  split; [rewrite map_length, combine_length, L1, L2; lia|]. split; [exact E1|]. split.
  - intros i Hi. rewrite <- bin_widths_at by exact Hi.
    apply qeqb_false. apply (existsb_false _ _ _ E2). apply at_In. lia.
  - intros i Hi. unfold at_ at 1. rewrite combine_at by lia. cbn [fst snd].
    rewrite bin_widths_at by exact Hi. reflexivity.
Qed.

Lemma hist_density_integral e d dens : hist_density e d = Ok dens ->
  sum_range (fun i => at_ dens i * (at_ e (S i) - at_ e i)) 0 (length e - 1) == 1.
Proof.
  intros H. destruct (hist_density_inv _ _ _ H) as [H1 [H2 [H3 H4]]].
  rewrite (sum_range_ext _ (fun i => / qsum (np_histogram e d) * at_ (np_histogram e d) i)).
  - unfold sum_range. rewrite sum_n_scal.
    assert (E : sum_n (at_ (np_histogram e d)) 0 (length e - 1 - 0) == qsum (np_histogram e d)).
    { rewrite qsum_total. unfold total, sum_range.
      unfold np_histogram at 2. rewrite hist_bins_length. reflexivity. }
    rewrite E. field. exact H2.
  - intros i Hi. rewrite H4 by lia. field. split; [exact H2|apply H3; lia].
Qed.

Lemma hist_density_nonneg e d dens : positive_weights d -> nondecreasing e ->
  hist_density e d = Ok dens -> all_nonneg dens /\ increasing e /\ 0 < qsum (np_histogram e d).
Proof.
  intros HW HS H. destruct (hist_density_inv _ _ _ H) as [H1 [H2 [H3 H4]]].
  assert (Hp : 0 < qsum (np_histogram e d)).
  { assert (0 <= qsum (np_histogram e d)) by (apply qsum_nonneg, hist_nonneg; exact HW).
    destruct (Qlt_le_dec 0 (qsum (np_histogram e d))) as [L|L]; [exact L|]. exfalso; apply H2; lra. }
  assert (HI : increasing e).
  { apply increasing_step. intros i Hi. assert (at_ e i <= at_ e (S i)) by (apply HS; lia).
    specialize (H3 i Hi). destruct (Qlt_le_dec (at_ e i) (at_ e (S i))) as [L|L]; [exact L|].
    exfalso; apply H3; lra. }
  split; [|split; assumption].
  intros x Hx. destruct (In_at _ _ Hx) as [i [Hi <-]]. rewrite H1 in Hi. rewrite H4 by lia.
  assert (at_ e i < at_ e (S i)) by (apply HI; lia).
  apply Qle_shift_div_l; [exact Hp|]. rewrite Qmult_0_l.
  apply Qle_shift_div_l; [lra|]. rewrite Qmult_0_l. apply all_nonneg_at. apply hist_nonneg; exact HW.
Qed.

Lemma hist_density_ok_iff e d : positive_weights d -> increasing e -> (2 <= length e)%nat ->
  (exists x w, In (x, w) d /\ at_ e 0 <= x <= at_ e (length e - 1)) ->
  exists dens, hist_density e d = Ok dens.
Proof.
  intros HW HI HL [x [w [Hin Hx]]]. unfold hist_density.
  assert (HS := increasing_nondecreasing _ HI).
  assert (Qeq_bool (qsum (np_histogram e d)) 0 = false) as ->.
  { apply qeqb_false. rewrite qsum_total. unfold np_histogram. rewrite hist_total by assumption.
    assert (0 < weight_if (fun x => Qle_bool (at_ e 0) x && Qle_bool x (at_ e (length e - 1))) d); [|lra].
    eapply weight_if_pos; [exact HW|exact Hin|]. rewrite andb_true_iff, !qle_true. exact Hx. }
  cbn [orb].
  destruct (existsb (fun w0 => Qeq_bool w0 0) (bin_widths e)) eqn:E; [exfalso|eexists; reflexivity].
  apply existsb_exists in E. destruct E as [y [Hy E]]. apply qeqb_true in E.
  destruct (In_at _ _ Hy) as [i [Hi <-]]. rewrite bin_widths_length in Hi.
  rewrite bin_widths_at in E by lia. assert (at_ e i < at_ e (S i)) by (apply HI; lia). lra.
Qed.
