(** Proofs about get_extents. *)
From Coq Require Import QArith Qabs Qround List Arith ZArith Bool Lia Lqa.
From Verif Require Import Py NumSpec NumModel NumFacts HelpersSpec HelpersModel HelpersProofs.
Import ListNotations.
Open Scope Q_scope.

Lemma extents_threshold_range p w t : 0 < extents_threshold p w t <= 3#10.
Proof. unfold extents_threshold. destruct t, p, w; cbn; lra. Qed.

Lemma first_gt_exists l t k : (k < length l)%nat -> t < at_ l k -> exists i, first_gt l t = Some i.
Proof.
  intros Hk H. destruct (first_gt l t) as [i|] eqn:E; [exists i; reflexivity|].
  pose proof (first_gt_none _ _ E k Hk). lra.
Qed.

Lemma Qdiv_le_1 a b : 0 < b -> a <= b -> a / b <= 1.
Proof. intros H1 H2. apply Qle_shift_div_r; lra. Qed.

(** The histogram underlying get_extents. *)
Section extents.
  Variable n : nat.
  Variable d : wdata.
  Variables rlo rhi : Q.
  Hypothesis Hn : (2 <= n)%nat.
  Hypothesis HN : d <> [].
  Hypothesis HW : positive_weights d.
  Hypothesis HR : hist_range d = (rlo, rhi).

  Let be := linspace rlo rhi (S n).
  Let h := (rhi - rlo) / nq n.
  Let W := total_weight d.
  Let P (k : nat) := sum_range (at_ (np_histogram be d)) 0 k.

  Lemma ext_lohi : rlo < rhi.
  Proof. destruct (hist_range_spec d rlo rhi HN HR) as [H _]. exact H. Qed.
  Lemma ext_nq : 0 < nq n. Proof. apply nq_pos. lia. Qed.
  Lemma ext_h : 0 < h.
  Proof. unfold h. apply Qlt_shift_div_l; [apply ext_nq|]. pose proof ext_lohi. lra. Qed.
  Lemma ext_be_len : length be = S n. Proof. apply linspace_length. Qed.
  Lemma ext_be_at i : (i <= n)%nat -> at_ be i == rlo + nq i * h.
  Proof.
    intros Hi. unfold be, h. rewrite linspace_at by lia.
    replace (S n - 1)%nat with n by lia. reflexivity.
  Qed.
  Lemma ext_be_S i : (i < n)%nat -> at_ be (S i) == at_ be i + h.
  Proof. intros Hi. rewrite !ext_be_at by lia. rewrite nq_S. ring. Qed.
  Lemma ext_be_first : at_ be 0 == rlo.
  Proof. apply linspace_first. lia. Qed.
  Lemma ext_be_last : at_ be n == rhi.
  Proof. unfold be. pose proof (linspace_last rlo rhi (S n)) as H.
    replace (S n - 1)%nat with n in H by lia. apply H. lia. Qed.
  Lemma ext_be_inc : increasing be.
  Proof. apply linspace_increasing. apply ext_lohi. Qed.
  Lemma ext_be_nd : nondecreasing be.
  Proof. apply increasing_nondecreasing, ext_be_inc. Qed.

  Lemma ext_hist_len : length (np_histogram be d) = n.
  Proof. unfold np_histogram. rewrite hist_bins_length, ext_be_len. lia. Qed.

  Lemma ext_in_range x : In x (map fst d) -> rlo <= x <= rhi.
  Proof. destruct (hist_range_spec d rlo rhi HN HR) as [_ [H _]]. apply H. Qed.

  (** prefix weights *)
  Lemma ext_P_lt k : (1 <= k < n)%nat -> P k == weight_if (fun x => qltb x (at_ be k)) d.
  Proof.
    intros Hk. unfold P, np_histogram.
    rewrite hist_prefix by (try apply ext_be_nd; rewrite ?ext_be_len; lia).
    apply weight_if_ext. intros x Hx. unfold below_bin.
    replace (Nat.eqb (S k) (length be)) with false by (symmetry; apply Nat.eqb_neq; rewrite ext_be_len; lia).
    cbn [andb]. rewrite orb_false_r.
    assert (Qle_bool (at_ be 0) x = true) as ->.
    { apply qle_true. rewrite ext_be_first. apply ext_in_range; exact Hx. }
    reflexivity.
  Qed.
  Lemma ext_P_all : P n == W.
  Proof.
    unfold P, np_histogram, W, total_weight.
    rewrite hist_prefix by (try apply ext_be_nd; rewrite ?ext_be_len; lia).
    apply weight_if_ext. intros x Hx. unfold below_bin.
    replace (Nat.eqb (S n) (length be)) with true by (symmetry; apply Nat.eqb_eq; rewrite ext_be_len; lia).
    cbn [andb]. destruct (ext_in_range x Hx) as [A B].
    rewrite andb_true_iff, orb_true_iff, !qle_true, qlt_true, ext_be_first, ext_be_last. split; [exact A|right; exact B].
  Qed.
  Lemma ext_P_mono i j : (i <= j)%nat -> (j <= n)%nat -> P i <= P j.
  Proof.
    intros Hij Hj. unfold P. rewrite (sum_range_split _ 0 i j) by lia.
    assert (0 <= sum_range (at_ (np_histogram be d)) i j); [|lra].
    apply sum_range_nonneg. intros; apply all_nonneg_at. apply hist_nonneg; exact HW.
  Qed.
  Lemma ext_W : 0 < W.
  Proof.
    unfold W, total_weight. destruct d as [|[x w] r] eqn:E; [congruence|].
    eapply (weight_if_pos _ _ x w); [exact HW|left; reflexivity|reflexivity].
  Qed.
  Lemma ext_P1 : P 1 < W.
  Proof.
    rewrite ext_P_lt by lia. destruct (hist_range_spec d rlo rhi HN HR) as [_ [_ [mn [mx [Hmn [Hmx HC]]]]]].
    assert (Hx : at_ be 1 <= mx).
    { rewrite (ext_be_S 0) by lia. rewrite ext_be_first.
      assert (Hh : h * nq n == rhi - rlo) by (unfold h; field; pose proof ext_nq; lra).
      assert (2 <= nq n) by (change 2 with (nq 2); apply nq_le; lia).
      pose proof ext_h.
      destruct HC as [[HC [-> ->]]|[HC [-> ->]]]; nra. }
    destruct Hmx as [Hin _]. apply in_map_iff in Hin. destruct Hin as [[x w] [E Hin]]. cbn in E. subst x.
    assert (E : W == weight_if (fun x => qltb x (at_ be 1)) d + weight_if (fun x => negb (qltb x (at_ be 1))) d).
    { unfold W, total_weight. rewrite <- weight_if_or.
      - apply weight_if_ext. intros x _. destruct (qltb x (at_ be 1)); reflexivity.
      - intros x H1 H2. rewrite H1 in H2. discriminate. }
    assert (0 < weight_if (fun x => negb (qltb x (at_ be 1))) d); [|lra].
    eapply weight_if_pos; [exact HW|exact Hin|]. apply negb_true_iff, qlt_false. exact Hx.
  Qed.
  Lemma ext_P1_nonneg : 0 <= P 1.
  Proof. unfold P. apply sum_range_nonneg. intros; apply all_nonneg_at. apply hist_nonneg; exact HW. Qed.

  (** The normalised arrays of the code. *)
  Let cdf0 := cumsum (np_histogram be d).
  Let m0 := qmax_list (hd 0 cdf0) (tl cdf0).
  Let cdf1 := map (fun c => c / m0) cdf0.
  Let icdf0 := rev (map (fun c => 1 - c) cdf1).
  Let m1 := qmax_list (hd 0 icdf0) (tl icdf0).
  Let icdf := map (fun c => c / m1) icdf0.
  Let cdf := map (fun c => 1 - c) (rev icdf).
  Let bc := bin_centers be.

  Lemma ext_cdf0_len : length cdf0 = n.
  Proof. unfold cdf0. rewrite cumsum_length. apply ext_hist_len. Qed.
  Lemma ext_cdf0_at i : (i < n)%nat -> at_ cdf0 i == P (S i).
  Proof. intros Hi. unfold cdf0. rewrite cumsum_at by (rewrite ext_hist_len; exact Hi). reflexivity. Qed.
  Lemma ext_m0 : m0 == W.
  Proof.
    unfold m0. rewrite qmax_list_last.
    - rewrite ext_cdf0_len, ext_cdf0_at by lia. replace (S (n - 1)) with n by lia. apply ext_P_all.
    - apply cumsum_nondecreasing, hist_nonneg. exact HW.
    - intros E. pose proof ext_cdf0_len as H. rewrite E in H. cbn in H. lia.
  Qed.
  Lemma ext_cdf1_at i : (i < n)%nat -> at_ cdf1 i == P (S i) / W.
  Proof.
    intros Hi. unfold cdf1. rewrite at_map by (rewrite ext_cdf0_len; exact Hi).
    rewrite ext_cdf0_at by exact Hi. rewrite ext_m0. reflexivity.
  Qed.
  Lemma ext_cdf1_len : length cdf1 = n.
  Proof. unfold cdf1. rewrite map_length. apply ext_cdf0_len. Qed.
  Lemma ext_icdf0_len : length icdf0 = n.
  Proof. unfold icdf0. rewrite rev_length, map_length. apply ext_cdf1_len. Qed.
  Lemma ext_icdf0_at i : (i < n)%nat -> at_ icdf0 i == 1 - P (n - i) / W.
  Proof.
    intros Hi. unfold icdf0. rewrite at_rev by (rewrite map_length, ext_cdf1_len; exact Hi).
    rewrite map_length, ext_cdf1_len. rewrite at_map by (rewrite ext_cdf1_len; lia).
    rewrite ext_cdf1_at by lia. replace (S (n - 1 - i)) with (n - i)%nat by lia. reflexivity.
  Qed.
  Lemma ext_divW a b : a <= b -> a / W <= b / W.
  Proof.
    intros H. unfold Qdiv. apply Qmult_le_compat_r; [exact H|].
    apply Qlt_le_weak, Qinv_lt_0_compat, ext_W.
  Qed.
  Lemma ext_icdf0_nd : nondecreasing icdf0.
  Proof.
    intros i j Hij Hj. rewrite ext_icdf0_len in Hj. rewrite !ext_icdf0_at by lia.
    assert (P (n - j) / W <= P (n - i) / W) by (apply ext_divW, ext_P_mono; lia). lra.
  Qed.
  Let f0 := P 1 / W.
  Lemma ext_f0 : 0 <= f0 < 1.
  Proof.
    unfold f0. split.
    - apply Qle_shift_div_l; [apply ext_W|]. pose proof ext_P1_nonneg. lra.
    - apply Qlt_shift_div_r; [apply ext_W|]. pose proof ext_P1. lra.
  Qed.
  Lemma ext_m1 : m1 == 1 - f0.
  Proof.
    unfold m1. rewrite qmax_list_last.
    - rewrite ext_icdf0_len, ext_icdf0_at by lia. replace (n - (n - 1))%nat with 1%nat by lia. reflexivity.
    - apply ext_icdf0_nd.
    - intros E. pose proof ext_icdf0_len as H. rewrite E in H. cbn in H. lia.
  Qed.
  Lemma ext_icdf_len : length icdf = n.
  Proof. unfold icdf. rewrite map_length. apply ext_icdf0_len. Qed.
  Lemma ext_icdf_at i : (i < n)%nat -> at_ icdf i == (1 - P (n - i) / W) / (1 - f0).
  Proof.
    intros Hi. unfold icdf. rewrite at_map by (rewrite ext_icdf0_len; exact Hi).
    rewrite ext_icdf0_at by exact Hi. rewrite ext_m1. reflexivity.
  Qed.
  Lemma ext_cdf_len : length cdf = n.
  Proof. unfold cdf. rewrite map_length, rev_length. apply ext_icdf_len. Qed.
  Lemma ext_cdf_at i : (i < n)%nat -> at_ cdf i == 1 - (1 - P (S i) / W) / (1 - f0).
  Proof.
    intros Hi. unfold cdf. rewrite at_map by (rewrite rev_length, ext_icdf_len; exact Hi).
    rewrite at_rev by (rewrite ext_icdf_len; exact Hi). rewrite ext_icdf_len, ext_icdf_at by lia.
    replace (n - (n - 1 - i))%nat with (S i) by lia. reflexivity.
  Qed.

  Lemma ext_gt t k : (t < (1 - P k / W) / (1 - f0)) <-> (t * (1 - f0) * W < W - P k).
  Proof.
    pose proof ext_f0 as F. pose proof ext_W as HWp.
    assert (E : (1 - P k / W) / (1 - f0) == (W - P k) / (W * (1 - f0))) by (field; lra).
    assert (Q0 : 0 < W * (1 - f0)) by nra.
    rewrite E. split; intros H.
    - assert (t * (W * (1 - f0)) < (W - P k) / (W * (1 - f0)) * (W * (1 - f0))).
      { apply Qmult_lt_compat_r; assumption. }
      assert ((W - P k) / (W * (1 - f0)) * (W * (1 - f0)) == W - P k) by (field; lra).
      lra.
    - apply Qlt_shift_div_l; [exact Q0|]. lra.
  Qed.

  Lemma ext_indices t : 0 < t <= 3#10 ->
    exists i1 i2, first_gt cdf t = Some i1 /\ first_gt icdf t = Some i2 /\
      (1 <= i1 < n)%nat /\ (1 <= i2 < n)%nat /\ (i1 <= n - i2)%nat /\
      P i1 <= (f0 + t * (1 - f0)) * W /\ (f0 + t * (1 - f0)) * W < P (S i1) /\
      W - P (S (n - i2)) <= t * (1 - f0) * W /\ t * (1 - f0) * W < W - P (n - i2).
  Proof.
    intros Ht. pose proof ext_f0 as F. pose proof ext_W as HWp.
    assert (EP1 : P 1 == f0 * W) by (unfold f0; field; lra).
    destruct (first_gt_exists cdf t (n - 1)) as [i1 E1]; [rewrite ext_cdf_len; lia| |].
    { rewrite ext_cdf_at by lia. replace (S (n - 1)) with n by lia. rewrite ext_P_all.
      assert (1 - (1 - W / W) / (1 - f0) == 1) by (field; lra). lra. }
    destruct (first_gt_exists icdf t (n - 1)) as [i2 E2]; [rewrite ext_icdf_len; lia| |].
    { rewrite ext_icdf_at by lia. replace (n - (n - 1))%nat with 1%nat by lia.
      apply ext_gt. rewrite EP1. assert (X : 0 < (1 - f0) * W) by nra.
      assert (0 < (1 - t) * ((1 - f0) * W)) by (apply Qmult_lt_0_compat; lra). lra. }
    exists i1, i2. destruct (first_gt_some _ _ _ E1) as [A1 [A2 A3]].
    destruct (first_gt_some _ _ _ E2) as [B1 [B2 B3]].
    rewrite ext_cdf_len in A1. rewrite ext_icdf_len in B1.
    rewrite ext_cdf_at in A2 by lia. rewrite ext_icdf_at in B2 by lia. apply ext_gt in B2.
    assert (C1 : forall k, (k < n)%nat -> (t < 1 - (1 - P (S k) / W) / (1 - f0)) <-> (f0 + t * (1 - f0)) * W < P (S k)).
    { intros k Hk. assert (E : (1 - P (S k) / W) / (1 - f0) == (W - P (S k)) / (W * (1 - f0))) by (field; lra).
      assert (Q0 : 0 < W * (1 - f0)) by nra. rewrite E. split; intros H.
      - assert ((W - P (S k)) / (W * (1 - f0)) * (W * (1 - f0)) < (1 - t) * (W * (1 - f0))).
        { apply Qmult_lt_compat_r; [exact Q0|lra]. }
        assert ((W - P (S k)) / (W * (1 - f0)) * (W * (1 - f0)) == W - P (S k)) by (field; lra). lra.
      - assert ((W - P (S k)) / (W * (1 - f0)) < 1 - t); [|lra]. apply Qlt_shift_div_r; [exact Q0|]. lra. }
    assert (Ft : 0 < t * (1 - f0)) by nra.
    apply C1 in A2; [|exact A1].
    assert (Hi1 : (1 <= i1)%nat).
    { destruct i1 as [|i1]; [|lia]. exfalso. rewrite EP1 in A2. nra. }
    assert (Hi2 : (1 <= i2)%nat).
    { destruct i2 as [|i2]; [|lia]. exfalso. rewrite Nat.sub_0_r, ext_P_all in B2. nra. }
    assert (D1 : P i1 <= (f0 + t * (1 - f0)) * W).
    { assert (Hk : (i1 - 1 < i1)%nat) by lia. pose proof (A3 _ Hk) as Y.
      rewrite ext_cdf_at in Y by lia. replace (S (i1 - 1)) with i1 in Y by lia.
      destruct (Qlt_le_dec ((f0 + t * (1 - f0)) * W) (P i1)) as [L|L]; [|exact L].
      exfalso. assert (L' : (f0 + t * (1 - f0)) * W < P (S (i1 - 1))) by (replace (S (i1-1)) with i1 by lia; exact L).
      apply C1 in L'; [|lia]. replace (S (i1 - 1)) with i1 in L' by lia. lra. }
    assert (D2 : W - P (S (n - i2)) <= t * (1 - f0) * W).
    { assert (Hk : (i2 - 1 < i2)%nat) by lia. pose proof (B3 _ Hk) as Y.
      rewrite ext_icdf_at in Y by lia. replace (n - (i2 - 1))%nat with (S (n - i2)) in Y by lia.
      destruct (Qlt_le_dec (t * (1 - f0) * W) (W - P (S (n - i2)))) as [L|L]; [|exact L].
      exfalso. apply ext_gt in L. lra. }
    repeat split; try assumption; try lia.
    destruct (Nat.le_gt_cases i1 (n - i2)) as [L|L]; [exact L|exfalso].
    assert (P (S (n - i2)) <= P i1) by (apply ext_P_mono; lia).
    assert (0 < (1 - f0) * W) by nra. nra.
  Qed.

  Lemma ext_bc_len : length bc = n.
  Proof. unfold bc. rewrite bin_centers_length, ext_be_len. lia. Qed.
  Lemma ext_bc_at i : (i < n)%nat -> at_ bc i == at_ be i + (1#2) * h.
  Proof.
    intros Hi. unfold bc. rewrite bin_centers_at by (rewrite ext_be_len; lia).
    rewrite ext_be_S by exact Hi. ring.
  Qed.

  Lemma ext_unfold plot wide tiny pad :
    exists i1 i2 lo hi,
      let t := extents_threshold plot wide tiny in
      (1 <= i1 < n)%nat /\ (1 <= i2 < n)%nat /\ (i1 <= n - i2)%nat /\
      P i1 <= (f0 + t * (1 - f0)) * W /\ (f0 + t * (1 - f0)) * W < P (S i1) /\
      W - P (S (n - i2)) <= t * (1 - f0) * W /\ t * (1 - f0) * W < W - P (n - i2) /\
      lo == at_ be i1 + (1#2) * h /\ hi == at_ be (n - i2) + (1#2) * h /\
      get_extents n d plot wide tiny pad =
        if pad then Ok (lo - (1#5) * (hi - lo), hi + (1#5) * (hi - lo)) else Ok (lo, hi).
  Proof.
    set (t := extents_threshold plot wide tiny).
    destruct (ext_indices t) as [i1 [i2 [E1 [E2 [I1 [I2 [I12 [A [B [C D]]]]]]]]]].
    { apply extents_threshold_range. }
    exists i1, i2, (at_ bc i1), (at_ bc (n - i2)). cbv zeta. fold t.
    repeat match goal with |- _ /\ _ => split; [first [assumption | lia]|] end.
    split; [apply ext_bc_at; lia|]. split; [apply ext_bc_at; lia|].
    unfold get_extents. rewrite HR. cbv zeta.
    fold be. fold cdf0. fold m0.
    assert (Qeq_bool m0 0 = false) as ->.
    { apply qeqb_false. rewrite ext_m0. pose proof ext_W. lra. }
    fold cdf1. fold icdf0. fold m1.
    assert (Qeq_bool m1 0 = false) as ->.
    { apply qeqb_false. rewrite ext_m1. pose proof ext_f0. lra. }
    fold icdf. fold cdf. fold t. rewrite E1, E2. fold bc. rewrite ext_bc_len.
    assert (py_neg_index n i2 = (n - i2)%nat) as -> by (destruct i2; [lia|reflexivity]).
    reflexivity.
  Qed.
End extents.

(** Weight bookkeeping in terms of samples. *)
Lemma weight_if_negb p d : weight_if (fun x => negb (p x)) d == total_weight d - weight_if p d.
Proof.
  unfold total_weight. induction d as [|[x w] r IH]; cbn; [lra|]. rewrite IH. destruct (p x); cbn; lra.
Qed.

(** Main statement, [pad = false]. *)
Lemma get_extents_ok n d plot wide tiny mn mx :
  (2 <= n)%nat -> positive_weights d -> is_min mn (map fst d) -> is_max mx (map fst d) -> mn < mx ->
  exists lo hi, get_extents n d plot wide tiny false = Ok (lo, hi) /\
    get_extents n d plot wide tiny true = Ok (lo - (1#5) * (hi - lo), hi + (1#5) * (hi - lo)) /\
    mn < lo /\ lo <= hi /\ hi <= mx /\
    let h := (mx - mn) / inject_Z (Z.of_nat n) in
    let W := total_weight d in
    let f0 := weight_if (fun x => qltb x (mn + h)) d / W in
    let t := extents_threshold plot wide tiny in
    weight_if (fun x => qltb x (lo - h / 2)) d <= (f0 + t * (1 - f0)) * W /\
    (f0 + t * (1 - f0)) * W < weight_if (fun x => Qle_bool x (lo + h / 2)) d /\
    weight_if (fun x => qltb (hi + h / 2) x) d <= t * (1 - f0) * W /\
    t * (1 - f0) * W < weight_if (fun x => Qle_bool (hi - h / 2) x) d.
Proof.
  intros Hn HW Hmn Hmx Hlt.
  assert (HN : d <> []) by (intros ->; destruct Hmn as [[] _]).
  destruct (hist_range d) as [rlo rhi] eqn:HR.
  assert (Hr : rlo == mn /\ rhi == mx).
  { destruct (hist_range_spec d rlo rhi HN HR) as [_ [_ [mn' [mx' [[A1 A2] [[B1 B2] C]]]]]].
    destruct Hmn as [M1 M2]. destruct Hmx as [X1 X2].
    assert (mn' == mn) by (apply Qle_antisym; [apply A2|apply M2]; assumption).
    assert (mx' == mx) by (apply Qle_antisym; [apply X2|apply B2]; assumption).
    destruct C as [[C1 [-> ->]]|[C1 _]]; [split; assumption|lra]. }
  destruct Hr as [Hr1 Hr2].
  destruct (ext_unfold n d rlo rhi Hn HN HW HR plot wide tiny false)
    as [i1 [i2 [lo [hi [I1 [I2 [I12 [A [B [C [D [Elo [Ehi EG]]]]]]]]]]]]].
  destruct (ext_unfold n d rlo rhi Hn HN HW HR plot wide tiny true)
    as [i1' [i2' [lo' [hi' [_ [_ [_ [_ [_ [_ [_ [_ [_ EG']]]]]]]]]]]]].
  exists lo, hi. split; [exact EG|]. split.
  { (* the padded call uses the same un-padded extents *)
    revert EG EG'. unfold get_extents. rewrite HR. cbv zeta.
    repeat match goal with |- context [if ?b then Err _ else _] => destruct b; [intros; discriminate|] end.
    repeat match goal with |- context [match first_gt ?l ?t with _ => _ end] => destruct (first_gt l t); [|intros; discriminate] end.
    intros EG EG'. injection EG as <- <-. reflexivity. }
  pose proof (ext_h n d rlo rhi Hn HN HR) as Hh.
  assert (Eh : (rhi - rlo) / nq n == (mx - mn) / inject_Z (Z.of_nat n)).
  { fold (nq n). rewrite Hr1, Hr2. reflexivity. }
  assert (Hmono : forall i j, (i <= j)%nat -> (j <= n)%nat ->
    at_ (linspace rlo rhi (S n)) i <= at_ (linspace rlo rhi (S n)) j).
  { intros i j Hij Hj. apply (ext_be_nd n d rlo rhi HN HR); [exact Hij|]. rewrite linspace_length. lia. }
  pose proof (ext_be_first n rlo rhi Hn) as BF. pose proof (ext_be_last n rlo rhi Hn) as BL.
  set (be := linspace rlo rhi (S n)) in *.
  set (h := (rhi - rlo) / nq n) in *.
  assert (BS : forall i, (i < n)%nat -> at_ be (S i) == at_ be i + h)
    by (intros i Hi; apply (ext_be_S n rlo rhi Hn); exact Hi).
  assert (Hlo : mn < lo).
  { rewrite Elo. assert (at_ be 0 <= at_ be i1) by (apply Hmono; lia). lra. }
  assert (Hlohi : lo <= hi).
  { rewrite Elo, Ehi. assert (at_ be i1 <= at_ be (n - i2)) by (apply Hmono; lia). lra. }
  assert (Hhi : hi <= mx).
  { rewrite Ehi. assert (at_ be (S (n - i2)) <= at_ be n) by (apply Hmono; lia).
    rewrite BS in H by lia. lra. }
  split; [exact Hlo|]. split; [exact Hlohi|]. split; [exact Hhi|].
  cbv zeta.
  assert (HPlt := fun k => ext_P_lt n d rlo rhi Hn HN HR k).
  assert (HPall := ext_P_all n d rlo rhi Hn HN HR).
  fold be in HPlt, HPall. 
  assert (Ef : weight_if (fun x => qltb x (mn + (mx - mn) / inject_Z (Z.of_nat n))) d
               == sum_range (at_ (np_histogram be d)) 0 1).
  { rewrite HPlt by lia. apply weight_if_ext. intros x _. apply eq_true_iff_eq. rewrite !qlt_true.
    rewrite (BS 0%nat) by lia. rewrite <- Eh. split; lra. }
  rewrite Ef. set (f0 := sum_range (at_ (np_histogram be d)) 0 1 / total_weight d) in *.
  set (t := extents_threshold plot wide tiny) in *.
  split; [|split; [|split]].
  - eapply Qle_trans; [|exact A]. rewrite HPlt by lia. apply Qle_lteq. right.
    apply weight_if_ext. intros x _. apply eq_true_iff_eq. rewrite !qlt_true, Elo, <- Eh.
    assert (E3 : at_ be i1 + (1#2) * h - h / 2 == at_ be i1) by (field). rewrite E3. tauto.
  - eapply Qlt_le_trans; [exact B|].
    destruct (Nat.eq_dec (S i1) n) as [En|Nn].
    + rewrite En, HPall. apply weight_if_le; [exact HW|]. intros x Hx _. apply qle_true.
      rewrite Elo, <- Eh. assert (at_ be (S i1) == rhi) by (rewrite En; exact BL).
      rewrite BS in H by lia. assert (h / 2 == (1#2) * h) by field.
      destruct Hmx as [_ X2]. specialize (X2 x Hx). lra.
    + rewrite HPlt by lia. apply weight_if_le; [exact HW|]. intros x Hx Hq. apply qlt_true in Hq.
      apply qle_true. rewrite BS in Hq by lia. rewrite Elo, <- Eh. assert (h / 2 == (1#2) * h) by field. lra.
  - eapply Qle_trans; [|exact C].
    destruct (Nat.eq_dec (S (n - i2)) n) as [En|Nn].
    + rewrite En, HPall.
      assert (weight_if (fun x => qltb (hi + (mx - mn) / inject_Z (Z.of_nat n) / 2) x) d == weight_if (fun _ => false) d).
      { apply weight_if_ext. intros x Hx. apply qlt_false. rewrite Ehi, <- Eh.
        assert (at_ be (S (n - i2)) == rhi) by (rewrite En; exact BL). rewrite BS in H by lia.
        assert (h / 2 == (1#2) * h) by field. destruct Hmx as [_ X2]. specialize (X2 x Hx). lra. }
      rewrite H. assert (weight_if (fun _ => false) d == 0); [|lra].
      clear. induction d as [|[x w] r IH]; cbn; [reflexivity|]. rewrite IH. lra.
    + rewrite HPlt by lia. rewrite <- weight_if_negb. apply weight_if_le; [exact HW|].
      intros x Hx Hq. apply qlt_true in Hq. apply negb_true_iff, qlt_false. rewrite BS by lia.
      rewrite Ehi, <- Eh in Hq. assert (h / 2 == (1#2) * h) by field. lra.
  - eapply Qlt_le_trans; [exact D|]. rewrite HPlt by lia. rewrite <- weight_if_negb.
    apply weight_if_le; [exact HW|]. intros x Hx Hq. apply negb_true_iff, qlt_false in Hq.
    apply qle_true. rewrite Ehi, <- Eh. assert (h / 2 == (1#2) * h) by field. lra.
Qed.
