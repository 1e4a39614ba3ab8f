(** C27: the MAX summary. *)
From Coq Require Import QArith Qabs List Arith ZArith Bool Lia Lqa.
From Verif Require Import Py NumSpec NumModel NumFacts InterpFacts HelpersProofs MarginalModel SummarySpec QuantileProofs.
Import ListNotations.
Open Scope Q_scope.

Lemma nth_firstn_lt {A} (l : list A) n i d : (i < n)%nat -> nth i (firstn n l) d = nth i l d.
Proof.
  revert n i. induction l as [|x l IH]; intros [|n] [|i] H; cbn; try lia; try reflexivity.
  apply IH. lia.
Qed.
Lemma nth_skipn_plus {A} (l : list A) n i d : nth i (skipn n l) d = nth (n + i) l d.
Proof.
  revert l. induction n as [|n IH]; intros [|x l]; cbn; try reflexivity.
  - destruct i; reflexivity.
  - apply IH.
Qed.
Lemma at_rev_firstn l k i : (k <= length l)%nat -> (i < k)%nat -> at_ (rev (firstn k l)) i = at_ l (k - 1 - i).
Proof.
  intros Hk Hi. unfold at_. rewrite rev_nth by (rewrite firstn_length; lia).
  rewrite firstn_length. replace (Nat.min k (length l) - S i)%nat with (k - 1 - i)%nat by lia.
  apply nth_firstn_lt. lia.
Qed.

Fixpoint half (n : nat) (x : Q) : Q := match n with O => x | S k => half k (x / 2) end.
Lemma half_pos n x : 0 < x -> 0 < half n x.
Proof.
  revert x. induction n as [|n IH]; cbn; intros x H; [exact H|]. apply IH.
  assert (E2 : x / 2 == (1#2) * x) by field. lra.
Qed.
Lemma half_Qeq n x y : x == y -> half n x == half n y.
Proof.
  revert x y. induction n as [|n IH]; cbn; intros x y H; [exact H|]. apply IH. rewrite H. reflexivity.
Qed.

Lemma half_pow n x : half n x == x / inject_Z (2 ^ Z.of_nat n).
Proof.
  revert x. induction n as [|n IH]; intros x; cbn [half].
  - change (inject_Z (2 ^ Z.of_nat 0)) with 1. field.
  - rewrite IH. rewrite Nat2Z.inj_succ, Z.pow_succ_r by lia. rewrite inject_Z_mult.
    assert (0 < inject_Z (2 ^ Z.of_nat n)).
    { change 0 with (inject_Z 0). rewrite <- Zlt_Qlt. apply Z.pow_pos_nonneg; lia. }
    change (inject_Z 2) with 2. field. lra.
Qed.

Section Loop.
Variables (area : Q) (ys cs : list Q) (start : nat).
Hypothesis Hs : (1 <= start)%nat.
Hypothesis Hl : (start < length ys)%nat.
Hypothesis H0 : at_ ys 0 == 0.
Hypothesis Hlast : at_ ys (length ys - 1) == 0.
Hypothesis Hpeak : 0 < at_ ys start.

Lemma find_stretch level : 0 < level -> level <= at_ ys start ->
  exists k1 k2, first_lt (rev (firstn start ys)) level = Some k1 /\ first_lt (skipn start ys) level = Some k2 /\
    stretch ys start level (start - k1) (start + k2).
Proof.
  intros HL0 HLp.
  assert (Lr : length (rev (firstn start ys)) = start) by (rewrite rev_length, firstn_length; lia).
  assert (Lsk : length (skipn start ys) = (length ys - start)%nat) by apply skipn_length.
  destruct (first_lt (rev (firstn start ys)) level) as [k1|] eqn:E1.
  2:{ exfalso. pose proof (first_lt_none _ _ E1 (start - 1)) as H. rewrite Lr in H.
      rewrite at_rev_firstn in H by lia. replace (start - 1 - (start - 1))%nat with 0%nat in H by lia.
      specialize (H ltac:(lia)). lra. }
  destruct (first_lt (skipn start ys) level) as [k2|] eqn:E2.
  2:{ exfalso. pose proof (first_lt_none _ _ E2 (length ys - 1 - start)) as H. rewrite Lsk in H.
      unfold at_ in H. rewrite nth_skipn_plus in H. fold (at_ ys (start + (length ys - 1 - start))) in H.
      replace (start + (length ys - 1 - start))%nat with (length ys - 1)%nat in H by lia.
      specialize (H ltac:(lia)). lra. }
  exists k1, k2. split; [reflexivity|]. split; [reflexivity|].
  destruct (first_lt_some _ _ _ E1) as [A1 [A2 A3]]. rewrite Lr in A1. rewrite at_rev_firstn in A2 by lia.
  destruct (first_lt_some _ _ _ E2) as [B1 [B2 B3]]. rewrite Lsk in B1.
  unfold at_ in B2. rewrite nth_skipn_plus in B2. fold (at_ ys (start + k2)) in B2.
  assert (k2 <> 0)%nat by (intros ->; rewrite Nat.add_0_r in B2; lra).
  repeat split; try lia.
  - intros j Hj. destruct (Nat.lt_ge_cases j start) as [Lj|Lj].
    + specialize (A3 (start - 1 - j)%nat ltac:(lia)). rewrite at_rev_firstn in A3 by lia.
      replace (start - 1 - (start - 1 - j))%nat with j in A3 by lia. exact A3.
    + specialize (B3 (j - start)%nat ltac:(lia)). unfold at_ in B3. rewrite nth_skipn_plus in B3.
      replace (start + (j - start))%nat with j in B3 by lia. exact B3.
  - replace (start - k1 - 1)%nat with (start - 1 - k1)%nat by lia. exact A2.
  - exact B2.
Qed.

Definition gap (i1 i2 : nat) : Q := nth i2 cs 0 - nth i1 cs 0.

(** What a run of the loop establishes. *)
Lemma max_loop_found tries minv maxv i1 i2 :
  0 <= minv -> minv < maxv -> maxv <= at_ ys start ->
  max_loop tries area ys cs start minv maxv = MaxFound i1 i2 ->
  exists level, minv < level < maxv /\ stretch ys start level i1 i2 /\ Qabs (gap i1 i2 - area) < max_threshold.
Proof.
  revert minv maxv. induction tries as [|k IH]; cbn [max_loop]; intros minv maxv A B C H; [discriminate|].
  assert (E2 : (maxv + minv) / 2 == (1#2) * (maxv + minv)) by field.
  destruct (find_stretch ((maxv + minv) / 2)) as [k1 [k2 [F1 [F2 F3]]]]; [lra|lra|].
  rewrite F1, F2 in H.
  destruct (qltb (Qabs _) max_threshold) eqn:ET in H.
  - apply qlt_true in ET. injection H as <- <-. exists ((maxv + minv) / 2). split; [lra|]. split; [exact F3|exact ET].
  - destruct (qltb _ area) eqn:EA in H.
    + destruct (IH minv ((maxv + minv) / 2)) as [lv [P1 P2]]; [lra|lra|lra|exact H|]. exists lv. split; [lra|exact P2].
    + destruct (IH ((maxv + minv) / 2) maxv) as [lv [P1 P2]]; [lra|lra|lra|exact H|]. exists lv. split; [lra|exact P2].
Qed.

Lemma max_loop_no_index tries minv maxv :
  0 <= minv -> minv < maxv -> maxv <= at_ ys start ->
  max_loop tries area ys cs start minv maxv <> MaxIndexError.
Proof.
  revert minv maxv. induction tries as [|k IH]; cbn [max_loop]; intros minv maxv A B C; [discriminate|].
  assert (E2 : (maxv + minv) / 2 == (1#2) * (maxv + minv)) by field.
  destruct (find_stretch ((maxv + minv) / 2)) as [k1 [k2 [F1 [F2 F3]]]]; [lra|lra|].
  rewrite F1, F2.
  destruct (qltb (Qabs _) max_threshold); [discriminate|].
  destruct (qltb _ area); apply IH; lra.
Qed.

(** Stretches shrink as the level rises. *)
Lemma stretch_nested v w a b c d : v <= w -> stretch ys start v a b -> stretch ys start w c d -> (a <= c /\ d <= b)%nat.
Proof.
  intros Hvw (A1&A2&A3&A4&A5) (B1&B2&B3&B4&B5). split.
  - destruct (Nat.le_gt_cases a c) as [L|L]; [exact L|exfalso].
    specialize (B3 (a - 1)%nat ltac:(lia)). lra.
  - destruct (Nat.le_gt_cases d b) as [L|L]; [exact L|exfalso].
    specialize (B3 b ltac:(lia)). lra.
Qed.

Hypothesis Hcs : nondecreasing cs.
Hypothesis Hcl : length cs = length ys.

Lemma gap_mono v w a b c d : v <= w -> stretch ys start v a b -> stretch ys start w c d -> gap c d <= gap a b.
Proof.
  intros Hvw S1 S2. destruct (stretch_nested _ _ _ _ _ _ Hvw S1 S2) as [P1 P2].
  destruct S1 as (A1&A2&_), S2 as (B1&B2&_). unfold gap.
  assert (at_ cs a <= at_ cs c) by (apply Hcs; lia). assert (at_ cs d <= at_ cs b) by (apply Hcs; lia).
  unfold at_ in *. lra.
Qed.

(** If the loop gives up, every level whose stretch has the wanted mass lies in a sliver of width
    [(maxv-minv)/2^tries]. *)
Lemma max_loop_unconverged tries minv maxv :
  0 <= minv -> minv < maxv -> maxv <= at_ ys start ->
  (forall v a b, 0 < v <= at_ ys start -> stretch ys start v a b -> Qabs (gap a b - area) < max_threshold -> minv <= v <= maxv) ->
  max_loop tries area ys cs start minv maxv = MaxUnconverged ->
  exists lo hi, minv <= lo /\ lo < hi /\ hi <= maxv /\ hi - lo == half tries (maxv - minv) /\
    forall v a b, 0 < v <= at_ ys start -> stretch ys start v a b -> Qabs (gap a b - area) < max_threshold -> lo <= v <= hi.
Proof.
  revert minv maxv. induction tries as [|k IH]; cbn [max_loop half]; intros minv maxv A B C Hin H.
  { exists minv, maxv. repeat split; try lra; eapply Hin; eassumption. }
  set (mid := (maxv + minv) / 2) in *.
  assert (E2 : mid == (1#2) * (maxv + minv)) by (unfold mid; field).
  destruct (find_stretch mid) as [k1 [k2 [F1 [F2 F3]]]]; [lra|lra|].
  rewrite F1, F2 in H. fold (gap (start - k1) (start + k2)) in H.
  destruct (qltb (Qabs _) max_threshold) eqn:ET in H; [discriminate|]. apply qlt_false in ET.
  destruct (qltb _ area) eqn:EA in H.
  - apply qlt_true in EA.
    assert (EG : gap (start - k1) (start + k2) <= area - max_threshold).
    { rewrite Qabs_neg in ET by lra. lra. }
    destruct (IH minv mid) as [lo [hi (P1&P2&P3&P4&P5)]]; try lra; [|exact H|].
    + intros v a b Hv Sv Gv. specialize (Hin v a b Hv Sv Gv). split; [lra|].
      destruct (Qlt_le_dec mid v) as [L|L]; [exfalso|exact L].
      pose proof (gap_mono mid v _ _ _ _ (Qlt_le_weak _ _ L) F3 Sv) as G.
      assert (Qabs (gap a b - area) == -(gap a b - area)).
      { apply Qabs_neg. unfold max_threshold in *. lra. }
      rewrite H1 in Gv. unfold max_threshold in *. lra.
    + exists lo, hi. repeat split; try lra; [|eapply P5; eassumption|eapply P5; eassumption].
      rewrite P4. apply half_Qeq. rewrite E2. field.
  - apply qlt_false in EA.
    assert (EG : area + max_threshold <= gap (start - k1) (start + k2)).
    { rewrite Qabs_pos in ET by lra. lra. }
    destruct (IH mid maxv) as [lo [hi (P1&P2&P3&P4&P5)]]; try lra; [|exact H|].
    + intros v a b Hv Sv Gv. specialize (Hin v a b Hv Sv Gv). split; [|lra].
      destruct (Qlt_le_dec v mid) as [L|L]; [exfalso|exact L].
      pose proof (gap_mono v mid _ _ _ _ (Qlt_le_weak _ _ L) Sv F3) as G.
      assert (Qabs (gap a b - area) == (gap a b - area)).
      { apply Qabs_pos. unfold max_threshold in *. lra. }
      rewrite H1 in Gv. unfold max_threshold in *. lra.
    + exists lo, hi. repeat split; try lra; [|eapply P5; eassumption|eapply P5; eassumption].
      rewrite P4. apply half_Qeq. rewrite E2. field.
Qed.
End Loop.

(** The padded curve. *)
Lemma linspace_ramp a b n : (2 <= n)%nat -> ramp a b n (linspace a b n).
Proof.
  intros Hn. split; [apply linspace_length|]. intros i Hi. rewrite linspace_at by lia.
  fold (nq i) (nq (n - 1)). assert (0 < nq (n - 1)) by (apply nq_pos; lia). field. lra.
Qed.
Lemma hd_at (l : list Q) : hd 0 l = at_ l 0.
Proof. destruct l; reflexivity. Qed.

Lemma pad_padded n xs ys : (2 <= n)%nat -> xs <> [] -> ys <> [] -> padded n xs ys (pad_xs n xs) (pad_ys n ys).
Proof.
  intros Hn Hx Hy. exists (linspace 0 (hd 0 ys) n), (linspace (last ys 0) 0 n).
  rewrite !hd_at, !last_at by assumption. repeat split; try (apply linspace_ramp; exact Hn).
  - unfold pad_ys. rewrite !hd_at, last_at by exact Hy. reflexivity.
  - unfold pad_xs. rewrite hd_at, last_at by exact Hx. reflexivity.
Qed.

Section Padded.
Variables (n : nat) (xs ys cs pxs pys : list Q).
Hypothesis Hn : (2 <= n)%nat.
Hypothesis HM : marginal_ok xs ys cs.
Hypothesis HP : padded n xs ys pxs pys.

Lemma padded_len : length pys = (n + length xs + n)%nat /\ length pxs = (n + length xs + n)%nat.
Proof.
  destruct (mok_lens _ _ _ HM) as [L1 [L2 L3]].
  destruct HP as [up [down [[U1 U2] [[D1 D2] [-> ->]]]]].
  rewrite !app_length, !repeat_length. lia.
Qed.
Lemma padded_nonneg : all_nonneg pys.
Proof.
  destruct (mok_lens _ _ _ HM) as [L1 [L2 L3]].
  destruct HP as [up [down [[U1 U2] [[D1 D2] [-> ->]]]]].
  assert (Hr : forall a i, (i < n)%nat -> 0 <= a -> 0 <= a * (inject_Z (Z.of_nat i) / inject_Z (Z.of_nat (n - 1))) <= a).
  { intros a i Hi Ha. fold (nq i) (nq (n-1)). assert (0 < nq (n-1)) by (apply nq_pos; lia).
    assert (0 <= nq i / nq (n-1)) by (apply Qle_shift_div_l; [assumption|rewrite Qmult_0_l; apply nq_nonneg]).
    assert (nq i / nq (n-1) <= 1) by (apply Qle_shift_div_r; [assumption|rewrite Qmult_1_l; apply nq_le; lia]).
    split; nra. }
  intros y Hy. apply in_app_or in Hy. destruct Hy as [Hy|Hy].
  - destruct (In_at _ _ Hy) as [i [Hi <-]]. rewrite U2 by lia.
    pose proof (Hr (at_ ys 0) i ltac:(lia) (all_nonneg_at _ _ (mok_nonneg _ _ _ HM))). 
    assert (E : 0 + (at_ ys 0 - 0) * (inject_Z (Z.of_nat i) / inject_Z (Z.of_nat (n - 1))) ==
      at_ ys 0 * (inject_Z (Z.of_nat i) / inject_Z (Z.of_nat (n - 1)))) by ring. rewrite E. tauto.
  - apply in_app_or in Hy. destruct Hy as [Hy|Hy].
    + apply (mok_nonneg _ _ _ HM); exact Hy.
    + destruct (In_at _ _ Hy) as [i [Hi <-]]. rewrite D2 by lia.
      set (a := at_ ys (length ys - 1)).
      pose proof (Hr a i ltac:(lia) (all_nonneg_at _ _ (mok_nonneg _ _ _ HM))) as R.
      assert (E : a + (0 - a) * (inject_Z (Z.of_nat i) / inject_Z (Z.of_nat (n - 1))) ==
        a - a * (inject_Z (Z.of_nat i) / inject_Z (Z.of_nat (n - 1)))) by ring. rewrite E. lra.
Qed.
Lemma padded_le i : (i < n)%nat -> at_ pys i <= at_ ys 0.
Proof.
  intros Hi. destruct HP as [up [down [[U1 U2] [[D1 D2] [-> ->]]]]].
  rewrite at_app_l by lia. rewrite U2 by lia.
  fold (nq i) (nq (n-1)). assert (0 < nq (n-1)) by (apply nq_pos; lia).
  assert (nq i / nq (n-1) <= 1) by (apply Qle_shift_div_r; [assumption|rewrite Qmult_1_l; apply nq_le; lia]).
  assert (0 <= at_ ys 0) by (apply all_nonneg_at, (mok_nonneg _ _ _ HM)). nra.
Qed.
Lemma padded_le_last i : (n + length xs <= i)%nat -> at_ pys i <= at_ ys (length ys - 1).
Proof.
  intros Hi. destruct (mok_lens _ _ _ HM) as [L1 [L2 L3]].
  assert (HA : 0 <= at_ ys (length ys - 1)) by (apply all_nonneg_at, (mok_nonneg _ _ _ HM)).
  destruct (Nat.lt_ge_cases i (length pys)) as [L|L].
  2:{ unfold at_ at 1. rewrite nth_overflow by exact L. exact HA. }
  destruct padded_len as [LP _]. rewrite LP in L.
  destruct HP as [up [down [[U1 U2] [[D1 D2] [-> ->]]]]].
  rewrite !at_app_r by lia. rewrite D2 by lia.
  set (k := (i - length up - length ys)%nat). fold (nq k) (nq (n-1)).
  assert (0 < nq (n-1)) by (apply nq_pos; lia).
  assert (0 <= nq k / nq (n-1)) by (apply Qle_shift_div_l; [assumption|rewrite Qmult_0_l; apply nq_nonneg]). nra.
Qed.
Lemma padded_mid i : (i < length xs)%nat -> at_ pys (n + i) = at_ ys i /\ at_ pxs (n + i) = at_ xs i.
Proof.
  intros Hi. destruct (mok_lens _ _ _ HM) as [L1 [L2 L3]].
  destruct HP as [up [down [[U1 U2] [[D1 D2] [-> ->]]]]]. split.
  - rewrite at_app_r by lia. rewrite U1. replace (n + i - n)%nat with i by lia. apply at_app_l; lia.
  - rewrite at_app_r by (rewrite repeat_length; lia). rewrite repeat_length.
    replace (n + i - n)%nat with i by lia. apply at_app_l; lia.
Qed.
Lemma padded_xs_left i : (i < n)%nat -> at_ pxs i = at_ xs 0.
Proof.
  intros Hi. destruct HP as [up [down [_ [_ [_ ->]]]]]. rewrite at_app_l by (rewrite repeat_length; lia).
  unfold at_. rewrite (nth_indep _ 0 (nth 0 xs 0)) by (rewrite repeat_length; lia). apply nth_repeat.
Qed.
Lemma padded_xs_right i : (n + length xs <= i < n + length xs + n)%nat -> at_ pxs i = at_ xs (length xs - 1).
Proof.
  intros Hi. destruct HP as [up [down [_ [_ [_ ->]]]]]. rewrite !at_app_r by (rewrite ?repeat_length; lia).
  rewrite repeat_length. set (v := at_ xs (length xs - 1)). unfold at_.
  rewrite (nth_indep _ 0 v) by (rewrite repeat_length; lia). apply nth_repeat.
Qed.
Lemma padded_first : at_ pys 0 == 0.
Proof.
  destruct HP as [up [down [[U1 U2] [[D1 D2] [-> ->]]]]]. rewrite at_app_l by lia. rewrite U2 by lia.
  change (inject_Z (Z.of_nat 0)) with 0. unfold Qdiv. ring.
Qed.
Lemma padded_last : at_ pys (length pys - 1) == 0.
Proof.
  destruct (mok_lens _ _ _ HM) as [L1 [L2 L3]]. destruct padded_len as [LP _]. rewrite LP.
  destruct HP as [up [down [[U1 U2] [[D1 D2] [-> ->]]]]]. rewrite !at_app_r by lia. rewrite D2 by lia.
  replace (n + length xs + n - 1 - length up - length ys)%nat with (n - 1)%nat by lia.
  fold (nq (n-1)). assert (0 < nq (n-1)) by (apply nq_pos; lia). field. lra.
Qed.
Lemma padded_xs_nd : nondecreasing pxs.
Proof.
  destruct (mok_lens _ _ _ HM) as [L1 [L2 L3]]. destruct padded_len as [_ LP].
  pose proof (increasing_nondecreasing _ (mok_inc _ _ _ HM)) as HX.
  apply nondecreasing_step. intros i Hi. rewrite LP in Hi.
  destruct (Nat.lt_ge_cases (S i) n) as [A|A]; [rewrite !padded_xs_left by lia; lra|].
  destruct (Nat.eq_dec (S i) n) as [B|B].
  { rewrite padded_xs_left by lia. replace (S i) with (n + 0)%nat by lia. rewrite (proj2 (padded_mid 0 ltac:(lia))). lra. }
  destruct (Nat.lt_ge_cases (S i) (n + length xs)) as [C|C].
  { replace i with (n + (i - n))%nat at 1 by lia. replace (S i) with (n + (S i - n))%nat by lia.
    rewrite (proj2 (padded_mid (i - n) ltac:(lia))), (proj2 (padded_mid (S i - n) ltac:(lia))). apply HX; lia. }
  destruct (Nat.eq_dec (S i) (n + length xs)) as [D|D].
  { replace i with (n + (length xs - 1))%nat at 1 by lia. rewrite (proj2 (padded_mid (length xs - 1) ltac:(lia))).
    rewrite padded_xs_right by lia. lra. }
  rewrite !padded_xs_right by lia. lra.
Qed.

(** A highest point of the padded curve is a mode of the original. *)
Lemma padded_mode k : is_first_argmax pys k -> is_mode xs ys (at_ pxs k) /\ 0 < at_ pys k /\ (1 <= k)%nat.
Proof.
  intros [[K1 K2] K3]. destruct (mok_lens _ _ _ HM) as [L1 [L2 L3]]. destruct padded_len as [LP LX].
  assert (HB : forall j, (j < length ys)%nat -> at_ ys j <= at_ pys k).
  { intros j Hj. rewrite <- (proj1 (padded_mid j ltac:(lia))). apply K2. lia. }
  assert (Hpos : 0 < at_ pys k).
  { destruct (Qlt_le_dec 0 (at_ pys k)) as [L|L]; [exact L|exfalso].
    assert (total ys <= 0); [|pose proof (mok_total _ _ _ HM); lra].
    assert (Z0 : forall a len, sum_n (fun _ => 0) a len == 0).
    { intros a len. revert a. induction len as [|len IHl]; intros a; cbn; [reflexivity|]. rewrite IHl. lra. }
    unfold total, sum_range. rewrite <- (Z0 0%nat (length ys - 0)%nat).
    apply sum_n_le. intros i Hi. specialize (HB i ltac:(lia)). lra. }
  split; [|split; [exact Hpos|]].
  - destruct (Nat.lt_ge_cases k n) as [A|A].
    { exists 0%nat. split; [lia|]. split; [rewrite padded_xs_left by exact A; reflexivity|].
      intros j Hj. apply Qle_trans with (at_ pys k); [apply HB; exact Hj|apply padded_le; exact A]. }
    destruct (Nat.lt_ge_cases k (n + length xs)) as [B|B].
    { exists (k - n)%nat. split; [lia|]. destruct (padded_mid (k - n) ltac:(lia)) as [M1 M2].
      replace (n + (k - n))%nat with k in M1, M2 by lia. split; [rewrite M2; reflexivity|].
      intros j Hj. rewrite <- M1. apply HB; exact Hj. }
    exists (length xs - 1)%nat. split; [lia|]. split; [rewrite padded_xs_right by lia; reflexivity|].
    intros j Hj. apply Qle_trans with (at_ pys k); [apply HB; exact Hj|].
    replace (length xs - 1)%nat with (length ys - 1)%nat by lia. apply padded_le_last; exact B.
  - destruct k as [|k]; [|lia]. rewrite padded_first in Hpos. lra.
Qed.
End Padded.

Theorem summary_max_ok : forall n tries area m, (2 <= n)%nat -> mg_ok m ->
  exists pxs pys k, padded n (mg_xs m) (mg_ys m) pxs pys /\ is_first_argmax pys k /\
    is_mode (mg_xs m) (mg_ys m) (at_ pxs k) /\
    ((exists level i1 i2, summary_max n tries area m = Ok (mkB (at_ pxs i1) (at_ pxs k) (at_ pxs i2)) /\
        0 < level < at_ pys k /\ stretch pys k level i1 i2 /\
        Qabs (share pys i1 i2 - area) < 3 # 1000 /\ at_ pxs i1 <= at_ pxs k <= at_ pxs i2)
     \/ (summary_max n tries area m = Ok {| b_lower := None; b_center := Some (at_ pxs k); b_upper := None |} /\
         exists lo hi, 0 <= lo /\ hi <= at_ pys k /\ hi - lo == at_ pys k / inject_Z (2 ^ Z.of_nat tries) /\
         forall level i1 i2, 0 < level <= at_ pys k -> stretch pys k level i1 i2 ->
           Qabs (share pys i1 i2 - area) < 3 # 1000 -> lo <= level <= hi)).
Proof.
  intros n tries area m Hn HM. destruct (mok_lens _ _ _ HM) as [L1 [L2 L3]].
  assert (Nx : mg_xs m <> []) by (intros E; rewrite E in L3; cbn in L3; lia).
  assert (Ny : mg_ys m <> []) by (intros E; rewrite E in L1; cbn in L1; lia).
  set (pxs := pad_xs n (mg_xs m)). set (pys := pad_ys n (mg_ys m)).
  assert (HP : padded n (mg_xs m) (mg_ys m) pxs pys) by (apply pad_padded; assumption).
  assert (LPX : length pys = (n + length (mg_xs m) + n)%nat /\ length pxs = (n + length (mg_xs m) + n)%nat) by (eapply (padded_len n); eassumption).
  destruct LPX as [LP LX].
  assert (HNn : all_nonneg pys) by (eapply (padded_nonneg n); eassumption).
  assert (Np : pys <> []) by (intros E; rewrite E in LP; cbn in LP; lia).
  pose proof (argmax_spec pys Np) as HK. set (k := argmax pys) in *.
  assert (HMD : is_mode (mg_xs m) (mg_ys m) (at_ pxs k) /\ 0 < at_ pys k /\ (1 <= k)%nat) by (eapply (padded_mode n); eassumption).
  destruct HMD as [Hmode [Hpos Hk1]].
  exists pxs, pys, k. split; [exact HP|]. split; [exact HK|]. split; [exact Hmode|].
  assert (Kl : (k < length pys)%nat) by apply HK.
  assert (HT : 0 < total pys).
  { unfold total. assert (E : sum_range (at_ pys) 0 (length pys) ==
      sum_range (at_ pys) 0 k + at_ pys k + sum_range (at_ pys) (S k) (length pys)).
    { rewrite (sum_range_split _ 0 k (length pys)) by lia. rewrite (sum_range_split _ k (S k) (length pys)) by lia.
      rewrite (sum_range_S _ k k) by lia. rewrite sum_range_empty. ring. }
    rewrite E. assert (0 <= sum_range (at_ pys) 0 k) by (apply sum_range_nonneg; intros; apply all_nonneg_at; exact HNn).
    assert (0 <= sum_range (at_ pys) (S k) (length pys)) by (apply sum_range_nonneg; intros; apply all_nonneg_at; exact HNn).
    lra. }
  assert (Lcs : length (cumsum pys) = length pys) by apply cumsum_length.
  assert (EM : qmax_list (hd 0 (cumsum pys)) (tl (cumsum pys)) == total pys).
  { rewrite qmax_list_last; [|apply cumsum_nondecreasing; exact HNn|intros E; rewrite E in Lcs; cbn in Lcs; lia].
    rewrite Lcs, cumsum_at by lia. replace (S (length pys - 1)) with (length pys) by lia. reflexivity. }
  unfold summary_max. fold pxs pys k.
  set (mx := qmax_list (hd 0 (cumsum pys)) (tl (cumsum pys))) in *.
  assert (Qeq_bool mx 0 = false) as -> by (apply qeqb_false; rewrite EM; lra).
  set (cs := map (fun v => v / mx) (cumsum pys)).
  assert (Lc : length cs = length pys) by (unfold cs; rewrite map_length; exact Lcs).
  assert (Hc : forall i, (i < length pys)%nat -> at_ cs i == sum_range (at_ pys) 0 (S i) / total pys).
  { intros i Hi. unfold cs. rewrite at_map by lia. rewrite cumsum_at by exact Hi. rewrite EM. reflexivity. }
  assert (Hcnd : nondecreasing cs).
  { apply nondecreasing_step. intros i Hi. rewrite !Hc by lia. rewrite (sum_range_S _ 0 (S i)) by lia.
    assert (0 <= at_ pys (S i)) by (apply all_nonneg_at; exact HNn).
    apply Qle_shift_div_l; [exact HT|].
    assert (E : sum_range (at_ pys) 0 (S i) / total pys * total pys == sum_range (at_ pys) 0 (S i)) by (field; lra).
    rewrite E. lra. }
  assert (HG : forall i1 i2, (i1 < i2 < length pys)%nat -> gap cs i1 i2 == share pys i1 i2).
  { intros i1 i2 Hi. unfold gap. change (nth i2 cs 0) with (at_ cs i2). change (nth i1 cs 0) with (at_ cs i1).
    rewrite !Hc by lia. rewrite (sum_range_split _ 0 (S i1) (S i2)) by lia. unfold share. field. lra. }
  assert (PF : at_ pys 0 == 0) by (eapply (padded_first n); eassumption).
  assert (PL : at_ pys (length pys - 1) == 0) by (eapply (padded_last n); eassumption).
  assert (PX : nondecreasing pxs) by (eapply (padded_xs_nd n); eassumption).
  change (nth k pys 0) with (at_ pys k). change (nth k pxs 0) with (at_ pxs k).
  destruct (max_loop tries area pys cs k 0 (at_ pys k)) as [i1 i2| |] eqn:EL.
  - left. destruct (max_loop_found area pys cs k Hk1 Kl PF PL _ _ _ _ _ (Qle_refl 0) Hpos (Qle_refl _) EL)
      as [level [V1 [V2 V3]]].
    exists level, i1, i2. pose proof V2 as (W1&W2&_).
    split; [reflexivity|]. split; [exact V1|]. split; [exact V2|]. split.
    + rewrite <- HG by lia. exact V3.
    + split; apply PX; lia.
  - right. split; [reflexivity|].
    destruct (max_loop_unconverged area pys cs k Hk1 Kl PF PL Hcnd Lc tries 0 (at_ pys k) (Qle_refl 0) Hpos (Qle_refl _)) as [lo [hi (P1&P2&P3&P4&P5)]].
    + intros v a b Hv _ _. lra.
    + exact EL.
    + exists lo, hi. split; [exact P1|]. split; [exact P3|]. split; [rewrite P4, <- half_pow; apply half_Qeq; ring|].
      intros level i1 i2 Hl Hst Hsh. apply (P5 level i1 i2 Hl Hst). pose proof Hst as (W1&W2&_).
      rewrite HG by lia. exact Hsh.
  - exfalso. exact (max_loop_no_index area pys cs k Hk1 Kl PF PL tries 0 (at_ pys k) (Qle_refl 0) Hpos (Qle_refl _) EL).
Qed.
