(** Lemmas about np.interp / interp1d. *)
From Coq Require Import QArith Qabs Qround List Arith ZArith Bool Lia Lqa.
From Verif Require Import NumSpec NumModel NumFacts.
Import ListNotations.
Open Scope Q_scope.

Lemma nondecreasing_tl x l : nondecreasing (x :: l) -> nondecreasing l.
Proof.
  intros H i j Hij Hj. specialize (H (S i) (S j)). rewrite !at_cons_S in H. apply H; cbn; lia.
Qed.
Lemma nondecreasing_hd x y l : nondecreasing (x :: y :: l) -> x <= y.
Proof. intros H. apply (H 0%nat 1%nat); cbn; lia. Qed.

(** Where np.interp evaluates: at the last index [j] with [xp[j] <= x]. *)
Lemma interp_scan_locate x x0 y0 xs ys :
  length xs = length ys -> nondecreasing (x0 :: xs) -> x0 <= x ->
  exists j, (j < length (x0 :: xs))%nat /\ at_ (x0 :: xs) j <= x /\
    (forall k, (j < k < length (x0 :: xs))%nat -> x < at_ (x0 :: xs) k) /\
    ((interp_scan x x0 y0 (combine xs ys) == at_ (y0 :: ys) j /\
      (x == at_ (x0 :: xs) j \/ S j = length (x0 :: xs)))
     \/ ((S j < length (x0 :: xs))%nat /\ at_ (x0 :: xs) j < x < at_ (x0 :: xs) (S j) /\
         interp_scan x x0 y0 (combine xs ys) ==
         (at_ (y0 :: ys) (S j) - at_ (y0 :: ys) j) / (at_ (x0 :: xs) (S j) - at_ (x0 :: xs) j)
           * (x - at_ (x0 :: xs) j) + at_ (y0 :: ys) j)).
Proof.
  revert x0 y0 ys. induction xs as [|x1 xs IH]; intros x0 y0 ys HL HS Hx.
  - destruct ys; [|cbn in HL; lia]. exists 0%nat. repeat split.
    + cbn; lia.
    + exact Hx.
    + cbn; lia.
    + left. split; [reflexivity|right; reflexivity].
  - destruct ys as [|y1 ys]; [cbn in HL; lia|]. cbn [combine interp_scan].
    destruct (Qle_bool x1 x) eqn:E.
    + apply qle_true in E.
      destruct (IH x1 y1 ys) as [j [H1 [H2 [H3 H4]]]];
        [cbn in HL; lia | eapply nondecreasing_tl; exact HS | exact E |].
      exists (S j). rewrite !at_cons_S. repeat split.
      * cbn in *; lia.
      * exact H2.
      * intros [|k] Hk; [lia|]. rewrite at_cons_S. apply H3. cbn in *; lia.
      * destruct H4 as [[H4 H5]|[H4 [H5 H6]]]; [left|right].
        -- split; [exact H4|]. destruct H5 as [H5|H5]; [left; exact H5|right; cbn in *; lia].
        -- split; [cbn in *; lia|]. split; [exact H5|exact H6].
    + apply qle_false in E. exists 0%nat. repeat split.
      * cbn; lia.
      * exact Hx.
      * intros k Hk. apply Qlt_le_trans with x1; [exact E|].
        apply (HS 1%nat k); lia.
      * destruct (Qeq_bool x0 x) eqn:E2.
        -- apply qeqb_true in E2. left. split; [reflexivity|]. left. rewrite at_cons_0. lra.
        -- apply qeqb_false in E2. right. split; [cbn; lia|].
           rewrite !at_cons_S, !at_cons_0. split; [split; [|exact E]|reflexivity].
           destruct (Qlt_le_dec x0 x) as [L|L]; [exact L|]. exfalso. apply E2. lra.
Qed.

Definition last_at_or (l : list Q) := at_ l (length l - 1).

Lemma np_interp_locate x xp fp lft rgt :
  length xp = length fp -> xp <> [] -> nondecreasing xp ->
  at_ xp 0 <= x -> x <= at_ xp (length xp - 1) ->
  exists j, (j < length xp)%nat /\ at_ xp j <= x /\
    (forall k, (j < k < length xp)%nat -> x < at_ xp k) /\
    ((np_interp x xp fp lft rgt == at_ fp j /\ x == at_ xp j)
     \/ ((S j < length xp)%nat /\ at_ xp j < x < at_ xp (S j) /\
         np_interp x xp fp lft rgt ==
         (at_ fp (S j) - at_ fp j) / (at_ xp (S j) - at_ xp j) * (x - at_ xp j) + at_ fp j)).
Proof.
  intros HL HN HS H0 H1. destruct xp as [|x0 xs]; [congruence|].
  destruct fp as [|y0 ys]; [cbn in HL; lia|].
  unfold np_interp. cbn [combine].
  assert (E1 : qltb x x0 = false) by (apply qlt_false; exact H0). rewrite E1.
  assert (E2 : qltb (last (x0 :: xs) x0) x = false).
  { apply qlt_false. rewrite last_at by congruence. exact H1. }
  rewrite E2.
  destruct (interp_scan_locate x x0 y0 xs ys) as [j [A [B [C D]]]];
    [cbn in HL; lia | exact HS | exact H0 |].
  exists j. repeat split; try assumption.
  destruct D as [[D1 D2]|D]; [|right; exact D].
  left. split; [exact D1|]. destruct D2 as [D2|D2]; [exact D2|].
  replace (length (x0 :: xs) - 1)%nat with j in H1 by lia. lra.
Qed.

(** The value lies between the two neighbouring [fp] values. *)
Lemma interp_between a b x0 x1 y0 y1 :
  a == (y1 - y0) / (x1 - x0) * (b - x0) + y0 -> x0 < b < x1 -> y0 <= y1 -> y0 <= a <= y1.
Proof.
  intros -> [H0 H1] Hy.
  assert (Hd : 0 < x1 - x0) by lra.
  set (t := (b - x0) / (x1 - x0)).
  assert (Ht0 : 0 <= t) by (apply Qle_shift_div_l; lra).
  assert (Ht1 : t <= 1) by (apply Qle_shift_div_r; lra).
  assert (E : (y1 - y0) / (x1 - x0) * (b - x0) + y0 == y0 + t * (y1 - y0)).
  { unfold t. field. lra. }
  rewrite E. split; nra.
Qed.

Lemma np_interp_polyline x xp fp lft rgt :
  length xp = length fp -> (2 <= length xp)%nat -> nondecreasing xp ->
  at_ xp 0 <= x -> x <= at_ xp (length xp - 1) ->
  on_polyline xp fp x (np_interp x xp fp lft rgt).
Proof.
  intros HL HN HS H0 H1.
  destruct (np_interp_locate x xp fp lft rgt) as [j [A [B [C D]]]]; try assumption.
  { destruct xp; [cbn in HN; lia|congruence]. }
  destruct D as [[D1 D2]|[D1 [D2 D3]]].
  - destruct (Nat.lt_ge_cases (S j) (length xp)) as [L|L].
    + exists j, 0. repeat split; try lra; exact L.
    + destruct j as [|j]; [lia|]. exists j, 1. repeat split; try lra; lia.
  - exists j, ((x - at_ xp j) / (at_ xp (S j) - at_ xp j)).
    assert (Hd : 0 < at_ xp (S j) - at_ xp j) by lra.
    repeat split; [exact D1| | | |].
    + apply Qle_shift_div_l; lra.
    + apply Qle_shift_div_r; lra.
    + field. lra.
    + rewrite D3. field. lra.
Qed.

(** For a non-decreasing table the interpolation is bracketed and monotone. *)
Lemma np_interp_bracket x xp fp lft rgt :
  length xp = length fp -> xp <> [] -> nondecreasing xp -> nondecreasing fp ->
  at_ xp 0 <= x -> x <= at_ xp (length xp - 1) ->
  (forall i, (i < length xp)%nat -> at_ xp i <= x -> at_ fp i <= np_interp x xp fp lft rgt) /\
  (forall i, (i < length xp)%nat -> x < at_ xp i -> np_interp x xp fp lft rgt <= at_ fp i).
Proof.
  intros HL HN HS HF H0 H1.
  destruct (np_interp_locate x xp fp lft rgt) as [j [A [B [C D]]]]; try assumption.
  split; intros i Hi Hx.
  - assert (Hij : (i <= j)%nat).
    { destruct (Nat.le_gt_cases i j) as [L|L]; [exact L|].
      assert (x < at_ xp i) by (apply C; lia). lra. }
    assert (at_ fp i <= at_ fp j) by (apply HF; lia).
    destruct D as [[D1 D2]|[D1 [D2 D3]]]; [lra|].
    assert (at_ fp j <= np_interp x xp fp lft rgt <= at_ fp (S j)).
    { eapply interp_between; [exact D3|exact D2|apply HF; lia]. }
    lra.
  - assert (Hij : (j < i)%nat).
    { destruct (Nat.le_gt_cases i j) as [L|L]; [|exact L].
      assert (at_ xp i <= at_ xp j) by (apply HS; lia). lra. }
    destruct D as [[D1 D2]|[D1 [D2 D3]]].
    + rewrite D1. apply HF; lia.
    + assert (at_ fp j <= np_interp x xp fp lft rgt <= at_ fp (S j)).
      { eapply interp_between; [exact D3|exact D2|apply HF; lia]. }
      assert (at_ fp (S j) <= at_ fp i) by (apply HF; lia). lra.
Qed.

Lemma np_interp_mono x y xp fp lft rgt :
  length xp = length fp -> xp <> [] -> nondecreasing xp -> nondecreasing fp ->
  at_ xp 0 <= x -> x <= y -> y <= at_ xp (length xp - 1) ->
  np_interp x xp fp lft rgt <= np_interp y xp fp lft rgt.
Proof.
  intros HL HN HS HF H0 Hxy H1.
  destruct (np_interp_locate x xp fp lft rgt) as [j [A [B [C D]]]]; try assumption; try lra.
  destruct (np_interp_locate y xp fp lft rgt) as [k [A' [B' [C' D']]]]; try assumption; try lra.
  assert (Hjk : (j <= k)%nat).
  { destruct (Nat.le_gt_cases j k) as [L|L]; [exact L|].
    assert (y < at_ xp j) by (apply C'; lia). lra. }
  destruct (Nat.eq_dec j k) as [<-|Hne].
  - destruct D as [[D1 D2]|[D1 [D2 D3]]]; destruct D' as [[D1' D2']|[D1' [D2' D3']]]; try lra.
    + assert (at_ fp j <= np_interp y xp fp lft rgt <= at_ fp (S j)).
      { eapply interp_between; [exact D3'|exact D2'|apply HF; lia]. }
      lra.
    + rewrite D3, D3'.
      assert (0 <= (at_ fp (S j) - at_ fp j) / (at_ xp (S j) - at_ xp j)).
      { apply Qle_shift_div_l; [lra|]. assert (at_ fp j <= at_ fp (S j)) by (apply HF; lia). lra. }
      assert (H3 : 0 <= y - x) by lra.
      assert (0 <= (at_ fp (S j) - at_ fp j) / (at_ xp (S j) - at_ xp j) * (y - x)).
      { apply Qmult_le_0_compat; assumption. }
      lra.
  - assert (np_interp x xp fp lft rgt <= at_ fp (S j)).
    { destruct D as [[D1 D2]|[D1 [D2 D3]]].
      - rewrite D1. apply HF; lia.
      - assert (at_ fp j <= np_interp x xp fp lft rgt <= at_ fp (S j)); [|lra].
        eapply interp_between; [exact D3|exact D2|apply HF; lia]. }
    assert (at_ fp (S j) <= at_ fp k) by (apply HF; lia).
    assert (at_ fp k <= np_interp y xp fp lft rgt); [|lra].
    destruct D' as [[D1' D2']|[D1' [D2' D3']]]; [lra|].
    assert (at_ fp k <= np_interp y xp fp lft rgt <= at_ fp (S k)); [|lra].
    eapply interp_between; [exact D3'|exact D2'|apply HF; lia].
Qed.

Lemma interp1d_some xp fp x v :
  interp1d xp fp x = Some v ->
  xp <> [] /\ at_ xp 0 <= x <= at_ xp (length xp - 1) /\ v = np_interp x xp fp 0 0.
Proof.
  unfold interp1d. destruct xp as [|x0 xs]; [discriminate|].
  destruct (qltb x x0) eqn:E1; cbn [orb]; [discriminate|].
  destruct (qltb (last (x0 :: xs) x0) x) eqn:E2; [discriminate|].
  intros H. injection H as <-. apply qlt_false in E1. apply qlt_false in E2.
  rewrite last_at in E2 by congruence. repeat split; [congruence|exact E1|exact E2].
Qed.
Lemma interp1d_none xp fp x :
  interp1d xp fp x = None <-> (xp = [] \/ x < at_ xp 0 \/ at_ xp (length xp - 1) < x).
Proof.
  unfold interp1d. destruct xp as [|x0 xs]; [tauto|].
  rewrite last_at by congruence.
  change (at_ (x0 :: xs) 0) with x0.
  destruct (qltb x x0) eqn:E1; cbn [orb].
  - apply qlt_true in E1. tauto.
  - apply qlt_false in E1.
    destruct (qltb (at_ (x0 :: xs) (length (x0 :: xs) - 1)) x) eqn:E2.
    + apply qlt_true in E2. tauto.
    + apply qlt_false in E2. split; [discriminate|]. intros [H|[H|H]]; [discriminate|lra|lra].
Qed.

(** Interpolating a non-negative table gives non-negative values. *)
Lemma np_interp_nonneg x xp fp lft rgt :
  length xp = length fp -> xp <> [] -> nondecreasing xp -> all_nonneg fp ->
  at_ xp 0 <= x -> x <= at_ xp (length xp - 1) -> 0 <= np_interp x xp fp lft rgt.
Proof.
  intros HL HN HS HF H0 H1.
  destruct (np_interp_locate x xp fp lft rgt) as [j [A [B [C D]]]]; try assumption.
  pose proof (all_nonneg_at fp j HF) as P0. pose proof (all_nonneg_at fp (S j) HF) as P1.
  destruct D as [[D1 D2]|[D1 [D2 D3]]]; [lra|]. rewrite D3.
  assert (Hd : 0 < at_ xp (S j) - at_ xp j) by lra.
  set (t := (x - at_ xp j) / (at_ xp (S j) - at_ xp j)).
  assert (Ht0 : 0 <= t) by (apply Qle_shift_div_l; lra).
  assert (Ht1 : t <= 1) by (apply Qle_shift_div_r; lra).
  assert (E : (at_ fp (S j) - at_ fp j) / (at_ xp (S j) - at_ xp j) * (x - at_ xp j) + at_ fp j
              == t * at_ fp (S j) + (1 - t) * at_ fp j).
  { unfold t. field. lra. }
  rewrite E. assert (0 <= t * at_ fp (S j)) by (apply Qmult_le_0_compat; assumption).
  assert (0 <= (1 - t) * at_ fp j) by (apply Qmult_le_0_compat; [lra|assumption]). lra.
Qed.

Lemma opt_all_some {A} (l : list (option A)) r :
  opt_all l = Some r -> length r = length l /\ forall i d, (i < length l)%nat -> nth i l None = Some (nth i r d).
Proof.
  revert r. induction l as [|[a|] l IH]; cbn; intros r H; try discriminate.
  - injection H as <-. split; [reflexivity|]. intros; lia.
  - destruct (opt_all l) as [r'|]; [|discriminate]. injection H as <-.
    destruct (IH r' eq_refl) as [H1 H2]. split; [cbn; lia|].
    intros [|i] d Hi; [reflexivity|]. cbn. apply H2. lia.
Qed.
