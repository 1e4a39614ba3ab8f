(** Lemmas about the numeric primitives. *)
From Coq Require Import QArith Qabs Qround List Arith ZArith Bool Lia Lqa.
From Verif Require Import NumSpec NumModel.
Import ListNotations.
Open Scope Q_scope.

Lemma qle_true x y : Qle_bool x y = true <-> x <= y.
Proof. apply Qle_bool_iff. Qed.
Lemma qle_false x y : Qle_bool x y = false <-> y < x.
Proof.
  rewrite <- not_true_iff_false, qle_true. split; intros H; [apply Qnot_le_lt; exact H|].
  apply Qlt_not_le; exact H.
Qed.
Lemma qlt_true x y : qltb x y = true <-> x < y.
Proof. unfold qltb. rewrite negb_true_iff. apply qle_false. Qed.
Lemma qlt_false x y : qltb x y = false <-> y <= x.
Proof. unfold qltb. rewrite negb_false_iff. apply qle_true. Qed.
Lemma qeqb_true x y : Qeq_bool x y = true <-> x == y.
Proof. apply Qeq_bool_iff. Qed.
Lemma qeqb_false x y : Qeq_bool x y = false <-> ~ x == y.
Proof. rewrite <- not_true_iff_false, qeqb_true. tauto. Qed.

Lemma nq_S n : nq (S n) == nq n + 1.
Proof. unfold nq. rewrite Nat2Z.inj_succ, <- Z.add_1_r, inject_Z_plus. reflexivity. Qed.
Lemma nq_nonneg n : 0 <= nq n.
Proof. unfold nq. change 0 with (inject_Z 0). rewrite <- Zle_Qle. lia. Qed.
Lemma nq_pos n : (0 < n)%nat -> 0 < nq n.
Proof. intros H. unfold nq. change 0 with (inject_Z 0). rewrite <- Zlt_Qlt. lia. Qed.
Lemma nq_le a b : (a <= b)%nat -> nq a <= nq b.
Proof. intros H. unfold nq. rewrite <- Zle_Qle. lia. Qed.
Lemma nq_lt a b : (a < b)%nat -> nq a < nq b.
Proof. intros H. unfold nq. rewrite <- Zlt_Qlt. lia. Qed.
Lemma nq_plus a b : nq (a + b) == nq a + nq b.
Proof. unfold nq. rewrite Nat2Z.inj_add, inject_Z_plus. reflexivity. Qed.

Lemma at_cons_0 x l : at_ (x :: l) 0 = x. Proof. reflexivity. Qed.
Lemma at_cons_S x l i : at_ (x :: l) (S i) = at_ l i. Proof. reflexivity. Qed.
Lemma at_app_l l m i : (i < length l)%nat -> at_ (l ++ m) i = at_ l i.
Proof. intros H. unfold at_. apply app_nth1; exact H. Qed.
Lemma at_app_r l m i : (length l <= i)%nat -> at_ (l ++ m) i = at_ m (i - length l).
Proof. intros H. unfold at_. apply app_nth2; lia. Qed.
Lemma at_In l i : (i < length l)%nat -> In (at_ l i) l.
Proof. intros H. apply nth_In; exact H. Qed.
Lemma In_at l x : In x l -> exists i, (i < length l)%nat /\ at_ l i = x.
Proof. intros H. destruct (In_nth l x 0 H) as [i [H1 H2]]. exists i; auto. Qed.
Lemma last_at l d : l <> [] -> last l d = at_ l (length l - 1).
Proof.
  intros H. destruct (exists_last H) as [l' [x ->]].
  rewrite last_last, app_length. cbn. unfold at_.
  rewrite app_nth2 by lia. replace (_ - _)%nat with 0%nat by lia. reflexivity.
Qed.

Lemma all_nonneg_at l i : all_nonneg l -> 0 <= at_ l i.
Proof.
  intros H. destruct (Nat.lt_ge_cases i (length l)) as [L|L].
  - apply H. apply at_In; exact L.
  - unfold at_. rewrite nth_overflow by exact L. lra.
Qed.

Lemma increasing_nondecreasing l : increasing l -> nondecreasing l.
Proof.
  intros H i j Hij Hj. destruct (Nat.eq_dec i j) as [->|N]; [lra|].
  apply Qlt_le_weak, H; lia.
Qed.

(** step-wise criteria *)
Lemma nondecreasing_step l :
  (forall i, (S i < length l)%nat -> at_ l i <= at_ l (S i)) -> nondecreasing l.
Proof.
  intros H i j Hij Hj. induction Hij as [|j Hij IH]; [lra|].
  apply Qle_trans with (at_ l j); [apply IH; lia | apply H; lia].
Qed.
Lemma increasing_step l :
  (forall i, (S i < length l)%nat -> at_ l i < at_ l (S i)) -> increasing l.
Proof.
  intros H i j Hij Hj. induction Hij as [|j Hij IH]; [apply H; lia|].
  apply Qlt_trans with (at_ l j); [apply IH; lia | apply H; lia].
Qed.

(** sums *)
Lemma sum_n_ext f g a n : (forall i, (a <= i < a + n)%nat -> f i == g i) -> sum_n f a n == sum_n g a n.
Proof.
  revert a. induction n as [|n IH]; cbn; intros a H; [reflexivity|].
  rewrite H by lia. rewrite IH; [reflexivity|]. intros i Hi; apply H; lia.
Qed.
Lemma sum_n_split f a m n : sum_n f a (m + n) == sum_n f a m + sum_n f (a + m) n.
Proof.
  revert a. induction m as [|m IH]; cbn; intros a.
  - rewrite Nat.add_0_r. lra.
  - rewrite IH. replace (a + S m)%nat with (S a + m)%nat by lia. lra.
Qed.
Lemma sum_n_shift f a n : sum_n f (S a) n == sum_n (fun i => f (S i)) a n.
Proof. revert a. induction n as [|n IH]; cbn; intros a; [reflexivity|]. rewrite IH. reflexivity. Qed.
Lemma sum_n_nonneg f a n : (forall i, (a <= i < a + n)%nat -> 0 <= f i) -> 0 <= sum_n f a n.
Proof.
  revert a. induction n as [|n IH]; cbn; intros a H; [lra|].
  assert (0 <= f a) by (apply H; lia).
  assert (0 <= sum_n f (S a) n) by (apply IH; intros; apply H; lia). lra.
Qed.
Lemma sum_n_le f g a n : (forall i, (a <= i < a + n)%nat -> f i <= g i) -> sum_n f a n <= sum_n g a n.
Proof.
  revert a. induction n as [|n IH]; cbn; intros a H; [lra|].
  assert (f a <= g a) by (apply H; lia).
  assert (sum_n f (S a) n <= sum_n g (S a) n) by (apply IH; intros; apply H; lia). lra.
Qed.
Lemma sum_n_scal c f a n : sum_n (fun i => c * f i) a n == c * sum_n f a n.
Proof. revert a. induction n as [|n IH]; cbn; intros a; [lra|]. rewrite IH. lra. Qed.
Lemma sum_n_plus f g a n : sum_n (fun i => f i + g i) a n == sum_n f a n + sum_n g a n.
Proof. revert a. induction n as [|n IH]; cbn; intros a; [lra|]. rewrite IH. lra. Qed.
Lemma sum_n_last f a n : sum_n f a (S n) == sum_n f a n + f (a + n)%nat.
Proof.
  replace (S n) with (n + 1)%nat by lia. rewrite sum_n_split. cbn. lra.
Qed.

Lemma sum_range_split f a b c : (a <= b)%nat -> (b <= c)%nat ->
  sum_range f a c == sum_range f a b + sum_range f b c.
Proof.
  intros H1 H2. unfold sum_range. replace (c - a)%nat with ((b - a) + (c - b))%nat by lia.
  rewrite sum_n_split. replace (a + (b - a))%nat with b by lia. reflexivity.
Qed.
Lemma sum_range_nonneg f a b : (forall i, (a <= i < b)%nat -> 0 <= f i) -> 0 <= sum_range f a b.
Proof. intros H. apply sum_n_nonneg. intros i Hi. apply H. lia. Qed.
Lemma sum_range_ext f g a b : (forall i, (a <= i < b)%nat -> f i == g i) -> sum_range f a b == sum_range g a b.
Proof. intros H. apply sum_n_ext. intros i Hi. apply H. lia. Qed.
Lemma sum_range_S f a b : (a <= b)%nat -> sum_range f a (S b) == sum_range f a b + f b.
Proof.
  intros H. rewrite (sum_range_split f a b (S b)) by lia.
  unfold sum_range at 2. replace (S b - b)%nat with 1%nat by lia. cbn. lra.
Qed.
Lemma sum_range_empty f a : sum_range f a a == 0.
Proof. unfold sum_range. rewrite Nat.sub_diag. reflexivity. Qed.

Lemma total_cons x l : total (x :: l) == x + total l.
Proof.
  unfold total, sum_range. cbn [length]. rewrite !Nat.sub_0_r. cbn [sum_n].
  rewrite sum_n_shift. reflexivity.
Qed.
Lemma qsum_total l : qsum l == total l.
Proof. induction l as [|x r IH]; [reflexivity|]. rewrite total_cons, <- IH. reflexivity. Qed.
Lemma qsum_app l m : qsum (l ++ m) == qsum l + qsum m.
Proof. induction l as [|x r IH]; cbn; [lra|]. rewrite IH. lra. Qed.
Lemma qsum_nonneg l : all_nonneg l -> 0 <= qsum l.
Proof.
  induction l as [|x r IH]; cbn; intros H; [lra|].
  assert (0 <= x) by (apply H; left; reflexivity).
  assert (0 <= qsum r) by (apply IH; intros y Hy; apply H; right; exact Hy). lra.
Qed.

(** cumsum *)
Lemma cumsum_from_length acc l : length (cumsum_from acc l) = length l.
Proof. revert acc. induction l as [|x r IH]; cbn; intros acc; [reflexivity|]. rewrite IH. reflexivity. Qed.
Lemma cumsum_length l : length (cumsum l) = length l.
Proof. apply cumsum_from_length. Qed.
Lemma cumsum_from_at acc l i : (i < length l)%nat ->
  at_ (cumsum_from acc l) i == acc + sum_range (at_ l) 0 (S i).
Proof.
  revert acc i. induction l as [|x r IH]; cbn [length cumsum_from]; intros acc i Hi; [lia|].
  destruct i as [|i].
  - rewrite at_cons_0. unfold sum_range. cbn. rewrite at_cons_0. lra.
  - rewrite at_cons_S, IH by lia. unfold sum_range.
    replace (S (S i) - 0)%nat with (S (S i)) by lia. replace (S i - 0)%nat with (S i) by lia.
    change (sum_n (at_ (x :: r)) 0 (S (S i))) with (x + sum_n (at_ (x :: r)) 1 (S i)).
    rewrite (sum_n_shift (at_ (x :: r)) 0).
    change (fun i0 => at_ (x :: r) (S i0)) with (at_ r). lra.
Qed.
Lemma cumsum_at l i : (i < length l)%nat -> at_ (cumsum l) i == sum_range (at_ l) 0 (S i).
Proof. intros H. unfold cumsum. rewrite cumsum_from_at by exact H. lra. Qed.
Lemma cumsum_nondecreasing l : all_nonneg l -> nondecreasing (cumsum l).
Proof.
  intros H. apply nondecreasing_step. intros i Hi. rewrite cumsum_length in Hi.
  rewrite !cumsum_at by lia. rewrite (sum_range_S _ 0 (S i)) by lia.
  pose proof (all_nonneg_at l (S i) H). lra.
Qed.
Lemma cumsum_nonneg l i : all_nonneg l -> 0 <= at_ (cumsum l) i.
Proof.
  intros H. destruct (Nat.lt_ge_cases i (length l)) as [L|L].
  - rewrite cumsum_at by exact L. apply sum_range_nonneg. intros; apply all_nonneg_at; exact H.
  - unfold at_. rewrite nth_overflow by (rewrite cumsum_length; exact L). lra.
Qed.

(** maxima *)
Lemma qmax_list_spec d l : (forall x, In x (d :: l) -> x <= qmax_list d l) /\ In (qmax_list d l) (d :: l).
Proof.
  revert d. induction l as [|y r IH]; cbn [qmax_list]; intros d.
  - split; [intros x [->|[]]; lra | left; reflexivity].
  - destruct (IH (qmax d y)) as [H1 H2].
    assert (Hd : d <= qmax d y /\ y <= qmax d y /\ (qmax d y = d \/ qmax d y = y)).
    { unfold qmax. destruct (Qle_bool d y) eqn:E.
      - apply qle_true in E. repeat split; try lra. right; reflexivity.
      - apply qle_false in E. repeat split; try lra. left; reflexivity. }
    destruct Hd as [Ha [Hb Hc]]. split.
    + intros x [->|[->|Hx]].
      * eapply Qle_trans; [exact Ha|]. apply H1; left; reflexivity.
      * eapply Qle_trans; [exact Hb|]. apply H1; left; reflexivity.
      * apply H1; right; exact Hx.
    + destruct H2 as [H2|H2]; [|right; right; exact H2].
      rewrite <- H2. destruct Hc as [->| ->]; [left; reflexivity | right; left; reflexivity].
Qed.
Lemma qmin_list_spec d l : (forall x, In x (d :: l) -> qmin_list d l <= x) /\ In (qmin_list d l) (d :: l).
Proof.
  revert d. induction l as [|y r IH]; cbn [qmin_list]; intros d.
  - split; [intros x [->|[]]; lra | left; reflexivity].
  - destruct (IH (qmin d y)) as [H1 H2].
    assert (Hd : qmin d y <= d /\ qmin d y <= y /\ (qmin d y = d \/ qmin d y = y)).
    { unfold qmin. destruct (Qle_bool d y) eqn:E.
      - apply qle_true in E. repeat split; try lra. left; reflexivity.
      - apply qle_false in E. repeat split; try lra. right; reflexivity. }
    destruct Hd as [Ha [Hb Hc]]. split.
    + intros x [->|[->|Hx]].
      * eapply Qle_trans; [|exact Ha]. apply H1; left; reflexivity.
      * eapply Qle_trans; [|exact Hb]. apply H1; left; reflexivity.
      * apply H1; right; exact Hx.
    + destruct H2 as [H2|H2]; [|right; right; exact H2].
      rewrite <- H2. destruct Hc as [->| ->]; [left; reflexivity | right; left; reflexivity].
Qed.

(** argmax *)
Lemma argmax_from_spec best bi i l full :
  (bi < i)%nat -> (i <= length full)%nat -> skipn i full = l -> at_ full bi = best ->
  (forall j, (j < i)%nat -> at_ full j <= best) -> (forall j, (j < bi)%nat -> at_ full j < best) ->
  is_first_argmax full (argmax_from best bi i l).
Proof.
  revert best bi i. induction l as [|x r IH]; cbn [argmax_from]; intros best bi i Hbi Hi Hs Hb Hall Hfst.
  - assert (length full <= i)%nat.
    { destruct (Nat.le_gt_cases (length full) i) as [L|L]; [exact L|].
      assert (length (skipn i full) = 0%nat) by (rewrite Hs; reflexivity).
      rewrite skipn_length in H. lia. }
    split; [split; [lia|]|].
    + intros j Hj. rewrite Hb. apply Hall. lia.
    + intros j Hj. rewrite Hb. apply Hfst. exact Hj.
  - assert (Hx : at_ full i = x).
    { unfold at_. replace i with (i + 0)%nat by lia.
      assert (nth 0 (skipn i full) 0 = x) by (rewrite Hs; reflexivity).
      rewrite <- H. clear. revert i. induction full as [|y f IHf]; intros i.
      - rewrite skipn_nil. destruct (i + 0)%nat; reflexivity.
      - destruct i; [reflexivity|]. cbn. apply IHf. }
    assert (Hlt : (i < length full)%nat).
    { destruct (Nat.le_gt_cases (length full) i) as [L|L]; [|exact L].
      rewrite skipn_all2 in Hs by exact L. discriminate. }
    assert (Hs' : skipn (S i) full = r).
    { clear - Hs Hlt. revert i Hs Hlt. induction full as [|y f IHf]; intros i Hs Hlt; [cbn in Hlt; lia|].
      destruct i; cbn in *; [congruence|]. apply IHf; [exact Hs|lia]. }
    destruct (qltb best x) eqn:E.
    + apply qlt_true in E. apply IH; try (assumption || lia).
      * intros j Hj. destruct (Nat.eq_dec j i) as [->|N]; [rewrite Hx; lra|].
        apply Qlt_le_weak. eapply Qle_lt_trans; [apply Hall; lia|exact E].
      * intros j Hj. eapply Qle_lt_trans; [apply Hall; exact Hj|exact E].
    + apply qlt_false in E. apply IH; try (assumption || lia).
      intros j Hj. destruct (Nat.eq_dec j i) as [->|N]; [rewrite Hx; exact E|]. apply Hall; lia.
Qed.
Lemma argmax_spec l : l <> [] -> is_first_argmax l (argmax l).
Proof.
  destruct l as [|x r]; [congruence|]. intros _. cbn [argmax].
  apply argmax_from_spec; cbn; try lia; try reflexivity.
  intros j Hj. replace j with 0%nat by lia. rewrite at_cons_0. lra.
Qed.

(** searchsorted *)
Lemma searchsorted_bound l v : (searchsorted l v <= length l)%nat.
Proof. induction l as [|x r IH]; cbn; [lia|]. destruct (Qle_bool v x); lia. Qed.
Lemma searchsorted_lt l v i : (i < searchsorted l v)%nat -> at_ l i < v.
Proof.
  revert i. induction l as [|x r IH]; cbn; intros i Hi; [lia|].
  destruct (Qle_bool v x) eqn:E; [lia|]. apply qle_false in E.
  destruct i; [exact E|]. apply IH. lia.
Qed.
Lemma searchsorted_ge l v : (searchsorted l v < length l)%nat -> v <= at_ l (searchsorted l v).
Proof.
  induction l as [|x r IH]; cbn; [lia|]. destruct (Qle_bool v x) eqn:E; intros H.
  - apply qle_true in E. exact E.
  - apply IH. lia.
Qed.

(** first_lt / first_gt *)
Lemma first_lt_some l t k : first_lt l t = Some k ->
  (k < length l)%nat /\ at_ l k < t /\ forall i, (i < k)%nat -> t <= at_ l i.
Proof.
  revert k. induction l as [|x r IH]; cbn; intros k H; [discriminate|].
  destruct (qltb x t) eqn:E.
  - injection H as <-. apply qlt_true in E. repeat split; [lia|exact E|]. intros; lia.
  - destruct (first_lt r t) as [k'|]; [|discriminate]. injection H as <-.
    destruct (IH k' eq_refl) as [H1 [H2 H3]]. apply qlt_false in E.
    repeat split; [lia|exact H2|]. intros [|i] Hi; [exact E|]. apply H3. lia.
Qed.
Lemma first_lt_none l t : first_lt l t = None -> forall i, (i < length l)%nat -> t <= at_ l i.
Proof.
  induction l as [|x r IH]; cbn; intros H i Hi; [lia|].
  destruct (qltb x t) eqn:E; [discriminate|]. apply qlt_false in E.
  destruct (first_lt r t); [discriminate|]. destruct i; [exact E|]. apply IH; [reflexivity|lia].
Qed.
Lemma first_gt_some l t k : first_gt l t = Some k ->
  (k < length l)%nat /\ t < at_ l k /\ forall i, (i < k)%nat -> at_ l i <= t.
Proof.
  revert k. induction l as [|x r IH]; cbn; intros k H; [discriminate|].
  destruct (qltb t x) eqn:E.
  - injection H as <-. apply qlt_true in E. repeat split; [lia|exact E|]. intros; lia.
  - destruct (first_gt r t) as [k'|]; [|discriminate]. injection H as <-.
    destruct (IH k' eq_refl) as [H1 [H2 H3]]. apply qlt_false in E.
    repeat split; [lia|exact H2|]. intros [|i] Hi; [exact E|]. apply H3. lia.
Qed.
Lemma first_gt_none l t : first_gt l t = None -> forall i, (i < length l)%nat -> at_ l i <= t.
Proof.
  induction l as [|x r IH]; cbn; intros H i Hi; [lia|].
  destruct (qltb t x) eqn:E; [discriminate|]. apply qlt_false in E.
  destruct (first_gt r t); [discriminate|]. destruct i; [exact E|]. apply IH; [reflexivity|lia].
Qed.

(** linspace *)
Lemma linspace_length a b n : length (linspace a b n) = n.
Proof. destruct n as [|[|n]]; cbn [linspace length]; [reflexivity..|]. rewrite map_length, seq_length. reflexivity. Qed.
Lemma linspace_at a b n i : (i < n)%nat -> (2 <= n)%nat ->
  at_ (linspace a b n) i == a + nq i * ((b - a) / nq (n - 1)).
Proof.
  intros Hi Hn. destruct n as [|[|m]]; try lia.
  replace (S (S m) - 1)%nat with (S m) by lia. unfold linspace, at_.
  set (f := fun i0 : nat => a + nq i0 * ((b - a) / nq (S m))).
  rewrite (nth_indep _ 0 (f 0%nat)) by (rewrite map_length, seq_length; exact Hi).
  rewrite map_nth, seq_nth by exact Hi. rewrite Nat.add_0_l. reflexivity.
Qed.
Lemma linspace_first a b n : (1 <= n)%nat -> at_ (linspace a b n) 0 == a.
Proof.
  intros H. destruct n as [|[|m]]; [lia|reflexivity|].
  rewrite linspace_at by lia. change (nq 0) with 0. ring.
Qed.
Lemma linspace_last a b n : (2 <= n)%nat -> at_ (linspace a b n) (n - 1) == b.
Proof.
  intros H. rewrite linspace_at by lia.
  assert (0 < nq (n - 1)) by (apply nq_pos; lia). field. lra.
Qed.
Lemma linspace_increasing a b n : a < b -> increasing (linspace a b n).
Proof.
  intros H. apply increasing_step. intros i Hi. rewrite linspace_length in Hi.
  rewrite !linspace_at by lia. rewrite nq_S.
  assert (Hp : 0 < nq (n - 1)) by (apply nq_pos; lia).
  assert (0 < (b - a) / nq (n - 1)).
  { apply Qlt_shift_div_l; [exact Hp|]. lra. }
  nra.
Qed.
Lemma linspace_range a b n i : a <= b -> (i < n)%nat -> (2 <= n)%nat -> a <= at_ (linspace a b n) i <= b.
Proof.
  intros H Hi Hn. rewrite linspace_at by lia.
  assert (Hp : 0 < nq (n - 1)) by (apply nq_pos; lia).
  assert (Hd : 0 <= (b - a) / nq (n - 1)).
  { apply Qle_shift_div_l; [exact Hp|]. lra. }
  assert (Hi2 : nq i <= nq (n - 1)) by (apply nq_le; lia).
  pose proof (nq_nonneg i).
  assert (Hm : nq (n - 1) * ((b - a) / nq (n - 1)) == b - a) by (field; lra).
  split; [nra|].
  assert (nq i * ((b - a) / nq (n - 1)) <= nq (n - 1) * ((b - a) / nq (n - 1))).
  { apply Qmult_le_compat_r; assumption. }
  lra.
Qed.
