(** Simpson's rule is exact for parabolas. *)
From Coq Require Import QArith List Arith Bool Lia Lqa.
From Verif Require Import NumSpec NumModel MarginalModel.
Import ListNotations.
Open Scope Q_scope.

Section parabola.
Variables a b c : Q.
Let q (x : Q) := a * x * x + b * x + c.
Let F (x : Q) := a / 3 * x * x * x + b / 2 * x * x + c * x.
Lemma panel_exact x0 x1 x2 : x0 < x1 -> x1 < x2 -> simp_panel x0 x1 x2 (q x0) (q x1) (q x2) == F x2 - F x0.
Proof. intros H0 H1. unfold simp_panel, q, F. field. repeat split; intros E; lra. Qed.
Lemma corr_exact x0 x1 x2 : x0 < x1 -> x1 < x2 -> simp_corr x0 x1 x2 (q x0) (q x1) (q x2) == F x2 - F x1.
Proof. intros H0 H1. unfold simp_corr, q, F. field. repeat split; intros E; lra. Qed.
Fixpoint steps (x : Q) (l : list Q) : Prop := match l with [] => True | y :: r => x < y /\ steps y r end.
Lemma basic_exact n : forall l x0, (length l <= n)%nat -> Nat.even (length l) = true -> steps x0 l -> basic_simpson x0 (q x0) (map (fun x => (x, q x)) l) == F (last l x0) - F x0.
Proof.
  induction n as [|n IH]; intros l x0 L E S.
  - destruct l; [|cbn in L; lia]. cbn. ring.
  - destruct l as [|x1 [|x2 l]]; [cbn; ring|discriminate|]. cbn in S. destruct S as [S1 [S2 S3]]. cbn [map basic_simpson].
    rewrite (panel_exact x0 x1 x2 S1 S2), (IH l x2); [|cbn in L; lia|exact E|exact S3].
    assert (EL : last (x1 :: x2 :: l) x0 = last l x2) by (destruct l as [|y l]; [reflexivity|]; cbn [last]; clear; revert y; induction l as [|z l IH]; intros y; [reflexivity|exact (IH z)]).
    rewrite EL. ring.
Qed.
End parabola.

Lemma last_nth {A} (l : list A) x d : last l x = nth (length l) (x :: l) d.
Proof. revert x. induction l as [|y l IH]; intros x; [reflexivity|]. destruct l as [|z l]; [reflexivity|]. change (last (y :: z :: l) x) with (last (z :: l) x). rewrite (IH x). reflexivity. Qed.
Lemma inc_steps x l : increasing (x :: l) -> steps x l.
Proof.
  revert x. induction l as [|y l IH]; intros x H; [exact I|]. split; [apply (H 0%nat 1%nat); cbn; lia|]. apply IH. intros i j Hij Hj. apply (H (S i) (S j)); cbn in *; lia.
Qed.
Lemma removelast_steps l : forall x, steps x l -> steps x (removelast l).
Proof. induction l as [|y l IH]; intros x H; [exact I|]. destruct H as [H1 H2]. destruct l as [|z l]; [exact I|]. cbn [removelast]. split; [exact H1|]. apply (IH y H2). Qed.
Lemma removelast_map {A B} (f : A -> B) l : removelast (map f l) = map f (removelast l).
Proof. induction l as [|x l IH]; [reflexivity|]. destruct l as [|y l]; [reflexivity|]. cbn [map removelast] in *. rewrite IH. reflexivity. Qed.
Lemma removelast_len {A} (l : list A) : length (removelast l) = (length l - 1)%nat.
Proof. induction l as [|x l IH]; [reflexivity|]. destruct l as [|y l]; [reflexivity|]. cbn [removelast length] in *. lia. Qed.
Lemma removelast_nth {A} (l : list A) d : forall i, (i < length l - 1)%nat -> nth i (removelast l) d = nth i l d.
Proof. induction l as [|x l IH]; intros i H; [reflexivity|]. destruct l as [|y l]; [cbn in H; lia|]. destruct i as [|i]; [reflexivity|]. change (nth (S i) (removelast (x :: y :: l)) d) with (nth i (removelast (y :: l)) d). apply IH. cbn in *. lia. Qed.
Lemma simpson_exact : forall xs ys a b c, increasing xs -> (3 <= length xs)%nat -> length ys = length xs ->
  (forall i, (i < length xs)%nat -> at_ ys i = a * at_ xs i * at_ xs i + b * at_ xs i + c) ->
  let F := fun x => a / 3 * x * x * x + b / 2 * x * x + c * x in
  simpson xs ys == F (at_ xs (length xs - 1)) - F (at_ xs 0).
Proof.
  intros xs ys a b c H L LE V F. set (q := fun x => a * x * x + b * x + c).
  assert (EY : ys = map q xs).
  { apply nth_ext with (d := 0) (d' := q 0); [rewrite map_length; exact LE|]. intros i Hi. rewrite LE in Hi. rewrite map_nth. exact (V i Hi). }
  subst ys. clear V LE. destruct xs as [|x0 l]; [cbn in L; lia|]. pose proof (inc_steps _ _ H) as St.
  unfold simpson. rewrite map_length.
  assert (EC : combine (x0 :: l) (map q (x0 :: l)) = map (fun x => (x, q x)) (x0 :: l)) by (clear; generalize (x0 :: l); induction l0 as [|y r IH]; [reflexivity|]; cbn; rewrite IH; reflexivity).
  rewrite EC. cbn [map]. assert (NQ : forall i, nth i (q x0 :: map q l) 0 = nth i (q x0 :: map q l) (q 0) \/ (length (x0 :: l) <= i)%nat).
  { intros i. destruct (Nat.lt_ge_cases i (length (x0 :: l))) as [G|G]; [left|right; exact G]. apply nth_indep. cbn [length] in *. rewrite map_length. exact G. }
  assert (NM : forall i, (i < length (x0 :: l))%nat -> nth i (q x0 :: map q l) 0 = q (nth i (x0 :: l) 0)).
  { intros i G. destruct (NQ i) as [E|E]; [|lia]. rewrite E. change (q x0 :: map q l) with (map q (x0 :: l)). apply map_nth. }
  destruct (Nat.odd (length (x0 :: l))) eqn:O.
  - cbn [length] in O. rewrite Nat.odd_succ in O. refine (Qeq_trans _ _ _ (basic_exact a b c (length l) l x0 (le_n _) O St) _).
    rewrite (last_nth l x0 0). cbn [length]. rewrite Nat.sub_succ, Nat.sub_0_r. reflexivity.
  - assert (NE : exists y1 y2 r, l = y1 :: y2 :: r). { destruct l as [|y1 [|y2 r]]; [cbn in L; lia|cbn in L; lia|]. exists y1, y2, r. reflexivity. }
    destruct NE as [y1 [y2 [r El]]]. set (n := length (x0 :: l)) in *. assert (Ln : n = S (length l)) by reflexivity.
    rewrite (NM (n - 3)%nat), (NM (n - 2)%nat), (NM (n - 1)%nat) by (fold n; lia).
    assert (I1 : nth (n - 3) (x0 :: l) 0 < nth (n - 2) (x0 :: l) 0) by (apply (H (n - 3)%nat (n - 2)%nat); fold n; lia).
    assert (I2 : nth (n - 2) (x0 :: l) 0 < nth (n - 1) (x0 :: l) 0) by (apply (H (n - 2)%nat (n - 1)%nat); fold n; lia).
    rewrite El at 1. cbn [map].
    transitivity (basic_simpson x0 (q x0) (removelast (map (fun x => (x, q x)) l)) + simp_corr (nth (n - 3) (x0 :: l) 0) (nth (n - 2) (x0 :: l) 0) (nth (n - 1) (x0 :: l) 0) (q (nth (n - 3) (x0 :: l) 0)) (q (nth (n - 2) (x0 :: l) 0)) (q (nth (n - 1) (x0 :: l) 0))).
    { rewrite El. cbn [map]. reflexivity. }
    rewrite removelast_map.
    assert (EV : Nat.even (length (removelast l)) = true) by (rewrite removelast_len; rewrite Ln in O; rewrite Nat.odd_succ in O; destruct (length l) as [|m]; [discriminate|]; rewrite Nat.sub_succ, Nat.sub_0_r; rewrite Nat.even_succ in O; rewrite <- Nat.negb_odd, O; reflexivity).
    refine (Qeq_trans _ _ _ (Qplus_comp _ _ (basic_exact a b c (length (removelast l)) (removelast l) x0 (le_n _) EV (removelast_steps _ _ St)) _ _ (corr_exact a b c _ _ _ I1 I2)) _).
    assert (EL : last (removelast l) x0 = nth (n - 2) (x0 :: l) 0).
    { rewrite (last_nth _ x0 0), removelast_len. replace (n - 2)%nat with (length l - 1)%nat by lia. destruct (length l - 1)%nat as [|m] eqn:Em; [reflexivity|]. cbn [nth]. apply removelast_nth. lia. }
    rewrite EL. change (at_ (x0 :: l) (length (x0 :: l) - 1)) with (nth (n - 1) (x0 :: l) 0). change (at_ (x0 :: l) 0) with x0. unfold F, at_. fold n. ring.
Qed.
