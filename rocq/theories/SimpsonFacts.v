(** Composite Simpson on an evenly spaced grid is a positive linear functional. *)
From Coq Require Import QArith Qabs List Arith ZArith Bool Lia Lqa.
From Verif Require Import Py NumSpec NumModel NumFacts HelpersModel MarginalModel.
Import ListNotations.
Open Scope Q_scope.

Fixpoint dot (ws ys : list Q) : Q :=
  match ws, ys with w :: ws, y :: ys => w * y + dot ws ys | _, _ => 0 end.

Fixpoint sw (h carry : Q) (k : nat) : list Q :=
  match k with
  | O => [carry]
  | S k => (carry + h / 3) :: (4 * h / 3) :: sw h (h / 3) k
  end.
Fixpoint sw_even (h carry : Q) (k : nat) : list Q :=
  match k with
  | O => [carry + h / 3; 4 * h / 3 - h / 12; h / 3 + 2 * h / 3; 5 * h / 12]
  | S k => (carry + h / 3) :: (4 * h / 3) :: sw_even h (h / 3) k
  end.

Lemma sw_length h c k : length (sw h c k) = (2 * k + 1)%nat.
Proof. revert c. induction k as [|k IH]; cbn [sw length]; intros c; [reflexivity|]. rewrite IH. lia. Qed.
Lemma sw_even_length h c k : length (sw_even h c k) = (2 * k + 4)%nat.
Proof. revert c. induction k as [|k IH]; cbn [sw_even length]; intros c; [reflexivity|]. rewrite IH. lia. Qed.

Lemma sw_pos h c k : 0 < h -> 0 < c \/ ((0 < k)%nat /\ 0 <= c) -> forall w, In w (sw h c k) -> 0 < w.
Proof.
  intros Hh. assert (E3 : h / 3 == (1#3) * h) by field. assert (E43 : 4 * h / 3 == (4#3) * h) by field.
  revert c. induction k as [|k IH]; cbn [sw]; intros c Hc w Hw.
  - destruct Hw as [<-|[]]. destruct Hc as [Hc|[Hc _]]; [exact Hc|lia].
  - destruct Hw as [<-|[<-|Hw]]; [destruct Hc as [Hc|[_ Hc]]; lra|lra|].
    apply (IH (h / 3)); [|exact Hw]. left. lra.
Qed.
Lemma sw_even_pos h c k : 0 < h -> 0 <= c -> forall w, In w (sw_even h c k) -> 0 < w.
Proof.
  intros Hh. assert (E3 : h / 3 == (1#3) * h) by field. assert (E43 : 4 * h / 3 == (4#3) * h) by field.
  assert (E12 : h / 12 == (1#12) * h) by field. assert (E23 : 2 * h / 3 == (2#3) * h) by field.
  assert (E5 : 5 * h / 12 == (5#12) * h) by field.
  revert c. induction k as [|k IH]; cbn [sw_even]; intros c Hc w Hw.
  - destruct Hw as [<-|[<-|[<-|[<-|[]]]]]; lra.
  - destruct Hw as [<-|[<-|Hw]]; [lra|lra|]. apply (IH (h / 3)); [lra|exact Hw].
Qed.

Lemma simp_panel_uniform h x0 x1 x2 y0 y1 y2 : 0 < h -> x1 - x0 == h -> x2 - x1 == h ->
  simp_panel x0 x1 x2 y0 y1 y2 == h / 3 * y0 + 4 * h / 3 * y1 + h / 3 * y2.
Proof. intros Hh H1 H2. unfold simp_panel. cbv zeta. rewrite H1, H2. field. lra. Qed.
Lemma simp_corr_uniform h x0 x1 x2 y0 y1 y2 : 0 < h -> x1 - x0 == h -> x2 - x1 == h ->
  simp_corr x0 x1 x2 y0 y1 y2 == 5 * h / 12 * y2 + 2 * h / 3 * y1 - h / 12 * y0.
Proof. intros Hh H1 H2. unfold simp_corr. cbv zeta. rewrite H1, H2. field. lra. Qed.

Definition uniform (h : Q) (xs : list Q) : Prop :=
  forall i, (S i < length xs)%nat -> at_ xs (S i) - at_ xs i == h.
Lemma uniform_tl h x xs : uniform h (x :: xs) -> uniform h xs.
Proof. intros H i Hi. specialize (H (S i)). rewrite !at_cons_S in H. apply H. cbn; lia. Qed.
Lemma uniform_hd h x y xs : uniform h (x :: y :: xs) -> y - x == h.
Proof. intros H. apply (H 0%nat). cbn; lia. Qed.

Lemma basic_simpson_sw h c k : 0 < h -> forall x0 y0 xs ys,
  length xs = (2 * k)%nat -> length ys = (2 * k)%nat -> uniform h (x0 :: xs) ->
  basic_simpson x0 y0 (combine xs ys) + c * y0 == dot (sw h c k) (y0 :: ys).
Proof.
  intros Hh. revert c. induction k as [|k IH]; intros c x0 y0 xs ys Lx Ly HU.
  - destruct xs; [|cbn in Lx; lia]. destruct ys; [|cbn in Ly; lia]. cbn. lra.
  - destruct xs as [|x1 [|x2 xs]]; cbn in Lx; try lia.
    destruct ys as [|y1 [|y2 ys]]; cbn in Ly; try lia.
    cbn [combine basic_simpson sw dot].
    pose proof (uniform_hd _ _ _ _ HU) as U1. pose proof (uniform_tl _ _ _ HU) as HU1.
    pose proof (uniform_hd _ _ _ _ HU1) as U2. pose proof (uniform_tl _ _ _ HU1) as HU2.
    rewrite (simp_panel_uniform h) by assumption.
    rewrite <- (IH (h / 3) x2 y2 xs ys) by (try assumption; lia). ring.
Qed.

(** The even case, as a recursion. *)
Lemma even_simpson_sw h c k : 0 < h -> forall x0 y0 xs ys,
  length xs = (2 * k + 3)%nat -> length ys = (2 * k + 3)%nat -> uniform h (x0 :: xs) ->
  basic_simpson x0 y0 (removelast (combine xs ys)) +
  simp_corr (nth (2 * k + 1) (x0 :: xs) 0) (nth (2 * k + 2) (x0 :: xs) 0) (nth (2 * k + 3) (x0 :: xs) 0)
            (nth (2 * k + 1) (y0 :: ys) 0) (nth (2 * k + 2) (y0 :: ys) 0) (nth (2 * k + 3) (y0 :: ys) 0)
  + c * y0 == dot (sw_even h c k) (y0 :: ys).
Proof.
  intros Hh. revert c. induction k as [|k IH]; intros c x0 y0 xs ys Lx Ly HU.
  - destruct xs as [|x1 [|x2 [|x3 [|? ?]]]]; cbn in Lx; try lia.
    destruct ys as [|y1 [|y2 [|y3 [|? ?]]]]; cbn in Ly; try lia.
    pose proof (uniform_hd _ _ _ _ HU) as U1. pose proof (uniform_tl _ _ _ HU) as HU1.
    pose proof (uniform_hd _ _ _ _ HU1) as U2. pose proof (uniform_tl _ _ _ HU1) as HU2.
    pose proof (uniform_hd _ _ _ _ HU2) as U3.
    cbn [combine removelast basic_simpson Nat.mul Nat.add nth sw_even dot].
    rewrite (simp_panel_uniform h) by assumption. rewrite (simp_corr_uniform h) by assumption. ring.
  - destruct xs as [|x1 [|x2 xs]]; cbn in Lx; try lia.
    destruct ys as [|y1 [|y2 ys]]; cbn in Ly; try lia.
    pose proof (uniform_hd _ _ _ _ HU) as U1. pose proof (uniform_tl _ _ _ HU) as HU1.
    pose proof (uniform_hd _ _ _ _ HU1) as U2. pose proof (uniform_tl _ _ _ HU1) as HU2.
    assert (Lx' : length xs = (2 * k + 3)%nat) by lia. assert (Ly' : length ys = (2 * k + 3)%nat) by lia.
    replace (2 * S k + 1)%nat with (S (S (2 * k + 1))) by lia.
    replace (2 * S k + 2)%nat with (S (S (2 * k + 2))) by lia.
    replace (2 * S k + 3)%nat with (S (S (2 * k + 3))) by lia.
    change (nth (S (S (2 * k + 1))) (x0 :: x1 :: x2 :: xs) 0) with (nth (2 * k + 1) (x2 :: xs) 0).
    change (nth (S (S (2 * k + 2))) (x0 :: x1 :: x2 :: xs) 0) with (nth (2 * k + 2) (x2 :: xs) 0).
    change (nth (S (S (2 * k + 3))) (x0 :: x1 :: x2 :: xs) 0) with (nth (2 * k + 3) (x2 :: xs) 0).
    change (nth (S (S (2 * k + 1))) (y0 :: y1 :: y2 :: ys) 0) with (nth (2 * k + 1) (y2 :: ys) 0).
    change (nth (S (S (2 * k + 2))) (y0 :: y1 :: y2 :: ys) 0) with (nth (2 * k + 2) (y2 :: ys) 0).
    change (nth (S (S (2 * k + 3))) (y0 :: y1 :: y2 :: ys) 0) with (nth (2 * k + 3) (y2 :: ys) 0).
    assert (ER : removelast (combine (x1 :: x2 :: xs) (y1 :: y2 :: ys)) =
                 (x1, y1) :: (x2, y2) :: removelast (combine xs ys)).
    { destruct xs as [|x3 xs]; [cbn in Lx'; lia|]. destruct ys as [|y3 ys]; [cbn in Ly'; lia|]. reflexivity. }
    rewrite ER. cbn [basic_simpson sw_even dot].
    rewrite (simp_panel_uniform h) by assumption.
    rewrite <- (IH (h / 3) x2 y2 xs ys) by assumption. ring.
Qed.

Lemma simpson_weights n h : (2 <= n)%nat -> 0 < h ->
  exists ws, length ws = n /\ (forall w, In w ws -> 0 < w) /\
    forall xs ys, length xs = n -> length ys = n -> uniform h xs -> simpson xs ys == dot ws ys.
Proof.
  intros Hn Hh. destruct (Nat.Even_or_Odd n) as [[k Hk]|[k Hk]].
  - destruct k as [|[|k]]; [lia| |].
    + exists [h / 2; h / 2]. assert (E2 : h / 2 == (1#2) * h) by field. split; [cbn; lia|]. split.
      * intros w [<-|[<-|[]]]; lra.
      * intros xs ys Lx Ly HU. destruct xs as [|x0 [|x1 [|? ?]]]; cbn in Lx; try lia.
        destruct ys as [|y0 [|y1 [|? ?]]]; cbn in Ly; try lia.
        pose proof (uniform_hd _ _ _ _ HU) as U1. unfold simpson. cbn. rewrite U1. field.
    + exists (sw_even h 0 k). split; [rewrite sw_even_length; lia|]. split; [apply sw_even_pos; [exact Hh|lra]|].
      intros xs ys Lx Ly HU. unfold simpson. rewrite Ly.
      assert (Nat.odd n = false) as ->.
      { rewrite <- Nat.negb_even. apply negb_false_iff, Nat.even_spec. exists (S (S k)). exact Hk. }
      destruct xs as [|x0 xs]; [cbn in Lx; lia|]. destruct ys as [|y0 ys]; [cbn in Ly; lia|].
      cbn in Lx, Ly.
      assert (Lx' : length xs = (2 * k + 3)%nat) by lia. assert (Ly' : length ys = (2 * k + 3)%nat) by lia.
      pose proof (even_simpson_sw h 0 k Hh x0 y0 xs ys Lx' Ly' HU) as E.
      replace (n - 3)%nat with (2 * k + 1)%nat by lia. replace (n - 2)%nat with (2 * k + 2)%nat by lia.
      replace (n - 1)%nat with (2 * k + 3)%nat by lia.
      cbn [combine]. destruct xs as [|x1 [|x2 xs]]; cbn in Lx'; try lia.
      destruct ys as [|y1 [|y2 ys]]; cbn in Ly'; try lia.
      cbn [combine] in *. rewrite <- E. ring.
  - exists (sw h 0 k). split; [rewrite sw_length; lia|]. split.
    { apply sw_pos; [exact Hh|]. right. split; [lia|lra]. }
    intros xs ys Lx Ly HU. unfold simpson. rewrite Ly.
    assert (Nat.odd n = true) as -> by (apply Nat.odd_spec; exists k; exact Hk).
    destruct xs as [|x0 xs]; [cbn in Lx; lia|]. destruct ys as [|y0 ys]; [cbn in Ly; lia|].
    cbn [combine]. cbn in Lx, Ly.
    rewrite <- (basic_simpson_sw h 0 k Hh x0 y0 xs ys) by (try assumption; lia). ring.
Qed.

Lemma dot_le ws ys zs : (forall w, In w ws -> 0 < w) -> length ys = length ws -> length zs = length ws ->
  (forall i, (i < length ws)%nat -> at_ ys i <= at_ zs i) -> dot ws ys <= dot ws zs.
Proof.
  revert ys zs. induction ws as [|w ws IH]; intros [|y ys] [|z zs] Hw Ly Lz H; cbn in Ly, Lz; try lia; cbn [dot].
  - lra.
  - assert (dot ws ys <= dot ws zs).
    { apply IH; try lia; [intros; apply Hw; right; assumption|].
      intros i Hi. specialize (H (S i)). rewrite !at_cons_S in H. apply H. cbn; lia. }
    assert (y <= z) by (apply (H 0%nat); cbn; lia).
    assert (0 < w) by (apply Hw; left; reflexivity). nra.
Qed.
Lemma dot_lt ws ys zs : (forall w, In w ws -> 0 < w) -> length ys = length ws -> length zs = length ws ->
  (forall i, (i < length ws)%nat -> at_ ys i <= at_ zs i) ->
  (exists i, (i < length ws)%nat /\ at_ ys i < at_ zs i) -> dot ws ys < dot ws zs.
Proof.
  revert ys zs. induction ws as [|w ws IH]; intros [|y ys] [|z zs] Hw Ly Lz H [i [Hi Hlt]]; cbn in Ly, Lz, Hi; try lia; cbn [dot].
  assert (Hw0 : 0 < w) by (apply Hw; left; reflexivity).
  assert (Hw1 : forall w0, In w0 ws -> 0 < w0) by (intros; apply Hw; right; assumption).
  assert (Hyz : y <= z) by (apply (H 0%nat); cbn; lia).
  assert (HT : forall i, (i < length ws)%nat -> at_ ys i <= at_ zs i).
  { intros k Hk. specialize (H (S k)). rewrite !at_cons_S in H. apply H. cbn; lia. }
  destruct i as [|i].
  - rewrite !at_cons_0 in Hlt. assert (dot ws ys <= dot ws zs) by (apply dot_le; auto; lia). nra.
  - rewrite !at_cons_S in Hlt. assert (dot ws ys < dot ws zs).
    { apply IH; auto; try lia. exists i. split; [lia|exact Hlt]. }
    nra.
Qed.
Lemma dot_zero ws ys : (forall i, (i < length ws)%nat -> at_ ys i == 0) -> length ys = length ws -> dot ws ys == 0.
Proof.
  revert ys. induction ws as [|w ws IH]; intros [|y ys] H L; cbn in L; try lia; cbn [dot]; [reflexivity|].
  rewrite IH; [|intros i Hi; specialize (H (S i)); rewrite at_cons_S in H; apply H; cbn; lia|lia].
  assert (E : y == 0) by (apply (H 0%nat); cbn; lia). rewrite E. ring.
Qed.
Lemma dot_scal ws ys c : dot ws (map (fun y => y / c) ys) == dot ws ys / c.
Proof.
  revert ys. induction ws as [|w ws IH]; intros [|y ys]; cbn [dot map]; try (unfold Qdiv; ring).
  rewrite IH. unfold Qdiv. ring.
Qed.

Lemma linspace_uniform a b n : (2 <= n)%nat -> uniform ((b - a) / nq (n - 1)) (linspace a b n).
Proof.
  intros H i Hi. rewrite linspace_length in Hi. rewrite !linspace_at by lia. rewrite nq_S. ring.
Qed.
