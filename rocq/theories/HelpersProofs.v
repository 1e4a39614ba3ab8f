(** Proofs about histograms, extents and bins. *)
From Coq Require Import QArith Qabs Qround List Arith ZArith Bool Lia Lqa.
From Verif Require Import Py NumSpec NumModel NumFacts HelpersSpec HelpersModel.
Import ListNotations.
Open Scope Q_scope.

(** ---- histogram ---- *)
Lemma in_bin_true lo hi c x : in_bin lo hi c x = true <-> lo <= x /\ (x < hi \/ (c = true /\ x <= hi)).
Proof.
  unfold in_bin. rewrite andb_true_iff, orb_true_iff, andb_true_iff, !qle_true, qlt_true. tauto.
Qed.

Lemma hist_bins_length e d : length (hist_bins e d) = (length e - 1)%nat.
Proof.
  induction e as [|lo [|hi r] IH]; cbn [hist_bins length] in *; [reflexivity..|].
  rewrite IH. lia.
Qed.
Lemma bin_centers_length e : length (bin_centers e) = (length e - 1)%nat.
Proof. induction e as [|lo [|hi r] IH]; cbn [bin_centers length] in *; [reflexivity..|]. rewrite IH. lia. Qed.
Lemma bin_widths_length e : length (bin_widths e) = (length e - 1)%nat.
Proof. induction e as [|lo [|hi r] IH]; cbn [bin_widths length] in *; [reflexivity..|]. rewrite IH. lia. Qed.

Lemma bin_centers_at e i : (S i < length e)%nat -> at_ (bin_centers e) i == (1#2) * (at_ e (S i) + at_ e i).
Proof.
  revert i. induction e as [|lo [|hi r] IH]; cbn [length]; intros i Hi; [lia..|].
  change (bin_centers (lo :: hi :: r)) with ((1#2) * (hi + lo) :: bin_centers (hi :: r)).
  destruct i as [|i]; [rewrite !at_cons_S, !at_cons_0; lra|].
  rewrite !at_cons_S. rewrite IH by (cbn; lia). rewrite at_cons_S. reflexivity.
Qed.
Lemma bin_widths_at e i : (S i < length e)%nat -> at_ (bin_widths e) i = at_ e (S i) - at_ e i.
Proof.
  revert i. induction e as [|lo [|hi r] IH]; cbn [length]; intros i Hi; [lia..|].
  change (bin_widths (lo :: hi :: r)) with ((hi - lo) :: bin_widths (hi :: r)).
  destruct i as [|i]; [reflexivity|].
  rewrite !at_cons_S. rewrite IH by (cbn; lia). rewrite at_cons_S. reflexivity.
Qed.

Lemma bin_weight_if lo hi c d : bin_weight lo hi c d == weight_if (in_bin lo hi c) d.
Proof.
  unfold bin_weight. induction d as [|[x w] r IH]; cbn; [reflexivity|]. rewrite IH. reflexivity.
Qed.

Definition bin_test (e : list Q) (i : nat) (x : Q) : bool :=
  in_bin (at_ e i) (at_ e (S i)) (Nat.eqb (S (S i)) (length e)) x.
Lemma bin_test_belongs e i x : (S i < length e)%nat -> bin_test e i x = true <-> belongs e i x.
Proof.
  intros H. unfold bin_test, belongs. rewrite in_bin_true, Nat.eqb_eq. tauto.
Qed.

Lemma hist_bins_at e d i : (S i < length e)%nat ->
  at_ (hist_bins e d) i == weight_if (bin_test e i) d.
Proof.
  revert i. induction e as [|lo [|hi r] IH]; cbn [length]; intros i Hi; [lia..|].
  change (hist_bins (lo :: hi :: r) d) with
    (bin_weight lo hi (match r with [] => true | _ => false end) d :: hist_bins (hi :: r) d).
  destruct i as [|i].
  - rewrite at_cons_0, bin_weight_if. unfold bin_test. rewrite at_cons_S, !at_cons_0.
    destruct r; reflexivity.
  - rewrite at_cons_S, IH by (cbn; lia). unfold bin_test. rewrite !at_cons_S. cbn [length].
    reflexivity.
Qed.

Lemma weight_if_ext p q d : (forall x, In x (map fst d) -> p x = q x) -> weight_if p d == weight_if q d.
Proof.
  induction d as [|[x w] r IH]; cbn; intros H; [reflexivity|].
  rewrite (H x) by (left; reflexivity). rewrite IH; [reflexivity|]. intros; apply H; right; assumption.
Qed.
Lemma weight_if_or p q d : (forall x, p x = true -> q x = true -> False) ->
  weight_if (fun x => p x || q x) d == weight_if p d + weight_if q d.
Proof.
  intros H. induction d as [|[x w] r IH]; cbn; [lra|]. rewrite IH.
  destruct (p x) eqn:E1; destruct (q x) eqn:E2; cbn; try lra. exfalso; eauto.
Qed.
Lemma weight_if_nonneg p d : positive_weights d -> 0 <= weight_if p d.
Proof.
  induction d as [|[x w] r IH]; cbn; intros H; [lra|].
  assert (0 <= weight_if p r) by (apply IH; intros y v Hy; apply (H y v); right; exact Hy).
  assert (0 < w) by (apply (H x w); left; reflexivity). destruct (p x); lra.
Qed.
Lemma weight_if_le p q d : positive_weights d -> (forall x, In x (map fst d) -> p x = true -> q x = true) ->
  weight_if p d <= weight_if q d.
Proof.
  induction d as [|[x w] r IH]; cbn; intros H1 H2; [lra|].
  assert (weight_if p r <= weight_if q r).
  { apply IH; [intros y v Hy; apply (H1 y v); right; exact Hy|intros; apply H2; [right|]; assumption]. }
  assert (0 < w) by (apply (H1 x w); left; reflexivity).
  destruct (p x) eqn:E1; [rewrite (H2 x) by (try (left; reflexivity); assumption); lra|].
  destruct (q x); lra.
Qed.
Lemma weight_if_pos p d x w : positive_weights d -> In (x, w) d -> p x = true -> 0 < weight_if p d.
Proof.
  induction d as [|[y v] r IH]; cbn; intros H1 H2 H3; [tauto|].
  assert (0 <= weight_if p r).
  { apply weight_if_nonneg. intros z u Hz; apply (H1 z u); right; exact Hz. }
  assert (0 < v) by (apply (H1 y v); left; reflexivity).
  destruct H2 as [H2|H2].
  - injection H2 as -> ->. rewrite H3. lra.
  - assert (0 < weight_if p r).
    { apply IH; try assumption. intros z u Hz; apply (H1 z u); right; exact Hz. }
    destruct (p y); lra.
Qed.

(** Every in-range sample is in exactly one bin. *)
Lemma belongs_exists e x : nondecreasing e -> (2 <= length e)%nat ->
  at_ e 0 <= x <= at_ e (length e - 1) -> exists i, belongs e i x.
Proof.
  induction e as [|lo [|hi r] IH]; cbn [length]; intros HS HL [H0 H1]; [lia..|].
  destruct (Qlt_le_dec x hi) as [L|L].
  - exists 0%nat. split; [cbn; lia|]. split; [exact H0|]. left. exact L.
  - destruct r as [|hi2 r].
    + exists 0%nat. split; [cbn; lia|]. split; [exact H0|]. right. split; [reflexivity|exact H1].
    + destruct IH as [i [Hi1 [Hi2 Hi3]]].
      * intros i j Hij Hj. specialize (HS (S i) (S j)). rewrite !at_cons_S in HS. apply HS; cbn in *; lia.
      * cbn; lia.
      * split; [exact L|]. exact H1.
      * exists (S i). split; [cbn in *; lia|]. rewrite !at_cons_S. split; [exact Hi2|].
        destruct Hi3 as [Hi3|[Hi3 Hi4]]; [left; exact Hi3|right]. split; [cbn in *; lia|exact Hi4].
Qed.
Lemma belongs_unique e x i j : nondecreasing e -> belongs e i x -> belongs e j x -> i = j.
Proof.
  intros HS [A1 [A2 A3]] [B1 [B2 B3]].
  destruct (Nat.lt_trichotomy i j) as [L|[E|L]]; [exfalso|exact E|exfalso].
  - assert (at_ e (S i) <= at_ e j) by (apply HS; lia). destruct A3 as [A3|[A3 _]]; [lra|lia].
  - assert (at_ e (S j) <= at_ e i) by (apply HS; lia). destruct B3 as [B3|[B3 _]]; [lra|lia].
Qed.
Lemma belongs_range e x i : nondecreasing e -> belongs e i x -> at_ e 0 <= x <= at_ e (length e - 1).
Proof.
  intros HS [A1 [A2 A3]]. assert (at_ e 0 <= at_ e i) by (apply HS; lia).
  assert (at_ e (S i) <= at_ e (length e - 1)) by (apply HS; lia).
  destruct A3 as [A3|[_ A3]]; lra.
Qed.

(** Prefix sums of the histogram are the weight below the bin's upper edge. *)
Definition below_bin (e : list Q) (k : nat) (x : Q) : bool :=
  Qle_bool (at_ e 0) x && (qltb x (at_ e k) || (Nat.eqb (S k) (length e) && Qle_bool x (at_ e k))).
Lemma hist_prefix e d k : nondecreasing e -> (1 <= k)%nat -> (k < length e)%nat ->
  sum_range (at_ (hist_bins e d)) 0 k == weight_if (below_bin e k) d.
Proof.
  intros HS H1. induction k as [|k IH]; [lia|]. intros Hk.
  destruct k as [|k].
  - unfold sum_range. change (1 - 0)%nat with 1%nat. cbn [sum_n]. rewrite hist_bins_at by lia.
    rewrite Qplus_0_r. apply weight_if_ext. intros x _. reflexivity.
  - rewrite sum_range_S by lia. rewrite IH by lia. rewrite hist_bins_at by lia.
    rewrite <- weight_if_or.
    + apply weight_if_ext. intros x _. unfold below_bin, bin_test.
      assert (A : at_ e 0 <= at_ e (S k)) by (apply HS; lia).
      assert (B : at_ e (S k) <= at_ e (S (S k))) by (apply HS; lia).
      replace (Nat.eqb (S (S k)) (length e)) with false by (symmetry; apply Nat.eqb_neq; lia).
      cbn [andb]. rewrite orb_false_r.
      apply eq_true_iff_eq. rewrite orb_true_iff, !andb_true_iff, in_bin_true, orb_true_iff, andb_true_iff,
        !qle_true, !qlt_true.
      destruct (Qlt_le_dec x (at_ e (S k))) as [L|L]; split; intros H.
      * destruct H as [[H2 H3]|[H2 H3]]; [|lra]. split; [exact H2|]. left. lra.
      * left. split; [apply H|exact L].
      * destruct H as [[H2 H3]|[H2 H3]]; [lra|]. split; [lra|]. tauto.
      * right. split; [exact L|]. tauto.
    + intros x. unfold below_bin, bin_test. intros H2 H3.
      replace (Nat.eqb (S (S k)) (length e)) with false in H2 by (symmetry; apply Nat.eqb_neq; lia).
      cbn [andb] in H2. rewrite orb_false_r, andb_true_iff, qle_true, qlt_true in H2.
      apply in_bin_true in H3. lra.
Qed.

Lemma hist_total e d : nondecreasing e -> (2 <= length e)%nat ->
  total (hist_bins e d) == weight_if (fun x => Qle_bool (at_ e 0) x && Qle_bool x (at_ e (length e - 1))) d.
Proof.
  intros HS HL. unfold total. rewrite hist_bins_length, hist_prefix by (try assumption; lia).
  apply weight_if_ext. intros x _. unfold below_bin.
  replace (Nat.eqb (S (length e - 1)) (length e)) with true by (symmetry; apply Nat.eqb_eq; lia).
  cbn [andb]. apply eq_true_iff_eq. rewrite !andb_true_iff, orb_true_iff, !qle_true, qlt_true.
  split; intros [H1 H2]; split; try exact H1; [destruct H2; lra|right; exact H2].
Qed.

Lemma hist_nonneg e d : positive_weights d -> all_nonneg (hist_bins e d).
Proof.
  intros HW x Hx. destruct (In_at _ _ Hx) as [i [Hi <-]]. rewrite hist_bins_length in Hi.
  rewrite hist_bins_at by lia. apply weight_if_nonneg; exact HW.
Qed.

(** ---- np.unique ---- *)
Inductive qsorted : list Q -> Prop :=
| qs_nil : qsorted []
| qs_one x : qsorted [x]
| qs_cons x y l : x < y -> qsorted (y :: l) -> qsorted (x :: y :: l).

Lemma qsorted_increasing l : qsorted l -> increasing l.
Proof.
  intros H. apply increasing_step. induction H as [|x|x y l Hxy H IH]; intros i Hi; cbn in Hi; try lia.
  destruct i as [|i]; [exact Hxy|]. rewrite !(at_cons_S x). apply IH. cbn; lia.
Qed.
Lemma qsorted_tl x l : qsorted (x :: l) -> qsorted l.
Proof. intros H. inversion H; [constructor|assumption]. Qed.

Lemma insert_uniq_sorted x l : qsorted l -> qsorted (insert_uniq x l).
Proof.
  intros H. induction H as [|y|y z l Hyz H IH]; cbn [insert_uniq].
  - constructor.
  - destruct (qltb x y) eqn:E1; [apply qlt_true in E1; constructor; [exact E1|constructor]|].
    destruct (Qeq_bool x y) eqn:E2; [constructor|]. apply qlt_false in E1. apply qeqb_false in E2.
    constructor; [|constructor]. destruct (Qlt_le_dec y x) as [L|L]; [exact L|]. exfalso; apply E2; lra.
  - destruct (qltb x y) eqn:E1; [apply qlt_true in E1; constructor; [exact E1|constructor; assumption]|].
    destruct (Qeq_bool x y) eqn:E2; [constructor; assumption|]. apply qlt_false in E1. apply qeqb_false in E2.
    assert (L : y < x).
    { destruct (Qlt_le_dec y x) as [L|L]; [exact L|]. exfalso; apply E2; lra. }
    cbn [insert_uniq] in IH. destruct (qltb x z) eqn:E3.
    + constructor; [exact L|exact IH].
    + destruct (Qeq_bool x z) eqn:E4; constructor; assumption.
Qed.
Lemma np_unique_sorted l : qsorted (np_unique l).
Proof. induction l as [|x r IH]; cbn; [constructor|]. apply insert_uniq_sorted; exact IH. Qed.

(** membership up to numeric equality *)
Definition Qin (x : Q) (l : list Q) : Prop := exists y, In y l /\ y == x.
Lemma insert_uniq_in x y l : Qin y (insert_uniq x l) <-> (x == y \/ Qin y l).
Proof.
  induction l as [|z r IH]; cbn [insert_uniq].
  - split.
    + intros [u [[<-|[]] E]]. left; exact E.
    + intros [E|[u [[] _]]]. exists x. split; [left; reflexivity|exact E].
  - destruct (qltb x z) eqn:E1; [|destruct (Qeq_bool x z) eqn:E2].
    + split.
      * intros [u [[<-|Hu] E]]; [left; exact E|right; exists u; auto].
      * intros [E|[u [Hu E]]]; [exists x; split; [left; reflexivity|exact E]|exists u; split; [right|]; assumption].
    + apply qeqb_true in E2. split.
      * intros H; right; exact H.
      * intros [E|H]; [exists z; split; [left; reflexivity|lra]|exact H].
    + split.
      * intros [u [[<-|Hu] E]]; [right; exists z; split; [left; reflexivity|exact E]|].
        assert (Qin y (insert_uniq x r)) as H by (exists u; auto). apply IH in H.
        destruct H as [H|[v [Hv Ev]]]; [left; exact H|right; exists v; split; [right|]; assumption].
      * intros [E|[u [[<-|Hu] E]]].
        -- destruct (proj2 IH (or_introl E)) as [v [Hv Ev]]. exists v; split; [right|]; assumption.
        -- exists z; split; [left; reflexivity|exact E].
        -- destruct (proj2 IH (or_intror (ex_intro _ u (conj Hu E)))) as [v [Hv Ev]].
           exists v; split; [right|]; assumption.
Qed.
Lemma np_unique_in y l : Qin y (np_unique l) <-> Qin y l.
Proof.
  induction l as [|x r IH]; cbn [np_unique fold_right]; [reflexivity|].
  fold (np_unique r). rewrite insert_uniq_in, IH. split.
  - intros [E|[u [Hu E]]]; [exists x; split; [left; reflexivity|exact E]|exists u; split; [right|]; assumption].
  - intros [u [[<-|Hu] E]]; [left; exact E|right; exists u; auto].
Qed.

(** ---- grid bins ---- *)
Lemma at_map (f : Q -> Q) l i : (i < length l)%nat -> at_ (map f l) i = f (at_ l i).
Proof.
  intros H. unfold at_. rewrite (nth_indep _ 0 (f 0)) by (rewrite map_length; exact H). apply map_nth.
Qed.

Lemma grid_bins_spec data e : get_grid_bins data = Ok e ->
  let u := np_unique data in
  (2 <= length u)%nat /\ length e = S (length u) /\
  (forall i, (i < length u)%nat -> at_ e i == at_ u i - (1#2) * (at_ u 1 - at_ u 0)) /\
  at_ e (length u) == at_ u (length u - 1) + (1#2) * (at_ u 1 - at_ u 0).
Proof.
  unfold get_grid_bins. destruct (np_unique data) as [|b0 [|b1 r]] eqn:E; try discriminate.
  intros H. injection H as He. cbv zeta.
  set (u := b0 :: b1 :: r). set (f := fun b => b - (1#2) * (b1 - b0)).
  assert (E' : e = map f u ++ [last u 0 + (1#2) * (b1 - b0)]) by (rewrite <- He; reflexivity).
  clear He. subst e.
  split; [cbn; lia|]. split; [rewrite app_length, map_length; cbn; lia|]. split.
  - intros i Hi. rewrite at_app_l by (rewrite map_length; exact Hi). rewrite at_map by exact Hi.
    reflexivity.
  - rewrite at_app_r by (rewrite map_length; lia). rewrite map_length, Nat.sub_diag, at_cons_0.
    rewrite last_at by (unfold u; congruence). reflexivity.
Qed.

Lemma grid_bins_err data : (forall e, get_grid_bins data <> Ok e) <-> (length (np_unique data) < 2)%nat.
Proof.
  unfold get_grid_bins. destruct (np_unique data) as [|b0 [|b1 r]]; cbn.
  - split; [lia|congruence].
  - split; [lia|congruence].
  - split; [|lia]. intros H. exfalso. eapply H. reflexivity.
Qed.

Lemma grid_bins_increasing data e : get_grid_bins data = Ok e -> increasing e.
Proof.
  intros H. destruct (grid_bins_spec _ _ H) as [H1 [H2 [H3 H4]]].
  pose proof (qsorted_increasing _ (np_unique_sorted data)) as HI.
  set (u := np_unique data) in *.
  apply increasing_step. intros i Hi. rewrite H2 in Hi.
  assert (at_ u 0 < at_ u 1) by (apply HI; lia).
  destruct (Nat.eq_dec (S i) (length u)) as [E|N].
  - rewrite E, H4. rewrite H3 by lia. replace (length u - 1)%nat with i by lia. lra.
  - rewrite !H3 by lia. assert (at_ u i < at_ u (S i)) by (apply HI; lia). lra.
Qed.

(** uniform spacing of the distinct values *)
Definition uniform_grid (u : list Q) : Prop :=
  exists h, 0 < h /\ forall i, (S i < length u)%nat -> at_ u (S i) - at_ u i == h.

Lemma grid_bins_center data e i : get_grid_bins data = Ok e -> uniform_grid (np_unique data) ->
  (i < length (np_unique data))%nat ->
  (1#2) * (at_ e i + at_ e (S i)) == at_ (np_unique data) i /\
  (forall x, x == at_ (np_unique data) i -> belongs e i x).
Proof.
  intros H [h [Hh HU]] Hi. destruct (grid_bins_spec _ _ H) as [H1 [H2 [H3 H4]]].
  set (u := np_unique data) in *.
  assert (Hd : at_ u 1 - at_ u 0 == h) by (apply HU; lia).
  assert (E : at_ e (S i) == at_ u i + (1#2) * h).
  { destruct (Nat.eq_dec (S i) (length u)) as [E|N].
    - rewrite E, H4. replace (length u - 1)%nat with i by lia. lra.
    - rewrite H3 by lia. assert (at_ u (S i) - at_ u i == h) by (apply HU; lia). lra. }
  assert (E0 : at_ e i == at_ u i - (1#2) * h) by (rewrite H3 by lia; lra).
  split; [lra|]. intros x Hx. split; [lia|]. split; [lra|]. left. lra.
Qed.

(** ---- default resolution ---- *)
Lemma floor_root4_spec q : 0 <= q -> is_floor_root4 q (floor_root4 q).
Proof.
  intros Hq. unfold floor_root4, is_floor_root4.
  assert (Hf : (0 <= Qfloor q)%Z).
  { change 0%Z with (Qfloor 0). apply Qfloor_resp_le. exact Hq. }
  set (f := Qfloor q) in *.
  pose proof (Z.sqrt_spec f Hf) as Hs. set (s := Z.sqrt f) in *.
  assert (Hs0 : (0 <= s)%Z) by apply Z.sqrt_nonneg.
  pose proof (Z.sqrt_spec s Hs0) as Hr. set (r := Z.sqrt s) in *.
  assert (Hr0 : (0 <= r)%Z) by apply Z.sqrt_nonneg. clearbody r s.
  unfold Z.succ in Hr, Hs. destruct Hr as [Hr1 Hr2]. destruct Hs as [Hs1 Hs2].
  split; [exact Hr0|]. split.
  - apply Qle_trans with (inject_Z f); [|apply Qfloor_le].
    rewrite <- Zle_Qle.
    assert ((r * r) * (r * r) <= s * s)%Z by (apply Z.mul_le_mono_nonneg; first [apply Z.square_nonneg | lia]).
    replace (r * r * r * r)%Z with ((r * r) * (r * r))%Z by ring. lia.
  - apply Qlt_le_trans with (inject_Z (f + 1)); [apply Qlt_floor|].
    rewrite <- Zle_Qle.
    assert ((s + 1) <= (r+1)*(r+1))%Z by lia.
    assert ((s+1)*(s+1) <= ((r+1)*(r+1))*((r+1)*(r+1)))%Z by (apply Z.mul_le_mono_nonneg; lia).
    replace ((r+1)*(r+1)*(r+1)*(r+1))%Z with (((r+1)*(r+1))*((r+1)*(r+1)))%Z by ring. lia.
Qed.
Lemma is_floor_root4_unique q a b : is_floor_root4 q a -> is_floor_root4 q b -> a = b.
Proof.
  intros [A0 [A1 A2]] [B0 [B1 B2]].
  assert (H1 : inject_Z (a*a*a*a) < inject_Z ((b+1)*(b+1)*(b+1)*(b+1))) by lra.
  assert (H2 : inject_Z (b*b*b*b) < inject_Z ((a+1)*(a+1)*(a+1)*(a+1))) by lra.
  rewrite <- Zlt_Qlt in H1, H2.
  destruct (Z.lt_trichotomy a b) as [L|[E|L]]; [exfalso|exact E|exfalso].
  - assert ((a+1)*(a+1) <= b*b)%Z by (apply Z.mul_le_mono_nonneg; lia).
    assert ((a+1)*(a+1)*((a+1)*(a+1)) <= b*b*(b*b))%Z by (apply Z.mul_le_mono_nonneg; first [apply Z.square_nonneg | lia]).
    lia.
  - assert ((b+1)*(b+1) <= a*a)%Z by (apply Z.mul_le_mono_nonneg; lia).
    assert ((b+1)*(b+1)*((b+1)*(b+1)) <= a*a*(a*a))%Z by (apply Z.mul_le_mono_nonneg; first [apply Z.square_nonneg | lia]).
    lia.
Qed.

Lemma linspace_evenly a b n : (2 <= n)%nat -> evenly_spaced a b n (linspace a b n).
Proof.
  intros H. split; [apply linspace_length|]. split; [apply linspace_first; lia|].
  split; [apply linspace_last; exact H|].
  exists ((b - a) / nq (n - 1)). intros i Hi. rewrite !linspace_at by lia. rewrite nq_S. ring.
Qed.

(** ---- extents ---- *)
Lemma at_rev l i : (i < length l)%nat -> at_ (rev l) i = at_ l (length l - 1 - i).
Proof.
  intros H. unfold at_. rewrite rev_nth by exact H. f_equal. lia.
Qed.

Lemma qmax_list_last l : nondecreasing l -> l <> [] ->
  qmax_list (hd 0 l) (tl l) == at_ l (length l - 1).
Proof.
  intros HS HN. destruct l as [|x r]; [congruence|]. cbn [hd tl].
  destruct (qmax_list_spec x r) as [H1 H2].
  assert (at_ (x :: r) (length (x :: r) - 1) <= qmax_list x r).
  { apply H1. apply at_In. cbn; lia. }
  assert (qmax_list x r <= at_ (x :: r) (length (x :: r) - 1)).
  { destruct (In_at _ _ H2) as [i [Hi <-]]. apply HS; lia. }
  lra.
Qed.

Lemma map_div_nondecreasing l m : 0 < m -> nondecreasing l -> nondecreasing (map (fun c => c / m) l).
Proof.
  intros Hm HS i j Hij Hj. rewrite map_length in Hj. rewrite !at_map by lia.
  unfold Qdiv. apply Qmult_le_compat_r; [apply HS; lia|]. apply Qlt_le_weak, Qinv_lt_0_compat, Hm.
Qed.

Lemma hist_range_spec d lo hi : d <> [] -> hist_range d = (lo, hi) ->
  lo < hi /\ (forall x, In x (map fst d) -> lo <= x <= hi) /\
  (exists mn mx, is_min mn (map fst d) /\ is_max mx (map fst d) /\
     ((mn < mx /\ lo = mn /\ hi = mx) \/ (mn == mx /\ lo = mn - (1#2) /\ hi = mx + (1#2)))).
Proof.
  intros HN. unfold hist_range. destruct (map fst d) as [|x r] eqn:E.
  { destruct d; [congruence|discriminate]. }
  destruct (qmin_list_spec x r) as [A1 A2]. destruct (qmax_list_spec x r) as [B1 B2].
  set (mn := qmin_list x r) in *. set (mx := qmax_list x r) in *.
  assert (Hmm : mn <= mx) by (apply A1; exact B2).
  assert (HX : is_min mn (x :: r) /\ is_max mx (x :: r)) by (split; split; assumption).
  destruct (Qeq_bool mn mx) eqn:EE; intros H; injection H as <- <-.
  - apply qeqb_true in EE. split; [lra|]. split.
    + intros y Hy. specialize (A1 y Hy). specialize (B1 y Hy). lra.
    + exists mn, mx. split; [apply HX|]. split; [apply HX|]. right. auto.
  - apply qeqb_false in EE. assert (mn < mx).
    { destruct (Qlt_le_dec mn mx) as [L|L]; [exact L|]. exfalso; apply EE; lra. }
    split; [lra|]. split.
    + intros y Hy. split; [apply A1|apply B1]; exact Hy.
    + exists mn, mx. split; [apply HX|]. split; [apply HX|]. left. auto.
Qed.

(** ---- statements used by HelpersProps ---- *)
Lemma hist_bin_spec e d i p : (S i < length e)%nat -> (forall x, p x = true <-> belongs e i x) ->
  at_ (np_histogram e d) i == weight_if p d.
Proof.
  intros Hi Hp. unfold np_histogram. rewrite hist_bins_at by exact Hi. apply weight_if_ext.
  intros x _. apply eq_true_iff_eq. rewrite Hp. apply bin_test_belongs; exact Hi.
Qed.

Lemma sum_n_at_ext f l a n : (forall i, (a <= i < a + n)%nat -> f i == at_ l i) -> sum_n f a n == sum_n (at_ l) a n.
Proof. apply sum_n_ext. Qed.

Lemma combine_at {A} (l : list Q) (m : list Q) (f : Q * Q -> A) i dflt :
  (i < length l)%nat -> (i < length m)%nat ->
  nth i (map f (combine l m)) dflt = f (at_ l i, at_ m i).
Proof.
  revert m i. induction l as [|x l IH]; intros [|y m] i H1 H2; cbn in *; try lia.
  destruct i; [reflexivity|]. rewrite !at_cons_S. apply IH; lia.
Qed.

Lemma qsorted_ext_length u v : increasing u -> increasing v -> (forall y, Qin y u <-> Qin y v) ->
  Forall2 Qeq u v.
Proof.
  revert v. induction u as [|x u IH]; intros v Hu Hv HE.
  - destruct v as [|y v]; [constructor|]. exfalso.
    destruct (proj2 (HE y)) as [z [[] _]]. exists y. split; [left; reflexivity|reflexivity].
  - destruct v as [|y v].
    { exfalso. destruct (proj1 (HE x)) as [z [[] _]]. exists x. split; [left; reflexivity|reflexivity]. }
    assert (Hmin : forall z l w, increasing (z :: l) -> In w l -> z < w).
    { intros z l w Hi Hw. destruct (In_at _ _ Hw) as [i [Hi2 <-]].
      specialize (Hi 0%nat (S i)). rewrite at_cons_S, at_cons_0 in Hi. apply Hi; cbn; lia. }
    assert (Htl : forall z l, increasing (z :: l) -> increasing l).
    { intros z l Hi i j Hij Hj. specialize (Hi (S i) (S j)). rewrite !at_cons_S in Hi. apply Hi; cbn; lia. }
    assert (Exy : x == y).
    { destruct (proj1 (HE x)) as [z [Hz Ez]]; [exists x; split; [left; reflexivity|reflexivity]|].
      destruct (proj2 (HE y)) as [w [Hw Ew]]; [exists y; split; [left; reflexivity|reflexivity]|].
      destruct Hz as [<-|Hz]; [lra|]. destruct Hw as [<-|Hw]; [lra|].
      pose proof (Hmin _ _ _ Hv Hz). pose proof (Hmin _ _ _ Hu Hw). lra. }
    constructor; [exact Exy|]. apply IH; [exact (Htl _ _ Hu)|exact (Htl _ _ Hv)|].
    intros w. split; intros [z [Hz Ez]].
    + destruct (proj1 (HE z)) as [q [Hq Eq]]; [exists z; split; [right; exact Hz|reflexivity]|].
      destruct Hq as [<-|Hq]; [|exists q; split; [exact Hq|lra]].
      pose proof (Hmin _ _ _ Hu Hz). lra.
    + destruct (proj2 (HE z)) as [q [Hq Eq]]; [exists z; split; [right; exact Hz|reflexivity]|].
      destruct Hq as [<-|Hq]; [|exists q; split; [exact Hq|lra]].
      pose proof (Hmin _ _ _ Hv Hz). lra.
Qed.
Lemma Forall2_at u v i : Forall2 Qeq u v -> at_ u i == at_ v i.
Proof.
  intros H. revert i. induction H as [|x y u v Hxy H IH]; intros i; [reflexivity|].
  destruct i; [exact Hxy|]. rewrite !at_cons_S. apply IH.
Qed.
Lemma grid_histogram_marginal d e u : get_grid_bins (map fst d) = Ok e ->
  increasing u -> (forall y, Qin y u <-> Qin y (map fst d)) -> uniform_grid u ->
  forall i, (i < length u)%nat ->
  at_ (np_histogram e d) i == weight_if (fun x => Qeq_bool x (at_ u i)) d.
Proof.
  intros He Hu Hin HU i Hi.
  set (v := np_unique (map fst d)).
  assert (HF : Forall2 Qeq u v).
  { apply qsorted_ext_length; [exact Hu|apply qsorted_increasing, np_unique_sorted|].
    intros y. unfold v. rewrite np_unique_in. apply Hin. }
  assert (Hl : length u = length v) by (clear -HF; induction HF; cbn; congruence).
  assert (HUv : uniform_grid v).
  { destruct HU as [h [Hh HU]]. exists h. split; [exact Hh|]. intros k Hk.
    rewrite <- !(Forall2_at _ _ _ HF). apply HU. lia. }
  destruct (grid_bins_spec _ _ He) as [_ [Le _]]. fold v in Le.
  unfold np_histogram. rewrite hist_bins_at by lia. apply weight_if_ext. intros x Hx.
  apply eq_true_iff_eq. rewrite bin_test_belongs by lia. rewrite qeqb_true.
  rewrite (Forall2_at _ _ i HF).
  assert (Hc := fun k Hk => proj2 (grid_bins_center _ _ k He HUv Hk)). fold v in Hc.
  split.
  - intros Hb. assert (Qin x v) as [y [Hy Ey]].
    { unfold v. apply np_unique_in. exists x. split; [exact Hx|reflexivity]. }
    destruct (In_at _ _ Hy) as [k [Hk <-]].
    assert (belongs e k x) by (apply Hc; [exact Hk|lra]).
    assert (i = k).
    { eapply belongs_unique; [apply increasing_nondecreasing, (grid_bins_increasing _ _ He)|exact Hb|assumption]. }
    subst k. lra.
  - intros E. apply Hc; [lia|exact E].
Qed.
Lemma grid_bins_error_iff data : get_grid_bins data = Err IndexError <->
  (forall x y, In x data -> In y data -> x == y).
Proof.
  unfold get_grid_bins. pose proof (np_unique_sorted data) as HS.
  pose proof (fun y => np_unique_in y data) as HI.
  destruct (np_unique data) as [|b0 [|b1 r]] eqn:E.
  - split; [|reflexivity]. intros _ x y Hx _. exfalso.
    destruct (proj2 (HI x)) as [z [[] _]]. exists x. split; [exact Hx|reflexivity].
  - split; [|reflexivity]. intros _ x y Hx Hy.
    destruct (proj2 (HI x)) as [z [[<-|[]] Ez]]; [exists x; split; [exact Hx|reflexivity]|].
    destruct (proj2 (HI y)) as [w [[<-|[]] Ew]]; [exists y; split; [exact Hy|reflexivity]|]. lra.
  - split; [discriminate|]. intros H. exfalso.
    assert (b0 < b1) by (inversion HS; assumption).
    destruct (proj1 (HI b0)) as [x [Hx Ex]]; [exists b0; split; [left; reflexivity|reflexivity]|].
    destruct (proj1 (HI b1)) as [y [Hy Ey]]; [exists b1; split; [right; left; reflexivity|reflexivity]|].
    specialize (H x y Hx Hy). lra.
Qed.
Lemma grid_nonuniform : exists data e, get_grid_bins data = Ok e /\
  ~ (forall i, (i < 3)%nat -> exists x, In x data /\ belongs e i x).
Proof.
  exists [0;10;12]. eexists. split; [vm_compute; reflexivity|].
  intros H. destruct (H 0%nat) as [x [Hx [_ [H1 H2]]]]; [lia|].
  destruct (H 1%nat) as [y [Hy [_ [H3 H4]]]]; [lia|].
  vm_compute in H1, H2, H3, H4.
  destruct Hy as [<-|[<-|[<-|[]]]]; vm_compute in H3, H4; intuition (try discriminate; try congruence).
Qed.
