(** Proofs about the two-dimensional surface. *)
From Coq Require Import String QArith Qabs Qround List Arith ZArith Bool Permutation Reals Qreals Lia Lqa.
From Verif Require Import Py NumSpec NumModel NumFacts HelpersSpec HelpersModel HelpersProofs MarginalModel FilterProofs
  FrameModel FrameFacts ConfigModel ChainModel ColorModel ColorSpec ColorProofs ShadeModel ShadeSpec ShadeProofs RegistryModel FormatModel AnalysisModel ChainSpec ChainUseProofs SummarySpec MarginalProofs RegistrySpec SurfaceSpec SurfaceModel.
Import ListNotations.
Open Scope Q_scope.

(** ** Sorting a flattened histogram *)
Lemma mass_perm p l l' : Permutation l l' -> mass p l == mass p l'.
Proof.
  induction 1 as [|[h v] l l' _ IH|[h v] [h' v'] l|l l' l'' _ IH1 _ IH2]; cbn [mass]; [reflexivity|rewrite IH; reflexivity|ring|].
  rewrite IH1. exact IH2.
Qed.
Lemma strict_seq (q : list nat) n : length q = n -> (forall x, In x q -> (x < n)%nat) ->
  (forall i j, (i < j)%nat -> (j < n)%nat -> (nth i q 0 < nth j q 0)%nat) -> forall k, (k < n)%nat -> nth k q 0%nat = k.
Proof.
  intros L B St.
  assert (Lo : forall k, (k < n)%nat -> (k <= nth k q 0)%nat).
  { induction k as [|k IH]; intros Hk; [apply Nat.le_0_l|]. specialize (St k (S k) ltac:(lia) Hk). specialize (IH ltac:(lia)). lia. }
  assert (Gap : forall d k, (k + d < n)%nat -> (nth k q 0 + d <= nth (k + d) q 0)%nat).
  { induction d as [|d IH]; intros k Hk; [rewrite !Nat.add_0_r; lia|].
    specialize (IH k ltac:(lia)). specialize (St (k + d)%nat (k + S d)%nat ltac:(lia) Hk). lia. }
  intros k Hk. specialize (Lo k Hk). specialize (Gap (n - 1 - k)%nat k ltac:(lia)).
  replace (k + (n - 1 - k))%nat with (n - 1)%nat in Gap by lia.
  specialize (B (nth (n - 1) q 0%nat) ltac:(apply nth_In; lia)). lia.
Qed.
Lemma perm_seq_In p n x : Permutation p (seq 0 n) -> In x p -> (x < n)%nat.
Proof. intros P I. apply (Permutation_in _ P) in I. apply in_seq in I. lia. Qed.
Lemma perm_seq_len p n : Permutation p (seq 0 n) -> length p = n.
Proof. intros P. rewrite (Permutation_length P), seq_length. reflexivity. Qed.

(** argsort of a permutation is its inverse. *)
Lemma argsort_inverse argsort p n : argsort_ok argsort -> Permutation p (seq 0 n) ->
  Permutation (argsort (map nq p)) (seq 0 n) /\ forall k, (k < n)%nat -> nth (nth k (argsort (map nq p)) 0%nat) p 0%nat = k.
Proof.
  intros A P. destruct (A (map nq p)) as [U St]. rewrite map_length, (perm_seq_len _ _ P) in U, St.
  split; [exact U|]. set (u := argsort (map nq p)) in *.
  pose proof (perm_seq_len _ _ U) as Lu. pose proof (perm_seq_len _ _ P) as Lp.
  assert (Q : forall k, (k < n)%nat -> nth k (map (fun a => nth a p 0%nat) u) 0%nat = nth (nth k u 0%nat) p 0%nat).
  { intros k Hk. rewrite (nth_indep _ 0%nat (nth 0%nat p 0%nat)) by (rewrite map_length; lia).
    apply (map_nth (fun a => nth a p 0%nat)). }
  assert (Un : forall k, (k < n)%nat -> (nth k u 0 < n)%nat).
  { intros k Hk. apply (perm_seq_In u n); [exact U|apply nth_In; lia]. }
  intros k Hk. rewrite <- Q by exact Hk. apply (strict_seq _ n); [rewrite map_length; exact Lu| | |exact Hk].
  - intros x Hx. apply in_map_iff in Hx as [a [<- Ha]]. apply (perm_seq_In p n _ P). apply nth_In.
    apply (perm_seq_In u n _ U) in Ha. lia.
  - intros i j Hij Hj. rewrite !Q by lia. specialize (St i j Hij Hj).
    assert (E : forall a, (a < n)%nat -> nth a (map nq p) 0 == nq (nth a p 0%nat)).
    { intros a Ha. rewrite (nth_indep _ 0 (nq 0)) by (rewrite map_length; lia). rewrite map_nth. reflexivity. }
    rewrite !E in St by (apply Un; lia).
    assert (Ne : nth (nth i u 0%nat) p 0%nat <> nth (nth j u 0%nat) p 0%nat).
    { intros C. assert (Dp : NoDup p) by (apply (Permutation_NoDup (Permutation_sym P)), seq_NoDup).
      assert (Du : NoDup u) by (apply (Permutation_NoDup (Permutation_sym U)), seq_NoDup).
      rewrite NoDup_nth in Dp, Du. apply Dp in C; [|rewrite Lp; apply Un; lia..]. apply Du in C; lia. }
    destruct (Nat.lt_trichotomy (nth (nth i u 0%nat) p 0%nat) (nth (nth j u 0%nat) p 0%nat)) as [L|[L|L]]; [exact L|contradiction|].
    apply nq_lt in L. exfalso. apply (Qlt_not_le _ _ L). exact St.
Qed.

Lemma sum_n_zero f a m : (forall i, (a <= i < a + m)%nat -> f i == 0) -> sum_n f a m == 0.
Proof.
  intros H. rewrite (sum_n_ext f (fun _ => 0 * 0)) by (intros; rewrite H by lia; ring).
  rewrite sum_n_scal. ring.
Qed.

(** ** The cumulative values on the sorted list *)
Section sorted.
Variable s : list Q.
Hypothesis Hs : all_nonneg s.
Hypothesis Hd : forall a b, (a < b)%nat -> (b < length s)%nat -> at_ s b <= at_ s a.
Let n := length s.
Let cum := cumsum s.
Variable tot : Q.
Hypothesis Ht : 0 < tot.
Let x a := at_ (map (fun v => v / tot) cum) a.
Let pairs := map (fun a => (at_ s a, x a)) (seq 0 n).

Lemma x_cum a : (a < n)%nat -> x a * tot == sum_range (at_ s) 0 (S a).
Proof.
  intros Ha. unfold x. rewrite at_map by (unfold cum; rewrite cumsum_length; exact Ha). unfold cum.
  rewrite cumsum_at by exact Ha. field. lra.
Qed.
Lemma mass_pairs p : mass p pairs == sum_n (fun a => if p (at_ s a) (x a) then at_ s a else 0) 0 n.
Proof.
  unfold pairs. generalize 0%nat. induction n as [|m IH]; intros st; [reflexivity|].
  cbn [seq map mass sum_n]. rewrite IH. reflexivity.
Qed.
Lemma mono a b : (a <= b)%nat -> sum_range (at_ s) 0 (S a) <= sum_range (at_ s) 0 (S b).
Proof.
  intros H. rewrite (sum_range_split (at_ s) 0 (S a) (S b)) by lia.
  pose proof (sum_range_nonneg (at_ s) (S a) (S b) ltac:(intros; apply all_nonneg_at; exact Hs)). lra.
Qed.
Lemma lower a : (a < n)%nat -> mass (fun h _ => below (at_ s a) h) pairs + at_ s a <= x a * tot.
Proof.
  intros Ha. rewrite x_cum by exact Ha. rewrite mass_pairs. rewrite sum_range_S by lia.
  enough (sum_n (fun b => if below (at_ s a) (at_ s b) then at_ s b else 0) 0 n <= sum_range (at_ s) 0 a) by lra.
  unfold sum_range. rewrite Nat.sub_0_r. replace n with (a + (n - a))%nat at 1 by lia. rewrite sum_n_split.
  assert (Z : sum_n (fun b => if below (at_ s a) (at_ s b) then at_ s b else 0) (0 + a) (n - a) == 0).
  { apply sum_n_zero. intros b Hb. unfold below. destruct (Qle_bool (at_ s b) (at_ s a)) eqn:E; [reflexivity|].
    apply qle_false in E. destruct (Nat.eq_dec a b) as [->|Nab]; [lra|].
    pose proof (Hd a b ltac:(lia) ltac:(fold n; lia)). lra. }
  rewrite Z. rewrite Qplus_0_r. apply sum_n_le. intros b Hb. destruct (below _ _); [lra|]. apply all_nonneg_at; exact Hs.
Qed.
Lemma upper a : (a < n)%nat -> x a * tot <= mass (fun h _ => Qle_bool (at_ s a) h) pairs.
Proof.
  intros Ha. rewrite x_cum by exact Ha. rewrite mass_pairs. unfold sum_range.
  rewrite Nat.sub_0_r. replace n with (S a + (n - S a))%nat by lia. rewrite sum_n_split.
  assert (P : 0 <= sum_n (fun b => if Qle_bool (at_ s a) (at_ s b) then at_ s b else 0) (0 + S a) (n - S a)).
  { apply sum_n_nonneg. intros b _. destruct (Qle_bool _ _); [apply all_nonneg_at; exact Hs|lra]. }
  enough (sum_n (at_ s) 0 (S a) <= sum_n (fun b => if Qle_bool (at_ s a) (at_ s b) then at_ s b else 0) 0 (S a)) by lra.
  apply sum_n_le. intros b Hb. destruct (Qle_bool (at_ s a) (at_ s b)) eqn:E; [lra|]. apply qle_false in E.
  destruct (Nat.eq_dec a b) as [->|Nab]; [lra|]. pose proof (Hd b a ltac:(lia) ltac:(fold n; lia)). lra.
Qed.
Lemma x_le a b : (a <= b)%nat -> (b < n)%nat -> x a <= x b.
Proof.
  intros H Hb. pose proof (mono a b H) as M. rewrite <- !x_cum in M by lia.
  apply Qmult_le_r in M; [exact M|exact Ht].
Qed.
Lemma x_lt a b : (a < b)%nat -> (b < n)%nat -> 0 < at_ s b -> x a < x b.
Proof.
  intros H Hb P. apply (Qmult_lt_r _ _ tot); [exact Ht|]. rewrite !x_cum by lia.
  rewrite (sum_range_S _ 0 b) by lia. pose proof (mono a (b - 1) ltac:(lia)) as M. replace (S (b - 1)) with b in M by lia. lra.
Qed.
Lemma region L : 0 <= L -> mass (fun _ v => Qle_bool v L) pairs <= L * tot.
Proof.
  intros HL. rewrite mass_pairs. enough (G : forall m, (m <= n)%nat -> sum_n (fun a => if Qle_bool (x a) L then at_ s a else 0) 0 m <= L * tot) by (apply G; lia).
  induction m as [|m IH]; intros Hm; [cbn; nra|]. specialize (IH ltac:(lia)). rewrite sum_n_last. cbn [Nat.add].
  destruct (Qle_bool (x m) L) eqn:E; [|lra]. apply qle_true in E.
  apply (Qmult_le_compat_r _ _ tot) in E; [|lra]. rewrite x_cum in E by lia. rewrite sum_range_S in E by lia.
  unfold sum_range in E. rewrite Nat.sub_0_r in E.
  assert (sum_n (fun a => if Qle_bool (x a) L then at_ s a else 0) 0 m <= sum_n (at_ s) 0 m).
  { apply sum_n_le. intros i _. destruct (Qle_bool _ _); [lra|apply all_nonneg_at; exact Hs]. }
  lra.
Qed.
End sorted.

(** ** The whole conversion *)
Lemma reshape_concat {A B} (m : list (list A)) (l : list B) : length l = length (concat m) ->
  concat (reshape_like m l) = l /\ same_shape m (reshape_like m l).
Proof.
  revert l. induction m as [|r m IH]; intros l; cbn [reshape_like concat]; unfold same_shape; cbn [map].
  - destruct l; [|discriminate]. auto.
  - rewrite app_length. intros L. destruct (IH (skipn (length r) l)) as [A1 A2]; [rewrite skipn_length; lia|].
    split; [rewrite A1; apply firstn_skipn|]. unfold same_shape in A2. rewrite A2, firstn_length.
    rewrite Nat.min_l by lia. reflexivity.
Qed.
Lemma combine_nth_map {A B} (l : list A) (r : list B) da db : length l = length r ->
  combine l r = map (fun k => (nth k l da, nth k r db)) (seq 0 (length l)).
Proof.
  revert r. induction l as [|a l IH]; intros [|b r] L; try discriminate; [reflexivity|].
  cbn [combine length seq map nth]. f_equal. rewrite <- seq_shift, map_map. apply IH. cbn in L. lia.
Qed.
Lemma qsum_perm l l' : Permutation l l' -> qsum l == qsum l'.
Proof. induction 1 as [|x l l' _ IH|x y l|l l' l'' _ IH1 _ IH2]; cbn [qsum]; [reflexivity|rewrite IH; reflexivity|ring|rewrite IH1; exact IH2]. Qed.
Lemma map_nth_all {A} (l : list A) d : map (fun i => nth i l d) (seq 0 (length l)) = l.
Proof. induction l as [|a l IH]; [reflexivity|]. cbn [length seq map nth]. f_equal. rewrite <- seq_shift, map_map. exact IH. Qed.

Lemma nonempty_match {A B} (l : list A) (a b : B) : l <> [] -> match l with [] => a | _ => b end = b.
Proof. destruct l; congruence. Qed.

Section convert.
Variable argsort : list Q -> list nat.
Hypothesis A : argsort_ok argsort.
Variable m : list (list Q).
Hypothesis Hm : all_nonneg (concat m).
Let l := concat m.
Let n := length l.
Let p := rev (argsort l).
Let s := map (fun i => nth i l 0) p.
Let tot := last (cumsum s) 0.

Lemma p_perm : Permutation p (seq 0 n).
Proof. unfold p. destruct (A l) as [P _]. rewrite <- Permutation_rev. exact P. Qed.
Lemma s_len : length s = n.
Proof. unfold s. rewrite map_length. apply perm_seq_len, p_perm. Qed.
Lemma s_at a : (a < n)%nat -> at_ s a = nth (nth a p 0%nat) l 0.
Proof.
  intros H. unfold at_, s. rewrite (nth_indep _ 0 (nth 0%nat l 0)) by (rewrite map_length, (perm_seq_len _ _ p_perm); exact H).
  apply (map_nth (fun i => nth i l 0)).
Qed.
Lemma s_perm : Permutation s l.
Proof. unfold s. etransitivity; [apply Permutation_map, p_perm|]. unfold n. rewrite map_nth_all. reflexivity. Qed.
Lemma s_nonneg : all_nonneg s.
Proof. intros v Hv. apply Hm. apply (Permutation_in _ s_perm Hv). Qed.
Lemma s_desc a b : (a < b)%nat -> (b < length s)%nat -> at_ s b <= at_ s a.
Proof.
  rewrite s_len. intros Hab Hb. rewrite !s_at by lia. destruct (A l) as [P S]. fold n in P, S.
  pose proof (perm_seq_len _ _ P) as LA. unfold p. rewrite !rev_nth by lia. rewrite LA. apply S; lia.
Qed.
Lemma tot_total : s <> [] -> tot == qsum l.
Proof.
  intros N. unfold tot. rewrite last_at by (intros C; apply N; apply length_zero_iff_nil; rewrite <- cumsum_length, C; reflexivity).
  rewrite cumsum_length, cumsum_at by (destruct s; [congruence|cbn; lia]).
  rewrite <- (qsum_perm _ _ s_perm), qsum_total. unfold total.
  replace (S (length s - 1)) with (length s) by (destruct s; [congruence|cbn; lia]). reflexivity.
Qed.

Lemma convert_cells : 0 < qsum l ->
  exists v, convert_to_stdev argsort m = Ok v /\ same_shape m v /\ 0 < tot /\ tot == qsum l /\
    Permutation (cells m v) (map (fun a => (at_ s a, at_ (map (fun v => v / tot) (cumsum s)) a)) (seq 0 n)).
Proof.
  intros Hp.
  assert (Ns : s <> []).
  { intros C. pose proof s_perm as Q. rewrite C in Q. apply Permutation_nil in Q. rewrite Q in Hp. cbn in Hp. lra. }
  pose proof (tot_total Ns) as T.
  assert (Tn : Qeq_bool tot 0 = false) by (apply qeqb_false; intros C; rewrite C in T; lra).
  destruct (argsort_inverse argsort p n A p_perm) as [U Inv]. set (u := argsort (map nq p)) in *.
  set (g := fun a => at_ (map (fun v => v / tot) (cumsum s)) a).
  assert (Lu : length (map g u) = length (concat m)) by (rewrite map_length, (perm_seq_len _ _ U); reflexivity).
  destruct (reshape_concat m (map g u) Lu) as [R1 R2].
  exists (reshape_like m (map g u)). split.
  { unfold convert_to_stdev. cbv zeta. fold l p. fold s. fold u.
    rewrite nonempty_match by (intros C; apply Ns; apply length_zero_iff_nil; rewrite <- cumsum_length, C; reflexivity).
    fold tot. rewrite Tn. reflexivity. }
  split; [exact R2|]. split; [rewrite T; exact Hp|]. split; [exact T|].
  unfold cells. rewrite R1. rewrite (combine_nth_map l _ 0 0) by (symmetry; exact Lu). fold n.
  etransitivity; [|apply (Permutation_map (fun a => (at_ s a, g a)) U)].
  transitivity (map (fun a => (at_ s a, g a)) (map (fun i => nth i u 0%nat) (seq 0 n)));
    [rewrite map_map|rewrite <- (perm_seq_len _ _ U) at 1; rewrite map_nth_all; reflexivity].
  assert (EQ : map (fun k => (nth k l 0, nth k (map g u) 0)) (seq 0 n) = map (fun k => (at_ s (nth k u 0%nat), g (nth k u 0%nat))) (seq 0 n)).
  { apply map_ext_in. intros k Hk. apply in_seq in Hk.
    assert (Hu : (nth k u 0 < n)%nat) by (apply (perm_seq_In u n _ U), nth_In; rewrite (perm_seq_len _ _ U); lia).
    rewrite s_at by exact Hu. rewrite Inv by lia. f_equal.
    rewrite (nth_indep _ 0 (g 0%nat)) by (rewrite map_length, (perm_seq_len _ _ U); lia). apply map_nth. }
  rewrite EQ. reflexivity.
Qed.
End convert.

Lemma mass_true v l : (forall h x, In (h, x) l -> v h x = true) -> mass v l == qsum (map fst l).
Proof. induction l as [|[h x] l IH]; cbn [mass map qsum fst]; intros H; [reflexivity|]. rewrite (H h x) by (left; reflexivity). rewrite IH; [reflexivity|intros; apply H; right; assumption]. Qed.

(** ** Matrices *)
Lemma nth_map_seq {A} (f : nat -> A) n i d : (i < n)%nat -> nth i (map f (seq 0 n)) d = f i.
Proof.
  intros H. rewrite (nth_indep _ d (f 0%nat)) by (rewrite map_length, seq_length; exact H).
  rewrite map_nth, seq_nth by exact H. reflexivity.
Qed.
Lemma shaped_width {A} (m : list (list A)) a b : shaped m a b -> (0 < a)%nat -> width m = b.
Proof. intros [L S] H. destruct m as [|r m]; [cbn in L; lia|]. cbn. apply S. left. reflexivity. Qed.
Lemma shaped_row {A} (m : list (list A)) a b i : shaped m a b -> (i < a)%nat -> length (nth i m []) = b.
Proof. intros [L S] H. apply S, nth_In. lia. Qed.
Lemma transpose_shaped {A} (d : A) m a b : shaped m a b -> (0 < a)%nat -> shaped (transpose d m) b a.
Proof.
  intros S H. unfold transpose. rewrite (shaped_width m a b S H). destruct S as [L _]. rewrite L. split.
  - rewrite map_length, seq_length. reflexivity.
  - intros r Hr. apply in_map_iff in Hr as [j [<- _]]. rewrite map_length, seq_length. reflexivity.
Qed.
Lemma transpose_cell {A} (d : A) m a b i j : shaped m a b -> (i < a)%nat -> (j < b)%nat ->
  cell d (transpose d m) j i = cell d m i j.
Proof.
  intros S Hi Hj. unfold transpose, cell. rewrite (shaped_width m a b S) by lia.
  rewrite nth_map_seq by exact Hj. destruct S as [L _]. rewrite L. rewrite nth_map_seq by exact Hi. reflexivity.
Qed.
Lemma map_map_shaped {A B} (f : A -> B) m a b : shaped m a b -> shaped (map (map f) m) a b.
Proof.
  intros [L S]. split; [rewrite map_length; exact L|]. intros r Hr. apply in_map_iff in Hr as [r' [<- Hr']].
  rewrite map_length. apply S, Hr'.
Qed.
Lemma cell_map {A B} (f : A -> B) m a b i j da db : shaped m a b -> (i < a)%nat -> (j < b)%nat ->
  cell db (map (map f) m) i j = f (cell da m i j).
Proof.
  intros S Hi Hj. unfold cell. destruct S as [L S].
  rewrite (nth_indep _ [] (map f [])) by (rewrite map_length; lia). rewrite (map_nth (map f)).
  rewrite (nth_indep _ db (f da)) by (rewrite map_length, (S (nth i m [])); [lia|apply nth_In; lia]). apply map_nth.
Qed.
Lemma same_shape_shaped {A B} (m : list (list A)) (v : list (list B)) a b : same_shape m v -> shaped m a b -> shaped v a b.
Proof.
  unfold same_shape. intros E [L S]. split.
  - rewrite <- (map_length (@length B)), <- E, map_length. exact L.
  - intros r Hr. assert (I : In (length r) (map (@length A) m)) by (rewrite E; apply in_map, Hr).
    apply in_map_iff in I as [r' [<- Hr']]. apply S, Hr'.
Qed.
Lemma qsum_concat m a b : shaped m a b -> qsum (concat m) == sum_n (fun i => sum_n (fun j => cell 0 m i j) 0 b) 0 a.
Proof.
  revert a. induction m as [|r m IH]; intros a [L S]; cbn [length] in L; subst a; [reflexivity|].
  cbn [concat sum_n]. rewrite qsum_app. rewrite (IH (length m)) by (split; [reflexivity|intros r' Hr'; apply S; right; exact Hr']).
  rewrite sum_n_shift. rewrite qsum_total. unfold total, sum_range. rewrite Nat.sub_0_r, (S r) by (left; reflexivity). reflexivity.
Qed.
Lemma transpose_total m a b : shaped m a b -> (0 < a)%nat -> qsum (concat (transpose 0 m)) == qsum (concat m).
Proof.
  intros S H. rewrite (qsum_concat _ _ _ S), (qsum_concat _ _ _ (transpose_shaped 0 m a b S H)). rewrite sum_n_swap.
  apply sum_n_ext. intros i Hi. apply sum_n_ext. intros j Hj. rewrite (transpose_cell 0 m a b) by (try exact S; lia). reflexivity.
Qed.
Lemma filter1d_len kern l : length (filter1d kern l) = length l.
Proof. unfold filter1d. rewrite map_length, seq_length. reflexivity. Qed.
Lemma map_filter_shaped kern m a b : shaped m a b -> shaped (map (filter1d kern) m) a b.
Proof.
  intros [L S]. split; [rewrite map_length; exact L|]. intros r Hr. apply in_map_iff in Hr as [r' [<- Hr']].
  rewrite filter1d_len. apply S, Hr'.
Qed.
Lemma filter2d_shaped kern m a b : shaped m a b -> (0 < a)%nat -> (0 < b)%nat -> shaped (filter2d kern m) a b.
Proof.
  intros S Ha Hb. unfold filter2d. apply map_filter_shaped, (transpose_shaped 0 _ b a); [|exact Hb].
  apply map_filter_shaped, transpose_shaped; assumption.
Qed.
(** A normalised symmetric kernel. *)
Definition kernel_ok (kern : list Q) : Prop :=
  exists r, length kern = (2 * r + 1)%nat /\ (forall k, (k < length kern)%nat -> at_ kern k == at_ kern (length kern - 1 - k)) /\
    total kern == 1.
Lemma map_filter_total kern m a b : kernel_ok kern -> shaped m a b -> (0 < b)%nat ->
  qsum (concat (map (filter1d kern) m)) == qsum (concat m).
Proof.
  intros [r [Hk [Hs Ht]]] [_ S] Hb. induction m as [|x m IH]; [reflexivity|]. cbn [map concat]. rewrite !qsum_app.
  rewrite IH by (intros y Hy; apply S; right; exact Hy).
  rewrite !qsum_total. rewrite (filter1d_total x ltac:(rewrite (S x) by (left; reflexivity); lia) kern r Hk Hs), Ht. ring.
Qed.
Lemma filter2d_total kern m a b : kernel_ok kern -> shaped m a b -> (0 < a)%nat -> (0 < b)%nat ->
  qsum (concat (filter2d kern m)) == qsum (concat m).
Proof.
  intros K S Ha Hb. unfold filter2d. pose proof (transpose_shaped 0 m a b S Ha) as S1.
  pose proof (map_filter_shaped kern _ _ _ S1) as S2. pose proof (transpose_shaped 0 _ b a S2 Hb) as S3.
  rewrite (map_filter_total kern _ a b K S3 Hb), (transpose_total _ b a S2 Hb), (map_filter_total kern _ b a K S1 Ha).
  apply (transpose_total _ a b S Ha).
Qed.

(** ** The histogram *)
Lemma edge_bins_length e : length (edge_bins e) = (length e - 1)%nat.
Proof. induction e as [|lo [|hi r] IH]; cbn [edge_bins length] in *; [reflexivity..|]. rewrite IH. lia. Qed.
Lemma edge_bins_at e i x d : (S i < length e)%nat -> nth i (edge_bins e) d x = bin_test e i x.
Proof.
  revert i. induction e as [|lo [|hi r] IH]; cbn [length]; intros i Hi; [lia..|].
  change (edge_bins (lo :: hi :: r)) with (in_bin lo hi (match r with [] => true | _ => false end) :: edge_bins (hi :: r)).
  destruct i as [|i].
  - cbn [nth]. unfold bin_test. rewrite at_cons_S, !at_cons_0. destruct r; reflexivity.
  - cbn [nth]. rewrite IH by (cbn; lia). unfold bin_test. rewrite !at_cons_S. cbn [length]. reflexivity.
Qed.
Lemma qsum_weight_where (p : Q -> Q -> bool) l :
  qsum (map (fun q : Q * Q * Q => if p (fst (fst q)) (snd (fst q)) then snd q else 0) l) == weight_where p l.
Proof. induction l as [|[[x y] w] l IH]; cbn [map qsum weight_where fst snd]; [reflexivity|]. rewrite IH. reflexivity. Qed.
Lemma histogram2d_shaped xe ye x y w : shaped (histogram2d xe ye x y w) (length xe - 1) (length ye - 1).
Proof.
  unfold histogram2d. split; [rewrite map_length; apply edge_bins_length|].
  intros r Hr. apply in_map_iff in Hr as [bx [<- _]]. rewrite map_length. apply edge_bins_length.
Qed.
Lemma histogram2d_cell xe ye x y w i j : (S i < length xe)%nat -> (S j < length ye)%nat ->
  cell 0 (histogram2d xe ye x y w) i j == weight_where (fun a b => bin_test xe i a && bin_test ye j b) (combine (combine x y) w).
Proof.
  intros Hi Hj. unfold cell, histogram2d.
  set (g := fun (bx by_ : Q -> bool) => qsum (map (fun p => if bx (fst (fst p)) && by_ (snd (fst p)) then snd p else 0) (combine (combine x y) w))).
  change (nth j (nth i (map (fun bx => map (g bx) (edge_bins ye)) (edge_bins xe)) []) 0 == weight_where (fun a b => bin_test xe i a && bin_test ye j b) (combine (combine x y) w)).
  rewrite (nth_indep _ [] (map (g (fun _ => false)) (edge_bins ye))) by (rewrite map_length, edge_bins_length; lia).
  rewrite (map_nth (fun bx => map (g bx) (edge_bins ye))).
  rewrite (nth_indep _ 0 (g (nth i (edge_bins xe) (fun _ => false)) (fun _ => false))) by (rewrite map_length, edge_bins_length; lia).
  rewrite map_nth. unfold g. rewrite <- qsum_weight_where.
  assert (EQ : map (fun p : Q * Q * Q => if nth i (edge_bins xe) (fun _ => false) (fst (fst p)) && nth j (edge_bins ye) (fun _ => false) (snd (fst p)) then snd p else 0) (combine (combine x y) w)
    = map (fun q : Q * Q * Q => if bin_test xe i (fst (fst q)) && bin_test ye j (snd (fst q)) then snd q else 0) (combine (combine x y) w)).
  { apply map_ext. intros p. rewrite !edge_bins_at by assumption. reflexivity. }
  rewrite EQ. reflexivity.
Qed.
Lemma weight_where_ext p q l : (forall a b, p a b = q a b) -> weight_where p l == weight_where q l.
Proof. intros H. induction l as [|[[a b] w] l IH]; cbn [weight_where]; [reflexivity|]. rewrite H, IH. reflexivity. Qed.

(** Every sample inside the outer edges is counted in exactly one cell. *)
Lemma one_cell xe ye a b (w : Q) : nondecreasing xe -> nondecreasing ye -> (2 <= length xe)%nat -> (2 <= length ye)%nat ->
  sum_n (fun i => sum_n (fun j => if bin_test xe i a && bin_test ye j b then w else 0) 0 (length ye - 1)) 0 (length xe - 1) ==
  (if (Qle_bool (at_ xe 0) a && Qle_bool a (at_ xe (length xe - 1))) && (Qle_bool (at_ ye 0) b && Qle_bool b (at_ ye (length ye - 1))) then w else 0).
Proof.
  intros Mx My Lx Ly.
  assert (One : forall e v (c : Q), nondecreasing e -> (2 <= length e)%nat ->
    sum_n (fun i => if bin_test e i v then c else 0) 0 (length e - 1) == if Qle_bool (at_ e 0) v && Qle_bool v (at_ e (length e - 1)) then c else 0).
  { clear. intros e v c M L.
    pose proof (hist_total e [(v, c)] M L) as T.
    assert (E : sum_n (fun i => if bin_test e i v then c else 0) 0 (length e - 1) == sum_range (at_ (hist_bins e [(v, c)])) 0 (length e - 1)).
    { unfold sum_range. rewrite Nat.sub_0_r. apply sum_n_ext. intros i Hi. rewrite hist_bins_at by lia. cbn [weight_if]. ring. }
    rewrite E. unfold total in T. rewrite hist_bins_length in T. rewrite T. cbn [weight_if]. ring. }
  rewrite (sum_n_ext _ (fun i => if bin_test xe i a then (if Qle_bool (at_ ye 0) b && Qle_bool b (at_ ye (length ye - 1)) then w else 0) else 0)).
  - rewrite One by assumption. destruct (Qle_bool (at_ xe 0) a && Qle_bool a (at_ xe (length xe - 1))); reflexivity.
  - intros i _. destruct (bin_test xe i a); cbn [andb]; [apply One; assumption|].
    apply sum_n_zero. intros k _. apply Qeq_refl.
Qed.
Lemma weight_where_total xe ye l : nondecreasing xe -> nondecreasing ye -> (2 <= length xe)%nat -> (2 <= length ye)%nat ->
  sum_n (fun i => sum_n (fun j => weight_where (fun a b => bin_test xe i a && bin_test ye j b) l) 0 (length ye - 1)) 0 (length xe - 1) ==
  weight_where (fun a b => (Qle_bool (at_ xe 0) a && Qle_bool a (at_ xe (length xe - 1))) && (Qle_bool (at_ ye 0) b && Qle_bool b (at_ ye (length ye - 1)))) l.
Proof.
  intros Mx My Lx Ly. induction l as [|[[a b] w] l IH]; cbn [weight_where].
  - apply sum_n_zero. intros i _. apply sum_n_zero. intros j _. apply Qeq_refl.
  - rewrite <- IH. rewrite <- (one_cell xe ye a b w Mx My Lx Ly). rewrite <- sum_n_plus. apply sum_n_ext. intros i _.
    rewrite <- sum_n_plus. apply Qeq_refl.
Qed.

(** ** Thinning *)
Lemma nth_error_skipn {A} k (l : list A) i : nth_error (skipn k l) i = nth_error l (k + i).
Proof. revert l. induction k as [|k IH]; intros [|x l]; cbn [skipn Nat.add nth_error]; try reflexivity; [destruct i; reflexivity|apply IH]. Qed.
Lemma every_fuel_spec {A} fuel k (l : list A) : (1 <= k)%nat -> (length l <= fuel)%nat -> every_kth k l (every_fuel fuel k l).
Proof.
  intros Hk. revert l. induction fuel as [|fuel IH]; intros l L i.
  - destruct l; [|cbn in L; lia]. cbn. destruct (i * k)%nat, i; reflexivity.
  - destruct l as [|x r]; [cbn [every_fuel]; destruct (i * k)%nat, i; reflexivity|]. cbn [every_fuel].
    destruct i as [|i]; [reflexivity|]. cbn [nth_error]. rewrite IH by (rewrite skipn_length; cbn in L; lia).
    rewrite nth_error_skipn. replace (S i * k)%nat with (S (k - 1 + i * k)) by nia. reflexivity.
Qed.
Lemma every_spec {A} k (l : list A) : (1 <= k)%nat -> every_kth k l (every k l).
Proof. intros H. apply every_fuel_spec; [exact H|lia]. Qed.
Lemma every_kth_length {A} k (l out : list A) : (1 <= k)%nat -> every_kth k l out ->
  (length l <= length out * k)%nat /\ (out <> [] -> ((length out - 1) * k < length l)%nat).
Proof.
  intros Hk H. split.
  - apply nth_error_None. rewrite <- H. apply nth_error_None. lia.
  - intros N. assert (L : (0 < length out)%nat) by (destruct out; [congruence|cbn; lia]).
    apply nth_error_Some. rewrite <- H. apply nth_error_Some. lia.
Qed.
Lemma every_kth_combine {A B} k (x : list A) (y : list B) ox oy : length x = length y ->
  every_kth k x ox -> every_kth k y oy -> every_kth k (combine x y) (combine ox oy).
Proof.
  assert (N : forall (P : Type) (Q : Type) (u : list P) (v : list Q) i, nth_error (combine u v) i =
    match nth_error u i, nth_error v i with Some a, Some b => Some (a, b) | _, _ => None end).
  { intros P Q. induction u as [|a u IH]; intros [|b v] [|i]; cbn; try reflexivity; [destruct (nth_error u i); reflexivity|apply IH]. }
  intros L Hx Hy i. rewrite !N, Hx, Hy. reflexivity.
Qed.
Lemma cloud_skip_pos n N k : cloud_skip n N = Ok k -> (1 <= k)%nat.
Proof. unfold cloud_skip. destruct (Qeq_bool N 0); [discriminate|]. injection 1 as <-. lia. Qed.
Lemma trunc_div n N : (0 < N)%Z -> trunc (nq n / inject_Z N) = (Z.of_nat n / N)%Z.
Proof.
  intros H. unfold trunc.
  assert (Hq : 0 < inject_Z N) by (unfold Qlt; cbn; lia).
  assert (P : 0 <= nq n / inject_Z N).
  { apply Qle_shift_div_l; [exact Hq|]. pose proof (nq_nonneg n). lra. }
  apply qle_true in P. rewrite P. unfold nq. destruct N as [|p|p]; [lia| |lia].
  unfold Qdiv, Qinv, inject_Z. cbn [Qnum Qden]. unfold Qmult, Qfloor. cbn [Qnum Qden]. rewrite Z.mul_1_r. reflexivity.
Qed.
Lemma cloud_count n N k c : (1 <= N)%nat -> cloud_skip n (inject_Z (Z.of_nat N)) = Ok k ->
  (n <= c * k)%nat -> (c <> 0%nat -> ((c - 1) * k < n)%nat) ->
  ((n < N)%nat -> k = 1%nat) /\ ((N <= n)%nat -> (N <= c <= 2 * N - 1)%nat).
Proof.
  intros HN E H1 H2. unfold cloud_skip in E.
  destruct (Qeq_bool _ 0) eqn:Z0; [discriminate|]. injection E as E. rewrite trunc_div in E by lia. split.
  - intros Hn. rewrite Z.div_small in E by lia. rewrite Z.max_l in E by lia. symmetry. exact E.
  - intros Hn. pose proof (Z.div_mod (Z.of_nat n) (Z.of_nat N) ltac:(lia)) as D.
    pose proof (Z.mod_pos_bound (Z.of_nat n) (Z.of_nat N) ltac:(lia)) as B.
    assert (Hq : (1 <= Z.of_nat n / Z.of_nat N)%Z) by (apply Z.div_le_lower_bound; lia).
    rewrite Z.max_r in E by lia. set (q := (Z.of_nat n / Z.of_nat N)%Z) in *. set (r := (Z.of_nat n mod Z.of_nat N)%Z) in *.
    assert (Ek : Z.of_nat k = q) by lia.
    assert (C0 : c <> 0%nat) by (intros ->; lia). specialize (H2 C0).
    assert (H1' : (Z.of_nat n <= Z.of_nat c * q)%Z) by nia.
    assert (H2' : ((Z.of_nat c - 1) * q < Z.of_nat n)%Z) by nia.
    split; [nia|]. assert ((Z.of_nat c <= 2 * Z.of_nat N - 1)%Z) by nia. lia.
Qed.

(** ** Levels *)
Section levels.
Open Scope R_scope.
Variable Phi : R -> R.
Hypothesis HPhi : normal_cdf_like Phi.
Lemma level_zero b : (if b : bool then 1 - exp (- (1 / 2) * (Q2R 0 * Q2R 0)) else 2 * Phi (Q2R 0) - 1) = 0.
Proof.
  assert (Z : Q2R 0 = 0) by (unfold Q2R; cbn; Lra.lra). rewrite Z. destruct b.
  - rewrite Rmult_0_l, Rmult_0_r, exp_0. Lra.lra.
  - destruct HPhi as [_ [-> _]]. Lra.lra.
Qed.
Lemma level_mono (b : bool) x y : 0 <= x -> x < y ->
  (if b then 1 - exp (- (1 / 2) * (x * x)) else 2 * Phi x - 1) < (if b then 1 - exp (- (1 / 2) * (y * y)) else 2 * Phi y - 1).
Proof.
  intros Hx Hy. destruct b.
  - enough (exp (- (1 / 2) * (y * y)) < exp (- (1 / 2) * (x * x))) by Lra.lra. apply exp_increasing. Lra.nra.
  - destruct HPhi as [M _]. specialize (M x y Hy). Lra.lra.
Qed.
Lemma level_lt1 (b : bool) x : (if b then 1 - exp (- (1 / 2) * (x * x)) else 2 * Phi x - 1) < 1.
Proof.
  destruct b.
  - pose proof (exp_pos (- (1 / 2) * (x * x))). Lra.lra.
  - destruct HPhi as [_ [_ M]]. specialize (M x). Lra.lra.
Qed.
Lemma levels_increase_iff l : levels_increase l = true <-> increasing_R l.
Proof.
  induction l as [|a [|b r] IH]; cbn [levels_increase].
  - split; [intros _ i j _ H; cbn in H; lia|reflexivity].
  - split; [intros _ i j H1 H2; cbn in H2; lia|reflexivity].
  - rewrite andb_true_iff. destruct (Rlt_dec a b) as [Hab|Hab].
    + split.
      * intros [_ H] i j Hij Hj. apply IH in H. destruct i as [|i], j as [|j]; try lia.
        -- destruct j as [|j]; cbn [nth]; [exact Hab|]. apply Rlt_trans with b; [exact Hab|].
           apply (H 0%nat (S j)); cbn in *; lia.
        -- apply (H i j); cbn in *; lia.
      * intros H. split; [reflexivity|]. apply IH. intros i j Hij Hj. apply (H (S i) (S j)); cbn in *; lia.
    + split; [intros [C _]; discriminate|]. intros H. exfalso. apply Hab. apply (H 0%nat 1%nat); cbn; lia.
Qed.
End levels.

(** ** The surface *)
Lemma map_fst_combine {A B} (l : list A) (r : list B) : length l = length r -> map fst (combine l r) = l.
Proof. revert r. induction l as [|a l IH]; intros [|b r] H; cbn in *; try lia; [reflexivity|]. f_equal. apply IH. lia. Qed.
Lemma same_shape_length {A B} (m : list (list A)) (v : list (list B)) : same_shape m v -> length (concat m) = length (concat v).
Proof.
  unfold same_shape. revert v. induction m as [|r m IH]; intros [|s v] H; cbn in *; try discriminate; [reflexivity|].
  injection H as H1 H2. rewrite !app_length, H1. f_equal. apply IH, H2.
Qed.
Lemma convert_credible argsort m : argsort_ok argsort -> all_nonneg (concat m) -> 0 < total (concat m) ->
  exists v, convert_to_stdev argsort m = Ok v /\ credible_surface m v.
Proof.
  intros A Hn Hp. rewrite <- qsum_total in Hp.
  destruct (convert_cells argsort A m Hp) as [v [E [S [Tp [T P]]]]]. exists v. split; [exact E|].
  set (s := map (fun i => nth i (concat m) 0) (rev (argsort (concat m)))) in *.
  set (tot := last (cumsum s) 0) in *.
  assert (Ls : length s = length (concat m)) by apply (s_len argsort A m).
  assert (Hs : all_nonneg s) by apply (s_nonneg argsort A m Hn).
  assert (Hd : forall a b, (a < b)%nat -> (b < length s)%nat -> at_ s b <= at_ s a) by (intros a b; apply (s_desc argsort A m)).
  rewrite <- Ls in P.
  set (x := fun a => at_ (map (fun v => v / tot) (cumsum s)) a) in *.
  assert (PI : forall h y, In (h, y) (cells m v) -> exists a, (a < length s)%nat /\ h = at_ s a /\ y = x a).
  { intros h y HI. apply (Permutation_in _ P) in HI. apply in_map_iff in HI as [a [Ea Ha]]. apply in_seq in Ha.
    injection Ea as <- <-. exists a. split; [lia|]. split; reflexivity. }
  assert (PM : forall p, mass p (cells m v) == mass p (map (fun a => (at_ s a, x a)) (seq 0 (length s)))) by (intros p; apply mass_perm, P).
  assert (TQ : total (concat m) == tot) by (rewrite <- qsum_total; symmetry; exact T).
  assert (All : qsum (concat m) == mass (fun _ _ => true) (cells m v)).
  { rewrite mass_true by reflexivity. unfold cells. rewrite map_fst_combine; [reflexivity|]. apply same_shape_length, S. }
  assert (MLe : forall p, mass p (cells m v) <= mass (fun _ _ => true) (cells m v)).
  { intros p. assert (H0 : forall h y, In (h, y) (cells m v) -> 0 <= h).
    { intros h y HI. apply in_combine_l in HI. apply Hn, HI. }
    clear -H0. induction (cells m v) as [|[h y] r IH]; cbn [mass]; [lra|].
    assert (0 <= h) by (apply (H0 h y); left; reflexivity).
    assert (mass p r <= mass (fun _ _ => true) r) by (apply IH; intros h' y' HI; apply (H0 h' y'); right; exact HI).
    destruct (p h y); lra. }
  split; [exact S|]. split; [|split].
  - intros h y HI. destruct (PI h y HI) as [a [Ha [-> ->]]]. rewrite TQ, !PM.
    set (prs := map (fun a => (at_ s a, x a)) (seq 0 (length s))) in *.
    assert (B1 : mass (fun h' _ => below (at_ s a) h') prs + at_ s a <= x a * tot) by exact (lower s Hs Hd tot Tp a Ha).
    assert (B2 : x a * tot <= mass (fun h' _ => Qle_bool (at_ s a) h') prs) by exact (upper s Hs Hd tot Tp a Ha).
    split; [exact B1|]. split; [exact B2|].
    assert (N : 0 <= at_ s a) by (apply Hs, nth_In; exact Ha).
    assert (M0 : 0 <= mass (fun h' _ => below (at_ s a) h') prs).
    { assert (H0 : forall h y, In (h, y) prs -> 0 <= h).
      { intros h y HJ. apply in_map_iff in HJ as [b [Eb Hb]]. apply in_seq in Hb. injection Eb as <- _. apply Hs, nth_In. lia. }
      clear -H0. clearbody prs. induction prs as [|[h y] r IH]; cbn [mass]; [lra|].
      assert (0 <= h) by (apply (H0 h y); left; reflexivity).
      assert (0 <= mass (fun h' _ => below (at_ s a) h') r) by (apply IH; intros h' y' HJ; apply (H0 h' y'); right; exact HJ).
      destruct (below (at_ s a) h); lra. }
    assert (Top : x a * tot <= tot).
    { eapply Qle_trans; [exact B2|]. rewrite <- (PM (fun h' _ => Qle_bool (at_ s a) h')), <- TQ, <- qsum_total, All. apply MLe. }
    assert (P0 : 0 <= x a * tot) by lra.
    split; [split|].
    + destruct (Qlt_le_dec (x a) 0); [|assumption]. exfalso. assert (x a * tot < 0 * tot) by (apply Qmult_lt_compat_r; assumption). lra.
    + destruct (Qlt_le_dec 1 (x a)); [|assumption]. exfalso. assert (1 * tot < x a * tot) by (apply Qmult_lt_compat_r; assumption). lra.
    + intros Hh. destruct (Qlt_le_dec 0 (x a)); [assumption|]. exfalso. assert (x a * tot <= 0 * tot) by (apply Qmult_le_compat_r; [assumption|lra]). lra.
  - intros h y h' y' H1 H2 Hp' Hlt. destruct (PI _ _ H1) as [a [Ha [-> ->]]]. destruct (PI _ _ H2) as [b [Hb [-> ->]]].
    assert (a < b)%nat.
    { destruct (Nat.lt_trichotomy a b) as [L|[L|L]]; [exact L|subst; lra|]. pose proof (Hd b a L Ha). lra. }
    apply (x_lt s Hs tot Tp a b); assumption.
  - intros L HL. rewrite TQ, PM. apply (region s Hs tot Tp L HL).
Qed.

(** ** The smoothed histogram *)
Lemma linspace_len a b n : length (linspace a b n) = n.
Proof. apply linspace_length. Qed.
Lemma rbind_ok {A B} (r : res A) (k : A -> res B) b : rbind r k = Ok b -> exists a, r = Ok a /\ k a = Ok b.
Proof. destruct r; cbn; intros H; [eexists; split; [reflexivity|exact H]|discriminate]. Qed.
Lemma weight_where_nonneg p l : (forall q, In q l -> 0 <= snd q) -> 0 <= weight_where p l.
Proof.
  induction l as [|[[x y] w] l IH]; intros H; cbn [weight_where]; [lra|].
  assert (0 <= w) by apply (H (x, y, w)), or_introl, eq_refl.
  assert (0 <= weight_where p l) by (apply IH; intros q Hq; apply H; right; exact Hq). destruct (p x y); lra.
Qed.
Lemma shaped_In {A} (d : A) m a b v : shaped m a b -> In v (concat m) -> exists i j, (i < a)%nat /\ (j < b)%nat /\ v = cell d m i j.
Proof.
  intros [L R] H. apply in_concat in H as [r [Hr Hv]]. pose proof (R r Hr) as Lr.
  apply (In_nth _ _ []) in Hr as [i [Hi Er]]. apply (In_nth _ _ d) in Hv as [j [Hj Ev]].
  exists i, j. split; [lia|]. split; [lia|]. unfold cell. rewrite Er, Ev. reflexivity.
Qed.
Lemma shaped_nonneg m a b : shaped m a b -> (forall i j, (i < a)%nat -> (j < b)%nat -> 0 <= cell 0 m i j) -> all_nonneg (concat m).
Proof. intros S H v Hv. destruct (shaped_In 0 m a b v S Hv) as [i [j [Hi [Hj ->]]]]. apply H; assumption. Qed.
Lemma qsum_nonneg_map {A} (f : A -> Q) l : (forall x, In x l -> 0 <= f x) -> 0 <= qsum (map f l).
Proof. induction l as [|x l IH]; cbn; intros H; [lra|]. pose proof (H x (or_introl eq_refl)). pose proof (IH (fun y Hy => H y (or_intror Hy))). lra. Qed.
Lemma filter1d_nonneg2 kern l : all_nonneg kern -> all_nonneg l -> all_nonneg (filter1d kern l).
Proof.
  intros K H v Hv. unfold filter1d in Hv. apply in_map_iff in Hv as [i [<- _]]. apply qsum_nonneg_map. intros k Hk. apply in_seq in Hk.
  assert (N : forall l i, all_nonneg l -> 0 <= nth i l 0).
  { intros l0 i0 H0. destruct (Nat.lt_ge_cases i0 (length l0)); [apply H0, nth_In; assumption|rewrite nth_overflow by assumption; lra]. }
  apply Qmult_le_0_compat; apply N; assumption.
Qed.
Lemma rows_nonneg (m : matrix) : all_nonneg (concat m) <-> forall r, In r m -> all_nonneg r.
Proof.
  split.
  - intros H r Hr v Hv. apply H, in_concat. exists r. split; assumption.
  - intros H v Hv. apply in_concat in Hv as [r [Hr Hv]]. apply (H r Hr v Hv).
Qed.
Lemma transpose_nonneg m : all_nonneg (concat m) -> all_nonneg (concat (transpose 0 m)).
Proof.
  intros H. apply rows_nonneg. intros r Hr v Hv. unfold transpose in Hr. apply in_map_iff in Hr as [j [<- Hj]].
  apply in_map_iff in Hv as [i [<- Hi]]. apply in_seq in Hi. unfold entry.
  destruct (Nat.lt_ge_cases j (length (nth i m []))) as [L|L]; [|rewrite nth_overflow by exact L; lra].
  apply (proj1 (rows_nonneg m) H (nth i m [])); apply nth_In; [lia|exact L].
Qed.
Lemma filter2d_nonneg kern m : all_nonneg kern -> all_nonneg (concat m) -> all_nonneg (concat (filter2d kern m)).
Proof.
  intros K H.
  assert (F : forall m, all_nonneg (concat m) -> all_nonneg (concat (map (filter1d kern) m))).
  { intros m0 H0. apply rows_nonneg. intros r Hr. apply in_map_iff in Hr as [r' [<- Hr']].
    apply filter1d_nonneg2; [exact K|]. apply (proj1 (rows_nonneg m0) H0 r' Hr'). }
  apply F, transpose_nonneg, F, transpose_nonneg, H.
Qed.

Section surface.
Variable num : numerics.
Variable kde2 : list Q -> list Q -> list Q -> Q -> Q * Q -> Q.
Variable c : chain.
Variable f : frame.
Variables px py : string.
Let edges d w := if ch_grid c then get_grid_bins d
  else rmap fst (get_smoothed_bins (n_bins num) (smooth_value (ch_cfg c Fsmooth) (ch_grid c))
         (get_bins (ch_cfg c Fbins) (ch_cfg c Fsmooth) (ch_grid c) (f_rows f) (length (f_cols f))) (combine d w) false false).
Lemma surface_inv hist xc yc : get_smoothed_histogram2d num kde2 c f px py = Ok (hist, xc, yc) ->
  exists x y w ex ey, get_data f px = Ok x /\ get_data f py = Ok y /\ weights c f = Ok w /\ edges x w = Ok ex /\ edges y w = Ok ey /\
    let raw := map (map (n_power num (ch_power c))) (histogram2d ex ey x y w) in
    if kde_on (ch_cfg c Fkde) then
      ex <> [] /\ ey <> [] /\ let nn := ((length ex - 1) * 2)%nat in
      xc = linspace (qmin_list (hd 0 ex) (tl ex)) (qmax_list (hd 0 ex) (tl ex)) nn /\
      yc = linspace (qmin_list (hd 0 ey) (tl ey)) (qmax_list (hd 0 ey) (tl ey)) nn /\
      hist = map (fun a => map (fun b => n_power num (ch_power c) (kde2 x y w (kde_value (ch_cfg c Fkde)) (a, b))) yc) xc
    else xc = bin_centers ex /\ yc = bin_centers ey /\
      hist = let sv := smooth_value (ch_cfg c Fsmooth) (ch_grid c) in if (0 <? sv)%Z then filter2d (n_kernel num sv) raw else raw.
Proof.
  unfold get_smoothed_histogram2d. intros H.
  apply rbind_ok in H as [x [Ex H]]. apply rbind_ok in H as [y [Ey H]]. apply rbind_ok in H as [w [Ew H]]. cbv zeta in H.
  apply rbind_ok in H as [ex [Eex H]]. apply rbind_ok in H as [ey [Eey H]].
  exists x, y, w, ex, ey. split; [exact Ex|]. split; [exact Ey|]. split; [exact Ew|]. split; [exact Eex|]. split; [exact Eey|].
  cbv zeta. destruct (kde_on (ch_cfg c Fkde)).
  - destruct ex as [|bx rx]; [discriminate|]. destruct ey as [|by_ ry]; [discriminate|]. rewrite bin_centers_length in H. injection H as <- <- <-.
    cbn [hd tl]. split; [discriminate|]. split; [discriminate|]. split; [reflexivity|]. split; reflexivity.
  - injection H as <- <- <-. split; [reflexivity|]. split; reflexivity.
Qed.
Lemma surface_shaped hist xc yc : get_smoothed_histogram2d num kde2 c f px py = Ok (hist, xc, yc) ->
  xc <> [] -> yc <> [] -> shaped hist (length xc) (length yc).
Proof.
  intros H Nx Ny. apply surface_inv in H as [x [y [w [ex [ey [_ [_ [_ [_ [_ H]]]]]]]]]]. cbv zeta in H.
  destruct (kde_on (ch_cfg c Fkde)).
  - destruct H as [_ [_ [_ [_ ->]]]]. split; [apply map_length|]. intros r Hr. apply in_map_iff in Hr as [a [<- _]]. apply map_length.
  - destruct H as [-> [-> ->]]. rewrite !bin_centers_length.
    assert (Lx : (0 < length ex - 1)%nat) by (rewrite <- bin_centers_length; destruct (bin_centers ex); [congruence|cbn; lia]).
    assert (Ly : (0 < length ey - 1)%nat) by (rewrite <- bin_centers_length; destruct (bin_centers ey); [congruence|cbn; lia]).
    assert (S0 := map_map_shaped (n_power num (ch_power c)) _ _ _ (histogram2d_shaped ex ey x y w)).
    destruct (0 <? _)%Z; [apply filter2d_shaped; assumption|exact S0].
Qed.
Lemma surface_nonneg hist xc yc :
  (forall p v, 0 <= v -> 0 <= n_power num p v) -> (forall s, all_nonneg (n_kernel num s)) -> (forall x y w t p, 0 <= kde2 x y w t p) ->
  (forall w, weights c f = Ok w -> all_nonneg w) ->
  get_smoothed_histogram2d num kde2 c f px py = Ok (hist, xc, yc) -> all_nonneg (concat hist).
Proof.
  intros HP HK HD HW H. apply surface_inv in H as [x [y [w [ex [ey [_ [_ [Ew [_ [_ H]]]]]]]]]]. cbv zeta in H.
  destruct (kde_on (ch_cfg c Fkde)).
  - destruct H as [_ [_ [_ [_ ->]]]]. apply rows_nonneg. intros r Hr v Hv. apply in_map_iff in Hr as [a [<- _]].
    apply in_map_iff in Hv as [b [<- _]]. apply HP, HD.
  - destruct H as [_ [_ ->]]. assert (R : all_nonneg (concat (map (map (n_power num (ch_power c))) (histogram2d ex ey x y w)))).
    { apply rows_nonneg. intros r Hr v Hv. apply in_map_iff in Hr as [r' [<- Hr']]. apply in_map_iff in Hv as [u [<- Hu]]. apply HP.
      unfold histogram2d in Hr'. apply in_map_iff in Hr' as [bx [<- _]]. apply in_map_iff in Hu as [by_ [<- _]].
      apply qsum_nonneg_map. intros [[a b] ww] Hq. cbn [fst snd]. apply in_combine_r in Hq.
      pose proof (HW w Ew ww Hq). destruct (bx a && by_ b); lra. }
    destruct (0 <? _)%Z; [apply filter2d_nonneg; [apply HK|exact R]|exact R].
Qed.
End surface.

(** ** Contours *)
Lemma fill_positive (m : matrix) : all_nonneg (concat m) -> concat m <> [] ->
  let m' := map (map (fun v => if Qeq_bool v 0 then (1 # 10000000000000000) else v)) m in
  all_nonneg (concat m') /\ 0 < total (concat m').
Proof.
  intros H N. cbv zeta. set (g := fun v => if Qeq_bool v 0 then (1 # 10000000000000000) else v).
  assert (E : concat (map (map g) m) = map g (concat m)) by (rewrite concat_map; reflexivity).
  assert (G : forall v, 0 <= v -> 0 < g v).
  { intros v Hv. unfold g. destruct (Qeq_bool v 0) eqn:Z; [reflexivity|]. apply qeqb_false in Z. destruct (Qlt_le_dec 0 v); [assumption|]. exfalso. apply Z. lra. }
  rewrite E. split.
  - intros v Hv. apply in_map_iff in Hv as [u [<- Hu]]. apply Qlt_le_weak, G, H, Hu.
  - rewrite <- qsum_total. destruct (concat m) as [|v r]; [congruence|]. cbn [map qsum].
    pose proof (G v (H v (or_introl eq_refl))). assert (0 <= qsum (map g r)); [|lra].
    apply qsum_nonneg_map. intros u Hu. apply Qlt_le_weak, G, H. right. exact Hu.
Qed.

Section contour.
Variable num : numerics.
Variable kde2 : list Q -> list Q -> list Q -> Q -> Q * Q -> Q.
Variable argsort : list Q -> list nat.
Variable Phi : R -> R.
Lemma opacity_ok_iff a k : opacity_ok a k = true <-> exists v, alpha_value a = Some v /\ (0 <= v * Q2R k <= 1)%R.
Proof.
  revert k. induction a as [q|n|a IH]; intros k.
  - cbn [opacity_ok alpha_value]. rewrite andb_true_iff, !Qle_bool_iff. split.
    + intros [H1 H2]. exists (Q2R q). split; [reflexivity|]. rewrite <- Q2R_mult. apply Qle_Rle in H1, H2. unfold Q2R at 1 in H1. unfold Q2R at 2 in H2. cbn in H1, H2. Lra.lra.
    + intros [v [E H]]. injection E as <-. rewrite <- Q2R_mult in H. split; apply Rle_Qle; [unfold Q2R at 1|unfold Q2R at 2]; cbn; Lra.lra.
  - destruct n as [|n]; [cbn; split; [discriminate|intros [v [E _]]; discriminate]|]. cbn [opacity_ok]. rewrite andb_true_iff, !Qle_bool_iff.
    assert (P : (0 < INR (S n))%R) by (apply lt_0_INR; lia). assert (SP : (0 < sqrt (INR (S n)))%R) by (apply sqrt_lt_R0; exact P).
    assert (SS : (sqrt (INR (S n)) * sqrt (INR (S n)) = INR (S n))%R) by (apply sqrt_def; Lra.lra).
    assert (NQ : Q2R (nq (S n)) = INR (S n)) by (unfold nq, inject_Z, Q2R; cbn [Qnum Qden]; rewrite INR_IZR_INZ; Lra.lra).
    change (alpha_value (AInvSqrt (S n))) with (Some (1 / sqrt (INR (S n)))%R).
    assert (V : forall x : R, (1 / sqrt (INR (S n)) * x = x / sqrt (INR (S n)))%R) by (intros x; field; Lra.lra).
    split.
    + intros [H1 H2]. eexists. split; [reflexivity|]. rewrite V. apply Qle_Rle in H1, H2. rewrite Q2R_mult, NQ in H2. unfold Q2R at 1 in H1. cbn in H1.
      assert (K : (Q2R k <= sqrt (INR (S n)))%R) by (apply Rsqr_incr_0_var; [unfold Rsqr; Lra.lra|Lra.lra]). split; [apply Rmult_le_pos; [Lra.lra|left; apply Rinv_0_lt_compat; exact SP]|]. apply (Rmult_le_reg_r (sqrt (INR (S n)))); [exact SP|]. unfold Rdiv. rewrite Rmult_assoc, Rinv_l by Lra.lra. Lra.lra.
    + intros [v [E H]]. assert (EV : v = (1 / sqrt (INR (S n)))%R) by congruence. rewrite EV, V in H. destruct H as [H1 H2].
      assert (K0 : (0 <= Q2R k)%R). { apply (Rmult_le_compat_r (sqrt (INR (S n)))) in H1; [|Lra.lra]. unfold Rdiv in H1. rewrite Rmult_assoc, Rinv_l in H1 by Lra.lra. Lra.lra. }
      assert (K1 : (Q2R k <= sqrt (INR (S n)))%R). { apply (Rmult_le_compat_r (sqrt (INR (S n)))) in H2; [|Lra.lra]. unfold Rdiv in H2. rewrite Rmult_assoc, Rinv_l in H2 by Lra.lra. Lra.lra. }
      split; apply Rle_Qle; [unfold Q2R at 1; cbn; Lra.lra|]. rewrite Q2R_mult, NQ, <- SS. apply Rmult_le_compat; Lra.lra.
  - cbn [opacity_ok]. rewrite IH. assert (HK : Q2R (k / 2) = (Q2R k / 2)%R). { unfold Qdiv. rewrite Q2R_mult, Q2R_inv by discriminate. unfold Q2R at 2. cbn. Lra.lra. } rewrite HK. cbn [alpha_value]. split.
    + intros [v [E H]]. rewrite E. exists (v * (1 / 2))%R. split; [reflexivity|]. Lra.lra.
    + intros [v [E H]]. destruct (alpha_value a) as [u|]; [|discriminate]. cbn in E. injection E as <-. exists u. split; [reflexivity|]. Lra.lra.
Qed.

Lemma opaque_enough a : opacity_ok a 1 = true -> exists v, alpha_value a = Some v /\ (0 <= v <= 1)%R.
Proof. intros H. apply opacity_ok_iff in H as [v [E H]]. exists v. split; [exact E|]. replace (Q2R 1) with 1%R in H by (unfold Q2R; cbn; Lra.lra). rewrite Rmult_1_r in H. exact H. Qed.
Lemma contour_args_ok xc yc z levels filled : contour_args xc yc z levels filled = Ok tt ->
  (2 <= length z)%nat /\ (2 <= width z)%nat /\ length z = length yc /\ width z = length xc /\ (filled = true -> (2 <= length levels)%nat) /\ increasing_R levels.
Proof.
  unfold contour_args. destruct (negb _) eqn:A; [discriminate|]. destruct (negb (_ && _)) eqn:B in |- *; [discriminate|].
  destruct (filled && _) eqn:C; [discriminate|]. destruct (negb (levels_increase levels)) eqn:D; [discriminate|]. intros _.
  apply negb_false_iff in A, B, D. apply andb_true_iff in A as [A1 A2], B as [B1 B2].
  apply Nat.leb_le in A1, A2. apply Nat.eqb_eq in B1, B2. apply levels_increase_iff in D.
  split; [exact A1|]. split; [exact A2|]. split; [exact B1|]. split; [exact B2|]. split; [|exact D].
  intros ->. rewrite andb_true_l in C. apply Nat.ltb_ge in C. exact C.
Qed.
Lemma filled_args_ok a xc yc z levels : filled_args a xc yc z levels = Ok tt <-> opacity_ok a 1 = true /\ contour_args xc yc z levels true = Ok tt.
Proof. unfold filled_args. destruct (opacity_ok a 1); split; [auto|intros [_ H]; exact H|discriminate|intros [H _]; discriminate]. Qed.
Lemma contour_inv s2 c f px py ds : plot_contour num kde2 argsort Phi s2 c f px py = Ok ds ->
  exists base cols hist xc yc vals,
    chain_colour c = Ok base /\
    contour_colours base (length (ch_cfg c Fsigmas)) (ch_cfg c Fshade_gradient) (ch_cfg c Fshade) = Ok cols /\
    get_smoothed_histogram2d num kde2 c f px py = Ok (hist, xc, yc) /\
    convert_to_stdev argsort (map (map (fun v => if Qeq_bool v 0 then (1 # 10000000000000000) else v)) hist) = Ok vals /\
    let levels := get_levels Phi s2 (ch_cfg c Fsigmas) in
    let shaded : bool := ch_cfg c Fshade && alpha_positive (ch_cfg c Fshade_alpha) in
    levels <> [] /\ (shaded = true -> (2 <= length levels)%nat) /\ increasing_R levels /\
    (2 <= length (transpose 0%Q vals))%nat /\ (2 <= width (transpose 0%Q vals))%nat /\ length (transpose 0%Q vals) = length yc /\ width (transpose 0%Q vals) = length xc /\
    ds = (if shaded then [Filled xc yc (transpose 0%Q vals) levels (fst cols) (ch_cfg c Fshade_alpha) (ch_cfg c Fzorder - 2)%Z] else []) ++
         [Lines xc yc (transpose 0%Q vals) levels (snd cols) (ch_cfg c Flinestyle) (ch_cfg c Flinewidth) (ch_cfg c Fzorder)] ++
         (if (ch_cfg c Fshow_contour_labels : bool) then [LevelLabels (map (fun l => (l, level_label l)) (nonzero_levels levels))] else []).
Proof.
  unfold plot_contour. cbv zeta. intros H. apply rbind_ok in H as [base [Eb H]]. apply rbind_ok in H as [cols [E0 H]].
  apply rbind_ok in H as [[[hist xc] yc] [Eh H]]. apply rbind_ok in H as [vals [Ev H]].
  apply rbind_ok in H as [u1 [E1 H]]. apply rbind_ok in H as [u2 [E2 H]]. destruct u1, u2. injection H as <-.
  rewrite (map_length _ _ : length (get_levels Phi s2 (ch_cfg c Fsigmas)) = _) in E0.
  exists base, cols, hist, xc, yc, vals. split; [exact Eb|]. split; [exact E0|]. split; [exact Eh|]. split; [exact Ev|].
  apply contour_args_ok in E2 as [A1 [A2 [A3 [A4 [_ A6]]]]].
  split; [intros C; apply contour_colours_inv in E0 as [_ N]; apply N; rewrite <- (map_length _ _ : length (get_levels Phi s2 (ch_cfg c Fsigmas)) = _), C; reflexivity|]. split.
  { intros C. rewrite C in E1. apply filled_args_ok in E1 as [_ E1]. apply contour_args_ok in E1 as [_ [_ [_ [_ [A5 _]]]]]. apply A5, eq_refl. }
  split; [exact A6|]. split; [exact A1|]. split; [exact A2|]. split; [exact A3|]. split; [exact A4|]. reflexivity.
Qed.
Lemma transpose_dims {A} (d : A) m a b : shaped m a b -> (0 < a)%nat -> length (transpose d m) = b.
Proof. intros S H. destruct (transpose_shaped d m a b S H) as [L _]. exact L. Qed.
Lemma transpose_pos {A} (d : A) m : (1 <= length (transpose d m))%nat -> (0 < length m)%nat.
Proof. unfold transpose. rewrite map_length, seq_length. destruct m; cbn; lia. Qed.
Lemma contour_drawn s2 c f px py ds : argsort_ok argsort ->
  (forall p v, 0 <= v -> 0 <= n_power num p v) -> (forall s, all_nonneg (n_kernel num s)) -> (forall x y w t p, 0 <= kde2 x y w t p) ->
  (forall w, weights c f = Ok w -> all_nonneg w) -> plot_contour num kde2 argsort Phi s2 c f px py = Ok ds ->
  exists hist xc yc vals z bands lines,
    get_smoothed_histogram2d num kde2 c f px py = Ok (hist, xc, yc) /\ shaped hist (length xc) (length yc) /\
    credible_surface (map (map (fun v => if Qeq_bool v 0 then (1 # 10000000000000000) else v)) hist) vals /\
    shaped z (length yc) (length xc) /\ (forall i j, (i < length xc)%nat -> (j < length yc)%nat -> cell 0 z j i = cell 0 vals i j) /\
    let levels := get_levels Phi s2 (ch_cfg c Fsigmas) in
    let shaded : bool := ch_cfg c Fshade && alpha_positive (ch_cfg c Fshade_alpha) in
    increasing_R levels /\
    ds = (if shaded then [Filled xc yc z levels bands (ch_cfg c Fshade_alpha) (ch_cfg c Fzorder - 2)%Z] else []) ++
         [Lines xc yc z levels lines (ch_cfg c Flinestyle) (ch_cfg c Flinewidth) (ch_cfg c Fzorder)] ++
         (if (ch_cfg c Fshow_contour_labels : bool) then [LevelLabels (map (fun l => (l, level_label l)) (nonzero_levels levels))] else []).
Proof.
  intros HA HP HK HD HW H. apply contour_inv in H as [base [cols [hist [xc [yc [vals [Eb [_ [Eh [Ev H]]]]]]]]]]. cbv zeta in H.
  destruct H as [N0 [N1 [Hinc [Z1 [Z2 [Z3 [Z4 ->]]]]]]].
  exists hist, xc, yc, vals, (transpose 0%Q vals), (fst cols), (snd cols). split; [exact Eh|].
  assert (Nx : xc <> []) by (intros ->; cbn in Z4; lia). assert (Ny : yc <> []) by (intros ->; cbn in Z3; lia).
  assert (Lx : (0 < length xc)%nat) by (destruct xc; [congruence|cbn; lia]). assert (Ly : (0 < length yc)%nat) by (destruct yc; [congruence|cbn; lia]).
  pose proof (surface_shaped num kde2 c f px py hist xc yc Eh Nx Ny) as Sh. split; [exact Sh|].
  pose proof (surface_nonneg num kde2 c f px py hist xc yc HP HK HD HW Eh) as Nn.
  assert (Nc : concat hist <> []).
  { intros C. destruct Sh as [L R]. destruct hist as [|r m]; [cbn in L; lia|]. cbn [concat] in C. apply app_eq_nil in C as [C _].
    specialize (R r (or_introl eq_refl)). rewrite C in R. cbn in R. lia. }
  destruct (fill_positive hist Nn Nc) as [F1 F2].
  destruct (convert_credible argsort _ HA F1 F2) as [v [Ev' CS]]. rewrite Ev in Ev'. injection Ev' as <-.
  split; [exact CS|].
  assert (Sv : shaped vals (length xc) (length yc)).
  { apply (same_shape_shaped _ _ _ _ (proj1 CS)), map_map_shaped, Sh. }
  split; [apply transpose_shaped; assumption|]. split; [|split; [exact Hinc|reflexivity]].
  intros i j Hi Hj. apply (transpose_cell 0%Q vals _ _ i j Sv Hi Hj).
Qed.
End contour.

(** ** When contours are drawn *)
Lemma get_levels_length Phi s2 l : length (get_levels Phi s2 l) = length l.
Proof. apply map_length. Qed.
Lemma get_levels_nth Phi s2 l i : (i < length l)%nat ->
  nth i (get_levels Phi s2 l) 0%R = (if s2 then 1 - exp (- (1 / 2) * (Q2R (nth i l 0%Q) * Q2R (nth i l 0%Q))) else 2 * Phi (Q2R (nth i l 0%Q)) - 1)%R.
Proof.
  intros H. unfold get_levels. rewrite (nth_indep _ 0%R ((fun s => if s2 then (1 - exp (- (1 / 2) * (Q2R s * Q2R s)))%R else (2 * Phi (Q2R s) - 1)%R) 0%Q)) by (rewrite map_length; exact H).
  rewrite (map_nth (fun s => if s2 then (1 - exp (- (1 / 2) * (Q2R s * Q2R s)))%R else (2 * Phi (Q2R s) - 1)%R)). reflexivity.
Qed.
Lemma levels_increasing Phi s2 l : normal_cdf_like Phi -> all_nonneg l -> increasing l -> increasing_R (get_levels Phi s2 l).
Proof.
  intros HP Hn Hi i j Hij Hj. rewrite get_levels_length in Hj. rewrite !get_levels_nth by lia. apply level_mono; [exact HP| |].
  - replace 0%R with (Q2R 0) by (unfold Q2R; cbn; Lra.lra). apply Qle_Rle, Hn, nth_In. lia.
  - apply Qlt_Rlt. apply (Hi i j); assumption.
Qed.
Lemma contour_total num kde2 argsort Phi s2 c f px py base hist xc yc : argsort_ok argsort -> normal_cdf_like Phi ->
  (forall p v, 0 <= v -> 0 <= n_power num p v) -> (forall s, all_nonneg (n_kernel num s)) -> (forall x y w t p, 0 <= kde2 x y w t p) ->
  (forall w, weights c f = Ok w -> all_nonneg w) ->
  chain_colour c = Ok base -> valid_colour base -> (-2 < Q2R (ch_cfg c Fshade_gradient) < 10)%R ->
  get_smoothed_histogram2d num kde2 c f px py = Ok (hist, xc, yc) -> (2 <= length xc)%nat -> (2 <= length yc)%nat ->
  all_nonneg (ch_cfg c Fsigmas) -> increasing (ch_cfg c Fsigmas) -> (2 <= length (ch_cfg c Fsigmas))%nat ->
  (ch_cfg c Fshade = true -> exists v, alpha_value (ch_cfg c Fshade_alpha) = Some v /\ (0 <= v <= 1)%R) ->
  exists ds, plot_contour num kde2 argsort Phi s2 c f px py = Ok ds.
Proof.
  intros HA HPh HP HK HD HW Eb Vb Hg Eh Lx Ly Sn Si S2 HO.
  assert (Nx : xc <> []) by (intros ->; cbn in Lx; lia). assert (Ny : yc <> []) by (intros ->; cbn in Ly; lia).
  pose proof (surface_shaped num kde2 c f px py hist xc yc Eh Nx Ny) as Sh.
  pose proof (surface_nonneg num kde2 c f px py hist xc yc HP HK HD HW Eh) as Nn.
  assert (Nc : concat hist <> []).
  { intros C. destruct Sh as [L R]. destruct hist as [|r m]; [cbn in L; lia|]. cbn [concat] in C. apply app_eq_nil in C as [C _].
    specialize (R r (or_introl eq_refl)). rewrite C in R. cbn in R. lia. }
  destruct (fill_positive hist Nn Nc) as [F1 F2].
  destruct (convert_credible argsort _ HA F1 F2) as [v [Ev CS]].
  assert (Sv : shaped v (length xc) (length yc)) by apply (same_shape_shaped _ _ _ _ (proj1 CS)), map_map_shaped, Sh.
  pose proof (transpose_shaped 0%Q v _ _ Sv ltac:(lia)) as St. pose proof (shaped_width _ _ _ St ltac:(lia)) as Wt. destruct St as [Lt _].
  pose proof (levels_increasing Phi s2 _ HPh Sn Si) as LI. pose proof (proj2 (levels_increase_iff _) LI) as LB.
  assert (CA : forall b, contour_args xc yc (transpose 0%Q v) (get_levels Phi s2 (ch_cfg c Fsigmas)) b = Ok tt).
  { intros b. unfold contour_args. rewrite Lt, Wt, LB, !Nat.eqb_refl, get_levels_length.
    apply Nat.leb_le in Lx, Ly. rewrite Lx, Ly. cbn [negb andb]. apply Nat.ltb_ge in S2. rewrite S2, andb_false_r. reflexivity. }
  unfold plot_contour. cbv zeta. rewrite Eb. cbn [rbind].
  rewrite get_levels_length. destruct (contour_colours_spec base _ _ (ch_cfg c Fshade) Vb Hg (ltac:(lia) : (1 <= length (ch_cfg c Fsigmas))%nat)) as [bands [lines [Ec _]]]. rewrite Ec.
  cbn [rbind]. rewrite Eh. cbn [rbind]. rewrite Ev. cbn [rbind]. rewrite !CA.
  assert (FA : ch_cfg c Fshade = true -> filled_args (ch_cfg c Fshade_alpha) xc yc (transpose 0%Q v) (get_levels Phi s2 (ch_cfg c Fsigmas)) = Ok tt).
  { intros SH. apply filled_args_ok. split; [|apply CA]. apply opacity_ok_iff. destruct (HO SH) as [a [Ha1 Ha2]]. exists a. split; [exact Ha1|]. replace (Q2R 1) with 1%R by (unfold Q2R; cbn; Lra.lra). rewrite Rmult_1_r. exact Ha2. }
  destruct (ch_cfg c Fshade); [|cbn [andb rbind]; eexists; reflexivity]. rewrite (FA eq_refl). destruct (_ && _); cbn [rbind]; eexists; reflexivity.
Qed.

(** ** An argsort *)
Fixpoint ins_pair (p : Q * nat) (l : list (Q * nat)) : list (Q * nat) :=
  match l with [] => [p] | q :: r => if Qle_bool (fst p) (fst q) then p :: l else q :: ins_pair p r end.
Definition sorted_argsort (l : list Q) : list nat := map snd (fold_right ins_pair [] (combine l (seq 0 (length l)))).
Lemma ins_pair_perm p l : Permutation (ins_pair p l) (p :: l).
Proof.
  induction l as [|q r IH]; cbn [ins_pair]; [reflexivity|]. destruct (Qle_bool _ _); [reflexivity|].
  rewrite IH. apply perm_swap.
Qed.
Fixpoint asc (l : list (Q * nat)) : Prop := match l with [] => True | p :: r => (forall q, In q r -> fst p <= fst q) /\ asc r end.
Lemma ins_pair_asc p l : asc l -> asc (ins_pair p l).
Proof.
  induction l as [|q r IH]; cbn [ins_pair asc]; [intros _; split; [intros q []|exact I]|]. intros [H1 H2].
  destruct (Qle_bool (fst p) (fst q)) eqn:E.
  - apply qle_true in E. cbn [asc]. split; [|split; assumption]. intros u [<-|Hu]; [exact E|]. specialize (H1 u Hu). lra.
  - apply qle_false in E. cbn [asc]. split; [|apply IH, H2]. intros u Hu. apply (Permutation_in _ (ins_pair_perm p r)) in Hu as [<-|Hu]; [lra|apply H1, Hu].
Qed.
Lemma sorted_argsort_ok : argsort_ok sorted_argsort.
Proof.
  intros l. set (prs := combine l (seq 0 (length l))).
  assert (P : Permutation (fold_right ins_pair [] prs) prs).
  { induction prs as [|p r IH]; cbn [fold_right]; [reflexivity|]. rewrite ins_pair_perm. constructor. exact IH. }
  assert (A : asc (fold_right ins_pair [] prs)) by (clear P; induction prs; cbn [fold_right]; [exact I|apply ins_pair_asc; assumption]).
  assert (M : forall u, In u prs -> nth (snd u) l 0 = fst u).
  { intros [a i] H. unfold prs in H. apply (In_nth _ _ (0, 0%nat)) in H as [k [Hk E]]. rewrite combine_length, seq_length in Hk.
    rewrite combine_nth in E by (rewrite seq_length; reflexivity). rewrite seq_nth in E by lia. injection E as <- <-. reflexivity. }
  assert (L : length (fold_right ins_pair [] prs) = length l) by (rewrite (Permutation_length P); unfold prs; rewrite combine_length, seq_length; lia).
  unfold sorted_argsort. fold prs. split.
  - rewrite (Permutation_map snd P). unfold prs. assert (Es : forall (u : list Q) (v : list nat), length u = length v -> map snd (combine u v) = v).
    { induction u as [|a u IH]; intros [|b v] E; cbn in *; try lia; [reflexivity|]. f_equal. apply IH. lia. }
    rewrite Es by (rewrite seq_length; reflexivity). reflexivity.
  - intros i j Hij Hj. set (s := fold_right ins_pair [] prs) in *.
    assert (MM : forall k, (k < length l)%nat -> nth (nth k (map snd s) 0%nat) l 0 = fst (nth k s (0, 0%nat))).
    { intros k Hk. change 0%nat with (snd (0, 0%nat)) at 1. rewrite map_nth. apply M, (Permutation_in _ P), nth_In. lia. }
    rewrite !MM by lia. clear -A Hij Hj L. rewrite <- L in Hj. clear L. revert i j Hij Hj. induction s as [|p r IH]; intros [|i] [|j] Hij Hj; cbn in Hj; try lia.
    + cbn [nth]. destruct A as [A _]. apply A, nth_In. lia.
    + cbn [nth]. destruct A as [_ A]. apply IH; [exact A|lia..].
Qed.
(** The logistic function has the properties of a distribution function used here. *)
Definition logistic (x : R) : R := (/ (1 + exp (- x)))%R.
Lemma logistic_ok : normal_cdf_like logistic.
Proof.
  unfold logistic. split; [|split].
  - intros a b H. pose proof (exp_pos (- a)). pose proof (exp_pos (- b)). apply Rinv_lt_contravar; [Lra.nra|].
    enough (exp (- b) < exp (- a))%R by Lra.lra. apply exp_increasing. Lra.lra.
  - rewrite Ropp_0, exp_0. Lra.lra.
  - intros a. pose proof (exp_pos (- a)). rewrite <- Rinv_1. apply Rinv_lt_contravar; Lra.lra.
Qed.
Lemma nth_error_ext' {A} (l m : list A) : (forall i, nth_error l i = nth_error m i) -> l = m.
Proof.
  revert m. induction l as [|a l IH]; intros [|b m] H; [reflexivity|specialize (H 0%nat); discriminate..|].
  pose proof (H 0%nat) as H0. injection H0 as ->. f_equal. apply IH. intros i. apply (H (S i)).
Qed.

Section surface_props.
Variable num : numerics.
Variable kde2 : list Q -> list Q -> list Q -> Q -> Q * Q -> Q.
Variables (c : chain) (f : frame) (px py : string) (x y w : list Q).
Hypothesis W : frame_wf f.
Hypothesis Hx : column f px x.
Hypothesis Hy : column f py y.
Hypothesis Hw : column f (ch_weight c) w.
Lemma get_data_column n v : column f n v -> get_data f n = Ok v.
Proof. intros Hv. unfold get_data. rewrite (proj2 (f_get_wf f n (map Fin v) W) Hv), qs_fin. reflexivity. Qed.
Lemma weights_column : weights c f = Ok w.
Proof. unfold weights. rewrite (proj2 (f_get_wf f _ (map Fin w) W) Hw), qs_fin. reflexivity. Qed.
Lemma column_len n v : column f n v -> length v = length (f_index f).
Proof. intros Hv. destruct W as [_ W']. specialize (W' _ _ Hv). rewrite map_length in W'. exact W'. Qed.
Lemma edges_are d n e : column f n d ->
  (if ch_grid c then get_grid_bins d
   else rmap fst (get_smoothed_bins (n_bins num) (smooth_value (ch_cfg c Fsmooth) (ch_grid c))
         (get_bins (ch_cfg c Fbins) (ch_cfg c Fsmooth) (ch_grid c) (f_rows f) (length (f_cols f))) (combine d w) false false)) = Ok e ->
  edges_of (n_bins num) (marginal_config num c f d w) (combine d w) false e.
Proof.
  intros Hd. unfold edges_of, marginal_config. cbn [m_grid m_smooth m_bins m_rows m_cols]. destruct (ch_grid c).
  - rewrite map_fst_combine by (rewrite (column_len n d Hd), (column_len _ w Hw); reflexivity). exact (fun H => H).
  - destruct (get_smoothed_bins _ _ _ _ _ _) as [[e' s]|]; [|discriminate]. cbn. injection 1 as <-. exists s. reflexivity.
Qed.
Lemma filter2d_smoothing kern m a b : shaped m a b -> (0 < a)%nat -> (0 < b)%nat ->
  exists mid, shaped mid a b /\
    (forall j, (j < b)%nat -> is_smoothing kern (map (fun r => nth j r 0) m) (map (fun r => nth j r 0) mid)) /\
    (forall i, (i < a)%nat -> is_smoothing kern (nth i mid []) (nth i (filter2d kern m) [])).
Proof.
  intros Hs Ha Hb. pose proof (transpose_shaped 0 m a b Hs Ha) as S1. pose proof (map_filter_shaped kern _ _ _ S1) as S2.
  set (cols := map (filter1d kern) (transpose 0 m)) in *. pose proof (transpose_shaped 0 cols b a S2 Hb) as S3.
  exists (transpose 0 cols). split; [exact S3|].
  assert (COL : forall (u : matrix) a' b' j, shaped u a' b' -> (0 < a')%nat -> (j < b')%nat -> nth j (transpose 0 u) [] = map (fun r => nth j r 0) u).
  { intros u a' b' j Su H0 Hj. unfold transpose. rewrite (shaped_width u a' b' Su H0), nth_map_seq by exact Hj.
    destruct Su as [Lu _]. transitivity (map (fun i => (fun r => nth j r 0) (nth i u [])) (seq 0 (length u))); [reflexivity|].
    rewrite <- (map_map (fun i => nth i u []) (fun r => nth j r 0)), map_nth_all. reflexivity. }
  split.
  - intros j Hj. rewrite <- (COL m a b j Hs Ha Hj).
    assert (E : map (fun r => nth j r 0) (transpose 0 cols) = nth j cols []).
    { apply (nth_ext _ _ 0 0).
      - rewrite map_length. destruct S3 as [-> _]. symmetry. apply (shaped_row cols b a j S2 Hj).
      - intros i Hi. rewrite map_length in Hi. destruct S3 as [L3 _]. rewrite L3 in Hi.
        rewrite (nth_indep _ 0 ((fun r : list Q => nth j r 0) [])) by (rewrite map_length, L3; exact Hi).
        rewrite (map_nth (fun r : list Q => nth j r 0)).
        pose proof (transpose_cell 0 cols b a j i S2 Hj Hi) as T. exact T. }
    rewrite E. unfold cols. destruct S1 as [L1 R1].
    rewrite (nth_indep (map (filter1d kern) (transpose 0 m)) [] (filter1d kern [])) by (rewrite map_length, L1; exact Hj). rewrite map_nth.
    apply filter1d_smoothing. intros C. pose proof (shaped_row _ _ _ j (conj L1 R1) Hj) as LR. rewrite C in LR. cbn in LR. lia.
  - intros i Hi. unfold filter2d. fold cols. destruct S3 as [L3 R3].
    rewrite (nth_indep (map (filter1d kern) (transpose 0 cols)) [] (filter1d kern [])) by (rewrite map_length, L3; exact Hi). rewrite map_nth.
    apply filter1d_smoothing. intros C. pose proof (shaped_row _ _ _ i (conj L3 R3) Hi) as LR. rewrite C in LR. cbn in LR. lia.
Qed.
Lemma qsum_ext_map (g : Q -> Q) l : (forall v, g v == v) -> qsum (map g l) == qsum l.
Proof. intros H. induction l as [|v l IH]; cbn [map qsum]; [reflexivity|]. rewrite IH, H. reflexivity. Qed.
Lemma surface_histogram hist xc yc :
  kde_on (ch_cfg c Fkde) = false -> get_smoothed_histogram2d num kde2 c f px py = Ok (hist, xc, yc) -> xc <> [] -> yc <> [] ->
  exists ex ey raw,
    edges_of (n_bins num) (marginal_config num c f x w) (combine x w) false ex /\
    edges_of (n_bins num) (marginal_config num c f y w) (combine y w) false ey /\
    length ex = S (length xc) /\ (forall i, (i < length xc)%nat -> at_ xc i == (at_ ex i + at_ ex (S i)) / 2) /\
    length ey = S (length yc) /\ (forall j, (j < length yc)%nat -> at_ yc j == (at_ ey j + at_ ey (S j)) / 2) /\
    shaped raw (length xc) (length yc) /\
    (forall i j p, (i < length xc)%nat -> (j < length yc)%nat -> (forall a b, p a b = true <-> belongs ex i a /\ belongs ey j b) ->
       exists v, v == weight_where p (combine (combine x y) w) /\ cell 0 raw i j = n_power num (ch_power c) v) /\
    (let s := smooth_value (ch_cfg c Fsmooth) (ch_grid c) in
     ((s <= 0)%Z -> hist = raw) /\
     ((0 < s)%Z -> shaped hist (length xc) (length yc) /\ exists mid, shaped mid (length xc) (length yc) /\
        (forall j, (j < length yc)%nat -> is_smoothing (n_kernel num s) (map (fun r => nth j r 0) raw) (map (fun r => nth j r 0) mid)) /\
        (forall i, (i < length xc)%nat -> is_smoothing (n_kernel num s) (nth i mid []) (nth i hist [])))) /\
    ((forall v, n_power num (ch_power c) v == v) -> (forall s, kernel_ok (n_kernel num s)) -> nondecreasing ex -> nondecreasing ey ->
       total (concat hist) ==
       weight_where (fun a b => (Qle_bool (at_ ex 0) a && Qle_bool a (at_ ex (length xc))) && (Qle_bool (at_ ey 0) b && Qle_bool b (at_ ey (length yc))))
         (combine (combine x y) w)).
Proof.
  intros HK H Nx Ny. apply surface_inv in H as [x' [y' [w' [ex [ey [E1 [E2 [E3 [E4 [E5 H]]]]]]]]]].
  rewrite (get_data_column px x Hx) in E1. injection E1 as <-. rewrite (get_data_column py y Hy) in E2. injection E2 as <-.
  rewrite weights_column in E3. injection E3 as <-. cbv zeta in H. rewrite HK in H. destruct H as [Ex [Ey Eh]].
  set (raw := map (map (n_power num (ch_power c))) (histogram2d ex ey x y w)) in *.
  assert (Lx : length xc = (length ex - 1)%nat) by (rewrite Ex; apply bin_centers_length).
  assert (Ly : length yc = (length ey - 1)%nat) by (rewrite Ey; apply bin_centers_length).
  assert (Px : (0 < length xc)%nat) by (destruct xc; [congruence|cbn; lia]). assert (Py : (0 < length yc)%nat) by (destruct yc; [congruence|cbn; lia]).
  assert (S0 : shaped (histogram2d ex ey x y w) (length xc) (length yc)) by (rewrite Lx, Ly; apply histogram2d_shaped).
  assert (SR : shaped raw (length xc) (length yc)) by (apply map_map_shaped, S0).
  exists ex, ey, raw. split; [apply (edges_are x px ex Hx E4)|]. split; [apply (edges_are y py ey Hy E5)|].
  split; [lia|]. split; [intros i Hi; rewrite Ex, bin_centers_at by lia; unfold Qdiv; change (/ 2) with (1 # 2); ring|].
  split; [lia|]. split; [intros j Hj; rewrite Ey, bin_centers_at by lia; unfold Qdiv; change (/ 2) with (1 # 2); ring|].
  split; [exact SR|]. split; [|split].
  - intros i j p Hi Hj Hp. exists (cell 0 (histogram2d ex ey x y w) i j). split.
    + rewrite histogram2d_cell by lia. apply weight_where_ext. intros a b. apply eq_iff_eq_true.
      rewrite Hp, andb_true_iff, !bin_test_belongs by lia. reflexivity.
    + unfold raw. apply (cell_map _ _ _ _ i j 0 0 S0 Hi Hj).
  - cbv zeta in Eh |- *. destruct (0 <? smooth_value (ch_cfg c Fsmooth) (ch_grid c))%Z eqn:Z.
    + apply Z.ltb_lt in Z. split; [lia|]. intros _. rewrite Eh. split; [apply filter2d_shaped; assumption|]. apply filter2d_smoothing; assumption.
    + apply Z.ltb_ge in Z. split; [intros _; exact Eh|lia].
  - intros HP HKn Dx Dy.
    assert (T : total (concat hist) == qsum (concat raw)).
    { rewrite <- qsum_total, Eh. cbv zeta. destruct (0 <? _)%Z; [|reflexivity]. apply (filter2d_total _ raw (length xc) (length yc)); [apply HKn|exact SR|exact Px|exact Py]. }
    rewrite T. unfold raw. rewrite <- concat_map, (qsum_ext_map _ _ HP), (qsum_concat _ _ _ S0).
    replace (length xc) with (length ex - 1)%nat by lia. replace (length yc) with (length ey - 1)%nat by lia.
    rewrite <- weight_where_total by (try assumption; lia).
    apply sum_n_ext. intros i Hi. apply sum_n_ext. intros j Hj. apply histogram2d_cell; lia.
Qed.
Lemma surface_kde hist xc yc :
  kde_on (ch_cfg c Fkde) = true -> get_smoothed_histogram2d num kde2 c f px py = Ok (hist, xc, yc) ->
  exists ex ey, let n := (2 * (length ex - 1))%nat in
    edges_of (n_bins num) (marginal_config num c f x w) (combine x w) false ex /\
    edges_of (n_bins num) (marginal_config num c f y w) (combine y w) false ey /\
    ((2 <= length ex)%nat -> exists xlo xhi ylo yhi, is_min xlo ex /\ is_max xhi ex /\ is_min ylo ey /\ is_max yhi ey /\
       evenly_spaced xlo xhi n xc /\ evenly_spaced ylo yhi n yc) /\
    shaped hist n n /\
    forall i j, (i < n)%nat -> (j < n)%nat ->
      cell 0 hist i j = n_power num (ch_power c) (kde2 x y w (kde_value (ch_cfg c Fkde)) (at_ xc i, at_ yc j)).
Proof.
  intros HK H. apply surface_inv in H as [x' [y' [w' [ex [ey [E1 [E2 [E3 [E4 [E5 H]]]]]]]]]].
  rewrite (get_data_column px x Hx) in E1. injection E1 as <-. rewrite (get_data_column py y Hy) in E2. injection E2 as <-.
  rewrite weights_column in E3. injection E3 as <-. cbv zeta in H. rewrite HK in H. destruct H as [Nx [Ny [Ex [Ey Eh]]]].
  exists ex, ey. cbv zeta. split; [apply (edges_are x px ex Hx E4)|]. split; [apply (edges_are y py ey Hy E5)|].
  replace ((length ex - 1) * 2)%nat with (2 * (length ex - 1))%nat in * by lia. set (n := (2 * (length ex - 1))%nat) in *.
  assert (Lx : length xc = n) by (rewrite Ex; apply linspace_length). assert (Ly : length yc = n) by (rewrite Ey; apply linspace_length).
  split; [|split].
  - intros L2. destruct ex as [|a ex]; [congruence|]. destruct ey as [|b ey]; [congruence|]. cbn [hd tl] in *.
    exists (qmin_list a ex), (qmax_list a ex), (qmin_list b ey), (qmax_list b ey).
    split; [split; apply qmin_list_spec|]. split; [split; apply qmax_list_spec|]. split; [split; apply qmin_list_spec|]. split; [split; apply qmax_list_spec|].
    split; [rewrite Ex|rewrite Ey]; apply linspace_evenly; lia.
  - rewrite Eh. split; [rewrite map_length; exact Lx|]. intros r Hr. apply in_map_iff in Hr as [a [<- _]]. rewrite map_length. exact Ly.
  - intros i j Hi Hj. rewrite Eh. unfold cell. set (g := fun a b => n_power num (ch_power c) (kde2 x y w (kde_value (ch_cfg c Fkde)) (a, b))).
    rewrite (nth_indep _ [] (map (g 0) yc)) by (rewrite map_length; lia). rewrite (map_nth (fun a => map (g a) yc)).
    rewrite (nth_indep _ 0 (g (nth i xc 0) 0)) by (rewrite map_length; lia). rewrite (map_nth (g (nth i xc 0))). reflexivity.
Qed.
End surface_props.
