(** Proofs about the Geweke diagnostic. *)
From Coq Require Import String List Bool Arith ZArith QArith Qround Qfield Lia Reals Qreals Lra Lqa Permutation.
From Verif Require Import Py NumSpec NumModel NumFacts FrameModel FrameFacts ConfigModel ChainModel RegistryModel ChainSpec ChainUseProofs CovModel CovSpec CovProofs DiagModel DiagSpec DiagProofs.
Import ListNotations.
Open Scope list_scope.
Open Scope Q_scope.

Lemma floor_unique q a : is_floor q a -> Qfloor q = Z.of_nat a.
Proof.
  intros [H1 H2]. pose proof (Qfloor_le q) as F1. pose proof (Qlt_floor q) as F2. unfold nq in *.
  assert (A : (Qfloor q < Z.of_nat a + 1)%Z). { rewrite Zlt_Qlt, inject_Z_plus. change (inject_Z 1) with 1. lra. }
  assert (B : (Z.of_nat a < Qfloor q + 1)%Z). { rewrite Zlt_Qlt. lra. }
  lia.
Qed.
Lemma floor_bound q a n : is_floor q a -> q <= nq n -> (a <= n)%nat.
Proof. intros [H1 _] H. assert (E : nq a <= nq n) by lra. unfold nq in E. rewrite <- Zle_Qle in E. lia. Qed.
Lemma floor_mono q q' a b : is_floor q a -> is_floor q' b -> q <= q' -> (a <= b)%nat.
Proof. intros [H1 _] [_ H2] H. assert (E : nq a < nq (S b)) by (rewrite nq_S; lra). unfold nq in E. rewrite <- Zlt_Qlt in E. lia. Qed.
Lemma floor_exists q : 0 <= q -> exists a, is_floor q a.
Proof.
  intros H. exists (Z.to_nat (Qfloor q)). pose proof (Qfloor_le q). pose proof (Qlt_floor q) as F2. assert (0 <= Qfloor q)%Z. { apply (Qfloor_resp_le 0 q) in H. exact H. }
  unfold is_floor, nq. rewrite Z2Nat.id by assumption. rewrite inject_Z_plus in F2. change (inject_Z 1) with 1 in F2. lra.
Qed.

Lemma list_at_ext (l l' : list Q) : length l = length l' -> (forall i, (i < length l)%nat -> at_ l i = at_ l' i) -> l = l'.
Proof. intros L H. apply (nth_ext l l' 0 0 L H). Qed.
Lemma at_window x n k a b i : (i < b - a)%nat -> at_ (window x n k a b) i = step_at x n k (a + i).
Proof.
  intros H. unfold at_, window. rewrite (nth_indep _ _ (step_at x n k 0%nat)) by (rewrite map_length, seq_length; exact H). rewrite map_nth, seq_nth by exact H. reflexivity.
Qed.
Lemma window_length x n k a b : length (window x n k a b) = (b - a)%nat.
Proof. unfold window. rewrite map_length, seq_length. reflexivity. Qed.
Lemma at_firstn (l : list Q) : forall p i, (i < p)%nat -> at_ (firstn p l) i = at_ l i.
Proof. induction l as [|x l IH]; intros p i H; [destruct p; reflexivity|]. destruct p; [lia|]. destruct i; [reflexivity|]. cbn [firstn]. rewrite !at_cons_S. apply IH. lia. Qed.
Lemma at_skipn p : forall (l : list Q) i, at_ (skipn p l) i = at_ l (p + i).
Proof. induction p as [|p IH]; intros l i; [reflexivity|]. destruct l; [destruct i; reflexivity|]. cbn [skipn Nat.add]. rewrite at_cons_S. apply IH. Qed.
Lemma start_window x m n k a : length x = (m * n)%nat -> (k < m)%nat -> (a <= n)%nat -> take_to (Z.of_nat a) (nth k (blocks m x) []) = window x n k 0 a.
Proof.
  intros L Hk Ha. unfold take_to, py_index. rewrite (block_len m n) by assumption. destruct (Z.ltb_spec (Z.of_nat a) 0); [lia|]. rewrite Nat2Z.id, Nat.min_l by lia.
  apply list_at_ext; [rewrite firstn_length, (block_len m n), window_length by assumption; lia|]. intros i Hi. rewrite firstn_length, (block_len m n) in Hi by assumption.
  rewrite at_firstn, (block_at m n), at_window by (try assumption; lia). reflexivity.
Qed.
Lemma end_window x m n k b : length x = (m * n)%nat -> (k < m)%nat -> (b <= n)%nat -> take_from (Z.of_nat b) (nth k (blocks m x) []) = window x n k b n.
Proof.
  intros L Hk Hb. unfold take_from, py_index. rewrite (block_len m n) by assumption. destruct (Z.ltb_spec (Z.of_nat b) 0); [lia|]. rewrite Nat2Z.id, Nat.min_l by lia.
  apply list_at_ext; [rewrite skipn_length, (block_len m n), window_length by assumption; lia|]. intros i Hi. rewrite skipn_length, (block_len m n) in Hi by assumption.
  rewrite at_skipn, (block_at m n), at_window by (try assumption; lia). reflexivity.
Qed.

Lemma mean_is_mean l : l <> [] -> is_mean l (mean l).
Proof.
  intros H. unfold is_mean, mean. assert (P : 0 < nq (length l)) by (apply nq_pos; destruct l; [contradiction|cbn; lia]). rewrite <- qsum_total. field. lra.
Qed.
Lemma spec_ok yw l v : spec yw l = Ok v -> spectral_density yw l v.
Proof.
  unfold spec, spectral_density. destruct (yw l 2%nat) as [beta sigma]. cbn [fst snd]. destruct (Req_EM_T _ 0) as [|NE]; [discriminate|]. intros H. injection H as <-. split.
  - field. intros E. apply NE. Lra.lra.
  - intros E. apply NE. rewrite E. Lra.lra.
Qed.
Lemma z_score_ok yw ns ne x z : z_score yw ns ne x = Ok z -> geweke_score yw (take_to ns x) (take_from ne x) z.
Proof.
  unfold z_score. destruct (take_to ns x) as [|s0 s1] eqn:ES; [discriminate|]. destruct (take_from ne x) as [|e0 e1] eqn:EE; [discriminate|].
  destruct (spec yw (s0 :: s1)) as [vs|] eqn:VS; [|discriminate]. cbn [rbind]. destruct (spec yw (e0 :: e1)) as [ve|] eqn:VE; [|discriminate]. cbn [rbind].
  destruct (Req_EM_T _ 0) as [|NE]; [discriminate|]. intros H. injection H as <-.
  eexists (mean (s0 :: s1)), (mean (e0 :: e1)), vs, ve, _. split; [apply mean_is_mean; discriminate|]. split; [apply mean_is_mean; discriminate|]. split; [apply spec_ok; exact VS|]. split; [apply spec_ok; exact VE|].
  split; [reflexivity|]. split; [exact NE|]. unfold Rdiv. rewrite Rmult_assoc, Rinv_l by exact NE. apply Rmult_1_r.
Qed.
Lemma concat_nth {A} p : forall (zss : list (list A)) k j, (forall l, In l zss -> length l = p) -> (j < p)%nat ->
  nth_error (concat zss) (k * p + j) = match nth_error zss k with Some l => nth_error l j | None => None end.
Proof.
  induction zss as [|l r IH]; intros k j HL Hj; [destruct k; cbn; [destruct j; reflexivity|destruct (p + k * p + j)%nat; reflexivity]|].
  cbn [concat]. assert (LL : length l = p) by (apply HL; left; reflexivity). destruct k as [|k].
  - cbn [Nat.mul Nat.add nth_error]. apply nth_error_app1. lia.
  - cbn [nth_error]. rewrite nth_error_app2 by (cbn; lia). replace (S k * p + j - length l)%nat with (k * p + j)%nat by (cbn; lia). apply IH; [|exact Hj]. intros l' H'. apply HL. right. exact H'.
Qed.
Lemma Forall2_len {A B} (R : A -> B -> Prop) l l' : Forall2 R l l' -> length l = length l'.
Proof. induction 1; cbn; congruence. Qed.
Lemma Forall2_nth {A B} (R : A -> B -> Prop) l l' : Forall2 R l l' -> forall i a, nth_error l i = Some a -> exists b, nth_error l' i = Some b /\ R a b.
Proof. induction 1 as [|x y l l' H _ IH]; intros i a Hi; [destruct i; discriminate|]. destruct i; cbn in *; [injection Hi as <-; eauto|apply IH; exact Hi]. Qed.

Lemma geweke_one_ok yw nt first last thr c f xs m n t a b : walker_data c f xs m n -> 0 <= first <= 1 -> 0 <= last <= 1 -> is_floor (first * nq n) a -> is_floor ((1 - last) * nq n) b ->
  geweke_one yw nt first last thr c f = Ok t ->
  exists zs p, nt zs = Ok p /\ (t_passed t = true <-> exists v, p = Some v /\ (Q2R thr < v)%R) /\ length zs = (m * length xs)%nat /\
    forall k j x, (k < m)%nat -> nth_error xs j = Some x -> exists z, nth_error zs (k * length xs + j) = Some z /\ geweke_score yw (window x n k 0 a) (window x n k b n) z.
Proof.
  intros D HF HL FA FB. unfold geweke_one. rewrite (wk_walkers _ _ _ _ _ D). destruct (Z.ltb_spec 0 (Z.of_nat m)) as [M0|]; [|discriminate]. cbn [negb].
  rewrite (select_ok f _ xs (wk_wf _ _ _ _ _ D) (wk_cols _ _ _ _ _ D)). cbn [rbind]. unfold f_rows. rewrite (wk_rows _ _ _ _ _ D).
  rewrite Nat2Z.inj_mul. replace (Z.of_nat m * Z.of_nat n)%Z with (Z.of_nat n * Z.of_nat m)%Z by lia. rewrite Z.mod_mul by lia. cbn [Z.eqb negb]. rewrite Nat2Z.id.
  replace (m * n / m)%nat with n by (rewrite Nat.mul_comm, Nat.div_mul; lia). rewrite (floor_unique _ _ FA), (floor_unique _ _ FB).
  pose proof (nq_nonneg n) as NN. assert (AN : (a <= n)%nat) by (apply (floor_bound _ _ n FA); nra). assert (BN : (b <= n)%nat) by (apply (floor_bound _ _ n FB); nra).
  destruct (rmapM _ (seq 0 m)) as [zss|] eqn:EZ; [|discriminate]. cbn [rbind]. apply rmapM_Forall2 in EZ. destruct (nt (concat zss)) as [p|] eqn:EN; [|discriminate]. cbn [rbind]. intros H. injection H as <-. cbn [t_passed].
  exists (concat zss), p. split; [exact EN|]. split.
  - destruct p as [v|]; [|split; [discriminate|intros [v [HV _]]; discriminate]]. destruct (Rlt_dec (Q2R thr) v) as [HV|HV]; split; try discriminate; eauto.
    intros [v' [E HV']]. injection E as <-. contradiction.
  - assert (LZ : forall l, In l zss -> length l = length xs).
    { intros l HI. apply In_nth_error in HI. destruct HI as [k HK]. assert (HS : exists s, nth_error (seq 0 m) k = Some s).
      { destruct (nth_error (seq 0 m) k) eqn:E; [eauto|]. apply nth_error_None in E. rewrite (Forall2_len _ _ _ EZ) in E. apply nth_error_None in E. congruence. }
      destruct HS as [s HS]. destruct (Forall2_nth _ _ _ EZ k s HS) as [l' [K1 K2]]. rewrite HK in K1. injection K1 as <-. apply rmapM_Forall2 in K2. symmetry. exact (Forall2_len _ _ _ K2). }
    split.
    + rewrite <- (seq_length m 0) at 1. rewrite (Forall2_len _ _ _ EZ). clear - LZ. induction zss as [|l r IH]; [reflexivity|]. cbn [concat length Nat.mul]. rewrite app_length, IH, LZ by (try (intros l' H'; apply LZ; right; exact H'); left; reflexivity). reflexivity.
    + intros k j x Hk Hj. assert (HJ : (j < length xs)%nat) by (apply nth_error_Some; congruence).
      assert (HS : nth_error (seq 0 m) k = Some k). { rewrite (nth_error_nth' _ 0%nat) by (rewrite seq_length; exact Hk). rewrite seq_nth by exact Hk. reflexivity. }
      destruct (Forall2_nth _ _ _ EZ k k HS) as [l [K1 K2]]. apply rmapM_Forall2 in K2. destruct (Forall2_nth _ _ _ K2 j x Hj) as [z [Z1 Z2]]. exists z.
      rewrite concat_nth by assumption. rewrite K1. split; [exact Z1|]. apply z_score_ok in Z2. pose proof (wk_lens _ _ _ _ _ D x (nth_error_In _ _ Hj)) as LX.
      rewrite (start_window x m n), (end_window x m n) in Z2 by assumption. exact Z2.
Qed.

(** Shifting and scaling *)
Lemma affine_block a b x x' m n k : length x = (m * n)%nat -> affine a b x x' -> (k < m)%nat -> affine a b (nth k (blocks m x) []) (nth k (blocks m x') []).
Proof.
  intros L [L1 A] Hk. assert (L' : length x' = (m * n)%nat) by congruence. split; [rewrite !(block_len m n) by assumption; reflexivity|]. intros i Hi. rewrite (block_len m n) in Hi by assumption.
  rewrite !(block_at m n) by assumption. apply A. apply (nth_range x m n); assumption.
Qed.
Lemma affine_to a b l l' i : affine a b l l' -> affine a b (take_to i l) (take_to i l').
Proof.
  intros [L A]. unfold take_to. rewrite <- L. set (p := py_index i (length l)). split; [rewrite !firstn_length; lia|]. intros k Hk. rewrite firstn_length in Hk. rewrite !at_firstn by lia. apply A. lia.
Qed.
Lemma affine_from a b l l' i : affine a b l l' -> affine a b (take_from i l) (take_from i l').
Proof.
  intros [L A]. unfold take_from. rewrite <- L. set (p := py_index i (length l)). split; [rewrite !skipn_length; lia|]. intros k Hk. rewrite skipn_length in Hk. rewrite !at_skipn by lia. apply A. lia.
Qed.
Lemma affine_mean_list a b l l' : l <> [] -> affine a b l l' -> mean l' == a * mean l + b.
Proof.
  intros NE [L A]. unfold mean. rewrite <- L. assert (P : 0 < nq (length l)) by (apply nq_pos; destruct l; [contradiction|cbn; lia]).
  assert (E : qsum l' == a * qsum l + b * nq (length l)).
  { rewrite !qsum_range, <- L, <- sumr_scale. transitivity (sum_range (fun i => a * at_ l i + b) 0 (length l)); [apply sumr_ext; intros i Hi; apply A; exact Hi|].
    rewrite sumr_add. apply Qplus_comp; [reflexivity|]. clear. unfold sum_range. rewrite Nat.sub_0_r. generalize (length l) as q, 0%nat as s. induction q as [|q IH]; intros s; [cbn; unfold nq; cbn; ring|]. cbn [sum_n]. rewrite IH, nq_S. ring. }
  rewrite E. field. lra.
Qed.
Lemma affine_spec yw a b l l' : equivariant yw -> 0 < a -> affine a b l l' -> spec yw l' = match spec yw l with Ok v => Ok (Q2R a * Q2R a * v)%R | Err e => Err e end.
Proof.
  intros E P A. destruct (E l l' a b P A) as [E1 E2]. unfold spec. destruct (yw l 2%nat) as [beta sigma]. destruct (yw l' 2%nat) as [beta' sigma']. cbn [fst snd] in *. subst.
  destruct (Req_EM_T _ 0) as [|NE]; [reflexivity|]. f_equal. field. intros H. apply NE. Lra.lra.
Qed.
Lemma affine_z yw a b x x' ns ne : equivariant yw -> 0 < a -> affine a b x x' -> z_score yw ns ne x' = z_score yw ns ne x.
Proof.
  intros E P A. pose proof (affine_to a b x x' ns A) as AS. pose proof (affine_from a b x x' ne A) as AE. unfold z_score.
  destruct (take_to ns x) as [|s0 s1]; [destruct (take_to ns x'); [reflexivity|destruct AS as [AS _]; discriminate]|]. destruct (take_to ns x') as [|s0' s1']; [destruct AS as [AS _]; discriminate|].
  destruct (take_from ne x) as [|e0 e1]; [destruct (take_from ne x'); [reflexivity|destruct AE as [AE _]; discriminate]|]. destruct (take_from ne x') as [|e0' e1']; [destruct AE as [AE _]; discriminate|].
  rewrite (affine_spec yw a b _ _ E P AS), (affine_spec yw a b _ _ E P AE). destruct (spec yw (s0 :: s1)) as [vs|]; [|reflexivity]. cbn [rbind]. destruct (spec yw (e0 :: e1)) as [ve|]; [|reflexivity]. cbn [rbind].
  rewrite <- (proj1 AS), <- (proj1 AE).
  assert (PR : (0 < Q2R a)%R) by (apply Q2R_pos; exact P).
  set (u := (vs / INR (length (s0 :: s1)) + ve / INR (length (e0 :: e1)))%R).
  assert (ED : sqrt (Q2R a * Q2R a * vs / INR (length (s0 :: s1)) + Q2R a * Q2R a * ve / INR (length (e0 :: e1))) = (Q2R a * sqrt u)%R).
  { replace (Q2R a * Q2R a * vs / INR (length (s0 :: s1)) + Q2R a * Q2R a * ve / INR (length (e0 :: e1)))%R with ((Q2R a * Q2R a) * u)%R by (unfold u, Rdiv; ring).
    rewrite sqrt_mult_alt by Lra.nra. rewrite sqrt_square by Lra.lra. reflexivity. }
  rewrite ED. assert (MS := affine_mean_list a b (s0 :: s1) (s0' :: s1') ltac:(discriminate) AS). assert (ME := affine_mean_list a b (e0 :: e1) (e0' :: e1') ltac:(discriminate) AE).
  destruct (Req_EM_T (sqrt u) 0) as [Z|NZ].
  - destruct (Req_EM_T (Q2R a * sqrt u) 0) as [|NZ]; [reflexivity|]. exfalso. apply NZ. rewrite Z. ring.
  - destruct (Req_EM_T (Q2R a * sqrt u) 0) as [Z|_]; [exfalso; apply Rmult_integral in Z; destruct Z; [Lra.lra|contradiction]|]. f_equal.
    rewrite (Qeq_eqR _ _ MS), (Qeq_eqR _ _ ME), !Q2R_plus, !Q2R_mult. field. split; [exact NZ|Lra.lra].
Qed.
Lemma rmapM_ext_in {A B} (g h : A -> res B) l : (forall x, In x l -> g x = h x) -> rmapM g l = rmapM h l.
Proof. induction l as [|a r IH]; intros H; [reflexivity|]. cbn [rmapM]. rewrite (H a) by (left; reflexivity). destruct (h a); [|reflexivity]. cbn [rbind]. rewrite IH by (intros x Hx; apply H; right; exact Hx). reflexivity. Qed.
Lemma rmapM_rel {A B} (R : A -> A -> Prop) (g : A -> res B) l l' : Forall2 R l l' -> (forall x y, In x l -> R x y -> g y = g x) -> rmapM g l' = rmapM g l.
Proof.
  induction 1 as [|x y l l' H _ IH]; intros HG; [reflexivity|]. cbn [rmapM]. rewrite (HG x y) by (try exact H; left; reflexivity). destruct (g x); [|reflexivity]. cbn [rbind]. rewrite IH by (intros u v Hu; apply HG; right; exact Hu). reflexivity.
Qed.
Lemma affine_geweke yw nt first last thr c f xs c' f' xs' m n : equivariant yw -> walker_data c f xs m n -> walker_data c' f' xs' m n -> ch_name c = ch_name c' ->
  Forall2 (fun x x' => exists a b, 0 < a /\ affine a b x x') xs xs' -> geweke_one yw nt first last thr c' f' = geweke_one yw nt first last thr c f.
Proof.
  intros E D D' EN A. unfold geweke_one. rewrite (wk_walkers _ _ _ _ _ D), (wk_walkers _ _ _ _ _ D'). destruct (negb (0 <? Z.of_nat m)%Z) eqn:M0; [reflexivity|].
  rewrite (select_ok f _ xs (wk_wf _ _ _ _ _ D) (wk_cols _ _ _ _ _ D)), (select_ok f' _ xs' (wk_wf _ _ _ _ _ D') (wk_cols _ _ _ _ _ D')). cbn [rbind]. unfold f_rows. rewrite (wk_rows _ _ _ _ _ D), (wk_rows _ _ _ _ _ D'), EN.
  destruct (negb (Z.of_nat (m * n) mod Z.of_nat m =? 0)%Z); [reflexivity|]. rewrite Nat2Z.id.
  match goal with |- context [Qfloor (first * ?q)] => generalize (Qfloor (first * q)); generalize (Qfloor ((1 - last) * q)) end. intros ne ns.
  assert (EQ : rmapM (fun k => rmapM (fun x => z_score yw ns ne (nth k (blocks m x) [])) xs') (seq 0 m) = rmapM (fun k => rmapM (fun x => z_score yw ns ne (nth k (blocks m x) [])) xs) (seq 0 m)).
  { apply rmapM_ext_in. intros k Hk. apply in_seq in Hk. apply (rmapM_rel _ _ _ _ A). intros x y HI [a [b [P AF]]]. apply (affine_z yw a b); [exact E|exact P|]. apply (affine_block a b x y m n); [exact (wk_lens _ _ _ _ _ D x HI)|exact AF|lia]. }
  rewrite EQ. reflexivity.
Qed.
