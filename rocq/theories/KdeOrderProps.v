(** C94: kernel density estimates of the same weighted samples. *)
From Coq Require Import List Bool Arith QArith Reals Qreals Permutation Lra Lia.
From Verif Require Import Py ConfigModel AnalysisModel SurfaceModel KdeModel KdeSpec KdeProofs KdeProps KdeOrderProofs.
From Verif Require SurfaceProofs.
Import ListNotations.
Open Scope list_scope.
Open Scope R_scope.

(** At least four samples are within reach of the target. *)
Definition four_within {A} (away : A -> R) (reach : R) (d : list (R * A)) : Prop :=
  exists l, NoDup l /\ (4 <= length l)%nat /\ forall i, In i l -> exists p, nth_error d i = Some p /\ away (snd p) <= reach * reach.

(** The same weighted samples in another order: the estimate exists for both, and the values are the same if every
    target has at least four samples within reach or if all weights are equal. *)
Theorem C94_order_partial : forall nearest data w data' w' k xs vs, finds_nearest nearest -> length w' = length data' -> Permutation (combine w data) (combine w' data') -> kde_on k = true ->
  kde_marginal nearest data w k xs = Ok vs -> let d := combine w data in let width := width_for (kde_number k) (length data) 1 in
  exists vs', kde_marginal nearest data' w' k xs = Ok vs' /\ ((forall t, In t xs -> four_within (away1 d t) (width * 3) d) \/ (exists c, forall v, In v w -> v = c) -> vs' = vs).
Proof.
  intros nearest data w data' w' k xs vs NB L P K H d width. unfold kde_marginal in *. rewrite (kde_factor_number k K) in *.
  apply (kde1_perm nearest data w data' w' 3 (kde_number k) xs vs NB L P); [|exact H].
  intros Z. rewrite Z in H. unfold megkde_at in H. apply SurfaceProofs.rbind_ok in H as [m [H1 H2]]. apply new_megkde_ok in H1. cbv zeta in H1. destruct H1 as [_ [_ [_ [_ [_ [_ [_ [_ [E _]]]]]]]]].
  unfold evaluate in H2. rewrite E in H2. unfold width_for in H2. replace (2 * 0 * Rpower (INR (length (map (fun x => [x]) data))) (- (1 / (4 + INR 1)))) with 0 in H2 by ring.
  unfold req in H2. destruct (Req_EM_T 0 0); [discriminate|contradiction].
Qed.
Print Assumptions C94_order_partial.
Theorem C94_order_surface_partial : forall nearest data w data' w' k ts vs, finds_nearest nearest -> length w' = length data' -> Permutation (combine w data) (combine w' data') ->
  kde_surface nearest data w k ts = Ok vs -> let d := combine w data in let width := width_for 1 (length data) 2 in
  exists vs', kde_surface nearest data' w' k ts = Ok vs' /\ ((forall t, In t ts -> four_within (away2 d t) (width * kde_number k) d) \/ (exists c, forall v, In v w -> v = c) -> vs' = vs).
Proof.
  intros nearest data w data' w' k ts vs NB L P H d width. unfold kde_surface in *. rewrite (kde_value_number k) in *. apply (kde2_perm nearest data w data' w' (kde_number k) 1 ts vs NB L P); [lra|exact H].
Qed.
Print Assumptions C94_order_surface_partial.
Theorem C94_order_dist_partial : forall nearest data w data' w' k xs vs, finds_nearest nearest -> length w' = length data' -> Permutation (combine w data) (combine w' data') ->
  kde_dist nearest data w k xs = Ok vs -> let d := combine w data in let width := width_for 1 (length data) 1 in
  exists vs', kde_dist nearest data' w' k xs = Ok vs' /\ ((forall t, In t xs -> four_within (away1 d t) (width * kde_number k) d) \/ (exists c, forall v, In v w -> v = c) -> vs' = vs).
Proof.
  intros nearest data w data' w' k xs vs NB L P H d width. unfold kde_dist in *. rewrite (kde_value_number k) in *. apply (kde1_perm nearest data w data' w' (kde_number k) 1 xs vs NB L P); [lra|exact H].
Qed.
Print Assumptions C94_order_dist_partial.

(** ** Fewer than four samples *)
(** No estimate at all, whatever the data and the tree. *)
Theorem C94_few_refuted : forall nearest data w k x xs, length w = length data -> (2 <= length data < 4)%nat -> (forall v, In v w -> 0 < v) -> (exists a b, In a data /\ In b data /\ a <> b) -> kde_on k = true ->
  kde_marginal nearest data w k (x :: xs) = Err IndexError.
Proof.
  intros nearest data w k x xs L B PW [a [b [Ha [Hb D]]]] K. unfold kde_marginal, megkde_at. set (train := map (fun x => [x]) data).
  assert (NK : exists m, new_megkde 1 train w 3 (Q2R (kde_factor k)) = Ok m).
  { assert (CF : 0 < cov_fact w) by (apply cov_fact_pos; [lia|exact PW]). pose proof (proj1 (cov_fact_pos w ltac:(lia) PW)) as CW. set (d := combine w data). assert (W0 : W d <> 0) by (unfold d; rewrite <- (rsum_W w data L); lra).
    assert (V : 0 < covariance (fun v => v) (fun v => v) d) by (apply (variance_pos (fun v => v) w data a b); assumption).
    apply (new_total 1 train w 3 (Q2R (kde_factor k)) [[sqrt (1 / covariance (fun v => v) (fun v => v) d)]]); [unfold train; rewrite map_length; exact L|lia|exact PW|].
    cbn [seq map]. unfold train. rewrite !map_map. set (mean := [average w (map (fun x0 => comp 0 [x0]) data)]).
    rewrite (cov_entry_covariance (fun x0 => comp 0 (minus [x0] mean)) (fun x0 => comp 0 (minus [x0] mean)) w data L). unfold mean, minus. cbn [combine map comp nth fst snd].
    rewrite (covariance_shift (fun v => v) (fun v => v) _ _ (combine w data) W0). fold d. unfold sphere_transform. rewrite (proj2 (req_false _ _)) by lra. cbv zeta.
    rewrite (proj2 (rle_false _ _)); [reflexivity|]. unfold Rdiv. rewrite Rmult_1_l. apply Rinv_0_lt_compat. exact V. }
  destruct NK as [m M]. rewrite M. cbn [rbind]. apply new_megkde_ok in M. cbv zeta in M. destruct M as [_ [_ [_ [_ [_ [_ [ED [_ [ES _]]]]]]]]].
  assert (LD : length (kd_d m) = length data) by (rewrite ED, !map_length; unfold train; rewrite map_length; reflexivity).
  unfold evaluate. rewrite ES, (proj2 (req_false _ _)) by (apply width_nonzero; rewrite (kde_factor_number k K); apply kde_nonzero; exact K). cbn [map rmapM]. cbv zeta.
  match goal with |- context [(nmin <=? length ?b)%nat] => assert (BL : (length b <= length (kd_d m))%nat) by (etransitivity; [apply filter_shorter|rewrite seq_length; lia]); assert (E1 : (nmin <=? length b)%nat = false) by (apply Nat.leb_gt; unfold nmin; lia); rewrite E1 end.
  assert (E2 : (length (kd_d m) <? nmin)%nat = true) by (apply Nat.ltb_lt; unfold nmin; lia). rewrite E2. reflexivity.
Qed.
Print Assumptions C94_few_refuted.

(** ** A row split in two *)
Definition four : list R := [-1; -1; 1; 1].
Definition four_weights : list R := [1; 1; 2; 1].
Definition five : list R := [-1; -1; 1; 1; 1].
Lemma four_var : covariance (fun v => v) (fun v => v) (combine four_weights four) = 4 / 3.
Proof. unfold covariance, mean_of, W. cbn [combine four_weights four total fst snd]. field. Qed.
Lemma five_var : covariance (fun v => v) (fun v => v) (combine ones five) = 6 / 5.
Proof. unfold covariance, mean_of, W. cbn [combine ones five total fst snd]. field. Qed.
Lemma width_five : 1 <= width_for 1 5 1 /\ width_for 1 5 1 < width_for 1 4 1.
Proof.
  unfold width_for, Rpower. assert (E : - (1 / (4 + INR 1)) = - (1 / 5)) by (cbn [INR]; field). rewrite E.
  assert (L5 : ln 5 <= 5 * ln 2).
  { replace (5 * ln 2) with (ln (2 * (2 * (2 * (2 * 2))))) by (rewrite !ln_mult by lra; ring). apply Rlt_le, ln_increasing; lra. }
  assert (L45 : ln (INR 4) < ln (INR 5)) by (apply ln_increasing; cbn [INR]; lra).
  assert (I5 : INR 5 = 5) by (cbn [INR]; ring). split.
  - assert (K : / 2 <= exp (- (1 / 5) * ln (INR 5))); [|lra]. replace (/ 2) with (exp (- ln 2)) by (rewrite exp_Ropp, exp_ln by lra; reflexivity). rewrite I5.
    destruct (Rle_lt_or_eq_dec (- ln 2) (- (1 / 5) * ln 5) ltac:(lra)) as [C|C]; [apply Rlt_le, exp_increasing; exact C|rewrite C; lra].
  - assert (K : exp (- (1 / 5) * ln (INR 5)) < exp (- (1 / 5) * ln (INR 4))); [|lra]. apply exp_increasing. lra.
Qed.
(** The bandwidth depends on the number of rows: the values at -1 and 1 are not even in the same ratio. *)
Theorem C94_split_refuted : forall nearest, finds_nearest nearest -> exists a b a' b',
  kde_marginal nearest four four_weights (KBool true) [-1; 1] = Ok [a; b] /\ kde_marginal nearest five ones (KBool true) [-1; 1] = Ok [a'; b'] /\
  ~ exists s, a' = s * a /\ b' = s * b.
Proof.
  intros nearest NB. destruct width_five as [W1 W2].
  destruct (proj1 (C54_exists nearest four four_weights (KBool true) [-1; 1] eq_refl ltac:(cbn; lia) ltac:(cbn; intuition lra) ltac:(exists (-1), 1; cbn; intuition lra) eq_refl)) as [vs E].
  destruct (proj1 (C54_exists nearest five ones (KBool true) [-1; 1] eq_refl ltac:(cbn; lia) ltac:(cbn; intuition lra) ltac:(exists (-1), 1; cbn; intuition lra) eq_refl)) as [vs' E'].
  pose proof (C54_marginal nearest four four_weights (KBool true) [-1; 1] vs NB eq_refl E) as H. pose proof (C54_marginal nearest five ones (KBool true) [-1; 1] vs' NB eq_refl E') as H'. cbv zeta in H, H'. change (length four) with 4%nat in H. change (length five) with 5%nat in H'. cbn [kde_number] in H, H'.
  set (s := width_for 1 4 1) in *. set (s' := width_for 1 5 1) in *.
  assert (R9 : forall u, 1 <= u -> 9 <= u * 3 * (u * 3)) by (intros u U; nra).
  assert (AW : forall t x, away1 (combine four_weights four) t x = (x - t) * (x - t) / (4 / 3)) by (intros; unfold away1; rewrite four_var; reflexivity).
  assert (AW' : forall t x, away1 (combine ones five) t x = (x - t) * (x - t) / (6 / 5)) by (intros; unfold away1; rewrite five_var; reflexivity).
  unfold estimates in H, H'. inversion H as [|? a ? r Ha HR]; subst. inversion HR as [|? b ? r2 Hb HR2]; subst. inversion HR2; subst. inversion H' as [|? a' ? r' Ha' HR']; subst. inversion HR' as [|? b' ? r2' Hb' HR2']; subst. inversion HR2'; subst.
  exists a, b, a', b'. split; [exact E|]. split; [exact E'|].
  pose proof (R9 s ltac:(lra)) as S9. pose proof (R9 s' W1) as S9'.
  apply estimate_all in Ha; [|cbn; lia|intros p Hp; rewrite AW; cbn in Hp; destruct Hp as [<-|[<-|[<-|[<-|[]]]]]; cbn [snd]; lra].
  apply estimate_all in Hb; [|cbn; lia|intros p Hp; rewrite AW; cbn in Hp; destruct Hp as [<-|[<-|[<-|[<-|[]]]]]; cbn [snd]; lra].
  apply estimate_all in Ha'; [|cbn; lia|intros p Hp; rewrite AW'; cbn in Hp; destruct Hp as [<-|[<-|[<-|[<-|[<-|[]]]]]]; cbn [snd]; lra].
  apply estimate_all in Hb'; [|cbn; lia|intros p Hp; rewrite AW'; cbn in Hp; destruct Hp as [<-|[<-|[<-|[<-|[<-|[]]]]]]; cbn [snd]; lra].
  cbn [combine four_weights four total fst snd] in Ha, Hb. cbn [combine ones five total fst snd] in Ha', Hb'.
  change (combine four_weights four) with (combine four_weights four) in Ha. rewrite !AW in Ha, Hb. rewrite !AW' in Ha', Hb'.
  set (x := exp (- (3 / (2 * (s * s))))). set (x' := exp (- (10 / 3 / (2 * (s' * s'))))).
  assert (Z : forall u c, exp (- ((u - u) * (u - u) / c / (2 * (s * s)))) = 1 /\ exp (- ((u - u) * (u - u) / c / (2 * (s' * s')))) = 1).
  { intros u c. split; rewrite <- exp_0; f_equal; unfold Rdiv; ring. }
  assert (X1 : exp (- ((1 - -1) * (1 - -1) / (4 / 3) / (2 * (s * s)))) = x) by (unfold x; f_equal; f_equal; f_equal; lra).
  assert (X2 : exp (- ((-1 - 1) * (-1 - 1) / (4 / 3) / (2 * (s * s)))) = x) by (unfold x; f_equal; f_equal; f_equal; lra).
  assert (X1' : exp (- ((1 - -1) * (1 - -1) / (6 / 5) / (2 * (s' * s')))) = x') by (unfold x'; f_equal; f_equal; f_equal; lra).
  assert (X2' : exp (- ((-1 - 1) * (-1 - 1) / (6 / 5) / (2 * (s' * s')))) = x') by (unfold x'; f_equal; f_equal; f_equal; lra).
  rewrite (proj1 (Z (-1) (4 / 3))), X1 in Ha. rewrite (proj1 (Z 1 (4 / 3))), X2 in Hb. rewrite (proj2 (Z (-1) (6 / 5))), X1' in Ha'. rewrite (proj2 (Z 1 (6 / 5))), X2' in Hb'.
  assert (XX : x' < x).
  { unfold x, x'. apply exp_increasing. apply Ropp_lt_contravar. assert (P' : 0 < 2 * (s' * s')) by nra. assert (P : 0 < 2 * (s * s)) by nra.
    apply Rlt_trans with (3 / (2 * (s' * s'))).
    - apply Rmult_lt_compat_l; [lra|]. apply Rinv_lt_contravar; [apply Rmult_lt_0_compat; assumption|nra].
    - apply Rmult_lt_compat_r; [apply Rinv_0_lt_compat; exact P'|lra]. }
  intros [q [Q1 Q2]]. assert (C : a' * b = b' * a) by (rewrite Q1, Q2; ring). rewrite Ha, Hb, Ha', Hb' in C. clear - C XX. nra.
Qed.
Print Assumptions C94_split_refuted.

(** ** Equally close samples of different weight *)
Definition six : list R := [0; 0; 0; 0; 0; 1].
(** One of the samples at 0 counts twice. *)
Definition heavy (j : nat) : list R := map (fun i => if (i =? j)%nat then 2 else 1) (seq 0 6).
Lemma heavy_perm i j : (i < 5)%nat -> (j < 5)%nat -> Permutation (combine (heavy i) six) (combine (heavy j) six).
Proof.
  assert (P : forall j, (j < 5)%nat -> Permutation (combine (heavy 0) six) (combine (heavy j) six)).
  { intros k K. unfold heavy, six. destruct k as [|[|[|[|[|k]]]]]; try lia; cbn [seq map combine Nat.eqb]; [reflexivity|apply perm_swap|..].
    - apply (Permutation_trans (l' := [(1, 0); (2, 0); (1, 0); (1, 0); (1, 0); (1, 1)])); [apply perm_swap|]. apply perm_skip, perm_swap.
    - apply (Permutation_trans (l' := [(1, 0); (2, 0); (1, 0); (1, 0); (1, 0); (1, 1)])); [apply perm_swap|]. apply perm_skip. apply (Permutation_trans (l' := [(1, 0); (2, 0); (1, 0); (1, 0); (1, 1)])); [apply perm_swap|]. apply perm_skip, perm_swap.
    - apply (Permutation_trans (l' := [(1, 0); (2, 0); (1, 0); (1, 0); (1, 0); (1, 1)])); [apply perm_swap|]. apply perm_skip. apply (Permutation_trans (l' := [(1, 0); (2, 0); (1, 0); (1, 0); (1, 1)])); [apply perm_swap|]. apply perm_skip. apply (Permutation_trans (l' := [(1, 0); (2, 0); (1, 0); (1, 1)])); [apply perm_swap|]. apply perm_skip, perm_swap. }
  intros I J. rewrite <- (P i I). apply P. exact J.
Qed.
Lemma heavy_pos j v : In v (heavy j) -> 0 < v.
Proof. intros H. unfold heavy in H. apply in_map_iff in H as [i [<- _]]. destruct (i =? j)%nat; lra. Qed.
Lemma heavy_kde j : (j < 5)%nat -> exists k s, 0 < s /\ new_megkde 1 (map (fun x => [x]) six) (heavy j) 3 (Q2R (kde_factor (KBool true))) = Ok k /\ kd_sigma k = width_for 1 6 1 /\ kd_truncation k = 3 /\ kd_weights k = heavy j /\
  s = sqrt (1 / (3 / 20)) /\ kd_mean k = [1 / 7] /\ kd_A k = [[s]] /\ kd_d k = map (fun x => row_times (minus [x] [1 / 7]) [[s]]) six.
Proof.
  intros J. destruct (proj1 (C54_exists closest six (heavy j) (KBool true) [0] eq_refl ltac:(cbn; lia) (heavy_pos j) ltac:(exists 0, 1; cbn; intuition lra) eq_refl)) as [vs E].
  unfold kde_marginal, megkde_at in E. apply SurfaceProofs.rbind_ok in E as [k [E _]]. pose proof (new_megkde_ok _ _ _ _ _ _ E) as K. cbv zeta in K. destruct K as [_ [_ [_ [_ [K5 [K6 [K7 [K8 [K9 K10]]]]]]]]].
  cbn [seq map] in K5, K6, K7. assert (MN : average (heavy j) (map (comp 0) (map (fun x => [x]) six)) = 1 / 7).
  { unfold average, heavy, six, comp. destruct j as [|[|[|[|[|j]]]]]; try lia; cbn; field. }
  cbn [map six] in MN. cbn [map six] in K5, K6, K7. rewrite MN in K5, K6, K7.
  assert (CV : cov_entry (heavy j) (map (comp 0) (map (fun x => minus x [1 / 7]) (map (fun x => [x]) six))) (map (comp 0) (map (fun x => minus x [1 / 7]) (map (fun x => [x]) six))) = 3 / 20).
  { unfold cov_entry, cov_fact, average, heavy, six, comp, minus. destruct j as [|[|[|[|[|j]]]]]; try lia; cbn; field. }
  cbn [map six] in CV. rewrite CV in K5. apply sphere1 in K5 as [_ K5].
  exists k, (sqrt (1 / (3 / 20))). split; [apply sqrt_lt_R0; lra|]. split; [exact E|]. split; [rewrite K9; cbn [length map six]; f_equal; unfold kde_factor, Q2R; cbn; lra|]. split; [exact K10|]. split; [exact K8|]. split; [reflexivity|]. split; [exact K6|]. split; [exact K5|]. rewrite K7, K5. reflexivity.
Qed.
Lemma width_six : width_for 1 6 1 <= 2 /\ 0 < width_for 1 6 1.
Proof.
  unfold width_for, Rpower. assert (E : - (1 / (4 + INR 1)) = - (1 / 5)) by (cbn [INR]; field). rewrite E. assert (0 < ln (INR 6)) by (rewrite <- ln_1; apply ln_increasing; cbn [INR]; lra).
  assert (KE : exp (- (1 / 5) * ln (INR 6)) < exp 0) by (apply exp_increasing; lra). rewrite exp_0 in KE. pose proof (exp_pos (- (1 / 5) * ln (INR 6))). lra.
Qed.
(** Whatever the tree, two orders of the rows give different values at some target: a quarter more. *)
Theorem C94_order_refuted : forall nearest, finds_nearest nearest -> exists i j v, (i < 5)%nat /\ (j < 5)%nat /\ Permutation (combine (heavy i) six) (combine (heavy j) six) /\ 0 < v /\
  kde_marginal nearest six (heavy i) (KBool true) [-100] = Ok [4 * v] /\ kde_marginal nearest six (heavy j) (KBool true) [-100] = Ok [5 * v].
Proof.
  intros nearest NB. set (s := sqrt (1 / (3 / 20))). set (rows := map (fun x => row_times (minus [x] [1 / 7]) [[s]]) six). set (t := row_times (minus [-100] [1 / 7]) [[s]]).
  assert (SP : 0 < s) by (apply sqrt_lt_R0; lra). assert (SS : s * s = 20 / 3) by (unfold s; rewrite sqrt_sqrt by lra; lra).
  assert (DI : forall i, (i < 5)%nat -> dist2 (nth i rows []) t = 100 * s * (100 * s)).
  { intros i I. unfold rows, six, t, dist2, minus, row_times, comp, rsum. destruct i as [|[|[|[|[|i]]]]]; try lia; cbn; field. }
  assert (D5 : dist2 (nth 5 rows []) t = 101 * s * (101 * s)) by (unfold rows, six, t, dist2, minus, row_times, comp, rsum; cbn; field).
  set (ns := nearest rows t 4%nat). pose proof (NB rows t 4%nat ltac:(cbn; lia)) as N. cbv zeta in N. fold ns in N. destruct N as [N1 [N2 [N3 N4]]]. change (length rows) with 6%nat in N3, N4.
  assert (FREE : forall l, NoDup l -> length l = 4%nat -> exists o, (o < 5)%nat /\ ~ In o l).
  { intros l ND LL. destruct (in_dec Nat.eq_dec 0%nat l); [|exists 0%nat; split; [lia|assumption]]. destruct (in_dec Nat.eq_dec 1%nat l); [|exists 1%nat; split; [lia|assumption]]. destruct (in_dec Nat.eq_dec 2%nat l); [|exists 2%nat; split; [lia|assumption]].
    destruct (in_dec Nat.eq_dec 3%nat l); [|exists 3%nat; split; [lia|assumption]]. exists 4%nat. split; [lia|]. intros H. assert (K : incl [0; 1; 2; 3; 4]%nat l) by (intros x [<-|[<-|[<-|[<-|[<-|[]]]]]]; assumption).
    apply NoDup_incl_length in K; [cbn in K; lia|]. repeat constructor; cbn; intuition lia. }
  destruct (FREE ns N1 N2) as [o [O1 O2]].
  assert (N5 : ~ In 5%nat ns).
  { intros H. pose proof (N4 5%nat o H O2 ltac:(lia)) as K. rewrite <- !dist2_far in K. rewrite D5, (DI o O1) in K. nra. }
  assert (NL : forall i, In i ns -> (i < 5)%nat) by (intros i I; pose proof (N3 i I); assert (i <> 5%nat) by (intros ->; contradiction); lia).
  destruct ns as [|h r] eqn:EN; [discriminate N2|]. assert (H5 := NL h (or_introl eq_refl)).
  destruct width_six as [W6 W6'].
  set (E := exp (- (1 / 2) / (width_for 1 6 1 * width_for 1 6 1) * (100 * s * (100 * s)))).
  assert (VAL : forall j, (j < 5)%nat -> kde_marginal nearest six (heavy j) (KBool true) [-100] = Ok [total (fun i => nth i (heavy j) 0 * E) (h :: r)]).
  { intros j J. destruct (heavy_kde j J) as [k [s' [_ [K1 [K2 [K3 [K4 [K5 [K6 [K7 K8]]]]]]]]]]. fold s in K5. subst s'. fold rows in K8. unfold kde_marginal, megkde_at. rewrite K1. cbn [rbind]. unfold evaluate. rewrite K2, (proj2 (req_false _ _)) by lra.
    cbn [map rmapM]. cbv zeta. rewrite K3, K4, K6, K7, K8. fold t. change (length rows) with 6%nat.
    assert (FB : filter (fun i => rle (dist2 (nth i rows []) t) (width_for 1 6 1 * 3 * (width_for 1 6 1 * 3))) (seq 0 6) = []).
    { assert (FF : forall l, (forall i, In i l -> (i < 6)%nat) -> filter (fun i => rle (dist2 (nth i rows []) t) (width_for 1 6 1 * 3 * (width_for 1 6 1 * 3))) l = []).
      { induction l as [|i l IH]; intros B; [reflexivity|]. cbn [filter]. rewrite (proj2 (rle_false _ _)); [apply IH; intros; apply B; right; assumption|].
        pose proof (B i (or_introl eq_refl)). assert (width_for 1 6 1 * 3 * (width_for 1 6 1 * 3) <= 36) by nra. destruct (Nat.eq_dec i 5) as [->|I5]; [rewrite D5; nra|rewrite DI by lia; nra]. }
      apply FF. intros i I. apply in_seq in I. lia. }
    rewrite FB. cbn [length]. change (nmin <=? 0)%nat with false. change (6 <? nmin)%nat with false. cbv iota. change (nearest rows t nmin) with (nearest rows t 4%nat). unfold ns in EN. rewrite EN. cbn [rbind]. rewrite rsum_total. f_equal. f_equal. apply total_ext. intros i I. rewrite DI by (apply NL; exact I). reflexivity. }
  assert (NTH : forall i j, (i < 6)%nat -> nth i (heavy j) 0 = if (i =? j)%nat then 2 else 1).
  { intros i j I. unfold heavy. rewrite (nth_indep _ 0 ((fun i => if (i =? j)%nat then 2 else 1) 0%nat)) by (rewrite map_length, seq_length; exact I). rewrite (map_nth (fun i => if (i =? j)%nat then 2 else 1)). rewrite seq_nth by exact I. reflexivity. }
  assert (ONES : forall j l, (forall i, In i l -> (i < 6)%nat) -> ~ In j l -> total (fun i => nth i (heavy j) 0 * E) l = INR (length l) * E).
  { intros j. induction l as [|i l IH]; intros B NJ; [cbn; ring|]. cbn [total]. rewrite IH by (try (intros; apply B; right; assumption); intros X; apply NJ; right; exact X). rewrite NTH by (apply B; left; reflexivity).
    destruct (Nat.eqb_spec i j) as [X|_]; [exfalso; apply NJ; left; exact X|]. cbn [length]. rewrite S_INR. ring. }
  exists o, h, E. split; [exact O1|]. split; [exact H5|]. split; [apply heavy_perm; assumption|]. split; [apply exp_pos|]. split.
  - rewrite (VAL o O1). rewrite ONES by (try exact O2; intros i I; specialize (NL i I); lia). rewrite N2. f_equal. f_equal. cbn [INR]. ring.
  - rewrite (VAL h H5). cbn [total]. inversion N1 as [|? ? ND1 ND2]; subst. rewrite ONES by (try exact ND1; intros i I; specialize (NL i (or_intror I)); lia). rewrite NTH, Nat.eqb_refl by lia. cbn in N2. injection N2 as N2. rewrite N2. f_equal. f_equal. cbn [INR]. ring.
Qed.
Print Assumptions C94_order_refuted.

(** The hypotheses are met: four samples of different weight in the opposite order, all within reach; three samples. *)
Example C94_nonvacuous : finds_nearest closest /\ length [1; 2; 1; 1] = length [1; 1; -1; -1] /\ Permutation (combine four_weights four) (combine [1; 2; 1; 1] [1; 1; -1; -1]) /\
  (exists vs, kde_marginal closest four four_weights (KBool true) [-1; 1] = Ok vs) /\
  (let d := combine four_weights four in let width := width_for (kde_number (KBool true)) (length four) 1 in forall t, In t [-1; 1] -> four_within (away1 d t) (width * 3) d) /\
  (forall v, In v [1; 2; 1] -> 0 < v) /\ exists a b, In a [1; 2; 3] /\ In b [1; 2; 3] /\ a <> b.
Proof.
  split; [exact closest_ok|]. split; [reflexivity|]. split.
  { change (combine [1; 2; 1; 1] [1; 1; -1; -1]) with (rev (combine four_weights four)). apply Permutation_rev. }
  split; [exact (proj1 (C54_exists closest four four_weights (KBool true) [-1; 1] eq_refl ltac:(cbn; lia) ltac:(cbn; intuition lra) ltac:(exists (-1), 1; cbn; intuition lra) eq_refl))|].
  split.
  { cbv zeta. cbn [kde_number]. change (length four) with 4%nat. destruct width_five as [W1 W2]. set (s := width_for 1 4 1) in *. assert (R9 : 9 <= s * 3 * (s * 3)) by nra. intros t T. exists [0; 1; 2; 3]%nat.
    split; [repeat constructor; cbn; intuition lia|]. split; [cbn; lia|]. intros i I. unfold away1. rewrite four_var. cbn in T, I.
    destruct I as [<-|[<-|[<-|[<-|[]]]]]; eexists; (split; [reflexivity|]); cbn [snd]; destruct T as [<-|[<-|[]]]; lra. }
  split; [cbn; intuition lra|]. exists 1, 2. cbn. intuition lra.
Qed.
