(** Covariance and correlation of the same weighted samples, written in another way. *)
From Coq Require Import String List Bool Arith ZArith QArith Lia Setoid Permutation Reals Qreals Lra Lqa.
From Verif Require Import Py NumSpec NumModel NumFacts FrameModel FrameFacts ConfigModel ChainModel ChainSpec ShiftProofs CovModel CovSpec CovProofs EquivSpec EquivApi.
From Verif Require SurfaceProofs.
Import ListNotations.
Open Scope list_scope.
Open Scope Q_scope.

(** ** The moments a covariance is made of *)
Lemma dot3_shift a b : forall w x y, length x = length w -> length y = length w ->
  dot3 (map (fun q => q - a) x) (map (fun q => q - b) y) w == dot3 x y w - a * qdot y w - b * qdot x w + a * b * qsum w.
Proof.
  induction w as [|c w IH]; intros [|x0 x] [|y0 y] H1 H2; cbn in H1, H2; try discriminate; [cbn; ring|].
  cbn [map dot3]. rewrite (IH x y) by lia. unfold qdot. cbn [combine map qsum fst snd]. ring.
Qed.
Definition comoment (x y w : list Q) : Q := dot3 x y w - qdot x w * qdot y w / qsum w.
Lemma covf_comoment x y w : length x = length w -> length y = length w -> (forall q, In q w -> 0 < q) -> (2 <= length w)%nat -> covf x y w * fact w == comoment x y w.
Proof.
  intros L1 L2 P L. assert (W : 0 < qsum w) by (apply qsum_pos; [destruct w; [cbn in L; lia|discriminate]|exact P]). pose proof (fact_pos w P L).
  unfold covf, cen. rewrite dot3_shift by assumption. unfold comoment. field. split; lra.
Qed.
Lemma covf_ratio x y w x' y' w' s : length x = length w -> length y = length w -> (forall q, In q w -> 0 < q) -> (2 <= length w)%nat ->
  length x' = length w' -> length y' = length w' -> (forall q, In q w' -> 0 < q) -> (2 <= length w')%nat ->
  comoment x' y' w' == comoment x y w -> s * fact w' == fact w -> covf x' y' w' == s * covf x y w.
Proof.
  intros L1 L2 P L L1' L2' P' L' C S. pose proof (fact_pos w' P' L') as F'.
  apply (Qmult_inj_r _ _ (fact w')); [lra|]. rewrite (covf_comoment x' y' w') by assumption. rewrite C.
  rewrite <- (covf_comoment x y w) by assumption. rewrite <- S. ring.
Qed.
Lemma corr_scaled xs w xs' w' s : (0 < s)%Q -> (forall x, In x xs -> length x = length w) -> (forall q, In q w -> (0 < q)%Q) -> (2 <= length w)%nat ->
  (forall i j, (i < length xs)%nat -> (j < length xs)%nat -> covf (nth i xs' []) (nth j xs' []) w' == s * covf (nth i xs []) (nth j xs []) w) ->
  forall i j, (i < length xs)%nat -> (j < length xs)%nat -> corr_of xs' w' i j = corr_of xs w i j.
Proof.
  intros T LX P L C i j Hi Hj. apply Q2R_pos in T.
  assert (E : forall p q, (p < length xs)%nat -> (q < length xs)%nat -> Q2R (covf (nth p xs' []) (nth q xs' []) w') = (Q2R s * Q2R (covf (nth p xs []) (nth q xs []) w))%R).
  { intros p q Hp Hq. rewrite <- Q2R_mult. apply Qeq_eqR. apply C; assumption. }
  assert (S : forall p, (p < length xs)%nat -> sqrt (Q2R (covf (nth p xs' []) (nth p xs' []) w')) = (sqrt (Q2R s) * sqrt (Q2R (covf (nth p xs []) (nth p xs []) w)))%R).
  { intros p Hp. rewrite E by assumption. apply sqrt_mult; [Lra.lra|apply Q2R_nonneg, var_nonneg; [apply LX, nth_In; assumption|assumption|assumption]]. }
  unfold corr_of. rewrite !S, E by assumption.
  set (si := sqrt (Q2R (covf (nth i xs []) (nth i xs []) w))). set (sj := sqrt (Q2R (covf (nth j xs []) (nth j xs []) w))).
  replace (sqrt (Q2R s) * sj * (sqrt (Q2R s) * si))%R with (sqrt (Q2R s) * sqrt (Q2R s) * (sj * si))%R by ring.
  rewrite sqrt_sqrt by Lra.lra. destruct (Req_EM_T (sj * si) 0) as [Z|Z].
  - rewrite Z, Rmult_0_r. destruct (Req_EM_T 0 0); [reflexivity|contradiction].
  - destruct (Req_EM_T (Q2R s * (sj * si)) 0) as [Z2|Z2]; [exfalso; apply Rmult_integral in Z2 as [Z2|Z2]; [Lra.lra|contradiction]|].
    f_equal. field. repeat split; try Lra.lra; intros Q0; apply Z; rewrite Q0; ring.
Qed.

(** ** Rows in another order *)
Lemma dot3_rows : forall w x y, length x = length w -> length y = length w -> dot3 x y w == qsum (map (fun r => fst (fst r) * (snd (fst r) * snd r)) (combine (combine x y) w)).
Proof.
  induction w as [|c w IH]; intros [|a x] [|b y] H1 H2; cbn in H1, H2; try discriminate; [reflexivity|]. cbn [dot3 combine map qsum fst snd]. rewrite (IH x y) by lia. reflexivity.
Qed.
Section Reordered.
  Variables (q : list nat) (n : nat).
  Hypothesis (P : Permutation q (seq 0 n)).
  Lemma dot3_picked x y w : length x = n -> length y = n -> length w = n -> dot3 (picked 0 q x) (picked 0 q y) (picked 0 q w) == dot3 x y w.
  Proof.
    intros L1 L2 L3. rewrite !dot3_rows by (unfold picked; rewrite ?map_length; congruence).
    rewrite combine_picked by congruence. rewrite combine_picked by (rewrite combine_length; lia).
    apply SurfaceProofs.qsum_perm. apply Permutation_map. apply picked_perm. rewrite !combine_length, L1, L2, L3, !Nat.min_id. exact P.
  Qed.
  Lemma qdot_picked x w : length x = n -> length w = n -> qdot (picked 0 q x) (picked 0 q w) == qdot x w.
  Proof.
    intros L1 L3. unfold qdot. rewrite combine_picked by congruence. apply SurfaceProofs.qsum_perm. apply Permutation_map. apply picked_perm. rewrite combine_length, L1, L3, Nat.min_id. exact P.
  Qed.
  Lemma qsum_picked w : length w = n -> qsum (picked 0 q w) == qsum w.
  Proof. intros <-. apply SurfaceProofs.qsum_perm. apply picked_perm. exact P. Qed.
  Lemma fact_picked w : length w = n -> fact (picked 0 q w) == fact w.
  Proof. intros L. unfold fact. rewrite !sq_sum, (qdot_picked w w), qsum_picked by assumption. reflexivity. Qed.
  Lemma comoment_picked x y w : length x = n -> length y = n -> length w = n -> comoment (picked 0 q x) (picked 0 q y) (picked 0 q w) == comoment x y w.
  Proof. intros L1 L2 L3. unfold comoment. rewrite dot3_picked, !qdot_picked, qsum_picked by assumption. reflexivity. Qed.
  Lemma picked_fin v : length v = n -> picked NaN q (map Fin v) = map Fin (picked 0 q v).
  Proof.
    intros L. unfold picked. rewrite map_map. apply map_ext_in. intros i I. apply (Permutation_in _ P) in I. apply in_seq in I.
    rewrite (nth_indep _ NaN (Fin 0)) by (rewrite map_length; lia). apply map_nth.
  Qed.
End Reordered.
Lemma reordered_wf f f' : frame_wf f -> reordered f f' -> frame_wf f'.
Proof.
  intros [N L] [q [P ->]]. split.
  - cbn [f_cols]. rewrite map_map. cbn [fst]. exact N.
  - cbn [f_cols f_index]. intros c l H. apply in_map_iff in H as [[c0 l0] [E H]]. cbn [fst snd] in E. injection E as <- <-. unfold picked. rewrite !map_length. reflexivity.
Qed.
Lemma reordered_data c f f' cols xs w : weighted_data c f cols xs w -> reordered f f' ->
  exists q, Permutation q (seq 0 (length w)) /\ weighted_data c f' cols (map (picked 0 q) xs) (picked 0 q w).
Proof.
  intros D R. pose proof (reordered_wf _ _ (wd_frame _ _ _ _ _ D) R) as WF'. destruct R as [q [P E]]. destruct D as [WF C W PO L].
  assert (LEN : forall n v, column f n v -> length v = f_rows f) by (intros n v H; pose proof (proj2 WF _ _ H) as K; rewrite map_length in K; exact K).
  pose proof (LEN _ _ W) as LW. exists q. rewrite LW. split; [exact P|].
  assert (COL : forall n v, column f n v -> column f' n (picked 0 q v)).
  { intros n v H. subst f'. unfold column in *. cbn [f_cols]. rewrite <- (picked_fin q (f_rows f) P) by (apply (LEN n); exact H). apply in_map_iff. exists (CStr n, map Fin v). split; [reflexivity|exact H]. }
  constructor; [exact WF'| |apply COL; exact W| |].
  - clear - C COL. induction C; cbn; constructor; auto.
  - intros x H. unfold picked in H. apply in_map_iff in H as [i [<- I]]. apply PO, nth_In. apply (Permutation_in _ P) in I. apply in_seq in I. lia.
  - unfold picked. rewrite map_length, (Permutation_length P), seq_length. lia.
Qed.
Lemma nth_picked q xs i : nth i (map (picked 0 q) xs) [] = picked 0 q (nth i xs []) \/ (length xs <= i)%nat.
Proof. destruct (Nat.lt_ge_cases i (length xs)); [left|right; assumption]. rewrite (nth_indep _ [] (picked 0 q [])) by (rewrite map_length; assumption). apply map_nth. Qed.
Lemma reordered_covf xs w q i j : (forall x, In x xs -> length x = length w) -> (forall p, In p w -> 0 < p) -> (2 <= length w)%nat -> Permutation q (seq 0 (length w)) ->
  (i < length xs)%nat -> (j < length xs)%nat ->
  covf (nth i (map (picked 0 q) xs) []) (nth j (map (picked 0 q) xs) []) (picked 0 q w) == 1 * covf (nth i xs []) (nth j xs []) w.
Proof.
  intros LX PO L P Hi Hj. destruct (nth_picked q xs i) as [->|?]; [|lia]. destruct (nth_picked q xs j) as [->|?]; [|lia].
  assert (LQ : forall l, length (picked 0 q l) = length w) by (intros l; unfold picked; rewrite map_length, (Permutation_length P), seq_length; reflexivity).
  assert (Li := LX _ (nth_In xs [] Hi)). assert (Lj := LX _ (nth_In xs [] Hj)).
  apply covf_ratio; try assumption; rewrite ?LQ; try congruence.
  - intros x H. unfold picked in H. apply in_map_iff in H as [k [<- I]]. apply PO, nth_In. apply (Permutation_in _ P) in I. apply in_seq in I. lia.
  - apply (comoment_picked q (length w)); auto.
  - rewrite (fact_picked q (length w)) by auto. ring.
Qed.

(** ** One row split in two *)
Lemma dot3_split u u' : forall i x y w, length x = length w -> length y = length w -> (i < length w)%nat -> u + u' == nth i w 0 ->
  dot3 (split_row i (nth i x 0) (nth i x 0) x) (split_row i (nth i y 0) (nth i y 0) y) (split_row i u u' w) == dot3 x y w.
Proof.
  unfold split_row. induction i as [|i IH]; intros [|a x] [|b y] [|c w] L1 L2 I U; cbn in L1, L2, I; try discriminate; try lia.
  - cbn [nth] in U. cbn [nth firstn skipn app dot3]. rewrite <- U. ring.
  - cbn [nth] in U. cbn [nth firstn app dot3]. change (skipn (S (S i)) (a :: x)) with (skipn (S i) x). change (skipn (S (S i)) (b :: y)) with (skipn (S i) y). change (skipn (S (S i)) (c :: w)) with (skipn (S i) w).
    rewrite (IH x y w) by (try lia; exact U). reflexivity.
Qed.
Lemma qdot_split u u' : forall i x w, length x = length w -> (i < length w)%nat -> u + u' == nth i w 0 ->
  qdot (split_row i (nth i x 0) (nth i x 0) x) (split_row i u u' w) == qdot x w.
Proof.
  unfold split_row, qdot. induction i as [|i IH]; intros [|a x] [|c w] L1 I U; cbn in L1, I; try discriminate; try lia.
  - cbn [nth] in U. cbn [nth firstn skipn app combine map qsum fst snd]. rewrite <- U. ring.
  - cbn [nth] in U. cbn [nth firstn app combine map qsum fst snd]. change (skipn (S (S i)) (a :: x)) with (skipn (S i) x). change (skipn (S (S i)) (c :: w)) with (skipn (S i) w).
    rewrite (IH x w) by (try lia; exact U). reflexivity.
Qed.
Lemma qsum_split u u' : forall i w, (i < length w)%nat -> u + u' == nth i w 0 -> qsum (split_row i u u' w) == qsum w.
Proof.
  unfold split_row. induction i as [|i IH]; intros [|c w] I U; cbn in I; try lia.
  - cbn [nth] in U. cbn [firstn skipn app qsum]. rewrite <- U. ring.
  - cbn [nth] in U. cbn [firstn app qsum]. change (skipn (S (S i)) (c :: w)) with (skipn (S i) w). rewrite (IH w) by (try lia; exact U). reflexivity.
Qed.
Lemma squares_split u u' : forall i w, (i < length w)%nat -> u + u' == nth i w 0 ->
  qsum (map (fun q => q * q) (split_row i u u' w)) == qsum (map (fun q => q * q) w) - 2 * u * u'.
Proof.
  unfold split_row. induction i as [|i IH]; intros [|c w] I U; cbn in I; try lia.
  - cbn [nth] in U. cbn [firstn skipn app map qsum]. rewrite <- U. ring.
  - cbn [nth] in U. cbn [firstn app map qsum]. change (skipn (S (S i)) (c :: w)) with (skipn (S i) w). rewrite (IH w) by (try lia; exact U). ring.
Qed.
Lemma comoment_split u u' i x y w : length x = length w -> length y = length w -> (i < length w)%nat -> u + u' == nth i w 0 ->
  comoment (split_row i (nth i x 0) (nth i x 0) x) (split_row i (nth i y 0) (nth i y 0) y) (split_row i u u' w) == comoment x y w.
Proof. intros L1 L2 I S. unfold comoment. rewrite dot3_split, !qdot_split, qsum_split by assumption. reflexivity. Qed.
Lemma fact_split u u' i w : (i < length w)%nat -> u + u' == nth i w 0 -> (forall q, In q w -> 0 < q) -> 0 < u -> 0 < u' -> fact w < fact (split_row i u u' w).
Proof.
  intros I S P U U'. assert (W : 0 < qsum w) by (apply qsum_pos; [destruct w; [cbn in I; lia|discriminate]|exact P]).
  unfold fact. rewrite squares_split, qsum_split by assumption.
  assert (0 < 2 * u * u' / qsum w) by (apply Qlt_shift_div_l; [exact W|nra]).
  setoid_replace ((qsum (map (fun q => q * q) w) - 2 * u * u') / qsum w) with (qsum (map (fun q => q * q) w) / qsum w - 2 * u * u' / qsum w) by (field; lra). lra.
Qed.
Lemma split_length {A} i (v v' : A) l : (i < length l)%nat -> length (split_row i v v' l) = S (length l).
Proof. intros I. unfold split_row. rewrite app_length. cbn [length]. rewrite firstn_length_le, skipn_length by lia. lia. Qed.
Lemma split_in {A} i (v v' : A) l : In v (split_row i v v' l) /\ In v' (split_row i v v' l).
Proof. unfold split_row. split; apply in_or_app; right; cbn; auto. Qed.

(** The columns and the weights of the table with the row split. *)
Lemma split_columns c f f' r cols xs w xs' w' : weighted_data c f cols xs w -> weighted_data c f' cols xs' w' -> row_split (ch_weight c) r f f' -> ~ In (ch_weight c) cols ->
  (r < length w)%nat /\ xs' = map (fun x => split_row r (nth r x 0) (nth r x 0) x) xs /\ exists u u', u + u' == nth r w 0 /\ w' = split_row r u u' w.
Proof.
  intros D D' [I [_ S]] N. destruct (wd_len _ _ _ _ _ D) as [LX LW].
  assert (G : forall n v, column f n v -> f_get f n = Some (map Fin v)) by (intros n v H; apply (f_get_wf f n _ (wd_frame _ _ _ _ _ D)); exact H).
  assert (G' : forall n v, column f' n v -> f_get f' n = Some (map Fin v)) by (intros n v H; apply (f_get_wf f' n _ (wd_frame _ _ _ _ _ D')); exact H).
  assert (IW : (r < length w)%nat). { pose proof (proj2 (wd_frame _ _ _ _ _ D) _ _ (wd_weights _ _ _ _ _ D)) as K. rewrite map_length in K. unfold f_rows in I. lia. }
  assert (NQ : forall v, nth r v 0 = cell_q (nth r (map Fin v) NaN)).
  { intros v. pose proof (map_nth cell_q (map Fin v) NaN r) as E. rewrite map_map in E. cbn in E. rewrite map_id in E. exact E. }
  split; [exact IW|]. split.
  - pose proof (wd_cols _ _ _ _ _ D) as C. pose proof (wd_cols _ _ _ _ _ D') as C'. clear - C C' N S G G' NQ. revert xs' C'. induction C as [|n x cols xs H _ IH]; intros xs' C'; inversion C' as [|n' x' cols' xs'' H' C'' E1 E2]; subst; [reflexivity|].
    cbn [map]. f_equal; [|apply IH; [intros K; apply N; right; exact K|assumption]].
    destruct (S _ _ (G _ _ H)) as [v [v' [E V]]]. destruct (String.eqb_spec n (ch_weight c)) as [K|_]; [exfalso; apply N; left; exact K|]. destruct V as [-> ->].
    rewrite (G' _ _ H') in E. injection E as E. apply (f_equal qs) in E. rewrite qs_split, !qs_fin in E. rewrite E, NQ. reflexivity.
  - destruct (S _ _ (G _ _ (wd_weights _ _ _ _ _ D))) as [v [v' [E V]]]. rewrite String.eqb_refl in V. exists (cell_q v), (cell_q v'). rewrite NQ. split; [exact V|].
    rewrite (G' _ _ (wd_weights _ _ _ _ _ D')) in E. injection E as E. apply (f_equal qs) in E. rewrite qs_split, !qs_fin in E. exact E.
Qed.
Lemma split_covf c f f' r cols xs w xs' w' : weighted_data c f cols xs w -> weighted_data c f' cols xs' w' -> row_split (ch_weight c) r f f' -> ~ In (ch_weight c) cols ->
  exists s, 0 < s < 1 /\ s * fact w' == fact w /\
  forall i j, (i < length xs)%nat -> (j < length xs)%nat -> covf (nth i xs' []) (nth j xs' []) w' == s * covf (nth i xs []) (nth j xs []) w.
Proof.
  intros D D' S N. destruct (split_columns _ _ _ _ _ _ _ _ _ D D' S N) as [I [EX [u [u' [U EW]]]]].
  destruct (wd_len _ _ _ _ _ D) as [LX LW]. destruct (wd_len _ _ _ _ _ D') as [LX' LW'].
  pose proof (wd_positive _ _ _ _ _ D) as P. pose proof (wd_positive _ _ _ _ _ D') as P'. pose proof (wd_rows _ _ _ _ _ D) as L. pose proof (wd_rows _ _ _ _ _ D') as L'.
  assert (PU : 0 < u /\ 0 < u') by (split; apply P'; rewrite EW; apply split_in).
  pose proof (fact_pos w P L) as F. pose proof (fact_split u u' r w I U P (proj1 PU) (proj2 PU)) as FS. rewrite <- EW in FS.
  assert (E : fact w / fact w' * fact w' == fact w) by (field; lra).
  exists (fact w / fact w'). split; [split; [apply Qlt_shift_div_l; lra|apply Qlt_shift_div_r; lra]|]. split; [exact E|].
  intros i j Hi Hj. assert (LL : length xs' = length xs) by (rewrite EX, map_length; reflexivity).
  assert (NX : forall k, (k < length xs)%nat -> nth k xs' [] = split_row r (nth r (nth k xs []) 0) (nth r (nth k xs []) 0) (nth k xs [])).
  { intros k K. rewrite EX. set (g := fun x => split_row r (nth r x 0) (nth r x 0) x). rewrite (nth_indep _ [] (g [])) by (rewrite map_length; exact K). rewrite (map_nth g). reflexivity. }
  apply covf_ratio; try assumption; try (apply LW, nth_In; lia); try (apply LW', nth_In; lia).
  rewrite !NX, EW by assumption. apply comoment_split; try assumption; apply LW, nth_In; assumption.
Qed.
