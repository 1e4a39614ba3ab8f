(** C93: covariance and correlation depend only on the weighted samples. *)
From Coq Require Import String List Bool Arith ZArith QArith Lia Permutation Reals Qreals Lra Lqa.
From Verif Require Import Py NumSpec NumModel NumFacts FrameModel FrameFacts ConfigModel ChainModel ChainSpec CovModel CovSpec CovProofs CovProps EquivSpec EquivApi CovEquivProofs.
Import ListNotations.
Open Scope string_scope.
Open Scope list_scope.

(** The same rows in another order: the same covariances and correlations. *)
Theorem C93_reordered : forall c f f' cols xs w, weighted_data c f cols xs w -> reordered f f' -> cols <> [] ->
  exists m m', get_covariance c f (Some cols) = Ok m /\ get_covariance c f' (Some cols) = Ok m' /\ nm_columns m' = nm_columns m /\
    square (rows (nm_matrix m)) (length cols) /\ square (rows (nm_matrix m')) (length cols) /\
    forall i j, (i < length cols)%nat -> (j < length cols)%nat -> (entry (rows (nm_matrix m')) i j == entry (rows (nm_matrix m)) i j)%Q.
Proof.
  intros c f f' cols xs w D R N. destruct (reordered_data _ _ _ _ _ _ D R) as [q [P D']].
  destruct (wd_len _ _ _ _ _ D) as [LX LW]. destruct (wd_len _ _ _ _ _ D') as [LX' LW'].
  destruct (C15_covariance _ _ _ _ _ D N) as [k [K1 [K2 _]]]. destruct (C15_covariance _ _ _ _ _ D' N) as [k' [K1' [K2' _]]].
  destruct (covariance_ok _ _ _ _ _ D N) as [m [M1 [M2 _]]]. destruct (covariance_ok _ _ _ _ _ D' N) as [m' [M1' [M2' _]]].
  exists {| nm_columns := cols; nm_matrix := m |}, {| nm_columns := cols; nm_matrix := m' |}.
  rewrite M1 in K1. injection K1 as <-. rewrite M1' in K1'. injection K1' as <-.
  split; [exact M1|]. split; [exact M1'|]. split; [reflexivity|]. split; [exact K2|]. split; [exact K2'|].
  intros i j Hi Hj. cbn [nm_matrix]. rewrite M2, M2'. rewrite !entry_covf by lia.
  rewrite (reordered_covf xs w q i j LW (wd_positive _ _ _ _ _ D) (wd_rows _ _ _ _ _ D) P) by lia. ring.
Qed.
Print Assumptions C93_reordered.
Theorem C93_correlation_reordered : forall c f f' cols xs w, weighted_data c f cols xs w -> reordered f f' -> (2 <= length cols)%nat ->
  exists m m', get_correlation c f (Some cols) = Ok m /\ get_correlation c f' (Some cols) = Ok m' /\ nm_columns m' = nm_columns m /\
    square (rows (nm_matrix m)) (length cols) /\ square (rows (nm_matrix m')) (length cols) /\
    forall i j, (i < length cols)%nat -> (j < length cols)%nat -> centry (rows (nm_matrix m')) i j = centry (rows (nm_matrix m)) i j.
Proof.
  intros c f f' cols xs w D R L. destruct (reordered_data _ _ _ _ _ _ D R) as [q [P D']]. destruct (wd_len _ _ _ _ _ D) as [LX LW].
  destruct (correlation_ok _ _ _ _ _ D L) as [m [M1 [M2 M3]]]. destruct (correlation_ok _ _ _ _ _ D' L) as [m' [M1' [M2' M3']]].
  exists {| nm_columns := cols; nm_matrix := Mat m |}, {| nm_columns := cols; nm_matrix := Mat m' |}.
  split; [exact M1|]. split; [exact M1'|]. split; [reflexivity|]. split; [exact M2|]. split; [exact M2'|].
  intros i j Hi Hj. cbn [nm_matrix rows]. rewrite M3, M3' by assumption.
  apply (corr_scaled xs w _ _ 1); try lia; [reflexivity|exact LW|exact (wd_positive _ _ _ _ _ D)|exact (wd_rows _ _ _ _ _ D)|].
  intros a b Ha Hb. apply reordered_covf; try assumption; [exact (wd_positive _ _ _ _ _ D)|exact (wd_rows _ _ _ _ _ D)].
Qed.
Print Assumptions C93_correlation_reordered.

(** One row written as two rows with the same values that share its weight: the same correlations. *)
Theorem C93_correlation_split : forall c f f' r cols xs w xs' w', weighted_data c f cols xs w -> weighted_data c f' cols xs' w' -> row_split (ch_weight c) r f f' -> ~ In (ch_weight c) cols ->
  (2 <= length cols)%nat ->
  exists m m', get_correlation c f (Some cols) = Ok m /\ get_correlation c f' (Some cols) = Ok m' /\ nm_columns m' = nm_columns m /\
    square (rows (nm_matrix m)) (length cols) /\ square (rows (nm_matrix m')) (length cols) /\
    forall i j, (i < length cols)%nat -> (j < length cols)%nat -> centry (rows (nm_matrix m')) i j = centry (rows (nm_matrix m)) i j.
Proof.
  intros c f f' r cols xs w xs' w' D D' S N L. destruct (split_covf _ _ _ _ _ _ _ _ _ D D' S N) as [s [[S1 _] [_ S3]]]. destruct (wd_len _ _ _ _ _ D) as [LX LW].
  destruct (correlation_ok _ _ _ _ _ D L) as [m [M1 [M2 M3]]]. destruct (correlation_ok _ _ _ _ _ D' L) as [m' [M1' [M2' M3']]].
  exists {| nm_columns := cols; nm_matrix := Mat m |}, {| nm_columns := cols; nm_matrix := Mat m' |}.
  split; [exact M1|]. split; [exact M1'|]. split; [reflexivity|]. split; [exact M2|]. split; [exact M2'|].
  intros i j Hi Hj. cbn [nm_matrix rows]. rewrite M3, M3' by assumption.
  apply (corr_scaled xs w _ _ s); try lia; [exact S1|exact LW|exact (wd_positive _ _ _ _ _ D)|exact (wd_rows _ _ _ _ _ D)|exact S3].
Qed.
Print Assumptions C93_correlation_split.
(** The covariances are not the same: all of them shrink by one factor below one, that of the normalisations. *)
Theorem C93_split_partial : forall c f f' r cols xs w xs' w', weighted_data c f cols xs w -> weighted_data c f' cols xs' w' -> row_split (ch_weight c) r f f' -> ~ In (ch_weight c) cols ->
  cols <> [] ->
  exists m m' s, get_covariance c f (Some cols) = Ok m /\ get_covariance c f' (Some cols) = Ok m' /\ nm_columns m' = nm_columns m /\
    (0 < s < 1)%Q /\ (s * (total w' - wsum w' w' / total w') == total w - wsum w w / total w)%Q /\
    forall i j, (i < length cols)%nat -> (j < length cols)%nat -> (entry (rows (nm_matrix m')) i j == s * entry (rows (nm_matrix m)) i j)%Q.
Proof.
  intros c f f' r cols xs w xs' w' D D' S N NE. destruct (split_covf _ _ _ _ _ _ _ _ _ D D' S N) as [s [S1 [S2 S3]]].
  destruct (wd_len _ _ _ _ _ D) as [LX LW]. destruct (wd_len _ _ _ _ _ D') as [LX' LW'].
  destruct (covariance_ok _ _ _ _ _ D NE) as [m [M1 [M2 _]]]. destruct (covariance_ok _ _ _ _ _ D' NE) as [m' [M1' [M2' _]]].
  exists {| nm_columns := cols; nm_matrix := m |}, {| nm_columns := cols; nm_matrix := m' |}, s.
  split; [exact M1|]. split; [exact M1'|]. split; [reflexivity|]. split; [exact S1|]. split; [rewrite <- !fact_total; exact S2|].
  intros i j Hi Hj. cbn [nm_matrix]. rewrite M2, M2'. rewrite !entry_covf by lia. apply S3; lia.
Qed.
Print Assumptions C93_split_partial.
(** So a variance that is not zero always gets smaller, although the weighted samples are the same. *)
Theorem C93_split_refuted : forall c f f' r cols xs w xs' w' m m' i, weighted_data c f cols xs w -> weighted_data c f' cols xs' w' -> row_split (ch_weight c) r f f' -> ~ In (ch_weight c) cols ->
  get_covariance c f (Some cols) = Ok m -> get_covariance c f' (Some cols) = Ok m' -> (i < length cols)%nat ->
  ~ (entry (rows (nm_matrix m)) i i == 0)%Q -> (entry (rows (nm_matrix m')) i i < entry (rows (nm_matrix m)) i i)%Q.
Proof.
  intros c f f' r cols xs w xs' w' m m' i D D' S N H H' Hi V.
  destruct (C93_split_partial _ _ _ _ _ _ _ _ _ D D' S N) as [k [k' [s [K [K' [_ [S1 [_ E]]]]]]]]; [destruct cols; [cbn in Hi; lia|discriminate]|].
  rewrite K in H. injection H as <-. rewrite K' in H'. injection H' as <-. rewrite (E i i Hi Hi).
  destruct (wd_len _ _ _ _ _ D) as [LX LW]. destruct (covariance_ok _ _ _ _ _ D) as [m [M1 [M2 _]]]; [destruct cols; [cbn in Hi; lia|discriminate]|].
  rewrite M1 in K. injection K as <-. cbn [nm_matrix] in *. rewrite M2 in *. rewrite entry_covf in * by lia.
  pose proof (var_nonneg (nth i xs []) w (LW _ (nth_In xs [] (ltac:(lia) : (i < length xs)%nat))) (wd_positive _ _ _ _ _ D) (wd_rows _ _ _ _ _ D)) as VN.
  set (v := covf _ _ _) in *. assert (0 < v)%Q by (destruct (Qlt_le_dec 0 v); [assumption|exfalso; apply V; lra]). nra.
Qed.
Print Assumptions C93_split_refuted.

(** Two columns: the rows in another order, and the second row (weight 2) written as two rows of weight 1. *)
Definition ex93_reordered : frame := {| f_index := [LInt 2; LInt 0; LInt 1]; f_cols := [(CStr "x", map Fin [4; 1; 2]%Q); (CStr "y", map Fin [1; 0; 2]%Q); (CStr "weight", map Fin [1; 1; 2]%Q)] |}.
Definition ex93_split : frame := {| f_index := [LInt 0; LInt 1; LInt 2; LInt 3]; f_cols := [(CStr "x", map Fin [1; 2; 2; 4]%Q); (CStr "y", map Fin [0; 2; 2; 1]%Q); (CStr "weight", map Fin [1; 1; 1; 1]%Q)] |}.
Example C93_nonvacuous : weighted_data ex15_chain ex15_frame ["x"; "y"] [[1; 2; 4]; [0; 2; 1]]%Q [1; 2; 1]%Q /\ reordered ex15_frame ex93_reordered /\
  row_split (ch_weight ex15_chain) 1 ex15_frame ex93_split /\ weighted_data ex15_chain ex93_split ["x"; "y"] [[1; 2; 2; 4]; [0; 2; 2; 1]]%Q [1; 1; 1; 1]%Q /\ ~ In (ch_weight ex15_chain) ["x"; "y"] /\
  match get_covariance ex15_chain ex15_frame None, get_covariance ex15_chain ex93_split None with
  | Ok m, Ok m' => (entry (rows (nm_matrix m)) 0 0 == 19 # 10)%Q /\ (entry (rows (nm_matrix m')) 0 0 == 19 # 12)%Q
  | _, _ => False end.
Proof.
  split; [exact (proj1 C15_nonvacuous)|]. split.
  { exists [2; 0; 1]%nat. split; [|reflexivity]. apply NoDup_Permutation; [repeat constructor; cbn; intuition discriminate|apply seq_NoDup|]. intros x. cbn. intuition. }
  split. { split; [cbn; lia|]. split; [reflexivity|]. intros n l H. unfold f_get in H. cbn [ex15_frame f_cols col_get clabel_eqb] in H. destruct (String.eqb_spec n "x") as [->|N1].
    - injection H as <-. exists (Fin 2), (Fin 2). split; [reflexivity|]. split; reflexivity.
    - destruct (String.eqb_spec n "y") as [->|N3]; [injection H as <-; exists (Fin 2), (Fin 2); split; [reflexivity|split; reflexivity]|].
      destruct (String.eqb_spec n "weight") as [->|N2]; [|discriminate]. injection H as <-. exists (Fin 1), (Fin 1). split; reflexivity. }
  split. { constructor; [|repeat constructor; vm_compute; tauto|vm_compute; tauto| |cbn; lia].
    - split; [repeat constructor; cbn; intuition discriminate|]. intros c l [H|[H|[H|[]]]]; injection H as <- <-; reflexivity.
    - intros x [<-|[<-|[<-|[<-|[]]]]]; reflexivity. }
  split; [intros [H|[H|[]]]; vm_compute in H; discriminate|]. vm_compute. auto.
Qed.
