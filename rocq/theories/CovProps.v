(** C15, C16: covariance and correlation. *)
From Coq Require Import String List Bool Arith ZArith QArith Lia Reals Qreals Lra Lqa.
From Verif Require Import Py NumSpec NumModel NumFacts FrameModel FrameFacts ColorModel MarginalModel ConfigModel ChainModel RegistryModel RegistrySpec ChainSpec ShiftProofs ChainProofs
  ChainUseProofs CovModel CovSpec CovProofs RegistryProps ChainProps.
Import ListNotations.
Open Scope string_scope.
Open Scope list_scope.

(** Every chain made by Chain(...) without shift_params, with at least two rows, meets [weighted_data] for
    every list of its columns. *)
Theorem C15_constructed : forall rgb2hex h a h' l c cols, frame_wf (frame_at h (a_samples a)) -> new_chain rgb2hex h a = (h', Ok l) -> chain_at h' l = Some c ->
  ch_cfg c Fshift_params = false -> (2 <= length (f_index (frame_at h (a_samples a))))%nat ->
  (forall n, In n cols -> is_column (frame_at h' (ch_samples c)) n) ->
  exists xs w, weighted_data c (frame_at h' (ch_samples c)) cols xs w.
Proof.
  intros rgb h a h' l c cols W H HC HS HR HCols. pose proof (new_chain_built rgb h a h' l c W H HC) as B.
  set (f := frame_at h' (ch_samples c)) in *. destruct (wb_clean _ _ B) as [_ CF].
  assert (V : forall n, is_column f n -> exists v, column f n v).
  { intros n [lc HI]. exists (qs lc). unfold column. replace (map Fin (qs lc)) with lc; [exact HI|]. symmetry. unfold qs. rewrite map_map. rewrite <- (map_id lc) at 2. apply map_ext_in.
    intros x Hx. destruct (CF _ _ _ HI Hx) as [q ->]. reflexivity. }
  assert (XS : exists xs, Forall2 (column f) cols xs).
  { clear - V HCols. induction cols as [|n r IH]; [exists []; constructor|]. destruct IH as [xs IH]; [intros m Hm; apply HCols; right; exact Hm|].
    destruct (V n (HCols n (or_introl eq_refl))) as [v Hv]. exists (v :: xs). constructor; assumption. }
  destruct XS as [xs XS]. destruct (V (ch_weight c)) as [w HW]; [apply is_column_has; exact (wb_weight _ _ B)|]. exists xs, w. split.
  - exact (wb_wf _ _ B).
  - exact XS.
  - exact HW.
  - intros x Hx. apply (wb_positive _ _ B HS (map Fin w) x HW). apply in_map. exact Hx.
  - pose proof (proj2 (wb_wf _ _ B) _ _ HW) as LW. rewrite map_length in LW.
    destruct (new_chain_result rgb h a h' l W H) as [col [f2 [H1 [H2 [H3 [H4 [H5 [H6 _]]]]]]]]. cbv zeta in *. rewrite HC in H3. injection H3 as E.
    assert (EF : f = f2). { unfold f. rewrite E. exact H4. } rewrite EF, H6 in LW. lia.
Qed.
Print Assumptions C15_constructed.

(** Entry (i, j) is the weighted covariance of columns i and j; the result is labelled by the columns. *)
Theorem C15_covariance : forall c f cols xs w, weighted_data c f cols xs w -> cols <> [] ->
  exists m, get_covariance c f (Some cols) = Ok {| nm_columns := cols; nm_matrix := m |} /\ square (rows m) (length cols) /\
    (forall i j, (i < length cols)%nat -> (j < length cols)%nat -> is_covariance (nth i xs []) (nth j xs []) w (entry (rows m) i j)) /\
    (length cols = 1%nat <-> exists q, m = Scalar q).
Proof.
  intros c f cols xs w D N. destruct (wd_len _ _ _ _ _ D) as [LX LW]. destruct (covariance_ok c f cols xs w D N) as [m [M1 [M2 M3]]]. exists m. split; [exact M1|].
  split. { rewrite M2. split; [rewrite map_length; lia|]. intros r Hr. apply in_map_iff in Hr. destruct Hr as [x [<- _]]. rewrite map_length. lia. }
  split; [|rewrite LX; exact M3]. intros i j Hi Hj. rewrite M2, entry_covf by lia.
  apply covf_spec; [apply LW, nth_In; lia|apply LW, nth_In; lia|exact (wd_positive _ _ _ _ _ D)|exact (wd_rows _ _ _ _ _ D)].
Qed.
Print Assumptions C15_covariance.
(** ... which determines it. *)
Theorem C15_determined : forall c f cols xs w i j q q', weighted_data c f cols xs w -> (i < length cols)%nat -> (j < length cols)%nat ->
  is_covariance (nth i xs []) (nth j xs []) w q -> is_covariance (nth i xs []) (nth j xs []) w q' -> (q == q')%Q.
Proof.
  intros c f cols xs w i j q q' D Hi Hj. destruct (wd_len _ _ _ _ _ D) as [LX LW].
  apply cov_unique; [apply LW, nth_In; lia|apply LW, nth_In; lia|exact (wd_positive _ _ _ _ _ D)|exact (wd_rows _ _ _ _ _ D)].
Qed.
Print Assumptions C15_determined.
Theorem C15_default_columns : forall c f, get_covariance c f None = get_covariance c f (Some (data_columns c f)).
Proof. reflexivity. Qed.
Print Assumptions C15_default_columns.
Theorem C15_symmetric : forall c f cols xs w m i j, weighted_data c f cols xs w -> get_covariance c f (Some cols) = Ok m -> (i < length cols)%nat -> (j < length cols)%nat ->
  (entry (rows (nm_matrix m)) i j == entry (rows (nm_matrix m)) j i)%Q.
Proof.
  intros c f cols xs w m i j D H Hi Hj. destruct (wd_len _ _ _ _ _ D) as [LX LW]. destruct (covariance_ok c f cols xs w D) as [m' [M1 [M2 M3]]]; [destruct cols; [cbn in Hi; lia|discriminate]|].
  rewrite M1 in H. injection H as <-. cbn [nm_matrix]. rewrite M2, !entry_covf by lia. apply covf_sym; apply LW, nth_In; lia.
Qed.
Print Assumptions C15_symmetric.
Theorem C15_semidefinite : forall c f cols xs w m v, weighted_data c f cols xs w -> get_covariance c f (Some cols) = Ok m -> length v = length cols ->
  (0 <= quadratic (rows (nm_matrix m)) v)%Q.
Proof.
  intros c f cols xs w m v D H LV. destruct (wd_len _ _ _ _ _ D) as [LX LW]. destruct cols as [|n r].
  - destruct v; [|discriminate]. vm_compute. discriminate.
  - destruct (covariance_ok c f _ xs w D) as [m' [M1 [M2 M3]]]; [discriminate|]. rewrite M1 in H. injection H as <-. cbn [nm_matrix]. rewrite M2.
    apply psd; [exact LW|exact (wd_positive _ _ _ _ _ D)|exact (wd_rows _ _ _ _ _ D)|lia].
Qed.
Print Assumptions C15_semidefinite.
(** Columns replaced by a_i x_i + b_i and weights multiplied by t > 0: entry (i, j) is multiplied by a_i a_j.
    (a_i = 1: shifts change nothing; t alone: the scale of the weights does not matter.) *)
Theorem C15_affine : forall c f cols xs w m c' f' cols' xs' w' m' t a b, weighted_data c f cols xs w -> weighted_data c' f' cols' xs' w' ->
  get_covariance c f (Some cols) = Ok m -> get_covariance c' f' (Some cols') = Ok m' -> length cols = length cols' ->
  (0 < t)%Q -> affine t 0 w w' -> (forall i, (i < length cols)%nat -> affine (at_ a i) (at_ b i) (nth i xs []) (nth i xs' [])) ->
  forall i j, (i < length cols)%nat -> (j < length cols)%nat ->
  (entry (rows (nm_matrix m')) i j == at_ a i * at_ a j * entry (rows (nm_matrix m)) i j)%Q.
Proof.
  intros c f cols xs w m c' f' cols' xs' w' m' t a b D D' H H' LC T AW AX i j Hi Hj.
  destruct (wd_len _ _ _ _ _ D) as [LX LW]. destruct (wd_len _ _ _ _ _ D') as [LX' LW'].
  destruct (covariance_ok c f cols xs w D) as [k [M1 [M2 M3]]]; [destruct cols; [cbn in Hi; lia|discriminate]|].
  destruct (covariance_ok c' f' cols' xs' w' D') as [k' [M1' [M2' M3']]]; [destruct cols'; [cbn in *; lia|discriminate]|].
  rewrite M1 in H. injection H as <-. rewrite M1' in H'. injection H' as <-. cbn [nm_matrix]. rewrite M2, M2', !entry_covf by lia.
  apply (affine_covf t w w' (at_ a i) (at_ b i) _ _ (at_ a j) (at_ b j)); try assumption; try (apply AX; lia); try (apply LW, nth_In; lia);
    [exact (wd_positive _ _ _ _ _ D)|exact (wd_positive _ _ _ _ _ D')|exact (wd_rows _ _ _ _ _ D)].
Qed.
Print Assumptions C15_affine.
(** Equal weights: the usual sample covariance with n - 1. *)
Theorem C15_equal_weights : forall c f cols xs w m t mx my i j, weighted_data c f cols xs w -> get_covariance c f (Some cols) = Ok m ->
  (forall k, (k < length w)%nat -> (at_ w k == t)%Q) -> (i < length cols)%nat -> (j < length cols)%nat ->
  let n := inject_Z (Z.of_nat (length w)) in let x := nth i xs [] in let y := nth j xs [] in
  (mx * n == total x)%Q -> (my * n == total y)%Q ->
  (entry (rows (nm_matrix m)) i j * (n - 1) == sum_range (fun k => (at_ x k - mx) * (at_ y k - my)) 0 (length w))%Q.
Proof.
  intros c f cols xs w m t mx my i j D H E Hi Hj n x y Mx My. destruct (wd_len _ _ _ _ _ D) as [LX LW].
  destruct (C15_covariance c f cols xs w D) as [k [K1 [_ [K3 _]]]]; [destruct cols; [cbn in Hi; lia|discriminate]|]. rewrite K1 in H. injection H as <-. cbn [nm_matrix].
  pose proof (wd_rows _ _ _ _ _ D) as LR.
  apply (equal_weights x y w _ t); [exact E| |exact LR|apply LW, nth_In; lia|apply LW, nth_In; lia|apply K3; lia|exact Mx|exact My].
  pose proof (wd_positive _ _ _ _ _ D (at_ w 0) ltac:(apply nth_In; lia)) as P. rewrite (E 0%nat) in P by lia. exact P.
Qed.
Print Assumptions C15_equal_weights.
(** What fails: a missing column; a single row (all entries are nan); any chain with shifted parameters. *)
Theorem C15_missing_column : forall c f cols n, frame_wf f -> In n cols -> ~ is_column f n -> get_covariance c f (Some cols) = Err KeyError.
Proof. exact cov_unknown. Qed.
Print Assumptions C15_missing_column.
Theorem C15_one_row_refuted : forall c f cols xs w, frame_wf f -> Forall2 (column f) cols xs -> column f (ch_weight c) [w] -> (0 < w)%Q -> cols <> [] ->
  get_covariance c f (Some cols) = Err NaNResult.
Proof. exact cov_one_row. Qed.
Print Assumptions C15_one_row_refuted.
Theorem C15_shifted_refuted : forall rgb2hex h a h' l c cols, frame_wf (frame_at h (a_samples a)) -> a_cfg a Fshift_params = Some true ->
  new_chain rgb2hex h a = (h', Ok l) -> chain_at h' l = Some c -> cols <> [] ->
  exists e, get_covariance c (frame_at h' (ch_samples c)) (Some cols) = Err e.
Proof.
  intros rgb h a h' l c cols W HS HN HC NE. pose proof (new_chain_built rgb h a h' l c W HN HC) as B.
  destruct (shifted_chain rgb h a h' l c W HS HN HC) as [w [pre [post [G1 [G2 [G3 [G4 [G5 [[G6 _] _]]]]]]]]].
  assert (EW : ch_weight c = weight_name a).
  { destruct (new_chain_result rgb h a h' l W HN) as [col [f2 [_ [_ [H3 _]]]]]. cbv zeta in H3. rewrite HC in H3. injection H3 as ->. reflexivity. }
  rewrite <- EW in G6. apply (cov_bad_weights c _ cols _ (wb_wf _ _ B) G6); [|exact NE]. rewrite qsum_sub.
  pose proof (qsum_pos w G1 G3) as P. destruct (cauchy w G1) as [CS _].
  assert (E : (qsum w * (qsum w - qdot w w / qsum w * nq (length w)) == qsum w * qsum w - nq (length w) * qdot w w)%Q) by (field; lra).
  destruct (Qlt_le_dec 0 (qsum w - qdot w w / qsum w * nq (length w))) as [L|L]; [exfalso; nra|exact L].
Qed.
Print Assumptions C15_shifted_refuted.

(** Example: three rows, weights 1, 2, 1. *)
Definition ex15_frame : frame := {| f_index := [LInt 0; LInt 1; LInt 2];
  f_cols := [(CStr "x", [Fin 1; Fin 2; Fin 4]); (CStr "y", [Fin 0; Fin 2; Fin 1]); (CStr "weight", [Fin 1; Fin 2; Fin 1])] |}.
Definition ex15_world := new_chain ex_rgb {| h_frames := [ex15_frame]; h_chains := [] |} (ex_args "A" no_kw).
Definition ex15_chain : chain := match nth_error (h_chains (fst ex15_world)) 0 with Some c => c | None => build None (ex_args "A" no_kw) 0 end.
Example C15_nonvacuous : weighted_data ex15_chain ex15_frame ["x"; "y"] [[1; 2; 4]; [0; 2; 1]]%Q [1; 2; 1]%Q /\
  match get_covariance ex15_chain ex15_frame None with
  | Ok m => nm_columns m = ["x"; "y"] /\ (entry (rows (nm_matrix m)) 0 0 == 19 # 10)%Q /\ (entry (rows (nm_matrix m)) 0 1 == 3 # 10)%Q
  | Err _ => False end.
Proof.
  split; [|vm_compute; auto]. split.
  - frame_wf_tac.
  - repeat constructor; vm_compute; tauto.
  - vm_compute. tauto.
  - intros x [<-|[<-|[<-|[]]]]; reflexivity.
  - cbn. lia.
Qed.
Example C15_one_row_nonvacuous : get_covariance ex15_chain {| f_index := [LInt 0]; f_cols := [(CStr "x", [Fin 1]); (CStr "weight", [Fin 1])] |} (Some ["x"]) = Err NaNResult.
Proof. vm_compute. reflexivity. Qed.
Example C15_shifted_nonvacuous : let '(h', r) := new_chain ex_rgb ex6_heap (ex6_args (kset no_kw Fshift_params true)) in
  r = Ok 0%nat /\ match chain_at h' 0 with Some c => get_covariance c (frame_at h' (ch_samples c)) (Some ["x"]) = Err ValueError | None => False end.
Proof. vm_compute. auto. Qed.

(** * C16 Correlation matrix *)
(** [is_variance c f n q]: q is the variance of column n. *)
Definition variance (c : chain) (f : frame) (n : string) (q : Q) : Prop := exists x w, column f n x /\ column f (ch_weight c) w /\ is_covariance x x w q.
Lemma variance_covf c f cols xs w i n q : weighted_data c f cols xs w -> nth_error cols i = Some n -> variance c f n q ->
  (i < length xs)%nat /\ (q == covf (nth i xs []) (nth i xs []) w)%Q.
Proof.
  intros D HN [x [w' [H1 [H2 H3]]]]. destruct (wd_len _ _ _ _ _ D) as [LX LW]. pose proof (wd_frame _ _ _ _ _ D) as W.
  assert (Hi : (i < length cols)%nat) by (apply nth_error_Some; congruence). split; [lia|].
  assert (IN : forall (u v : list Q), map Fin u = map Fin v -> u = v).
  { intros u v E. rewrite <- (ChainUseProofs.qs_fin u), E. apply ChainUseProofs.qs_fin. }
  assert (EW : w' = w).
  { pose proof (wd_weights _ _ _ _ _ D) as HW. apply (f_get_wf f _ _ W) in HW. apply (f_get_wf f _ _ W) in H2. apply IN. congruence. }
  subst w'. assert (EX : x = nth i xs []).
  { pose proof (wd_cols _ _ _ _ _ D) as C. assert (HC : column f n (nth i xs [])).
    { clear - C HN. revert i HN. induction C as [|m y cs ys H C IH]; intros [|i] HN; cbn in HN; try discriminate; [injection HN as ->; exact H|apply IH; exact HN]. }
    apply (f_get_wf f _ _ W) in HC. apply (f_get_wf f _ _ W) in H1. apply IN. congruence. }
  subst x. assert (LL : length (nth i xs []) = length w) by (apply LW, nth_In; lia).
  apply (cov_unique (nth i xs []) (nth i xs []) w); try assumption; [exact (wd_positive _ _ _ _ _ D)|exact (wd_rows _ _ _ _ _ D)|].
  apply covf_spec; try assumption; [exact (wd_positive _ _ _ _ _ D)|exact (wd_rows _ _ _ _ _ D)].
Qed.
(** Two or more columns: the matrix is symmetric; an entry is a number exactly when both variances are
    positive, then it lies in [-1, 1], and on the diagonal it is 1. *)
Theorem C16_correlation_partial : forall c f cols xs w, weighted_data c f cols xs w -> (2 <= length cols)%nat ->
  exists m, get_correlation c f (Some cols) = Ok {| nm_columns := cols; nm_matrix := Mat m |} /\ square m (length cols) /\
    (forall i j, (i < length cols)%nat -> (j < length cols)%nat -> centry m i j = centry m j i) /\
    (forall i j n n' q q', nth_error cols i = Some n -> nth_error cols j = Some n' -> variance c f n q -> variance c f n' q' ->
       (centry m i j = None <-> (q == 0 \/ q' == 0)%Q) /\
       ((0 < q)%Q -> (0 < q')%Q -> exists r, centry m i j = Some r /\ (-1 <= r <= 1)%R)) /\
    (forall i n q, nth_error cols i = Some n -> variance c f n q -> (0 < q)%Q -> centry m i i = Some 1%R).
Proof.
  intros c f cols xs w D L. destruct (wd_len _ _ _ _ _ D) as [LX LW]. pose proof (wd_positive _ _ _ _ _ D) as P. pose proof (wd_rows _ _ _ _ _ D) as L2.
  destruct (correlation_ok c f cols xs w D L) as [m [M1 [M2 M3]]]. exists m. split; [exact M1|]. split; [exact M2|].
  split. { intros i j Hi Hj. rewrite !M3 by assumption. apply corr_sym; try assumption; lia. }
  split.
  - intros i j n n' q q' Hi Hj V V'. destruct (variance_covf _ _ _ _ _ _ _ _ D Hi V) as [Li Eq]. destruct (variance_covf _ _ _ _ _ _ _ _ D Hj V') as [Lj Eq'].
    rewrite M3 by lia. split.
    + rewrite corr_none by assumption. rewrite Eq, Eq'. reflexivity.
    + intros Q1 Q2. rewrite Eq in Q1. rewrite Eq' in Q2. apply corr_bound; assumption.
  - intros i n q Hi V Q1. destruct (variance_covf _ _ _ _ _ _ _ _ D Hi V) as [Li Eq]. rewrite M3 by lia. rewrite Eq in Q1. apply corr_diag; assumption.
Qed.
Print Assumptions C16_correlation_partial.
(** Each entry is the covariance divided by both standard deviations. *)
Theorem C16_value : forall c f cols xs w m k, weighted_data c f cols xs w -> (2 <= length cols)%nat ->
  get_covariance c f (Some cols) = Ok k -> get_correlation c f (Some cols) = Ok m ->
  forall i j r, (i < length cols)%nat -> (j < length cols)%nat -> centry (rows (nm_matrix m)) i j = Some r ->
  let cov p q := Q2R (entry (rows (nm_matrix k)) p q) in (r * (sqrt (cov i i) * sqrt (cov j j)) = cov i j)%R.
Proof.
  intros c f cols xs w m k D L HK HM i j r Hi Hj HR. cbv zeta. destruct (wd_len _ _ _ _ _ D) as [LX LW].
  destruct (correlation_ok c f cols xs w D L) as [m' [M1 [_ M3]]]. rewrite M1 in HM. injection HM as <-. cbn [nm_matrix rows] in HR. rewrite M3 in HR by assumption.
  destruct (covariance_ok c f cols xs w D) as [k' [K1 [K2 _]]]; [destruct cols; [cbn in Hi; lia|discriminate]|]. rewrite K1 in HK. injection HK as <-. cbn [nm_matrix].
  rewrite K2, !entry_covf by lia. unfold corr_of in HR. destruct (Req_EM_T _ 0) as [|NE] in HR; [discriminate|]. injection HR as <-. rewrite (Rmult_comm (sqrt (Q2R (covf (nth i xs []) (nth i xs []) w)))).
  unfold Rdiv. rewrite Rmult_assoc, Rinv_l by exact NE. rewrite Rmult_1_r. reflexivity.
Qed.
Print Assumptions C16_value.
(** Unchanged by shifting columns, scaling them by positive factors and scaling the weights. *)
Theorem C16_affine : forall c f cols xs w m c' f' cols' xs' w' m' t a b, weighted_data c f cols xs w -> weighted_data c' f' cols' xs' w' ->
  get_correlation c f (Some cols) = Ok m -> get_correlation c' f' (Some cols') = Ok m' -> length cols = length cols' -> (2 <= length cols)%nat ->
  (0 < t)%Q -> affine t 0 w w' -> (forall i, (i < length cols)%nat -> (0 < at_ a i)%Q /\ affine (at_ a i) (at_ b i) (nth i xs []) (nth i xs' [])) ->
  forall i j, (i < length cols)%nat -> (j < length cols)%nat -> centry (rows (nm_matrix m')) i j = centry (rows (nm_matrix m)) i j.
Proof.
  intros c f cols xs w m c' f' cols' xs' w' m' t a b D D' H H' LC L T AW AX i j Hi Hj.
  destruct (wd_len _ _ _ _ _ D) as [LX LW]. destruct (wd_len _ _ _ _ _ D') as [LX' LW'].
  destruct (correlation_ok c f cols xs w D L) as [k [M1 [_ M3]]]. destruct (correlation_ok c' f' cols' xs' w' D') as [k' [M1' [_ M3']]]; [lia|].
  rewrite M1 in H. injection H as <-. rewrite M1' in H'. injection H' as <-. cbn [nm_matrix rows]. rewrite M3, M3' by lia.
  apply (corr_affine xs w xs' w' t a b); try assumption; try lia; [exact (wd_positive _ _ _ _ _ D)|exact (wd_positive _ _ _ _ _ D')|exact (wd_rows _ _ _ _ _ D)|].
  intros p Hp. apply AX. lia.
Qed.
Print Assumptions C16_affine.
(** A single column always fails. *)
Theorem C16_single_column_refuted : forall c f n x w, weighted_data c f [n] [x] w -> get_correlation c f (Some [n]) = Err ValueError.
Proof.
  intros c f n x w D. destruct (covariance_ok c f _ _ w D) as [m [M1 [M2 M3]]]; [discriminate|]. unfold get_correlation. rewrite M1. cbn [rbind nm_matrix].
  destruct (proj1 M3 eq_refl) as [q ->]. reflexivity.
Qed.
Print Assumptions C16_single_column_refuted.
Example C16_nonvacuous : weighted_data ex15_chain ex15_frame ["x"; "y"] [[1; 2; 4]; [0; 2; 1]]%Q [1; 2; 1]%Q /\
  variance ex15_chain ex15_frame "x" (19 # 10) /\ weighted_data ex15_chain ex15_frame ["x"] [[1; 2; 4]]%Q [1; 2; 1]%Q.
Proof.
  assert (D : weighted_data ex15_chain ex15_frame ["x"; "y"] [[1; 2; 4]; [0; 2; 1]]%Q [1; 2; 1]%Q) by exact (proj1 C15_nonvacuous).
  split; [exact D|]. split.
  - exists [1; 2; 4]%Q, [1; 2; 1]%Q. split; [vm_compute; tauto|]. split; [vm_compute; tauto|].
    intros mx my H1 H2. assert (E1 : (mx == 9 # 4)%Q). { unfold weighted_mean in H1. assert (E : (total [1; 2; 1] == 4)%Q) by reflexivity. rewrite E in H1. assert (E2 : (wsum [1; 2; 4] [1; 2; 1] == 9)%Q) by reflexivity. rewrite E2 in H1. lra. }
    assert (E2 : (my == 9 # 4)%Q). { unfold weighted_mean in H2. assert (E : (total [1; 2; 1] == 4)%Q) by reflexivity. rewrite E in H2. assert (E2 : (wsum [1; 2; 4] [1; 2; 1] == 9)%Q) by reflexivity. rewrite E2 in H2. lra. }
    transitivity (sum_range (fun k => at_ [1; 2; 1] k * (at_ [1; 2; 4] k - (9 # 4)) * (at_ [1; 2; 4] k - (9 # 4)))%Q 0 3); [vm_compute; reflexivity|].
    apply sumr_ext. intros i _. rewrite E1, E2. reflexivity.
  - destruct D as [D1 D2 D3 D4 D5]. split; try assumption. inversion D2. constructor; [assumption|constructor].
Qed.
