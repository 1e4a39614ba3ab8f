(** From columns of a chain to related marginals and summaries. *)
From Coq Require Import String QArith Qabs Qround List Arith ZArith Bool Lia Permutation Lqa.
From Verif Require Import Py NumSpec NumModel NumFacts HelpersModel MarginalModel FrameModel ConfigModel ChainModel TextModel AnalysisModel HelpersSpec HelpersProofs EquivSpec EquivFacts EquivProofs.
From Verif Require Import RegistryModel AnalysisSpec.
From Verif Require FrameFacts.
Import ListNotations.
Open Scope string_scope.
Open Scope list_scope.
Open Scope Q_scope.

Lemma spread_ne d : spread d -> d <> [].
Proof. intros [x [y [[z [w [H _]]] _]]] E. subst. destruct H. Qed.
Lemma sample_data c f column d : sample c f column d -> exists x w, get_data f column = Ok x /\ weights c f = Ok w /\ d = combine x w.
Proof. intros [x [w [X [W E]]]]. exists (qs x), (qs w). unfold get_data, weights. rewrite X, W. auto. Qed.

Lemma bins_same c f f' x w x' w' num : same_bins c f f' ->
  let k := marginal_config num c f x w in let k' := marginal_config num c f' x' w' in
  get_bins (m_bins k') (m_smooth k') (m_grid k') (m_rows k') (m_cols k') = get_bins (m_bins k) (m_smooth k) (m_grid k) (m_rows k) (m_cols k).
Proof. unfold same_bins. intros H. cbn. unfold get_bins. destruct (ch_cfg c Fbins) as [z|]; [reflexivity|]. destruct H as [H|[-> ->]]; [contradiction H; reflexivity|reflexivity]. Qed.

(** The configurations of two related columns. *)
Lemma config_rel a b num c f f' column x w x' w' : same_bins c f f' -> get_data f column = Ok x -> weights c f = Ok w -> get_data f' column = Ok x' -> weights c f' = Ok w' ->
  (kde_on (ch_cfg c Fkde) = false \/ (a == 1 /\ b == 0 /\ same_kde num c f f' column)) -> crel a b (marginal_config num c f x w) (marginal_config num c f' x' w').
Proof.
  intros B X W X' W' K. constructor; try reflexivity; [apply bins_same; exact B|]. cbn. intros KE. destruct K as [K|[A1 [B0 [K|[s [S K]]]]]]; [congruence|congruence|]. split; [exact A1|]. split; [exact B0|]. exists s. split; [exact S|]. intros q q' E.
  unfold get_data in X, X'. unfold weights in W, W'. destruct (f_get f column) as [cx|]; [|discriminate]. destruct (f_get f (ch_weight c)) as [cw|]; [|discriminate]. destruct (f_get f' column) as [cx'|]; [|discriminate]. destruct (f_get f' (ch_weight c)) as [cw'|]; [|discriminate].
  injection X as <-. injection W as <-. injection X' as <-. injection W' as <-. apply K; auto.
Qed.

Section api.
Variables (a b k : Q) (num : numerics) (c : chain) (f f' : frame) (column : string) (d d' : list (Q * Q)).
Hypothesis A : 0 < a.
Hypothesis HP : power_law (n_power num (ch_power c)).
Hypothesis HB : same_bins c f f'.
Hypothesis HD : sample c f column d.
Hypothesis HD' : sample c f' column d'.
Hypothesis HS : same_sample a b k d d'.
Hypothesis HW : a == 1 \/ spread d.
Hypothesis HN : d <> [].
Hypothesis HK : kde_on (ch_cfg c Fkde) = false \/ (a == 1 /\ b == 0 /\ same_kde num c f f' column).

Lemma api_marginal1 pad : exists s, 0 < s /\ (a == 1 -> s == 1) /\ rrel (mrel a b s) (chain_marginal num c f column pad) (chain_marginal num c f' column pad).
Proof.
  destruct (sample_data _ _ _ _ HD) as [x [w [X [W E]]]]. destruct (sample_data _ _ _ _ HD') as [x' [w' [X' [W' E']]]]. subst d d'. unfold chain_marginal. rewrite X, W, X', W'. cbn [rbind]. eapply marginal_rel1; try eassumption. apply config_rel with (column := column); assumption.
Qed.
Lemma api_marginal pad : exists s, 0 < s /\ rrel (mrel a b s) (chain_marginal num c f column pad) (chain_marginal num c f' column pad).
Proof. destruct (api_marginal1 pad) as [s [S [_ R]]]. exists s. split; assumption. Qed.
Lemma api_summary : ch_cfg c Fstatistics <> Some SHdi \/ a == 1 -> rrel (brel a b) (get_parameter_summary num c f column) (get_parameter_summary num c f' column).
Proof.
  intros H. destruct (api_marginal false) as [s [S M]]. destruct (api_marginal true) as [s1 [S1 M1]]. unfold get_parameter_summary. destruct (ch_cfg c Fstatistics) as [st|]; [|reflexivity].
  destruct (sample_data _ _ _ _ HD) as [x [w [X [W E]]]]. destruct (sample_data _ _ _ _ HD') as [x' [w' [X' [W' E']]]]. unfold chain_marginal in M, M1. rewrite X, W, X', W' in *. cbn [rbind] in *.
  destruct st; cbn [parameter_summary]; (eapply rrel_bind; [first [exact M|exact M1]|]); intros m m' R; [eapply (max_rel a b s)|eapply (mean_rel a b s)|eapply (cumulative_rel a b s)|eapply (max_central_rel a b s)|]; try eassumption.
  cbn [rrel]. eapply (hdi_rel a b s1); try eassumption. destruct H as [H|H]; [congruence|exact H].
Qed.
Lemma api_intervals : a == 1 -> rrel (Forall2 (paff a b a b)) (get_parameter_hdi_intervals num c f column) (get_parameter_hdi_intervals num c f' column).
Proof. intros A1. destruct (api_marginal true) as [s [S M]]. unfold get_parameter_hdi_intervals. eapply rrel_bind; [exact M|]. intros m m' R. eapply (intervals_rel a b s); eassumption. Qed.
Lemma api_modes ivs ivs' : Forall2 (paff a b a b) ivs ivs' -> rrel (Forall2 (brel a b)) (get_parameter_multimodal_bounds num c f column ivs) (get_parameter_multimodal_bounds num c f' column ivs').
Proof.
  intros I. destruct (api_marginal true) as [s [S M]]. unfold get_parameter_multimodal_bounds. destruct (chain_marginal num c f column true) as [m|e], (chain_marginal num c f' column true) as [m'|e']; cbn in M |- *; try contradiction; [|exact M].
  unfold multimodal_bounds. induction I as [|p p' l l' P I IH]; constructor; [|exact IH]. eapply (multimodal_rel a b s); eassumption.
Qed.
Lemma api_entry : (ch_cfg c Fstatistics <> Some SHdi /\ ch_cfg c Fmultimodal = false) \/ a == 1 -> rrel (entry_in_units a b) (column_summary num c f column) (column_summary num c f' column).
Proof.
  intros H. unfold column_summary. eapply rrel_bind; [apply api_summary; destruct H as [[H _]|H]; [left|right]; exact H|]. intros u u' U. destruct (ch_cfg c Fmultimodal); [|exact U]. destruct H as [[_ H]|A1]; [discriminate|].
  eapply rrel_bind; [apply api_intervals; exact A1|]. intros iv iv' I. replace (length iv') with (length iv) by (clear -I; induction I; cbn; congruence). destruct (2 <=? length iv)%nat; [|exact U].
  pose proof (api_modes iv iv' I) as R. destruct (get_parameter_multimodal_bounds num c f column iv), (get_parameter_multimodal_bounds num c f' column iv'); cbn in R |- *; try contradiction; exact R.
Qed.
End api.

(** ** All columns of a chain *)
Lemma dset_rel {X} (R : X -> X -> Prop) k v v' (l l' : dict X) : Forall2 (fun e e' => fst e' = fst e /\ R (snd e) (snd e')) l l' -> R v v' -> Forall2 (fun e e' => fst e' = fst e /\ R (snd e) (snd e')) (dset k v l) (dset k v' l').
Proof.
  intros L V. induction L as [|[n x] [n' x'] l l' [N X0] L IH]; cbn [dset]; [repeat constructor; exact V|]. cbn [fst snd] in *. subst n'. destruct (String.eqb k n); constructor; try assumption; try (split; [reflexivity|assumption]).
Qed.
Lemma chain_rel a b num c f f' cols acc acc' : (forall p, In p cols -> f_has f' p = f_has f p) -> (forall p, In p cols -> f_has f p = true -> rrel (entry_in_units a b) (column_summary num c f p) (column_summary num c f' p)) ->
  summary_in_units a b acc acc' -> rrel (summary_in_units a b) (chain_summary num c f cols acc) (chain_summary num c f' cols acc').
Proof.
  revert acc acc'. induction cols as [|p r IH]; intros acc acc' H C R; [exact R|]. cbn [chain_summary]. rewrite (H p (or_introl eq_refl)). destruct (f_has f p) eqn:E; cbn [negb].
  - eapply rrel_bind; [apply C; [left; reflexivity|exact E]|]. intros e e' V. apply IH; [intros q Q0; apply H; right; exact Q0|intros q Q0; apply C; right; exact Q0|]. apply (dset_rel (entry_in_units a b)); assumption.
  - apply IH; [intros q Q0; apply H; right; exact Q0|intros q Q0; apply C; right; exact Q0|exact R].
Qed.

(** ** Ways to get the same sample *)
Lemma weight_if_app p l l' : weight_if p (l ++ l') == weight_if p l + weight_if p l'.
Proof. induction l as [|[x w] l IH]; cbn [app weight_if]; [ring|]. rewrite IH. ring. Qed.
Lemma weight_if_perm p l l' : Permutation l l' -> weight_if p l == weight_if p l'.
Proof. induction 1 as [|[x w] l l' _ IH|[x w] [y v] l|l l' l'' _ IH1 _ IH2]; cbn [weight_if]; [reflexivity|rewrite IH; reflexivity|ring|rewrite IH1; exact IH2]. Qed.
Lemma occurs_iff x x' d : x == x' -> (occurs x d <-> occurs x' d).
Proof. intros E. unfold occurs. split; intros [y [w [H K]]]; exists y, w; (split; [exact H|]); rewrite K; [exact E|symmetry; exact E]. Qed.
Lemma weight_at_eq x x' d : x == x' -> weight_at x d == weight_at x' d.
Proof. intros E. unfold weight_at. induction d as [|[y w] d IH]; cbn [weight_if]; [reflexivity|]. rewrite IH. replace (Qeq_bool y x') with (Qeq_bool y x); [reflexivity|]. apply eq_true_iff_eq. rewrite !Qeq_bool_iff, E. reflexivity. Qed.
Lemma units1 x x' : in_units 1 0 x x' -> x == x'.
Proof. unfold in_units. intros H. rewrite H. ring. Qed.
Lemma sample_same1 k d d' : 0 < k -> (forall x, occurs x d <-> occurs x d') -> (forall x, weight_at x d' == k * weight_at x d) -> same_sample 1 0 k d d'.
Proof. intros K O W. split; [exact K|]. intros x x' E. apply units1 in E. rewrite <- (occurs_iff x x' d' E), <- (weight_at_eq x x' d' E). split; [apply O|apply W]. Qed.
Lemma same_perm d d' : Permutation d d' -> same_sample 1 0 1 d d'.
Proof.
  intros P. apply sample_same1; [reflexivity| |].
  - intros x. unfold occurs. split; intros [y [w [H E]]]; exists y, w; (split; [|exact E]); [eapply Permutation_in; [exact P|exact H]|eapply Permutation_in; [symmetry; exact P|exact H]].
  - intros x. unfold weight_at. rewrite (weight_if_perm _ _ _ P). ring.
Qed.
Lemma same_weights k x w w' : 0 < k -> Forall2 (in_units k 0) w w' -> same_sample 1 0 k (combine x w) (combine x w').
Proof.
  intros K W. apply sample_same1; [exact K| |].
  - intros y. rewrite !occurs_Qin. replace (map fst (combine x w')) with (map fst (combine x w)); [reflexivity|]. revert x. induction W as [|v v' l l' V W IH]; intros [|z x]; try reflexivity. cbn. rewrite IH. reflexivity.
  - intros y. unfold weight_at. revert x. induction W as [|v v' l l' V W IH]; intros [|z x]; cbn [combine weight_if]; try ring. rewrite IH. unfold in_units in V. destruct (Qeq_bool z y); [rewrite V|]; ring.
Qed.
Lemma same_units a b x x' w : 0 < a -> Forall2 (in_units a b) x x' -> same_sample a b 1 (combine x w) (combine x' w).
Proof.
  intros A X. split; [reflexivity|]. intros y y' E.
  assert (K : forall v v', in_units a b v v' -> (v == y <-> v' == y')). { intros v v' V. unfold in_units in *. rewrite V, E. split; [intros ->; reflexivity|]. intros H. apply (Qmult_inj_l v y a); [intros Z; rewrite Z in A; exact (Qlt_irrefl _ A)|]. apply (Qplus_inj_r _ _ b). exact H. }
  split.
  - rewrite !occurs_Qin. unfold Qin. revert w. induction X as [|v v' l l' V X IH]; intros [|u w]; cbn [combine map fst In]; try solve [split; intros [z [Z _]]; destruct Z]. specialize (IH w). specialize (K _ _ V). split; intros [z [[Z|Z] E0]].
    + subst z. exists v'. split; [left; reflexivity|apply K; exact E0]. + destruct IH as [IH _]. destruct IH as [z' [Z' E']]; [exists z; auto|]. exists z'. split; [right; exact Z'|exact E'].
    + subst z. exists v. split; [left; reflexivity|apply K; exact E0]. + destruct IH as [_ IH]. destruct IH as [z' [Z' E']]; [exists z; auto|]. exists z'. split; [right; exact Z'|exact E'].
  - unfold weight_at. revert w. induction X as [|v v' l l' V X IH]; intros [|u w]; cbn [combine weight_if]; try ring. rewrite IH. replace (Qeq_bool v' y') with (Qeq_bool v y); [destruct (Qeq_bool v y); ring|]. apply eq_true_iff_eq. rewrite !Qeq_bool_iff. apply K. exact V.
Qed.
Lemma same_split l r x v v' w : v + v' == w -> same_sample 1 0 1 (l ++ (x, w) :: r) (l ++ (x, v) :: (x, v') :: r).
Proof.
  intros V. apply sample_same1; [reflexivity| |].
  - intros y. rewrite !occurs_Qin. unfold Qin. rewrite !map_app. cbn [map fst]. split; intros [z [Z E]]; exists z; (split; [|exact E]); apply in_app_iff; apply in_app_iff in Z; cbn in *; tauto.
  - intros y. unfold weight_at. rewrite !weight_if_app. cbn [weight_if]. destruct (Qeq_bool x y); rewrite <- ?V; ring.
Qed.

(** ** Tables *)
Lemma f_has_some f n : f_has f n = true <-> exists l, f_get f n = Some l.
Proof. unfold f_has. destruct (f_get f n) as [l|]; split; try discriminate; try (intros [l' H]; discriminate); eauto. Qed.
Lemma combine_picked {A B} (x : list A) (y : list B) dx dy p : length x = length y -> combine (picked dx p x) (picked dy p y) = picked (dx, dy) p (combine x y).
Proof. intros L. unfold picked. induction p as [|i p IH]; [reflexivity|]. cbn [map combine]. rewrite IH. f_equal. symmetry. apply combine_nth. exact L. Qed.
Lemma picked_perm {A} (d : A) p l : Permutation p (seq 0 (length l)) -> Permutation (picked d p l) l.
Proof.
  intros P. unfold picked. rewrite (Permutation_map (fun i => nth i l d) P). replace (map (fun i => nth i l d) (seq 0 (length l))) with l; [reflexivity|]. clear P p. induction l as [|x l IH]; [reflexivity|]. cbn [length seq map nth]. f_equal. rewrite <- seq_shift, map_map. exact IH.
Qed.
Lemma qs_picked p l : qs (picked NaN p l) = picked 0 p (qs l).
Proof. unfold qs, picked. rewrite map_map. apply map_ext. intros i. change 0 with (cell_q NaN). symmetry. apply map_nth. Qed.
Lemma col_get_map {g : list cell -> list cell} c cols : col_get c (map (fun cl => (fst cl, g (snd cl))) cols) = option_map g (col_get c cols).
Proof. induction cols as [|[c' l] cols IH]; [reflexivity|]. cbn. destruct (clabel_eqb c c'); [reflexivity|exact IH]. Qed.

Lemma reordered_sample c f f' p d : frame_wf f -> reordered f f' -> sample c f p d -> exists d', sample c f' p d' /\ Permutation d d'.
Proof.
  intros [_ WF] [q [Q0 E]] [x [w [X [W D]]]]. pose proof (WF _ _ (FrameFacts.f_get_In _ _ _ X)) as LX. pose proof (WF _ _ (FrameFacts.f_get_In _ _ _ W)) as LW.
  exists (combine (qs (picked NaN q x)) (qs (picked NaN q w))). split.
  - exists (picked NaN q x), (picked NaN q w). subst f'. unfold f_get in *. cbn [f_cols]. rewrite !(col_get_map (g := picked NaN q)), X, W. auto.
  - subst d. rewrite !qs_picked, combine_picked by (unfold qs; rewrite !map_length; congruence). symmetry. apply picked_perm. rewrite combine_length. unfold qs. rewrite !map_length, LX, LW, Nat.min_id. exact Q0.
Qed.
Lemma reordered_shape f f' : reordered f f' -> f_rows f' = f_rows f /\ map fst (f_cols f') = map fst (f_cols f).
Proof.
  intros [q [Q0 ->]]. unfold f_rows. cbn. unfold picked at 1. rewrite map_length, (Permutation_length Q0), seq_length. split; [reflexivity|]. rewrite map_map. apply map_ext. reflexivity.
Qed.
Lemma sample_ne c f p d : frame_wf f -> (0 < f_rows f)%nat -> sample c f p d -> d <> [].
Proof.
  intros [_ WF] R [x [w [X [W ->]]]] E. pose proof (WF _ _ (FrameFacts.f_get_In _ _ _ X)) as LX. pose proof (WF _ _ (FrameFacts.f_get_In _ _ _ W)) as LW. apply (f_equal (@length _)) in E. rewrite combine_length in E. unfold qs in E. rewrite !map_length in E. cbn in E. unfold f_rows in R. lia.
Qed.
Lemma has_sample c f p : f_has f (ch_weight c) = true -> f_has f p = true -> exists d, sample c f p d.
Proof. intros W P. apply f_has_some in W as [w W]. apply f_has_some in P as [x X]. exists (combine (qs x) (qs w)), x, w. auto. Qed.
Lemma table_reordered num c f f' cols : frame_wf f -> (0 < f_rows f)%nat -> f_has f (ch_weight c) = true -> reordered f f' -> (forall p, In p cols -> f_has f p = true -> same_kde num c f f' p) -> same_table num c f f' cols.
Proof.
  intros WF R W O K. destruct (reordered_shape _ _ O) as [E1 E2]. split; [exact E2|]. split.
  - right. split; [exact E1|]. rewrite <- (map_length fst (f_cols f')), E2, map_length. reflexivity.
  - exists 1. intros p P H. split; [apply K; assumption|]. destruct (has_sample c f p W H) as [d D]. destruct (reordered_sample _ _ _ _ _ WF O D) as [d' [D' PD]]. exists d, d'. repeat (split; [assumption|]). split; [exact (sample_ne _ _ _ _ WF R D)|apply same_perm; exact PD].
Qed.
Lemma set_shape f n l x : f_get f n = Some x -> map fst (f_cols (f_set f n l)) = map fst (f_cols f) /\ f_rows (f_set f n l) = f_rows f /\ length (f_cols (f_set f n l)) = length (f_cols f).
Proof.
  intros X. assert (E : map fst (f_cols (f_set f n l)) = map fst (f_cols f)) by (apply FrameFacts.f_set_labels, FrameFacts.f_has_names, f_has_some; eauto). repeat split; [exact E|]. rewrite <- (map_length fst (f_cols (f_set f n l))), E, map_length. reflexivity.
Qed.
Lemma table_reweighed num c f f' k cols : frame_wf f -> (0 < f_rows f)%nat -> 0 < k -> reweighed k (ch_weight c) f f' -> ~ In (ch_weight c) cols -> (forall p, In p cols -> f_has f p = true -> same_kde num c f f' p) -> same_table num c f f' cols.
Proof.
  intros WF R K [w [w' [W [-> E]]]] N KD. destruct (set_shape f (ch_weight c) w' w W) as [S1 [S2 S3]]. split; [exact S1|]. split; [right; split; assumption|]. exists k. intros p P H. split; [apply KD; assumption|].
  apply f_has_some in H as [x X]. assert (D : sample c f p (combine (qs x) (qs w))) by (exists x, w; auto). exists (combine (qs x) (qs w)), (combine (qs x) (qs w')). split; [exact D|]. split; [|split; [exact (sample_ne _ _ _ _ WF R D)|apply same_weights; assumption]].
  exists x, w'. rewrite FrameFacts.f_get_set_same, FrameFacts.f_get_set_other by (intros Q0; subst p; contradiction). auto.
Qed.
Lemma split_combine {A B} i (v v' : A) (u u' : B) l m : length l = length m -> (i <= length l)%nat -> combine (split_row i v v' l) (split_row i u u' m) = split_row i (v, u) (v', u') (combine l m).
Proof.
  intros L I. unfold split_row. revert l m L I. induction i as [|i IH]; intros [|x l] [|y m] L I; try discriminate; cbn [length] in *; try lia; try reflexivity. cbn [firstn app combine]. f_equal. apply (IH l m); [congruence|lia].
Qed.
Lemma qs_split i v v' l : qs (split_row i v v' l) = split_row i (cell_q v) (cell_q v') (qs l).
Proof. unfold qs, split_row. rewrite map_app, firstn_map. cbn [map]. rewrite skipn_map. reflexivity. Qed.
Lemma split_at {A} i (d : A) l : (i < length l)%nat -> l = firstn i l ++ nth i l d :: skipn (S i) l.
Proof. revert l. induction i as [|i IH]; intros [|x l] I; cbn [length] in I; try lia; [reflexivity|]. cbn [firstn nth skipn app]. f_equal. apply IH. lia. Qed.
Lemma table_split num c f f' i cols : frame_wf f -> ch_cfg c Fbins <> None -> f_has f (ch_weight c) = true -> row_split (ch_weight c) i f f' -> ~ In (ch_weight c) cols -> (forall p, In p cols -> f_has f p = true -> same_kde num c f f' p) -> same_table num c f f' cols.
Proof.
  intros WF B W [I [S1 S2]] N KD. split; [exact S1|]. split; [left; exact B|]. exists 1. intros p P H. split; [apply KD; assumption|]. apply f_has_some in W as [w W]. apply f_has_some in H as [x X].
  pose proof (proj2 WF _ _ (FrameFacts.f_get_In _ _ _ X)) as LX. pose proof (proj2 WF _ _ (FrameFacts.f_get_In _ _ _ W)) as LW. assert (D : sample c f p (combine (qs x) (qs w))) by (exists x, w; auto).
  destruct (S2 _ _ W) as [u [u' [W' U]]]. rewrite String.eqb_refl in U. destruct (S2 _ _ X) as [v [v' [X' V]]]. destruct (String.eqb_spec p (ch_weight c)) as [E|_]; [subst p; contradiction|]. destruct V as [-> ->].
  exists (combine (qs x) (qs w)), (combine (qs (split_row i (nth i x NaN) (nth i x NaN) x)) (qs (split_row i u u' w))). split; [exact D|]. split; [eexists _, _; split; [exact X'|split; [exact W'|reflexivity]]|].
  split; [eapply sample_ne; [exact WF| |exact D]; unfold f_rows in *; lia|]. assert (LQ : length (qs x) = length (qs w)) by (unfold qs; rewrite !map_length; congruence). assert (IQ : (i < length (qs x))%nat) by (unfold qs; rewrite map_length; unfold f_rows in I; lia).
  rewrite !qs_split, split_combine by (try exact LQ; lia). unfold split_row. rewrite (split_at i (0, 0) (combine (qs x) (qs w))) at 1 by (rewrite combine_length; lia). rewrite combine_nth by exact LQ. assert (NQ : forall l, nth i (qs l) 0 = cell_q (nth i l NaN)) by (intros l; exact (map_nth cell_q l NaN i)). rewrite !NQ. apply same_split. exact U.
Qed.

(** ** The whole summary *)
Lemma table_columns c f f' : map fst (f_cols f') = map fst (f_cols f) -> plotting_columns c f' = plotting_columns c f.
Proof. intros E. unfold plotting_columns, data_columns, f_names. rewrite (FrameFacts.str_labels_ext _ _ E). reflexivity. Qed.

Lemma loop_rel num h h' locs chains chains' cols acc acc' : objects h locs chains -> objects h' locs chains' ->
  Forall2 (fun cf cf' => fst cf' = fst cf /\ rrel (summary_in_units 1 0) (chain_summary num (fst cf) (snd cf) cols []) (chain_summary num (fst cf') (snd cf') cols [])) chains chains' ->
  same_summaries acc acc' -> rrel same_summaries (summary_loop num h (map ByChain locs) cols acc) (summary_loop num h' (map ByChain locs) cols acc').
Proof.
  intros O. revert chains' acc acc'. induction O as [|l [c f] locs chains [O1 O2] O IH]; intros chains' acc acc' O' R AC; inversion O' as [|? [c' f'] ? chains'' [O1' O2'] O'']; subst; [exact AC|]. inversion R as [|? ? ? ? [R1 R2] R']; subst. cbn [fst snd map summary_loop] in *. rewrite O1, O1', <- O2, <- O2'. subst c'.
  eapply rrel_bind; [exact R2|]. intros s s' SS. eapply IH; [exact O''|exact R'|]. apply (dset_rel (summary_in_units 1 0)); assumption.
Qed.
Lemma table_entries num c f f' cols : power_law (n_power num (ch_power c)) -> same_table num c f f' cols -> rrel (summary_in_units 1 0) (chain_summary num c f cols []) (chain_summary num c f' cols []).
Proof.
  intros P [E [B [k T]]]. apply chain_rel; [intros p _; unfold f_has, f_get|intros p HI H|constructor].
  - destruct (col_get (CStr p) (f_cols f)) as [l|] eqn:G, (col_get (CStr p) (f_cols f')) as [l'|] eqn:G'; try reflexivity; exfalso.
    + apply FrameFacts.col_get_None in G'. apply G'. rewrite E. apply FrameFacts.col_get_In in G. apply (in_map fst) in G. exact G.
    + apply FrameFacts.col_get_None in G. apply G. rewrite <- E. apply FrameFacts.col_get_In in G'. apply (in_map fst) in G'. exact G'.
  - destruct (T p HI H) as [K [d [d' [D [D' [N S]]]]]]. eapply (api_entry 1 0 k); try eassumption; try reflexivity; [left; reflexivity| |right; reflexivity]. destruct K as [K|K]; [left; exact K|right; split; [reflexivity|split; [reflexivity|right; exact K]]].
Qed.
