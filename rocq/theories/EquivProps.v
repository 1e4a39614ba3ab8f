(** C75, C76: summaries under a change of units and of the way the weighted sample is written down. *)
From Coq Require Import String QArith Qabs Qround List Arith ZArith Bool Lia Permutation.
From Verif Require Import Py NumSpec NumModel HelpersModel MarginalModel FrameModel ConfigModel ChainModel RegistryModel TextModel AnalysisModel AnalysisSpec
  HelpersSpec ChainProps RegistryProps EquivSpec EquivFacts EquivProofs EquivApi.
From Verif Require FrameFacts RegistrySpec RegistryProofs AnalysisProofs AnalysisProofs.
From Coq Require Import Lqa.
Import ListNotations.
Open Scope string_scope.
Open Scope list_scope.
Open Scope Q_scope.

(** * C75 *)
Lemma converted_sample a b c f f' column d : 0 < a -> converted a b column f f' -> column <> ch_weight c -> sample c f column d -> exists d', sample c f' column d' /\ same_sample a b 1 d d' /\ same_bins c f f'.
Proof.
  intros A [x [x' [X [-> E]]]] N [x0 [w [X0 [W ->]]]]. rewrite X in X0. injection X0 as <-. exists (combine (qs x') (qs w)). destruct (set_shape f column x' x X) as [_ [S2 S3]]. split; [|split].
  - exists x', w. rewrite FrameFacts.f_get_set_same, FrameFacts.f_get_set_other by exact N. auto.
  - apply same_units; assumption.
  - right. split; assumption.
Qed.
(** The column [x] replaced by [a x + b] with a > 0: every bound of the maximum, mean, cumulative and max-central
    statistics becomes [a] times the old one plus [b]; a missing bound stays missing, and a failure stays the same failure.
    The highest density statistic and the bands of several modes are missing: see below. *)
Theorem C75_summary_partial : forall a b num c f f' column d, 0 < a -> power_law (n_power num (ch_power c)) ->
  converted a b column f f' -> column <> ch_weight c -> sample c f column d -> spread d -> kde_on (ch_cfg c Fkde) = false ->
  ch_cfg c Fstatistics <> Some SHdi ->
  agree (bound_in_units a b) (get_parameter_summary num c f column) (get_parameter_summary num c f' column).
Proof.
  intros a b num c f f' column d A P C N D S K H. destruct (converted_sample _ _ _ _ _ _ _ A C N D) as [d' [D' [SS B]]].
  eapply (api_summary a b 1); try eassumption; [right; exact S|exact (spread_ne d S)|left; exact K|left; exact H].
Qed.
Print Assumptions C75_summary_partial.
(** Moving only the zero of the scale (a = 1): all five statistics, and the bounds of the separate modes. *)
Theorem C75_shift_partial : forall b num c f f' column d, power_law (n_power num (ch_power c)) ->
  converted 1 b column f f' -> column <> ch_weight c -> sample c f column d -> d <> [] -> kde_on (ch_cfg c Fkde) = false ->
  agree (entry_in_units 1 b) (column_summary num c f column) (column_summary num c f' column).
Proof.
  intros b num c f f' column d P C N D NE K. assert (A1 : 0 < 1) by reflexivity. destruct (converted_sample 1 _ _ _ _ _ _ A1 C N D) as [d' [D' [SS B]]].
  eapply (api_entry 1 b 1); try eassumption; try reflexivity; [left; reflexivity|left; exact K|right; reflexivity].
Qed.
Print Assumptions C75_shift_partial.
(** The bounds of given bands follow any change of units. *)
Theorem C75_modes_partial : forall a b num c f f' column d bands bands', 0 < a -> power_law (n_power num (ch_power c)) ->
  converted a b column f f' -> column <> ch_weight c -> sample c f column d -> spread d -> kde_on (ch_cfg c Fkde) = false ->
  Forall2 (interval_in_units a b) bands bands' ->
  agree (Forall2 (bound_in_units a b)) (get_parameter_multimodal_bounds num c f column bands) (get_parameter_multimodal_bounds num c f' column bands').
Proof.
  intros a b num c f f' column d bands bands' A P C N D S K I. destruct (converted_sample _ _ _ _ _ _ _ A C N D) as [d' [D' [SS B]]].
  eapply (api_modes a b 1); try eassumption; [right; exact S|exact (spread_ne d S)|left; exact K].
Qed.
Print Assumptions C75_modes_partial.

(** ** Examples and failures *)
Definition ex75_num (kde : list Q -> list Q -> Q -> Q -> Q) : numerics :=
  {| n_bins := 4; n_points := 7; n_kde := 2; n_pad := 2; n_tries := 3; n_power := fun p h => h; n_kernel := fun _ => [1]; n_megkde := kde |}.
Definition ex75_kde (x w : list Q) (factor q : Q) : Q := if Qle_bool (3 # 4) (q / nth 6 x 0) then 2 else 1.
Definition ex75_args (s : stat) (k : kwargs) : cargs :=
  {| a_cfg := fun f => match k f with Some v => Some v | None => kset (kset (kset no_kw Fsummary_area (11#12)) Fstatistics (Some s)) Fsmooth (Some 0%Z) f end; a_samples := 0; a_name := "A"; a_weight := None; a_post := None; a_walkers := None; a_grid := Some true;
     a_nfree := None; a_ndata := None; a_power := None; a_showlabel := None; a_relheight := None |}.
Definition ex75_chain (s : stat) (k : kwargs) : chain := build None (ex75_args s k) 0.
Definition ex75_x : list Q := [0; 1; 2; 3; 4; 5; 6].
Definition ex75_frame (x w : list Q) : frame := {| f_index := map (fun i => LInt (Z.of_nat i)) (seq 0 (length x)); f_cols := [(CStr "x", map Fin x); (CStr "weight", map Fin w)] |}.
Definition ex75_in (a b : Q) : frame := ex75_frame (map (fun x => a * x + b) ex75_x) [1; 8; 8; 1; 3; 3; 1].
Lemma power_id : power_law (fun h => h).
Proof. split; [auto|]. split; [reflexivity|auto]. Qed.
Lemma ex75_converted a b : converted a b "x" (ex75_in 1 0) (ex75_in a b).
Proof.
  exists (map Fin (map (fun x => 1 * x + 0) ex75_x)), (map Fin (map (fun x => a * x + b) ex75_x)). split; [reflexivity|]. split; [reflexivity|]. unfold qs. rewrite !map_map. cbn [ex75_x map cell_q]. repeat constructor; unfold in_units; ring.
Qed.
Lemma ex75_spread s k : exists d, sample (ex75_chain s k) (ex75_in 1 0) "x" d /\ spread d.
Proof.
  exists (combine (map (fun x => 1 * x + 0) ex75_x) [1; 8; 8; 1; 3; 3; 1]). split; [eexists _, _; split; [reflexivity|split; [reflexivity|]]; reflexivity|]. exists 0, 1. split; [eexists _, _; split; [left; reflexivity|reflexivity]|]. split; [eexists _, _; split; [right; left; reflexivity|reflexivity]|]. discriminate.
Qed.
Definition values (r : res bound) : option (option Q * option Q * option Q) :=
  match r with Ok u => Some (option_map Qred (b_lower u), option_map Qred (b_center u), option_map Qred (b_upper u)) | Err _ => None end.
Example C75_nonvacuous : "x" <> ch_weight (ex75_chain SMean no_kw) /\ kde_on (ch_cfg (ex75_chain SMean no_kw) Fkde) = false /\ power_law (n_power (ex75_num ex75_kde) 1) /\
  values (get_parameter_summary (ex75_num ex75_kde) (ex75_chain SMean no_kw) (ex75_in 1 0) "x") = Some (Some (1 # 192), Some (2875 # 1152), Some (359 # 72)) /\
  values (get_parameter_summary (ex75_num ex75_kde) (ex75_chain SMean no_kw) (ex75_in 100 20) "x") = Some (Some (985 # 48), Some (77635 # 288), Some (9335 # 18)) /\
  values (get_parameter_summary (ex75_num ex75_kde) (ex75_chain SMax no_kw) (ex75_in 100 20) "x") = Some (None, Some 120, None) /\
  values (get_parameter_summary (ex75_num ex75_kde) (ex75_chain SHdi no_kw) (ex75_in 1 20) "x") = Some (Some 20, Some (171 # 8), Some 25).
Proof. split; [discriminate|]. split; [reflexivity|]. split; [exact power_id|]. repeat split; vm_compute; reflexivity. Qed.
Lemma not_units a b x x' : Qeq_bool x' (a * x + b) = false -> ~ in_units a b x x'.
Proof. intros H K. apply Qeq_bool_iff in K. congruence. Qed.

(** Widths are compared with 1e-12 in the units of the parameter.  In units so large that the whole range is below that,
    the highest density interval is the whole range. *)
Definition ex75_small (w : list Q) (a : Q) : frame := ex75_frame (map (fun x => a * x + 0) [0; 1; 2; 3; 4]) w.
Lemma small_converted w a : length w = 5%nat -> converted a 0 "x" (ex75_small w 1) (ex75_small w a).
Proof.
  intros L. destruct w as [|w0 [|w1 [|w2 [|w3 [|w4 [|]]]]]]; try discriminate. exists (map Fin (map (fun x => 1 * x + 0) [0; 1; 2; 3; 4])), (map Fin (map (fun x => a * x + 0) [0; 1; 2; 3; 4])).
  split; [reflexivity|]. split; [reflexivity|]. unfold qs. rewrite !map_map. cbn [map cell_q]. repeat constructor; unfold in_units; ring.
Qed.
Lemma small_spread s k w : length w = 5%nat -> exists d, sample (ex75_chain s k) (ex75_small w 1) "x" d /\ spread d.
Proof.
  intros L. destruct w as [|w0 [|w1 [|w2 [|w3 [|w4 [|]]]]]]; try discriminate. eexists. split; [eexists _, _; split; [reflexivity|split; [reflexivity|]]; reflexivity|].
  exists 0, 1. split; [eexists _, _; split; [left; reflexivity|reflexivity]|]. split; [eexists _, _; split; [right; left; reflexivity|reflexivity]|]. discriminate.
Qed.
Definition ex75_num_small : numerics := {| n_bins := 4; n_points := 5; n_kde := 2; n_pad := 2; n_tries := 3; n_power := fun p h => h; n_kernel := fun _ => [1]; n_megkde := ex75_kde |}.
Notation ex75_hdi a := (get_parameter_summary ex75_num_small (ex75_chain SHdi no_kw) (ex75_small [1; 8; 8; 1; 1] a) "x") (only parsing).
Lemma upper_differs a b r r' v w v' w' x x' : values r = Some (v, w, Some x) -> values r' = Some (v', w', Some x') -> Qeq_bool x' (a * x + b) = false -> exists u u', r = Ok u /\ r' = Ok u' /\ ~ bound_in_units a b u u'.
Proof.
  intros H H' N. destruct r as [u|]; [|discriminate]. destruct r' as [u'|]; [|discriminate]. exists u, u'. split; [reflexivity|]. split; [reflexivity|]. intros [_ [_ K]]. cbn [values] in H, H'.
  destruct (b_upper u) as [y|], (b_upper u') as [y'|]; cbn [option_map] in H, H'; try discriminate. injection H as _ _ H. injection H' as _ _ H'. cbn in K. unfold in_units in K. rewrite <- (Qred_correct y), <- (Qred_correct y'), H, H' in K. apply Qeq_bool_iff in K. congruence.
Qed.
Lemma ex75_hdi_1 : values (ex75_hdi 1) = Some (Some 0, Some 1, Some 3).
Proof. vm_compute. reflexivity. Qed.
Lemma ex75_hdi_tiny : values (ex75_hdi (1 # 17592186044416)) = Some (Some 0, Some (17 # 281474976710656), Some (1 # 4398046511104)).
Proof. vm_compute. reflexivity. Qed.
Theorem C75_hdi_refuted : exists a num c f f' d u u', 0 < a /\ power_law (n_power num (ch_power c)) /\ converted a 0 "x" f f' /\ "x" <> ch_weight c /\ sample c f "x" d /\ spread d /\
  kde_on (ch_cfg c Fkde) = false /\ ch_cfg c Fstatistics = Some SHdi /\
  get_parameter_summary num c f "x" = Ok u /\ get_parameter_summary num c f' "x" = Ok u' /\ ~ bound_in_units a 0 u u'.
Proof.
  destruct (small_spread SHdi no_kw [1; 8; 8; 1; 1] eq_refl) as [d [D SP]]. destruct (upper_differs (1 # 17592186044416) 0 _ _ _ _ _ _ _ _ ex75_hdi_1 ex75_hdi_tiny eq_refl) as [u [u' [U [U' N]]]].
  exists (1 # 17592186044416), ex75_num_small, (ex75_chain SHdi no_kw), (ex75_small [1; 8; 8; 1; 1] 1), (ex75_small [1; 8; 8; 1; 1] (1 # 17592186044416)), d, u, u'.
  split; [reflexivity|]. split; [exact power_id|]. split; [apply small_converted; reflexivity|]. split; [discriminate|]. split; [exact D|]. split; [exact SP|]. split; [reflexivity|]. split; [reflexivity|]. split; [exact U|]. split; [exact U'|exact N].
Qed.
Print Assumptions C75_hdi_refuted.
(** The threshold of the separate bands is found to within 5e-4 in units of the density: the same sample shows one mode in
    one unit and two modes in a unit 1024 times smaller. *)
Notation ex75_bands a := (get_parameter_hdi_intervals ex75_num_small (ex75_chain SMean no_kw) (ex75_small [8; 8; 1; 4; 4] a) "x") (only parsing).
Definition count (r : res (list (Q * Q))) : option nat := match r with Ok l => Some (length l) | Err _ => None end.
Lemma counted r n : count r = Some n -> exists l, r = Ok l /\ length l = n.
Proof. destruct r as [l|]; [|discriminate]. intros H. injection H as <-. exists l. auto. Qed.
Lemma ex75_bands_1 : count (ex75_bands 1) = Some 1%nat.
Proof. vm_compute. reflexivity. Qed.
Lemma ex75_bands_1024 : count (ex75_bands 1024) = Some 2%nat.
Proof. vm_compute. reflexivity. Qed.
Theorem C75_bands_refuted : exists a num c f f' d bands bands', 0 < a /\ power_law (n_power num (ch_power c)) /\ converted a 0 "x" f f' /\ "x" <> ch_weight c /\ sample c f "x" d /\ spread d /\
  kde_on (ch_cfg c Fkde) = false /\ get_parameter_hdi_intervals num c f "x" = Ok bands /\ get_parameter_hdi_intervals num c f' "x" = Ok bands' /\ length bands = 1%nat /\ length bands' = 2%nat.
Proof.
  destruct (small_spread SMean no_kw [8; 8; 1; 4; 4] eq_refl) as [d [D SP]]. destruct (counted _ _ ex75_bands_1) as [l [L1 L2]]. destruct (counted _ _ ex75_bands_1024) as [l' [L1' L2']].
  exists 1024, ex75_num_small, (ex75_chain SMean no_kw), (ex75_small [8; 8; 1; 4; 4] 1), (ex75_small [8; 8; 1; 4; 4] 1024), d, l, l'.
  split; [reflexivity|]. split; [exact power_id|]. split; [apply small_converted; reflexivity|]. split; [discriminate|]. split; [exact D|]. split; [exact SP|]. split; [reflexivity|]. split; [exact L1|]. split; [exact L1'|]. split; [exact L2|exact L2'].
Qed.
Print Assumptions C75_bands_refuted.
(** With a kernel density estimate that follows the change of units exactly, the summary still does not: the estimate is
    tabulated at as many points as the largest value of the parameter, in its units. *)
Definition ex75_num5 : numerics :=
  {| n_bins := 4; n_points := 4; n_kde := 2; n_pad := 2; n_tries := 3; n_power := fun p h => h; n_kernel := fun _ => [1]; n_megkde := fun x w factor q => if Qle_bool (3 # 4) (q / nth 4 x 0) then 2 else 1 |}.
Definition ex75_kde_chain : chain := ex75_chain SMean (kset (kset no_kw Fkde (KBool true)) Fsummary_area (3#5)).
Definition ex75_five (a : Q) : frame := ex75_frame (map (fun x => a * x + 0) [0; 1; 2; 3; 4]) [1; 4; 2; 8; 1].
Notation ex75_by_kde a := (get_parameter_summary ex75_num5 ex75_kde_chain (ex75_five a) "x") (only parsing).
Lemma ex75_by_kde_1 : values (ex75_by_kde 1) = Some (Some 0, Some (5 # 3), Some (10 # 3)).
Proof. vm_compute. reflexivity. Qed.
Lemma ex75_by_kde_2 : values (ex75_by_kde 2) = Some (Some (8 # 45), Some (152 # 45), Some (296 # 45)).
Proof. vm_compute. reflexivity. Qed.
Theorem C75_kde_refuted : exists a num c f f' d u u' x x' w, 0 < a /\ power_law (n_power num (ch_power c)) /\ converted a 0 "x" f f' /\ "x" <> ch_weight c /\ sample c f "x" d /\ spread d /\
  f_get f "x" = Some x /\ f_get f' "x" = Some x' /\ f_get f (ch_weight c) = Some w /\
  (forall q, n_megkde num (qs x') (qs w) (kde_factor (ch_cfg c Fkde)) (a * q) == n_megkde num (qs x) (qs w) (kde_factor (ch_cfg c Fkde)) q) /\
  ch_cfg c Fstatistics = Some SMean /\ get_parameter_summary num c f "x" = Ok u /\ get_parameter_summary num c f' "x" = Ok u' /\ ~ bound_in_units a 0 u u'.
Proof.
  destruct (upper_differs 2 0 _ _ _ _ _ _ _ _ ex75_by_kde_1 ex75_by_kde_2 eq_refl) as [u [u' [U [U' N]]]].
  exists 2, ex75_num5, ex75_kde_chain, (ex75_five 1), (ex75_five 2), (combine (map (fun x => 1 * x + 0) [0; 1; 2; 3; 4]) [1; 4; 2; 8; 1]), u, u', (map Fin (map (fun x => 1 * x + 0) [0; 1; 2; 3; 4])), (map Fin (map (fun x => 2 * x + 0) [0; 1; 2; 3; 4])), (map Fin [1; 4; 2; 8; 1]).
  split; [reflexivity|]. split; [exact power_id|]. split.
  { exists (map Fin (map (fun x => 1 * x + 0) [0; 1; 2; 3; 4])), (map Fin (map (fun x => 2 * x + 0) [0; 1; 2; 3; 4])). split; [reflexivity|]. split; [reflexivity|]. unfold qs. rewrite !map_map. cbn [map cell_q]. repeat constructor; unfold in_units; ring. }
  split; [discriminate|]. split; [eexists _, _; split; [reflexivity|split; [reflexivity|]]; reflexivity|]. split.
  { exists 0, 1. split; [eexists _, _; split; [left; reflexivity|reflexivity]|]. split; [eexists _, _; split; [right; left; reflexivity|reflexivity]|]. discriminate. }
  split; [reflexivity|]. split; [reflexivity|]. split; [reflexivity|]. split.
  { intros q. unfold ex75_num5, n_megkde. unfold qs. rewrite !map_map. cbn [map cell_q nth]. replace (Qle_bool (3 # 4) (2 * q / (2 * 4 + 0))) with (Qle_bool (3 # 4) (q / (1 * 4 + 0))); [reflexivity|]. apply eq_true_iff_eq. rewrite !Qle_bool_iff. setoid_replace (2 * q / (2 * 4 + 0)) with (q / (1 * 4 + 0)) by field. reflexivity. }
  split; [reflexivity|]. split; [exact U|]. split; [exact U'|exact N].
Qed.
Print Assumptions C75_kde_refuted.

(** * C76 *)
(** Every chain of a consumer holding the same weighted samples in another table gets the same summary. *)
Theorem C76_summary : forall num h h' k k' locs columns chains chains' cols, objects h locs chains -> objects h' locs chains' -> asked columns chains cols ->
  Forall2 (fun cf cf' => fst cf' = fst cf /\ power_law (n_power num (ch_power (fst cf))) /\ same_table num (fst cf) (snd cf) (snd cf') cols) chains chains' ->
  agree same_summaries (snd (get_summary num (h, k) (ReqList (map ByChain locs)) columns)) (snd (get_summary num (h', k') (ReqList (map ByChain locs)) columns)).
Proof.
  intros num h h' k k' locs columns chains chains' cols O O' A T. rewrite (AnalysisProofs.summary_list num (h, k) locs chains columns O), (AnalysisProofs.summary_list num (h', k') locs chains' columns O'). cbn [fst snd].
  assert (EC : forall p, In p (sanitise_columns columns chains) -> In p cols). { pose proof (AnalysisProofs.asked_columns columns chains) as A'. destruct columns as [l|]; cbn [asked] in *; [congruence|]. intros p. rewrite (AnalysisProofs.first_seen_In _ _ A'), (AnalysisProofs.first_seen_In _ _ A). auto. }
  replace (sanitise_columns columns chains') with (sanitise_columns columns chains).
  - apply (loop_rel num h h' locs chains chains'); try assumption; [|constructor]. revert EC T. generalize (sanitise_columns columns chains). clear. intros l EC T. induction T as [|[c f] [c' f'] m m' [E [P T]] F IH]; constructor; [|exact IH]. cbn [fst snd] in *. subst c'. split; [reflexivity|]. apply table_entries; [exact P|].
    destruct T as [T1 [T2 [q T3]]]. split; [exact T1|]. split; [exact T2|]. exists q. intros p HP. apply T3. apply EC. exact HP.
  - destruct columns as [l|]; [reflexivity|]. clear -T. unfold sanitise_columns. generalize (@nil string). induction T as [|[c f] [c' f'] m m' [E [_ [T _]]] F IH]; intros acc; [reflexivity|]. cbn [fold_left fst snd] in *. subst c'. rewrite (table_columns c f f' T). apply IH.
Qed.
Print Assumptions C76_summary.
(** The three ways to write down a sample. *)
Theorem C76_reordered : forall num c f f' cols, frame_wf f -> (0 < f_rows f)%nat -> f_has f (ch_weight c) = true -> reordered f f' ->
  (forall p, In p cols -> f_has f p = true -> same_kde num c f f' p) -> same_table num c f f' cols.
Proof. exact table_reordered. Qed.
Print Assumptions C76_reordered.
Theorem C76_reweighed : forall num c f f' k cols, frame_wf f -> (0 < f_rows f)%nat -> 0 < k -> reweighed k (ch_weight c) f f' -> ~ In (ch_weight c) cols ->
  (forall p, In p cols -> f_has f p = true -> same_kde num c f f' p) -> same_table num c f f' cols.
Proof. exact table_reweighed. Qed.
Print Assumptions C76_reweighed.
Theorem C76_split : forall num c f f' i cols, frame_wf f -> ch_cfg c Fbins <> None -> f_has f (ch_weight c) = true -> row_split (ch_weight c) i f f' -> ~ In (ch_weight c) cols ->
  (forall p, In p cols -> f_has f p = true -> same_kde num c f f' p) -> same_table num c f f' cols.
Proof. exact table_split. Qed.
Print Assumptions C76_split.
(** An example of each: rows in another order, weights in other units, the second row split. *)
Definition ex76_frame : frame := ex75_frame [0; 1; 2; 3] [1; 4; 2; 1].
Definition ex76_chain : chain := ex75_chain SHdi (kset no_kw Fbins (Some 4%Z)).
Definition ex76_reordered : frame := {| f_index := [LInt 2; LInt 0; LInt 3; LInt 1]; f_cols := [(CStr "x", map Fin [2; 0; 3; 1]); (CStr "weight", map Fin [2; 1; 1; 4])] |}.
Definition ex76_split : frame := ex75_frame [0; 1; 1; 2; 3] [1; 3; 1; 2; 1].
Example C76_nonvacuous : frame_wf ex76_frame /\ f_has ex76_frame (ch_weight ex76_chain) = true /\ reordered ex76_frame ex76_reordered /\
  reweighed 5 "weight" ex76_frame (ex75_frame [0; 1; 2; 3] [5; 20; 10; 5]) /\ row_split "weight" 1 ex76_frame ex76_split /\ ch_cfg ex76_chain Fbins <> None /\
  values (get_parameter_summary (ex75_num ex75_kde) ex76_chain ex76_frame "x") = values (get_parameter_summary (ex75_num ex75_kde) ex76_chain ex76_split "x") /\
  values (get_parameter_summary (ex75_num ex75_kde) ex76_chain ex76_frame "x") <> None.
Proof.
  split; [split; [repeat constructor; cbn; intuition discriminate|]; intros c l [H|[H|[]]]; injection H as <- <-; reflexivity|]. split; [reflexivity|]. split.
  { exists [2; 0; 3; 1]%nat. split; [|reflexivity]. apply NoDup_Permutation; [repeat constructor; cbn; intuition discriminate|apply seq_NoDup|]. intros x. cbn. intuition. }
  split. { exists (map Fin [1; 4; 2; 1]), (map Fin [5; 20; 10; 5]). split; [reflexivity|]. split; [reflexivity|]. repeat constructor. }
  split. { split; [cbn; lia|]. split; [reflexivity|]. intros n l H. unfold f_get in H. cbn [ex76_frame ex75_frame f_cols col_get clabel_eqb] in H. destruct (String.eqb_spec n "x") as [->|N1].
    - injection H as <-. exists (Fin 1), (Fin 1). split; [reflexivity|]. split; reflexivity.
    - destruct (String.eqb_spec n "weight") as [->|N2]; [|discriminate]. injection H as <-. exists (Fin 3), (Fin 1). split; reflexivity. }
  split; [discriminate|]. split; [vm_compute; reflexivity|vm_compute; discriminate].
Qed.
