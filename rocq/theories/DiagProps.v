(** C40-C42: convergence diagnostics. *)
From Coq Require Import String List Bool Arith ZArith QArith Qround Lia Reals Qreals Lra Lqa Permutation.
From Verif Require Import Py NumSpec NumModel NumFacts FrameModel FrameFacts ColorModel MarginalModel ConfigModel ChainModel RegistryModel RegistrySpec ChainSpec ShiftProofs ChainProofs
  ChainUseProofs CovModel CovSpec CovProofs DiagModel DiagSpec DiagProofs GewekeProofs RegistryProps ChainProps.
Import ListNotations.
Open Scope string_scope.
Open Scope list_scope.

(** Every chain made by Chain(...) has walkers of equal length and meets [walker_data] at any later time. *)
Theorem C40_constructed : forall rgb2hex h0 a h1 l c h2, frame_wf (frame_at h0 (a_samples a)) -> new_chain rgb2hex h0 a = (h1, Ok l) -> chain_at h1 l = Some c -> untouched h1 h2 ->
  exists xs m n, (1 <= m)%nat /\ (1 <= n)%nat /\ walker_data c (frame_at h2 (ch_samples c)) xs m n.
Proof.
  intros rgb h0 a h1 l c h2 W H HC U. destruct (built_at _ _ _ _ _ _ _ W H HC U) as [L [E B]]. set (f := frame_at h2 (ch_samples c)) in *. destruct (wb_clean _ _ B) as [_ CF].
  assert (V : forall n, is_column f n -> exists v, column f n v).
  { intros n [lc HI]. exists (qs lc). unfold column. replace (map Fin (qs lc)) with lc; [exact HI|]. symmetry. unfold qs. rewrite map_map. rewrite <- (map_id lc) at 2. apply map_ext_in.
    intros x Hx. destruct (CF _ _ _ HI Hx) as [q ->]. reflexivity. }
  assert (XS : exists xs, Forall2 (column f) (data_columns c f) xs).
  { assert (HC2 : forall n, In n (data_columns c f) -> is_column f n) by (intros n Hn; apply data_columns_spec in Hn; tauto). induction (data_columns c f) as [|n r IH]; [exists []; constructor|].
    destruct IH as [xs IH]; [intros m Hm; apply HC2; right; exact Hm|]. destruct (V n (HC2 n (or_introl eq_refl))) as [v Hv]. exists (v :: xs). constructor; assumption. }
  destruct XS as [xs XS]. destruct (wb_walkers _ _ B) as [W1 [z W2]]. pose proof (wb_rows _ _ B) as R. exists xs, (Z.to_nat (ch_walkers c)), (Z.to_nat z).
  assert (0 < z)%Z by (unfold f_rows in *; nia). split; [lia|]. split; [lia|]. split; [exact (wb_wf _ _ B)|exact XS|lia|]. unfold f_rows in W2. nia.
Qed.
Print Assumptions C40_constructed.

(** ** C40 Gelman-Rubin *)
(** The chain passes exactly when every parameter has some variance within the walkers and the ratio the
    code computes is near one.  Missing from the documented claim: the ratio carries the additional term
    B/(m n W), see [C40_documented_refuted]. *)
Theorem C40_verdict_partial : forall w q l c xs m n threshold, denotes w q l -> chain_at (fst w) l = Some c -> walker_data c (frame_at (fst w) (ch_samples c)) xs m n ->
  (2 <= m)%nat -> (2 <= n)%nat ->
  exists t, gelman_rubin w (DOne q) threshold = Ok t /\ t_results t = [(ch_name c, t_passed t)] /\
    (t_passed t = true <-> forall x W B, In x xs -> walker_variances x m n W B -> ~ (W == 0)%Q /\ near_one (computed_ratio m n W B) threshold).
Proof.
  intros w q l c xs m n t HD HC D M2 N2. destruct (one_spec c _ xs m n t D M2) as [b [H1 H2]]. eexists. split.
  - unfold gelman_rubin, over_chains. rewrite (proj2 (diag_chains_spec w (DOne q) [l])) by (exists l; auto). cbn [rbind]. rewrite HC. exact H1.
  - cbn [t_results t_passed]. split; [reflexivity|]. rewrite H2, forallb_forall. pose proof (wk_lens _ _ _ _ _ D) as LX. split.
    + intros H x W B HI HV. apply (param_passes x m n t W B (LX x HI) M2 N2 HV). apply H. exact HI.
    + intros H x HI. pose proof (variances_exist x m n (LX x HI) M2 N2) as V. apply (param_passes x m n t _ _ (LX x HI) M2 N2 V). exact (H x _ _ HI V).
Qed.
Print Assumptions C40_verdict_partial.
(** The two variances exist and are determined by the samples. *)
Theorem C40_variances : forall x m n, length x = (m * n)%nat -> (2 <= m)%nat -> (2 <= n)%nat ->
  exists W B, walker_variances x m n W B /\ forall W' B', walker_variances x m n W' B' -> (W' == W)%Q /\ (B' == B)%Q.
Proof.
  intros x m n L M2 N2. exists (w0 x m), (b0 x m n). pose proof (variances_exist x m n L M2 N2) as V. split; [exact V|]. intros W' B' V'. exact (variances_unique x m n _ _ _ _ M2 N2 V' V).
Qed.
Print Assumptions C40_variances.
(** One step per walker: never passes, unless there is no parameter. *)
Theorem C40_single_step : forall w q l c xs m threshold, denotes w q l -> chain_at (fst w) l = Some c -> walker_data c (frame_at (fst w) (ch_samples c)) xs m 1 ->
  (2 <= m)%nat -> xs <> [] -> exists t, gelman_rubin w (DOne q) threshold = Ok t /\ t_passed t = false.
Proof.
  intros w q l c xs m t HD HC D M2 NE. destruct (one_spec c _ xs m 1 t D M2) as [b [H1 H2]]. eexists. split.
  - unfold gelman_rubin, over_chains. rewrite (proj2 (diag_chains_spec w (DOne q) [l])) by (exists l; auto). cbn [rbind]. rewrite HC. exact H1.
  - cbn [t_passed]. rewrite H2. destruct xs; [contradiction|reflexivity].
Qed.
Print Assumptions C40_single_step.
Theorem C40_one_walker : forall w q l c xs n threshold, denotes w q l -> chain_at (fst w) l = Some c -> walker_data c (frame_at (fst w) (ch_samples c)) xs 1 n ->
  gelman_rubin w (DOne q) threshold = Err AssertionError.
Proof.
  intros w q l c xs n t HD HC D. unfold gelman_rubin, over_chains. rewrite (proj2 (diag_chains_spec w (DOne q) [l])) by (exists l; auto). cbn [rbind]. rewrite HC. apply (one_few _ _ xs 1 n); [exact D|reflexivity].
Qed.
Print Assumptions C40_one_walker.
(** Shifting parameters and scaling them by non-zero factors changes nothing, nor does reordering walkers. *)
Theorem C40_affine : forall w q l c xs w' q' l' c' xs' m n threshold t t', denotes w q l -> chain_at (fst w) l = Some c -> walker_data c (frame_at (fst w) (ch_samples c)) xs m n ->
  denotes w' q' l' -> chain_at (fst w') l' = Some c' -> walker_data c' (frame_at (fst w') (ch_samples c')) xs' m n -> (1 <= n)%nat ->
  Forall2 (fun x x' => exists a b, ~ (a == 0)%Q /\ affine a b x x') xs xs' ->
  gelman_rubin w (DOne q) threshold = Ok t -> gelman_rubin w' (DOne q') threshold = Ok t' -> t_passed t' = t_passed t.
Proof.
  intros w q l c xs w' q' l' c' xs' m n th t t' HD HC D HD' HC' D' N1 A H H'.
  unfold gelman_rubin, over_chains in H. rewrite (proj2 (diag_chains_spec w (DOne q) [l])) in H by (exists l; auto). cbn [rbind] in H. rewrite HC in H.
  unfold gelman_rubin, over_chains in H'. rewrite (proj2 (diag_chains_spec w' (DOne q') [l'])) in H' by (exists l'; auto). cbn [rbind] in H'. rewrite HC' in H'.
  destruct (le_lt_dec 2 m) as [M2|M2].
  - destruct (one_spec _ _ xs m n th D M2) as [b [B1 B2]]. destruct (one_spec _ _ xs' m n th D' M2) as [b' [B1' B2']]. rewrite B1 in H. injection H as <-. rewrite B1' in H'. injection H' as <-. cbn [t_passed]. rewrite B2, B2'.
    pose proof (wk_lens _ _ _ _ _ D) as LX. clear - A LX M2 N1. induction A as [|x x' xs xs' [a [b [P AF]]] _ IH]; [reflexivity|]. cbn [forallb].
    rewrite (affine_passes x x' a b m n th) by (try assumption; apply LX; left; reflexivity). rewrite IH by (intros y Hy; apply LX; right; exact Hy). reflexivity.
  - destruct m as [|[|m]]; [|rewrite (one_few _ _ xs 1 n th D eq_refl) in H; discriminate|lia].
    unfold gelman_rubin_one in H. rewrite (select_ok _ _ xs (wk_wf _ _ _ _ _ D) (wk_cols _ _ _ _ _ D)) in H. cbn [rbind] in H. rewrite (wk_walkers _ _ _ _ _ D) in H. cbn [Z.of_nat Z.ltb Z.compare negb] in H. destruct (negb _) in H; discriminate.
Qed.
Print Assumptions C40_affine.
Theorem C40_walker_order : forall w q l c xs w' q' l' c' xs' m n p threshold t t', denotes w q l -> chain_at (fst w) l = Some c -> walker_data c (frame_at (fst w) (ch_samples c)) xs m n ->
  denotes w' q' l' -> chain_at (fst w') l' = Some c' -> walker_data c' (frame_at (fst w') (ch_samples c')) xs' m n -> (1 <= n)%nat ->
  Permutation p (seq 0 m) -> Forall2 (walkers_reordered m n p) xs xs' ->
  gelman_rubin w (DOne q) threshold = Ok t -> gelman_rubin w' (DOne q') threshold = Ok t' -> t_passed t' = t_passed t.
Proof.
  intros w q l c xs w' q' l' c' xs' m n p th t t' HD HC D HD' HC' D' N1 PP A H H'.
  unfold gelman_rubin, over_chains in H. rewrite (proj2 (diag_chains_spec w (DOne q) [l])) in H by (exists l; auto). cbn [rbind] in H. rewrite HC in H.
  unfold gelman_rubin, over_chains in H'. rewrite (proj2 (diag_chains_spec w' (DOne q') [l'])) in H' by (exists l'; auto). cbn [rbind] in H'. rewrite HC' in H'.
  destruct (le_lt_dec 2 m) as [M2|M2].
  - destruct (one_spec _ _ xs m n th D M2) as [b [B1 B2]]. destruct (one_spec _ _ xs' m n th D' M2) as [b' [B1' B2']]. rewrite B1 in H. injection H as <-. rewrite B1' in H'. injection H' as <-. cbn [t_passed]. rewrite B2, B2'.
    pose proof (wk_lens _ _ _ _ _ D) as LX. clear - A LX M2 N1 PP. induction A as [|x x' xs xs' AF _ IH]; [reflexivity|]. cbn [forallb].
    rewrite (reordered_passes x x' p m n th) by (try assumption; apply LX; left; reflexivity). rewrite IH by (intros y Hy; apply LX; right; exact Hy). reflexivity.
  - destruct m as [|[|m]]; [|rewrite (one_few _ _ xs 1 n th D eq_refl) in H; discriminate|lia].
    unfold gelman_rubin_one in H. rewrite (select_ok _ _ xs (wk_wf _ _ _ _ _ D) (wk_cols _ _ _ _ _ D)) in H. cbn [rbind] in H. rewrite (wk_walkers _ _ _ _ _ D) in H. cbn [Z.of_nat Z.ltb Z.compare negb] in H. destruct (negb _) in H; discriminate.
Qed.
Print Assumptions C40_walker_order.

(** Two walkers 0, 2 and 1.5, 3.5: the documented ratio is sqrt(17/16) = 1.03..., the computed one
    sqrt(43/32) = 1.16...: with threshold 0.05 the documented test passes and the code fails the chain. *)
Definition ex40_frame (x : list Q) : frame := {| f_index := map (fun i => LInt (Z.of_nat i)) (seq 0 (length x)); f_cols := [(CStr "x", map Fin x)] |}.
Definition ex40_args (name : string) (f : nat) : cargs :=
  {| a_cfg := no_kw; a_samples := f; a_name := name; a_weight := None; a_post := None; a_walkers := Some 2%Z; a_grid := None;
     a_nfree := None; a_ndata := None; a_power := None; a_showlabel := None; a_relheight := None |}.
Definition ex40_x : list Q := [0; 2; 3 # 2; 7 # 2]%Q.
Definition ex40_y : list Q := [0; 6; 7 # 2; 19 # 2]%Q.
(** Chains "A" (on ex40_x), "B" (on ex40_y) and a second "A" (on ex40_y) that is not registered. *)
Definition ex40 : world := fst (run ex_rgb ({| h_frames := [ex40_frame ex40_x; ex40_frame ex40_y]; h_chains := [] |}, new_consumer)
  [OpNewChain (ex40_args "A" 0); OpNewChain (ex40_args "B" 1); OpNewChain (ex40_args "A" 1); OpAdd 0; OpAdd 1]).
Definition ex40_chain (l : nat) : chain := match chain_at (fst ex40) l with Some c => c | None => build None (ex_args "" no_kw) 0 end.
Lemma ex40_found l : (l < 3)%nat -> chain_at (fst ex40) l = Some (ex40_chain l).
Proof. intros H. destruct l as [|[|[|l]]]; [vm_compute; reflexivity..|lia]. Qed.
Lemma ex40_data l : (l < 3)%nat -> walker_data (ex40_chain l) (frame_at (fst ex40) (ch_samples (ex40_chain l))) [match l with O => ex40_x | _ => ex40_y end] 2 2.
Proof.
  intros H. destruct l as [|[|[|l]]]; [| | |lia]; clear H; (split; [|vm_compute; constructor; [left; reflexivity|constructor]|vm_compute; reflexivity|vm_compute; reflexivity]);
    match goal with |- frame_wf ?f => let g := eval vm_compute in f in change (frame_wf g) end; frame_wf_tac.
Qed.
Lemma var_2x2 a b c d : walker_variances [a; b; c; d] 2 2 (((a - b) * (a - b) + (c - d) * (c - d)) / 4)%Q ((a + b - c - d) * (a + b - c - d) / 4)%Q.
Proof.
  exists (fun k => match k with O => (a + b) / 2 | _ => (c + d) / 2 end)%Q, ((a + b + c + d) / 4)%Q.
  unfold sum_range, step_at, at_, nq. cbn. split; [|split; [|split]].
  - intros k Hk. destruct k as [|[|k]]; [| |lia]; cbn; field.
  - field.
  - field.
  - field.
Qed.
Lemma ex40_reachable : reachable ex_rgb ex40.
Proof. unfold ex40, reachable. do 3 eexists. apply surjective_pairing. Qed.
Theorem C40_documented_refuted : exists w q l c xs m n threshold t, reachable ex_rgb w /\ denotes w q l /\ chain_at (fst w) l = Some c /\ walker_data c (frame_at (fst w) (ch_samples c)) xs m n /\
  gelman_rubin w (DOne q) threshold = Ok t /\ t_passed t = false /\
  forall x, In x xs -> exists W B, walker_variances x m n W B /\ ~ (W == 0)%Q /\ near_one (documented_ratio m n W B) threshold.
Proof.
  destruct (C40_verdict_partial ex40 (DName "A") 0 (ex40_chain 0) [ex40_x] 2 2 (1 # 20)) as [t [T1 [T2 T3]]]; [reflexivity|apply ex40_found; lia|exact (ex40_data 0 ltac:(lia))|lia|lia|].
  exists ex40, (DName "A"), 0%nat, (ex40_chain 0), [ex40_x], 2%nat, 2%nat, (1 # 20)%Q, t. split; [exact ex40_reachable|].
  split; [reflexivity|]. split; [apply ex40_found; lia|]. split; [exact (ex40_data 0 ltac:(lia))|]. split; [exact T1|]. split.
  - destruct (t_passed t); [|reflexivity]. destruct T3 as [T3 _]. destruct (T3 eq_refl ex40_x _ _ (or_introl eq_refl) (var_2x2 _ _ _ _)) as [_ K]. exfalso. unfold near_one in K.
    match type of K with context [Q2R ?q] => assert (E : (q == 43 # 32)%Q) by (vm_compute; reflexivity); rewrite (Qeq_eqR _ _ E) in K end. unfold Q2R in K. cbn in K.
    set (s := sqrt (43 * / 32)) in *. assert (S2 : (s * s = 43 / 32)%R) by (apply sqrt_sqrt; Lra.lra). assert (S0 : (0 <= s)%R) by apply sqrt_pos.
    apply Rabs_def2 in K. destruct K as [K _]. assert (s < 1.05)%R by Lra.lra. Lra.nra.
  - intros x [<-|[]]. do 2 eexists. split; [apply var_2x2|]. split; [vm_compute; discriminate|]. unfold near_one.
    match goal with |- context [Q2R ?q] => assert (E : (q == 17 # 16)%Q) by (vm_compute; reflexivity); rewrite (Qeq_eqR _ _ E) end. unfold Q2R. cbn.
    set (s := sqrt (17 * / 16)). assert (S2 : (s * s = 17 / 16)%R) by (apply sqrt_sqrt; Lra.lra). assert (S0 : (0 <= s)%R) by apply sqrt_pos.
    apply Rabs_def1; Lra.nra.
Qed.
Print Assumptions C40_documented_refuted.
Example C40_nonvacuous : reachable ex_rgb ex40 /\ denotes ex40 (DName "B") 1 /\ chain_at (fst ex40) 1 = Some (ex40_chain 1) /\
  walker_data (ex40_chain 1) (frame_at (fst ex40) (ch_samples (ex40_chain 1))) [ex40_y] 2 2 /\ walkers_reordered 2 2 [1; 0]%nat ex40_y [7 # 2; 19 # 2; 0; 6]%Q /\ affine (-2) 1 ex40_y [1; -11; -6; -18]%Q.
Proof.
  split; [exact ex40_reachable|].
  split; [reflexivity|]. split; [apply ex40_found; lia|]. split; [exact (ex40_data 1 ltac:(lia))|]. split.
  - split; [reflexivity|]. intros k i Hk Hi. destruct k as [|[|k]]; [| |lia]; (destruct i as [|[|i]]; [| |lia]); reflexivity.
  - split; [reflexivity|]. intros k Hk. cbn in Hk. do 4 (destruct k as [|k]; [reflexivity|]). lia.
Qed.

Lemma ex40_verdicts :
  (exists t, gelman_rubin ex40 (DOne (DObject 0)) (3 # 20) = Ok t /\ t_passed t = false /\ t_results t = [("A", t_passed t)]) /\
  (exists t, gelman_rubin ex40 (DOne (DObject 2)) (3 # 20) = Ok t /\ t_passed t = true /\ t_results t = [("A", t_passed t)]).
Proof.
  split.
  - destruct (C40_verdict_partial ex40 (DObject 0) 0 (ex40_chain 0) [ex40_x] 2 2 (3 # 20)) as [t [T1 [T2 T3]]]; [reflexivity|apply ex40_found; lia|exact (ex40_data 0 ltac:(lia))|lia|lia|].
    exists t. split; [exact T1|]. split; [|rewrite T2; reflexivity]. destruct (t_passed t); [|reflexivity]. destruct T3 as [T3 _]. destruct (T3 eq_refl ex40_x _ _ (or_introl eq_refl) (var_2x2 _ _ _ _)) as [_ K]. exfalso. unfold near_one in K.
    match type of K with context [Q2R ?q] => assert (E : (q == 43 # 32)%Q) by (vm_compute; reflexivity); rewrite (Qeq_eqR _ _ E) in K end. unfold Q2R in K. cbn in K.
    set (s := sqrt (43 * / 32)) in *. assert (S2 : (s * s = 43 / 32)%R) by (apply sqrt_sqrt; Lra.lra). assert (S0 : (0 <= s)%R) by apply sqrt_pos.
    apply Rabs_def2 in K. destruct K as [K _]. assert (s < 1.15)%R by Lra.lra. Lra.nra.
  - destruct (C40_verdict_partial ex40 (DObject 2) 2 (ex40_chain 2) [ex40_y] 2 2 (3 # 20)) as [t [T1 [T2 T3]]]; [reflexivity|apply ex40_found; lia|exact (ex40_data 2 ltac:(lia))|lia|lia|].
    exists t. split; [exact T1|]. split; [|rewrite T2; reflexivity]. apply T3. intros x W B [<-|[]] V. destruct (variances_unique ex40_y 2 2 W B _ _ ltac:(lia) ltac:(lia) V (var_2x2 _ _ _ _)) as [EW EB].
    split; [rewrite EW; vm_compute; discriminate|]. apply (near_one_comp _ _ _ (computed_comp 2 2 _ _ _ _ EW EB)). unfold near_one.
    match goal with |- context [Q2R ?q] => assert (E : (q == 97 # 96)%Q) by (vm_compute; reflexivity); rewrite (Qeq_eqR _ _ E) end. unfold Q2R. cbn.
    set (s := sqrt (97 * / 96)). assert (S2 : (s * s = 97 / 96)%R) by (apply sqrt_sqrt; Lra.lra). assert (S0 : (0 <= s)%R) by apply sqrt_pos.
    apply Rabs_def1; Lra.nra.
Qed.

(** * C41 Several chains *)
(** One verdict per chain object: the object's own verdict; the whole passes exactly when each does.  With
    distinct names the results are those verdicts under the names, in order; in general a name carries the
    verdict of the last chain so named. *)
Theorem C41_gelman_rubin : forall w r ls threshold t, asked_for w r ls -> gelman_rubin w r threshold = Ok t ->
  exists ts ns, ls <> [] /\ Forall2 (fun l t => gelman_rubin w (DOne (DObject l)) threshold = Ok t) ls ts /\ Forall2 (named w) ls ns /\
    (t_passed t = true <-> forall t', In t' ts -> t_passed t' = true) /\
    (NoDup ns -> t_results t = combine ns (map t_passed ts)) /\
    (forall i n b, nth_error (combine ns (map t_passed ts)) i = Some (n, b) -> (forall j p, (i < j)%nat -> nth_error (combine ns (map t_passed ts)) j = Some p -> fst p <> n) -> dget n (t_results t) = Some b) /\
    (forall n b, dget n (t_results t) = Some b -> In (n, b) (combine ns (map t_passed ts))).
Proof. intros w r ls th t HA H. apply (over_ok _ w r ls t); [|exact HA|exact H]. intros c f u. apply gr_results. Qed.
Print Assumptions C41_gelman_rubin.
Theorem C41_geweke : forall yule_walker normaltest w r ls first last threshold t, asked_for w r ls -> geweke yule_walker normaltest w r first last threshold = Ok t ->
  exists ts ns, ls <> [] /\ Forall2 (fun l t => geweke yule_walker normaltest w (DOne (DObject l)) first last threshold = Ok t) ls ts /\ Forall2 (named w) ls ns /\
    (t_passed t = true <-> forall t', In t' ts -> t_passed t' = true) /\
    (NoDup ns -> t_results t = combine ns (map t_passed ts)) /\
    (forall i n b, nth_error (combine ns (map t_passed ts)) i = Some (n, b) -> (forall j p, (i < j)%nat -> nth_error (combine ns (map t_passed ts)) j = Some p -> fst p <> n) -> dget n (t_results t) = Some b) /\
    (forall n b, dget n (t_results t) = Some b -> In (n, b) (combine ns (map t_passed ts))).
Proof. intros yw nt w r ls a b th t HA H. apply (over_ok _ w r ls t); [|exact HA|exact H]. intros c f u. apply gw_results. Qed.
Print Assumptions C41_geweke.
(** The diagnostic of a non-empty list succeeds if it succeeds on each. *)
Theorem C41_succeeds : forall yule_walker normaltest w r ls first last threshold, asked_for w r ls -> ls <> [] ->
  ((forall l, In l ls -> exists t, gelman_rubin w (DOne (DObject l)) threshold = Ok t) -> exists t, gelman_rubin w r threshold = Ok t) /\
  ((forall l, In l ls -> exists t, geweke yule_walker normaltest w (DOne (DObject l)) first last threshold = Ok t) -> exists t, geweke yule_walker normaltest w r first last threshold = Ok t).
Proof.
  intros yw nt w r ls a b th HA NE.
  assert (G : forall one : chain -> frame -> res test_result, (forall l, In l ls -> exists t, over_chains one w (DOne (DObject l)) = Ok t) -> exists t, over_chains one w r = Ok t).
  { intros one H. assert (FT : exists ts, Forall2 (fun l t => over_chains one w (DOne (DObject l)) = Ok t) ls ts).
    { clear HA NE. induction ls as [|l ls IH]; [exists []; constructor|]. destruct (H l (or_introl eq_refl)) as [t Ht]. destruct IH as [ts IH]; [intros l' Hl; apply H; right; exact Hl|]. exists (t :: ts). constructor; assumption. }
    destruct FT as [ts FT]. exact (over_conv one w r ls ts HA NE FT). }
  split; intros H; apply G; exact H.
Qed.
Print Assumptions C41_succeeds.
(** No chains: an IndexError instead of a vacuous pass. *)
Theorem C41_empty : forall yule_walker normaltest w r first last threshold, asked_for w r [] ->
  gelman_rubin w r threshold = Err IndexError /\ geweke yule_walker normaltest w r first last threshold = Err IndexError.
Proof. intros. split; apply over_empty; assumption. Qed.
Print Assumptions C41_empty.
(** Name clash: two different chains called "A"; the whole fails though every reported result passes. *)
Theorem C41_clash_refuted : exists w r t, reachable ex_rgb w /\ gelman_rubin w r (3 # 20) = Ok t /\ t_passed t = false /\ t_results t = [("A", true)].
Proof.
  destruct ex40_verdicts as [V0 V2]. exists ex40, (DList [DObject 0; DObject 2]).
  destruct (proj1 (C41_succeeds (fun _ _ => ([], 0%R)) (fun _ => Err ValueError) ex40 (DList [DObject 0; DObject 2]) [0; 2]%nat 0 0 (3 # 20) ltac:(repeat constructor) ltac:(discriminate))) as [t HT].
  { intros l [<-|[<-|[]]]; [destruct V0 as [t [H _]]|destruct V2 as [t [H _]]]; exists t; exact H. }
  exists t. split; [exact (proj1 C40_nonvacuous)|]. split; [exact HT|].
  destruct V0 as [t0 [H0 [P0 R0]]]. destruct V2 as [t2 [H2 [P2 R2]]].
  unfold gelman_rubin, over_chains in HT. cbn [diag_chains rmapM resolve rbind] in HT.
  change (gelman_rubin_one (ex40_chain 0) (frame_at (fst ex40) (ch_samples (ex40_chain 0))) (3 # 20) = Ok t0) in H0.
  change (gelman_rubin_one (ex40_chain 2) (frame_at (fst ex40) (ch_samples (ex40_chain 2))) (3 # 20) = Ok t2) in H2.
  rewrite (ex40_found 0), (ex40_found 2) in HT by lia. rewrite H0, H2 in HT. cbn [rbind rmap] in HT. injection HT as <-. unfold combine_results. cbn [t_passed t_results forallb fold_left]. rewrite P0, R0, R2, P2, P0. split; reflexivity.
Qed.
Print Assumptions C41_clash_refuted.
Example C41_nonvacuous : asked_for ex40 DAll [0; 1]%nat /\ asked_for ex40 (DList [DName "B"; DObject 2]) [1; 2]%nat /\
  (forall l, In l [1; 2]%nat -> exists t, gelman_rubin ex40 (DOne (DObject l)) (3 # 20) = Ok t) /\ asked_for ex40 (DList []) [].
Proof.
  split; [reflexivity|]. split; [repeat constructor|]. split; [|constructor]. intros l HL.
  assert (L3 : (l < 3)%nat) by (destruct HL as [<-|[<-|[]]]; lia).
  destruct (C40_verdict_partial ex40 (DObject l) l (ex40_chain l) _ 2 2 (3 # 20) eq_refl (ex40_found l L3) (ex40_data l L3) ltac:(lia) ltac:(lia)) as [t [T1 _]]. exists t. exact T1.
Qed.

(** * C42 Geweke *)
(** [normaltest] gets one score per walker and parameter; score [k, j] compares the first floor(first n)
    steps of walker [k] of parameter [j] with its steps from floor((1-last) n) on. *)
Theorem C42_windows : forall yule_walker normaltest w q l c xs m n first last threshold a b t, denotes w q l -> chain_at (fst w) l = Some c ->
  walker_data c (frame_at (fst w) (ch_samples c)) xs m n -> (0 <= first <= 1)%Q -> (0 <= last <= 1)%Q -> is_floor (first * nq n) a -> is_floor ((1 - last) * nq n) b ->
  geweke yule_walker normaltest w (DOne q) first last threshold = Ok t ->
  exists zs p, normaltest zs = Ok p /\ (t_passed t = true <-> exists v, p = Some v /\ (Q2R threshold < v)%R) /\ t_results t = [(ch_name c, t_passed t)] /\ length zs = (m * length xs)%nat /\
    forall k j x, (k < m)%nat -> nth_error xs j = Some x ->
      exists z, nth_error zs (k * length xs + j) = Some z /\ geweke_score yule_walker (window x n k 0 a) (window x n k b n) z.
Proof.
  intros yw nt w q l c xs m n first last th a b t HD HC D HF HL FA FB H.
  unfold geweke, over_chains in H. rewrite (proj2 (diag_chains_spec w (DOne q) [l])) in H by (exists l; auto). cbn [rbind] in H. rewrite HC in H.
  destruct (geweke_one_ok yw nt first last th c _ xs m n t a b D HF HL FA FB H) as [zs [p [P1 [P2 [P3 P4]]]]]. exists zs, p. split; [exact P1|]. split; [exact P2|].
  split; [exact (gw_results _ _ _ _ _ _ _ _ H)|]. split; assumption.
Qed.
Print Assumptions C42_windows.
(** With first + last <= 1 the windows share no step: the first ends where the second begins, or earlier. *)
Theorem C42_disjoint : forall first last n a b, (0 <= first)%Q -> (0 <= last)%Q -> (first + last <= 1)%Q -> is_floor (first * nq n) a -> is_floor ((1 - last) * nq n) b -> (a <= b <= n)%nat.
Proof.
  intros first last n a b HF HL HS FA FB. pose proof (nq_nonneg n). split; [apply (floor_mono _ _ _ _ FA FB); nra|apply (floor_bound _ _ n FB); nra].
Qed.
Print Assumptions C42_disjoint.
(** Shifting parameters, or scaling them by positive factors, changes nothing. *)
Theorem C42_affine : forall yule_walker normaltest w q l c xs w' q' l' c' xs' m n first last threshold, equivariant yule_walker ->
  denotes w q l -> chain_at (fst w) l = Some c -> walker_data c (frame_at (fst w) (ch_samples c)) xs m n ->
  denotes w' q' l' -> chain_at (fst w') l' = Some c' -> walker_data c' (frame_at (fst w') (ch_samples c')) xs' m n -> ch_name c = ch_name c' ->
  Forall2 (fun x x' => exists a b, (0 < a)%Q /\ affine a b x x') xs xs' ->
  geweke yule_walker normaltest w' (DOne q') first last threshold = geweke yule_walker normaltest w (DOne q) first last threshold.
Proof.
  intros yw nt w q l c xs w' q' l' c' xs' m n first last th E HD HC D HD' HC' D' EN A.
  unfold geweke, over_chains. rewrite (proj2 (diag_chains_spec w (DOne q) [l])) by (exists l; auto). rewrite (proj2 (diag_chains_spec w' (DOne q') [l'])) by (exists l'; auto). cbn [rbind]. rewrite HC, HC'.
  apply (affine_geweke yw nt first last th c _ xs c' _ xs' m n); assumption.
Qed.
Print Assumptions C42_affine.
(** Empty windows (too small fractions for the number of steps) never give a result. *)
Theorem C42_empty_window : forall yule_walker normaltest w q l c xs m n first last threshold, denotes w q l -> chain_at (fst w) l = Some c ->
  walker_data c (frame_at (fst w) (ch_samples c)) xs m n -> (1 <= m)%nat -> xs <> [] -> (0 <= first <= 1)%Q -> (0 <= last <= 1)%Q -> (first * nq n < 1)%Q ->
  geweke yule_walker normaltest w (DOne q) first last threshold = Err NaNResult.
Proof.
  intros yw nt w q l c xs m n first last th HD HC D M1 NE HF HL HE. unfold geweke, over_chains. rewrite (proj2 (diag_chains_spec w (DOne q) [l])) by (exists l; auto). cbn [rbind]. rewrite HC.
  pose proof (nq_nonneg n) as NN. assert (FA : is_floor (first * nq n) 0) by (split; [change (nq 0) with 0%Q; nra|change (nq 0) with 0%Q; lra]).
  unfold geweke_one. rewrite (wk_walkers _ _ _ _ _ D). destruct (Z.ltb_spec 0 (Z.of_nat m)) as [M0|]; [|lia]. cbn [negb].
  rewrite (select_ok _ _ xs (wk_wf _ _ _ _ _ D) (wk_cols _ _ _ _ _ D)). cbn [rbind]. unfold f_rows. rewrite (wk_rows _ _ _ _ _ D).
  rewrite Nat2Z.inj_mul. replace (Z.of_nat m * Z.of_nat n)%Z with (Z.of_nat n * Z.of_nat m)%Z by lia. rewrite Z.mod_mul by lia. cbn [Z.eqb negb]. rewrite Nat2Z.id.
  replace (m * n / m)%nat with n by (rewrite Nat.mul_comm, Nat.div_mul; lia). rewrite (floor_unique _ _ FA). destruct m as [|m]; [lia|]. cbn [seq rmapM]. destruct xs as [|x xs]; [contradiction|]. cbn [rmapM].
  unfold z_score at 1. assert (T : forall y : list Q, take_to (Z.of_nat 0) y = []) by (intros y; unfold take_to, py_index; cbn; reflexivity). rewrite T. reflexivity.
Qed.
Print Assumptions C42_empty_window.
Definition ex42_yw : list Q -> nat -> list R * R := fun _ _ => ([], 0%R).
Lemma ex42_sqrt : sqrt (1 ^ 2 / (1 - 0) ^ 2 / INR 1 + 1 ^ 2 / (1 - 0) ^ 2 / INR 1) <> 0%R.
Proof. intros E. apply sqrt_eq_0 in E; cbn in E |- *; Lra.lra. Qed.
Example C42_nonvacuous : is_floor ((1 # 2) * nq 2) 1 /\ is_floor ((1 - (1 # 2)) * nq 2) 1 /\ equivariant ex42_yw /\
  (exists t, geweke (fun _ _ => ([], 1%R)) (fun zs => Ok (Some 1%R)) ex40 (DOne (DName "A")) (1 # 2) (1 # 2) (1 # 20) = Ok t) /\ ((1 # 4) * nq 2 < 1)%Q.
Proof.
  split; [split; vm_compute; congruence|]. split; [split; vm_compute; congruence|]. split.
  - intros s s' a b _ _. cbn. split; [reflexivity|ring].
  - split; [|reflexivity]. unfold geweke, over_chains. cbn [diag_chains rmap]. change (resolve ex40 (DName "A")) with (Ok 0%nat). cbn [rmap rbind]. rewrite (ex40_found 0) by lia.
    pose proof (ex40_data 0 ltac:(lia)) as D. unfold geweke_one. rewrite (wk_walkers _ _ _ _ _ D). rewrite (select_ok _ _ _ (wk_wf _ _ _ _ _ D) (wk_cols _ _ _ _ _ D)). unfold f_rows. rewrite (wk_rows _ _ _ _ _ D).
    change (negb (0 <? Z.of_nat 2)%Z) with false. cbn [rbind]. change (negb (Z.of_nat (2 * 2) mod Z.of_nat 2 =? 0)%Z) with false. cbv iota.
    change (Z.to_nat (Z.of_nat 2)) with 2%nat. change (2 * 2 / 2)%nat with 2%nat. change (Qfloor ((1 # 2) * nq 2)) with 1%Z. change (Qfloor ((1 - (1 # 2)) * nq 2)) with 1%Z. cbn [seq rmapM]. unfold z_score.
    change (nth 0 (blocks 2 ex40_x) []) with [0; 2]%Q. change (nth 1 (blocks 2 ex40_x) []) with [3 # 2; 7 # 2]%Q.
    change (take_to 1 [0; 2]%Q) with [0%Q]. change (take_from 1 [0; 2]%Q) with [2%Q]. change (take_to 1 [3 # 2; 7 # 2]%Q) with [3 # 2]%Q. change (take_from 1 [3 # 2; 7 # 2]%Q) with [7 # 2]%Q.
    assert (SP : forall y, spec (fun _ _ => ([], 1%R)) y = Ok (1 ^ 2 / (1 - 0) ^ 2)%R). { intros y. unfold spec. cbn [fold_right]. destruct (Req_EM_T (1 - 0) 0) as [E|]; [Lra.lra|reflexivity]. }
    rewrite !SP. cbn [rbind length]. destruct (Req_EM_T _ 0) as [E|_]; [exfalso; exact (ex42_sqrt E)|]. cbn [rbind]. eexists. reflexivity.
Qed.
