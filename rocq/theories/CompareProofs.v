(** Proofs about model comparison. *)
From Coq Require Import String Ascii List Bool Arith ZArith QArith Qround Lia Reals Qreals Permutation Lra Lqa.
From Verif Require Import Py NumSpec NumModel NumFacts FrameModel FrameFacts ColorModel MarginalModel ConfigModel ChainModel RegistryModel RegistrySpec ChainSpec HeapFacts RegistryProofs ShiftProofs ChainProofs
  ChainUseProofs CovModel CovSpec CovProofs DiagProofs GewekeProofs RegistryProps SessionProofs FormatModel FormatSpec FormatProofs CompareModel CompareSpec.
Import ListNotations.
Open Scope string_scope.
Open Scope list_scope.

(** ** The loop *)
Lemma score_loop_spec raw h : forall d s, score_loop raw h d = Ok s -> NoDup (map fst d) ->
  sublist (map fst s) (map fst d) /\
  (forall n v, dget n s = Some v <-> exists l c, In (n, l) d /\ chain_at h l = Some c /\ raw c (frame_at h (ch_samples c)) = Ok (Some v)) /\
  (forall n l c, In (n, l) d -> chain_at h l = Some c -> exists o, raw c (frame_at h (ch_samples c)) = Ok o).
Proof.
  induction d as [|[n l] d IH]; intros s H ND; cbn [score_loop] in H.
  - injection H as <-. split; [constructor|]. split; [|intros n l c []]. intros n v. split; [discriminate|]. intros [l [c [[] _]]].
  - destruct (chain_at h l) as [c|] eqn:EC; [|discriminate]. destruct (raw c (frame_at h (ch_samples c))) as [o|] eqn:ER; [|discriminate]. cbn [rbind] in H.
    destruct (score_loop raw h d) as [rest|] eqn:EL; [|discriminate]. cbn [rbind] in H. injection H as <-. cbn [map fst] in ND. inversion ND as [|? ? NI ND']; subst.
    destruct (IH rest eq_refl ND') as [I1 [I2 I3]]. split; [|split].
    + destruct o; cbn [map fst]; [apply sub_keep|apply sub_skip]; exact I1.
    + intros m v. destruct (String.eqb_spec m n) as [->|N].
      * assert (HR : dget n rest = None). { destruct (dget n rest) as [u|] eqn:E; [|reflexivity]. apply I2 in E. destruct E as [l' [c' [E _]]]. exfalso. apply NI. apply (in_map fst) in E. exact E. }
        split.
        -- intros HG. exists l, c. split; [left; reflexivity|]. split; [exact EC|]. destruct o as [u|]; [cbn in HG; rewrite String.eqb_refl in HG; injection HG as <-; exact ER|]. congruence.
        -- intros [l' [c' [[HI|HI] [HC HV]]]]; [|exfalso; apply NI; apply (in_map fst) in HI; exact HI]. injection HI as <-. rewrite EC in HC. injection HC as <-. rewrite ER in HV. injection HV as ->. cbn. rewrite String.eqb_refl. reflexivity.
      * assert (HG : dget m (match o with Some u => (n, u) :: rest | None => rest end) = dget m rest). { destruct o; [|reflexivity]. cbn. destruct (String.eqb_spec m n); [contradiction|reflexivity]. }
        transitivity (dget m rest = Some v); [split; intros K; [rewrite <- HG|rewrite <- HG in K]; exact K|]. rewrite I2. split; intros [l' [c' [HI K]]]; exists l', c'; (split; [|exact K]); [right; exact HI|]. destruct HI as [HI|HI]; [injection HI as -> _; contradiction|exact HI].
    + intros m l' c' [HI|HI] HC; [|exact (I3 m l' c' HI HC)]. injection HI as -> ->. rewrite EC in HC. injection HC as <-. exists o. exact ER.
Qed.
Lemma score_loop_total raw h : forall d, (forall n l, In (n, l) d -> exists c o, chain_at h l = Some c /\ raw c (frame_at h (ch_samples c)) = Ok o) -> exists s, score_loop raw h d = Ok s.
Proof.
  induction d as [|[n l] d IH]; intros H; cbn [score_loop]; [eauto|]. destruct (H n l (or_introl eq_refl)) as [c [o [HC HR]]]. rewrite HC, HR. cbn [rbind]. destruct IH as [s ->]; [intros m k Hm; apply (H m k); right; exact Hm|]. cbn [rbind]. eauto.
Qed.
(** All failures are those of one chain. *)
Lemma score_loop_err raw h : forall d e, score_loop raw h d = Err e -> (forall n l, In (n, l) d -> exists c, chain_at h l = Some c) ->
  exists n l c, In (n, l) d /\ chain_at h l = Some c /\ raw c (frame_at h (ch_samples c)) = Err e.
Proof.
  induction d as [|[n l] d IH]; intros e H HD; cbn [score_loop] in H; [discriminate|]. destruct (HD n l (or_introl eq_refl)) as [c HC]. rewrite HC in H.
  destruct (raw c (frame_at h (ch_samples c))) as [o|e'] eqn:ER; cbn [rbind] in H.
  - destruct (score_loop raw h d) as [rest|e'] eqn:EL; [discriminate|]. injection H as ->. destruct (IH e eq_refl) as [m [k [c' [I1 I2]]]]; [intros m k Hm; apply (HD m k); right; exact Hm|]. exists m, k, c'. split; [right; exact I1|exact I2].
  - injection H as ->. exists n, l, c. split; [left; reflexivity|]. auto.
Qed.

(** ** Subtracting the least *)
Lemma rmin_list_spec d l : (forall x, In x (d :: l) -> (rmin_list d l <= x)%R) /\ In (rmin_list d l) (d :: l).
Proof.
  induction l as [|y l [I1 I2]]; cbn [rmin_list]; [split; [intros x [<-|[]]; apply Rle_refl|left; reflexivity]|]. split.
  - intros x [<-|[<-|H]].
    + apply (Rle_trans _ (rmin_list d l)); [apply Rmin_r|apply I1; left; reflexivity].
    + apply Rmin_l.
    + apply (Rle_trans _ (rmin_list d l)); [apply Rmin_r|apply I1; right; exact H].
  - unfold Rmin. destruct (Rle_dec y (rmin_list d l)); [right; left; reflexivity|]. destruct I2 as [I2|I2]; [left; exact I2|right; right; exact I2].
Qed.
Lemma relative_names d : map fst (relative d) = map fst d.
Proof. destruct d as [|[n v] d]; [reflexivity|]. unfold relative. rewrite map_map. cbn [fst]. reflexivity. Qed.
Lemma relative_spec d : NoDup (map fst d) -> exists low, (forall n v, dget n (relative d) = Some v <-> dget n d = Some (v + low)%R) /\
  (forall n v, dget n (relative d) = Some v -> (0 <= v)%R) /\ (d <> [] -> exists n, dget n (relative d) = Some 0%R).
Proof.
  intros ND. destruct d as [|[n0 v0] d]; [exists 0%R; cbn; split; [intros; split; discriminate|]; split; [discriminate|intros H; contradiction]|].
  set (D := (n0, v0) :: d) in *. exists (rmin_list v0 (map snd d)). set (m := rmin_list v0 (map snd d)).
  assert (E : relative D = map (fun kv => (fst kv, (snd kv - m)%R)) D) by reflexivity.
  assert (G : forall n, dget n (relative D) = option_map (fun v => (v - m)%R) (dget n D)).
  { intros n. rewrite E. clear. induction D as [|[k v] D IH]; [reflexivity|]. cbn. destruct (String.eqb n k); [reflexivity|exact IH]. }
  destruct (rmin_list_spec v0 (map snd d)) as [M1 M2]. fold m in M1, M2. split; [|split].
  - intros n v. rewrite G. destruct (dget n D) as [u|]; cbn; [|split; discriminate]. split; intros H; injection H as H; f_equal; Lra.lra.
  - intros n v. rewrite G. destruct (dget n D) as [u|] eqn:EU; cbn; [|discriminate]. intros H. injection H as <-. apply dget_In in EU. assert (In u (v0 :: map snd d)) by (apply (in_map snd) in EU; exact EU). specialize (M1 u H). Lra.lra.
  - intros _. assert (HM : In m (map snd D)) by exact M2. apply in_map_iff in HM. destruct HM as [[n u] [EU HU]]. cbn in EU. exists n. rewrite G. rewrite (dget_nodup n u D ND HU). cbn. f_equal. Lra.lra.
Qed.
Lemma sublist_In {A} (s b : list A) : sublist s b -> forall x, In x s -> In x b.
Proof. induction 1; intros y Hy; [exact Hy| |right; auto]. destruct Hy as [->|Hy]; [left; reflexivity|right; auto]. Qed.
Lemma sublist_NoDup {A} (s b : list A) : sublist s b -> NoDup b -> NoDup s.
Proof.
  induction 1 as [|x s b S IH|x s b S IH]; intros ND; [constructor| |inversion ND; auto]. inversion ND as [|? ? NI ND']; subst. constructor; [|auto]. intros H. apply NI. exact (sublist_In _ _ S x H).
Qed.
(** A raw score given as a function, against its description. *)
Definition raw_ok (raw : chain -> frame -> res (option R)) (q : chain -> frame -> Prop) (good : chain -> frame -> R -> Prop) (c : chain) (f : frame) : Prop :=
  (q c f /\ exists v, raw c f = Ok (Some v) /\ good c f v) \/ (~ q c f /\ raw c f = Ok None).
Lemma scores_ok raw q good w : world_ok w -> (forall n c f, registered w n c f -> raw_ok raw q good c f) ->
  exists d, scores raw w = Ok d /\ relative_scores w q good d.
Proof.
  intros [ND HW] H. set (h := fst w) in *. set (K := k_chains (snd w)) in *. change (NoDup (map fst K)) in ND.
  assert (T : exists s, score_loop raw h K = Ok s).
  { apply score_loop_total. intros n l HI. destruct (HW n l HI) as [c [HC HN]]. exists c. destruct (H n c (frame_at h (ch_samples c))) as [[_ [v [E _]]]|[_ E]]; [exists l; auto|eauto|eauto]. }
  destruct T as [s ES]. destruct (score_loop_spec raw h K s ES ND) as [S1 [S2 S3]]. pose proof (sublist_NoDup _ _ S1 ND) as NDS. destruct (relative_spec s NDS) as [low [R1 [R2 R3]]].
  exists (relative s). split; [unfold scores; fold h; fold K; rewrite ES; reflexivity|]. constructor.
  - rewrite relative_names. split; [exact S1|]. intros n c f HR. destruct HR as [l [HI [HC ->]]]. change (map fst s) with (dkeys s). rewrite <- dget_Some_mem. split.
    + intros [v Hv]. apply S2 in Hv. destruct Hv as [l' [c' [HI' [HC' HV]]]]. assert (l' = l) by (pose proof (dget_nodup n l K ND HI); pose proof (dget_nodup n l' K ND HI'); congruence). subst l'. fold h in HC. rewrite HC in HC'. injection HC' as <-.
      destruct (H n c _ (ex_intro _ l (conj HI (conj HC eq_refl)))) as [[Q _]|[_ E]]; [exact Q|]. fold h in E. congruence.
    + intros Q. destruct (H n c _ (ex_intro _ l (conj HI (conj HC eq_refl)))) as [[_ [v [E _]]]|[NQ _]]; [|contradiction]. exists v. apply S2. exists l, c. auto.
  - exists low. split; [|split; [exact R2|]].
    + intros n v Hv. apply R1 in Hv. apply S2 in Hv. destruct Hv as [l [c [HI [HC HV]]]]. exists c, (frame_at h (ch_samples c)). assert (HR : registered w n c (frame_at h (ch_samples c))) by (exists l; auto). split; [exact HR|].
      destruct (H n c _ HR) as [[_ [u [E G]]]|[_ E]]; [|congruence]. rewrite HV in E. injection E as ->. exact G.
    + intros NE. apply R3. intros ->. apply NE. reflexivity.
Qed.

(** ** Raw scores *)
Lemma np_max_spec p : p <> [] -> exists P, np_max p = Ok P /\ is_largest P p.
Proof. destruct p as [|x r]; [contradiction|]. intros _. cbn. eexists. split; [reflexivity|]. destruct (qmax_list_spec x r) as [H1 H2]. split; assumption. Qed.
Lemma log_posterior_spec c f : sound c f -> (log_posterior c f = None /\ ~ has_posterior c f) \/ (exists p, log_posterior c f = Some p /\ column f (ch_post c) p /\ p <> [] /\ length p = f_rows f).
Proof.
  intros S. unfold log_posterior. destruct (f_get f (ch_post c)) as [l|] eqn:E.
  - right. cbn [option_map]. exists (qs l). split; [reflexivity|]. pose proof (f_get_In _ _ _ E) as HI. destruct (so_clean _ _ S) as [_ CF]. destruct (finite_qs l) as [FQ _]; [intros x; apply (CF _ _ x HI)|].
    pose proof (proj2 (so_wf _ _ S) _ _ HI) as L. pose proof (so_rows _ _ S) as R. split; [unfold column; rewrite <- FQ; exact HI|]. assert (LQ : length (qs l) = f_rows f) by (unfold qs; rewrite map_length; exact L). split; [|exact LQ].
    intros K. rewrite K in LQ. cbn in LQ. lia.
  - left. split; [reflexivity|]. intros H. unfold has_posterior in H. rewrite is_column_has in H. unfold f_has in H. rewrite E in H. discriminate.
Qed.
Lemma Q2R_inj z : Q2R (inject_Z z) = IZR z. Proof. unfold Q2R, inject_Z. cbn. Lra.lra. Qed.
Lemma Q2R_one : Q2R 1 = 1%R. Proof. unfold Q2R. cbn. Lra.lra. Qed.
Lemma aic_raw c f : sound c f -> (forall N k, has_posterior c f -> ch_ndata c = Some (Fin N) -> ch_nfree c = Some k -> ~ (N == inject_Z k + 1)%Q) -> raw_ok raw_aic has_counts has_aic c f.
Proof.
  intros S H. unfold raw_ok, raw_aic. destruct (log_posterior_spec c f S) as [[-> NP]|[p [-> [HP [NE _]]]]]; [right; split; [intros [K _]; contradiction|reflexivity]|].
  assert (HPO : has_posterior c f) by (eexists; exact HP).
  destruct (ch_ndata c) as [x|] eqn:EN; [|right; split; [intros [_ [K _]]; contradiction|reflexivity]]. destruct (ch_nfree c) as [k|] eqn:EK; [|right; split; [intros [_ [_ K]]; contradiction|reflexivity]].
  destruct (so_ndata _ _ S x EN) as [N [-> NN]]. left. split; [split; [exact HPO|rewrite EN, EK; split; discriminate]|]. specialize (H N k HPO eq_refl eq_refl).
  destruct (Qeq_bool (N - inject_Z k - 1) 0) eqn:EQ; [exfalso; apply H; apply Qeq_bool_iff in EQ; lra|]. apply Qeq_bool_neq in EQ. destruct (np_max_spec p NE) as [P [EP LP]]. rewrite EP. cbn [rmap]. eexists. split; [reflexivity|].
  exists p, P, N, k. do 5 (split; [first [exact HP|exact EN|exact EK|exact LP|exact H]|]). unfold AICc. rewrite Q2R_mult, Q2R_minus, Q2R_plus, Q2R_div by exact EQ. rewrite Q2R_mult, !Q2R_minus, Q2R_plus, Q2R_inj, Q2R_one.
  assert (DZ : (Q2R N - IZR k - 1 <> 0)%R). { intros K. apply EQ. apply eqR_Qeq. rewrite !Q2R_minus, Q2R_inj, Q2R_one, K. unfold Q2R. cbn. Lra.lra. }
  change (Q2R 2) with (2 * / 1)%R. replace (2 * / 1)%R with 2%R by (rewrite Rinv_1; ring). field. exact DZ.
Qed.
Lemma aic_err c f e : sound c f -> raw_aic c f = Err e -> e = ZeroDivisionError /\ exists N k, has_posterior c f /\ ch_ndata c = Some (Fin N) /\ ch_nfree c = Some k /\ (N == inject_Z k + 1)%Q.
Proof.
  intros S. unfold raw_aic. destruct (log_posterior_spec c f S) as [[-> NP]|[p [-> [HP [NE _]]]]]; [discriminate|]. destruct (ch_ndata c) as [x|] eqn:EN; [|discriminate]. destruct (ch_nfree c) as [k|] eqn:EK; [|discriminate].
  destruct (so_ndata _ _ S x EN) as [N [-> NN]]. destruct (Qeq_bool (N - inject_Z k - 1) 0) eqn:EQ.
  - intros H. injection H as <-. split; [reflexivity|]. exists N, k. split; [eexists; exact HP|]. split; [reflexivity|]. split; [reflexivity|]. apply Qeq_bool_iff in EQ. lra.
  - destruct (np_max_spec p NE) as [P [-> _]]. discriminate.
Qed.
Lemma aic_zero c f N k : sound c f -> has_posterior c f -> ch_ndata c = Some (Fin N) -> ch_nfree c = Some k -> (N == inject_Z k + 1)%Q -> raw_aic c f = Err ZeroDivisionError.
Proof.
  intros S HP EN EK E. unfold raw_aic. destruct (log_posterior_spec c f S) as [[_ NP]|[p [-> _]]]; [contradiction|]. rewrite EN, EK. assert (Q0 : (N - inject_Z k - 1 == 0)%Q) by lra. apply Qeq_bool_iff in Q0. rewrite Q0. reflexivity.
Qed.
Lemma bic_raw c f : sound c f -> (forall N, has_counts c f -> ch_ndata c = Some (Fin N) -> (0 < N)%Q) -> raw_ok raw_bic has_counts has_bic c f.
Proof.
  intros S H. unfold raw_ok, raw_bic. destruct (log_posterior_spec c f S) as [[-> NP]|[p [-> [HP [NE _]]]]]; [right; split; [intros [K _]; contradiction|reflexivity]|].
  assert (HPO : has_posterior c f) by (eexists; exact HP).
  destruct (ch_ndata c) as [x|] eqn:EN; [|right; split; [intros [_ [K _]]; contradiction|reflexivity]]. destruct (ch_nfree c) as [k|] eqn:EK; [|right; split; [intros [_ [_ K]]; contradiction|reflexivity]].
  destruct (so_ndata _ _ S x EN) as [N [-> NN]]. assert (HC : has_counts c f) by (split; [exact HPO|rewrite EN, EK; split; discriminate]). left. split; [exact HC|]. specialize (H N HC eq_refl).
  destruct (Qle_bool N 0) eqn:EQ; [exfalso; apply Qle_bool_iff in EQ; lra|]. destruct (np_max_spec p NE) as [P [EP LP]]. rewrite EP. cbn [rmap]. eexists. split; [reflexivity|].
  exists p, P, N, k. do 5 (split; [first [exact HP|exact EN|exact EK|exact LP|exact H]|]). unfold BIC. ring.
Qed.
(** DIC *)
Lemma at_map_row (xs : list (list Q)) i j : (j < length xs)%nat -> at_ (map (fun x => nth i x 0%Q) xs) j = at_ (nth j xs []) i.
Proof. intros H. unfold at_. rewrite (nth_indep _ 0%Q (nth i (@nil Q) 0%Q)) by (rewrite map_length; exact H). rewrite (map_nth (fun x : list Q => nth i x 0%Q)). reflexivity. Qed.
Lemma table_rows_nth xs n i : (i < n)%nat -> nth i (table_rows xs n) [] = map (fun x => nth i x 0%Q) xs.
Proof.
  intros H. unfold table_rows. rewrite (nth_indep _ [] (map (fun x => nth 0%nat x 0%Q) xs)) by (rewrite map_length, seq_length; exact H).
  rewrite (map_nth (fun k => map (fun x => nth k x 0%Q) xs) (seq 0 n) 0%nat). rewrite seq_nth by exact H. reflexivity.
Qed.
Lemma dic_raw nearest c f : nearest_ok nearest -> sound c f -> (forall l q, In (CStr (ch_weight c), l) (f_cols f) -> In (Fin q) l -> (0 < q)%Q) -> data_columns c f <> [] ->
  raw_ok (raw_dic nearest) has_posterior has_dic c f.
Proof.
  intros NO S POS DC. unfold raw_ok, raw_dic. destruct (log_posterior_spec c f S) as [[-> NP]|[p [-> [HP [NE LP]]]]]; [right; auto|]. left. split; [eexists; exact HP|].
  destruct (so_clean _ _ S) as [_ CF]. pose proof (so_wf _ _ S) as WF. pose proof (so_rows _ _ S) as RW.
  assert (V : forall n, is_column f n -> exists v, column f n v).
  { intros n [lc HI]. exists (qs lc). unfold column. destruct (finite_qs lc) as [FQ _]; [intros x; apply (CF _ _ x HI)|]. rewrite <- FQ. exact HI. }
  assert (CL : forall n v, column f n v -> length v = f_rows f). { intros n v HV. pose proof (proj2 WF _ _ HV) as L. rewrite map_length in L. exact L. }
  destruct (V (ch_weight c)) as [w HW]; [apply is_column_has; exact (so_weight _ _ S)|].
  assert (XS : exists xs, Forall2 (column f) (data_columns c f) xs).
  { assert (HC2 : forall n, In n (data_columns c f) -> is_column f n) by (intros n Hn; apply data_columns_spec in Hn; tauto). clear DC. induction (data_columns c f) as [|n r IH]; [exists []; constructor|].
    destruct IH as [xs IH]; [intros m Hm; apply HC2; right; exact Hm|]. destruct (V n (HC2 n (or_introl eq_refl))) as [v Hv]. exists (v :: xs). constructor; assumption. }
  destruct XS as [xs XS]. rewrite (weights_ok c f w WF HW). cbn [rbind]. rewrite (select_ok f _ xs WF XS). cbn [rbind].
  assert (XL : forall x, In x xs -> length x = f_rows f). { intros x Hx. clear - XS CL Hx. induction XS as [|n y ns ys H1 _ IH]; [destruct Hx|]. destruct Hx as [<-|Hx]; [exact (CL n y H1)|auto]. }
  assert (WL : length w = f_rows f) by (exact (CL _ _ HW)).
  assert (WP : 0 < qsum w). { apply qsum_pos; [intros ->; cbn in WL; lia|]. intros x Hx. apply (POS (map Fin w) x HW). apply in_map. exact Hx. }
  assert (MS : rmapM (fun x => average x w) xs = Ok (map (fun x => qdot x w / qsum w) xs)).
  { clear - WP. induction xs as [|x xs IH]; [reflexivity|]. cbn [rmapM map]. rewrite average_ok by exact WP. cbn [rbind]. rewrite IH. reflexivity. }
  rewrite MS. cbn [rbind]. assert (NX : xs <> []) by (intros ->; inversion XS; congruence). destruct xs as [|x0 xs0] eqn:EX; [contradiction|]. rewrite <- EX in *. clear EX x0 xs0.
  set (means := map (fun x => qdot x w / qsum w) xs). rewrite average_ok by exact WP. cbn [rbind]. eexists. split; [reflexivity|].
  set (i := nearest (table_rows xs (f_rows f)) means). set (d := map (fun q => -(2) * q) p).
  assert (RN : table_rows xs (f_rows f) <> []) by (unfold table_rows; destruct (f_rows f); [lia|discriminate]).
  assert (RL : forall r, In r (table_rows xs (f_rows f)) -> length r = length xs) by (intros r Hr; unfold table_rows in Hr; apply in_map_iff in Hr; destruct Hr as [k [<- _]]; apply map_length).
  assert (ML : length means = length xs) by apply map_length. destruct (NO _ means (length xs) RN RL ML) as [N1 N2]. fold i in N1, N2. cbv zeta in N2.
  assert (TL : length (table_rows xs (f_rows f)) = f_rows f) by (unfold table_rows; rewrite map_length, seq_length; reflexivity). rewrite TL in N1, N2.
  assert (DE : forall k, (k < f_rows f)%nat -> sum_range (fun j => (at_ (nth k (table_rows xs (f_rows f)) []) j - at_ means j) * (at_ (nth k (table_rows xs (f_rows f)) []) j - at_ means j)) 0 (length xs) == distance2 xs means k).
  { intros k Hk. unfold distance2. apply sumr_ext. intros j Hj. rewrite table_rows_nth by exact Hk. rewrite at_map_row by exact Hj. reflexivity. }
  exists p, w, xs, means, (qdot d w / qsum w), i. split; [exact HP|]. split; [exact HW|]. split; [exact XS|]. split; [exact NX|].
  split. { unfold means. clear - XL WL WP. induction xs as [|x xs IH]; [constructor|]. cbn [map]. constructor; [|apply IH; intros y Hy; apply XL; right; exact Hy]. apply mean_exists; [rewrite WL; apply XL; left; reflexivity|exact WP]. }
  split. { apply mean_exists; [unfold d; rewrite map_length, LP; symmetry; exact WL|exact WP]. }
  split; [rewrite WL; exact N1|]. split.
  - intros j Hj. rewrite WL in Hj. rewrite <- (DE i N1), <- (DE j Hj). exact (N2 j Hj).
  - rewrite Q2R_plus, Q2R_minus. unfold deviance. replace (nth i d 0) with (-(2) * at_ p i); [reflexivity|]. unfold d, at_. rewrite (nth_indep (map (fun q => -(2) * q) p) 0 (-(2) * 0)) by (rewrite map_length, LP; exact N1). rewrite (map_nth (fun q => -(2) * q)). reflexivity.
Qed.
Lemma dic_no_columns nearest c f : sound c f -> has_posterior c f -> data_columns c f = [] -> raw_dic nearest c f = Err ValueError.
Proof.
  intros S HP DC. unfold raw_dic. destruct (log_posterior_spec c f S) as [[_ NP]|[p [-> _]]]; [contradiction|]. rewrite DC. pose proof (so_weight _ _ S) as W. unfold weights, f_has in *. destruct (f_get f (ch_weight c)); [|discriminate]. reflexivity.
Qed.
Lemma bic_err c f e : sound c f -> raw_bic c f = Err e -> e = NaNResult /\ has_counts c f /\ exists N, ch_ndata c = Some (Fin N) /\ (N == 0)%Q.
Proof.
  intros S. unfold raw_bic. destruct (log_posterior_spec c f S) as [[-> NP]|[p [-> [HP [NE _]]]]]; [discriminate|]. destruct (ch_ndata c) as [x|] eqn:EN; [|discriminate]. destruct (ch_nfree c) as [k|] eqn:EK; [|discriminate].
  destruct (so_ndata _ _ S x EN) as [N [-> NN]]. destruct (Qle_bool N 0) eqn:EQ.
  - intros H. injection H as <-. split; [reflexivity|]. split; [split; [eexists; exact HP|rewrite EN, EK; split; discriminate]|]. exists N. split; [reflexivity|]. apply Qle_bool_iff in EQ. lra.
  - destruct (np_max_spec p NE) as [P [-> _]]. discriminate.
Qed.
Lemma bic_zero c f N : sound c f -> has_counts c f -> ch_ndata c = Some (Fin N) -> (N == 0)%Q -> raw_bic c f = Err NaNResult.
Proof.
  intros S [HP [_ HK]] EN E. unfold raw_bic. destruct (log_posterior_spec c f S) as [[_ NP]|[p [-> _]]]; [contradiction|]. rewrite EN. destruct (ch_nfree c); [|contradiction]. assert (Q0 : (N <= 0)%Q) by lra. apply Qle_bool_iff in Q0. rewrite Q0. reflexivity.
Qed.
Lemma scores_ok_inv raw w d n c f : world_ok w -> scores raw w = Ok d -> registered w n c f -> exists o, raw c f = Ok o.
Proof.
  intros [ND _] H [l [HI [HC ->]]]. unfold scores in H. destruct (score_loop raw (fst w) (k_chains (snd w))) as [s|] eqn:E; [|discriminate]. exact (proj2 (proj2 (score_loop_spec _ _ _ _ E ND)) n l c HI HC).
Qed.
Lemma scores_err raw w e : world_ok w -> scores raw w = Err e -> exists n c f, registered w n c f /\ raw c f = Err e.
Proof.
  intros [ND HW] H. unfold scores in H. destruct (score_loop raw (fst w) (k_chains (snd w))) as [s|e'] eqn:E; [discriminate|]. injection H as ->.
  destruct (score_loop_err _ _ _ _ E) as [n [l [c [HI [HC HR]]]]]; [intros n l HI; destruct (HW n l HI) as [c [HC _]]; eauto|]. exists n, c, (frame_at (fst w) (ch_samples c)). split; [exists l; auto|exact HR].
Qed.
(** A chain without a score does not matter. *)
Lemma score_loop_app raw h : forall d n l c, chain_at h l = Some c -> raw c (frame_at h (ch_samples c)) = Ok None -> score_loop raw h (d ++ [(n, l)]) = score_loop raw h d.
Proof.
  intros d n l c HC HR. induction d as [|[m k] d IH]; cbn [app score_loop]; [rewrite HC, HR; reflexivity|]. rewrite IH. reflexivity.
Qed.
Lemma scores_add raw w l c w' : chain_at (fst w) l = Some c -> raw c (frame_at (fst w) (ch_samples c)) = Ok None -> add_chain w l = (w', Ok tt) -> scores raw w' = scores raw w.
Proof.
  destruct w as [h k]. cbn [fst]. intros HC HR H. unfold add_chain in H. rewrite HC in H. destruct (dmem (ch_name c) (k_chains k)) eqn:EM; [discriminate|]. injection H as <-. unfold scores. cbn [fst snd k_chains].
  assert (ED : dset (ch_name c) l (k_chains k) = k_chains k ++ [(ch_name c, l)]).
  { clear - EM. unfold dmem in EM. induction (k_chains k) as [|[n v] d IH]; [reflexivity|]. cbn in *. destruct (String.eqb (ch_name c) n); [discriminate|]. rewrite IH by exact EM. reflexivity. }
  rewrite ED, (score_loop_app raw h _ _ _ c HC HR). reflexivity.
Qed.

(** ** Texts *)
Lemma round_even_R_near x : (Rabs (IZR (round_even_R x) - x) <= / 2)%R.
Proof.
  unfold round_even_R. destruct (archimed x) as [A1 A2]. set (f := (up x - 1)%Z). assert (F : IZR f = (IZR (up x) - 1)%R) by (unfold f; rewrite minus_IZR; reflexivity).
  destruct (total_order_T (x - IZR f) (/ 2)) as [[H|H]|H].
  - apply Rabs_le. Lra.lra.
  - destruct (Z.even f); [|rewrite plus_IZR]; apply Rabs_le; Lra.lra.
  - rewrite plus_IZR. apply Rabs_le. Lra.lra.
Qed.
Lemma round_even_R_nonneg x : (0 <= x)%R -> (0 <= round_even_R x)%Z.
Proof.
  intros H. unfold round_even_R. destruct (archimed x) as [A1 A2]. assert (F : (0 <= up x - 1)%Z) by (assert (0 < up x)%Z by (apply lt_IZR; Lra.lra); lia).
  destruct (total_order_T _ _) as [[K|K]|K]; [exact F|destruct (Z.even _); lia|lia].
Qed.
Lemma fixed_R_shows d x : shows_R (fixed_R d x) d x.
Proof.
  unfold shows_R, fixed_R. fold (pow10 d). set (P := IZR (pow10 d)). assert (PP : (0 < P)%R) by (unfold P; apply (IZR_lt 0); apply pow10_pos). set (p := (Rabs x * P)%R).
  assert (P0 : (0 <= p)%R) by (unfold p; pose proof (Rabs_pos x); Lra.nra). pose proof (round_even_R_near p) as N. pose proof (render_read (if Rlt_dec x 0 then true else false) d _ (round_even_R_nonneg p P0)) as R.
  eexists. split; [exact R|]. set (z := round_even_R p) in *.
  assert (V : Q2R (inject_Z z / inject_Z (pow10 d)) = (IZR z / P)%R). { rewrite Q2R_div, !Q2R_inj; [reflexivity|]. change 0%Q with (inject_Z 0). rewrite inject_Z_injective. pose proof (pow10_pos d). lia. }
  replace (Rabs (Q2R _ - x) * P)%R with (Rabs (IZR z - p)); [Lra.lra|]. assert (RM : forall y, (Rabs y * P = Rabs (y * P))%R) by (intros y; rewrite Rabs_mult, (Rabs_pos_eq P) by Lra.lra; reflexivity). rewrite RM. destruct (Rlt_dec x 0) as [L|L].
  - rewrite Q2R_opp, V. unfold p. rewrite (Rabs_left x) by exact L. rewrite <- Rabs_Ropp. f_equal. field. Lra.lra.
  - rewrite V. unfold p. rewrite (Rabs_pos_eq x) by Lra.lra. f_equal. field. Lra.lra.
Qed.
Lemma spaces_len n : String.length (spaces n) = n.
Proof.
  unfold spaces. induction n as [|n IH]; [reflexivity|]. cbn [repeat]. destruct n as [|n]; [reflexivity|]. change (String.concat "" (" " :: repeat " " (S n))) with (" " ++ ("" ++ String.concat "" (repeat " " (S n))))%string. rewrite !sapp_len, IH. reflexivity.
Qed.
Lemma rjust_padded n s : padded n s (rjust n s).
Proof. exists (n - String.length s)%nat. split; [reflexivity|]. unfold rjust. rewrite sapp_len, spaces_len. lia. Qed.
Lemma score_text_ok o : cell_shows o (score_text o).
Proof. destruct o as [x|]; cbn [cell_shows score_text]; [|apply rjust_padded]. eexists. split; [apply fixed_R_shows|apply rjust_padded]. Qed.

(** ** Sorting *)
Lemma map_nth_seq {A} (l : list A) d : map (fun i => nth i l d) (seq 0 (length l)) = l.
Proof.
  induction l as [|x l IH]; [reflexivity|]. cbn [length seq map nth]. f_equal. rewrite <- seq_shift, map_map. exact IH.
Qed.
Definition pairs_ok {A} (R : A -> A -> Prop) (l : list A) : Prop := ForallOrdPairs R l.
Lemma fop_app {A} (R : A -> A -> Prop) l m : ForallOrdPairs R l -> ForallOrdPairs R m -> (forall x y, In x l -> In y m -> R x y) -> ForallOrdPairs R (l ++ m).
Proof.
  induction 1 as [|x l H1 H2 IH]; intros M C; [exact M|]. cbn. constructor; [|apply IH; [exact M|intros; apply C; [right|]; assumption]]. apply Forall_app. split; [exact H1|]. apply Forall_forall. intros y Hy. apply C; [left; reflexivity|exact Hy].
Qed.
Lemma fop_rev {A} (R : A -> A -> Prop) l : ForallOrdPairs R l -> ForallOrdPairs (fun x y => R y x) (rev l).
Proof.
  induction 1 as [|x l H1 H2 IH]; [constructor|]. cbn. apply fop_app; [exact IH|repeat constructor|]. intros y z Hy [<-|[]]. apply in_rev in Hy. rewrite Forall_forall in H1. exact (H1 y Hy).
Qed.
Lemma fop_map {A B} (g : A -> B) (R : B -> B -> Prop) l : ForallOrdPairs (fun x y => R (g x) (g y)) l -> ForallOrdPairs R (map g l).
Proof. induction 1 as [|x l H1 H2 IH]; [constructor|]. cbn. constructor; [|exact IH]. apply Forall_map. exact H1. Qed.
Lemma fop_impl {A} (R S : A -> A -> Prop) l : (forall x y, In x l -> In y l -> R x y -> S x y) -> ForallOrdPairs R l -> ForallOrdPairs S l.
Proof.
  intros I H. induction H as [|x l H1 H2 IH]; [constructor|]. constructor; [|apply IH; intros a b Ha Hb; apply I; right; assumption]. rewrite Forall_forall in *. intros y Hy. apply I; [left; reflexivity|right; exact Hy|exact (H1 y Hy)].
Qed.
Lemma fop_nth {A} (R : A -> A -> Prop) (d : A) l : (forall i j, (i < j)%nat -> (j < length l)%nat -> R (nth i l d) (nth j l d)) <-> ForallOrdPairs R l.
Proof.
  split.
  - induction l as [|x l IH]; intros H; [constructor|]. constructor.
    + apply Forall_forall. intros y Hy. destruct (In_nth l y d Hy) as [j [Hj <-]]. apply (H 0%nat (S j)); cbn; lia.
    + apply IH. intros i j Hi Hj. apply (H (S i) (S j)); cbn; lia.
  - induction 1 as [|x l H1 H2 IH]; intros i j Hi Hj; [cbn in Hj; lia|]. destruct j as [|j]; [lia|]. cbn in Hj. destruct i as [|i]; cbn [nth].
    + rewrite Forall_forall in H1. apply H1. apply nth_In. lia.
    + apply IH; lia.
Qed.
Section nargs.
Variable argsort : list R -> list nat.
Hypothesis AS : argsort_ok argsort.
Variable vals : list (option R).
Let idx := combine vals (seq 0 (length vals)).
Let present := flat_map (fun p : option R * nat => match fst p with Some x => [(x, snd p)] | None => [] end) idx.
Let missing := flat_map (fun p : option R * nat => match fst p with Some _ => [] | None => [snd p] end) idx.
Lemma idx_in o i : In (o, i) idx -> (i < length vals)%nat /\ nth i vals None = o.
Proof.
  unfold idx. intros H. apply (In_nth _ _ (None, 0%nat)) in H. destruct H as [k [Hk E]]. rewrite combine_length, seq_length, Nat.min_id in Hk. rewrite combine_nth in E by (rewrite seq_length; reflexivity). rewrite seq_nth in E by exact Hk. cbn in E. injection E as <- <-. auto.
Qed.
Lemma split_perm : Permutation (map snd present ++ missing) (seq 0 (length vals)).
Proof.
  assert (E : seq 0 (length vals) = map snd idx).
  { unfold idx. generalize 0%nat. clear. induction vals as [|v l IH]; intros k; [reflexivity|]. cbn. rewrite <- IH. reflexivity. }
  rewrite E. unfold present, missing. clear. induction idx as [|[[x|] i] l IH]; [reflexivity| |]; cbn [flat_map fst snd app map].
  - apply perm_skip. exact IH.
  - rewrite <- IH. symmetry. apply Permutation_middle.
Qed.
Lemma present_in x i : In (x, i) present -> nth i vals None = Some x.
Proof.
  unfold present. intros H. apply in_flat_map in H. destruct H as [[o k] [H1 H2]]. cbn in H2. destruct o as [y|]; [|destruct H2]. destruct H2 as [H2|[]]. injection H2 as <- <-. apply (idx_in (Some y) k H1).
Qed.
Lemma missing_in i : In i missing -> nth i vals None = None.
Proof.
  unfold missing. intros H. apply in_flat_map in H. destruct H as [[o k] [H1 H2]]. cbn in H2. destruct o as [y|]; [destruct H2|]. destruct H2 as [<-|[]]. apply (idx_in None k H1).
Qed.
Lemma nargsort_spec desc : Permutation (nargsort argsort desc vals) (seq 0 (length vals)) /\
  ForallOrdPairs (fun i j => in_order desc (nth i vals None) (nth j vals None)) (nargsort argsort desc vals).
Proof.
  unfold nargsort. fold idx. fold present. fold missing. set (items := if desc then rev present else present). destruct (AS (map fst items)) as [P1 P2]. rewrite map_length in P1, P2.
  set (sorted := map (fun i => nth i (map snd items) 0%nat) (argsort (map fst items))).
  assert (PS : Permutation sorted (map snd items)).
  { unfold sorted. rewrite P1. rewrite <- (map_length snd items). rewrite map_nth_seq. reflexivity. }
  assert (PI : Permutation (map snd items) (map snd present)) by (unfold items; destruct desc; [rewrite map_rev; symmetry; apply Permutation_rev|reflexivity]).
  set (out := if desc then rev sorted else sorted). assert (PO : Permutation out (map snd present)) by (unfold out; rewrite <- PI, <- PS; destruct desc; [symmetry; apply Permutation_rev|reflexivity]).
  assert (LA : length (argsort (map fst items)) = length items) by (rewrite P1, seq_length; reflexivity).
  assert (AB : forall k, (k < length items)%nat -> (nth k (argsort (map fst items)) 0 < length items)%nat) by (intros k Hk; assert (HI : In (nth k (argsort (map fst items)) 0%nat) (seq 0 (length items))) by (apply (Permutation_in _ P1); apply nth_In; rewrite LA; exact Hk); apply in_seq in HI; lia).
  assert (IT : forall m, (m < length items)%nat -> nth (nth m (map snd items) 0%nat) vals None = Some (nth m (map fst items) 0%R)).
  { intros m Hm. assert (HI : In (nth m items (0%R, 0%nat)) present) by (apply (Permutation_in (l := items)); [unfold items; destruct desc; [symmetry; apply Permutation_rev|reflexivity]|apply nth_In; exact Hm]).
    change 0%nat with (snd (0%R, 0%nat)) at 1. change 0%R with (fst (0%R, 0%nat)) at 2. rewrite !map_nth. destruct (nth m items (0%R, 0%nat)) as [x i]. exact (present_in x i HI). }
  assert (SN : forall k, (k < length items)%nat -> nth k sorted 0%nat = nth (nth k (argsort (map fst items)) 0%nat) (map snd items) 0%nat).
  { intros k Hk. unfold sorted. rewrite (nth_indep _ 0%nat (nth 0 (map snd items) 0%nat)) by (rewrite map_length, LA; exact Hk). rewrite (map_nth (fun i => nth i (map snd items) 0%nat)). reflexivity. }
  assert (UP : ForallOrdPairs (fun i j => in_order false (nth i vals None) (nth j vals None)) sorted).
  { apply (fop_nth _ 0%nat). assert (LS : length sorted = length items) by (unfold sorted; rewrite map_length; exact LA). rewrite LS. intros i j Hi Hj. rewrite !SN by lia. rewrite !IT by (apply AB; lia). cbn [in_order]. apply P2; [exact Hi|lia]. }
  split; [rewrite PO; exact split_perm|]. apply fop_app.
  - unfold out. destruct desc; [|exact UP]. apply fop_rev in UP. eapply fop_impl; [|exact UP]. intros i j Hi _. cbn. destruct (nth i vals None) eqn:EI; [destruct (nth j vals None); cbn; tauto|]. exfalso. apply in_rev in Hi. apply (Permutation_in _ PS), (Permutation_in _ PI), in_map_iff in Hi.
    destruct Hi as [[x k] [<- Hi]]. cbn [snd] in EI. pose proof (present_in x k Hi). congruence.
  - apply (fop_nth _ 0%nat). intros i j Hi Hj. rewrite !(missing_in (nth _ missing _)) by (apply nth_In; lia). exact I.
  - intros x y _ Hy. rewrite (missing_in y Hy). destruct (nth x vals None); exact I.
Qed.
End nargs.

Lemma fold_add_new ks : forall acc, NoDup acc -> NoDup (fold_left add_new ks acc) /\ (forall x, In x (fold_left add_new ks acc) <-> In x acc \/ In x ks).
Proof.
  induction ks as [|k ks IH]; intros acc ND; cbn [fold_left]; [split; [exact ND|intros x; cbn; tauto]|].
  assert (N1 : NoDup (add_new acc k)). { unfold add_new. destruct (smem k acc) eqn:E; [exact ND|]. apply (Permutation_NoDup (l := k :: acc)); [apply Permutation_cons_append|]. constructor; [|exact ND]. rewrite <- smem_In, E. discriminate. }
  destruct (IH _ N1) as [I1 I2]. split; [exact I1|]. intros x. rewrite I2. unfold add_new. destruct (smem k acc) eqn:E; cbn [In].
  - apply smem_In in E. split; [intros [K|K]; auto|intros [K|[<-|K]]; auto].
  - rewrite in_app_iff. cbn [In]. tauto.
Qed.
Lemma union_keys_spec ds : NoDup (union_keys ds) /\ forall x, In x (union_keys ds) <-> exists d, In d ds /\ In x (dkeys d).
Proof.
  unfold union_keys. assert (G : forall acc, NoDup acc -> NoDup (fold_left (fun ks (d : dict R) => fold_left add_new (dkeys d) ks) ds acc) /\ forall x, In x (fold_left (fun ks (d : dict R) => fold_left add_new (dkeys d) ks) ds acc) <-> In x acc \/ exists d, In d ds /\ In x (dkeys d)).
  { induction ds as [|d ds IH]; intros acc ND; cbn [fold_left]; [split; [exact ND|]; intros x; split; [auto|intros [H|[d [[] _]]]; exact H]|].
    destruct (fold_add_new (dkeys d) acc ND) as [F1 F2]. destruct (IH _ F1) as [I1 I2]. split; [exact I1|]. intros x. rewrite I2, F2. split.
    - intros [[H|H]|[e [H1 H2]]]; [left; exact H|right; exists d; split; [left; reflexivity|exact H]|right; exists e; split; [right; exact H1|exact H2]].
    - intros [H|[e [[<-|H1] H2]]]; [auto|left; right; exact H2|right; exists e; auto]. }
  destruct (G [] (NoDup_nil _)) as [G1 G2]. split; [exact G1|]. intros x. rewrite G2. cbn. tauto.
Qed.
(** The rows of the table in the order shown. *)
Lemma order_spec argsort desc ds by_ : argsort_ok argsort -> let index := union_keys ds in
  let order := map (fun i => nth i index "") (nargsort argsort desc (map (fun n => dget n by_) index)) in
  NoDup order /\ (forall n, In n order <-> exists d, In d ds /\ dget n d <> None) /\
  (forall i j, (i < j)%nat -> (j < length order)%nat -> in_order desc (dget (nth i order "") by_) (dget (nth j order "") by_)).
Proof.
  intros AS index order. destruct (union_keys_spec ds) as [U1 U2]. fold index in U1, U2. destruct (nargsort_spec argsort AS (map (fun n => dget n by_) index) desc) as [S1 S2]. rewrite map_length in S1.
  assert (P : Permutation order index) by (unfold order; rewrite S1, map_nth_seq; reflexivity).
  split; [apply (Permutation_NoDup (l := index)); [symmetry; exact P|exact U1]|]. split.
  - intros n. split.
    + intros H. apply (Permutation_in _ P) in H. apply U2 in H. destruct H as [d [H1 H2]]. exists d. split; [exact H1|]. apply dget_Some_mem in H2. destruct H2 as [v ->]. discriminate.
    + intros [d [H1 H2]]. apply (Permutation_in n (Permutation_sym P)). apply U2. exists d. split; [exact H1|]. apply dget_Some_mem. destruct (dget n d) as [v|]; [eauto|contradiction].
  - apply (fop_nth (fun a b => in_order desc (dget a by_) (dget b by_)) ""). unfold order. apply fop_map. eapply fop_impl; [|exact S2]. intros x y Hx Hy.
    assert (B : forall z, In z (nargsort argsort desc (map (fun n => dget n by_) index)) -> nth z (map (fun n => dget n by_) index) None = dget (nth z index "") by_).
    { intros z Hz. apply (Permutation_in _ S1) in Hz. apply in_seq in Hz. rewrite (nth_indep _ None (dget "" by_)) by (rewrite map_length; lia). apply (map_nth (fun n => dget n by_)). }
    cbv beta. rewrite (B x Hx), (B y Hy). auto.
Qed.
