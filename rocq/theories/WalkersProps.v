(** C101: the walkers of a sampler can be looked at one by one. *)
From Coq Require Import String List Bool Arith ZArith QArith Reals Qreals Lia.
From Verif Require Import Py NumModel FrameModel FrameFacts ConfigModel ChainModel RegistryModel RegistrySpec HeapFacts RegistryProps ChainSpec ChainProofs ChainUseProofs ChainProps CovModel DiagModel DiagSpec DiagProofs DiagProps SurfaceModel WalkersModel WalkersSpec WalkersProofs.
Import ListNotations.
Open Scope string_scope.
Open Scope list_scope.

(** ** numpyro *)
(** With as many walkers as the sampler had chains, divide() gives the sampler's chains, each with its own draws in order. *)
Theorem C101_numpyro : forall rgb2hex h s n m vn a h1 l c h2, NoDup (map fst s) -> scalars_of n m s -> import_numpyro rgb2hex h s vn a = (h1, Ok l) -> chain_at h1 l = Some c -> untouched h1 h2 ->
  a_walkers a = Some (Z.of_nat n) -> (1 < n)%nat -> a_cfg a Fshift_params <> Some true -> a_grid a <> Some true ->
  exists h3 cs, divides rgb2hex h2 c h3 cs /\ length cs = n /\
    forall k c' v chains draws, nth_error cs k = Some c' -> In (v, chains) s -> asked_variable vn (map fst s) v -> nth_error chains k = Some draws ->
      column (frame_at h3 (ch_samples c')) v (concat draws).
Proof.
  intros rgb h s n m vn a h1 l c h2 ND S H HC U HW N1 HS HG. destruct (chain_from_new _ _ _ _ _ _ H) as [f [h0 [EF [NC EH]]]].
  assert (FK : exists kept, filter_var_names vn (map fst s) = Ok kept). { unfold numpyro_frame in EF. rewrite ravelled_names in EF. destruct (filter_var_names vn (map fst s)) as [kept|]; [exists kept; reflexivity|discriminate]. }
  destruct FK as [kept FK]. pose proof FK as FK'. rewrite <- (ravelled_names s) in FK'. destruct (C17_import vn (ravelled s) kept ltac:(rewrite ravelled_names; exact ND) FK') as [I _].
  assert (W : frame_wf (frame_at h0 (length (h_frames h)))) by (rewrite EH; apply (I EmptyString f EF)).
  change (length (h_frames h)) with (a_samples (with_frame a (length (h_frames h)))) in W at 1. destruct (made_from _ _ _ _ _ _ W NC HC) as [M1 [M2 M3]].
  specialize (M1 _ HW). specialize (M2 HS). specialize (M3 HG).
  destruct (divide_slices _ _ _ _ _ _ h2 W NC HC U M2 ltac:(lia) M3) as [h3 [cs [size [D [L [R K]]]]]]. cbn [a_samples with_frame] in R, K. rewrite EH in R, K.
  assert (LC : length cs = n) by lia. exists h3, cs. split; [exact D|]. split; [exact LC|].
  intros k c' v chains draws Hk Hv [kept' [FK2 Kv]] Hd. rewrite FK in FK2. injection FK2 as <-.
  assert (IN : In (v, concat (concat chains)) (ravelled s)) by (unfold ravelled; apply in_map_iff; exists (v, chains); auto).
  destruct (I v f EF) as [_ [_ [WF [_ IC]]]]. specialize (IC _ IN Kv). destruct (scalars_ravel n m s v chains S Hv) as [SL SS].
  assert (Q : length (f_index f) = (n * m)%nat). { rewrite <- SL. rewrite <- (map_length Fin). symmetry. apply (proj2 WF _ _ IC). }
  assert (size = m) by (rewrite LC in R; rewrite Q in R; nia). subst size. rewrite <- (SS k draws Hd). apply (K k c' v _ Hk IC).
Qed.
Print Assumptions C101_numpyro.

(** ** arviz *)
Theorem C101_arviz : forall rgb2hex h p vn a h1 l c h2, NoDup (map fst (p_vars p)) -> posterior_ok p -> import_arviz rgb2hex h p vn a = (h1, Ok l) -> chain_at h1 l = Some c -> untouched h1 h2 ->
  a_walkers a = Some (Z.of_nat (p_chains p)) -> (1 < p_chains p)%nat -> a_cfg a Fshift_params <> Some true -> a_grid a <> Some true ->
  exists h3 cs, divides rgb2hex h2 c h3 cs /\ length cs = p_chains p /\
    forall k c' v chains draws, nth_error cs k = Some c' -> In (v, chains) (p_vars p) -> asked_variable vn (map fst (p_vars p)) v -> nth_error chains k = Some draws ->
      column (frame_at h3 (ch_samples c')) v draws.
Proof.
  intros rgb h p vn a h1 l c h2 ND S H HC U HW N1 HS HG. destruct (chain_from_new _ _ _ _ _ _ H) as [f [h0 [EF [NC EH]]]].
  assert (FK : exists kept, filter_var_names vn (map fst (p_vars p)) = Ok kept). { unfold arviz_frame in EF. destruct (filter_var_names vn (map fst (p_vars p))) as [kept|]; [exists kept; reflexivity|discriminate]. }
  destruct FK as [kept FK]. destruct (arviz_wf vn p kept ND S FK) as [f' [EF' [WF [LI IC]]]]. rewrite EF in EF'. injection EF' as <-.
  assert (W : frame_wf (frame_at h0 (length (h_frames h)))) by (rewrite EH; exact WF).
  change (length (h_frames h)) with (a_samples (with_frame a (length (h_frames h)))) in W at 1. destruct (made_from _ _ _ _ _ _ W NC HC) as [M1 [M2 M3]].
  specialize (M1 _ HW). specialize (M2 HS). specialize (M3 HG).
  destruct (divide_slices _ _ _ _ _ _ h2 W NC HC U M2 ltac:(lia) M3) as [h3 [cs [size [D [L [R K]]]]]]. cbn [a_samples with_frame] in R, K. rewrite EH in R, K.
  assert (LC : length cs = p_chains p) by lia. exists h3, cs. split; [exact D|]. split; [exact LC|].
  intros k c' v chains draws Hk Hv [kept' [FK2 Kv]] Hd. rewrite FK in FK2. injection FK2 as <-.
  specialize (IC _ _ Hv Kv). assert (size = p_draws p) by (rewrite LC in R; rewrite LI in R; nia). subst size.
  destruct (S v chains Hv) as [S1 S2]. pose proof (K k c' v _ Hk IC) as KK. rewrite (slice_concat _ _ _ S2) in KK by (apply nth_error_Some; congruence).
  rewrite (nth_error_nth _ _ [] Hd) in KK. exact KK.
Qed.
Print Assumptions C101_arviz.

(** ** emcee *)
(** What is imported: every kept position of every walker once, step after step. *)
Lemma emcee_columns rgb h s W D columns thin discard a h1 l T : ensemble_of W D s -> (1 <= thin)%nat -> kept_steps thin discard (length s) T -> NoDup columns -> length columns = D -> columns <> [] ->
  import_emcee rgb h s D columns thin discard a = (h1, Ok l) ->
  exists h0 b, new_chain rgb h0 b = (h1, Ok l) /\ frame_wf (frame_at h0 (a_samples b)) /\ length (f_index (frame_at h0 (a_samples b))) = (T * W)%nat /\
    a_cfg b = a_cfg a /\ a_walkers b = a_walkers a /\ a_grid b = a_grid a /\
    forall d n, nth_error columns d = Some n -> column (frame_at h0 (a_samples b)) n (map (fun r => nth d r 0%Q) (get_flat_chain thin discard s)).
Proof.
  intros E HT K ND LC NE H. unfold import_emcee in H. destruct (Nat.eqb_spec thin 0) as [Z|_]; [lia|].
  destruct (C18_columns rgb h columns (dimensions D (get_flat_chain thin discard s)) (length (get_flat_chain thin discard s)) a ND) as [f [F1 [F2 [F3 [F4 [F5 [h0 [lf [b [B1 [B2 [B3 [B4 [B5 [B6 [B7 [B8 [B9 [B10 B11]]]]]]]]]]]]]]]]]]].
  - unfold dimensions. rewrite map_length, seq_length. exact LC.
  - exact NE.
  - intros v Hv. unfold dimensions in Hv. apply in_map_iff in Hv as [d [<- _]]. apply map_length.
  - rewrite B1 in H. exists h0, b. split; [exact H|]. rewrite B4, B3. split; [exact F1|]. split; [rewrite F3; apply (flat_length thin discard s W D T E HT K)|].
    split; [exact B5|]. split; [exact B9|]. split; [exact B10|]. intros d n Hn.
    assert (Hd : (d < D)%nat) by (rewrite <- LC; apply nth_error_Some; congruence).
    apply (nth_error_In _ d). apply (F5 d n _ Hn). apply dimensions_nth. exact Hd.
Qed.
(** One row for every kept step of every walker.  With the sampler's number of walkers, divide() cuts this list into equal
    parts: row i of the k-th part is not step i of walker k, but the walker and the step found by counting k * T + i positions
    through the steps. *)
Theorem C101_emcee_partial : forall rgb2hex h s W D columns thin discard a h1 l c h2 T, ensemble_of W D s -> (1 <= thin)%nat -> kept_steps thin discard (length s) T -> NoDup columns -> length columns = D -> columns <> [] ->
  import_emcee rgb2hex h s D columns thin discard a = (h1, Ok l) -> chain_at h1 l = Some c -> untouched h1 h2 -> a_cfg a Fshift_params <> Some true ->
  (length (f_index (frame_at h1 (ch_samples c))) = (T * W)%nat /\
   forall d n, nth_error columns d = Some n -> exists v, column (frame_at h1 (ch_samples c)) n v /\ length v = (T * W)%nat /\
     forall i w, (i < T)%nat -> (w < W)%nat -> nth_error v (i * W + w) = coordinate s (kept_step thin discard i) w d) /\
  (a_walkers a = Some (Z.of_nat W) -> (1 < W)%nat -> a_grid a <> Some true ->
   exists h3 cs, divides rgb2hex h2 c h3 cs /\ length cs = W /\
     forall k c' d n, nth_error cs k = Some c' -> nth_error columns d = Some n -> exists v, column (frame_at h3 (ch_samples c')) n v /\ length v = T /\
       forall i, (i < T)%nat -> nth_error v i = coordinate s (kept_step thin discard ((k * T + i) / W)) ((k * T + i) mod W) d).
Proof.
  intros rgb h s W D columns thin discard a h1 l c h2 T E HT K ND LC NE H HC U HS.
  destruct (emcee_columns _ _ _ _ _ _ _ _ _ _ _ _ E HT K ND LC NE H) as [h0 [b [NC [WF [LI [B1 [B2 [B3 BC]]]]]]]]. rewrite <- B1 in HS.
  destruct (made_from _ _ _ _ _ _ WF NC HC) as [M1 [M2 M3]]. specialize (M2 HS). destruct (chain_keeps _ _ _ _ _ _ WF NC HC M2) as [KI KC]. pose proof (flat_length thin discard s W D T E HT K) as FL.
  split.
  - split; [rewrite KI; exact LI|]. intros d n Hn. eexists. split; [apply KC, BC, Hn|]. split; [rewrite map_length; exact FL|]. intros i w Hi Hw.
    apply (flat_at thin discard s W D T d i w E HT K); [rewrite <- LC; apply nth_error_Some; congruence|exact Hi|exact Hw].
  - intros HW N1 HG. rewrite <- B2 in HW. rewrite <- B3 in HG. specialize (M1 _ HW). specialize (M3 HG).
    destruct (divide_slices _ _ _ _ _ _ h2 WF NC HC U M2 ltac:(lia) M3) as [h3 [cs [size [DV [L [R DK]]]]]]. assert (CL : length cs = W) by lia.
    assert (size = T) by (rewrite LI, CL in R; nia). subst size. exists h3, cs. split; [exact DV|]. split; [exact CL|].
    intros k c' d n Hk Hn. assert (KW : (k < W)%nat) by (rewrite <- CL; apply nth_error_Some; congruence). assert (Hd : (d < D)%nat) by (rewrite <- LC; apply nth_error_Some; congruence).
    eexists. split; [apply (DK k c' n _ Hk (BC d n Hn))|]. split.
    + unfold slice. rewrite firstn_length, skipn_length, map_length, FL. nia.
    + intros i Hi. rewrite nth_slice by exact Hi. rewrite (Nat.div_mod (k * T + i) W) at 1 by lia. rewrite (Nat.mul_comm W).
      apply (flat_at thin discard s W D T d _ _ E HT K Hd); [apply Nat.div_lt_upper_bound; nia|apply Nat.mod_upper_bound; lia].
Qed.
Print Assumptions C101_emcee_partial.

(** ** Examples *)
Definition ex101_args (z : Z) : cargs :=
  {| a_cfg := no_kw; a_samples := 0; a_name := "E"; a_weight := None; a_post := None; a_walkers := Some z; a_grid := None;
     a_nfree := None; a_ndata := None; a_power := None; a_showlabel := None; a_relheight := None |}.
(** Two walkers that never meet: one stays near 0, the other near 10; 13 steps, the first discarded. *)
Definition ex101_ensemble : ensemble := map (fun i => [[(i mod 2) # 1]; [10 + ((i mod 2) # 1)]]%Q) (map Z.of_nat (seq 0 13)).
Definition ex101_chain (h : heap) (l : nat) : chain := match chain_at h l with Some c => c | None => build None (ex_args "" no_kw) 0 end.
Definition ex101_emcee := import_emcee ex_rgb ex_heap ex101_ensemble 1 ["p"] 1 1 (ex101_args 2).
(** The same walkers as chains of another sampler. *)
Definition ex101_walker (w : nat) : list Q := map (fun i => (10 * nq w + ((i mod 2) # 1))%Q) (map Z.of_nat (seq 1 12)).
Definition ex101_mcmc : mcmc := [("p", map (fun w => map (fun q => [q]) (ex101_walker w)) [0; 1]%nat); ("q", map (fun w => map (fun q => [q]) (ex101_walker w)) [1; 0]%nat)].
Definition ex101_posterior : posterior := {| p_chains := 2; p_draws := 12; p_vars := [("p", map ex101_walker [0; 1]%nat); ("q", map ex101_walker [1; 0]%nat)] |}.
Definition ex101_numpyro := import_numpyro ex_rgb ex_heap ex101_mcmc (Some ["p"]) (ex101_args 2).
Definition ex101_arviz := import_arviz ex_rgb ex_heap ex101_posterior (Some ["~q"]) (ex101_args 2).
Lemma ex101_kept : kept_steps 1 1 (length ex101_ensemble) 12.
Proof. intros i. unfold kept_step. change (length ex101_ensemble) with 13%nat. lia. Qed.
Lemma ex101_shape : ensemble_of 2 1 ex101_ensemble.
Proof. intros step H. unfold ex101_ensemble in H. apply in_map_iff in H as [z [<- _]]. split; [reflexivity|]. intros p [<-|[<-|[]]]; reflexivity. Qed.
Example C101_nonvacuous :
  (NoDup (map fst ex101_mcmc) /\ scalars_of 2 12 ex101_mcmc /\ snd ex101_numpyro = Ok 0%nat /\ asked_variable (Some ["p"]) (map fst ex101_mcmc) "p") /\
  (NoDup (map fst (p_vars ex101_posterior)) /\ posterior_ok ex101_posterior /\ snd ex101_arviz = Ok 0%nat /\ asked_variable (Some ["~q"]) (map fst (p_vars ex101_posterior)) "p") /\
  (ensemble_of 2 1 ex101_ensemble /\ kept_steps 1 1 (length ex101_ensemble) 12 /\ snd ex101_emcee = Ok 0%nat) /\
  kept_steps 3 4 20 5 /\ kept_step 3 4 0 = 6%nat.
Proof.
  assert (ND : NoDup ["p"; "q"]) by (constructor; [intros [H|[]]; discriminate|constructor; [intros []|constructor]]).
  split; [|split; [|split; [|split]]].
  - split; [exact ND|]. split; [|split; [vm_compute; reflexivity|exists ["p"]; split; [reflexivity|left; reflexivity]]].
    intros v chains [H|[H|[]]]; apply pair_equal_spec in H as [<- <-]; (split; [reflexivity|]); intros draws H; apply in_map_iff in H as [w [<- _]]; (split; [reflexivity|]); intros x H; apply in_map_iff in H as [q [<- _]]; exists q; reflexivity.
  - split; [exact ND|]. split; [|split; [vm_compute; reflexivity|exists ["p"]; split; [reflexivity|left; reflexivity]]].
    intros v chains [H|[H|[]]]; apply pair_equal_spec in H as [<- <-]; (split; [reflexivity|]); intros draws H; apply in_map_iff in H as [w [<- _]]; reflexivity.
  - split; [exact ex101_shape|]. split; [exact ex101_kept|]. vm_compute. reflexivity.
  - intros i. unfold kept_step. lia.
  - reflexivity.
Qed.

(** An ensemble imported with its number of walkers: divide() does not give the walkers. *)
Theorem C101_emcee_refuted : exists s W D columns thin discard a h1 l c T, ensemble_of W D s /\ kept_steps thin discard (length s) T /\ a_walkers a = Some (Z.of_nat W) /\
  import_emcee ex_rgb ex_heap s D columns thin discard a = (h1, Ok l) /\ chain_at h1 l = Some c /\
  forall h3 cs, divides ex_rgb h1 c h3 cs -> exists k c' d n, nth_error cs k = Some c' /\ nth_error columns d = Some n /\
    forall v, column (frame_at h3 (ch_samples c')) n v -> ~ (forall i, (i < T)%nat -> nth_error v i = coordinate s (kept_step thin discard i) k d).
Proof.
  exists ex101_ensemble, 2%nat, 1%nat, ["p"], 1%nat, 1%nat, (ex101_args 2), (fst ex101_emcee), 0%nat, (ex101_chain (fst ex101_emcee) 0), 12%nat.
  split; [exact ex101_shape|]. split; [exact ex101_kept|]. split; [reflexivity|]. split; [vm_compute; reflexivity|]. split; [vm_compute; reflexivity|].
  intros h3 cs [ls [D C]]. assert (ED : divide ex_rgb (fst ex101_emcee) (ex101_chain (fst ex101_emcee) 0) = divide ex_rgb (fst ex101_emcee) (ex101_chain (fst ex101_emcee) 0)) by reflexivity.
  rewrite D in ED at 1. vm_compute in ED. injection ED as -> ->. destruct cs as [|c0 cs]; [discriminate|]. cbn in C. injection C as C0 _.
  exists 0%nat, c0, 0%nat, "p". split; [reflexivity|]. split; [reflexivity|]. intros v Hv F. subst c0. specialize (F 1%nat ltac:(lia)). vm_compute in F.
  unfold column in Hv. cbn in Hv. destruct Hv as [Hv|[Hv|[]]]; [|discriminate Hv]. injection Hv as Hv. destruct v as [|q0 [|q1 v]]; try discriminate Hv. injection Hv as _ Hq _. subst q1. discriminate F.
Qed.
Print Assumptions C101_emcee_refuted.

(** Walkers that never meet are reported as converged when they come from emcee, and as not converged when the same walkers
    come from numpyro. *)
Lemma gr_of h l c xs t : chain_at h l = Some c -> select (frame_at h (ch_samples c)) (data_columns c (frame_at h (ch_samples c))) = Ok xs -> (Z.of_nat (f_rows (frame_at h (ch_samples c))) mod ch_walkers c = 0)%Z -> (1 < ch_walkers c)%Z ->
  exists r, gelman_rubin (h, new_consumer) (DOne (DObject l)) t = Ok r /\
    t_passed r = forallb (fun x => gr_passed t (gr_ratio x (Z.to_nat (ch_walkers c)) (f_rows (frame_at h (ch_samples c)) / Z.to_nat (ch_walkers c)))) xs.
Proof.
  intros HC HX HM HW. unfold gelman_rubin, over_chains. cbn [diag_chains DiagModel.resolve rmap rbind fst]. rewrite HC. unfold gelman_rubin_one. rewrite HX. cbn [rbind]. rewrite HM. cbn [Z.eqb negb].
  apply Z.ltb_lt in HW. rewrite HW. cbn [negb]. eexists. split; reflexivity.
Qed.
Lemma ex101_gr h l (p : bool) x q : match chain_at h l with Some _ => true | None => false end = true ->
  (let c := ex101_chain h l in let f := frame_at h (ch_samples c) in select f (data_columns c f) = Ok [x] /\ ch_walkers c = 2%Z /\ f_rows f = 24%nat) ->
  gr_ratio x 2 12 = Some q -> gr_passed (1 # 20) (Some q) = p ->
  exists r, gelman_rubin (h, new_consumer) (DOne (DObject l)) (1 # 20) = Ok r /\ t_passed r = p.
Proof.
  intros HC [HX [HW HR]] HQ HP. assert (C : chain_at h l = Some (ex101_chain h l)) by (unfold ex101_chain; destruct (chain_at h l); [reflexivity|discriminate]).
  destruct (gr_of h l _ [x] (1 # 20) C HX) as [r [R1 R2]]; [rewrite HR, HW; reflexivity|rewrite HW; reflexivity|]. exists r. split; [exact R1|]. rewrite R2, HR, HW. cbn [forallb].
  change (Z.to_nat 2) with 2%nat. change (24 / 2)%nat with 12%nat. rewrite HQ, HP. apply andb_true_r.
Qed.
Theorem C101_convergence_refuted : exists s m h1 l h1' l' t t',
  import_emcee ex_rgb ex_heap s 1 ["p"] 1 1 (ex101_args 2) = (h1, Ok l) /\ import_numpyro ex_rgb ex_heap m (Some ["p"]) (ex101_args 2) = (h1', Ok l') /\
  (forall chains w draws, In ("p", chains) m -> nth_error chains w = Some draws -> length (concat draws) = 12%nat /\
     forall i x, nth_error (concat draws) i = Some x -> exists y, coordinate s (kept_step 1 1 i) w 0 = Some y /\ (x == y)%Q) /\
  gelman_rubin (h1, new_consumer) (DOne (DObject l)) (1 # 20) = Ok t /\ t_passed t = true /\
  gelman_rubin (h1', new_consumer) (DOne (DObject l')) (1 # 20) = Ok t' /\ t_passed t' = false.
Proof.
  assert (G1 : exists r, gelman_rubin (fst ex101_emcee, new_consumer) (DOne (DObject 0)) (1 # 20) = Ok r /\ t_passed r = true).
  { eapply ex101_gr; [vm_compute; reflexivity|split; [vm_compute; reflexivity|split; vm_compute; reflexivity]|vm_compute; reflexivity|].
    unfold gr_passed. destruct (Rlt_dec _ _) as [_|N]; [reflexivity|]. exfalso. apply N. clear N.
    match goal with |- context [Q2R ?q] => assert (E : (q == 11 # 12)%Q) by (vm_compute; reflexivity); rewrite (Qeq_eqR _ _ E) end. unfold Q2R. cbn.
    set (u := sqrt (11 * / 12)). assert (S2 : (u * u = 11 / 12)%R) by (apply sqrt_sqrt; Lra.lra). assert (S0 : (0 <= u)%R) by apply sqrt_pos. apply Rabs_def1; Lra.nra. }
  assert (G2 : exists r, gelman_rubin (fst ex101_numpyro, new_consumer) (DOne (DObject 0)) (1 # 20) = Ok r /\ t_passed r = false).
  { eapply ex101_gr; [vm_compute; reflexivity|split; [vm_compute; reflexivity|split; vm_compute; reflexivity]|vm_compute; reflexivity|].
    unfold gr_passed. destruct (Rlt_dec _ _) as [K|_]; [|reflexivity]. exfalso.
    match type of K with context [Q2R ?q] => assert (E : (4 < q)%Q) by (vm_compute; reflexivity); apply Qlt_Rlt in E; set (z := Q2R q) in * end. unfold Q2R in E, K. cbn in E, K.
    assert (S2 : (sqrt z * sqrt z = z)%R) by (apply sqrt_sqrt; Lra.lra). assert (S0 : (0 <= sqrt z)%R) by apply sqrt_pos. apply Rabs_def2 in K. destruct K as [K _]. Lra.nra. }
  destruct G1 as [t [T1 T2]], G2 as [t' [T1' T2']].
  exists ex101_ensemble, ex101_mcmc, (fst ex101_emcee), 0%nat, (fst ex101_numpyro), 0%nat, t, t'.
  split; [vm_compute; reflexivity|]. split; [vm_compute; reflexivity|]. split; [|auto].
  intros chains w draws [H|[H|[]]]; [|discriminate H]. apply pair_equal_spec in H as [_ <-]. intros Hw.
  destruct w as [|[|w]]; [| |destruct w; discriminate Hw]; cbn [map nth_error] in Hw; injection Hw as <-; (split; [reflexivity|]); intros i x Hx;
    do 12 (destruct i as [|i]; [cbn [nth_error] in Hx; vm_compute in Hx; injection Hx as <-; eexists; split; vm_compute; reflexivity|]); exfalso; vm_compute in Hx; destruct i; discriminate Hx.
Qed.
Print Assumptions C101_convergence_refuted.
