(** Proofs about comparison scores of counterparts. *)
From Coq Require Import String Ascii List Bool Arith ZArith QArith Lia Reals Qreals Lra Lqa.
From Verif Require Import Py NumSpec NumModel NumFacts FrameModel FrameFacts ConfigModel ChainModel RegistryModel RegistrySpec ChainSpec HeapFacts RegistryProofs ChainProofs
  ChainUseProofs CovModel CovSpec CovProofs DiagProofs SessionProofs CompareModel CompareSpec CompareProofs OffsetSpec.
Import ListNotations.
Open Scope list_scope.

Definition moves (t : R) (r r' : res (option R)) : Prop :=
  match r, r' with
  | Ok (Some v), Ok (Some v') => v' = (v + t)%R
  | Ok None, Ok None => True
  | Err e, Err e' => e = e'
  | _, _ => False
  end.

Lemma qmax_list_raised t : forall l l' d d', Forall2 (fun a b => b == a + t)%Q l l' -> d' == d + t -> qmax_list d' l' == qmax_list d l + t.
Proof.
  induction l as [|x l IH]; intros l' d d' H E; inversion H as [|? y ? r' HXY HR]; subst; cbn [qmax_list]; [exact E|]. apply IH; [exact HR|].
  unfold qmax. destruct (Qle_bool d x) eqn:E1, (Qle_bool d' y) eqn:E2; try assumption.
  - apply Qle_bool_iff in E1. assert (~ d' <= y) by (rewrite <- Qle_bool_iff; congruence). exfalso. apply H0. lra.
  - apply Qle_bool_iff in E2. assert (~ d <= x) by (rewrite <- Qle_bool_iff; congruence). exfalso. apply H0. lra.
Qed.
Lemma np_max_raised t p p' : Forall2 (fun a b => b == a + t)%Q p p' ->
  match np_max p, np_max p' with Ok m, Ok m' => m' == m + t | Err e, Err e' => e = e' | _, _ => False end.
Proof. intros H. inversion H; subst; cbn; [reflexivity|]. apply qmax_list_raised; assumption. Qed.
Lemma posterior_raised t c f c' f' : sound c f -> sound c' f' -> raised t c f c' f' ->
  (log_posterior c f = None /\ log_posterior c' f' = None) \/
  exists p p', log_posterior c f = Some p /\ log_posterior c' f' = Some p' /\ Forall2 (fun a b => b == a + t)%Q p p' /\ length p = f_rows f /\ length p' = f_rows f'.
Proof.
  intros S1 S2 [_ [_ [HP HD]]]. destruct (log_posterior_spec c f S1) as [[E N]|[p [E [C [_ L]]]]], (log_posterior_spec c' f' S2) as [[E' N']|[p' [E' [C' [_ L']]]]].
  - left. auto.
  - exfalso. apply N, HP. eexists. exact C'.
  - exfalso. apply N', HP. eexists. exact C.
  - right. exists p, p'. eauto 10.
Qed.
Lemma aic_moves t c f c' f' : sound c f -> sound c' f' -> raised t c f c' f' -> moves (-2 * Q2R t) (raw_aic c f) (raw_aic c' f').
Proof.
  intros S1 S2 HR. destruct (posterior_raised _ _ _ _ _ S1 S2 HR) as [[E E']|[p [p' [E [E' [F _]]]]]]; unfold raw_aic; rewrite E, E'; [exact I|].
  destruct HR as [-> [-> _]]. destruct (ch_ndata c) as [[n| | |]|]; destruct (ch_nfree c) as [k|]; cbn; try reflexivity.
  pose proof (np_max_raised t p p' F) as M. destruct (Qeq_bool (n - inject_Z k - 1) 0); [reflexivity|]. destruct (np_max p) as [m|e], (np_max p') as [m'|e']; cbn [rmap rbind moves]; try assumption; try contradiction.
  rewrite !Q2R_mult, !Q2R_minus. apply Qeq_eqR in M. rewrite M, (Q2R_plus m t). assert (Q2R 2 = 2)%R by (unfold Q2R; cbn; Lra.lra). rewrite H. Lra.lra.
Qed.
Lemma bic_moves t c f c' f' : sound c f -> sound c' f' -> raised t c f c' f' -> moves (-2 * Q2R t) (raw_bic c f) (raw_bic c' f').
Proof.
  intros S1 S2 HR. destruct (posterior_raised _ _ _ _ _ S1 S2 HR) as [[E E']|[p [p' [E [E' [F _]]]]]]; unfold raw_bic; rewrite E, E'; [exact I|].
  destruct HR as [-> [-> _]]. destruct (ch_ndata c) as [[n| | |]|]; destruct (ch_nfree c) as [k|]; cbn; try reflexivity.
  pose proof (np_max_raised t p p' F) as M. destruct (Qle_bool n 0); [reflexivity|]. destruct (np_max p) as [m|e], (np_max p') as [m'|e']; cbn [rmap rbind moves]; try assumption; try contradiction.
  apply Qeq_eqR in M. rewrite M, Q2R_plus. Lra.lra.
Qed.
Lemma sum_raised t : forall p p' w, Forall2 (fun a b => b == a + t)%Q p p' -> length p = length w ->
  qsum (map (fun q => fst q * snd q) (combine (map (fun q => -(2) * q) p') w)) == qsum (map (fun q => fst q * snd q) (combine (map (fun q => -(2) * q) p) w)) - 2 * t * qsum w.
Proof.
  intros p p' w H. revert w. induction H as [|a b p p' E _ IH]; intros w L; destruct w as [|v w]; try discriminate L; [cbn; ring|].
  cbn [map combine fst snd]. cbn [length] in L. injection L as L. cbn [qsum]. rewrite (IH w L), E. ring.
Qed.
Lemma dic_moves nearest t c f c' f' : sound c f -> sound c' f' -> counterpart t c f c' f' -> nearest_ok nearest -> moves (-2 * Q2R t) (raw_dic nearest c f) (raw_dic nearest c' f').
Proof.
  intros S1 S2 [HR [[w [W W']] [xs [X X']]]] NO. destruct (posterior_raised _ _ _ _ _ S1 S2 HR) as [[E E']|[p [p' [E [E' [F [L L']]]]]]]; unfold raw_dic; rewrite E, E'; [exact I|].
  pose proof (so_wf _ _ S1) as F1. pose proof (so_wf _ _ S2) as F2. pose proof (so_rows _ _ S1) as RW.
  rewrite (weights_ok c f w F1 W), (weights_ok c' f' w F2 W'). cbn [rbind]. rewrite (select_ok f _ xs F1 X), (select_ok f' _ xs F2 X'). cbn [rbind].
  assert (CL : forall f n v, frame_wf f -> column f n v -> length v = f_rows f). { intros g n v WF HV. pose proof (proj2 WF _ _ HV) as K. rewrite map_length in K. exact K. }
  pose proof (CL _ _ _ F1 W) as LW. pose proof (CL _ _ _ F2 W') as LW'. assert (LR : f_rows f' = f_rows f) by congruence. rewrite LR.
  destruct (rmapM (fun x => average x w) xs) as [means|e] eqn:EM; cbn [rbind]; [|reflexivity]. destruct xs as [|x0 xs0] eqn:EX; [reflexivity|]. rewrite <- EX in *.
  unfold average at 1 2. destruct (Qeq_bool (qsum w) 0) eqn:EW; cbn [rbind moves]; [reflexivity|]. assert (NZ : ~ qsum w == 0) by (intros K; apply Qeq_bool_iff in K; congruence).
  assert (NI : (nearest (table_rows xs (f_rows f)) means < f_rows f)%nat).
  { assert (TL : length (table_rows xs (f_rows f)) = f_rows f) by (unfold table_rows; rewrite map_length, seq_length; reflexivity). rewrite <- TL at 2.
    apply (NO (table_rows xs (f_rows f)) means (length xs)).
    - intros K. rewrite K in TL. cbn in TL. lia.
    - intros r Hr. unfold table_rows in Hr. apply in_map_iff in Hr. destruct Hr as [k [<- _]]. apply map_length.
    - clear - EM. revert means EM. induction xs as [|x xs IH]; intros means EM; cbn [rmapM] in EM; [injection EM as <-; reflexivity|]. destruct (average x w); [|discriminate]. cbn [rbind] in EM. destruct (rmapM (fun x => average x w) xs); [|discriminate]. cbn [rbind] in EM. injection EM as <-. cbn. f_equal. exact (IH _ eq_refl). }
  set (i := nearest (table_rows xs (f_rows f)) means) in *.
  assert (DI : nth i (map (fun q => -(2) * q) p') 0 == nth i (map (fun q => -(2) * q) p) 0 - 2 * t).
  { assert (Hi : (i < length p)%nat) by lia. clearbody i. clear - F Hi. revert i Hi. induction F as [|a b p p' EAB _ IH]; intros i Hi; cbn [length] in Hi; [lia|]. destruct i as [|i]; cbn [map nth]; [rewrite EAB; ring|]. apply IH. lia. }
  pose proof (sum_raised t p p' w F ltac:(congruence)) as SR.
  match goal with |- Q2R ?a = (Q2R ?b + _)%R => set (s' := a) in *; set (s := b) in * end.
  assert (K : s' == s + -(2) * t).
  { unfold s', s. rewrite SR, DI. field. exact NZ. }
  apply Qeq_eqR in K. rewrite K, Q2R_plus, Q2R_mult. f_equal. f_equal. unfold Q2R. cbn. Lra.lra.
Qed.

(** ** All chains *)
Section two.
Variables (raw : chain -> frame -> res (option R)) (w w' : world) (d : dict R) (t : R).
Hypothesis (OK1 : world_ok w) (OK2 : world_ok w') (E1 : scores raw w = Ok d).
Lemma scores_raw x (y : dict R) : world_ok x -> scores raw x = Ok y ->
  exists low, (forall n v, dget n y = Some v <-> exists c f, registered x n c f /\ raw c f = Ok (Some (v + low)%R)) /\
    (forall n v, dget n y = Some v -> (0 <= v)%R) /\ (y <> [] -> exists n, dget n y = Some 0%R).
Proof.
  intros [ND _] H. unfold scores in H. destruct (score_loop raw (fst x) (k_chains (snd x))) as [s|] eqn:E; [|discriminate]. injection H as <-.
  destruct (score_loop_spec _ _ _ _ E ND) as [S1 [S2 S3]]. destruct (relative_spec s (sublist_NoDup _ _ S1 ND)) as [low [R1 [R2 R3]]]. exists low. split; [|split; [exact R2|]].
  - intros n v. rewrite R1, S2. split.
    + intros [l [c [HI [HC HV]]]]. exists c, (frame_at (fst x) (ch_samples c)). split; [exists l; auto|exact HV].
    + intros [c [f [[l [HI [HC ->]]] HV]]]. exists l, c. auto.
  - intros NE. apply R3. intros ->. apply NE. reflexivity.
Qed.
Lemma registered_unique x n c f c' f' : world_ok x -> registered x n c f -> registered x n c' f' -> c = c' /\ f = f'.
Proof.
  intros [ND _] [l [HI [HC ->]]] [l' [HI' [HC' ->]]]. pose proof (dget_nodup n l _ ND HI) as G1. pose proof (dget_nodup n l' _ ND HI') as G2. rewrite G1 in G2. injection G2 as <-. rewrite HC in HC'. injection HC' as <-. auto.
Qed.
(** Differences between two chains. *)
Lemma scores_difference d' n m n' m' c f c2 f2 c' f' c2' f2' x y : scores raw w' = Ok d' ->
  registered w n c f -> registered w m c2 f2 -> registered w' n' c' f' -> registered w' m' c2' f2' ->
  moves t (raw c f) (raw c' f') -> moves t (raw c2 f2) (raw c2' f2') -> dget n d = Some x -> dget m d = Some y ->
  exists x' y', dget n' d' = Some x' /\ dget m' d' = Some y' /\ (x' - y' = x - y)%R.
Proof.
  intros E2 R1 R2 R1' R2' M1 M2 G1 G2. destruct (scores_raw w d OK1 E1) as [low [A _]]. destruct (scores_raw w' d' OK2 E2) as [low' [B _]].
  apply A in G1. apply A in G2. destruct G1 as [a [b [H1 G1]]]. destruct G2 as [a2 [b2 [H2 G2]]].
  destruct (registered_unique _ _ _ _ _ _ OK1 R1 H1) as [<- <-]. destruct (registered_unique _ _ _ _ _ _ OK1 R2 H2) as [<- <-].
  rewrite G1 in M1. rewrite G2 in M2. cbn [moves] in M1, M2. destruct (raw c' f') as [[u|]|] eqn:EU; try contradiction. destruct (raw c2' f2') as [[v|]|] eqn:EV; try contradiction.
  exists (u - low')%R, (v - low')%R. split; [|split].
  - apply B. exists c', f'. split; [exact R1'|]. rewrite EU. do 2 f_equal. Lra.lra.
  - apply B. exists c2', f2'. split; [exact R2'|]. rewrite EV. do 2 f_equal. Lra.lra.
  - subst. Lra.lra.
Qed.
(** More chains. *)
Lemma scores_more d' : scores raw w' = Ok d' -> (forall n c f, registered w n c f -> exists c' f', registered w' n c' f' /\ moves t (raw c f) (raw c' f')) ->
  exists s, (d <> [] -> 0 <= s)%R /\ (forall n x, dget n d = Some x -> dget n d' = Some (x + s)%R) /\ (forall n x, dget n d = Some x -> dget n d' = Some 0%R -> s = 0%R).
Proof.
  intros E2 K. destruct (scores_raw w d OK1 E1) as [low [A [A0 AZ]]]. destruct (scores_raw w' d' OK2 E2) as [low' [B [B0 BZ]]].
  assert (G : forall n x, dget n d = Some x -> dget n d' = Some (x + (low + t - low'))%R).
  { intros n x G1. apply A in G1. destruct G1 as [c [f [H1 G1]]]. destruct (K n c f H1) as [c' [f' [R' M]]]. rewrite G1 in M. cbn [moves] in M. destruct (raw c' f') as [[u|]|] eqn:EU; try contradiction.
    apply B. exists c', f'. split; [exact R'|]. rewrite EU. do 2 f_equal. Lra.lra. }
  exists (low + t - low')%R. split; [|split; [exact G|]].
  - intros NE. destruct (AZ NE) as [n Hn]. apply G in Hn. apply B0 in Hn. Lra.lra.
  - intros n x G1 G0. pose proof (G n x G1) as G2. rewrite G0 in G2. injection G2 as G2. pose proof (A0 n x G1) as P. 
    assert (NE : d <> []) by (intros ->; discriminate). destruct (AZ NE) as [z Hz]. apply G in Hz. apply B0 in Hz. Lra.lra.
Qed.
(** The same chains. *)
Lemma scores_same : (forall n c f, registered w n c f -> exists c' f', registered w' n c' f' /\ moves t (raw c f) (raw c' f')) ->
  (forall n c' f', registered w' n c' f' -> exists c f, registered w n c f) ->
  exists d', scores raw w' = Ok d' /\ forall n, dget n d' = dget n d.
Proof.
  intros K K'.
  assert (T : forall n c' f', registered w' n c' f' -> exists c f, registered w n c f /\ moves t (raw c f) (raw c' f')).
  { intros n c' f' R'. destruct (K' n c' f' R') as [c [f R1]]. destruct (K n c f R1) as [c2 [f2 [R2 M]]]. destruct (registered_unique _ _ _ _ _ _ OK2 R' R2) as [-> ->]. eauto. }
  destruct (scores raw w') as [d'|e] eqn:E2.
  - exists d'. split; [reflexivity|]. destruct (scores_more d' E2 K) as [s [S1 [S2 S3]]].
    destruct (scores_raw w d OK1 E1) as [low [A [A0 AZ]]]. destruct (scores_raw w' d' OK2 E2) as [low' [B [B0 BZ]]].
    assert (DD : forall n x', dget n d' = Some x' -> exists x, dget n d = Some x).
    { intros n x' Hx. apply B in Hx. destruct Hx as [c' [f' [R' HV]]]. destruct (T n c' f' R') as [c [f [R1 M]]]. rewrite HV in M. cbn [moves] in M. destruct (raw c f) as [[u|]|] eqn:EU; cbn [moves] in M; try contradiction.
      exists (u - low)%R. apply A. exists c, f. split; [exact R1|]. rewrite EU. do 2 f_equal. Lra.lra. }
    intros n. destruct (dget n d) as [x|] eqn:G.
    + assert (N' : d' <> []). { intros ->. apply S2 in G. discriminate. } destruct (BZ N') as [z Hz]. destruct (DD z _ Hz) as [x0 Hx0]. pose proof (S3 z x0 Hx0 Hz) as ->. rewrite (S2 n x G). f_equal. Lra.lra.
    + destruct (dget n d') as [x'|] eqn:G'; [|reflexivity]. destruct (DD n x' G') as [x Hx]. congruence.
  - exfalso. destruct (scores_err _ _ _ OK2 E2) as [n [c' [f' [R' HE]]]]. destruct (T n c' f' R') as [c [f [R1 M]]]. destruct (scores_ok_inv _ _ _ _ _ _ OK1 E1 R1) as [o Ho]. rewrite Ho, HE in M. destruct o; exact M.
Qed.
End two.

(** ** The same chains in the same order *)
Lemma rmin_list_raised t : forall l v, rmin_list (v + t) (map (fun x => x + t)%R l) = (rmin_list v l + t)%R.
Proof.
  induction l as [|x l IH]; intros v; cbn [rmin_list map]; [reflexivity|]. rewrite IH. unfold Rmin. destruct (Rle_dec (x + t) (rmin_list v l + t)), (Rle_dec x (rmin_list v l)); try reflexivity; exfalso; Lra.lra.
Qed.
Lemma relative_raised t (d : dict R) : relative (map (fun kv => (fst kv, (snd kv + t)%R)) d) = relative d.
Proof.
  destruct d as [|[n v] d]; [reflexivity|]. unfold relative. cbn [map fst snd]. rewrite map_map. cbn [snd].
  assert (E : rmin_list (v + t) (map (fun x => (snd x + t)%R) d) = (rmin_list v (map snd d) + t)%R) by (rewrite <- rmin_list_raised, map_map; reflexivity). rewrite E. f_equal; [f_equal; Lra.lra|].
  rewrite map_map. cbn [fst snd]. apply map_ext. intros kv. f_equal. Lra.lra.
Qed.
Lemma score_loop_raised raw h h' t : forall d d', Forall2 (fun a b => fst a = fst b /\ exists c c', chain_at h (snd a) = Some c /\ chain_at h' (snd b) = Some c' /\ moves t (raw c (frame_at h (ch_samples c))) (raw c' (frame_at h' (ch_samples c')))) d d' ->
  score_loop raw h' d' = rmap (map (fun kv => (fst kv, (snd kv + t)%R))) (score_loop raw h d).
Proof.
  induction 1 as [|[n l] [n' l'] d d' [E [c [c' [HC [HC' M]]]]] _ IH]; [reflexivity|]. cbn [fst snd] in *. subst n'. cbn [score_loop]. rewrite HC, HC', IH.
  destruct (raw c (frame_at h (ch_samples c))) as [[v|]|e], (raw c' (frame_at h' (ch_samples c'))) as [[v'|]|e']; cbn [moves] in M; try contradiction; cbn [rbind]; subst; try reflexivity;
    destruct (score_loop raw h d); reflexivity.
Qed.
Lemma scores_eq raw t w w' : world_ok w -> world_ok w' -> map fst (k_chains (snd w)) = map fst (k_chains (snd w')) ->
  (forall n c f, registered w n c f -> exists c' f', registered w' n c' f' /\ moves t (raw c f) (raw c' f')) -> scores raw w' = scores raw w.
Proof.
  intros OK1 OK2 EN K. unfold scores. rewrite (score_loop_raised raw (fst w) (fst w') t (k_chains (snd w)) (k_chains (snd w'))).
  - destruct (score_loop raw (fst w) (k_chains (snd w))); [|reflexivity]. cbn [rmap rbind]. rewrite relative_raised. reflexivity.
  - destruct OK1 as [ND HW], OK2 as [ND' HW']. change (dkeys (k_chains (snd w))) with (map fst (k_chains (snd w))) in ND. change (dkeys (k_chains (snd w'))) with (map fst (k_chains (snd w'))) in ND'.
    assert (P : forall n l l', In (n, l) (k_chains (snd w)) -> In (n, l') (k_chains (snd w')) -> exists c c', chain_at (fst w) l = Some c /\ chain_at (fst w') l' = Some c' /\ moves t (raw c (frame_at (fst w) (ch_samples c))) (raw c' (frame_at (fst w') (ch_samples c')))).
    { intros n l l' HI HI'. destruct (HW n l HI) as [c [HC _]]. destruct (K n c (frame_at (fst w) (ch_samples c))) as [c' [f' [[l2 [HI2 [HC2 ->]]] M]]]; [exists l; auto|].
      pose proof (dget_nodup n l' _ ND' HI') as G1. pose proof (dget_nodup n l2 _ ND' HI2) as G2. rewrite G1 in G2. injection G2 as ->. exists c, c'. auto. }
    clear - EN P. revert EN P. generalize (k_chains (snd w)) (k_chains (snd w')). intros d. induction d as [|[n l] d IH]; intros [|[n' l'] d'] EN P; try discriminate EN; constructor.
    + cbn [map fst] in EN. injection EN as -> _. cbn [fst snd]. split; [reflexivity|]. apply (P n'); left; reflexivity.
    + apply IH; [cbn in EN; injection EN; auto|]. intros m a b Ha Hb. apply (P m); right; assumption.
Qed.
