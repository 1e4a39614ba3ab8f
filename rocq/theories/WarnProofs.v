(** Proofs for WarnProps. *)
From Coq Require Import String Ascii List Bool Arith ZArith QArith Reals Lia.
From Verif Require Import Py NumSpec NumModel NumFacts FrameModel FrameFacts ColorModel MarginalModel ConfigModel ChainModel RegistryModel RegistrySpec ChainSpec HeapFacts RegistryProofs ChainProofs
  ChainUseProofs SessionProofs CovModel FormatModel CompareModel CompareSpec CompareProofs WarnModel WarnSpec.
Import ListNotations.
Open Scope string_scope.
Open Scope list_scope.

Lemma logged_loop_result raw warning h d : snd (logged_loop raw warning h d) = score_loop raw h d.
Proof.
  induction d as [|[n l] d IH]; [reflexivity|]. cbn [logged_loop score_loop]. destruct (chain_at h l) as [c|]; [|reflexivity]. destruct (raw c _) as [[v|]|e]; cbn [rbind]; [| |reflexivity];
    destruct (logged_loop raw warning h d) as [ws rest]; cbn [snd] in *; rewrite <- IH; destruct rest; reflexivity.
Qed.
Lemma logged_scores_result raw warning w : snd (logged_scores raw warning w) = scores raw w.
Proof. unfold logged_scores, scores. rewrite <- (logged_loop_result raw warning). destruct (logged_loop raw warning _ _) as [ws r]. reflexivity. Qed.

Lemma logged_loop_parts raw warning h : forall d ws s, logged_loop raw warning h d = (ws, Ok s) ->
  exists parts, ws = concat parts /\ Forall2 (fun nl part => exists c, chain_at h (snd nl) = Some c /\
    ((raw c (frame_at h (ch_samples c)) = Ok None /\ part = [warning (fst nl) c (frame_at h (ch_samples c))]) \/ (exists v, raw c (frame_at h (ch_samples c)) = Ok (Some v)) /\ part = [])) d parts.
Proof.
  induction d as [|[n l] d IH]; intros ws s H; cbn [logged_loop] in H.
  - injection H as <- _. exists []. split; [reflexivity|constructor].
  - destruct (chain_at h l) as [c|] eqn:EC; [|discriminate]. cbv zeta in H. destruct (raw c (frame_at h (ch_samples c))) as [[v|]|e] eqn:ER; [| |discriminate]; destruct (logged_loop raw warning h d) as [ws' rest] eqn:EL.
    + assert (E : exists s', rest = Ok s') by (destruct rest; [eauto|injection H as _ H; discriminate]). destruct E as [s' ->]. injection H as <- _. destruct (IH _ _ eq_refl) as [parts [-> F]]. exists ([] :: parts). split; [reflexivity|]. constructor; [|exact F]. exists c. cbn [fst snd]. split; [exact EC|]. right. split; [eauto|reflexivity].
    + injection H as <- ->. destruct (IH _ _ eq_refl) as [parts [-> F]]. exists ([warning n c (frame_at h (ch_samples c))] :: parts). split; [reflexivity|]. constructor; [|exact F]. exists c. cbn [fst snd]. split; [exact EC|]. left. auto.
Qed.

Lemma relative_keys d : map fst (relative d) = map fst d.
Proof. unfold relative. destruct d as [|[n v] d]; [reflexivity|]. rewrite map_map. apply map_ext. reflexivity. Qed.

Lemma logged_one_each raw warning (text : string -> chain -> frame -> string -> Prop) w ws d : world_ok w -> logged_scores raw warning w = (ws, Ok d) ->
  (forall n c f, registered w n c f -> ch_name c = n -> raw c f = Ok None -> text n c f (warning n c f)) ->
  one_each w (fun n => ~ In n (map fst d)) text ws.
Proof.
  intros [ND W] H T. unfold logged_scores in H. pose proof (logged_loop_result raw warning (fst w) (k_chains (snd w))) as RES. destruct (logged_loop raw warning (fst w) (k_chains (snd w))) as [ws' r] eqn:EL. destruct r as [s|e]; [|injection H as _ H; discriminate].
  injection H as <- <-. cbn [snd] in RES. symmetry in RES. destruct (score_loop_spec _ _ _ _ RES ND) as [_ [SC _]]. destruct (logged_loop_parts _ _ _ _ _ _ EL) as [parts [-> F]]. exists parts. split; [reflexivity|]. rewrite relative_keys.
  assert (GEN : forall ch, (forall nl, In nl ch -> In nl (k_chains (snd w))) -> forall ps, Forall2 (fun nl part => exists c, chain_at (fst w) (snd nl) = Some c /\
    ((raw c (frame_at (fst w) (ch_samples c)) = Ok None /\ part = [warning (fst nl) c (frame_at (fst w) (ch_samples c))]) \/ (exists v, raw c (frame_at (fst w) (ch_samples c)) = Ok (Some v)) /\ part = [])) ch ps ->
    Forall2 (fun n part => exists c f, registered w n c f /\ (~ In n (map fst s) -> exists t, part = [t] /\ text n c f t) /\ (~ ~ In n (map fst s) -> part = [])) (map fst ch) ps); [|apply GEN; auto].
  clear F. intros ch K ps F.
  induction F as [|[n l] part ch ps [c [HC HP]] F IH]; [constructor|]. cbn [map fst snd] in *. constructor; [|apply IH; intros nl HI; apply K; right; exact HI].
  pose proof (K (n, l) (or_introl eq_refl)) as HI. exists c, (frame_at (fst w) (ch_samples c)). assert (R : registered w n c (frame_at (fst w) (ch_samples c))) by (exists l; auto). split; [exact R|].
  assert (NM : ch_name c = n) by (destruct (W n l HI) as [c' [C1 C2]]; congruence).
  destruct HP as [[HR ->]|[[v HR] ->]].
  - split; [intros _; eexists; split; [reflexivity|]; apply T; auto|]. intros NL. exfalso. apply NL. intros HN. apply in_map_iff in HN as [[n' v] [E HN]]. cbn in E. subst n'.
    assert (ex_v : exists v', dget n s = Some v'). { destruct (dget n s) as [v'|] eqn:EG; [eauto|]. apply dget_None in EG. exfalso. apply EG. unfold dkeys. apply in_map_iff. exists (n, v). auto. }
    destruct ex_v as [v' EG]. apply SC in EG as [l' [c' [I1 [I2 I3]]]]. assert (l' = l) by (pose proof (dget_nodup n l _ ND HI); pose proof (dget_nodup n l' _ ND I1); congruence).
    congruence.
  - split; [|reflexivity]. intros NI. exfalso. apply NI. assert (EG : dget n s = Some v) by (apply SC; eauto). apply dget_In in EG. apply in_map_iff. exists (n, v). auto.
Qed.

(** ** The texts *)
Lemma substring_all s : substring 0 (String.length s) s = s.
Proof. induction s as [|a s IH]; [reflexivity|]. cbn. rewrite IH. reflexivity. Qed.
Lemma aic_none c f : sound c f -> raw_aic c f = Ok None -> ~ has_counts c f.
Proof.
  intros S H. unfold raw_aic in H. intros [HP [HN HK]]. destruct (log_posterior_spec c f S) as [[_ N]|[p [E _]]]; [contradiction|]. rewrite E in H. destruct (ch_ndata c) as [x|]; [|congruence]. destruct (ch_nfree c) as [k|]; [|congruence]. destruct x; try discriminate.
  destruct (Qeq_bool _ 0); [discriminate|]. destruct (np_max p); discriminate.
Qed.
Lemma bic_none c f : sound c f -> raw_bic c f = Ok None -> ~ has_counts c f.
Proof.
  intros S H. unfold raw_bic in H. intros [HP [HN HK]]. destruct (log_posterior_spec c f S) as [[_ N]|[p [E _]]]; [contradiction|]. rewrite E in H. destruct (ch_ndata c) as [x|]; [|congruence]. destruct (ch_nfree c) as [k|]; [|congruence]. destruct x; try discriminate.
  destruct (Qle_bool _ 0); [discriminate|]. destruct (np_max p); discriminate.
Qed.
Lemma missing_names c f : sound c f -> ~ has_counts c f -> exists l, l <> [] /\ lacks c f l /\ but_last_two (missing c f) = String.concat ", " l.
Proof.
  intros S H. unfold missing, lacks.
  destruct (log_posterior_spec c f S) as [[-> NP]|[p [-> [HP _]]]]; [|assert (HP' : has_posterior c f) by (eexists; exact HP)]; destruct (ch_ndata c) as [x|] eqn:EN; destruct (ch_nfree c) as [k|] eqn:EK;
    match goal with
    | |- exists l, _ /\ _ /\ but_last_two ?s = _ => let s' := eval vm_compute in (but_last_two s) in change (but_last_two s) with s'
    end.
  - exists ["posterior"]. split; [discriminate|]. split; [|reflexivity]. split; [repeat constructor|]. cbn [In]. intuition discriminate.
  - exists ["posterior"; "num_free_params"]. split; [discriminate|]. split; [|reflexivity]. split; [repeat constructor|]. cbn [In]. intuition discriminate.
  - exists ["posterior"; "num_eff_data_points"]. split; [discriminate|]. split; [|reflexivity]. split; [repeat constructor|]. cbn [In]. intuition discriminate.
  - exists ["posterior"; "num_eff_data_points"; "num_free_params"]. split; [discriminate|]. split; [|reflexivity]. split; [repeat constructor|]. cbn [In]. intuition discriminate.
  - exfalso. apply H. split; [exact HP'|]. rewrite EN, EK. split; discriminate.
  - exists ["num_free_params"]. split; [discriminate|]. split; [|reflexivity]. split; [repeat constructor|]. cbn [In]. intuition discriminate.
  - exists ["num_eff_data_points"]. split; [discriminate|]. split; [|reflexivity]. split; [repeat constructor|]. cbn [In]. intuition discriminate.
  - exists ["num_eff_data_points"; "num_free_params"]. split; [discriminate|]. split; [|reflexivity]. split; [repeat constructor|]. cbn [In]. intuition discriminate.
Qed.
Lemma dic_none nearest c f : sound c f -> raw_dic nearest c f = Ok None -> ~ has_posterior c f.
Proof.
  intros S H HP. unfold raw_dic in H. destruct (log_posterior_spec c f S) as [[_ N]|[p [E _]]]; [contradiction|]. rewrite E in H. destruct (weights c f); [|discriminate]. cbn [rbind] in H. destruct (select f _) as [xs|]; [|discriminate]. cbn [rbind] in H.
  destruct (rmapM _ xs); [|discriminate]. cbn [rbind] in H. destruct xs; [discriminate|]. destruct (average _ _); discriminate.
Qed.

(** ** Maximum posteriors *)
Lemma posteriors_loop_result h d : snd (posteriors_loop h d) = max_posteriors_loop h d.
Proof.
  induction d as [|[n l] d IH]; [reflexivity|]. cbn [posteriors_loop max_posteriors_loop]. destruct (chain_at h l) as [c|]; [|reflexivity]. destruct (get_max_posterior_point c _) as [[v|]|e]; cbn [rbind]; [| |reflexivity];
    destruct (posteriors_loop h d) as [ws rest]; cbn [snd] in *; rewrite <- IH; destruct rest; reflexivity.
Qed.
Lemma posteriors_loop_count h : forall d ws ps, posteriors_loop h d = (ws, Ok ps) -> length d = (length ps + length ws)%nat /\ Forall (eq posterior_warning) ws.
Proof.
  induction d as [|[n l] d IH]; intros ws ps H; cbn [posteriors_loop] in H; [injection H as <- <-; split; [reflexivity|constructor]|]. destruct (chain_at h l) as [c|]; [|discriminate]. destruct (get_max_posterior_point c _) as [[v|]|e]; [| |discriminate];
    destruct (posteriors_loop h d) as [ws' rest] eqn:EL.
  - destruct rest as [ps'|]; [|injection H as _ H; discriminate]. injection H as <- <-. destruct (IH _ _ eq_refl) as [I1 I2]. split; [cbn [length]; lia|exact I2].
  - injection H as <- ->. destruct (IH _ _ eq_refl) as [I1 I2]. split; [cbn [length]; lia|constructor; [reflexivity|exact I2]].
Qed.
Lemma nodup_first_seen l : NoDup l -> first_seen l l.
Proof.
  induction 1 as [|x l NI ND IH]; [constructor|]. constructor. rewrite filter_true; [exact IH|]. intros y HY. apply negb_true_iff, String.eqb_neq. intros ->. contradiction.
Qed.
Lemma looked_up (d : dict nat) : forall names kvs, rmapM (fun n => match dget n d with Some c => Ok (n, c) | None => Err KeyError end) names = Ok kvs -> map fst kvs = names.
Proof.
  induction names as [|n names IH]; intros kvs H; [injection H as <-; reflexivity|]. cbn [rmapM] in H. destruct (dget n d) as [c|]; [|discriminate]. cbn [rbind] in H.
  destruct (rmapM _ names) as [r|] eqn:E; [|discriminate]. injection H as <-. cbn [map fst]. f_equal. apply IH. reflexivity.
Qed.
Lemma request_keys w req d : NoDup (dkeys (k_chains (snd w))) -> max_posterior_request w req = Ok d -> first_seen (asked w req) (dkeys d) /\ NoDup (dkeys d).
Proof.
  intros ND H. destruct req as [names|]; cbn [max_posterior_request asked] in *; [|injection H as <-; split; [apply nodup_first_seen|]; exact ND].
  destruct (rmapM _ names) as [kvs|] eqn:EM; [|discriminate]. cbn [rbind] in H. injection H as <-. split.
  - destruct (dset_fold_first kvs []) as [u [U1 U2]]. cbn [dkeys map app] in U1. rewrite filter_true in U2 by reflexivity. unfold dkeys in U1 |- *. rewrite U1. assert (EK : map fst kvs = names); [|rewrite <- EK; exact U2].
    exact (looked_up _ _ _ EM).
  - assert (G : forall acc, NoDup (dkeys acc) -> NoDup (dkeys (fold_left (fun a (kv : string * nat) => dset (fst kv) (snd kv) a) kvs acc))); [|apply G; constructor].
    clear. induction kvs as [|[k v] r IH]; intros acc Hn; [exact Hn|]. cbn. apply IH. apply nodup_dset. exact Hn.
Qed.
