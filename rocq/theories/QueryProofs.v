(** Lemmas for C81. *)
From Coq Require Import String List Bool Arith ZArith QArith Reals Lia.
From Verif Require Import Py NumModel FrameModel ConfigModel ChainModel RegistryModel RegistrySpec HeapFacts RegistryProofs ChainUseProofs CovModel TextModel AnalysisModel AnalysisSpec AnalysisProofs CompareModel DiagModel DiagProofs SurfaceModel FigureModel FigureSpec ConsumerSpec ConsumerProofs QuerySpec.
From Verif Require SessionProofs.
Import ListNotations.
Open Scope string_scope.
Open Scope list_scope.

(** ** A question as the calls that have the same effect on the session *)
Definition as_actions (e : event) : list action :=
  match e with
  | Did a => [a]
  | Asked (QSummary ReqAll _) => [ARegistry (OpSelect ReqAll true)]
  | Asked (QLatex _ req _ _ _ _ _) => [ARegistry (OpSelect req false)]
  | Asked _ => []
  end.
Lemma with_world_same s : with_world s (s_world s) = s.
Proof. destruct s. reflexivity. Qed.
Lemma happen_acts rgb k o s e : happen rgb k o s e = acts rgb k s (as_actions e).
Proof.
  destruct e as [a|q]; [reflexivity|]. cbn [happen]. destruct q as [req columns|columns req t c l h b| | | | | | | | |]; try reflexivity.
  - cbn [ask]. unfold get_summary. destruct req as [l|d|]; cbn [as_actions acts fold_left act]; try (cbn [fst]; apply with_world_same). cbn [step]. destruct (sanitise_chains (s_world s) ReqAll true) as [w1 r]. reflexivity.
  - cbn [ask as_actions acts fold_left act step]. unfold get_latex_table. destruct (sanitise_chains (s_world s) req false) as [w1 r]. reflexivity.
Qed.
Lemma happens_acts rgb k o : forall l s, happens rgb k o s l = acts rgb k s (flat_map as_actions l).
Proof.
  induction l as [|e l IH]; intros s; [reflexivity|]. cbn [happens fold_left flat_map]. fold (happens rgb k o (happen rgb k o s e) l). rewrite IH, happen_acts. unfold acts. rewrite fold_left_app. reflexivity.
Qed.
Lemma sane_actions l : (forall e, In e l -> sane e) -> forall a, In a (flat_map as_actions l) -> takes_dicts a.
Proof.
  intros H a Ha. apply in_flat_map in Ha. destruct Ha as [e [He Ha]]. specialize (H e He). destruct e as [b|q]; [destruct Ha as [<-|[]]; exact H|]. destruct q as [req ?|? req| | | | | | | | |]; cbn in Ha; try contradiction; [destruct req; cbn in Ha; try contradiction|]; destruct Ha as [<-|[]]; exact I.
Qed.
Lemma harmless_actions l : (forall e, In e l -> harmless e) -> forall a, In a (flat_map as_actions l) -> looks a.
Proof.
  intros H a Ha. apply in_flat_map in Ha. destruct Ha as [e [He Ha]]. specialize (H e He). destruct e as [b|q]; [destruct Ha as [<-|[]]; exact H|]. destruct q as [req ?|? req| | | | | | | | |]; cbn in Ha; try contradiction; [destruct req; cbn in Ha; try contradiction|]; destruct Ha as [<-|[]]; exact I.
Qed.

(** ** Answers depend only on the chains *)
Lemma filter_all {A} (p : A -> bool) l : (forall x, p x = true) -> filter p l = l.
Proof. intros H. induction l as [|x l IH]; [reflexivity|]. cbn [filter]. rewrite H, IH. reflexivity. Qed.
Lemma all_exist w w1 locs : world_ok w -> sanitise_chains w ReqAll true = (w1, Ok locs) -> exists chains, objects (fst w1) locs chains.
Proof.
  intros W H. destruct (registered w W) as [cs F]. destruct (final_pure w cs W F) as [_ P]. unfold sanitise_chains in H. destruct (get_final_chains w) as [w2 [finals|e]]; [|discriminate]. cbn [rmap fst snd] in *. injection H as <- <-.
  destruct (all_resolved _ _ _ _) as [cs'|e]; [|discriminate]. destruct P as [fs [E [_ P]]]. injection E as <-.
  rewrite (filter_all _ (dvalues finals)) by reflexivity. clear -P.
  induction P as [|[n l] c finals cs H P [chains IH]]; [exists []; constructor|]. exists ((c, frame_at (fst w2) (ch_samples c)) :: chains). constructor; [split; [exact H|reflexivity]|exact IH].
Qed.
(** The summary of given chains. *)
Definition summary_from (num : numerics) (columns : option (list string)) (chains : list (chain * frame)) : res (dict (dict bounds_in)) :=
  rmap (fun ds => setall (combine (map name_of chains) ds) []) (rmapM (fun cf => chain_summary num (fst cf) (snd cf) (sanitise_columns columns chains) []) chains).
Lemma summary_all num w columns : world_ok w -> snd (get_summary num w ReqAll columns) = rbind (contents w ReqAll true) (summary_from num columns).
Proof.
  intros W. unfold get_summary, contents. destruct (sanitise_chains w ReqAll true) as [w1 [locs|e]] eqn:E; [|reflexivity]. cbn [fst snd rmap rbind]. destruct (all_exist w w1 locs W E) as [chains O]. rewrite (objects_resolve _ _ _ O). cbn [rbind].
  unfold summary_from. destruct columns as [l|]; cbn [rmap rbind]; rewrite (summary_loop_fold num (fst w1) _ locs chains [] O); reflexivity.
Qed.
Lemma summary_listed num w columns locs chains : objects (fst w) locs chains -> snd (get_summary num w (ReqList (map ByChain locs)) columns) = summary_from num columns chains.
Proof.
  intros O. unfold get_summary. cbn [fst snd rmap rbind]. rewrite (objects_resolve _ _ _ O). unfold summary_from. destruct columns as [l|]; cbn [rmap rbind]; rewrite (summary_loop_fold num (fst w) _ locs chains [] O); reflexivity.
Qed.

(** ** The same objects in a larger heap *)
Section later.
Variables (w w' : world).
Hypothesis HU : untouched (fst w) (fst w').
Hypothesis HK : snd w' = snd w.
Hypothesis HF : forall l c, chain_at (fst w) l = Some c -> (ch_samples c < length (h_frames (fst w)))%nat.
Lemma later_chain l c : chain_at (fst w) l = Some c -> chain_at (fst w') l = Some c /\ frame_at (fst w') (ch_samples c) = frame_at (fst w) (ch_samples c).
Proof. intros H. split; [exact (proj2 HU l c H)|]. apply untouched_frame_at; [exact HU|exact (HF l c H)]. Qed.
Lemma later_ref r : (forall l, In l (ref_locs r) -> exists c, chain_at (fst w) l = Some c) -> ref_object (fst w') r = ref_object (fst w) r.
Proof. destruct r as [n|l]; [reflexivity|]. intros H. destruct (H l (or_introl eq_refl)) as [c Hc]. cbn. destruct (later_chain l c Hc) as [-> ->]. rewrite Hc. reflexivity. Qed.
Lemma later_refs refs : (forall l, In l (flat_map ref_locs refs) -> exists c, chain_at (fst w) l = Some c) -> rmapM (ref_object (fst w')) refs = rmapM (ref_object (fst w)) refs.
Proof.
  induction refs as [|r refs IH]; intros H; [reflexivity|]. cbn [rmapM]. rewrite later_ref by (intros l Hl; apply H; cbn; apply in_app_iff; auto). rewrite IH by (intros l Hl; apply H; cbn; apply in_app_iff; auto). reflexivity.
Qed.
Lemma later_loop num cols : forall refs acc, (forall l, In l (flat_map ref_locs refs) -> exists c, chain_at (fst w) l = Some c) -> summary_loop num (fst w') refs cols acc = summary_loop num (fst w) refs cols acc.
Proof.
  induction refs as [|[n|l] refs IH]; intros acc H; [reflexivity|reflexivity|]. cbn [summary_loop]. destruct (H l (or_introl eq_refl)) as [c Hc]. destruct (later_chain l c Hc) as [-> ->]. rewrite Hc. destruct (chain_summary _ _ _ _ _); [|reflexivity]. cbn [rbind]. apply IH. intros k Hk. apply H. right. exact Hk.
Qed.
Lemma later_summary_list num refs columns : (forall l, In l (flat_map ref_locs refs) -> exists c, chain_at (fst w) l = Some c) -> snd (get_summary num w' (ReqList refs) columns) = snd (get_summary num w (ReqList refs) columns).
Proof.
  intros H. unfold get_summary. cbn [snd rbind]. destruct columns as [cols|]; cbn [rbind]; [apply later_loop; exact H|]. rewrite (later_refs refs H). destruct (rmapM _ refs); [|reflexivity]. cbn [rmap rbind]. apply later_loop. exact H.
Qed.
Lemma later_summary_dict num d columns : snd (get_summary num w' (ReqDict d) columns) = snd (get_summary num w (ReqDict d) columns).
Proof.
  unfold get_summary. cbn [snd rbind]. destruct d as [|[n l] d]; [destruct columns; reflexivity|]. destruct columns as [cols|]; reflexivity.
Qed.
Lemma later_table which : (forall r, which = Some r -> forall l, In l (ref_locs r) -> exists c, chain_at (fst w) l = Some c) -> world_ok w -> table_chain w' which = table_chain w which.
Proof.
  intros H W. unfold table_chain. cbv zeta. assert (K : forall n l, In (n, l) (k_chains (snd w)) -> exists c, chain_at (fst w) l = Some c).
  { destruct (registered w W) as [cs F]. intros n l Hin. apply In_nth_error in Hin. destruct Hin as [i Hi]. destruct (nth_error cs i) as [c|] eqn:E; [exists c; exact (F2_at _ _ _ _ _ _ F Hi E)|]. apply nth_error_None in E. rewrite <- (F2_len' _ _ _ F) in E. assert ((i < length (k_chains (snd w)))%nat) by (apply nth_error_Some; congruence). lia. }
  assert (A : forall l, (exists c, chain_at (fst w) l = Some c) -> match chain_at (fst w') l with Some c => Ok (c, frame_at (fst w') (ch_samples c)) | None => Err TypeError end = match chain_at (fst w) l with Some c => Ok (c, frame_at (fst w) (ch_samples c)) | None => Err TypeError end).
  { intros l [c Hc]. destruct (later_chain l c Hc) as [-> ->]. rewrite Hc. reflexivity. }
  rewrite HK. destruct which as [[n|l]|].
  - destruct (dget n (k_chains (snd w))) as [l|] eqn:E; [|reflexivity]. apply A. apply (K n). apply dget_In. exact E.
  - apply A. apply (H _ eq_refl). left. reflexivity.
  - destruct (k_chains (snd w)) as [|[n l] [|? ?]]; try reflexivity. apply A. apply (K n). left. reflexivity.
Qed.
Lemma registered_exist : world_ok w -> forall n l, In (n, l) (k_chains (snd w)) -> exists c, chain_at (fst w) l = Some c.
Proof.
  intros W. destruct (registered w W) as [cs F]. intros n l Hin. apply In_nth_error in Hin. destruct Hin as [i Hi]. destruct (nth_error cs i) as [c|] eqn:E; [exists c; exact (F2_at _ _ _ _ _ _ F Hi E)|]. apply nth_error_None in E. rewrite <- (F2_len' _ _ _ F) in E. assert ((i < length (k_chains (snd w)))%nat) by (apply nth_error_Some; congruence). lia.
Qed.
Lemma later_points names : world_ok w -> get_max_posteriors w' names = get_max_posteriors w names.
Proof.
  intros W. pose proof (registered_exist W) as K. unfold get_max_posteriors. assert (E : max_posterior_request w' names = max_posterior_request w names) by (unfold max_posterior_request; rewrite HK; reflexivity). rewrite E.
  destruct (max_posterior_request w names) as [d|] eqn:ED; [|reflexivity]. cbn [rbind].
  assert (D : forall n l, In (n, l) d -> exists c, chain_at (fst w) l = Some c).
  { unfold max_posterior_request in ED. destruct names as [ns|]; [|injection ED as <-; exact K]. destruct (rmapM _ ns) as [kvs|] eqn:EK; [|discriminate]. cbn [rbind] in ED. injection ED as <-.
    assert (KV : forall n l, In (n, l) kvs -> exists c, chain_at (fst w) l = Some c).
    { clear -EK K. revert kvs EK. induction ns as [|m ns IH]; intros kvs EK n l Hin; [injection EK as <-; destruct Hin|]. cbn [rmapM] in EK. destruct (dget m (k_chains (snd w))) as [l'|] eqn:E; [|discriminate]. cbn [rbind] in EK. destruct (rmapM _ ns) as [r|]; [|discriminate]. cbn [rbind] in EK. injection EK as <-.
      destruct Hin as [Hin|Hin]; [injection Hin as <- <-; apply (K m); apply dget_In; exact E|]. exact (IH r eq_refl n l Hin). }
    assert (G : forall acc, (forall n l, In (n, l) acc -> exists c, chain_at (fst w) l = Some c) -> forall n l, In (n, l) (fold_left (fun acc kv => dset (fst kv) (snd kv) acc) kvs acc) -> exists c, chain_at (fst w) l = Some c).
    { clear -KV. induction kvs as [|[m l'] kvs IH]; intros acc HA n l Hin; [exact (HA n l Hin)|]. cbn [fold_left fst snd] in Hin. refine (IH _ _ _ n l Hin); [intros a b Hab; apply (KV a b); right; exact Hab|].
      intros a b Hab. clear -Hab HA KV. induction acc as [|[x y] acc IHa]; cbn in Hab; [destruct Hab as [Hab|[]]; injection Hab as <- <-; apply (KV m); left; reflexivity|].
      destruct (String.eqb m x); destruct Hab as [Hab|Hab]; try (injection Hab as <- <-).
      - apply (KV m). left. reflexivity.
      - apply (HA a b). right. exact Hab.
      - apply (HA x y). left. reflexivity.
      - apply IHa; [intros c e Hc; apply (HA c e); right; exact Hc|exact Hab]. }
    apply G. intros n l []. }
  clear -D HU HF. induction d as [|[n l] d IH]; [reflexivity|]. cbn [max_posteriors_loop]. destruct (D n l (or_introl eq_refl)) as [c Hc]. destruct (later_chain l c Hc) as [-> ->]. rewrite Hc, IH by (intros a b Hab; apply (D a b); right; exact Hab). reflexivity.
Qed.
Lemma later_scores raw : world_ok w -> scores raw w' = scores raw w.
Proof.
  intros W. pose proof (registered_exist W) as K. unfold scores. rewrite HK. f_equal. clear -K HU HF. induction (k_chains (snd w)) as [|[n l] d IH]; [reflexivity|]. cbn [score_loop]. destruct (K n l (or_introl eq_refl)) as [c Hc]. destruct (later_chain l c Hc) as [-> ->]. rewrite Hc, IH by (intros a b Hab; apply (K a b); right; exact Hab). reflexivity.
Qed.
Lemma later_test one r : world_ok w -> (forall l, In l (dreq_locs r) -> exists c, chain_at (fst w) l = Some c) -> over_chains one w' r = over_chains one w r.
Proof.
  intros W H. pose proof (registered_exist W) as K. unfold over_chains.
  assert (E : diag_chains w' r = diag_chains w r).
  { assert (RE : forall c, resolve w' c = resolve w c) by (intros [n|l]; cbn; [unfold get_chain; rewrite HK; reflexivity|reflexivity]).
    unfold diag_chains. rewrite HK. destruct r as [|l|c]; [reflexivity| |rewrite RE; reflexivity]. induction l as [|c l IH]; [reflexivity|]. cbn [rmapM]. rewrite RE. rewrite IH; [reflexivity|]. intros k Hk. apply H. cbn. apply in_app_iff. auto. }
  rewrite E. destruct (diag_chains w r) as [ls|] eqn:ED; [|reflexivity]. cbn [rbind].
  assert (L : forall l, In l ls -> exists c, chain_at (fst w) l = Some c).
  { assert (RL : forall c l, resolve w c = Ok l -> (forall x, In x (creq_locs c) -> exists y, chain_at (fst w) x = Some y) -> exists y, chain_at (fst w) l = Some y).
    { intros [n|x] l; cbn; intros R HX; [|injection R as ->; apply HX; left; reflexivity]. unfold get_chain in R. destruct (dget n (k_chains (snd w))) as [l'|] eqn:EN; [|discriminate]. injection R as <-. apply (K n). apply dget_In. exact EN. }
    clear E. unfold diag_chains in ED. destruct r as [|l|c].
    - injection ED as <-. intros l Hl. unfold dvalues in Hl. apply in_map_iff in Hl. destruct Hl as [[n l'] [<- Hl]]. exact (K n l' Hl).
    - revert ls ED. induction l as [|c l IH]; intros ls ED x Hx; [injection ED as <-; destruct Hx|]. cbn [rmapM] in ED. destruct (resolve w c) as [y|] eqn:EY; [|discriminate]. cbn [rbind] in ED. destruct (rmapM (resolve w) l) as [ys|]; [|discriminate]. cbn [rbind] in ED. injection ED as <-.
      destruct Hx as [<-|Hx]; [apply (RL c); [exact EY|intros k Hk; apply H; cbn; apply in_app_iff; auto]|]. apply (IH (fun k Hk => H k ltac:(cbn; apply in_app_iff; auto)) ys eq_refl x Hx).
    - destruct (resolve w c) as [y|] eqn:EY; [|discriminate]. cbn in ED. injection ED as <-. intros x [<-|[]]. exact (RL c y EY H). }
  set (run := fun l => match chain_at (fst w) l with Some c => one c (frame_at (fst w) (ch_samples c)) | None => Err TypeError end).
  assert (R : forall l, In l ls -> match chain_at (fst w') l with Some c => one c (frame_at (fst w') (ch_samples c)) | None => Err TypeError end = run l).
  { intros l Hl. destruct (L l Hl) as [c Hc]. unfold run. destruct (later_chain l c Hc) as [-> ->]. rewrite Hc. reflexivity. }
  destruct ls as [|l1 [|l2 ls]]; [reflexivity|apply R; left; reflexivity|]. f_equal. revert R. generalize (l1 :: l2 :: ls). induction l as [|x l IH]; intros R; [reflexivity|]. cbn [rmapM]. rewrite (R x (or_introl eq_refl)). rewrite IH by (intros y Hy; apply R; right; exact Hy). reflexivity.
Qed.
End later.
Lemma requested_known w req : (forall l, In l (req_locs req) -> exists c, chain_at (fst w) l = Some c) -> exists names, requested w req = map Some names.
Proof.
  destruct req as [l|d|]; cbn [requested req_locs]; intros H.
  - induction l as [|r l IH]; [exists []; reflexivity|]. destruct IH as [names E]; [intros k Hk; apply H; cbn; apply in_app_iff; auto|]. destruct r as [n|p]; [exists (n :: names); cbn [map]; rewrite E; reflexivity|].
    destruct (H p (or_introl eq_refl)) as [c Hc]. exists (ch_name c :: names). cbn [map]. rewrite Hc, E. reflexivity.
  - induction d as [|[n p] d IH]; [exists []; reflexivity|]. destruct IH as [names E]; [intros k Hk; apply H; right; exact Hk|]. destruct (H p (or_introl eq_refl)) as [c Hc]. exists (ch_name c :: names). cbn [map snd]. rewrite Hc, E. reflexivity.
  - exists (get_names w). reflexivity.
Qed.
(** The parameter table is a function of the chains selected. *)
Lemma latex_same num repr ascii labels blind columns t c l h b w w' req : contents w' req false = contents w req false ->
  snd (get_latex_table num repr ascii w' labels blind columns req t c l h b) = snd (get_latex_table num repr ascii w labels blind columns req t c l h b).
Proof.
  intros H. unfold get_latex_table, contents in *. destruct (sanitise_chains w req false) as [w1 r1], (sanitise_chains w' req false) as [w2 r2]. cbn [fst snd] in *.
  destruct r1 as [l1|e1]; cbn [rbind] in *; [destruct (rmapM (ref_object (fst w1)) (map ByChain l1)) as [c1|e1] eqn:E1|]; (destruct r2 as [l2|e2]; cbn [rbind] in *; [destruct (rmapM (ref_object (fst w2)) (map ByChain l2)) as [c2|e2] eqn:E2|]); cbn [rbind]; try discriminate H; try (injection H as ->; reflexivity).
  injection H as ->. cbv zeta. rewrite (summary_listed num w1 None l1 c1 (resolve_objects _ _ _ E1)), (summary_listed num w2 None l2 c1 (resolve_objects _ _ _ E2)). reflexivity.
Qed.
