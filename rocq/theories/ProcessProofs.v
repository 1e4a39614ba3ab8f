(** Lemmas: failing calls, several consumers. *)
From Coq Require Import String List Bool Arith ZArith QArith Reals Lia.
From Verif Require Import Py NumModel FrameModel ConfigModel ChainModel RegistryModel RegistrySpec HeapFacts RegistryProofs RegistryProps ChainUseProofs CovModel TextModel AnalysisModel AnalysisSpec AnalysisProofs CompareModel DiagModel DiagProofs SurfaceModel FigureModel FigureSpec ConsumerSpec ConsumerProofs ConsumerProps QuerySpec QueryProofs QueryProps ProcessSpec.
From Verif Require SessionProofs.
Import ListNotations.
Open Scope string_scope.
Open Scope list_scope.

(** ** What holds of a session in any process *)
Definition fit (w : world) : Prop := world_ok w /\ SessionProofs.world_good false w.
Lemma step_fit rgb w o : fit w -> SessionProofs.op_ok false o -> fit (fst (step rgb w o)) /\ untouched (fst w) (fst (fst (step rgb w o))).
Proof.
  intros [W G] A. pose proof (SessionProofs.step_good false rgb w o G A) as G'. destruct (step rgb w o) as [w' r] eqn:E. cbn [fst] in *. destruct (step_effect _ _ _ _ _ E W) as [W' [U _]]. split; [split; assumption|exact U].
Qed.
Lemma run_fit rgb : forall ops w, fit w -> (forall o, In o ops -> SessionProofs.op_ok false o) -> fit (fst (run rgb w ops)) /\ untouched (fst w) (fst (fst (run rgb w ops))).
Proof.
  induction ops as [|o ops IH]; intros w F A; [split; [exact F|apply untouched_refl]|]. cbn [run]. destruct (step_fit rgb w o F (A o (or_introl eq_refl))) as [F1 U1]. destruct (step rgb w o) as [w1 e]. cbn [fst] in *.
  destruct (IH w1 F1 (fun o' Ho => A o' (or_intror Ho))) as [F2 U2]. destruct (run rgb w1 ops) as [w2 log]. split; [exact F2|]. eapply untouched_trans; eassumption.
Qed.
Lemma ops_fit a : takes_dicts a -> forall o, In o (ops_of a) -> SessionProofs.op_ok false o.
Proof.
  intros H o Ho. destruct a as [o'|t|cfg|d| |rc']; cbn in Ho; try contradiction; destruct Ho as [<-|[]]; [|exact I]. destruct o'; cbn in *; try exact I; try (intros K; discriminate). split; [exact H|intros K; discriminate].
Qed.
Lemma happen_fit rgb k o s e : fit (s_world s) -> sane e -> fit (s_world (happen rgb k o s e)) /\ untouched (fst (s_world s)) (fst (s_world (happen rgb k o s e))).
Proof.
  intros F H. rewrite happen_acts, acts_world. apply run_fit; [exact F|]. intros op Ho. apply in_flat_map in Ho. destruct Ho as [a [Ha Ho]]. refine (ops_fit a _ op Ho).
  apply (sane_actions [e]); [intros e' [<-|[]]; exact H|]. cbn [flat_map]. rewrite app_nil_r. exact Ha.
Qed.
Lemma fresh_fit h rc : h_chains h = [] -> (forall f, In f (h_frames h) -> frame_wf f) -> fit (s_world (fresh h rc)).
Proof.
  intros H1 H2. split; [apply world_ok_new|]. split; [|intros P o; discriminate]. split; [exact H2|]. intros l c H. unfold chain_at in H. cbn in H. rewrite H1 in H. destruct l; discriminate.
Qed.
Lemma happens_fit rgb k o : forall l s, fit (s_world s) -> (forall e, In e l -> sane e) -> fit (s_world (happens rgb k o s l)) /\ untouched (fst (s_world s)) (fst (s_world (happens rgb k o s l))).
Proof.
  induction l as [|e l IH]; intros s F H; [split; [exact F|apply untouched_refl]|]. cbn [happens fold_left]. fold (happens rgb k o (happen rgb k o s e) l). destruct (happen_fit rgb k o s e F (H e (or_introl eq_refl))) as [F1 U1].
  destruct (IH _ F1 (fun e' He => H e' (or_intror He))) as [F2 U2]. split; [exact F2|]. eapply untouched_trans; eassumption.
Qed.

(** ** The same consumer in a larger heap *)
Section larger.
Variables (o : primitives) (k : backend) (s s' : session).
Hypothesis HF : fit (s_world s).
Hypothesis HU : untouched (fst (s_world s)) (fst (s_world s')).
Hypothesis HK : snd (s_world s') = snd (s_world s).
Hypothesis HT : s_truths s' = s_truths s.
Hypothesis HP : s_plotter s' = s_plotter s.
Lemma larger_frames l c : chain_at (fst (s_world s)) l = Some c -> (ch_samples c < length (h_frames (fst (s_world s))))%nat.
Proof. destruct HF as [_ [[_ HO] _]]. intros Hc. exact (proj1 (HO l c Hc)). Qed.
Lemma larger_contents req b names : requested (s_world s) req = map Some names -> contents (s_world s') req b = contents (s_world s) req b.
Proof. intros HR. eapply contents_same; [exact (proj1 HF)|exact HU|exact HK|exact HR|]. intros n l c _ Hc. exact (larger_frames l c Hc). Qed.
Lemma larger_answer q : about_existing (s_world s) q -> snd (ask o s' q) = snd (ask o s q).
Proof.
  pose proof (proj1 HF) as W. pose proof larger_frames as HS.
  assert (W' : world_ok (s_world s')) by (destruct (s_world s) as [h1 k1], (s_world s') as [h2 k2]; cbn [fst snd] in *; subst k2; eapply world_ok_heap; eassumption).
  intros HQ. destruct q as [req columns|columns req t c l hl b|which columns c l|which columns c l|names| | | |c l hl a b d st de|r t|r f l t]; cbn [ask]; unfold about_existing in HQ; cbn [mentioned] in HQ; try rewrite HP.
  - assert (E : snd (get_summary (pr_num o) (s_world s') req columns) = snd (get_summary (pr_num o) (s_world s) req columns)).
    { destruct req as [refs|d|]; [exact (later_summary_list _ _ HU HS _ _ _ HQ)|apply later_summary_dict|]. rewrite !summary_all by assumption. rewrite (larger_contents ReqAll true (get_names (s_world s)) eq_refl). reflexivity. }
    destruct (get_summary _ (s_world s) _ _) as [u1 r1], (get_summary _ (s_world s') _ _) as [u2 r2]. cbn [snd] in *. rewrite E. reflexivity.
  - destruct (requested_known _ _ HQ) as [names HN].
    set (cf := config_in_use (s_plotter s)). pose proof (latex_same (pr_num o) (pr_repr o) (pr_ascii o) (p_labels cf) (p_blind cf) columns t c l hl b _ _ req (larger_contents _ false _ HN)) as E.
    destruct (get_latex_table _ _ _ (s_world s) _ _ _ _ _ _ _ _ _) as [u1 r1], (get_latex_table _ _ _ (s_world s') _ _ _ _ _ _ _ _ _) as [u2 r2]. cbn [snd] in *. rewrite E. reflexivity.
  - cbn [snd]. f_equal. unfold get_correlation_table. rewrite (later_table _ _ HU HK HS which); [reflexivity| |exact W]. intros r0 -> l0. apply HQ.
  - cbn [snd]. f_equal. unfold get_covariance_table. rewrite (later_table _ _ HU HK HS which); [reflexivity| |exact W]. intros r0 -> l0. apply HQ.
  - cbn [snd]. rewrite (later_points _ _ HU HK HS names W). reflexivity.
  - cbn [snd]. unfold aic. rewrite (later_scores _ _ HU HK HS _ W). reflexivity.
  - cbn [snd]. unfold bic. rewrite (later_scores _ _ HU HK HS _ W). reflexivity.
  - cbn [snd]. unfold dic. rewrite (later_scores _ _ HU HK HS _ W). reflexivity.
  - cbn [snd]. unfold comparison_table, aic, bic, dic. rewrite !(later_scores _ _ HU HK HS _ W). reflexivity.
  - cbn [snd]. unfold gelman_rubin. rewrite (later_test _ _ HU HK HS _ r W HQ). reflexivity.
  - cbn [snd]. unfold geweke. rewrite (later_test _ _ HU HK HS _ r W HQ). reflexivity.
Qed.
Lemma larger_drawing d : (forall l, In l (req_locs (asks_for d)) -> exists c, chain_at (fst (s_world s)) l = Some c) -> snd (draw_figure k s' d) = snd (draw_figure k s d).
Proof.
  intros HQ. destruct (requested_known _ _ HQ) as [names HN]. destruct (draw_form k d) as [num [columns [wide [f F]]]]. rewrite !F, !with_base_contents, HT, HP, (larger_contents _ false _ HN). reflexivity.
Qed.
Lemma larger_same : same_to_the_user k o s s'.
Proof. split; [exact HU|]. split; [exact HK|]. split; [exact HT|]. split; [exact HP|]. split; [apply larger_answer|apply larger_drawing]. Qed.
End larger.

(** ** Failing calls *)
Lemma raises_keeps rgb k o s e : fit (s_world s) -> raises rgb k o s e \/ harmless e ->
  snd (s_world (happen rgb k o s e)) = snd (s_world s) /\ s_truths (happen rgb k o s e) = s_truths s /\ s_plotter (happen rgb k o s e) = s_plotter s.
Proof.
  intros [W _] H. assert (D : harmless e \/ (exists op, e = Did (ARegistry op) /\ exists x, snd (step rgb (s_world s) op) = Err x) \/ exists t, e = Did (ATruth t) /\ ~ valid_truth (bk_filled k) t).
  { destruct e as [[op|t|cfg|d| |rc]|q]; try (left; exact I).
    - destruct H as [H|H]; [right; left; exists op; split; [reflexivity|exact H]|left; exact H].
    - destruct H as [H|H]; [right; right; exists t; split; [reflexivity|exact H]|left; exact H].
    - destruct H as [H|H]; [destruct H|left; exact H]. }
  destruct D as [D|[[op [-> [x X]]]|[t [-> X]]]].
  - pose proof (looking_keeps rgb k (as_actions e) s) as L. rewrite happen_acts. destruct L as [L1 [L2 L3]]; [|auto]. intros a Ha. apply (harmless_actions [e]); [intros e' [<-|[]]; exact D|]. cbn [flat_map]. rewrite app_nil_r. exact Ha.
  - cbn [happen act]. destruct (step rgb (s_world s) op) as [w' r] eqn:E. cbn [fst snd] in *. subst r. destruct (step_effect _ _ _ _ _ E W) as [_ [_ K]]. cbn. split; [exact K|]. split; reflexivity.
  - cbn [happen act]. rewrite (proj2 (C77_accepted (bk_filled k) t) X). auto.
Qed.
Lemma in_vain_keeps rgb k o : forall l s, fit (s_world s) -> (forall e, In e l -> sane e) -> in_vain rgb k o s l ->
  snd (s_world (happens rgb k o s l)) = snd (s_world s) /\ s_truths (happens rgb k o s l) = s_truths s /\ s_plotter (happens rgb k o s l) = s_plotter s.
Proof.
  induction l as [|e l IH]; intros s F H V; [auto|]. destruct V as [V1 V2]. cbn [happens fold_left]. fold (happens rgb k o (happen rgb k o s e) l).
  destruct (raises_keeps rgb k o s e F V1) as [K1 [K2 K3]]. destruct (happen_fit rgb k o s e F (H e (or_introl eq_refl))) as [F1 _]. destruct (IH _ F1 (fun e' He => H e' (or_intror He)) V2) as [-> [-> ->]]. auto.
Qed.

(** ** Several consumers *)
Lemma replace_at_same {A} (x : A) : forall i l, (i < length l)%nat -> nth_error (replace_at i x l) i = Some x.
Proof. induction i as [|i IH]; intros [|y l] H; cbn in *; try lia; [reflexivity|]. apply IH. lia. Qed.
Lemma replace_at_other {A} (x : A) : forall i j l, j <> i -> nth_error (replace_at i x l) j = nth_error l j.
Proof. induction i as [|i IH]; intros [|j] [|y l] H; cbn in *; try reflexivity; try contradiction. apply IH. lia. Qed.
Lemma replace_at_length {A} (x : A) : forall i l, length (replace_at i x l) = length l.
Proof. induction i as [|i IH]; intros [|y l]; cbn; congruence. Qed.
Definition all_fit (p : process) : Prop := SessionProofs.heap_ok false (pc_heap p) /\ forall i s, consumer_at p i = Some s -> fit (s_world s).
Lemma fit_larger w h : fit w -> SessionProofs.heap_ok false h -> untouched (fst w) h -> fit (h, snd w).
Proof.
  intros [W [G O]] H U. destruct w as [h0 c]. cbn [fst snd] in *. split; [eapply world_ok_heap; eassumption|]. split; [exact H|exact O].
Qed.
Lemma use_fit rgb k o p u : all_fit p -> reasonable u -> all_fit (use rgb k o p u) /\ untouched (pc_heap p) (pc_heap (use rgb k o p u)) /\ (length (pc_consumers p) <= length (pc_consumers (use rgb k o p u)))%nat.
Proof.
  intros [HH A] R. destruct u as [|i e]; cbn [use].
  - split; [|split; [apply untouched_refl|cbn; rewrite app_length; lia]]. split; [exact HH|]. intros j s Hs. unfold consumer_at in Hs. cbn [pc_consumers] in Hs.
    destruct (Nat.lt_ge_cases j (length (pc_consumers p))) as [L|L].
    + rewrite nth_error_app1 in Hs by exact L. destruct (nth_error (pc_consumers p) j) as [x|] eqn:E; [|discriminate]. injection Hs as <-. assert (F : fit (s_world (seen_by p x))) by (apply (A j); unfold consumer_at; rewrite E; reflexivity). exact F.
    + rewrite nth_error_app2 in Hs by exact L. destruct (j - length (pc_consumers p))%nat as [|m]; [|destruct m; discriminate]. injection Hs as <-. split; [apply world_ok_new|]. split; [exact HH|intros P op; discriminate].
  - destruct (consumer_at p i) as [s|] eqn:E; [|split; [split; assumption|split; [apply untouched_refl|lia]]]. cbv zeta.
    destruct (happen_fit rgb k o s e (A i s E) R) as [F U]. assert (HS : fst (s_world s) = pc_heap p). { unfold consumer_at in E. destruct (nth_error _ i); [|discriminate]. injection E as <-. reflexivity. }
    split; [|split; [cbn; rewrite <- HS; exact U|cbn; rewrite replace_at_length; lia]]. split; [cbn; exact (proj1 (proj2 F))|]. intros j t Ht. unfold consumer_at in Ht. cbn [pc_consumers] in Ht.
    assert (LI : (i < length (pc_consumers p))%nat) by (apply nth_error_Some; unfold consumer_at in E; intros N; rewrite N in E; discriminate).
    destruct (Nat.eq_dec j i) as [->|N].
    + rewrite replace_at_same in Ht by exact LI. injection Ht as <-. unfold seen_by. cbn. destruct (s_world (happen rgb k o s e)) as [h c]. exact F.
    + rewrite replace_at_other in Ht by exact N. destruct (nth_error (pc_consumers p) j) as [x|] eqn:EJ; [|discriminate]. injection Ht as <-.
      assert (FX : fit (s_world (seen_by p x))) by (apply (A j); unfold consumer_at; rewrite EJ; reflexivity). change (fit (fst (s_world (happen rgb k o s e)), snd (s_world (seen_by p x)))).
      apply fit_larger; [exact FX|exact (proj1 (proj2 F))|]. change (fst (s_world (seen_by p x))) with (pc_heap p). rewrite <- HS. exact U.
Qed.
Lemma uses_fit rgb k o : forall l p, all_fit p -> (forall u, In u l -> reasonable u) -> all_fit (uses rgb k o p l) /\ untouched (pc_heap p) (pc_heap (uses rgb k o p l)).
Proof.
  induction l as [|u l IH]; intros p A H; [split; [exact A|apply untouched_refl]|]. cbn [uses fold_left]. fold (uses rgb k o (use rgb k o p u) l). destruct (use_fit rgb k o p u A (H u (or_introl eq_refl))) as [A1 [U1 _]].
  destruct (IH _ A1 (fun u' Hu => H u' (or_intror Hu))) as [A2 U2]. split; [exact A2|]. eapply untouched_trans; eassumption.
Qed.
Lemma started_fit h rc : h_chains h = [] -> (forall f, In f (h_frames h) -> frame_wf f) -> all_fit (started h rc).
Proof. intros H1 H2. split; [exact (proj1 (proj2 (fresh_fit h rc H1 H2)))|]. intros i s H. unfold consumer_at in H. cbn in H. destruct i; discriminate. Qed.
Lemma elsewhere_keeps rgb k o i : forall l p x, (forall u, In u l -> elsewhere i u) -> nth_error (pc_consumers p) i = Some x -> nth_error (pc_consumers (uses rgb k o p l)) i = Some x.
Proof.
  induction l as [|u l IH]; intros p x H E; [exact E|]. cbn [uses fold_left]. fold (uses rgb k o (use rgb k o p u) l). apply IH; [intros u' Hu; apply H; right; exact Hu|]. specialize (H u (or_introl eq_refl)).
  destruct u as [|j e]; cbn [use].
  - cbn. rewrite nth_error_app1; [exact E|]. apply nth_error_Some. congruence.
  - destruct (consumer_at p j) as [s|]; [|exact E]. cbn. rewrite replace_at_other; [exact E|]. intros ->. apply H. reflexivity.
Qed.

(** ** matplotlib's parameters *)
Definition remembers (rc : rc_params) (x : owner) : Prop := pl_usetex_old (ow_plotter x) = rc_usetex rc /\ pl_serif_old (ow_plotter x) = rc_family rc.
Lemma in_replace_at {A} (x y : A) : forall i l, In y (replace_at i x l) -> y = x \/ In y l.
Proof. induction i as [|i IH]; intros [|z l] H; cbn in *; auto; destruct H as [->|H]; auto. destruct (IH l H); auto. Qed.
Lemma happen_plotter rgb k o s e : pl_usetex_old (s_plotter (happen rgb k o s e)) = pl_usetex_old (s_plotter s) /\ pl_serif_old (s_plotter (happen rgb k o s e)) = pl_serif_old (s_plotter s).
Proof. rewrite happen_acts. apply acts_plotter. Qed.
Lemma asked_rc o s q : s_rc (fst (ask o s q)) = s_rc s.
Proof. destruct q as [req columns|columns req t c l h b| | | | | | | | |]; cbn [ask]; try reflexivity; [destruct (get_summary _ _ _ _); reflexivity|]. destruct (get_latex_table _ _ _ _ _ _ _ _ _ _ _ _ _); reflexivity. Qed.
Lemma quiet_rc rgb k o s e i : quiet (On i e) -> s_rc (happen rgb k o s e) = s_rc s \/ s_rc (happen rgb k o s e) = restore_rc_params (s_plotter s) (s_rc s).
Proof.
  intros Q. destruct e as [[op|t|cfg|d| |rc]|q]; try contradiction; cbn [happen act]; try (left; reflexivity).
  - destruct (new_truth _ _); left; reflexivity.
  - right. reflexivity.
  - left. apply asked_rc.
Qed.
Lemma use_remembers rgb k o rc p u : Forall (remembers rc) (pc_consumers p) -> u <> Make \/ same_fonts rc (pc_rc p) -> Forall (remembers rc) (pc_consumers (use rgb k o p u)).
Proof.
  intros H C. destruct u as [|i e]; cbn [use].
  - destruct C as [C|C]; [contradiction|]. cbn. apply Forall_app. split; [exact H|]. constructor; [exact C|constructor].
  - destruct (consumer_at p i) as [s|] eqn:E; [|exact H]. cbn. rewrite Forall_forall in *. intros x Hx. apply in_replace_at in Hx. destruct Hx as [->|Hx]; [|auto]. unfold remembers. cbn [ow_plotter]. destruct (happen_plotter rgb k o s e) as [-> ->].
    unfold consumer_at in E. destruct (nth_error (pc_consumers p) i) as [y|] eqn:EY; [|discriminate]. injection E as <-. apply (H y). eapply nth_error_In. exact EY.
Qed.
Lemma quiet_remembers rgb k o rc : forall l p, (forall u, In u l -> quiet u) -> Forall (remembers rc) (pc_consumers p) -> same_fonts rc (pc_rc p) -> Forall (remembers rc) (pc_consumers (uses rgb k o p l)) /\ same_fonts rc (pc_rc (uses rgb k o p l)).
Proof.
  induction l as [|u l IH]; intros p Q H C; [auto|]. cbn [uses fold_left]. fold (uses rgb k o (use rgb k o p u) l). apply IH; [intros u' Hu; apply Q; right; exact Hu|apply use_remembers; auto|]. specialize (Q u (or_introl eq_refl)).
  destruct u as [|i e]; cbn [use]; [exact C|]. destruct (consumer_at p i) as [s|] eqn:E; [|exact C]. cbn [pc_rc]. unfold consumer_at in E. destruct (nth_error (pc_consumers p) i) as [y|] eqn:EY; [|discriminate]. injection E as <-.
  destruct (quiet_rc rgb k o (seen_by p y) e i Q) as [->| ->]; [exact C|]. rewrite Forall_forall in H. exact (H y (nth_error_In _ _ EY)).
Qed.
Lemma later_remembers rgb k o rc : forall l p, (forall u, In u l -> u <> Make) -> Forall (remembers rc) (pc_consumers p) -> Forall (remembers rc) (pc_consumers (uses rgb k o p l)).
Proof.
  induction l as [|u l IH]; intros p Q H; [auto|]. cbn [uses fold_left]. fold (uses rgb k o (use rgb k o p u) l). apply IH; [intros u' Hu; apply Q; right; exact Hu|]. apply use_remembers; [exact H|left; apply Q; left; reflexivity].
Qed.
