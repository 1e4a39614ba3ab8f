(** C98: a call that fails has no lasting effect. C99: consumers in one process do not influence each other. *)
From Coq Require Import String List Bool Arith ZArith QArith Reals Lia.
From Verif Require Import Py NumModel ColorModel FrameModel ConfigModel ChainModel RegistryModel RegistrySpec HeapFacts RegistryProofs RegistryProps AnalysisModel AnalysisSpec AnalysisProps SurfaceModel FigureModel FigureSpec FigureCases ConsumerSpec ConsumerProofs ConsumerProps QuerySpec QueryProofs QueryProps ProcessSpec ProcessProofs.
Import ListNotations.
Open Scope string_scope.
Open Scope list_scope.

(** ** C98 *)
(** After any number of calls that raised (among questions, drawings and selections) the consumer is the same to the
    user: the same chains, override, truths and configuration, all objects unchanged, every question answered and every
    figure drawn as if the calls had not been made. *)
Theorem C98_no_effect_partial : forall rgb2hex k o h rc before vain,
  h_chains h = [] -> (forall f, In f (h_frames h) -> frame_wf f) -> (forall e, In e before -> sane e) -> (forall e, In e vain -> sane e) ->
  let s := happens rgb2hex k o (fresh h rc) before in in_vain rgb2hex k o s vain -> same_to_the_user k o s (happens rgb2hex k o s vain).
Proof.
  intros rgb k o h rc before vain H1 H2 H3 H4. cbv zeta. intros V. destruct (happens_fit rgb k o before (fresh h rc) (fresh_fit h rc H1 H2) H3) as [F _]. set (s := happens rgb k o (fresh h rc) before) in *.
  destruct (happens_fit rgb k o vain s F H4) as [_ U]. destruct (in_vain_keeps rgb k o vain s F H4 V) as [K1 [K2 K3]]. apply larger_same; assumption.
Qed.
Print Assumptions C98_no_effect_partial.
(** Only drawing can leave matplotlib's parameters changed when it fails, and then to the configuration's. *)
Theorem C98_parameters_partial : forall rgb2hex k o s e, raises rgb2hex k o s e ->
  s_rc (happen rgb2hex k o s e) = s_rc s \/ exists d, e = Did (ADraw d) /\ drawn_with (config_in_use (s_plotter s)) (s_rc s) (s_rc (happen rgb2hex k o s e)).
Proof.
  intros rgb k o s e R. destruct e as [[op|t|cfg|d| |rc]|q]; try contradiction; cbn [happen act].
  - left. reflexivity.
  - left. destruct (new_truth _ _); reflexivity.
  - destruct (draw_form k d) as [num [columns [wide [f F]]]]. rewrite F. destruct (with_base_rc num s (asks_for d) columns wide f) as [[->| ->] _]; [left; reflexivity|]. right. exists d. split; [reflexivity|]. repeat split. cbn. destruct (p_serif _) as [[|]|]; reflexivity.
  - left. apply asked_rc.
Qed.
Print Assumptions C98_parameters_partial.

(** A drawing that raises (no columns can be wrapped at zero) leaves usetex switched on for the rest of the process. *)
Theorem C98_parameters_refuted : exists s d x, reachable ex_rgb (s_world s) /\ snd (draw_figure ex_backend s d) = Err x /\ rc_usetex (s_rc s) = false /\ rc_usetex (s_rc (fst (draw_figure ex_backend s d))) = true.
Proof.
  exists (fig_pair (fig_cfg false true (BlindBool false) [])), (DDistributions ReqAll None FileNone 0 SizeNone), ZeroDivisionError. split; [apply fig_reachable|]. repeat split; vm_compute; reflexivity.
Qed.
Print Assumptions C98_parameters_refuted.

(** A chain object is added twice, a chain that does not exist is removed and summarised, a figure without rows and a
    marker that cannot have an edge are asked for. *)
Definition wrong_truth : truth := {| t_location := [("x", 1)]; t_name := None; t_color := CName "black"; t_edge_color := None; t_line_width := 1; t_line_style := "--"; t_alpha := 1; t_zorder := 100; t_marker := Some "x"; t_marker_size := 20; t_marker_edge_width := 2 |}.
Definition vain_calls : list QuerySpec.event := [Did (ARegistry (OpAdd 0)); Did (ARegistry (OpRemove "C")); Did (ATruth wrong_truth); Did (ADraw (DDistributions ReqAll None FileNone 0 SizeNone)); Asked (QSummary (ReqList [ByName "A"]) None); Asked QAic].
Example C98_nonvacuous : let s := happens ex_rgb ex_backend query_prims (fresh fig_heap fig_rc) query_before in
  (forall e, In e query_before -> sane e) /\ (forall e, In e vain_calls -> sane e) /\ in_vain ex_rgb ex_backend query_prims s vain_calls /\
  (forall e, In e (firstn 5 vain_calls) -> raises ex_rgb ex_backend query_prims s e) /\ (length (h_chains (fst (s_world s))) < length (h_chains (fst (s_world (happens ex_rgb ex_backend query_prims s vain_calls)))))%nat /\
  exists fig, snd (draw_figure ex_backend s case_draw) = Ok fig.
Proof.
  cbv zeta. split; [intros e He; repeat (destruct He as [<-|He]; [exact I|]); destruct He|]. split; [intros e He; repeat (destruct He as [<-|He]; [exact I|]); destruct He|].
  assert (NV : ~ valid_truth (bk_filled ex_backend) wrong_truth) by (intros V; specialize (V "x" eq_refl eq_refl); vm_compute in V; apply V; reflexivity).
  split. { cbn [in_vain vain_calls]. split; [left; eexists; vm_compute; reflexivity|]. split; [left; eexists; vm_compute; reflexivity|]. split; [left; exact NV|]. split; [left; eexists; vm_compute; reflexivity|]. split; [right; exact I|]. split; [right; exact I|exact I]. }
  split. { intros e He. destruct He as [<-|[<-|[<-|[<-|[<-|[]]]]]]; cbn [raises]; [eexists; vm_compute; reflexivity|eexists; vm_compute; reflexivity|exact NV|eexists; vm_compute; reflexivity|vm_compute; exact I]. }
  split; [vm_compute; lia|]. eexists. vm_compute. reflexivity.
Qed.

(** ** C99 *)
(** Whatever is done with other consumers of the process, new or old, a consumer stays the same to the user. *)
Theorem C99_isolated_partial : forall rgb2hex k o h rc before between i s,
  h_chains h = [] -> (forall f, In f (h_frames h) -> frame_wf f) -> (forall u, In u before -> reasonable u) -> (forall u, In u between -> reasonable u /\ elsewhere i u) ->
  let p := uses rgb2hex k o (started h rc) before in consumer_at p i = Some s ->
  exists s', consumer_at (uses rgb2hex k o p between) i = Some s' /\ same_to_the_user k o s s'.
Proof.
  intros rgb k o h rc before between i s H1 H2 H3 H4. cbv zeta. intros HC. destruct (uses_fit rgb k o before (started h rc) (started_fit h rc H1 H2) H3) as [A _]. set (p := uses rgb k o (started h rc) before) in *.
  destruct (uses_fit rgb k o between p A (fun u Hu => proj1 (H4 u Hu))) as [_ U]. pose proof (proj2 A i s HC) as F. unfold consumer_at in *. destruct (nth_error (pc_consumers p) i) as [x|] eqn:E; [|discriminate]. injection HC as <-.
  rewrite (elsewhere_keeps rgb k o i between p x (fun u Hu => proj2 (H4 u Hu)) E). eexists. split; [reflexivity|]. apply larger_same; try reflexivity; [exact F|exact U].
Qed.
Print Assumptions C99_isolated_partial.
(** If all consumers are made before the first figure, then each of them can restore the parameters that held at the
    start, whichever of them has drawn what. *)
Theorem C99_restore_partial : forall rgb2hex k o h rc before after i s,
  (forall u, In u before -> quiet u) -> (forall u, In u after -> u <> Make) ->
  let p := uses rgb2hex k o (uses rgb2hex k o (started h rc) before) after in consumer_at p i = Some s ->
  same_fonts rc (pc_rc (use rgb2hex k o p (On i (Did ARestore)))).
Proof.
  intros rgb k o h rc before after i s H1 H2. cbv zeta. intros HC. destruct (quiet_remembers rgb k o rc before (started h rc) H1 (Forall_nil _) (conj eq_refl eq_refl)) as [Q _].
  pose proof (later_remembers rgb k o rc after _ H2 Q) as R. cbn [use]. rewrite HC. cbn. unfold consumer_at in HC. destruct (nth_error _ i) as [x|] eqn:E; [|discriminate]. injection HC as <-. rewrite Forall_forall in R. exact (R x (nth_error_In _ _ E)).
Qed.
Print Assumptions C99_restore_partial.
(** A consumer that is made after another one has drawn takes the other's parameters for the user's: both consumers
    have restored, and usetex is still on. *)
Theorem C99_restore_refuted : exists before, let p := uses ex_rgb ex_backend query_prims (started fig_heap fig_rc) before in
  (forall j e, In (On j e) before -> match e with Did (ASetRc _) => False | _ => True end) /\
  ~ same_fonts fig_rc (pc_rc (uses ex_rgb ex_backend query_prims p [On 0 (Did ARestore); On 1 (Did ARestore)])).
Proof.
  exists ([Make] ++ map (On 0) query_before ++ [On 0 (Did (ADraw case_draw)); Make]). cbv zeta. split.
  - intros j e He. repeat (destruct He as [He|He]; [try discriminate; injection He as <- <-; exact I|]). destruct He.
  - intros [H _]. vm_compute in H. discriminate.
Qed.
Print Assumptions C99_restore_refuted.
(** Two consumers share the chain object A; the second one also has B, an override and a truth of its own, and draws. *)
Definition shared_before : list usage := Make :: map (On 0) query_before ++ [On 0 (Did (ARegistry (OpRemove "B")))].
Definition shared_between : list usage := [Make; On 1 (Did (ARegistry (OpAdd 0))); On 1 (Did (ARegistry (OpAdd 1))); On 1 (Did (AConfig (fig_cfg true true (BlindBool true) []))); On 1 (Did (ADraw case_draw)); On 1 (Asked (QSummary ReqAll None)); On 1 (Did (ARegistry (OpRemove "A")))].
Example C99_nonvacuous : let p := uses ex_rgb ex_backend query_prims (started fig_heap fig_rc) shared_before in let p' := uses ex_rgb ex_backend query_prims p shared_between in
  (forall u, In u shared_before -> reasonable u) /\ (forall u, In u shared_between -> reasonable u /\ elsewhere 0 u) /\
  option_map (fun s => get_names (s_world s)) (consumer_at p 0) = Some ["A"] /\ option_map (fun s => get_names (s_world s)) (consumer_at p' 0) = Some ["A"] /\ option_map (fun s => get_names (s_world s)) (consumer_at p' 1) = Some ["B"] /\
  match option_map (fun s => snd (draw_figure ex_backend s case_draw)) (consumer_at p' 0) with Some (Ok _) => True | _ => False end /\ (length (h_chains (pc_heap p)) < length (h_chains (pc_heap p')))%nat.
Proof.
  cbv zeta. split; [intros u Hu; repeat (destruct Hu as [<-|Hu]; [exact I|]); destruct Hu|]. split; [intros u Hu; repeat (destruct Hu as [<-|Hu]; [split; [exact I|cbn; try exact I; discriminate]|]); destruct Hu|].
  split; [vm_compute; reflexivity|]. split; [vm_compute; reflexivity|]. split; [vm_compute; reflexivity|]. split; [vm_compute; exact I|vm_compute; lia].
Qed.
