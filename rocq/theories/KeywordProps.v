(** C85: keyword arguments that are not settings. *)
From Coq Require Import String List Bool Arith ZArith QArith Lia.
From Verif Require Import Py NumModel ColorModel MarginalModel FrameModel ConfigModel ChainModel RegistryModel RegistrySpec HeapFacts RegistryProofs RegistryProps AnalysisModel DiagProofs ConsumerProofs KeywordModel KeywordSpec KeywordProofs.
Import ListNotations.
Open Scope string_scope.
Open Scope list_scope.

(** * C85 *)
(** If every keyword of the override is a setting, choosing the chains of a figure or summary is what [sanitise_chains] does. *)
Theorem C85_well_spelt : forall w req include_skip, well_spelt w ->
  sanitise_chains_kw w req include_skip = ((fst (fst (sanitise_chains (forget w) req include_skip)), snd w), snd (sanitise_chains (forget w) req include_skip)).
Proof. exact select_same. Qed.
Print Assumptions C85_well_spelt.
(** With an override that was given an unknown keyword every figure and summary of a consumer with chains fails with an
    AttributeError; nothing the user stored is changed. *)
Theorem C85_misspelt_partial : forall rgb2hex w o req include_skip, reachable rgb2hex (forget w) -> y_override (snd w) = Some o -> x_names o <> [] -> y_chains (snd w) <> [] ->
  exists h', sanitise_chains_kw w req include_skip = ((h', snd w), Err AttributeError) /\ untouched (fst w) h'.
Proof.
  intros rgb [h k] o req b R EO NE NC. destruct (misspelt_fails h k o EO NE NC) as [h' [E U]].
  - intros n l I. destruct (reachable_ok _ _ R) as [_ B]. destruct (B n l I) as [c [H _]]. exists c. exact H.
  - exists h'. unfold sanitise_chains_kw. rewrite E. split; [reflexivity|exact U].
Qed.
Print Assumptions C85_misspelt_partial.
(** Setting a correct override repairs the session: figures then show what they would have shown without the failure, with the new
    override. *)
Lemma shown_contents w req b l : shown w req b l <-> contents w req b = Ok l.
Proof.
  unfold shown, contents. destruct (sanitise_chains w req b) as [w1 [locs|e]]; cbn [fst snd rbind].
  - split.
    + intros [w2 [locs' [E F]]]. injection E as <- <-. apply rmapM_Forall2. clear -F. induction F as [|x [c f] xs ys [H K] F IH]; [constructor|]. constructor; [|exact IH]. cbn [fst snd] in *. unfold ref_object. rewrite H. subst f. reflexivity.
    + intros E. exists w1, locs. split; [reflexivity|]. apply rmapM_Forall2 in E. revert l E. induction locs as [|x locs IH]; intros l E; inversion E as [|? [c f] ? ? K E']; subst; constructor; [|apply IH; exact E'].
      unfold ref_object in K. destruct (chain_at (fst w1) x) as [c0|]; [|discriminate]. injection K as <- <-. split; reflexivity.
  - split; [intros [w2 [locs [E _]]]; discriminate|discriminate].
Qed.
Lemma pick_none h r : exists e, pick h [] (ref_name h r) = Err e /\ e <> AttributeError.
Proof. destruct r as [n|p]; cbn; [|destruct (chain_at h p)]; eexists; (split; [reflexivity|discriminate]). Qed.
Theorem C85_recovers : forall rgb2hex w o o' req include_skip w1 req' include_skip' names l, reachable rgb2hex (forget w) -> y_override (snd w) = Some o -> x_names o <> [] ->
  (forall n l c, In (n, l) (y_chains (snd w)) -> chain_at (fst w) l = Some c -> (ch_samples c < length (h_frames (fst w)))%nat) ->
  x_names o' = [] -> sanitise_chains_kw w req include_skip = (w1, Err AttributeError) -> requested (forget w) req' = map Some names ->
  shown (forget (set_override_kw w1 o')) req' include_skip' l <-> shown (fst w, {| k_chains := y_chains (snd w); k_override := Some (x_obj o') |}) req' include_skip' l.
Proof.
  intros rgb [h k] o o' req b w1 req' b' names l R EO NE HS NO E HR. rewrite !shown_contents.
  assert (K : exists h', w1 = (h', k) /\ untouched h h').
  { destruct (y_chains k) as [|x d] eqn:EC.
    - exfalso. unfold sanitise_chains_kw, get_final_chains_kw in E. rewrite EC in E. cbn [copy_chains] in E. unfold num_contour_chains in E. cbn [filter length resolve_loop_kw] in E. injection E as _ E.
      destruct req as [rs|d|]; [| |discriminate].
      + destruct rs as [|r rs]; [discriminate|]. cbn [rmapM fst] in E. destruct (pick_none h r) as [e [P N]]. rewrite P in E. cbn in E. congruence.
      + destruct d as [|r d]; [discriminate|]. cbn [rmapM fst] in E. destruct (pick_none h (ByChain (snd r))) as [e [P N]]. cbn [ref_name] in P. rewrite P in E. cbn in E. congruence.
    - destruct (C85_misspelt_partial rgb (h, k) o req b R EO NE) as [h' [E' U]]; [cbn [snd]; rewrite EC; discriminate|]. rewrite E' in E. injection E as <-. exists h'. split; [reflexivity|exact U]. }
  destruct K as [h' [-> U]]. pose proof (reachable_ok _ _ R) as W.
  assert (C : contents (forget (set_override_kw (h', k) o')) req' b' = contents (forget (set_override_kw (h, k) o')) req' b'); [|rewrite C; reflexivity].
  apply (contents_same _ _ req' b' names); [exact W|exact U|reflexivity|exact HR|]. exact HS.
Qed.
Print Assumptions C85_recovers.

(** ** Examples *)
Definition ex85_call : keywords := {| kw_known := no_kw; kw_unknown := ["linewidht"] |}.
Definition ex85_bad : config_kw := {| x_obj := {| o_cfg := default_config; o_user := fun _ => false |}; x_names := ["linewidht"] |}.
Definition ex85_world : world_kw := (fst ex_world, {| y_chains := k_chains (snd ex_world); y_override := Some ex85_bad |}).
Definition ex85_blank : config_obj := {| o_cfg := default_config; o_user := fun _ => false |}.
Lemma run_snoc rgb o : forall ops w w1 log, run rgb w ops = (w1, log) -> exists log', run rgb w (ops ++ [o]) = (fst (step rgb w1 o), log').
Proof.
  induction ops as [|p ops IH]; intros w w1 log H; cbn [run app] in *.
  - injection H as <- <-. destruct (step rgb w o) as [w2 e]. eexists. reflexivity.
  - destruct (step rgb w p) as [w2 e]. destruct (run rgb w2 ops) as [w3 lg] eqn:E. injection H as <- <-. destruct (IH _ _ _ E) as [log' ->]. eexists. reflexivity.
Qed.
Lemma ex85_reachable : reachable ex_rgb (forget ex85_world).
Proof. destruct (run_snoc ex_rgb (OpOverride ex85_blank) ex_ops (ex_heap, new_consumer) ex_world _ (surjective_pairing _)) as [log E]. exists ex_heap, (ex_ops ++ [OpOverride ex85_blank]), log. exact E. Qed.
Example C85_nonvacuous : reachable ex_rgb (forget ex85_world) /\ y_chains (snd ex85_world) <> [] /\
  snd (sanitise_chains_kw ex85_world ReqAll false) = Err AttributeError /\
  snd (sanitise_chains_kw (set_override_kw ex85_world {| x_obj := ex_override; x_names := [] |}) ReqAll false) <> Err AttributeError /\ well_spelt (set_override_kw ex85_world {| x_obj := ex_override; x_names := [] |}).
Proof. split; [exact ex85_reachable|]. split; [vm_compute; discriminate|]. split; [vm_compute; reflexivity|]. split; [vm_compute; discriminate|]. intros o E. injection E as <-. reflexivity. Qed.

(** Unknown keywords are refused neither by ChainConfig nor by Chain: the misspelt override is accepted and only the next figure
    raises; a chain with a misspelt colour is drawn in the automatic one. *)
Theorem C85_refuted : exists rgb2hex k o w a h l c, kw_unknown k <> [] /\ new_config_kw rgb2hex k = Ok o /\ reachable rgb2hex (forget w) /\
  snd (sanitise_chains_kw (set_override_kw w o) ReqAll false) = Err AttributeError /\
  new_chain_kw rgb2hex (fst w) a ["colour"] = (h, Ok l) /\ chain_at h l = Some c /\ ch_cfg c Fcolor = None.
Proof.
  exists ex_rgb, ex85_call, {| x_obj := {| o_cfg := fill None no_kw; o_user := user_keys no_kw |}; x_names := ["linewidht"] |}, ex85_world, (ex_args "new" no_kw). do 3 eexists.
  split; [discriminate|]. split; [reflexivity|]. split; [exact ex85_reachable|]. split; [vm_compute; reflexivity|]. split; [vm_compute; reflexivity|]. split; [vm_compute; reflexivity|]. reflexivity.
Qed.
Print Assumptions C85_refuted.
