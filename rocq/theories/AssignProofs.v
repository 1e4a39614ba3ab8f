(** Lemmas for C92. *)
From Coq Require Import String List Bool Arith ZArith QArith Lia.
From Verif Require Import Py ColorModel FrameModel ConfigModel ChainModel RegistryModel RegistrySpec HeapFacts RegistryProofs AssignModel AssignSpec.
From Verif Require HistoryProps.
Import ListNotations.
Open Scope list_scope.

Lemma doing_app rgb w a b : doing rgb w (a ++ b) = doing rgb (doing rgb w a) b.
Proof. apply fold_left_app. Qed.
Lemma assign_at h l s l' : chain_at (assign h l s) l' = if Nat.eqb l l' then option_map (fun c => with_cfg c (set_one (ch_cfg c) s)) (chain_at h l') else chain_at h l'.
Proof.
  unfold assign. destruct (chain_at h l) as [c|] eqn:E.
  - rewrite write_chain_at by (apply nth_error_Some; unfold chain_at in E; congruence). destruct (Nat.eqb_spec l l') as [<-|N]; [rewrite E|]; reflexivity.
  - destruct (Nat.eqb_spec l l') as [<-|N]; [rewrite E|]; reflexivity.
Qed.
Lemma does_ok rgb w d : ~ renames d -> world_ok w -> world_ok (does rgb w d).
Proof.
  intros N W. destruct d as [o|l s|l n|s]; cbn [does renames] in *; [|split; [exact (proj1 W)|]|contradiction|exact W].
  - destruct (step rgb w o) as [w' r] eqn:E. exact (proj1 (step_effect rgb w o w' r E W)).
  - intros n l' H. cbn [fst snd] in *. destruct (proj2 W n l' H) as [c [C1 C2]]. rewrite assign_at, C1. destruct (Nat.eqb l l'); [exists (with_cfg c (set_one (ch_cfg c) s))|exists c]; split; try reflexivity; exact C2.
Qed.
Lemma doing_ok rgb : forall ds w, (forall d, In d ds -> ~ renames d) -> world_ok w -> world_ok (doing rgb w ds).
Proof.
  induction ds as [|d ds IH]; intros w N W; [exact W|]. cbn [doing fold_left]. apply IH; [intros x Hx; apply N; right; exact Hx|]. apply does_ok; [apply N; left; reflexivity|exact W].
Qed.
(** A chain keeps its value of a setting until it is assigned, and what was given when it was made. *)
Lemma does_keeps rgb w d l c f : ~ renames d -> world_ok w -> chain_at (fst w) l = Some c -> (forall v, d <> Assign l (existT ctype f v)) ->
  exists c', chain_at (fst (does rgb w d)) l = Some c' /\ ch_cfg c' f = ch_cfg c f /\ ch_user c' = ch_user c.
Proof.
  intros N W H NA. destruct d as [o|l' s|l' n|s]; cbn [does renames fst] in *; [| |contradiction|exists c; auto].
  - destruct (step rgb w o) as [w' r] eqn:E. destruct (step_effect rgb w o w' r E W) as [_ [[_ U] _]]. exists c. split; [exact (U _ _ H)|auto].
  - rewrite assign_at, H. destruct (Nat.eqb_spec l' l) as [->|NE]; [|exists c; auto]. eexists. split; [reflexivity|]. cbn [with_cfg ch_cfg ch_user]. split; [|reflexivity]. destruct s as [g v]. unfold set_one. cbn [projT1 projT2]. apply cset_other. intros ->. exact (NA v eq_refl).
Qed.
Lemma doing_keeps rgb f l : forall ds w c, (forall d, In d ds -> ~ renames d) -> world_ok w -> chain_at (fst w) l = Some c -> (forall v, ~ In (Assign l (existT ctype f v)) ds) ->
  exists c', chain_at (fst (doing rgb w ds)) l = Some c' /\ ch_cfg c' f = ch_cfg c f /\ ch_user c' = ch_user c.
Proof.
  induction ds as [|d ds IH]; intros w c N W H NA; [exists c; auto|]. cbn [doing fold_left]. destruct (does_keeps rgb w d l c f) as [c1 [H1 [E1 U1]]]; [apply N; left; reflexivity|exact W|exact H|intros v E; apply (NA v); left; exact E|].
  destruct (IH (does rgb w d) c1) as [c2 [H2 [E2 U2]]]; [intros x Hx; apply N; right; exact Hx|apply does_ok; [apply N; left; reflexivity|exact W]|exact H1|intros v E; apply (NA v); right; exact E|]. exists c2. split; [exact H2|]. split; congruence.
Qed.
Lemma doing_user rgb l : forall ds w c, (forall d, In d ds -> ~ renames d) -> world_ok w -> chain_at (fst w) l = Some c -> exists c', chain_at (fst (doing rgb w ds)) l = Some c' /\ ch_user c' = ch_user c.
Proof.
  induction ds as [|d ds IH]; intros w c N W H; [exists c; auto|]. cbn [doing fold_left].
  assert (K : exists c1, chain_at (fst (does rgb w d)) l = Some c1 /\ ch_user c1 = ch_user c).
  { destruct d as [o|l' s|l' n|s]; cbn [does fst]; [|rewrite assign_at, H; destruct (Nat.eqb l' l); eexists; split; reflexivity|exfalso; exact (N _ (or_introl eq_refl) I)|exists c; auto].
    destruct (step rgb w o) as [w' r] eqn:E. destruct (step_effect rgb w o w' r E W) as [_ [[_ U] _]]. exists c. split; [exact (U _ _ H)|reflexivity]. }
  destruct K as [c1 [H1 U1]]. destruct (IH (does rgb w d) c1) as [c2 [H2 U2]]; [intros x Hx; apply N; right; exact Hx|apply does_ok; [apply N; left; reflexivity|exact W]|exact H1|]. exists c2. split; [exact H2|congruence].
Qed.
Lemma assigned_value rgb h0 past l f v : (forall d, In d past -> ~ renames d) -> assigned rgb (h0, new_consumer) past l f v -> exists c, chain_at (fst (doing rgb (h0, new_consumer) past)) l = Some c /\ ch_cfg c f = v.
Proof.
  intros N [before [after [-> [[c0 H0] NA]]]]. rewrite doing_app. cbn [doing fold_left]. fold (doing rgb (does rgb (doing rgb (h0, new_consumer) before) (Assign l (existT ctype f v))) after).
  set (w1 := doing rgb (h0, new_consumer) before) in *. assert (W1 : world_ok w1) by (apply doing_ok; [intros d Hd; apply N; apply in_or_app; left; exact Hd|apply world_ok_new]). clearbody w1.
  assert (W2 : world_ok (does rgb w1 (Assign l (existT ctype f v)))) by (apply does_ok; [intros []|exact W1]).
  assert (H2 : chain_at (fst (does rgb w1 (Assign l (existT ctype f v)))) l = Some (with_cfg c0 (set_one (ch_cfg c0) (existT ctype f v)))) by (cbn [does fst]; rewrite assign_at, Nat.eqb_refl, H0; reflexivity).
  destruct (doing_keeps rgb f l after _ _ (fun d Hd => N d (in_or_app before (_ :: after) d (or_intror (or_intror Hd)))) W2 H2 NA) as [c' [H3 [E3 _]]]. exists c'. split; [exact H3|]. rewrite E3. cbn [with_cfg ch_cfg]. unfold set_one. cbn [projT1 projT2]. apply cset_same.
Qed.
Lemma new_chain_user rgb h a h' l : new_chain rgb h a = (h', Ok l) -> exists c, chain_at h' l = Some c /\ ch_user c = user_keys (a_cfg a).
Proof.
  unfold new_chain. destruct (match a_cfg a Fcolor with Some _ => _ | None => _ end) as [color|e]; [|discriminate].
  destruct (alloc_frame h (frame_at h (a_samples a))) as [h1 l1] eqn:EA. injection EA as <- <-.
  set (c := build color a (length (h_frames h))). destruct (negb (field_ranges c)); [discriminate|].
  set (h1 := {| h_frames := h_frames h ++ [frame_at h (a_samples a)]; h_chains := h_chains h |}).
  assert (G : forall h2 c1, validate_model h1 c = (h2, Ok c1) -> ch_user c1 = user_keys (a_cfg a)).
  { intros h2 c1. unfold validate_model. set (f := frame_at h1 (ch_samples c)). destruct (f_empty f); [discriminate|]. cbv zeta.
    destruct (negb (f_has f (ch_weight c)) && _); [discriminate|]. destruct (f_has f (ch_weight c) && _); [discriminate|]. set (f1 := if f_has f (ch_weight c) then f else _).
    destruct (negb (forallb _ (f_cols f1))); [discriminate|]. destruct (if ch_cfg c Fshift_params then _ else _) as [f2|e]; [|discriminate]. destruct (negb _) eqn:E1; [discriminate|]. clear E1.
    destruct (match ch_cfg c Fcolor_param with Some _ => _ | None => _ end); [discriminate|]. destruct (match ch_ndata c with Some _ => _ | None => _ end); [discriminate|]. destruct (_ && _) eqn:E2; [discriminate|]. clear E2.
    intros H. injection H as <- <-. reflexivity. }
  destruct (validate_model h1 c) as [h2 [c1|e]] eqn:EV; [|discriminate]. intros H. cbn in H. injection H as <- <-. exists c1. split; [|exact (G _ _ eq_refl)]. unfold chain_at. cbn. rewrite nth_error_app2, Nat.sub_diag by lia. reflexivity.
Qed.
Lemma made_user rgb h0 past l a : (forall d, In d past -> ~ renames d) -> made rgb (h0, new_consumer) past l a -> exists c, chain_at (fst (doing rgb (h0, new_consumer) past)) l = Some c /\ ch_user c = user_keys (a_cfg a).
Proof.
  intros N [before [after [h [-> E]]]]. rewrite doing_app. cbn [doing fold_left]. fold (doing rgb (does rgb (doing rgb (h0, new_consumer) before) (Do (OpNewChain a))) after). set (w1 := doing rgb (h0, new_consumer) before) in *.
  assert (W1 : world_ok w1) by (apply doing_ok; [intros d Hd; apply N; apply in_or_app; left; exact Hd|apply world_ok_new]). clearbody w1. destruct (new_chain_user rgb _ a h l E) as [c [H U]].
  assert (W2 : world_ok (does rgb w1 (Do (OpNewChain a)))) by (apply does_ok; [intros []|exact W1]).
  assert (H2 : chain_at (fst (does rgb w1 (Do (OpNewChain a)))) l = Some c) by (cbn [does step]; rewrite E; exact H).
  destruct (doing_user rgb l after _ c (fun d Hd => N d (in_or_app before (_ :: after) d (or_intror (or_intror Hd)))) W2 H2) as [c' [H3 U3]]. exists c'. split; [exact H3|congruence].
Qed.
(** The override. *)
Lemma does_override rgb w d f : (forall o, d <> Do (OpOverride o)) -> (forall v, d <> AssignOverride (existT ctype f v)) ->
  match k_override (snd w) with Some o => exists o', k_override (snd (does rgb w d)) = Some o' /\ o_user o' = o_user o /\ o_cfg o' f = o_cfg o f | None => k_override (snd (does rgb w d)) = None end.
Proof.
  intros NO NA. assert (K : k_override (snd (does rgb w d)) = k_override (snd w) \/ exists g v, d = AssignOverride (existT ctype g v)).
  { destruct d as [o|l s|l n|[g v]]; [left|left; reflexivity|left; reflexivity|right; eauto]. cbn [does]. rewrite HistoryProps.step_override. destruct o; try reflexivity. exfalso. exact (NO _ eq_refl). }
  destruct K as [->|[g [v ->]]]; [destruct (k_override (snd w)) as [o|]; [exists o; auto|reflexivity]|]. cbn [does assign_override snd k_override option_map]. destruct (k_override (snd w)) as [o|]; [|reflexivity]. eexists. split; [reflexivity|]. split; [reflexivity|]. cbn [o_cfg]. unfold set_one. cbn [projT1 projT2]. apply cset_other. intros ->. exact (NA v eq_refl).
Qed.
Lemma doing_override rgb f : forall ds w o, k_override (snd w) = Some o -> (forall o', ~ In (Do (OpOverride o')) ds) -> (forall v, ~ In (AssignOverride (existT ctype f v)) ds) ->
  exists o', k_override (snd (doing rgb w ds)) = Some o' /\ o_user o' = o_user o /\ o_cfg o' f = o_cfg o f.
Proof.
  induction ds as [|d ds IH]; intros w o H NO NA; [exists o; auto|]. cbn [doing fold_left]. pose proof (does_override rgb w d f (fun x E => NO x (or_introl E)) (fun x E => NA x (or_introl E))) as K. rewrite H in K. destruct K as [o1 [K1 [K2 K3]]].
  destruct (IH (does rgb w d) o1 K1) as [o2 [L1 [L2 L3]]]; [intros x E; exact (NO x (or_intror E))|intros x E; exact (NA x (or_intror E))|]. exists o2. split; [exact L1|]. split; congruence.
Qed.
Lemma doing_override_user rgb : forall ds w o, k_override (snd w) = Some o -> (forall o', ~ In (Do (OpOverride o')) ds) -> exists o', k_override (snd (doing rgb w ds)) = Some o' /\ o_user o' = o_user o.
Proof.
  induction ds as [|d ds IH]; intros w o H NO; [exists o; auto|]. cbn [doing fold_left].
  assert (K : exists o1, k_override (snd (does rgb w d)) = Some o1 /\ o_user o1 = o_user o).
  { destruct d as [x|l s|l n|s]; cbn [does]; [|exists o; auto|exists o; auto|cbn; rewrite H; eexists; split; reflexivity]. rewrite HistoryProps.step_override. destruct x; try (exists o; auto). exfalso. exact (NO _ (or_introl eq_refl)). }
  destruct K as [o1 [K1 K2]]. destruct (IH (does rgb w d) o1 K1) as [o2 [L1 L2]]; [intros x E; exact (NO x (or_intror E))|]. exists o2. split; [exact L1|congruence].
Qed.
Lemma override_value rgb w0 past o f v : override_assigned past o f v -> exists o', k_override (snd (doing rgb w0 past)) = Some o' /\ o_user o' = o_user o /\ o_cfg o' f = v.
Proof.
  intros [before [between [after [-> [NO NA]]]]]. rewrite doing_app. cbn [doing fold_left]. fold (doing rgb (does rgb (doing rgb w0 before) (Do (OpOverride o))) (between ++ AssignOverride (existT ctype f v) :: after)).
  set (w1 := does rgb (doing rgb w0 before) (Do (OpOverride o))). assert (H1 : k_override (snd w1) = Some o) by reflexivity. clearbody w1. rewrite doing_app.
  destruct (doing_override_user rgb between w1 o H1) as [o2 [H2 U2]]; [intros x E; apply (NO x); apply in_or_app; auto|]. set (w2 := doing rgb w1 between) in *. clearbody w2. cbn [doing fold_left]. fold (doing rgb (does rgb w2 (AssignOverride (existT ctype f v))) after).
  assert (H3 : k_override (snd (does rgb w2 (AssignOverride (existT ctype f v)))) = Some {| o_cfg := set_one (o_cfg o2) (existT ctype f v); o_user := o_user o2 |}) by (cbn; rewrite H2; reflexivity).
  destruct (doing_override rgb f after _ _ H3) as [o4 [H4 [U4 V4]]]; [intros x E; apply (NO x); apply in_or_app; auto|exact NA|]. exists o4. split; [exact H4|]. split; [rewrite U4; exact U2|]. rewrite V4. unfold set_one. cbn [o_cfg projT1 projT2]. apply cset_same.
Qed.
(** What is used for a registered chain. *)
Lemma used w n l c w' finals : world_ok w -> get_chain w n = Ok l -> chain_at (fst w) l = Some c -> get_final_chains w = (w', Ok finals) ->
  exists l' cfg' pal, dget n finals = Some l' /\ chain_at (fst w') l' = Some (with_cfg c cfg') /\ precedence (k_override (snd w)) (num_contour_chains (fst w) (k_chains (snd w))) pal c cfg'.
Proof.
  intros W G H F. destruct (final_spec w W) as [w1 [fs [E [S [L HS]]]]]. rewrite F in E. destruct (Nat.leb_spec (uncoloured (fst w) (k_chains (snd w))) (length palette)) as [Hle|]; [|discriminate]. injection E as <- <-.
  unfold get_chain in G. destruct (dget n (k_chains (snd w))) as [k|] eqn:D; [|discriminate]. injection G as ->. apply dget_In in D. apply In_nth_error in D. destruct D as [i D].
  destruct (HS Hle i n l c D H) as [l' [cfg' [F1 [F2 [F3 F4]]]]]. exists l', cfg'. eexists. split; [|split; [exact F3|apply resolved_precedence; exact F4]].
  destruct (final_names w w' finals W F) as [K1 [K2 _]]. apply dget_nodup; [exact K2|]. exact (nth_error_In _ _ F1).
Qed.
