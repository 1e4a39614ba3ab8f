(** Every chain object a session can hold is sound: an invariant over all sequences of API calls. *)
From Coq Require Import String List Bool Arith ZArith QArith Lia.
From Verif Require Import Py NumSpec NumModel ColorModel MarginalModel FrameModel FrameFacts ConfigModel ChainModel RegistryModel RegistrySpec ChainSpec HeapFacts RegistryProofs ShiftProofs ChainProofs ChainUseProofs RegistryProps.
Import ListNotations.
Open Scope list_scope.

(** What validation guarantees about a chain and its DataFrame whatever happens to the settings later. *)
Record sound (c : chain) (f : frame) : Prop := {
  so_wf : frame_wf f;
  so_rows : (0 < f_rows f)%nat;
  so_clean : clean f;
  so_weight : f_has f (ch_weight c) = true;
  so_walkers : (1 <= ch_walkers c)%Z /\ (ch_walkers c | Z.of_nat (f_rows f))%Z;
  so_nfree : forall z, ch_nfree c = Some z -> (0 <= z)%Z;
  so_ndata : forall x, ch_ndata c = Some x -> exists q, x = Fin q /\ (0 <= q)%Q }.
Lemma built_sound c f : well_built c f -> sound c f.
Proof. intros [? ? ? ? ? ? ? ? ? ? ? ? ? ?]. constructor; assumption. Qed.

(** All weights are positive and no shifting is asked for. *)
Definition unshifted (c : chain) (f : frame) : Prop :=
  ch_cfg c Fshift_params = false /\ forall l q, In (CStr (ch_weight c), l) (f_cols f) -> In (Fin q) l -> (0 < q)%Q.

Section inv.
(** [plain]: also nobody asks for shift_params. *)
Variable plain : bool.
Definition good (c : chain) (f : frame) : Prop := sound c f /\ (plain = true -> unshifted c f).
Definition heap_ok (h : heap) : Prop :=
  (forall f, In f (h_frames h) -> frame_wf f) /\
  forall l c, chain_at h l = Some c -> (ch_samples c < length (h_frames h))%nat /\ good c (frame_at h (ch_samples c)).

Lemma no_frame_wf : frame_wf no_frame. Proof. split; [constructor|intros c l []]. Qed.
Lemma frame_at_wf h l : heap_ok h -> frame_wf (frame_at h l).
Proof. intros [F _]. unfold frame_at. destruct (nth_in_or_default l (h_frames h) no_frame) as [H|H]; [apply F; exact H|rewrite H; apply no_frame_wf]. Qed.
Lemma in_update {A} (l : list A) i x y : In y (list_update l i x) -> y = x \/ In y l.
Proof. revert i. induction l as [|z l IH]; intros [|i] H; cbn in *; [tauto|tauto|destruct H; [left; congruence|right; right; assumption]|]. destruct H as [H|H]; [right; left; exact H|]. destruct (IH i H); [left|right; right]; assumption. Qed.
Lemma alloc_frame_ok h f : heap_ok h -> frame_wf f -> heap_ok (fst (alloc_frame h f)).
Proof.
  intros [F C] W. split.
  - intros g Hg. cbn in Hg. apply in_app_or in Hg. destruct Hg as [Hg|[<-|[]]]; auto.
  - intros l c H. destruct (C l c H) as [L G]. split; [cbn; rewrite app_length; cbn; lia|].
    rewrite (untouched_frame_at h _ _ (untouched_alloc_frame h f) L). exact G.
Qed.
Lemma with_weight_def f wn : (if f_has f wn then f else f_set f wn (repeat (Fin 1) (f_rows f))) = with_weight f wn. Proof. reflexivity. Qed.
Lemma validate_frames h c : (forall f, In f (h_frames h) -> frame_wf f) -> (ch_samples c < length (h_frames h))%nat -> forall f, In f (h_frames (fst (validate_model h c))) -> frame_wf f.
Proof.
  intros F L. assert (W : frame_wf (frame_at h (ch_samples c))) by (apply F; apply nth_In; exact L). unfold validate_model. set (f0 := frame_at h (ch_samples c)) in *.
  destruct (f_empty f0); [exact F|]. cbv zeta. destruct (negb (f_has f0 (ch_weight c)) && _); [exact F|]. destruct (f_has f0 (ch_weight c) && _); [exact F|].
  rewrite with_weight_def. set (f1 := with_weight f0 (ch_weight c)). assert (W1 : frame_wf f1) by (apply with_weight_wf; exact W).
  assert (F1 : forall f, In f (h_frames (write_frame h (ch_samples c) f1)) -> frame_wf f) by (intros f Hf; cbn in Hf; apply in_update in Hf; destruct Hf as [->|Hf]; auto).
  destruct (negb (forallb _ (f_cols f1))) eqn:E; [exact F1|]. apply negb_false_iff in E. change (cleanb f1 = true) in E. apply cleanb_spec in E.
  destruct (if ch_cfg c Fshift_params then shift_loop (ch_weight c) (f_names f1) f1 else Ok f1) as [f2|e] eqn:ES; [|exact F1].
  assert (W2 : frame_wf f2). { destruct (ch_cfg c Fshift_params); [|injection ES as <-; exact W1]. apply (shift_loop_keeps _ _ _ _ ES E W1). auto. }
  assert (F2 : forall f, In f (h_frames (write_frame (write_frame h (ch_samples c) f1) (ch_samples c) f2)) -> frame_wf f) by (intros f Hf; cbn in Hf; apply in_update in Hf; destruct Hf as [->|Hf]; auto).
  repeat match goal with |- forall f, In f (h_frames (fst (if ?b then _ else _))) -> _ => destruct b; [exact F2|] end. exact F2.
Qed.
(** What the caller's arguments may say. *)
Definition args_ok (a : cargs) : Prop := plain = true -> a_cfg a Fshift_params <> Some true.
Lemma new_chain_unshifted rgb h a h' l c : frame_wf (frame_at h (a_samples a)) -> args_ok a -> new_chain rgb h a = (h', Ok l) -> chain_at h' l = Some c -> good c (frame_at h' (ch_samples c)).
Proof.
  intros W A H HC. pose proof (new_chain_built rgb h a h' l c W H HC) as B. split; [apply built_sound; exact B|]. intros P. specialize (A P).
  assert (S : ch_cfg c Fshift_params = false).
  { destruct (new_chain_result rgb h a h' l W H) as [col [f2 [_ [_ [H3 _]]]]]. cbv zeta in H3. rewrite HC in H3. injection H3 as ->. rewrite with_stat_other by discriminate. cbn.
    destruct (a_cfg a Fshift_params) as [[|]|]; [contradiction|reflexivity|reflexivity]. }
  split; [exact S|exact (wb_positive _ _ B S)].
Qed.
Lemma new_chain_heap_ok rgb h a : heap_ok h -> args_ok a -> heap_ok (fst (new_chain rgb h a)).
Proof.
  intros H A. pose proof (new_chain_untouched rgb h a) as U. pose proof H as [F C]. set (r := new_chain rgb h a) in *. assert (ER : r = new_chain rgb h a) by reflexivity. clearbody r. split.
  - subst r. unfold new_chain. destruct (match a_cfg a Fcolor with Some _ => _ | None => _ end) as [color|e]; [|exact F].
    destruct (alloc_frame h (frame_at h (a_samples a))) as [h1 l] eqn:EA. pose proof (alloc_frame_ok h _ H (frame_at_wf h (a_samples a) H)) as [F1 _]. rewrite EA in F1. cbn [fst] in F1.
    assert (L : (l < length (h_frames h1))%nat) by (injection EA as <- <-; cbn; rewrite app_length; cbn; lia).
    destruct (negb (field_ranges (build color a l))); [exact F1|]. pose proof (validate_frames h1 (build color a l) F1 L) as F2.
    destruct (validate_model h1 (build color a l)) as [h2 [c1|e]]; cbn [fst] in *; exact F2.
  - intros l c HC. destruct (Nat.lt_ge_cases l (length (h_chains h))) as [L|L].
    + destruct (nth_error (h_chains h) l) as [c'|] eqn:E; [|apply nth_error_None in E; lia]. pose proof (proj2 U l c' E) as E'. unfold chain_at in HC. rewrite E' in HC. injection HC as ->.
      destruct (C l c E) as [L2 G]. rewrite (untouched_frame_at h _ _ U L2). split; [destruct (untouched_len _ _ U); lia|exact G].
    + destruct r as [h' [l'|e]] eqn:Er; cbn [fst] in *.
      * symmetry in ER. destruct (new_chain_loc _ _ _ _ _ ER) as [c' [E1 [E2 _]]]. assert (EL : l' = l). { unfold chain_at in HC. assert (l < length (h_chains h'))%nat by (apply nth_error_Some; congruence). rewrite E2, app_length in H0. cbn in H0. lia. } rewrite EL in ER.
        split; [|apply (new_chain_unshifted rgb h a h' l c (frame_at_wf h _ H) A ER HC)].
        destruct (new_chain_result rgb h a h' l (frame_at_wf h _ H) ER) as [col [f2 [_ [_ [H3 [_ [_ [_ [_ [_ [_ H10]]]]]]]]]]]. cbv zeta in *. rewrite HC in H3. injection H3 as ->. cbn [ch_samples with_stat with_cfg build]. rewrite H10. lia.
      * exfalso. assert (EC : h_chains h' = h_chains h).
        { clear -ER. unfold new_chain in ER. destruct (match a_cfg a Fcolor with Some _ => _ | None => _ end) as [color|e']; [|injection ER as -> _; reflexivity].
          destruct (alloc_frame h (frame_at h (a_samples a))) as [h1 l1] eqn:EA. assert (E1 : h_chains h1 = h_chains h) by (injection EA as <- _; reflexivity). destruct (negb (field_ranges _)); [injection ER as -> _; exact E1|].
          destruct (validate_model h1 (build color a l1)) as [h2 [c1|e2]] eqn:EV; [discriminate|]. injection ER as -> _. rewrite <- E1. clear -EV. unfold validate_model in EV.
          set (f := frame_at h1 _) in *. destruct (f_empty f); [injection EV as <- _; reflexivity|]. cbv zeta in EV. destruct (negb (f_has f _) && _); [injection EV as <- _; reflexivity|]. destruct (f_has f _ && _); [injection EV as <- _; reflexivity|].
          set (f1 := if f_has f _ then f else _) in *. destruct (negb (forallb _ (f_cols f1))); [injection EV as <- _; reflexivity|].
          destruct (if ch_cfg (build color a l1) Fshift_params then _ else _) as [f2|e]; [|injection EV as <- _; reflexivity].
          repeat match type of EV with (if ?b then _ else _) = _ => destruct b; [injection EV as <- _; reflexivity|] end. discriminate. }
        unfold chain_at in HC. rewrite EC in HC. assert (l < length (h_chains h))%nat by (apply nth_error_Some; congruence). lia.
Qed.
Lemma slice_len {A} st en (l : list A) : length (slice st en l) = Nat.min (en - st) (length l - st).
Proof. unfold slice. rewrite firstn_length, skipn_length. reflexivity. Qed.
Lemma slice_wf st en f : frame_wf f -> frame_wf (f_slice st en f).
Proof.
  intros [W1 W2]. split; [rewrite f_slice_labels; exact W1|]. intros c l HI. cbn in HI. apply in_map_iff in HI. destruct HI as [[d m] [E HI]]. cbn in E. injection E as <- <-. cbn. rewrite !slice_len. rewrite (W2 d m HI). reflexivity.
Qed.
Lemma divide_loop_ok rgb c size : (plain = true -> ch_cfg c Fshift_params = false) -> forall n h i, heap_ok h -> heap_ok (fst (divide_loop rgb h c size i n)).
Proof.
  intros P. induction n as [|n IH]; intros h i H; [exact H|]. cbn [divide_loop]. destruct (alloc_frame h _) as [h1 lf] eqn:EA.
  assert (H1 : heap_ok h1) by (change h1 with (fst (h1, lf)); rewrite <- EA; apply alloc_frame_ok; [exact H|apply slice_wf; apply frame_at_wf; exact H]).
  match goal with |- context [new_chain rgb h1 ?a] => pose proof (new_chain_heap_ok rgb h1 a H1) as H2 end.
  destruct (new_chain rgb h1 _) as [h2 [l|e]]; cbn [fst] in H2; [|apply H2; intros Q; cbn; rewrite (P Q); discriminate].
  assert (H2' : heap_ok h2) by (apply H2; intros Q; cbn; rewrite (P Q); discriminate). specialize (IH h2 (S i) H2'). destruct (divide_loop rgb h2 c size (S i) n) as [h3 [ls|e]]; exact IH.
Qed.
Lemma divide_heap_ok rgb h c l : heap_ok h -> chain_at h l = Some c -> heap_ok (fst (divide rgb h c)).
Proof.
  intros H HC. unfold divide. destruct (negb _); [exact H|]. destruct (ch_grid c); [exact H|]. destruct (negb _); [exact H|]. apply divide_loop_ok; [|exact H].
  intros P. destruct (proj2 H l c HC) as [_ [_ G]]. exact (proj1 (G P)).
Qed.
Lemma good_cfg c f (cfg : config) : good c f -> (plain = true -> cfg Fshift_params = false) -> good (with_cfg c cfg) f.
Proof. intros [[? ? ? ? ? ? ?] P] S. split; [constructor; assumption|]. intros Q. destruct (P Q) as [_ P2]. split; [exact (S Q)|exact P2]. Qed.
Lemma alloc_chain_ok h c : heap_ok h -> (ch_samples c < length (h_frames h))%nat -> good c (frame_at h (ch_samples c)) -> heap_ok (fst (alloc_chain h c)).
Proof.
  intros [F C] L G. split; [exact F|]. cbn. intros l c' H. unfold chain_at in H. cbn in H. destruct (Nat.lt_ge_cases l (length (h_chains h))) as [K|K].
  - rewrite nth_error_app1 in H by exact K. exact (C l c' H).
  - rewrite nth_error_app2 in H by exact K. destruct (l - length (h_chains h))%nat as [|[|m]]; [|discriminate|discriminate]. injection H as <-. split; [exact L|exact G].
Qed.
Lemma copy_ok : forall d h, heap_ok h -> heap_ok (fst (copy_chains h d)).
Proof.
  induction d as [|[n l] d IH]; intros h H; [exact H|]. cbn [copy_chains]. destruct (chain_at h l) as [c|] eqn:E; [|apply IH; exact H].
  destruct (proj2 H l c E) as [L G]. pose proof (alloc_chain_ok h c H L G) as H1. destruct (alloc_chain h c) as [h1 l1]. specialize (IH h1 H1). destruct (copy_chains h1 d) as [h2 r2]. exact IH.
Qed.
Definition override_ok (ov : option config_obj) : Prop := plain = true -> forall o, ov = Some o -> o_user o Fshift_params = true -> o_cfg o Fshift_params = false.
Lemma resolve_ok num ov : override_ok ov -> forall d h colors, heap_ok h -> heap_ok (fst (resolve_loop h num ov colors d)).
Proof.
  intros O. induction d as [|[n l] d IH]; intros h colors H; [exact H|]. cbn [resolve_loop]. destruct (chain_at h l) as [c|] eqn:E; [|exact H]. cbv zeta.
  match goal with |- context [match ch_cfg c Fcolor with Some _ => Ok (?b, colors) | None => _ end] => set (base := b) end.
  destruct (match ch_cfg c Fcolor with Some _ => Ok (base, colors) | None => _ end) as [[local colors']|e] eqn:EL; [|exact H].
  assert (LN : forall t, In t local -> projT1 t <> Fshift_params).
  { assert (BN : forall t, In t base -> projT1 t <> Fshift_params) by (unfold base, global_config; cbn; intros t Ht; repeat (destruct Ht as [<-|Ht]; [discriminate|]); contradiction).
    intros t Ht. destruct (ch_cfg c Fcolor); [injection EL as <- _; auto|]. destruct colors as [|x cs]; [discriminate|]. destruct x as [col|]; [|discriminate]. assert (EL' : local = base ++ [mk Fcolor (Some col)]) by (symmetry; exact (f_equal (fun r => match r with Ok (a, _) => a | Err _ => [] end) EL)). rewrite EL' in Ht. apply in_app_or in Ht. destruct Ht as [Ht|[<-|[]]]; [auto|discriminate]. }
  apply IH. destruct H as [F C]. split; [exact F|]. intros l' c' HC. unfold chain_at, write_chain in HC. cbn [h_chains] in HC. destruct (Nat.eq_dec l l') as [<-|N].
  - destruct (C l c E) as [L G]. assert (K : (l < length (h_chains h))%nat) by (apply nth_error_Some; unfold chain_at in E; congruence). rewrite list_update_same in HC by exact K. injection HC as <-.
    split; [exact L|]. apply good_cfg; [exact G|]. intros P. assert (B : apply_if_not_user_set (ch_user c) local (ch_cfg c) Fshift_params = false) by (rewrite apply_user_notin by exact LN; exact (proj1 (proj2 G P))).
    destruct ov as [o|]; [|exact B]. rewrite dump_spec. destruct (o_user o Fshift_params) eqn:EU; [|exact B]. exact (O P o eq_refl EU).
  - rewrite list_update_other in HC by exact N. exact (C l' c' HC).
Qed.
Definition world_good (w : world) : Prop := heap_ok (fst w) /\ override_ok (k_override (snd w)).
Lemma final_good w : world_good w -> world_good (fst (get_final_chains w)).
Proof.
  destruct w as [h k]. intros [H O]. unfold get_final_chains. pose proof (copy_ok (k_chains k) h H) as H1. destruct (copy_chains h (k_chains k)) as [h1 finals]. cbn [fst snd] in *.
  pose proof (resolve_ok (num_contour_chains h (k_chains k)) (k_override k) O finals h1 next_colour H1) as H2. destruct (resolve_loop _ _ _ _ _) as [h2 [u|e]]; split; cbn in *; assumption.
Qed.
(** The calls considered: a marker's location is a dict, hence has distinct keys. *)
Definition op_ok (o : op) : Prop :=
  match o with
  | OpNewChain a => args_ok a
  | OpMarker loc _ _ _ _ _ extra => NoDup (map fst loc) /\ (plain = true -> extra Fshift_params <> Some true)
  | OpOverride ov => override_ok (Some ov)
  | _ => True
  end.
Lemma step_good rgb w o : world_good w -> op_ok o -> world_good (fst (step rgb w o)).
Proof.
  intros [H O] A. destruct o as [a|l|l|loc name color size style al extra|n|l|ov|req b]; cbn [step].
  - pose proof (new_chain_heap_ok rgb (fst w) a H A) as H1. destruct (new_chain rgb (fst w) a) as [h r]. split; assumption.
  - destruct (chain_at (fst w) l) as [c|] eqn:E; [|split; assumption]. pose proof (divide_heap_ok rgb (fst w) c l H E) as H1. destruct (divide rgb (fst w) c) as [h r]. split; assumption.
  - unfold add_chain. destruct w as [h k]. cbn [fst snd] in *. destruct (chain_at h l) as [c|]; [|split; assumption]. destruct (dmem _ _); split; assumption.
  - unfold add_marker. destruct w as [h k]. cbn [fst snd] in *. destruct (match extra Fplot_contour with Some _ => _ | None => _ end); [split; assumption|].
    destruct (alloc_frame h (marker_frame loc)) as [h1 lf] eqn:EA. destruct A as [A1 A2].
    assert (H1 : heap_ok h1) by (change h1 with (fst (h1, lf)); rewrite <- EA; apply alloc_frame_ok; [exact H|apply marker_wf; exact A1]).
    match goal with |- context [new_chain rgb h1 ?a] => pose proof (new_chain_heap_ok rgb h1 a H1) as H2 end. destruct (new_chain rgb h1 _) as [h2 [l|e]]; cbn [fst] in *.
    + assert (H3 : heap_ok h2) by (apply H2; intros P; cbn [a_cfg]; unfold marker_kwargs; rewrite !kset_other by discriminate; destruct color; rewrite ?kset_other by discriminate; exact (A2 P)).
      unfold add_chain. destruct (chain_at h2 l) as [c|]; [|split; assumption]. destruct (dmem _ _); split; assumption.
    + split; [|exact O]. apply H2. intros P. cbn [a_cfg]. unfold marker_kwargs. rewrite !kset_other by discriminate. destruct color; rewrite ?kset_other by discriminate; exact (A2 P).
  - unfold remove_name. destruct w as [h k]. cbn [fst snd] in *. destruct (dmem _ _); split; assumption.
  - unfold remove_chain. destruct (chain_at (fst w) l) as [c|]; [|split; assumption]. unfold remove_name. destruct w as [h k]. cbn [fst snd] in *. destruct (dmem _ _); split; assumption.
  - split; [exact H|exact A].
  - unfold sanitise_chains. pose proof (final_good w (conj H O)) as H1. destruct (get_final_chains w) as [w1 [finals|e]]; exact H1.
Qed.
Lemma run_good rgb : forall ops w, world_good w -> (forall o, In o ops -> op_ok o) -> world_good (fst (run rgb w ops)).
Proof.
  induction ops as [|o ops IH]; intros w H A; [exact H|]. cbn [run]. pose proof (step_good rgb w o H (A o (or_introl eq_refl))) as H1. destruct (step rgb w o) as [w1 e]. cbn [fst] in H1.
  specialize (IH w1 H1 (fun o' Ho => A o' (or_intror Ho))). destruct (run rgb w1 ops) as [w2 log]. exact IH.
Qed.
End inv.

(** A session that starts with DataFrames only. *)
Definition session (rgb2hex : list Q -> string) (plain : bool) (w : world) : Prop :=
  exists h0 ops, h_chains h0 = [] /\ (forall f, In f (h_frames h0) -> frame_wf f) /\ (forall o, In o ops -> op_ok plain o) /\ w = fst (run rgb2hex (h0, new_consumer) ops).
Lemma session_good rgb plain w : session rgb plain w -> world_good plain w.
Proof.
  intros [h0 [ops [E [F [A ->]]]]]. apply run_good; [|exact A]. split; [|intros P o; discriminate]. split; [exact F|]. intros l c H. unfold chain_at in H. cbn in H. rewrite E in H. destruct l; discriminate.
Qed.
Lemma session_reachable rgb plain w : session rgb plain w -> reachable rgb w.
Proof. intros [h0 [ops [_ [_ [_ ->]]]]]. exists h0, ops. eexists. apply surjective_pairing. Qed.
Lemma session_weaken rgb w : session rgb true w -> session rgb false w.
Proof.
  intros [h0 [ops [E [F [A ->]]]]]. exists h0, ops. split; [exact E|]. split; [exact F|]. split; [|reflexivity]. intros o Ho. specialize (A o Ho). destruct o; cbn in *; try exact A; try (intros P; discriminate). split; [exact (proj1 A)|intros P; discriminate].
Qed.
