(** C82: comparison scores do not depend on the normalisation of the posteriors nor on the other models. *)
From Coq Require Import String Ascii List Bool Arith ZArith QArith Lia Reals Qreals Lra Lqa.
From Verif Require Import Py NumSpec NumModel NumFacts FrameModel FrameFacts ConfigModel ChainModel RegistryModel RegistrySpec ChainSpec HeapFacts RegistryProofs ChainProofs
  ChainUseProofs CovModel CovSpec CovProofs DiagProofs RegistryProps SessionProofs FormatModel CompareModel CompareSpec CompareProofs CompareProps ChainProps OffsetSpec OffsetProofs.
Import ListNotations.
Open Scope string_scope.
Open Scope list_scope.

Lemma all_raw nearest crit : nearest_ok nearest -> In crit (criteria nearest) ->
  exists raw, crit = scores raw /\ forall t c f c' f', sound c f -> sound c' f' -> counterpart t c f c' f' -> moves (-2 * Q2R t) (raw c f) (raw c' f').
Proof.
  intros NO [<-|[<-|[<-|[]]]].
  - exists raw_aic. split; [reflexivity|]. intros t c f c' f' S1 S2 [HR _]. apply aic_moves; assumption.
  - exists raw_bic. split; [reflexivity|]. intros t c f c' f' S1 S2 [HR _]. apply bic_moves; assumption.
  - exists (raw_dic nearest). split; [reflexivity|]. intros t c f c' f' S1 S2 HR. apply dic_moves; assumption.
Qed.

(** The difference between two chains is the same in every consumer that has both (or counterparts of both),
    whatever else is compared, in any order, under any names; and when the same constant is added to both
    log posteriors. *)
Theorem C82_differences : forall rgb2hex nearest t w w' crit d d' n m c f c2 f2 n' m' c' f' c2' f2' x y,
  session rgb2hex false w -> session rgb2hex false w' -> nearest_ok nearest -> In crit (criteria nearest) ->
  crit w = Ok d -> crit w' = Ok d' ->
  registered w n c f -> registered w m c2 f2 -> registered w' n' c' f' -> registered w' m' c2' f2' ->
  counterpart t c f c' f' -> counterpart t c2 f2 c2' f2' ->
  dget n d = Some x -> dget m d = Some y ->
  exists x' y', dget n' d' = Some x' /\ dget m' d' = Some y' /\ (x' - y' = x - y)%R.
Proof.
  intros rgb nearest t w w' crit d d' n m c f c2 f2 n' m' c' f' c2' f2' x y S1 S2 NO HC E1 E2 R1 R2 R1' R2' C1 C2 G1 G2. destruct (all_raw nearest crit NO HC) as [raw [-> M]].
  apply (scores_difference raw w w' d (-2 * Q2R t) (session_ok _ _ _ S1) (session_ok _ _ _ S2) E1 d' n m n' m' c f c2 f2 c' f' c2' f2' x y E2 R1 R2 R1' R2'); [| |exact G1|exact G2].
  - apply M; [exact (proj1 (registered_sound _ _ _ _ _ _ S1 R1))|exact (proj1 (registered_sound _ _ _ _ _ _ S2 R1'))|exact C1].
  - apply M; [exact (proj1 (registered_sound _ _ _ _ _ _ S1 R2))|exact (proj1 (registered_sound _ _ _ _ _ _ S2 R2'))|exact C2].
Qed.
Print Assumptions C82_differences.

Lemma kept_moves rgb nearest t w w' crit : session rgb false w -> session rgb false w' -> nearest_ok nearest -> In crit (criteria nearest) -> kept t w w' ->
  exists raw, crit = scores raw /\ forall n c f, registered w n c f -> exists c' f', registered w' n c' f' /\ moves (-2 * Q2R t) (raw c f) (raw c' f').
Proof.
  intros S1 S2 NO HC K. destruct (all_raw nearest crit NO HC) as [raw [-> M]]. exists raw. split; [reflexivity|]. intros n c f R. destruct (K n c f R) as [c' [f' [R' C']]]. exists c', f'. split; [exact R'|].
  apply M; [exact (proj1 (registered_sound _ _ _ _ _ _ S1 R))|exact (proj1 (registered_sound _ _ _ _ _ _ S2 R'))|exact C'].
Qed.

(** Further models raise all scores by the same amount, and by nothing when the best one is an old one. *)
Theorem C82_more : forall rgb2hex nearest t w w' crit d d', session rgb2hex false w -> session rgb2hex false w' -> nearest_ok nearest -> In crit (criteria nearest) ->
  kept t w w' -> crit w = Ok d -> crit w' = Ok d' ->
  exists s, (d <> [] -> 0 <= s)%R /\ (forall n x, dget n d = Some x -> dget n d' = Some (x + s)%R) /\
    (forall n x, dget n d = Some x -> dget n d' = Some 0%R -> s = 0%R).
Proof.
  intros rgb nearest t w w' crit d d' S1 S2 NO HC K E1 E2. destruct (kept_moves _ _ _ _ _ _ S1 S2 NO HC K) as [raw [-> M]].
  exact (scores_more raw w w' d _ (session_ok _ _ _ S1) (session_ok _ _ _ S2) E1 d' E2 M).
Qed.
Print Assumptions C82_more.

(** The same models, added in any order, all with the same constant added to the log posterior: the same
    scores under the same names. *)
Theorem C82_order : forall rgb2hex nearest t w w' crit d, session rgb2hex false w -> session rgb2hex false w' -> nearest_ok nearest -> In crit (criteria nearest) ->
  kept t w w' -> (forall n c' f', registered w' n c' f' -> exists c f, registered w n c f) ->
  crit w = Ok d -> exists d', crit w' = Ok d' /\ forall n, dget n d' = dget n d.
Proof.
  intros rgb nearest t w w' crit d S1 S2 NO HC K K' E1. destruct (kept_moves _ _ _ _ _ _ S1 S2 NO HC K) as [raw [-> M]].
  exact (scores_same raw w w' d _ (session_ok _ _ _ S1) (session_ok _ _ _ S2) E1 M K').
Qed.
Print Assumptions C82_order.

(** In the same order, everything is the same: errors and the comparison table too. *)
Theorem C82_normalisation : forall rgb2hex nearest t w w', session rgb2hex false w -> session rgb2hex false w' -> nearest_ok nearest ->
  kept t w w' -> map fst (k_chains (snd w)) = map fst (k_chains (snd w')) ->
  (forall crit, In crit (criteria nearest) -> crit w' = crit w) /\
  forall repr ascii_repr argsort caption label hlines ua ub ud sort descending,
    comparison_table repr ascii_repr nearest argsort w' caption label hlines ua ub ud sort descending = comparison_table repr ascii_repr nearest argsort w caption label hlines ua ub ud sort descending.
Proof.
  intros rgb nearest t w w' S1 S2 NO K EN.
  assert (A : forall crit, In crit (criteria nearest) -> crit w' = crit w).
  { intros crit HC. destruct (kept_moves _ _ _ _ _ _ S1 S2 NO HC K) as [raw [-> M]]. exact (scores_eq raw _ w w' (session_ok _ _ _ S1) (session_ok _ _ _ S2) EN M). }
  split; [exact A|]. intros repr ascii argsort caption label hlines ua ub ud sort desc. unfold comparison_table.
  rewrite (A aic) by (left; reflexivity). rewrite (A bic) by (right; left; reflexivity). rewrite (A (dic nearest)) by (right; right; left; reflexivity). reflexivity.
Qed.
Print Assumptions C82_normalisation.

(** The models of the example of C37, with 5 added to all log posteriors, added in another order. *)
Definition ex82_frame : frame := {| f_index := [LInt 0; LInt 1; LInt 2]; f_cols := [(CStr "x", [Fin 0; Fin 1; Fin 2]); (CStr "y", [Fin 0; Fin 0; Fin 3]); (CStr "log_posterior", [Fin 2; Fin 4; Fin 3])] |}.
Definition ex82_heap : heap := {| h_frames := [ex82_frame; ex37_plain]; h_chains := [] |}.
Definition ex82_ops : list op :=
  [OpNewChain (ex37_args "A" 0 (Some 2%Z) (Some (Fin 10))); OpNewChain (ex37_args "B" 0 (Some 3%Z) (Some (Fin 20))); OpNewChain (ex37_args "C" 1 (Some 3%Z) (Some (Fin 20)));
   OpNewChain (ex37_args "D" 0 None None); OpAdd 3; OpAdd 1; OpAdd 0; OpAdd 2].
Definition ex82 : world := fst (run ex_rgb (ex82_heap, new_consumer) ex82_ops).
Lemma ex82_session plain : session ex_rgb plain ex82.
Proof.
  exists ex82_heap, ex82_ops. split; [reflexivity|]. split; [intros f [<-|[<-|[]]]; frame_wf_tac|]. split; [|reflexivity].
  intros o HO. repeat (destruct HO as [<-|HO]; [try exact I; intros P; discriminate|]). destruct HO.
Qed.
Lemma raised_intro t c f c' f' p p' : frame_wf f -> frame_wf f' -> ch_ndata c' = ch_ndata c -> ch_nfree c' = ch_nfree c -> column f (ch_post c) p -> column f' (ch_post c') p' ->
  Forall2 (fun a b => b == a + t)%Q p p' -> raised t c f c' f'.
Proof.
  intros W W' E1 E2 C C' F. split; [exact E1|]. split; [exact E2|]. split; [split; intros _; eexists; eassumption|]. intros q q' D D'. rewrite (column_unique f _ _ _ W D C), (column_unique f' _ _ _ W' D' C'). exact F.
Qed.
Definition ex82_chain (l : nat) : chain := match chain_at (fst ex82) l with Some c => c | None => build None (ex_args "" no_kw) 0 end.
Ltac col := unfold column; vm_compute; repeat (first [left; reflexivity | right]).
Ltac col2 := match goal with |- Forall2 (column ?f) ?l _ => let L := eval vm_compute in l in change l with L; repeat (apply Forall2_cons; [col|]); apply Forall2_nil end.
Lemma no_post f n : f_has f n = false -> forall p, ~ column f n p.
Proof. intros H p K. assert (K' : is_column f n) by (eexists; exact K). apply is_column_has in K'. congruence. Qed.
Lemma ex82_kept : kept 5 ex37 ex82.
Proof.
  intros n c f R. pose proof (so_wf _ _ (proj1 (registered_sound _ _ _ _ _ _ (ex37_session false) R))) as W. destruct (ex37_registered n c f R) as [l [HI [-> ->]]].
  assert (R' : registered ex82 n (ex82_chain l) (frame_at (fst ex82) (ch_samples (ex82_chain l)))).
  { assert (EK : k_chains (snd ex82) = [("D", 3); ("B", 1); ("A", 0); ("C", 2)]%nat) by (vm_compute; reflexivity).
    exists l. rewrite EK. destruct HI as [HI|[HI|[HI|[HI|[]]]]]; injection HI as <- <-; (split; [cbn; tauto|split; [vm_compute; reflexivity|reflexivity]]). }
  exists (ex82_chain l), (frame_at (fst ex82) (ch_samples (ex82_chain l))). split; [exact R'|]. pose proof (so_wf _ _ (proj1 (registered_sound _ _ _ _ _ _ (ex82_session false) R'))) as W'.
  assert (FF : Forall2 (fun a b => b == a + 5)%Q [-3; -1; -2]%Q [2; 4; 3]%Q) by (repeat constructor).
  destruct HI as [HI|[HI|[HI|[HI|[]]]]]; injection HI as <- <-; split.
  1, 3, 7: apply (raised_intro 5 _ _ _ _ [-3; -1; -2]%Q [2; 4; 3]%Q W W'); [vm_compute; reflexivity|vm_compute; reflexivity|col|col|exact FF].
  1, 2, 5: split; [exists [1; 1; 1]%Q; split; col|exists [[0; 1; 2]; [0; 0; 3]]%Q; split; col2].
  - split; [vm_compute; reflexivity|]. split; [vm_compute; reflexivity|].
    assert (N : f_has (frame_at (fst ex37) (ch_samples (ex37_chain 2))) (ch_post (ex37_chain 2)) = false) by (vm_compute; reflexivity).
    assert (N' : f_has (frame_at (fst ex82) (ch_samples (ex82_chain 2))) (ch_post (ex82_chain 2)) = false) by (vm_compute; reflexivity).
    split; [split; intros K; apply is_column_has in K; congruence|]. intros p p' K. exfalso. exact (no_post _ _ N p K).
  - split; [exists [1; 1]%Q; split; col|exists [[4; 5]]%Q; split; col2].
Qed.
(** The scores are the same although the registration order is not, and two of the three scored chains
    have positive DIC differences to compare. *)
Example C82_nonvacuous : session ex_rgb false ex37 /\ session ex_rgb false ex82 /\ nearest_ok ex_nearest /\ kept 5 ex37 ex82 /\
  (forall n c' f', registered ex82 n c' f' -> exists c f, registered ex37 n c f) /\
  map fst (k_chains (snd ex37)) <> map fst (k_chains (snd ex82)) /\
  (exists da, aic ex37 = Ok da /\ map fst da = ["A"; "B"]) /\ (exists dd, dic ex_nearest ex37 = Ok dd /\ map fst dd = ["A"; "B"; "D"]).
Proof.
  split; [apply ex37_session|]. split; [apply ex82_session|]. split; [exact ex_nearest_ok|]. split; [exact ex82_kept|].
  destruct C38_nonvacuous as [da [db [dd [H1 [_ [H3 [_ [_ [_ [H4 [_ H5]]]]]]]]]]]. split; [|split; [vm_compute; discriminate|split; eauto]].
  intros n c' f' [l [HI [HC ->]]]. assert (E : k_chains (snd ex82) = [("D", 3); ("B", 1); ("A", 0); ("C", 2)]%nat) by (vm_compute; reflexivity). rewrite E in HI.
  exists (ex37_chain l), (frame_at (fst ex37) (ch_samples (ex37_chain l))), l.
  destruct HI as [HI|[HI|[HI|[HI|[]]]]]; injection HI as <- <-; (split; [vm_compute; tauto|split; [vm_compute; reflexivity|reflexivity]]).
Qed.
