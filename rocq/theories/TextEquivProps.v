(** C91: texts and LaTeX tables depend only on the weighted samples, not on how the table writes them down. *)
From Coq Require Import String List Bool Arith ZArith QArith Permutation Lia.
From Verif Require Import Py NumModel MarginalModel FrameModel FrameFacts ConfigModel ChainModel RegistryModel RegistrySpec RegistryProps FormatModel TextModel AnalysisModel AnalysisSpec FormatSpec AnalysisProps EquivSpec EquivProps KeywordSpec KeywordProps SessionProofs TextEquivSpec TextEquivProofs.
From Verif Require QueryProofs ConsumerProofs.
Import ListNotations.
Open Scope string_scope.
Open Scope list_scope.

(** * C91 *)
(** Equal numbers give the same text. *)
Theorem C91_text : forall e e' wrap label, entry_in_units 1 0 e e' -> get_parameter_text e' wrap label = get_parameter_text e wrap label.
Proof. exact text_eq. Qed.
Print Assumptions C91_text.
(** The LaTeX table of chains holding the same weighted samples is the same string, character by character, or the same
    exception.  [cols]: the columns of the chains. *)
Theorem C91_table : forall num repr ascii w w' req req' l l' cols labels blind columns transpose caption label hlines fill,
  KeywordSpec.shown w req false l -> KeywordSpec.shown w' req' false l' -> asked None l cols ->
  Forall2 (fun cf cf' => fst cf' = fst cf /\ power_law (n_power num (ch_power (fst cf))) /\ same_table num (fst cf) (snd cf) (snd cf') cols) l l' ->
  snd (get_latex_table num repr ascii w' labels blind columns req' transpose caption label hlines fill) = snd (get_latex_table num repr ascii w labels blind columns req transpose caption label hlines fill).
Proof.
  intros num repr ascii w w' req req' l l' cols labels blind columns t cap lab hl b S S' A T. apply shown_contents in S, S'. rewrite !table_contents, S, S'. cbn [rbind]. apply table_from_eq.
  pose proof (AnalysisProofs.asked_columns None l) as A'. cbn [asked] in A, A'. assert (EC : forall p, In p (sanitise_columns None l) -> In p cols) by (intros p; rewrite (AnalysisProofs.first_seen_In _ _ A'), (AnalysisProofs.first_seen_In _ _ A); auto).
  revert EC T. generalize (sanitise_columns None l). clear. intros m EC T. induction T as [|[c f] [c' f'] l l' [E [P [T1 [T2 [q T3]]]]] F IH]; constructor; [|exact IH]. split; [exact E|]. split; [exact P|]. split; [exact T1|]. split; [exact T2|]. exists q. intros p HP. apply T3. apply EC. exact HP.
Qed.
Print Assumptions C91_table.
(** Shuffling the rows of every table leaves every LaTeX table as it was. *)
Theorem C91_shuffled : forall rgb2hex plain w h' num repr ascii names req labels blind columns transpose caption label hlines fill, session rgb2hex plain w -> rows_shuffled (fst w) h' ->
  order_free num -> (forall p, power_law (n_power num p)) -> requested w req = map Some names ->
  snd (get_latex_table num repr ascii (h', snd w) labels blind columns req transpose caption label hlines fill) = snd (get_latex_table num repr ascii w labels blind columns req transpose caption label hlines fill).
Proof. intros. eapply shuffled_table; eassumption. Qed.
Print Assumptions C91_shuffled.
(** Two chains, the rows of both tables reversed. *)
Definition ex91_reverse (f : frame) : frame :=
  {| f_index := picked (LInt 0) [2; 1; 0]%nat (f_index f); f_cols := map (fun cl => (fst cl, picked NaN [2; 1; 0]%nat (snd cl))) (f_cols f) |}.
Definition ex91_heap : heap := {| h_frames := map ex91_reverse (h_frames (fst ex34)); h_chains := h_chains (fst ex34) |}.
Example C91_nonvacuous : session ex_rgb true ex34 /\ rows_shuffled (fst ex34) ex91_heap /\ order_free ex34_num /\ (forall p, power_law (n_power ex34_num p)) /\ requested ex34 ReqAll = map Some ["A"; "B"] /\
  h_frames ex91_heap <> h_frames (fst ex34) /\
  snd (get_latex_table ex34_num ex_quote ex_quote (ex91_heap, snd ex34) [("x", "$x$")] (BlindList ["y"]) None ReqAll false (Some "cap") None true "--") =
    Ok (latex_table "cap" "" "cc" (table_body true ["Model"; "$x$"] [["A"; "$0.0^{+1.0}_{-0.0}$"]; ["B"; "$3.0^{+1.0}_{-0.0}$"]])).
Proof.
  split.
  { exists ex34_heap, ex34_ops. split; [reflexivity|]. split; [|split; [|reflexivity]].
    - intros f [<-|[<-|[]]]; (split; [repeat constructor; cbn; intuition discriminate|]); intros c l [H|[H|[]]]; injection H as <- <-; reflexivity.
    - intros o [<-|[<-|[<-|[<-|[]]]]]; try exact I; intros _; vm_compute; discriminate. }
  split. { split; [reflexivity|]. unfold ex91_heap. cbn [h_frames]. set (l := h_frames (fst ex34)). vm_compute in l. subst l. cbn [map]. repeat (constructor; [exists [2; 1; 0]%nat; split; [apply Permutation_sym; exact (Permutation_rev [0; 1; 2]%nat)|reflexivity]|]). constructor. }
  split. { intros xs ws xs' ws' factor q q' _ _ _ _. reflexivity. }
  split. { intros p. split; [intros x y E; exact E|]. split; [intros c x _; reflexivity|intros c E; exact E]. }
  split; [reflexivity|]. split; [vm_compute; discriminate|vm_compute; reflexivity].
Qed.
