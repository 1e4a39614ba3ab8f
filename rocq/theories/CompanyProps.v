(** C97, distributions, error bars and walks: what is drawn of a chain does not depend on the other chains. *)
From Coq Require Import String List Bool Arith ZArith QArith Reals Lia.
From Verif Require Import Py NumModel ColorModel FrameModel ConfigModel ChainModel RegistryModel RegistrySpec HeapFacts RegistryProofs RegistryProps ChainSpec AnalysisModel AnalysisSpec AnalysisProofs AnalysisProps DiagModel DiagProofs SurfaceModel SurfaceProofs FigureModel FigureSpec FigureCases TriangleProofs DistProofs DistProps ConsumerSpec ConsumerProofs QuerySpec QueryProps AloneSpec AloneProofs AloneProps CompanySpec CompanyProofs.
Import ListNotations.
Open Scope string_scope.
Open Scope list_scope.

Ltac by_parts W EC HD := eapply (together_parts _ _ _ _ _ _ (drawn_fun _ _ _ _ _) (drawn_concat _ _ _ _ _) W EC HD).
(** On the diagonal a figure of several chains shows what the figures of the single chains show, one chain after the
    other (but for the title, which only a single chain has). *)
Theorem C97_diagonal : forall k rgb2hex s s1 names cols file size fig parts cfg, reachable rgb2hex (s_world s) -> config_of s cfg ->
  plot k s (ReqList (map ByName names)) (Some cols) file size = (s1, Ok fig) ->
  Forall2 (fun n part => exists s2 file' size', plot k s (ReqList [ByName n]) (Some cols) file' size' = (s2, Ok part)) names parts ->
  forall i j px py calls alone, panel_at cfg cols i j px py -> diagonal cfg i j -> axis fig i j calls -> Forall2 (fun part l => axis part i j l) parts alone ->
  panel_bars calls = concat (map panel_bars alone).
Proof.
  intros k rgb s s1 names cols file size fig parts cfg R HC H FP i j px py calls alone HP HD HA FA. pose proof (reachable_ok _ _ R) as W. destruct (diag_bars _ _ _ _ _ _ _ _ _ H HC) as [final [EC PS]].
  by_parts W EC (PS i j px py calls HP HD HA). clear -FP FA HC HP HD. revert alone FA. induction FP as [|n part names parts [s2 [file' [size' P1]]] FP IH]; intros alone FA; inversion FA as [|? l ? alone' A1 FA']; subst; [constructor|]. cbn [map]. constructor; [|apply IH; exact FA'].
  destruct (diag_bars _ _ _ _ _ _ _ _ _ P1 HC) as [final1 [EC1 PS1]]. exists final1. split; [exact EC1|]. exact (PS1 i j px py l HP HD A1).
Qed.
Print Assumptions C97_diagonal.

(** The same for plot_distributions. *)
Theorem C97_distributions : forall k rgb2hex s s1 names cols file wrap size fig parts cfg, reachable rgb2hex (s_world s) -> config_of s cfg ->
  plot_distributions k s (ReqList (map ByName names)) (Some cols) file wrap size = (s1, Ok fig) ->
  Forall2 (fun n part => exists s2 file' size', plot_distributions k s (ReqList [ByName n]) (Some cols) file' wrap size' = (s2, Ok part)) names parts ->
  forall p calls alone, panel_of wrap cols fig p calls -> Forall2 (fun part l => panel_of wrap cols part p l) parts alone ->
  panel_bars calls = concat (map panel_bars alone).
Proof.
  intros k rgb s s1 names cols file wrap size fig parts cfg R HC H FP p calls alone HA FA. pose proof (reachable_ok _ _ R) as W. destruct (dist_bars _ _ _ _ _ _ _ _ _ _ H HC) as [final [EC PS]].
  by_parts W EC (PS p calls HA). clear -FP FA HC. revert alone FA. induction FP as [|n part names parts [s2 [file' [size' P1]]] FP IH]; intros alone FA; inversion FA as [|? l ? alone' A1 FA']; subst; [constructor|]. cbn [map]. constructor; [|apply IH; exact FA'].
  destruct (dist_bars _ _ _ _ _ _ _ _ _ _ P1 HC) as [final1 [EC1 PS1]]. exists final1. split; [exact EC1|]. exact (PS1 p l A1).
Qed.
Print Assumptions C97_distributions.

(** The rows of plot_summary are those of the figures of the single chains. *)
Theorem C97_rows : forall k rgb2hex s s1 names cols file size err sp vr fig parts cfg, reachable rgb2hex (s_world s) -> config_of s cfg ->
  plot_summary k s (ReqList (map ByName names)) (Some cols) file size err sp vr = (s1, Ok fig) ->
  Forall2 (fun n part => exists s2 file' size' sp' vr', plot_summary k s (ReqList [ByName n]) (Some cols) file' size' err sp' vr' = (s2, Ok part)) names parts ->
  forall i j part calls alone, nth_error parts i = Some part -> (j < length cols)%nat -> axis fig i (S j) calls -> axis part 0 (S j) alone ->
  panel_bars calls = panel_bars alone /\ error_bars calls = error_bars alone.
Proof.
  intros k rgb s s1 names cols file size err sp vr fig parts cfg R HC H FP i j part calls alone Hi Hj HA HB. pose proof (reachable_ok _ _ R) as W. destruct (summary_rows _ _ _ _ _ _ _ _ _ _ _ _ H HC) as [final [EC [_ PS]]].
  destruct (contents_parts _ _ _ _ W EC) as [cfs [FC [EF EN]]]. apply F2_len' in FC. pose proof (F2_len' _ _ _ FP) as LP.
  assert (AL : forall m n cf, nth_error names m = Some n -> nth_error cfs m = Some cf -> contents (s_world s) (ReqList [ByName n]) false = Ok (only false cf)).
  { intros m n cf M1 M2. apply EN. clear -M1 M2. revert cfs m M1 M2. induction names as [|x names IH]; intros [|y cfs] [|m] M1 M2; try discriminate; cbn in *; [injection M1 as ->; injection M2 as ->; left; reflexivity|]. right. eapply IH; eassumption. }
  assert (SH : forall m cf, nth_error cfs m = Some cf -> only false cf = [cf]).
  { intros m cf M. assert (ML : (m < length cfs)%nat) by (apply nth_error_Some; congruence). destruct (nth_error names m) as [n|] eqn:EN1; [|apply nth_error_None in EN1; lia]. destruct (nth_error parts m) as [pt|] eqn:EP; [|apply nth_error_None in EP; lia].
    destruct (F2_at _ _ _ _ _ _ FP EN1 EP) as [s2 [file' [size' [sp' [vr' P1]]]]]. destruct (summary_rows _ _ _ _ _ _ _ _ _ _ _ _ P1 HC) as [final1 [EC1 [NE _]]]. rewrite (AL m n cf EN1 M) in EC1. injection EC1 as <-. unfold only in *. destruct (false || _); [reflexivity|congruence]. }
  assert (EF' : final = cfs). { rewrite EF. clear -SH. induction cfs as [|cf cfs IH]; [reflexivity|]. cbn [flat_map]. rewrite (SH 0%nat cf eq_refl). cbn [app]. f_equal. apply IH. intros m c M. exact (SH (S m) c M). }
  clear EF. subst final. assert (IL : (i < length cfs)%nat) by (rewrite <- FC, LP; apply nth_error_Some; congruence). destruct (nth_error cfs i) as [cf|] eqn:EI; [|apply nth_error_None in EI; lia]. destruct (nth_error names i) as [n|] eqn:EM; [|apply nth_error_None in EM; lia]. destruct (nth_error cols j) as [p|] eqn:EJ; [|apply nth_error_None in EJ; lia].
  destruct (F2_at _ _ _ _ _ _ FP EM Hi) as [s2 [file' [size' [sp' [vr' P1]]]]]. destruct (summary_rows _ _ _ _ _ _ _ _ _ _ _ _ P1 HC) as [final1 [EC1 [_ PS1]]]. rewrite (AL i n cf EM EI), (SH i cf EI) in EC1. injection EC1 as <-.
  pose proof (PS i j cf p calls EI EJ HA) as C1. rewrite (PS1 0%nat j cf p alone eq_refl EJ HB) in C1. injection C1 as -> ->. split; reflexivity.
Qed.
Print Assumptions C97_rows.

(** Two sessions with the same plotting configuration: the same outlines but for their colour, and the same shading and
    colours if these were given for the chain. *)
Theorem C97_diagonal_drawn : forall k rgb2hex s s' n c f cfg cols file file' size size' s1 s2 fig fig', reachable rgb2hex (s_world s) -> reachable rgb2hex (s_world s') -> shared_chain (s_world s) (s_world s') n c f ->
  config_of s cfg -> config_of s' cfg -> plot k s (ReqList [ByName n]) (Some cols) file size = (s1, Ok fig) -> plot k s' (ReqList [ByName n]) (Some cols) file' size' = (s2, Ok fig') ->
  forall i j px py calls calls', panel_at cfg cols i j px py -> diagonal cfg i j -> axis fig i j calls -> axis fig' i j calls' ->
  outlines (panel_bars calls') = outlines (panel_bars calls) /\ (settled (k_override (snd (s_world s))) c -> panel_bars calls' = panel_bars calls).
Proof.
  intros k rgb s s' n c f cfg cols file file' size size' s1 s2 fig fig' R R' SH HC HC' H H' i j px py calls calls' HP HD HA HA'. pose proof (reachable_ok _ _ R) as W. pose proof (reachable_ok _ _ R') as W'.
  destruct (diag_bars _ _ _ _ _ _ _ _ _ H HC) as [final [EC PS]]. pose proof (PS i j px py calls HP HD HA) as D. destruct (diag_bars _ _ _ _ _ _ _ _ _ H' HC') as [final' [EC' PS']]. pose proof (PS' i j px py calls' HP HD HA') as D'.
  destruct (contents_one _ _ _ W EC) as [[k1 g1] [F ->]]. destruct (contents_one _ _ _ W' EC') as [[k2 g2] [F' ->]]. destruct (final_bare _ _ _ _ _ _ _ W W' SH F F') as [B [B2 B3]].
  destruct (only_bare _ _ B B2) as [[O1 O2]|[O1 O2]]; rewrite O1 in D; rewrite O2 in D'; cbn [fst snd] in *.
  - destruct D as [o [D ->]], D' as [o' [D' ->]]. cbn in D, D'. injection D as <-. injection D' as <-. auto.
  - subst g1 g2. split.
    + refine (drawn_agree _ _ _ _ _ _ _ _ _ _ _ B D D'). reflexivity.
    + intros ST. refine (drawn_same _ _ _ _ _ _ _ _ _ _ _ (final_settled _ _ _ _ _ _ _ W W' SH ST F F') D D'). reflexivity.
Qed.
Print Assumptions C97_diagonal_drawn.
Theorem C97_distributions_drawn : forall k rgb2hex s s' n c f cfg cols wrap file file' size size' s1 s2 fig fig', reachable rgb2hex (s_world s) -> reachable rgb2hex (s_world s') -> shared_chain (s_world s) (s_world s') n c f ->
  config_of s cfg -> config_of s' cfg -> plot_distributions k s (ReqList [ByName n]) (Some cols) file wrap size = (s1, Ok fig) -> plot_distributions k s' (ReqList [ByName n]) (Some cols) file' wrap size' = (s2, Ok fig') ->
  forall p calls calls', panel_of wrap cols fig p calls -> panel_of wrap cols fig' p calls' ->
  outlines (panel_bars calls') = outlines (panel_bars calls) /\ (settled (k_override (snd (s_world s))) c -> panel_bars calls' = panel_bars calls).
Proof.
  intros k rgb s s' n c f cfg cols wrap file file' size size' s1 s2 fig fig' R R' SH HC HC' H H' p calls calls' HA HA'. pose proof (reachable_ok _ _ R) as W. pose proof (reachable_ok _ _ R') as W'.
  destruct (dist_bars _ _ _ _ _ _ _ _ _ _ H HC) as [final [EC PS]]. pose proof (PS p calls HA) as D. destruct (dist_bars _ _ _ _ _ _ _ _ _ _ H' HC') as [final' [EC' PS']]. pose proof (PS' p calls' HA') as D'.
  destruct (contents_one _ _ _ W EC) as [[k1 g1] [F ->]]. destruct (contents_one _ _ _ W' EC') as [[k2 g2] [F' ->]]. destruct (final_bare _ _ _ _ _ _ _ W W' SH F F') as [B [B2 B3]].
  destruct (only_bare _ _ B B2) as [[O1 O2]|[O1 O2]]; rewrite O1 in D; rewrite O2 in D'; cbn [fst snd] in *.
  - destruct D as [o [D ->]], D' as [o' [D' ->]]. cbn in D, D'. injection D as <-. injection D' as <-. auto.
  - subst g1 g2. split.
    + refine (drawn_agree _ _ _ _ _ _ _ _ _ _ _ B D D'). reflexivity.
    + intros ST. refine (drawn_same _ _ _ _ _ _ _ _ _ _ _ (final_settled _ _ _ _ _ _ _ W W' SH ST F F') D D'). reflexivity.
Qed.
Print Assumptions C97_distributions_drawn.
(** In plot_summary: the same outlines, and error bars at the same places. *)
Theorem C97_rows_drawn : forall k rgb2hex s s' n c f cfg cols err file file' size size' sp sp' vr vr' s1 s2 fig fig', reachable rgb2hex (s_world s) -> reachable rgb2hex (s_world s') -> shared_chain (s_world s) (s_world s') n c f ->
  config_of s cfg -> config_of s' cfg -> plot_summary k s (ReqList [ByName n]) (Some cols) file size err sp vr = (s1, Ok fig) -> plot_summary k s' (ReqList [ByName n]) (Some cols) file' size' err sp' vr' = (s2, Ok fig') ->
  forall j calls calls', (j < length cols)%nat -> axis fig 0 (S j) calls -> axis fig' 0 (S j) calls' ->
  outlines (panel_bars calls') = outlines (panel_bars calls) /\ map fst (error_bars calls') = map fst (error_bars calls) /\
  (settled (k_override (snd (s_world s))) c -> panel_bars calls' = panel_bars calls /\ error_bars calls' = error_bars calls).
Proof.
  intros k rgb s s' n c f cfg cols err file file' size size' sp sp' vr vr' s1 s2 fig fig' R R' SH HC HC' H H' j calls calls' Hj HA HA'. pose proof (reachable_ok _ _ R) as W. pose proof (reachable_ok _ _ R') as W'.
  destruct (nth_error cols j) as [p|] eqn:EJ; [|apply nth_error_None in EJ; lia].
  destruct (summary_rows _ _ _ _ _ _ _ _ _ _ _ _ H HC) as [final [EC [NE PS]]]. destruct (summary_rows _ _ _ _ _ _ _ _ _ _ _ _ H' HC') as [final' [EC' [_ PS']]].
  destruct (contents_one _ _ _ W EC) as [[k1 g1] [F ->]]. destruct (contents_one _ _ _ W' EC') as [[k2 g2] [F' ->]]. destruct (final_bare _ _ _ _ _ _ _ W W' SH F F') as [B [B2 B3]].
  destruct (only_bare _ _ B B2) as [[O1 O2]|[O1 O2]]; rewrite O1 in NE, PS; rewrite O2 in PS'; cbn [fst snd] in *; [congruence|]. subst g1 g2.
  pose proof (PS 0%nat j _ p calls eq_refl EJ HA) as D. pose proof (PS' 0%nat j _ p calls' eq_refl EJ HA') as D'. destruct (cell_agree _ _ _ _ _ _ _ _ _ _ _ B D D') as [E1 E2]. split; [exact E1|]. split; [exact E2|].
  intros ST. pose proof (final_settled _ _ _ _ _ _ _ W W' SH ST F F') as Q. cbn [fst] in Q. assert (SM : forall c0 l, cell_out (bk_num k) cfg err p (with_samples c0 l, f) = cell_out (bk_num k) cfg err p (c0, f)) by reflexivity.
  rewrite <- (SM k2 0%nat), Q, SM, D in D'. injection D' as -> ->. split; reflexivity.
Qed.
Print Assumptions C97_rows_drawn.

(** Walks: the rows of the parameters, smoothed walks included. *)
Theorem C97_walks : forall k rgb2hex s s1 names cols file size cv pw pp lw fig parts cfg, reachable rgb2hex (s_world s) -> config_of s cfg ->
  plot_walks k s (ReqList (map ByName names)) (Some cols) file size cv pw pp lw = (s1, Ok fig) ->
  Forall2 (fun n part => exists s2 file' size' pw' pp' lw', plot_walks k s (ReqList [ByName n]) (Some cols) file' size' cv pw' pp' lw' = (s2, Ok part)) names parts ->
  forall j p calls alone, parameter_row fig cols j p calls -> Forall2 (fun part l => parameter_row part cols j p l) parts alone ->
  paths calls = concat (map paths alone).
Proof.
  intros k rgb s s1 names cols file size cv pw pp lw fig parts cfg R HC H FP j p calls alone HA FA. pose proof (reachable_ok _ _ R) as W. destruct (walk_bars _ _ _ _ _ _ _ _ _ _ _ _ _ H HC) as [final [EC PS]].
  eapply (together_parts _ _ _ _ _ _ (walked_fun _ _ _ _) (walked_concat _ _ _ _) W EC (PS j p calls HA)). clear -FP FA HC. revert alone FA. induction FP as [|n part names parts [s2 [file' [size' [pw' [pp' [lw' P1]]]]]] FP IH]; intros alone FA; inversion FA as [|? l ? alone' A1 FA']; subst; [constructor|]. cbn [map]. constructor; [|apply IH; exact FA'].
  destruct (walk_bars _ _ _ _ _ _ _ _ _ _ _ _ _ P1 HC) as [final1 [EC1 PS1]]. exists final1. split; [exact EC1|]. exact (PS1 j p l A1).
Qed.
Print Assumptions C97_walks.
Theorem C97_walks_drawn : forall k rgb2hex s s' n c f cfg cols file file' size size' cv pw pp lw pw' pp' lw' s1 s2 fig fig', reachable rgb2hex (s_world s) -> reachable rgb2hex (s_world s') -> shared_chain (s_world s) (s_world s') n c f ->
  config_of s cfg -> config_of s' cfg -> plot_walks k s (ReqList [ByName n]) (Some cols) file size cv pw pp lw = (s1, Ok fig) -> plot_walks k s' (ReqList [ByName n]) (Some cols) file' size' cv pw' pp' lw' = (s2, Ok fig') ->
  forall j p calls calls', parameter_row fig cols j p calls -> parameter_row fig' cols j p calls' ->
  uncoloured (paths calls') = uncoloured (paths calls) /\ (settled (k_override (snd (s_world s))) c -> paths calls' = paths calls).
Proof.
  intros k rgb s s' n c f cfg cols file file' size size' cv pw pp lw pw' pp' lw' s1 s2 fig fig' R R' SH HC HC' H H' j p calls calls' HA HA'. pose proof (reachable_ok _ _ R) as W. pose proof (reachable_ok _ _ R') as W'.
  destruct (walk_bars _ _ _ _ _ _ _ _ _ _ _ _ _ H HC) as [final [EC PS]]. pose proof (PS j p calls HA) as D. destruct (walk_bars _ _ _ _ _ _ _ _ _ _ _ _ _ H' HC') as [final' [EC' PS']]. pose proof (PS' j p calls' HA') as D'.
  destruct (contents_one _ _ _ W EC) as [[k1 g1] [F ->]]. destruct (contents_one _ _ _ W' EC') as [[k2 g2] [F' ->]]. destruct (final_bare _ _ _ _ _ _ _ W W' SH F F') as [B [B2 B3]].
  destruct D as [o [D ->]], D' as [o' [D' ->]]. destruct (only_bare _ _ B B2) as [[O1 O2]|[O1 O2]]; rewrite O1 in D; rewrite O2 in D'; cbn [fst snd] in *.
  - cbn in D, D'. injection D as <-. injection D' as <-. auto.
  - subst g1 g2. cbn [rmapM] in D, D'. apply rbind_ok in D as [a [D1 D]]. apply rbind_ok in D' as [a' [D1' D']]. injection D as <-. injection D' as <-. cbn [concat]. rewrite !app_nil_r. split.
    + eapply paths_agree; eassumption.
    + intros ST. pose proof (final_settled _ _ _ _ _ _ _ W W' SH ST F F') as Q. cbn [fst] in Q. assert (SM : forall c0 l, chain_paths (bk_max_points k) cfg cv p (with_samples c0 l, f) = chain_paths (bk_max_points k) cfg cv p (c0, f)) by reflexivity.
      rewrite <- (SM k2 0%nat), Q, SM, D1 in D1'. injection D1' as <-. reflexivity.
Qed.
Print Assumptions C97_walks_drawn.

(** A on its own and beside B: two calls each for A and B, both drawn together, in all figures; error bars too. *)
Definition both_cfg : plot_config := fig_cfg false true (BlindBool false) [].
Definition both_pair : session := fig_session (kset no_kw Fsmooth (Some 0%Z)) (kset no_kw Fsmooth (Some 0%Z)) fig_truths both_cfg.
Definition drawn_in (r : session * res figure) : list (list nat) := match snd r with Ok fig => map (map (fun calls => length (panel_bars calls))) (fg_axes fig) | Err _ => [] end.
Definition errors_in (r : session * res figure) : list (list nat) := match snd r with Ok fig => map (map (fun calls => length (error_bars calls))) (fg_axes fig) | Err _ => [] end.
Definition walked_in (s : session) (names : list string) : list (list nat) :=
  match snd (plot_walks ex_backend s (ReqList (map ByName names)) (Some ["x"]) FileNone SizeNone (Some 2%Z) false false false) with Ok fig => map (map (fun calls => length (paths calls))) (fg_axes fig) | Err _ => [] end.
Definition by_names (names : list string) : chain_request := ReqList (map ByName names).
Example C97_company_nonvacuous : exists c f, let s := only_a both_cfg in let s' := both_pair in
  let tri s names := drawn_in (plot ex_backend s (by_names names) (Some ["x"]) FileNone FPage) in
  let dist s names := drawn_in (plot_distributions ex_backend s (by_names names) (Some ["x"]) FileNone 3 SizeNone) in
  let summ s names := plot_summary ex_backend s (by_names names) (Some ["x"]) FileNone 1 in
  reachable ex_rgb (s_world s) /\ reachable ex_rgb (s_world s') /\ shared_chain (s_world s) (s_world s') "A" c f /\ config_of s both_cfg /\ config_of s' both_cfg /\ panel_at both_cfg ["x"] 0 0 "x" "x" /\ diagonal both_cfg 0 0 /\
  tri s ["A"] = [[2]]%nat /\ tri s' ["A"] = [[2]]%nat /\ tri s' ["B"] = [[2]]%nat /\ tri s' ["B"; "A"] = [[4]]%nat /\
  dist s ["A"] = [[2]]%nat /\ dist s' ["A"] = [[2]]%nat /\ dist s' ["B"] = [[2]]%nat /\ dist s' ["B"; "A"] = [[4]]%nat /\
  walked_in s ["A"] = [[2]]%nat /\ walked_in s' ["B"] = [[2]]%nat /\ walked_in s' ["B"; "A"] = [[4]]%nat /\ drawn_in (summ s ["A"] false 1 1)%Q = [[0; 2]]%nat /\ drawn_in (summ s' ["B"] false 1 1)%Q = [[0; 2]]%nat /\ drawn_in (summ s' ["B"; "A"] false 1 1)%Q = [[0; 2]; [0; 2]]%nat /\ errors_in (summ s' ["B"; "A"] true 1 1)%Q = [[0; 1]; [0; 1]]%nat.
Proof.
  do 2 eexists. cbv zeta. split; [apply only_a_reachable|]. split; [apply fig_reachable|]. split; [eapply first_shared; vm_compute; reflexivity|]. split; [reflexivity|]. split; [reflexivity|]. split; [split; reflexivity|]. split; [split; reflexivity|]. repeat split; vm_compute; reflexivity.
Qed.
