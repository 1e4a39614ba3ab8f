(** C111: the location of a truth. *)
From Coq Require Import String List Bool Arith ZArith QArith Lia.
From Verif Require Import Py NumSpec NumModel NumFacts HelpersSpec ColorModel HelpersModel FrameModel ConfigModel ChainModel RegistryModel RegistrySpec SurfaceModel PanelSpec SurfaceProofs FigureModel FigureSpec FigureProofs FigureCases ConsumerSpec ConsumerProps TruthModel TruthSpec.
Import ListNotations.
Open Scope string_scope.
Open Scope list_scope.

Lemma item_ok read kv e : item_of read kv = Ok e <-> entry_is read kv e.
Proof.
  destruct kv as [k v], e as [p q]. unfold item_of, entry_is. cbn [fst snd]. split.
  - destruct k as [k|]; [|discriminate]. destruct v as [x|b|s|]; [| | |discriminate]; intros H.
    + injection H as -> ->. split; [reflexivity|constructor].
    + injection H as -> <-. split; [reflexivity|destruct b; constructor].
    + destruct (read s) eqn:E; [|discriminate]. injection H as -> ->. split; [reflexivity|constructor; exact E].
  - intros [-> S]. destruct S; try reflexivity. rewrite H. reflexivity.
Qed.
Lemma items_ok read items loc : rmapM (item_of read) items = Ok loc <-> names_values read items loc.
Proof.
  rewrite rmapM_ok. unfold names_values. split; intros F; (induction F; constructor; [apply item_ok; assumption|assumption]).
Qed.
Lemma items_err read : forall items e, rmapM (item_of read) items = Err e -> e = ValidationError.
Proof.
  induction items as [|[k v] items IH]; intros e; [discriminate|]. cbn [rmapM]. destruct (item_of read (k, v)) as [y|e0] eqn:E.
  - cbn [rbind]. destruct (rmapM (item_of read) items); [discriminate|]. cbn [rbind]. intros H. apply IH. exact H.
  - cbn [rbind]. intros H. injection H as <-. unfold item_of in E. cbn [fst snd] in E. destruct k as [k|]; [|congruence]. destruct v as [x|b|s|]; [discriminate|discriminate| |congruence]. destruct (read s); [discriminate|congruence].
Qed.

(** A dictionary (or another mapping) is accepted exactly if its keys are texts, its values stand for numbers and the
    marker may have the edge asked for; the truth then has these numbers under these names, in the same order, and all
    else as it was given.  Otherwise a ValidationError is raised. *)
Theorem C111_mapping_partial : forall filled read items t,
  (forall t', truth_from filled read (LMapping items) t = Ok t' <-> exists loc, names_values read items loc /\ located t loc t' /\ valid_truth filled t) /\
  (forall e, truth_from filled read (LMapping items) t = Err e -> e = ValidationError).
Proof.
  intros filled read items t. unfold truth_from, location_of. split.
  - intros t'. split.
    + intros H. apply rbind_ok in H as [loc [L H]]. apply items_ok in L. exists loc. split; [exact L|].
      match type of H with new_truth _ ?u = _ => set (u0 := u) in H end. destruct (C77_accepted filled u0) as [A B].
      assert (D : valid_truth filled u0). { destruct (t_marker t) as [m|] eqn:M; [|intros m E; unfold u0 in E; cbn in E; congruence]. intros m' E F. assert (m' = m) by (unfold u0 in E; cbn in E; congruence). subst m'.
        unfold new_truth in H. rewrite E in H. rewrite F in H. cbn [negb andb] in H. destruct (qltb 1 (t_marker_edge_width u0)) eqn:L1; [discriminate H|]. apply NumFacts.qlt_false in L1. exact L1. }
      rewrite (A D) in H. injection H as <-. split; [repeat split|exact D].
    + intros [loc [L [[T1 [T2 [T3 [T4 [T5 [T6 [T7 [T8 [T9 [T10 T11]]]]]]]]]] V]]]. apply items_ok in L. rewrite L. cbn [rbind].
      rewrite (proj1 (C77_accepted _ _)) by exact V. destruct t'. cbn in *. congruence.
  - intros e H. destruct (rmapM (item_of read) items) as [loc|e0] eqn:E; [|cbn [rbind] in H; injection H as <-; exact (items_err _ _ _ E)]. cbn [rbind] in H.
    unfold new_truth in H. destruct (t_marker _); [|discriminate H]. destruct (_ && _); [congruence|discriminate H].
Qed.
Print Assumptions C111_mapping_partial.

(** What is looked up in the truth is what the caller's dictionary has under that name. *)
Theorem C111_lookup_partial : forall filled read items t t', truth_from filled read (LMapping items) t = Ok t' -> NoDup (map fst items) ->
  forall p q, dget p (t_location t') = Some q <-> exists v, In (KText p, v) items /\ stands_for read v q.
Proof.
  intros filled read items t t' H N p q. apply C111_mapping_partial in H as [loc [F [[-> _] _]]]. clear - F N. revert N. induction F as [|[k v] [p1 q1] items loc [E S] F IH]; intros N.
  - split; [discriminate|intros [v [[] _]]].
  - cbn [fst snd] in *. subst k. cbn [map fst] in N. inversion N as [|k0 ks N1 N2 EQ]; subst. specialize (IH N2). cbn [dget]. destruct (String.eqb_spec p p1) as [->|NE].
    + split.
      * intros H. injection H as ->. exists v. split; [left; reflexivity|exact S].
      * intros [v' [[EV|I] S']]; [|exfalso; apply N1; apply (in_map fst) in I; exact I]. injection EV as ->. f_equal. destruct S; inversion S'; subst; congruence.
    + rewrite IH. split; intros [v' [I S']]; exists v'; (split; [|exact S']); [right; exact I|]. destruct I as [EV|I]; [injection EV as EP _; congruence|exact I].
Qed.
Print Assumptions C111_lookup_partial.

(** Missing: a Series, documented as an alternative, is always refused, also where the dictionary with the same names
    and values is accepted. *)
Theorem C111_series_refused_partial : forall filled read items t, truth_from filled read (LSeries items) t = Err ValidationError /\ truth_from filled read LNeither t = Err ValidationError.
Proof. intros. split; reflexivity. Qed.
Print Assumptions C111_series_refused_partial.
Definition ex111_items : list (loc_key * loc_value) := [(KText "x", LNumber (3 # 2)); (KText "y", LText "2"); (KText "z", LBool true)].
Definition ex111_read (s : string) : option Q := if String.eqb s "2" then Some 2%Q else None.
Theorem C111_series_refuted : exists filled read items t t', truth_from filled read (LMapping items) t = Ok t' /\ ~ truth_from filled read (LSeries items) t = Ok t'.
Proof. exists (fun _ => false), ex111_read, ex111_items, (fig_truth [] None), (fig_truth [("x", 3 # 2); ("y", 2); ("z", 1)]%Q None). split; [reflexivity|discriminate]. Qed.
Print Assumptions C111_series_refuted.
(** Accepted, and refused for a value, a key and a marker's edge. *)
Example C111_nonvacuous : let build := fun items t => truth_from (fun m => String.eqb m "o") ex111_read (LMapping items) t in
  (exists t', build ex111_items (fig_truth [] (Some "o")) = Ok t' /\ dget "y" (t_location t') = Some 2%Q /\ dget "w" (t_location t') = None) /\
  build [(KText "x", LText "two")] (fig_truth [] None) = Err ValidationError /\ build [(KOther, LNumber 1)] (fig_truth [] None) = Err ValidationError /\ build [(KText "x", LOther)] (fig_truth [] None) = Err ValidationError /\
  NoDup (map fst ex111_items).
Proof. cbv zeta. split; [eexists; split; [reflexivity|split; reflexivity]|]. repeat split. repeat constructor; cbn; intuition congruence. Qed.
