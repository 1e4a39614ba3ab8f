(** C59: bounds and arrays. *)
From Coq Require Import List Lia QArith.
From Verif Require Import Py FrameModel MarginalModel BoundModel.
Import ListNotations.

(** Exactly the arrays of three elements are accepted; others fail an assertion. *)
Theorem C59_accepts : forall l, ((exists b, bound_from_array l = Ok b) <-> length l = 3%nat) /\ (length l <> 3%nat -> bound_from_array l = Err AssertionError).
Proof.
  intros l. destruct l as [|a [|b [|c [|d l]]]]; cbn; (split; [split; [intros [x H]; try discriminate; reflexivity|intros H; try (exfalso; lia); eauto]|intros H; try reflexivity; exfalso; lia]).
Qed.
Print Assumptions C59_accepts.
(** The elements come back in the order given: lower, centre, upper; a missing one as NaN. *)
Theorem C59_order : forall lo ce up, exists b, bound_from_array [lo; ce; up] = Ok b /\ fb_lower b = lo /\ fb_center b = ce /\ fb_upper b = up /\
  Forall2 (fun given back => match given with Some v => back = v | None => back = NaN end) [lo; ce; up] (bound_array b).
Proof. intros lo ce up. eexists. split; [reflexivity|]. repeat split. cbn. destruct lo, ce, up; repeat constructor. Qed.
Print Assumptions C59_order.
(** An array of three numbers round-trips. *)
Theorem C59_array_roundtrip : forall l b, bound_from_array (map Some l) = Ok b -> bound_array b = l.
Proof. intros l b. destruct l as [|a1 [|a2 [|a3 [|a4 l]]]]; cbn; intros H; inversion H; subst; reflexivity. Qed.
Print Assumptions C59_array_roundtrip.
(** A bound survives the trip through its array exactly if it has all its values. *)
Theorem C59_bound_roundtrip : forall b, exists b', bound_from_array (map Some (bound_array b)) = Ok b' /\
  (b' = b <-> fb_lower b <> None /\ fb_center b <> None /\ fb_upper b <> None).
Proof.
  intros [lo ce up]. eexists. split; [reflexivity|]. cbn [fb_lower fb_center fb_upper]. split.
  - intros H. destruct lo, ce, up; try discriminate H; repeat split; discriminate.
  - intros [H1 [H2 H3]]. destruct lo, ce, up; try contradiction; reflexivity.
Qed.
Print Assumptions C59_bound_roundtrip.
(** [all_none] holds exactly when all values are missing. *)
Theorem C59_all_none : forall l b, bound_from_array l = Ok b -> (bound_all_none b = true <-> forall v, In v l -> v = None).
Proof.
  intros l b H. destruct l as [|a1 [|a2 [|a3 [|a4 l]]]]; cbn in H; try discriminate. injection H as <-. unfold bound_all_none. cbn. split.
  - destruct a1, a2, a3; try discriminate. intros _ v Hv. intuition congruence.
  - intros A. rewrite (A a1), (A a2), (A a3) by auto. reflexivity.
Qed.
Print Assumptions C59_all_none.
(** Missing is not NaN: the array of an all-missing bound no longer gives an all-missing bound. *)
Theorem C59_missing_becomes_nan : forall b b', bound_all_none b = true -> bound_from_array (map Some (bound_array b)) = Ok b' -> bound_array b = [NaN; NaN; NaN] /\ bound_all_none b' = false.
Proof. intros [[lo|] [ce|] [up|]] b' H E; try discriminate H. injection E as <-. split; reflexivity. Qed.
Print Assumptions C59_missing_becomes_nan.
(** The bounds computed by the summaries, which hold finite values, as arrays. *)
Theorem C59_summary_array : forall l c u, bound_array (bound_of_finite (mkB l c u)) = [Fin l; Fin c; Fin u] /\ bound_all_none (bound_of_finite (mkB l c u)) = false.
Proof. intros. split; reflexivity. Qed.
Print Assumptions C59_summary_array.
Example C59_nonvacuous : (exists b, bound_from_array [Some (Fin 1); None; Some PInf] = Ok b /\ bound_array b = [Fin 1; NaN; PInf] /\ bound_all_none b = false) /\
  bound_from_array [Some (Fin 1); None] = Err AssertionError /\ exists b, bound_from_array [None; None; None] = Ok b /\ bound_all_none b = true.
Proof. split; [eexists; repeat split|split; [reflexivity|eexists; repeat split]]. Qed.
