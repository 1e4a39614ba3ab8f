(** Independent vocabulary for comparing two answers of a convergence diagnostic. *)
From Coq Require Import String List Bool.
From Verif Require Import Py DiagModel.
Import ListNotations.
Open Scope list_scope.

(** The answer [t'] speaks of the same chains in the same order as [t], and whatever passes in [t] passes in [t']. *)
Definition at_least (t t' : test_result) : Prop :=
  (t_passed t = true -> t_passed t' = true) /\
  Forall2 (fun p p' => fst p = fst p' /\ (snd p = true -> snd p' = true)) (t_results t) (t_results t').
(** Both calls return and the second passes whatever the first passes, or both raise the same exception. *)
Definition outcome_at_least (o o' : res test_result) : Prop :=
  match o, o' with
  | Ok t, Ok t' => at_least t t'
  | Err e, Err e' => e = e'
  | _, _ => False
  end.
