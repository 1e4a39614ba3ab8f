(** Independent description of a matched elliptical Gaussian kernel estimate. *)
From Coq Require Import List Arith QArith Reals Qreals.
From Verif Require Import Py ConfigModel.
Import ListNotations.
Open Scope list_scope.
Open Scope R_scope.

(** Sums over a list. *)
Fixpoint total {A} (f : A -> R) (l : list A) : R := match l with [] => 0 | a :: r => f a + total f r end.
(** Weighted points: pairs of a weight and a value. *)
Definition W {A} (d : list (R * A)) : R := total fst d.
Definition mean_of {A} (f : A -> R) (d : list (R * A)) : R := total (fun p => fst p * f (snd p)) d / W d.
(** The unbiased weighted covariance of two functions of the points. *)
Definition covariance {A} (f g : A -> R) (d : list (R * A)) : R :=
  total (fun p => fst p * ((f (snd p) - mean_of f d) * (g (snd p) - mean_of g d))) d / (W d - total (fun p => fst p * fst p) d / W d).
(** The squared distance between two points in units of the data's spread. *)
Definition away1 (d : list (R * R)) (t x : R) : R := (x - t) * (x - t) / covariance (fun v => v) (fun v => v) d.
Definition away2 (d : list (R * (R * R))) (t x : R * R) : R :=
  let vx := covariance fst fst d in let vy := covariance snd snd d in let c := covariance fst snd d in
  let u := fst x - fst t in let v := snd x - snd t in
  (vy * (u * u) - 2 * c * (u * v) + vx * (v * v)) / (vx * vy - c * c).
(** The points that count at a target: those within reach, or the four closest if fewer than four are. *)
Definition counted {A} (away : A -> R) (reach : R) (d : list (R * A)) (chosen : list nat) : Prop :=
  NoDup chosen /\ (forall i, In i chosen -> (i < length d)%nat) /\
  let within i := exists p, nth_error d i = Some p /\ away (snd p) <= reach * reach in
  ((4 <= length chosen)%nat /\ forall i, In i chosen <-> within i) \/
  (length chosen = 4%nat /\ (forall l, NoDup l -> (forall i, In i l -> within i) -> (length l < 4)%nat) /\
   forall i j p q, In i chosen -> ~ In j chosen -> nth_error d i = Some p -> nth_error d j = Some q -> away (snd p) <= away (snd q)).
(** The estimate with kernel width [width]. *)
Definition estimate {A} (away : A -> R) (width reach : R) (d : list (R * A)) (v : R) : Prop :=
  exists chosen, counted away reach d chosen /\
    v = total (fun i => match nth_error d i with Some p => fst p * exp (- (away (snd p) / (2 * (width * width)))) | None => 0 end) chosen.
(** Values at targets. *)
Definition estimates {A} (away : A -> A -> R) (width reach : R) (d : list (R * A)) (targets : list A) (values : list R) : Prop :=
  Forall2 (fun t v => estimate (away t) width reach d v) targets values.
(** The rule of thumb for n points in the given dimension, times the user's factor. *)
Definition width_for (factor : R) (n dim : nat) : R := 2 * factor * Rpower (INR n) (- (1 / (4 + INR dim))).
(** The user's kde setting as a number: True is 1. *)
Definition kde_number (k : kde_opt) : R := match k with KBool true => 1 | KBool false => 0 | KNum q => Q2R q end.
(** What is asked of the tree: the nearest rows. *)
Definition finds_nearest (nearest : list (list R) -> list R -> nat -> list nat) : Prop :=
  let far x t := total (fun p => (fst p - snd p) * (fst p - snd p)) (combine x t) in
  forall d t k, (k <= length d)%nat -> let l := nearest d t k in
    NoDup l /\ length l = k /\ (forall i, In i l -> (i < length d)%nat) /\
    forall i j, In i l -> ~ In j l -> (j < length d)%nat -> far (nth i d []) t <= far (nth j d []) t.
