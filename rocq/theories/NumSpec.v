(** Specification vocabulary for lists of exact rationals.  Nothing here refers to the model. *)
From Coq Require Import QArith List Arith ZArith Bool.
Import ListNotations.
Open Scope Q_scope.

(** [l[i]] for an index known to be in range. *)
Definition at_ (l : list Q) (i : nat) : Q := nth i l 0.
Arguments at_ : simpl never.

Definition nondecreasing (l : list Q) : Prop :=
  forall i j, (i <= j)%nat -> (j < length l)%nat -> at_ l i <= at_ l j.

Definition increasing (l : list Q) : Prop :=
  forall i j, (i < j)%nat -> (j < length l)%nat -> at_ l i < at_ l j.

Definition all_nonneg (l : list Q) : Prop := forall x, In x l -> 0 <= x.

(** Sum of [f i] for [a <= i < b]. *)
Fixpoint sum_n (f : nat -> Q) (a len : nat) : Q :=
  match len with O => 0 | S k => f a + sum_n f (S a) k end.
Definition sum_range (f : nat -> Q) (a b : nat) : Q := sum_n f a (b - a).

(** Total of a list. *)
Definition total (l : list Q) : Q := sum_range (at_ l) 0 (length l).

(** [(x,v)] lies on the polyline through the points [(xs[i], vs[i])]: it divides the segment from
    point [j] to point [j+1] in the ratio [t]. *)
Definition on_polyline (xs vs : list Q) (x v : Q) : Prop :=
  exists j t, (S j < length xs)%nat /\ 0 <= t <= 1 /\
    x == at_ xs j + t * (at_ xs (S j) - at_ xs j) /\
    v == at_ vs j + t * (at_ vs (S j) - at_ vs j).

(** [i] is an index of a largest element. *)
Definition is_argmax (l : list Q) (i : nat) : Prop :=
  (i < length l)%nat /\ forall j, (j < length l)%nat -> at_ l j <= at_ l i.
(** ... and the first such index. *)
Definition is_first_argmax (l : list Q) (i : nat) : Prop :=
  is_argmax l i /\ forall j, (j < i)%nat -> at_ l j < at_ l i.
