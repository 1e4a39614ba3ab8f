(** Independent vocabulary for histograms, extents and grids of weighted samples. *)
From Coq Require Import QArith List Arith ZArith Bool.
From Verif Require Import NumSpec.
Import ListNotations.
Open Scope Q_scope.

(** A weighted sample is a list of (value, weight). *)
Fixpoint weight_if (p : Q -> bool) (d : list (Q * Q)) : Q :=
  match d with
  | [] => 0
  | (x, w) :: r => (if p x then w else 0) + weight_if p r
  end.
Definition total_weight (d : list (Q * Q)) : Q := weight_if (fun _ => true) d.

Definition positive_weights (d : list (Q * Q)) : Prop := forall x w, In (x, w) d -> 0 < w.

Definition is_min (m : Q) (l : list Q) : Prop := In m l /\ forall x, In x l -> m <= x.
Definition is_max (m : Q) (l : list Q) : Prop := In m l /\ forall x, In x l -> x <= m.

(** Sample [x] belongs to bin [i] of the edge array [e]: half-open, the last bin closed. *)
Definition belongs (e : list Q) (i : nat) (x : Q) : Prop :=
  (S i < length e)%nat /\ at_ e i <= x /\
  (x < at_ e (S i) \/ (S (S i) = length e /\ x <= at_ e (S i))).

(** [l] is evenly spaced from [a] to [b] with [n] points. *)
Definition evenly_spaced (a b : Q) (n : nat) (l : list Q) : Prop :=
  length l = n /\ at_ l 0 == a /\ at_ l (n - 1) == b /\
  exists step, forall i, (S i < n)%nat -> at_ l (S i) - at_ l i == step.

(** [r] is the floor of the fourth root of [q]. *)
Definition is_floor_root4 (q : Q) (r : Z) : Prop :=
  (0 <= r)%Z /\ inject_Z (r * r * r * r) <= q < inject_Z ((r+1) * (r+1) * (r+1) * (r+1)).
