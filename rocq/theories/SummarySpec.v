(** Independent vocabulary for marginal distributions and their summaries. *)
From Coq Require Import QArith Qabs List Arith ZArith Bool.
From Verif Require Import NumSpec.
Import ListNotations.
Open Scope Q_scope.

(** A discretised marginal: increasing positions, non-negative densities (not all zero), and the
    normalised cumulative sums. *)
Definition marginal_ok (xs ys cs : list Q) : Prop :=
  length ys = length xs /\ length cs = length xs /\ (2 <= length xs)%nat /\
  increasing xs /\ all_nonneg ys /\ 0 < total ys /\
  forall i, (i < length xs)%nat -> at_ cs i == sum_range (at_ ys) 0 (S i) / total ys.

(** Mass that the cumulative array assigns to the window from position [i] to position [j]
    (starting at the very first position, the window starts with no mass). *)
Definition start_mass (cs : list Q) (i : nat) : Q := match i with O => 0 | _ => at_ cs i end.
Definition window_mass (cs : list Q) (i j : nat) : Q := at_ cs j - start_mass cs i.

(** [x] is a mode: the position of a highest density. *)
Definition is_mode (xs ys : list Q) (x : Q) : Prop :=
  exists i, (i < length xs)%nat /\ at_ xs i == x /\ forall j, (j < length ys)%nat -> at_ ys j <= at_ ys i.

(** A straight ramp of [n] points from [a] to [b]. *)
Definition ramp (a b : Q) (n : nat) (l : list Q) : Prop :=
  length l = n /\ forall i, (i < n)%nat -> at_ l i == a + (b - a) * (inject_Z (Z.of_nat i) / inject_Z (Z.of_nat (n - 1))).

(** A maximal run of [true] in a mask, [s..e] inclusive. *)
Definition is_run (mask : list bool) (s e : nat) : Prop :=
  (s <= e)%nat /\ (e < length mask)%nat /\
  (forall k, (s <= k <= e)%nat -> nth k mask false = true) /\
  (s = 0%nat \/ nth (s - 1) mask false = false) /\
  (S e = length mask \/ nth (S e) mask false = false).

(** [v] is the [q]-quantile read off the cumulative array: [(q,v)] is on the polyline through the
    points (cumulative mass, position); positions whose cumulative mass is at most [q] are not to the
    right of [v], those whose cumulative mass exceeds [q] are not to its left. *)
Definition is_quantile (xs cs : list Q) (q v : Q) : Prop :=
  on_polyline cs xs q v /\
  (forall i, (i < length xs)%nat -> at_ cs i <= q -> at_ xs i <= v) /\
  (forall i, (i < length xs)%nat -> q < at_ cs i -> v <= at_ xs i).

(** The curve continued to zero at both ends: [n] points rising from 0 to the first density at the
    first position, and [n] points falling from the last density to 0 at the last position. *)
Definition padded (n : nat) (xs ys pxs pys : list Q) : Prop :=
  exists up down, ramp 0 (at_ ys 0) n up /\ ramp (at_ ys (length ys - 1)) 0 n down /\
    pys = up ++ ys ++ down /\
    pxs = repeat (at_ xs 0) n ++ xs ++ repeat (at_ xs (length xs - 1)) n.

(** The positions [i1..i2-1] are the maximal stretch around [k] where the curve is at least [level];
    [i1-1] and [i2] are the first positions outside it, below the level. *)
Definition stretch (ys : list Q) (k : nat) (level : Q) (i1 i2 : nat) : Prop :=
  (1 <= i1 <= k)%nat /\ (k < i2 < length ys)%nat /\
  (forall j, (i1 <= j < i2)%nat -> level <= at_ ys j) /\
  at_ ys (i1 - 1) < level /\ at_ ys i2 < level.

(** Share of the total of [ys] carried by the points [i1+1..i2]. *)
Definition share (ys : list Q) (i1 i2 : nat) : Q := sum_range (at_ ys) (S i1) (S i2) / total ys.

(** Mirror boundary: position [j] of an array of length [n] stands for the virtual position [z] when
    the array is repeated as (... c b a | a b c | c b a ...). *)
Definition mirrored (n : nat) (z : Z) (j : nat) : Prop :=
  (j < n)%nat /\ ((2 * Z.of_nat n | z - Z.of_nat j)%Z \/ (2 * Z.of_nat n | z + 1 + Z.of_nat j)%Z).

(** [r] is [l] correlated with the [2*radius+1] taps [kern], mirroring at the ends. *)
Definition is_smoothing (kern l r : list Q) : Prop :=
  length r = length l /\
  exists pos : Z -> nat, (forall z, mirrored (length l) z (pos z)) /\
  forall i, (i < length l)%nat ->
    at_ r i == sum_range (fun k => at_ kern k * at_ l (pos (Z.of_nat i + Z.of_nat k - Z.of_nat (Nat.div2 (length kern)))%Z))
                         0 (length kern).
