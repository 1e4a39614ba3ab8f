(** numpy / scipy primitives used by ChainConsumer, over exact rationals.
    Floats are modelled as exact rationals: no rounding, no overflow. *)
From Coq Require Import QArith Qabs Qround List Arith ZArith Bool.
Import ListNotations.
Open Scope Q_scope.

(** the comparison < *)
Definition qltb (x y : Q) : bool := negb (Qle_bool y x).
(** Python max, analysis.py:350, plotter.py:980 *)
Definition qmax (x y : Q) : Q := if Qle_bool x y then y else x.
(** Python min, analysis.py:448, plotter.py:980 *)
Definition qmin (x y : Q) : Q := if Qle_bool x y then x else y.
(** a number from an integer *)
Definition nq (n : nat) : Q := inject_Z (Z.of_nat n).

(** np.sum *)
(** kde.py:76, 81; diagnostic.py:155 *)
Fixpoint qsum (l : list Q) : Q := match l with [] => 0 | x :: r => x + qsum r end.

(** np.ndarray.cumsum *)
(** helpers.py:21, analysis.py:358 *)
Fixpoint cumsum_from (acc : Q) (l : list Q) : list Q :=
  match l with [] => [] | x :: r => (acc + x) :: cumsum_from (acc + x) r end.
(** helpers.py:21, analysis.py:358, 656 *)
Definition cumsum (l : list Q) : list Q := cumsum_from 0 l.

(** np.max / np.min of a non-empty array *)
(** helpers.py:22, 24; analysis.py:359, 599, 628, 657 *)
Fixpoint qmax_list (d : Q) (l : list Q) : Q :=
  match l with [] => d | x :: r => qmax_list (qmax d x) r end.
(** analysis.py:628, comparisons.py:52 *)
Fixpoint qmin_list (d : Q) (l : list Q) : Q :=
  match l with [] => d | x :: r => qmin_list (qmin d x) r end.

(** np.linspace(a, b, n): [n] evenly spaced points, both ends included. *)
(** helpers.py:71, 73; analysis.py:342, 350, 652-653 *)
Definition linspace (a b : Q) (n : nat) : list Q :=
  match n with
  | O => []
  | S O => [a]
  | S (S _ as m) => map (fun i => a + nq i * ((b - a) / nq m)) (seq 0 n)
  end.

(** np.argmax: first index of the maximum. *)
(** analysis.py:637, 658, 692 *)
Fixpoint argmax_from (best : Q) (bi i : nat) (l : list Q) : nat :=
  match l with
  | [] => bi
  | x :: r => if qltb best x then argmax_from x i (S i) r else argmax_from best bi (S i) r
  end.
(** analysis.py:637, 658, 692; chain.py:199 *)
Definition argmax (l : list Q) : nat :=
  match l with [] => 0%nat | x :: r => argmax_from x 0 1 r end.

(** np.searchsorted(a, v, side="left") on a sorted array: the first index with [a[i] >= v],
    [len(a)] if there is none. *)
(** analysis.py:542 *)
Fixpoint searchsorted (l : list Q) (v : Q) : nat :=
  match l with [] => 0%nat | x :: r => if Qle_bool v x then 0%nat else S (searchsorted r v) end.

(** np.where(l < t)[0][0]: first index with [l[i] < t]; [None] is numpy's IndexError. *)
(** analysis.py:671-672 *)
Fixpoint first_lt (l : list Q) (t : Q) : option nat :=
  match l with
  | [] => None
  | x :: r => if qltb x t then Some 0%nat else option_map S (first_lt r t)
  end.
(** np.where(l > t)[0][0] *)
(** helpers.py:31-32 *)
Fixpoint first_gt (l : list Q) (t : Q) : option nat :=
  match l with
  | [] => None
  | x :: r => if qltb t x then Some 0%nat else option_map S (first_gt r t)
  end.

(** np.interp(x, xp, fp, left, right) for sorted [xp] (numpy's compiled_base.c:
    [j] is the largest index with [xp[j] <= x]). *)
(** analysis.py:574 *)
Fixpoint interp_scan (x x0 y0 : Q) (pts : list (Q * Q)) : Q :=
  match pts with
  | [] => y0
  | (x1, y1) :: r =>
      if Qle_bool x1 x then interp_scan x x1 y1 r
      else if Qeq_bool x0 x then y0
      else (y1 - y0) / (x1 - x0) * (x - x0) + y0
  end.
(** analysis.py:574 *)
Definition np_interp (x : Q) (xp fp : list Q) (lft rgt : Q) : Q :=
  match combine xp fp with
  | [] => lft
  | (x0, y0) :: r =>
      if qltb x x0 then lft
      else if qltb (last xp x0) x then rgt
      else interp_scan x x0 y0 r
  end.

(** scipy.interpolate.interp1d(xp, fp)(x), kind="linear": ValueError ([None]) outside [xp]'s range,
    numpy.interp inside.  [xp] is already sorted at every call site, so interp1d's stable argsort
    is the identity. *)
(** analysis.py:355, 357, 499, 506, 691 *)
Definition interp1d (xp fp : list Q) (x : Q) : option Q :=
  match xp with
  | [] => None
  | x0 :: _ => if qltb x x0 || qltb (last xp x0) x then None else Some (np_interp x xp fp 0 0)
  end.

(** analysis.py:499, 506: an array of interpolated values *)
Fixpoint opt_all {A} (l : list (option A)) : option (list A) :=
  match l with
  | [] => Some []
  | Some x :: r => option_map (cons x) (opt_all r)
  | None :: _ => None
  end.

(** np.histogram: weight falling in the bin [lo,hi), the last bin being closed. *)
(** helpers.py:19, analysis.py:338 *)
Definition in_bin (lo hi : Q) (closed : bool) (x : Q) : bool :=
  Qle_bool lo x && (qltb x hi || (closed && Qle_bool x hi)).
(** helpers.py:19, analysis.py:338 *)
Definition bin_weight (lo hi : Q) (closed : bool) (data : list (Q * Q)) : Q :=
  qsum (map (fun xw => if in_bin lo hi closed (fst xw) then snd xw else 0) data).
(** helpers.py:19, analysis.py:338 *)
Fixpoint hist_bins (edges : list Q) (data : list (Q * Q)) : list Q :=
  match edges with
  | lo :: ((hi :: rest') as rest) =>
      bin_weight lo hi (match rest' with [] => true | _ => false end) data :: hist_bins rest data
  | _ => []
  end.
(** [data] pairs each sample with its weight. *)
(** helpers.py:19, analysis.py:338 *)
Definition np_histogram (edges : list Q) (data : list (Q * Q)) : list Q := hist_bins edges data.

(** 0.5 * (edges[1:] + edges[:-1]) *)
(** helpers.py:20, analysis.py:341 *)
Fixpoint bin_centers (edges : list Q) : list Q :=
  match edges with
  | lo :: ((hi :: _) as rest) => (1#2) * (hi + lo) :: bin_centers rest
  | _ => []
  end.
(** numpy density=True, analysis.py:338 *)
Fixpoint bin_widths (edges : list Q) : list Q :=
  match edges with
  | lo :: ((hi :: _) as rest) => (hi - lo) :: bin_widths rest
  | _ => []
  end.
