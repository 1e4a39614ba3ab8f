(** examples.py: tables of example samples.  Real arithmetic stands for floating point. *)
From Coq Require Import String Ascii List Bool Arith Reals.
From Verif Require Import Py.
Import ListNotations.
Open Scope R_scope.

(** The sum of [f 0], ..., [f (n - 1)]. *)
(** np.dot, examples.py:14 *)
Fixpoint sum_to (n : nat) (f : nat -> R) : R := match n with O => 0 | S m => sum_to m f + f m end.

(** scipy.stats.multivariate_normal(mean, cov): the drawn rows before scipy drops axes of length one, and the logarithm of the
    density. *)
(** examples.py:21-22, 25 *)
Record normal := { nm_rows : nat -> list (list R); nm_logpdf : list R -> R }.
(** It may refuse its arguments (a singular matrix, or one that is not positive semi-definite). *)
(** examples.py:21 *)
Definition normal_maker := nat -> (nat -> R) -> (nat -> nat -> R) -> res normal.

(** examples.py:13-17: the matrix of the drawn values [random], less one half, times its transpose, divided by the roots of
    its diagonal *)
Definition vals (random : nat -> nat -> R) (i j : nat) : R := random i j - 1 / 2.
(** examples.py:14 *)
Definition cov (d : nat) (random : nat -> nat -> R) (i j : nat) : R := sum_to d (fun k => vals random i k * vals random j k).
(** examples.py:15-17 *)
Definition cor (d : nat) (random : nat -> nat -> R) (i j : nat) : R := cov d random i j / (sqrt (cov d random i i) * sqrt (cov d random j j)).
(** examples.py:18-20 *)
Definition means (randomise : bool) (uniform : nat -> R) (i : nat) : R := INR i * 5 + (if randomise then uniform i else 0).
(** examples.py:24.  A character of the first 256. *)
Definition letter (i : nat) : string := String (ascii_of_nat (65 + i)) EmptyString.

(** examples.py:7-25 make_sample.  rvs drops axes of length one: one point leaves a vector of its coordinates (or a number),
    which pd.DataFrame refuses for as many names as coordinates. *)
Definition make_sample (mv : normal_maker) (random : nat -> nat -> R) (uniform : nat -> R) (d : nat) (randomise : bool) (n : nat) : res (list (string * list R)) :=
  rbind (mv d (means randomise uniform) (cor d random)) (fun norm =>                                   (* 21 *)
  let samples := nm_rows norm n in                                                                     (* 22 *)
  if (n =? 1)%nat then Err ValueError
  else Ok (map (fun i => (letter i, map (fun r => nth i r 0) samples)) (seq 0 d) ++ [("log_posterior"%string, map (nm_logpdf norm) samples)])).   (* 24-25 *)
