(** Independent vocabulary for covariances and correlations. *)
From Coq Require Import String List Bool Arith ZArith QArith Reals Qreals.
From Verif Require Import Py NumSpec FrameModel ConfigModel ChainModel ChainSpec CovModel.
Import ListNotations.
Open Scope list_scope.

(** [c] is the weighted covariance of [x] and [y], with the unbiased normalisation for reliability weights:
    c (W - W2/W) = sum w (x - mean x) (y - mean y), where W is the sum of the weights and W2 that of their
    squares. *)
Definition is_covariance (x y w : list Q) (c : Q) : Prop :=
  forall mx my, weighted_mean x w mx -> weighted_mean y w my ->
    (c * (total w - wsum w w / total w) ==
     sum_range (fun k => at_ w k * (at_ x k - mx) * (at_ y k - my)) 0 (length w))%Q.

(** The entries of a result, as rows. *)
Definition rows {A} (m : cmatrix A) : list (list A) := match m with Scalar q => [[q]] | Mat r => r end.
Definition entry (m : list (list Q)) (i j : nat) : Q := nth j (nth i m []) 0%Q.
Definition square {A} (m : list (list A)) (d : nat) : Prop := length m = d /\ forall r, In r m -> length r = d.

(** v^T M v *)
Definition quadratic (m : list (list Q)) (v : list Q) : Q :=
  sum_range (fun i => sum_range (fun j => at_ v i * at_ v j * entry m i j)%Q 0 (length v)) 0 (length v).

(** The chain's columns [cols] hold the numbers [xs]; its weights are [w], all positive; there are at
    least two rows. *)
Record weighted_data (c : chain) (f : frame) (cols : list string) (xs : list (list Q)) (w : list Q) : Prop := {
  wd_frame : frame_wf f;
  wd_cols : Forall2 (column f) cols xs;
  wd_weights : column f (ch_weight c) w;
  wd_positive : forall x, In x w -> (0 < x)%Q;
  wd_rows : (2 <= length w)%nat }.

(** Entry [i, j] of a correlation matrix: a number, or nan. *)
Definition centry (m : list (list (option R))) (i j : nat) : option R := nth j (nth i m []) None.

(** [x'] is [a x + b], row by row. *)
Definition affine (a b : Q) (x x' : list Q) : Prop :=
  length x = length x' /\ forall k, (k < length x)%nat -> (at_ x' k == a * at_ x k + b)%Q.
