(** Independent vocabulary for example samples. *)
From Coq Require Import String Ascii List Bool Arith Reals.
From Verif Require Import Py SampleModel.
Import ListNotations.
Open Scope R_scope.

(** A correlation matrix of [d] parameters: symmetric, ones on the diagonal, and no combination has a negative variance. *)
Record correlation_matrix (d : nat) (c : nat -> nat -> R) : Prop := {
  cm_symmetric : forall i j, c i j = c j i;
  cm_unit : forall i, (i < d)%nat -> c i i = 1;
  cm_variance : forall x : nat -> R, 0 <= sum_to d (fun i => sum_to d (fun j => x i * x j * c i j)) }.

(** The letters of the alphabet. *)
Definition alphabet : list string :=
  ["A"; "B"; "C"; "D"; "E"; "F"; "G"; "H"; "I"; "J"; "K"; "L"; "M"; "N"; "O"; "P"; "Q"; "R"; "S"; "T"; "U"; "V"; "W"; "X"; "Y"; "Z"]%string.

(** scipy draws as many rows as asked for, each with [d] values. *)
Definition draws (norm : normal) (d : nat) : Prop := forall n, length (nm_rows norm n) = n /\ forall r, In r (nm_rows norm n) -> length r = d.
