(** C116: what is reported of a parameter. *)
From Coq Require Import String List Bool Arith QArith.
From Verif Require Import Py TextModel CovModel CovSpec AnalysisSpec.
Import ListNotations.
Open Scope list_scope.

(** What a summary says about parameter [p] of chain [n] *)
Definition reported (d : dict (dict bounds_in)) (n p : string) : option bounds_in := match dget n d with Some r => dget p r | None => None end.
(** The number a labelled matrix has for the row [p] and the column [q] *)
Definition at_names {A} (m : named_matrix A) (p q : string) (v : A) : Prop :=
  exists i j row, nth_error (nm_columns m) i = Some p /\ nth_error (nm_columns m) j = Some q /\ nth_error (rows (nm_matrix m)) i = Some row /\ nth_error row j = Some v.
