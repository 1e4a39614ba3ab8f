(** Independent vocabulary for C91. *)
From Coq Require Import String QArith List Permutation.
From Verif Require Import Py HelpersModel FrameModel ConfigModel ChainModel RegistryModel AnalysisModel EquivSpec.
Import ListNotations.
Open Scope Q_scope.

(** The kernel density estimate at a point does not depend on the order of the samples. *)
Definition order_free (num : numerics) : Prop :=
  forall xs ws xs' ws' factor q q', length xs = length ws -> length xs' = length ws' -> Permutation (combine xs ws) (combine xs' ws') -> q' == q ->
    n_megkde num xs' ws' factor q' == n_megkde num xs ws factor q.
(** The same chain objects; every table holds the same rows, in whatever order. *)
Definition rows_shuffled (h h' : heap) : Prop :=
  h_chains h' = h_chains h /\ Forall2 reordered (h_frames h) (h_frames h').
