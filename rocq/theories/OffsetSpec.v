(** Independent vocabulary: the same models in another set of models, or with an unnormalised posterior. *)
From Coq Require Import String List QArith Reals.
From Verif Require Import Py FrameModel ConfigModel ChainModel RegistryModel ChainSpec CompareModel CompareSpec.
Import ListNotations.

(** The second chain has the same counts as the first, and its log posterior is [t] higher in every row
    (both or neither have one).  The chains may have other names, colours, columns, ... *)
Definition raised (t : Q) (c : chain) (f : frame) (c' : chain) (f' : frame) : Prop :=
  ch_ndata c' = ch_ndata c /\ ch_nfree c' = ch_nfree c /\ (has_posterior c f <-> has_posterior c' f') /\
  forall p p', column f (ch_post c) p -> column f' (ch_post c') p' -> Forall2 (fun a b => b == a + t)%Q p p'.
(** The two chains have the same samples and weights (the columns may have other names). *)
Definition same_samples (c : chain) (f : frame) (c' : chain) (f' : frame) : Prop :=
  (exists w, column f (ch_weight c) w /\ column f' (ch_weight c') w) /\
  (exists xs, Forall2 (column f) (data_columns c f) xs /\ Forall2 (column f') (data_columns c' f') xs).
Definition counterpart (t : Q) (c : chain) (f : frame) (c' : chain) (f' : frame) : Prop :=
  raised t c f c' f' /\ same_samples c f c' f'.

(** The three criteria, as functions of the consumer. *)
Definition criteria (nearest : list (list Q) -> list Q -> nat) : list (world -> res (dict R)) := [aic; bic; dic nearest].

(** Every chain of [w] has a counterpart of the same name in [w']. *)
Definition kept (t : Q) (w w' : world) : Prop :=
  forall n c f, registered w n c f -> exists c' f', registered w' n c' f' /\ counterpart t c f c' f'.
