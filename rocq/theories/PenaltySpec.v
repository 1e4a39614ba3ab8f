(** Independent vocabulary: what a model is judged by. *)
From Coq Require Import String List ZArith QArith.
From Verif Require Import Py FrameModel ConfigModel ChainModel RegistryModel ChainSpec CompareSpec.
Import ListNotations.

(** The chain stored as [n] has [k] free parameters, [N] data points and the largest log posterior [P]. *)
Definition model (w : world) (n : string) (k : Z) (N P : Q) : Prop :=
  exists c f p, registered w n c f /\ column f (ch_post c) p /\ is_largest P p /\ ch_nfree c = Some k /\ ch_ndata c = Some (Fin N).
