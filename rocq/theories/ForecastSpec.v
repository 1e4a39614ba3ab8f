(** Independent vocabulary for forecast chains. *)
From Coq Require Import String List Bool Arith ZArith QArith.
From Verif Require Import Py FrameModel ConfigModel ChainModel RegistryModel ForecastModel ChainSpec.
Import ListNotations.
Open Scope list_scope.

(** A square matrix with as many rows as the mean has entries. *)
Definition covariance_of (mean : list Q) (cov : list (list Q)) : Prop :=
  length cov = length mean /\ forall row, In row cov -> length row = length mean.

(** numpy's documented behaviour: as many rows as asked for, each as long as the mean; ValueError if the shapes disagree.
    (A matrix that is not positive semi-definite only gives a warning.) *)
Record draws_rows (draw : sampler) : Prop := {
  dr_rows : forall mean cov n, covariance_of mean cov -> (0 <= n)%Z -> exists rows, draw mean cov n = Ok rows /\ Z.of_nat (length rows) = n /\ forall r, In r rows -> length r = length mean;
  dr_shape : forall mean cov n, ~ covariance_of mean cov -> draw mean cov n = Err ValueError }.

(** The values of one coordinate of the drawn points. *)
Definition coordinate (j : nat) (rows : list (list Q)) (v : list Q) : Prop :=
  length v = length rows /\ forall i r, nth_error rows i = Some r -> exists x, nth_error r j = Some x /\ nth_error v i = Some x.

(** The table [f] shows the drawn points: as many rows, default labels, one column for every name in the given order, the j-th
    of them holding the j-th coordinate. *)
Definition tabulates (f : frame) (columns : list string) (rows : list (list Q)) : Prop :=
  frame_wf f /\ default_labels f /\ length (f_index f) = length rows /\ map fst (f_cols f) = map CStr columns /\
  forall j n, nth_error columns j = Some n -> exists v, nth_error (f_cols f) j = Some (CStr n, map Fin v) /\ coordinate j rows v.

(** The same arguments, for a table at another place. *)
Definition arguments_with (a b : cargs) : Prop :=
  a_cfg b = a_cfg a /\ a_name b = a_name a /\ a_weight b = a_weight a /\ a_post b = a_post a /\ a_walkers b = a_walkers a /\
  a_grid b = a_grid a /\ a_nfree b = a_nfree a /\ a_ndata b = a_ndata a /\ a_power b = a_power a /\
  a_showlabel b = a_showlabel a /\ a_relheight b = a_relheight a.
