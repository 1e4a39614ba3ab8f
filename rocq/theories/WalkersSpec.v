(** What the walkers of a sampler are. *)
From Coq Require Import String List Bool Arith ZArith QArith.
From Verif Require Import Py FrameModel ChainModel ChainSpec WalkersModel.
Import ListNotations.
Open Scope list_scope.

(** ** emcee *)
(** [W] walkers in [D] dimensions. *)
Definition ensemble_of (W D : nat) (s : ensemble) : Prop :=
  forall step, In step s -> length step = W /\ forall position, In position step -> length position = D.
(** Coordinate [d] of walker [w] at step [t]. *)
Definition coordinate (s : ensemble) (t w d : nat) : option Q :=
  match nth_error s t with
  | Some step => match nth_error step w with Some position => nth_error position d | None => None end
  | None => None
  end.
(** The [i]-th step that is kept: the first [discard] are dropped, of the others every [thin]-th is kept, the last of each
    group of [thin]. *)
Definition kept_step (thin discard i : nat) : nat := discard + i * thin + (thin - 1).
(** [T] steps are kept of a run of [n] steps. *)
Definition kept_steps (thin discard n T : nat) : Prop := forall i, (i < T)%nat <-> (kept_step thin discard i < n)%nat.

(** ** numpyro and arviz *)
(** [n] chains of [m] draws of scalars. *)
Definition scalars_of (n m : nat) (s : mcmc) : Prop :=
  forall v chains, In (v, chains) s -> length chains = n /\
    forall draws, In draws chains -> length draws = m /\ forall x, In x draws -> exists q, x = [q].
Definition posterior_ok (p : posterior) : Prop :=
  forall v chains, In (v, chains) (p_vars p) -> length chains = p_chains p /\ forall draws, In draws chains -> length draws = p_draws p.

(** ** Chains one by one *)
(** The caller asked for [v] (see C17 for names and negations). *)
Definition asked_variable (var_names : option (list string)) (all : list string) (v : string) : Prop :=
  exists kept, filter_var_names var_names all = Ok kept /\ In v kept.
(** divide() of the chain [c] in the heap [h] gives [cs], in the heap [h']. *)
Definition divides (rgb2hex : list Q -> string) (h : heap) (c : chain) (h' : heap) (cs : list chain) : Prop :=
  exists ls, divide rgb2hex h c = (h', Ok ls) /\ map (chain_at h') ls = map Some cs.
