(** chain.py:400-483: the three importers applied to a sampler that has run.  What emcee, numpyro and arviz hand over is
    their documented behaviour, not ChainConsumer code. *)
From Coq Require Import String List Bool Arith ZArith QArith.
From Verif Require Import Py FrameModel ConfigModel ChainModel SurfaceModel.
Import ListNotations.
Open Scope list_scope.

(** The arguments of Chain(samples=df, name=name, **kwargs), with the frame at [l]. *)
(** chain.py:426, 453, 482 *)
Definition with_frame (a : cargs) (l : nat) : cargs :=
  {| a_cfg := a_cfg a; a_samples := l; a_name := a_name a; a_weight := a_weight a; a_post := a_post a;
     a_walkers := a_walkers a; a_grid := a_grid a; a_nfree := a_nfree a; a_ndata := a_ndata a;
     a_power := a_power a; a_showlabel := a_showlabel a; a_relheight := a_relheight a |}.
(** chain.py:426, 453, 482 *)
Definition chain_from (rgb2hex : list Q -> string) (h : heap) (f : res frame) (a : cargs) : heap * res nat :=
  match f with
  | Err e => (h, Err e)
  | Ok f => let '(h1, l) := alloc_frame h f in new_chain rgb2hex h1 (with_frame a l)
  end.

(** ** emcee *)
(** An ensemble that has run: the steps in order; each step has one position per walker. *)
(** chain.py:423 *)
Definition ensemble := list (list (list Q)).
(** sampler.get_chain(flat=True, thin=thin, discard=discard), i.e. v = chain[discard + thin - 1 :: thin] with shape
    (steps, walkers, dimensions), then v.reshape(steps * walkers, dimensions): step after step, each with all walkers.
    Simplification: [thin] and [discard] are not negative. *)
(** chain.py:423 *)
Definition get_flat_chain (thin discard : nat) (s : ensemble) : list (list Q) :=
  concat (every thin (skipn (discard + thin - 1) s)).
(** chain.T: one list of values for each of [ndim] dimensions. *)
(** chain.py:424 *)
Definition dimensions (ndim : nat) (rows : list (list Q)) : list (list Q) :=
  map (fun d => map (fun r => nth d r 0%Q) rows) (seq 0 ndim).
(** chain.py:400-426 from_emcee.  A slice with step 0 is a ValueError. *)
Definition import_emcee (rgb2hex : list Q -> string) (h : heap) (s : ensemble) (ndim : nat) (columns : list string)
  (thin discard : nat) (a : cargs) : heap * res nat :=
  if (thin =? 0)%nat then (h, Err ValueError)
  else let rows := get_flat_chain thin discard s in                                 (* 423 *)
       from_emcee rgb2hex h columns (dimensions ndim rows) (length rows) a.         (* 424-426 *)

(** ** numpyro *)
(** A finished MCMC: for each variable, chain after chain, its draws; a draw is the list of the variable's components
    (one, for a scalar). *)
(** chain.py:449-451 *)
Definition mcmc := list (string * list (list (list Q))).
(** mcmc.get_samples() concatenates the chains; np.ravel flattens the components of each draw. *)
(** chain.py:451 *)
Definition ravelled (m : mcmc) : list (string * list Q) := map (fun kv => (fst kv, concat (concat (snd kv)))) m.
(** chain.py:428-453 from_numpyro *)
Definition import_numpyro (rgb2hex : list Q -> string) (h : heap) (m : mcmc) (var_names : option (list string)) (a : cargs) : heap * res nat :=
  chain_from rgb2hex h (numpyro_frame var_names (ravelled m)) a.

(** ** arviz *)
(** The posterior group: the numbers of chains and of draws, and for each variable the draws of each chain.
    Simplification: scalar variables only (others have several rows per draw in to_dataframe). *)
(** chain.py:478-480 *)
Record posterior := { p_chains : nat; p_draws : nat; p_vars : list (string * list (list Q)) }.
(** az.extract stacks (chain, draw) into one dimension, chain after chain; to_dataframe has one row per sample, labelled
    with the pair, and the columns "chain" and "draw" are dropped.  Simplification: a row is labelled with its chain only,
    which is what looking up an integer label in such an index selects by. *)
Definition arviz_frame (var_names : option (list string)) (p : posterior) : res frame :=
  rbind (filter_var_names var_names (map fst (p_vars p))) (fun names =>            (* 479 *)
  Ok {| f_index := flat_map (fun i => repeat (LInt (Z.of_nat i)) (p_draws p)) (seq 0 (p_chains p));
        f_cols := map (fun kv => (CStr (fst kv), map Fin (concat (snd kv))))
                    (filter (fun kv => smem (fst kv) names) (p_vars p)) |}).         (* 480-481 *)
(** chain.py:455-483 from_arviz *)
Definition import_arviz (rgb2hex : list Q -> string) (h : heap) (p : posterior) (var_names : option (list string)) (a : cargs) : heap * res nat :=
  chain_from rgb2hex h (arviz_frame var_names p) a.
