(** chain.py: chains drawn from a mean and a covariance, and the best point as a vector. *)
From Coq Require Import String List Bool Arith ZArith QArith.
From Verif Require Import Py FrameModel ConfigModel ChainModel RegistryModel.
Import ListNotations.
Open Scope list_scope.

(** numpy's [Generator.multivariate_normal(mean, cov, size)]: the rows of one call, or its exception.  Every call draws anew;
    the theorems hold for whatever is drawn. *)
(** chain.py:325-326 *)
Definition sampler := list Q -> list (list Q) -> Z -> res (list (list Q)).
(** chain.py:326 size=1000000 *)
Definition forecast_size : Z := 1000000.

(** chain.py:327 pd.DataFrame(samples, columns=columns) of a two-dimensional array with [dims] columns: ValueError if the
    numbers differ; default row labels. *)
Definition table_of (columns : list string) (dims : nat) (rows : list (list Q)) : res frame :=
  if negb (length columns =? dims)%nat then Err ValueError
  else Ok {| f_index := default_index (length rows);
             f_cols := map (fun jn => (CStr (snd jn), map (fun r => Fin (nth (fst jn) r 0)) rows)) (combine (seq 0 dims) columns) |}.

(** chain.py:303-328 from_covariance.  [a]: the name and the other keyword arguments. *)
Definition from_covariance (rgb2hex : list Q -> string) (draw : sampler) (h : heap) (mean : list Q) (covariance : list (list Q))
  (columns : list string) (a : cargs) : heap * res nat :=
  match rbind (draw mean covariance forecast_size) (table_of columns (length mean)) with                 (* 325-327 *)
  | Err e => (h, Err e)
  | Ok f =>
      let '(h1, l) := alloc_frame h f in
      new_chain rgb2hex h1
        {| a_cfg := a_cfg a; a_samples := l; a_name := a_name a; a_weight := a_weight a; a_post := a_post a;
           a_walkers := a_walkers a; a_grid := a_grid a; a_nfree := a_nfree a; a_ndata := a_ndata a;
           a_power := a_power a; a_showlabel := a_showlabel a; a_relheight := a_relheight a |}          (* 328 *)
  end.

(** chain.py:492-495 MaxPosterior.vec_coordinate *)
Definition vec_coordinate (m : max_posterior) : list Q := map snd (snd m).
