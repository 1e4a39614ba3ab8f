(** Covariance and correlation of a chain (chain.py:371-398).  Covariances are exact rationals;
    correlations need a square root and are real numbers. *)
From Coq Require Import String List Bool Arith ZArith QArith Reals Qreals.
From Verif Require Import Py NumModel FrameModel ConfigModel ChainModel.
Import ListNotations.
Open Scope list_scope.

(** np.cov ends with [c.squeeze()]: a single variable gives a 0-dimensional array. *)
(** chain.py:382 *)
Inductive cmatrix (A : Type) := Scalar (q : A) | Mat (m : list (list A)).
Arguments Scalar {A}. Arguments Mat {A}.
(** chain.py:34-38 Named2DMatrix *)
Record named_matrix (A : Type) := { nm_columns : list string; nm_matrix : cmatrix A }.
Arguments nm_columns {A}. Arguments nm_matrix {A}.

(** [samples[columns]] as a list of columns: KeyError for a missing one. *)
(** chain.py:382 *)
Definition select (f : frame) (cols : list string) : res (list (list Q)) :=
  rmapM (fun n => match f_get f n with Some l => Ok (qs l) | None => Err KeyError end) cols.

(** Sum over the rows of x * (y * w). *)
(** numpy.cov, for chain.py:382 *)
Fixpoint dot3 (x y w : list Q) : Q :=
  match x, y, w with
  | a :: x', b :: y', c :: w' => a * (b * c) + dot3 x' y' w'
  | _, _, _ => 0
  end%Q.

(** numpy.cov(m, rowvar=False, aweights=w) with [xs] the columns of m.  No variables: an empty matrix.
    Negative weights: ValueError.  Weights summing to zero: ZeroDivisionError (np.average).  A
    normalisation that is not positive is replaced by zero, all entries become nan or inf: NaNResult. *)
(** chain.py:382 *)
Definition np_cov (xs : list (list Q)) (w : list Q) : res (cmatrix Q) :=
  match xs with
  | [] => Ok (Mat [])
  | _ =>
      if existsb (fun q => negb (Qle_bool 0 q)) w then Err ValueError
      else
        rbind (rmapM (fun x => rmap (fun mu => map (fun q => q - mu)%Q x) (average x w)) xs) (fun cs =>
        let fact := (qsum w - qsum (map (fun q => q * q) w) / qsum w)%Q in
        if Qle_bool fact 0 then Err NaNResult
        else match map (fun x => map (fun y => dot3 x y w * (1 / fact))%Q cs) cs with
             | [[q]] => Ok (Scalar q)
             | m => Ok (Mat m)
             end)
  end.

(** chain.py:371-383 get_covariance *)
Definition get_covariance (c : chain) (f : frame) (columns : option (list string)) : res (named_matrix Q) :=
  let cols := match columns with None => data_columns c f | Some l => l end in     (* 380-381 *)
  rbind (select f cols) (fun xs =>
  rbind (weights c f) (fun w =>
  rmap (fun m => {| nm_columns := cols; nm_matrix := m |}) (np_cov xs w))).        (* 382-383 *)

(** chain.py:385-398 get_correlation.  np.diag of a 0-dimensional array is a ValueError.  An entry whose
    divisor is zero is nan: [None]. *)
Definition mat_at (m : list (list Q)) (i j : nat) : Q := nth j (nth i m []) 0%Q.
(** chain.py:385-398 *)
Definition correlation_entry (m : list (list Q)) (i j : nat) : option R :=
  let diag k := sqrt (Q2R (mat_at m k k)) in                                       (* 395 *)
  let divisor := (diag j * diag i)%R in                                            (* 396 *)
  if Req_EM_T divisor 0 then None else Some (Q2R (mat_at m i j) / divisor)%R.      (* 397 *)
Definition get_correlation (c : chain) (f : frame) (columns : option (list string)) : res (named_matrix (option R)) :=
  rbind (get_covariance c f columns) (fun nm =>
  match nm_matrix nm with
  | Scalar _ => Err ValueError
  | Mat m =>
      let d := length m in
      Ok {| nm_columns := nm_columns nm;
            nm_matrix := Mat (map (fun i => map (fun j => correlation_entry m i j) (seq 0 d)) (seq 0 d)) |}
  end).
