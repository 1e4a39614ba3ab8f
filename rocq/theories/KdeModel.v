(** Model of kde.py, the density estimate MegKDE, over the real numbers, for one and two dimensions: the only ones the
    library uses (analysis.py:352, helpers.py:117, plotting/contours.py:96).  Rounding is not modelled. *)
From Coq Require Import List Bool Arith QArith Reals Qreals.
From Verif Require Import Py ConfigModel AnalysisModel SurfaceModel.
Import ListNotations.
Open Scope list_scope.
Open Scope R_scope.

(** kde.py:39, 76, 81 *)
Definition rsum (l : list R) : R := fold_right Rplus 0 l.
(** kde.py:43, 71 comparison of reals *)
Definition rle (a b : R) : bool := if Rle_dec a b then true else false.
(** kde.py:39, 43, 48 a division by zero *)
Definition req (a b : R) : bool := if Req_EM_T a b then true else false.
(** Component j of a point, a row of an array of shape (n, dim). *)
(** kde.py:35, 42 *)
Definition comp (j : nat) (x : list R) : R := nth j x 0.

(** np.average(x, weights=w) of one column: ZeroDivisionError for a zero weight sum, ValueError for a wrong number of weights. *)
(** kde.py:40 *)
Definition average (w x : list R) : R := rsum (map (fun p => fst p * snd p) (combine w x)) / rsum w.
(** np.cov(..., aweights=w) of two columns (ddof = 1): the columns are centred, the divisor is W - sum w^2 / W. *)
(** kde.py:42 *)
Definition cov_fact (w : list R) : R := rsum w - rsum (map (fun v => v * v) w) / rsum w.
(** kde.py:42 *)
Definition cov_entry (w x y : list R) : R :=
  let mx := average w x in let my := average w y in
  rsum (map (fun p => (fst (snd p) - mx) * ((snd (snd p) - my) * fst p)) (combine w (combine x y))) / cov_fact w.

(** kde.py:42 np.linalg.cholesky(np.linalg.inv(cov)) for a 1x1 and a 2x2 matrix; LinAlgError is a ValueError. *)
Definition sphere_transform (c : list (list R)) : res (list (list R)) :=
  match c with
  | [[v]] => if req v 0 then Err ValueError else let i := 1 / v in if rle i 0 then Err ValueError else Ok [[sqrt i]]
  | [[a; b]; [b'; d]] =>
      let det := a * d - b * b' in
      if req det 0 then Err ValueError else
      let i11 := d / det in let i21 := - b' / det in let i22 := a / det in
      if rle i11 0 then Err ValueError else
      let l11 := sqrt i11 in let l21 := i21 / l11 in let rest := i22 - l21 * l21 in
      if rle rest 0 then Err ValueError else Ok [[l11; 0]; [l21; sqrt rest]]
  | _ => Err RuntimeError                                                          (* more dimensions: not modelled *)
  end.
(** np.dot(x, A) for a row x *)
(** kde.py:45, 68 *)
Definition row_times (x : list R) (m : list (list R)) : list R :=
  map (fun k => rsum (map (fun p => fst p * comp k (snd p)) (combine x m))) (seq 0 (length m)).
(** kde.py:41, 68, 75 *)
Definition minus (x y : list R) : list R := map (fun p => fst p - snd p) (combine x y).
(** kde.py:75-76 *)
Definition dist2 (x y : list R) : R := rsum (map (fun v => v * v) (minus x y)).

(** kde.py:37-48: the attributes an evaluation needs. *)
Record megkde := { kd_mean : list R; kd_A : list (list R); kd_d : list (list R); kd_weights : list R; kd_sigma : R; kd_truncation : R }.
(** kde.py:12-53 MegKDE.__init__(train, weights, truncation, factor=factor), train of shape (n, dim) *)
Definition new_megkde (dim : nat) (train : list (list R)) (w : list R) (truncation factor : R) : res megkde :=
  if negb (length w =? length train)%nat then Err ValueError else                  (* 39 *)
  if req (rsum w) 0 then Err ZeroDivisionError else
  let col j l := map (comp j) l in
  let mean := map (fun j => average w (col j train)) (seq 0 dim) in                (* 39 *)
  let dx := map (fun x => minus x mean) train in                                   (* 40 *)
  if existsb (fun v => negb (rle 0 v)) w then Err ValueError else                  (* 41 *)
  if rle (cov_fact w) 0 then Err NaNResult else
  let cov := map (fun j => map (fun k => cov_entry w (col j dx) (col k dx)) (seq 0 dim)) (seq 0 dim) in
  rbind (sphere_transform cov) (fun a =>                                           (* 42 *)
  Ok {| kd_mean := mean; kd_A := a; kd_d := map (fun x => row_times x a) dx;       (* 44-45 *)
        kd_weights := w; kd_sigma := 2 * factor * Rpower (INR (length train)) (- (1 / (4 + INR dim)));   (* 47 *)
        kd_truncation := truncation |}).
(** kde.py:17 *)
Definition nmin : nat := 4.                                                        (* 17 *)
(** kde.py:54-81 evaluate.  [nearest d t k]: the indices of the k rows of d closest to t (cKDTree.query; the choice
    among equally close rows is the tree's). *)
Definition evaluate (nearest : list (list R) -> list R -> nat -> list nat) (k : megkde) (targets : list (list R)) : res (list R) :=
  if req (kd_sigma k) 0 then Err NaNResult else                                    (* 48: -0.5 / 0 *)
  rmapM (fun x =>
    let t := row_times (minus x (kd_mean k)) (kd_A k) in                           (* 67 *)
    let reach := kd_sigma k * kd_truncation k in
    let ball := filter (fun i => rle (dist2 (nth i (kd_d k) []) t) (reach * reach)) (seq 0 (length (kd_d k))) in   (* 70 *)
    rbind (if (nmin <=? length ball)%nat then Ok ball                              (* 73 *)
           else if (length (kd_d k) <? nmin)%nat then Err IndexError               (* the index past the end marks a missing neighbour *)
           else Ok (nearest (kd_d k) t nmin)) (fun ns =>                           (* 78 *)
    Ok (rsum (map (fun i => nth i (kd_weights k) 0 * exp (- (1 / 2) / (kd_sigma k * kd_sigma k) * dist2 (nth i (kd_d k) []) t)) ns))))   (* 48, 74-80 *)
    targets.

(** kde.py:12-82 MegKDE(...).evaluate(...) *)
Definition megkde_at (nearest : list (list R) -> list R -> nat -> list nat) (dim : nat) (train : list (list R)) (w : list R) (truncation factor : R) (targets : list (list R)) : res (list R) :=
  rbind (new_megkde dim train w truncation factor) (fun k => evaluate nearest k targets).
(** analysis.py:351-352: MegKDE(data, weights, factor=chain.kde), truncation 3 *)
Definition kde_marginal (nearest : list (list R) -> list R -> nat -> list nat) (data w : list R) (kde : kde_opt) (xs : list R) : res (list R) :=
  megkde_at nearest 1 (map (fun x => [x]) data) w 3 (Q2R (kde_factor kde)) (map (fun x => [x]) xs).
(** helpers.py:115-117: MegKDE(data, w, chain.kde), whose third argument is the truncation *)
Definition kde_surface (nearest : list (list R) -> list R -> nat -> list nat) (data : list (R * R)) (w : list R) (kde : kde_opt) (targets : list (R * R)) : res (list R) :=
  megkde_at nearest 2 (map (fun p => [fst p; snd p]) data) w (Q2R (kde_value kde)) 1 (map (fun p => [fst p; snd p]) targets).
(** plotting/contours.py:96-98: MegKDE(data, weights, chain.kde) on one column *)
Definition kde_dist (nearest : list (list R) -> list R -> nat -> list nat) (data w : list R) (kde : kde_opt) (xs : list R) : res (list R) :=
  megkde_at nearest 1 (map (fun x => [x]) data) w (Q2R (kde_value kde)) 1 (map (fun x => [x]) xs).
