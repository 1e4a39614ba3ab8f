(** Model of /repo/src/chainconsumer/helpers.py (bins, extents, grid bins) over exact rationals. *)
From Coq Require Import QArith Qabs Qround List Arith ZArith Bool.
From Verif Require Import Py NumModel.
Import ListNotations.
Open Scope Q_scope.

(** A weighted column: [data] paired with [weight], row by row. *)
(** helpers.py:11-13, the arguments data and weight *)
Definition wdata := list (Q * Q).

(** numpy: range used by [np.histogram(data, bins=n)] -- (min, max), widened by 0.5 on each side
    when the data is constant; ValueError-free for finite data.  Empty data uses (0,1). *)
(** helpers.py:19 *)
Definition hist_range (d : wdata) : Q * Q :=
  match map fst d with
  | [] => (0, 1)
  | x :: r =>
      let lo := qmin_list x r in let hi := qmax_list x r in
      if Qeq_bool lo hi then (lo - (1#2), hi + (1#2)) else (lo, hi)
  end.

(** helpers.py:11-39 get_extents.  [nbins] is the literal 2000 of line 19.
    Errors: [hist.cumsum().max() == 0] (no weight) and [icdf.max() == 0] are 0/0 in numpy (NaN);
    [np.where(...)[0][0]] raises IndexError when empty.
    Line 34's [bc[-i2]] is [bc[n - i2]] ([i2 = 0] would wrap to [bc[0]]). *)
Definition extents_threshold (plot wide tiny : bool) : Q :=
  if tiny then 3#10                                   (* lines 29-30 *)
  else if plot && negb wide then 5#100                (* lines 27-28 *)
  else if plot then 1#10000 else 1#100000.            (* line 26 *)

(** helpers.py:34 bc[-i2], where -0 is 0 *)
Definition py_neg_index (n i : nat) : nat := match i with O => O | _ => (n - i)%nat end.

(** helpers.py:11-39 *)
Definition get_extents (nbins : nat) (d : wdata) (plot wide tiny pad : bool) : res (Q * Q) :=
  let (rlo, rhi) := hist_range d in
  let be := linspace rlo rhi (S nbins) in
  let hist := np_histogram be d in                                         (* 19 *)
  let bc := bin_centers be in                                              (* 20 *)
  let cdf0 := cumsum hist in                                               (* 21 *)
  let m0 := qmax_list (hd 0 cdf0) (tl cdf0) in
  if Qeq_bool m0 0 then Err NaNResult else
  let cdf1 := map (fun c => c / m0) cdf0 in                                (* 22 *)
  let icdf0 := rev (map (fun c => 1 - c) cdf1) in                          (* 23 *)
  let m1 := qmax_list (hd 0 icdf0) (tl icdf0) in
  if Qeq_bool m1 0 then Err NaNResult else
  let icdf := map (fun c => c / m1) icdf0 in                               (* 24 *)
  let cdf := map (fun c => 1 - c) (rev icdf) in                            (* 25 *)
  let t := extents_threshold plot wide tiny in                             (* 26-30 *)
  match first_gt cdf t, first_gt icdf t with                               (* 31-32 *)
  | Some i1, Some i2 =>
      let lower := nth i1 bc 0 in                                          (* 33 *)
      let upper := nth (py_neg_index (length bc) i2) bc 0 in               (* 34 *)
      if pad then
        let width := upper - lower in                                      (* 36 *)
        Ok (lower - (1#5) * width, upper + (1#5) * width)                  (* 37-38 *)
      else Ok (lower, upper)
  | _, _ => Err IndexError
  end.

(** chain.py:221-229 Chain.smooth_value *)
Definition smooth_value (smooth : option Z) (grid : bool) : Z :=
  match smooth with Some s => s | None => if grid then 0%Z else 3%Z end.

(** floor of the fourth root of a non-negative rational: the largest [k] with [k^4 <= q].
    helpers.py:46 computes it as [np.floor(np.power(rows/cols, 0.25))]; float rounding ignored. *)
Definition floor_root4 (q : Q) : Z := Z.sqrt (Z.sqrt (Qfloor q)).

(** helpers.py:42-46 get_bins.  [rows], [cols] = samples.shape (weights column included). *)
Definition get_bins (bins : option Z) (smooth : option Z) (grid : bool) (rows cols : nat) : Z :=
  match bins with
  | Some b => b                                                            (* 43-44 *)
  | None =>
      let max_v := if (0 <? smooth_value smooth grid)%Z then 35%Z else 100%Z in   (* 45 *)
      Z.max max_v (floor_root4 (nq rows / nq cols))                        (* 46 *)
  end.

(** helpers.py:49-73 get_smoothed_bins.  np.linspace raises ValueError for a negative count. *)
Definition get_smoothed_bins (nbins : nat) (smooth bins : Z) (d : wdata) (plot pad : bool)
  : res (list Q * Z) :=
  rbind (get_extents nbins d plot true false pad) (fun mm =>               (* 69 *)
    let (minv, maxv) := mm in
    if (smooth =? 0)%Z then                                                (* 70 *)
      if (bins <? 0)%Z then Err ValueError
      else Ok (linspace minv maxv (Z.to_nat bins), 0%Z)                    (* 71 *)
    else
      if (2 * smooth * bins <? 0)%Z then Err ValueError
      else Ok (linspace minv maxv (Z.to_nat (2 * smooth * bins)), smooth)). (* 73 *)

(** np.sort(np.unique(data)): insertion into a strictly increasing list. *)
(** helpers.py:127 *)
Fixpoint insert_uniq (x : Q) (l : list Q) : list Q :=
  match l with
  | [] => [x]
  | y :: r => if qltb x y then x :: l else if Qeq_bool x y then l else y :: insert_uniq x r
  end.
(** helpers.py:127 *)
Definition np_unique (l : list Q) : list Q := fold_right insert_uniq [] l.

(** helpers.py:126-130 get_grid_bins.  [bin_c[1]] raises IndexError for fewer than two values. *)
Definition get_grid_bins (data : list Q) : res (list Q) :=
  match np_unique data with
  | b0 :: ((b1 :: _) as r) =>
      let bin_c := b0 :: r in
      let delta := (1#2) * (b1 - b0) in                                    (* 128 *)
      Ok (map (fun b => b - delta) bin_c ++ [last bin_c 0 + delta])        (* 129 *)
  | _ => Err IndexError
  end.
