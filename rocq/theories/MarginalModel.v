(** Model of the numeric part of /repo/src/chainconsumer/analysis.py over exact rationals:
    _get_smoothed_histogram and the five summaries. *)
From Coq Require Import QArith Qabs Qround List Arith ZArith Bool.
From Verif Require Import Py NumModel HelpersModel.
Import ListNotations.
Open Scope Q_scope.

(** scipy.ndimage "reflect" boundary: (d c b a | a b c d | d c b a), index taken mod 2n. *)
(** analysis.py:345, helpers.py:121 *)
Definition reflect_index (n : nat) (i : Z) : nat :=
  let m := (i mod (2 * Z.of_nat n))%Z in
  if (m <? Z.of_nat n)%Z then Z.to_nat m else Z.to_nat (2 * Z.of_nat n - 1 - m).

(** scipy.ndimage.gaussian_filter(l, sigma, mode="reflect") in one dimension: correlation with a
    kernel of [2*radius+1] taps.  The kernel (normalised Gaussian samples) is a parameter. *)
(** analysis.py:345 *)
Definition filter1d (kern : list Q) (l : list Q) : list Q :=
  let radius := Nat.div2 (length kern) in
  let n := length l in
  map (fun i =>
         qsum (map (fun k => nth k kern 0 *
                             nth (reflect_index n (Z.of_nat i + Z.of_nat k - Z.of_nat radius)) l 0)
                   (seq 0 (length kern))))
      (seq 0 n).

(** np.histogram(..., density=True): counts / widths / total. Zero total or zero width is NaN/inf. *)
(** analysis.py:338 *)
Definition hist_density (edges : list Q) (d : wdata) : res (list Q) :=
  let n := np_histogram edges d in
  let tot := qsum n in
  if Qeq_bool tot 0 || existsb (fun w => Qeq_bool w 0) (bin_widths edges) then Err NaNResult
  else Ok (map (fun nw => fst nw / snd nw / tot) (combine n (bin_widths edges))).

(** scipy.integrate.simpson(y, x=x): composite Simpson on pairs of intervals of possibly different
    width ([_basic_simpson]); for an even number of points the last interval uses Cartwright's
    correction (scipy >= 1.11). *)
(** analysis.py:591 *)
Definition simp_panel (x0 x1 x2 y0 y1 y2 : Q) : Q :=
  let h0 := x1 - x0 in let h1 := x2 - x1 in
  let hsum := h0 + h1 in let hprod := h0 * h1 in let r := h0 / h1 in
  hsum / 6 * (y0 * (2 - 1 / r) + y1 * (hsum * (hsum / hprod)) + y2 * (2 - r)).
(** analysis.py:591 *)
Fixpoint basic_simpson (x0 y0 : Q) (pts : list (Q * Q)) : Q :=
  match pts with
  | (x1, y1) :: (x2, y2) :: rest => simp_panel x0 x1 x2 y0 y1 y2 + basic_simpson x2 y2 rest
  | _ => 0
  end.
(** analysis.py:591 *)
Definition simp_corr (x0 x1 x2 y0 y1 y2 : Q) : Q :=
  let h0 := x1 - x0 in let h1 := x2 - x1 in
  let alpha := (2 * (h1 * h1) + 3 * h0 * h1) / (6 * (h1 + h0)) in
  let beta := (h1 * h1 + 3 * h0 * h1) / (6 * h0) in
  let eta := (h1 * h1 * h1) / (6 * h0 * (h0 + h1)) in
  alpha * y2 + beta * y1 - eta * y0.
(** analysis.py:591 *)
Definition simpson (xs ys : list Q) : Q :=
  let n := length ys in
  match combine xs ys with
  | [] => 0
  | (x0, y0) :: rest =>
      if Nat.odd n then basic_simpson x0 y0 rest
      else match rest with
           | [(x1, y1)] => (1#2) * (x1 - x0) * (y0 + y1)
           | _ =>
             basic_simpson x0 y0 (removelast rest) +
             simp_corr (nth (n-3) xs 0) (nth (n-2) xs 0) (nth (n-1) xs 0)
                       (nth (n-3) ys 0) (nth (n-2) ys 0) (nth (n-1) ys 0)
           end
  end.

(** The numeric inputs of one chain and column. *)
Record mcfg := {
  m_grid : bool;
  m_smooth : option Z;
  m_bins : option Z;
  m_rows : nat;                 (* samples.shape[0] *)
  m_cols : nat;                 (* samples.shape[1] *)
  m_power : Q -> Q;             (* h -> h ** chain.power, a parameter: the float power function *)
  m_kernel : Z -> list Q;       (* smooth value -> the taps scipy uses *)
  m_kde : bool;                 (* bool(chain.kde) *)
  m_kde_eval : Q -> Q           (* MegKDE(data, weights, factor).evaluate at one point *)
}.

(** Python int(), analysis.py:350 *)
Definition trunc (q : Q) : Z := if Qle_bool 0 q then Qfloor q else Qceiling q.

(** analysis.py:332-360, the value returned *)
Record marginal := { mg_xs : list Q; mg_ys : list Q; mg_cs : list Q }.

(** analysis.py:324-360 _get_smoothed_histogram.  [nbins] = 2000 (helpers.py:19), [npts] = 10000
    (line 342), [nkde] = 200 (line 350). *)
Definition smoothed_histogram (nbins npts nkde : nat) (c : mcfg) (d : wdata) (pad : bool)
  : res marginal :=
  let sv := smooth_value (m_smooth c) (m_grid c) in
  rbind (if m_grid c then get_grid_bins (map fst d)                                   (* 333-334 *)
         else rmap fst (get_smoothed_bins nbins sv
                          (get_bins (m_bins c) (m_smooth c) (m_grid c) (m_rows c) (m_cols c))
                          d false pad)) (fun bins =>                                  (* 336 *)
  match bin_centers bins with
  | [] => Err IndexError                       (* edge_centers[0] on an empty array: 342 *)
  | c0 :: cr =>
  rbind (hist_density bins d) (fun hist0 =>                                           (* 338 *)
  let hist1 := map (m_power c) hist0 in                                               (* 339-340 *)
  let centers := c0 :: cr in                                                          (* 341 *)
  let cl := last centers 0 in
  let xs := linspace c0 cl npts in                                                    (* 342 *)
  (* 344-345: a negative smooth value is truthy too, but scipy skips axes with sigma <= 1e-15 *)
  let hist := if (0 <? sv)%Z then filter1d (m_kernel c sv) hist1 else hist1 in
  let interpolated :=
    if m_kde c then                                                                   (* 349 *)
      let kde_xs := linspace c0 cl (Nat.max nkde (Z.to_nat (trunc (qmax_list (hd 0 bins) bins)))) in
      let ys0 := map (m_kde_eval c) kde_xs in                                         (* 352 *)
      let area := simpson kde_xs ys0 in                                               (* 353 *)
      if Qeq_bool area 0 then None else
      Some (opt_all (map (interp1d kde_xs (map (fun y => y / area) ys0)) xs))         (* 354-355 *)
    else Some (opt_all (map (interp1d centers hist) xs)) in                           (* 357 *)
  match interpolated with
  | None => Err NaNResult
  | Some None => Err ValueError
  | Some (Some ys) =>
      let cs0 := cumsum ys in                                                         (* 358 *)
      let m := qmax_list (hd 0 cs0) (tl cs0) in
      if Qeq_bool m 0 then Err NaNResult
      else Ok {| mg_xs := xs; mg_ys := ys; mg_cs := map (fun v => v / m) cs0 |}       (* 359-360 *)
  end)
  end).

(** analysis.py:49-72 class Bound *)
Record bound := { b_lower : option Q; b_center : option Q; b_upper : option Q }.
(** analysis.py:68-72 *)
Definition mkB (l c u : Q) : bound := {| b_lower := Some l; b_center := Some c; b_upper := Some u |}.

(** analysis.py:499, 506, a call that raises outside its range *)
Definition interp_res (xp fp : list Q) (x : Q) : res Q :=
  match interp1d xp fp x with Some v => Ok v | None => Err ValueError end.

(** analysis.py:503-507 get_parameter_summary_cumulative (after the marginal) *)
Definition summary_cumulative (area : Q) (m : marginal) : res bound :=
  rbind (interp_res (mg_cs m) (mg_xs m) ((1#2) - area / 2)) (fun lo =>
  rbind (interp_res (mg_cs m) (mg_xs m) (1#2)) (fun mid =>
  rbind (interp_res (mg_cs m) (mg_xs m) ((1#2) + area / 2)) (fun up =>
  Ok (mkB lo mid up)))).

(** analysis.py:496-501 get_parameter_summary_mean *)
Definition summary_mean (area : Q) (m : marginal) : res bound :=
  rbind (interp_res (mg_cs m) (mg_xs m) ((1#2) - area / 2)) (fun lo =>
  rbind (interp_res (mg_cs m) (mg_xs m) (1#2)) (fun _ =>
  rbind (interp_res (mg_cs m) (mg_xs m) ((1#2) + area / 2)) (fun up =>
  Ok (mkB lo ((1#2) * (lo + up)) up)))).

(** analysis.py:688-698 get_parameter_summary_max_central *)
Definition summary_max_central (area : Q) (m : marginal) : res bound :=
  let x := nth (argmax (mg_ys m)) (mg_xs m) 0 in                                  (* 692-693 *)
  rbind (interp_res (mg_cs m) (mg_xs m) ((1#2) - (1#2) * area)) (fun lo =>
  rbind (interp_res (mg_cs m) (mg_xs m) ((1#2) + (1#2) * area)) (fun up =>
  Ok (mkB lo x up))).

(** analysis.py:509-576 get_parameter_summary_hdi.  The loop state; [None] for best_width = inf. *)
Record hdi_best := { hb_width : option Q; hb_lower : Q; hb_upper : Q; hb_m0 : Q; hb_m1 : Q }.
(** analysis.py:529 *)
Definition hdi_eps : Q := 1 # 1000000000000.                                       (* 529 *)

(** analysis.py:536-565 *)
Fixpoint hdi_loop (area : Q) (cdf xp : list Q) (i : nat) (starts : list Q) (best : hdi_best)
  : hdi_best :=
  match starts with
  | [] => best
  | m :: rest =>
      let required := m + area in                                                  (* 537 *)
      if qltb (1 + hdi_eps) required then best                                     (* 538-539 break *)
      else
        let e0 := searchsorted cdf required in                                     (* 542 *)
        let e1 := if (e0 <=? i)%nat then S i else e0 in                            (* 545-546 *)
        if (length cdf <=? e1)%nat then best                                       (* 547-548 break *)
        else
          let e2 := if qltb (nth e1 cdf 0 - m) (area - hdi_eps) && (S e1 <? length cdf)%nat
                    then S e1 else e1 in                                           (* 551-552 *)
          let lower := nth i xp 0 in                                               (* 554 *)
          let upper := nth e2 xp 0 in                                              (* 555 *)
          let width := upper - lower in                                            (* 556 *)
          if Qle_bool width hdi_eps then hdi_loop area cdf xp (S i) rest best      (* 557-558 *)
          else if match hb_width best with None => true | Some w => qltb width (w - hdi_eps) end
          then hdi_loop area cdf xp (S i) rest
                 {| hb_width := Some width; hb_lower := lower; hb_upper := upper;
                    hb_m0 := m; hb_m1 := nth e2 cdf 0 |}                           (* 560-565 *)
          else hdi_loop area cdf xp (S i) rest best
  end.

(** analysis.py:509-576 *)
Definition summary_hdi (area : Q) (m : marginal) : bound :=
  let cdf := 0 :: mg_cs m in                                                       (* 526 *)
  let xp := hd 0 (mg_xs m) :: mg_xs m in                                           (* 527 *)
  let best := hdi_loop area cdf xp 0 (removelast cdf)
                {| hb_width := None; hb_lower := hd 0 xp; hb_upper := last xp 0;
                   hb_m0 := 0; hb_m1 := 1 |} in                                    (* 530-565 *)
  let mass := hb_m1 best - hb_m0 best in                                           (* 567 *)
  let center :=
    if Qle_bool mass hdi_eps then (1#2) * (hb_lower best + hb_upper best)          (* 569-570 *)
    else np_interp (hb_m0 best + (1#2) * mass) cdf xp (hb_lower best) (hb_upper best) in  (* 573-574 *)
  mkB (hb_lower best) center (hb_upper best).

(** analysis.py:647-686 get_parameter_summary_max.  [npad] = 1000 (line 649); 50 tries (line 669);
    threshold 0.003 (line 661). *)
Inductive max_out := MaxFound (i1 i2 : nat) | MaxUnconverged | MaxIndexError.
(** analysis.py:661 *)
Definition max_threshold : Q := 3 # 1000.

(** analysis.py:665-684 *)
Fixpoint max_loop (tries : nat) (area : Q) (ys cs : list Q) (start : nat) (minv maxv : Q) : max_out :=
  match tries with
  | O => MaxUnconverged                                                            (* 669-670 *)
  | S k =>
      let mid := (maxv + minv) / 2 in                                              (* 666 *)
      match first_lt (rev (firstn start ys)) mid, first_lt (skipn start ys) mid with
      | Some k1, Some k2 =>
          let i1 := (start - k1)%nat in                                            (* 671 *)
          let i2 := (start + k2)%nat in                                            (* 672 *)
          let a := nth i2 cs 0 - nth i1 cs 0 in                                    (* 673 *)
          if qltb (Qabs (a - area)) max_threshold then MaxFound i1 i2              (* 674-677 *)
          else if qltb a area then max_loop k area ys cs start minv mid            (* 678-679 *)
          else max_loop k area ys cs start mid maxv                                (* 680-681 *)
      | _, _ => MaxIndexError
      end
  end.

(** analysis.py:652-655 *)
Definition pad_ys (npad : nat) (ys : list Q) : list Q :=
  linspace 0 (hd 0 ys) npad ++ ys ++ linspace (last ys 0) 0 npad.                  (* 652-653, 655 *)
Definition pad_xs (npad : nat) (xs : list Q) : list Q :=
  repeat (hd 0 xs) npad ++ xs ++ repeat (last xs 0) npad.                          (* 650-651, 654 *)

(** analysis.py:647-686 *)
Definition summary_max (npad tries : nat) (area : Q) (m : marginal) : res bound :=
  let xs := pad_xs npad (mg_xs m) in
  let ys := pad_ys npad (mg_ys m) in
  let cs0 := cumsum ys in                                                          (* 656 *)
  let mx := qmax_list (hd 0 cs0) (tl cs0) in
  if Qeq_bool mx 0 then Err NaNResult else
  let cs := map (fun v => v / mx) cs0 in                                           (* 657 *)
  let start := argmax ys in                                                        (* 658 *)
  let center := nth start xs 0 in
  match max_loop tries area ys cs start 0 (nth start ys 0) with                    (* 659-681 *)
  | MaxFound i1 i2 => Ok (mkB (nth i1 xs 0) center (nth i2 xs 0))                  (* 686 *)
  | MaxUnconverged => Ok {| b_lower := None; b_center := Some center; b_upper := None |}  (* 684 *)
  | MaxIndexError => Err IndexError
  end.

(** statistics.py SummaryStatistic *)
Inductive stat := SMax | SMean | SCumulative | SMaxCentral | SHdi.

(** analysis.py:22-46 _mask_to_intervals.  change == 1 at i iff not mask[i] and mask[i+1];
    zip(strict=True) raises ValueError on different lengths. *)
Fixpoint run_starts (i : nat) (prev : bool) (mask : list bool) : list nat :=
  match mask with
  | [] => []
  | b :: r => if negb prev && b then i :: run_starts (S i) b r else run_starts (S i) b r
  end.
(** analysis.py:32-34, ends *)
Fixpoint run_ends (i : nat) (prev : bool) (mask : list bool) : list nat :=
  match mask with
  | [] => []
  | b :: r => if prev && negb b then (i - 1)%nat :: run_ends (S i) b r else run_ends (S i) b r
  end.
(** analysis.py:22-46 *)
Definition mask_to_intervals (x : list Q) (mask : list bool) : res (list (Q * Q)) :=
  match mask with
  | [] => Ok []                                                                    (* 29-30 *)
  | b0 :: r =>
      let starts := (if b0 then [0%nat] else []) ++ run_starts 1 b0 r in           (* 33, 37-38 *)
      let ends := run_ends 1 b0 r ++ (if last mask false then [(length mask - 1)%nat] else []) in (* 34, 41-42 *)
      if (length starts =? length ends)%nat then
        Ok (map (fun se => (nth (fst se) x 0, nth (snd se) x 0))
                (filter (fun se => qltb (nth (fst se) x 0) (nth (snd se) x 0)) (combine starts ends))) (* 44 *)
      else Err ValueError
  end.

(** scipy.optimize.root_scalar(method="bisect"): the C bisect loop, at most [maxiter] steps. *)
(** analysis.py:597-603 *)
Definition qneg (q : Q) : bool := qltb q 0.
(** analysis.py:597-603 *)
Fixpoint bisect_loop (fuel : nat) (f : Q -> Q) (xtol rtol fa : Q) (xa dm : Q) : Q :=
  match fuel with
  | O => xa
  | S k =>
      let dm := dm / 2 in
      let xm := xa + dm in
      let fm := f xm in
      let xa' := if Bool.eqb (qneg fm) (qneg fa) then xm else xa in
      if Qeq_bool fm 0 || qltb (Qabs dm) (xtol + rtol * Qabs xm) then xm
      else bisect_loop k f xtol rtol fa xa' dm
  end.
(** analysis.py:597-603 *)
Definition bisect (maxiter : nat) (f : Q -> Q) (xa xb xtol rtol : Q) : res Q :=
  let fa := f xa in let fb := f xb in
  if Qeq_bool fa 0 then Ok xa
  else if Qeq_bool fb 0 then Ok xb
  else if Bool.eqb (qneg fa) (qneg fb) then Err ValueError
  else Ok (bisect_loop maxiter f xtol rtol fa xa (xb - xa)).

(** analysis.py:602 *)
Definition hdi_xtol : Q := 5 # 10000.                                              (* 602 *)
Definition bisect_rtol : Q := 8881784197001252 # 10000000000000000000000000000000. (* 4 * eps *)

(** analysis.py:589-592 mass_diff *)
Definition mass_above (density xs : list Q) (t : Q) : Q :=
  simpson xs (map (fun y => if Qle_bool t y then y else 0) density).

(** analysis.py:578-610 get_parameter_hdi_intervals (after the marginal) *)
Definition hdi_density (m : marginal) : res (list Q) :=
  let area := simpson (mg_xs m) (mg_ys m) in                                       (* 594 *)
  if Qeq_bool area 0 then Err NaNResult else Ok (map (fun y => y / area) (mg_ys m)).   (* 595 *)
Definition hdi_threshold (area : Q) (m : marginal) (density : list Q) : res Q :=
  bisect 100 (fun t => mass_above density (mg_xs m) t - area)
         0 (qmax_list (hd 0 density) density) hdi_xtol bisect_rtol.                (* 597-605 *)
Definition hdi_intervals (area : Q) (m : marginal) : res (list (Q * Q)) :=
  let s := summary_hdi area m in                                                   (* 584 *)
  rbind (hdi_density m) (fun density =>
  rbind (hdi_threshold area m density) (fun t =>
  rbind (mask_to_intervals (mg_xs m) (map (fun y => Qle_bool t y) density)) (fun iv =>  (* 606-608 *)
  Ok (match iv, b_lower s, b_upper s with
      | [], Some l, Some u => [(l, u)]                                             (* 585, 610 *)
      | _, _, _ => iv end)))).

(** analysis.py:612-645 get_parameter_multimodal_bounds *)
Definition masked {A} (mask : list bool) (l : list A) : list A :=
  map snd (filter fst (combine mask l)).
(** analysis.py:628-645 *)
Definition multimodal_bound (m : marginal) (iv : Q * Q) : bound :=
  let xs := mg_xs m in
  let lower_limit := qmin_list (hd 0 xs) xs in                                     (* 628 *)
  let upper_limit := qmax_list (hd 0 xs) xs in
  let lower := qmax (fst iv) lower_limit in                                        (* 633 *)
  let upper := qmin (snd iv) upper_limit in
  let mask := map (fun x => Qle_bool lower x && Qle_bool x upper) xs in            (* 634 *)
  let center :=
    if existsb (fun b => b) mask
    then nth (argmax (masked mask (mg_ys m))) (masked mask xs) 0                   (* 637-638 *)
    else (1#2) * (lower + upper) in                                                (* 641 *)
  mkB lower center upper.                                                          (* 643 *)
Definition multimodal_bounds (m : marginal) (ivs : list (Q * Q)) : list bound :=
  map (multimodal_bound m) ivs.

(** analysis.py:262-264 get_parameter_summary: dispatch through the table of lines 80-86. *)
Definition parameter_summary (nbins npts nkde npad tries : nat) (c : mcfg) (s : stat) (area : Q)
  (d : wdata) : res bound :=
  match s with
  | SMax => rbind (smoothed_histogram nbins npts nkde c d false) (summary_max npad tries area)
  | SMean => rbind (smoothed_histogram nbins npts nkde c d false) (summary_mean area)
  | SCumulative => rbind (smoothed_histogram nbins npts nkde c d false) (summary_cumulative area)
  | SMaxCentral => rbind (smoothed_histogram nbins npts nkde c d false) (summary_max_central area)
  | SHdi => rbind (smoothed_histogram nbins npts nkde c d true) (fun m => Ok (summary_hdi area m))
  end.
