(** Property theorems C19, C20, C21, C23. *)
From Coq Require Import QArith List Arith ZArith Bool Lia Lqa.
From Verif Require Import Py NumSpec NumModel NumFacts HelpersSpec HelpersModel HelpersProofs ExtentsProofs
  MarginalModel DensityProofs.
Import ListNotations.
Open Scope Q_scope.

(** C19: histogram resolution defaults. *)
Theorem C19_default_bins : forall smooth grid rows cols, (0 < cols)%nat ->
  exists r, is_floor_root4 (nq rows / nq cols) r /\
    get_bins None smooth grid rows cols =
      Z.max (if (0 <? match smooth with Some s => s | None => if grid then 0 else 3 end)%Z then 35 else 100) r.
Proof.
  intros smooth grid rows cols Hc. exists (floor_root4 (nq rows / nq cols)). split.
  - apply floor_root4_spec. apply Qle_shift_div_l; [apply nq_pos; exact Hc|].
    rewrite Qmult_0_l. apply nq_nonneg.
  - reflexivity.
Qed.
Print Assumptions C19_default_bins.

Theorem C19_floor_root4_unique : forall q a b, is_floor_root4 q a -> is_floor_root4 q b -> a = b.
Proof. exact is_floor_root4_unique. Qed.
Print Assumptions C19_floor_root4_unique.

Theorem C19_user_bins : forall b smooth grid rows cols, get_bins (Some b) smooth grid rows cols = b.
Proof. reflexivity. Qed.
Print Assumptions C19_user_bins.

(** The edges are evenly spaced over the (possibly padded) extents; their number is [bins] without
    smoothing and [2*smooth*bins] with it; the returned smoothing is the one given. *)
Theorem C19_edges : forall nbins smooth bins d plot pad edges s,
  get_smoothed_bins nbins smooth bins d plot pad = Ok (edges, s) ->
  let count := (if (smooth =? 0)%Z then bins else 2 * smooth * bins)%Z in
  (2 <= count)%Z ->
  exists lo hi, get_extents nbins d plot true false pad = Ok (lo, hi) /\
    evenly_spaced lo hi (Z.to_nat count) edges /\ s = smooth.
Proof.
  intros nbins smooth bins d plot pad edges s H count Hc. unfold get_smoothed_bins in H.
  destruct (get_extents nbins d plot true false pad) as [[lo hi]|e]; [|discriminate].
  exists lo, hi. split; [reflexivity|]. cbn [rbind] in H. unfold count in *. clear count. revert H Hc.
  destruct (Z.eqb_spec smooth 0) as [->|Ns]; intros H Hc.
  - destruct (bins <? 0)%Z; [discriminate|]. injection H as <- <-. split; [|reflexivity].
    apply linspace_evenly. lia.
  - revert H Hc. generalize (2 * smooth * bins)%Z. intros z H Hz.
    destruct (z <? 0)%Z; [discriminate|]. injection H as <- <-. split; [|reflexivity].
    apply linspace_evenly. lia.
Qed.
Print Assumptions C19_edges.

Example C19_example :
  get_bins None None false (Z.to_nat 100000) 4 = 35%Z /\ get_bins None (Some 0%Z) false (Z.to_nat 500) 4 = 100%Z
  /\ exists edges, get_smoothed_bins 10 3 2 [(0,1);(1,1);(2,1)] false false = Ok (edges, 3%Z) /\ length edges = 12%nat.
Proof. vm_compute. repeat split. eexists. split; reflexivity. Qed.

(** C20.  What the code guarantees: never an error, extents inside the data range, ordered; at most a
    threshold fraction is cut on the right; on the left the weight of the first of the [n] bins is cut
    on top of it.  [h] is the width of one of the [n] (= 2000) bins.  The missing part with respect to
    C20 is the left side: see the refutation below. *)
Theorem C20_extents_partial : forall n d plot wide tiny mn mx,
  (2 <= n)%nat -> positive_weights d -> is_min mn (map fst d) -> is_max mx (map fst d) -> mn < mx ->
  exists lo hi, get_extents n d plot wide tiny false = Ok (lo, hi) /\
    get_extents n d plot wide tiny true = Ok (lo - (1#5) * (hi - lo), hi + (1#5) * (hi - lo)) /\
    mn < lo /\ lo <= hi /\ hi <= mx /\
    let h := (mx - mn) / inject_Z (Z.of_nat n) in
    let W := total_weight d in
    let f0 := weight_if (fun x => qltb x (mn + h)) d / W in
    let t := if tiny then 3#10 else if plot then (if wide then 1#10000 else 5#100) else 1#100000 in
    weight_if (fun x => qltb x (lo - h / 2)) d <= (f0 + t * (1 - f0)) * W /\
    (f0 + t * (1 - f0)) * W < weight_if (fun x => Qle_bool x (lo + h / 2)) d /\
    weight_if (fun x => qltb (hi + h / 2) x) d <= t * (1 - f0) * W /\
    t * (1 - f0) * W < weight_if (fun x => Qle_bool (hi - h / 2) x) d.
Proof.
  intros n d plot wide tiny mn mx Hn HW Hmn Hmx Hlt.
  replace (if tiny then 3#10 else if plot then (if wide then 1#10000 else 5#100) else 1#100000)
    with (extents_threshold plot wide tiny) by (unfold extents_threshold; destruct tiny, plot, wide; reflexivity).
  exact (get_extents_ok n d plot wide tiny mn mx Hn HW Hmn Hmx Hlt).
Qed.
Print Assumptions C20_extents_partial.

(** C20 as stated (at most about the threshold fraction is trimmed on each side) is false: with the
    real 2000 bins, 80% of the weight lies strictly below the returned lower extent. *)
Theorem C20_extents_refuted : exists d lo hi, positive_weights d /\
  get_extents (Z.to_nat 2000) d false true false false = Ok (lo, hi) /\
  (79#100) * total_weight d < weight_if (fun x => qltb x lo) d.
Proof.
  exists [(0,8);(1,1);(2,1)].
  destruct (get_extents (Z.to_nat 2000) [(0,8);(1,1);(2,1)] false true false false) as [[lo hi]|e] eqn:E.
  - exists lo, hi. split; [|split; [reflexivity|]].
    + intros x w [H|[H|[H|[]]]]; injection H as <- <-; lra.
    + assert (qltb 0 lo = true /\ qltb 1 lo = true /\ qltb 2 lo = false).
      { revert E. vm_compute. intros E. injection E as <- _. repeat split; vm_compute; reflexivity. }
      cbn [weight_if total_weight]. unfold total_weight. cbn [weight_if].
      destruct H as [-> [-> ->]]. lra.
  - exfalso. revert E. vm_compute. discriminate.
Qed.
Print Assumptions C20_extents_refuted.

Example C20_example : exists lo hi,
  get_extents 10 [(0,1);(1,2);(3,1);(4,1)] true true false false = Ok (lo, hi) /\ lo < hi /\
  positive_weights [(0,1);(1,2);(3,1);(4,1)] /\ is_min 0 (map fst [(0,1);(1,2);(3,1);(4,1)]) /\
  is_max 4 (map fst [(0,1);(1,2);(3,1);(4,1)]).
Proof.
  eexists. eexists. split; [vm_compute; reflexivity|]. split; [reflexivity|]. split; [|split; split].
  - intros x w [H|[H|[H|[H|[]]]]]; injection H as <- <-; lra.
  - left; reflexivity.
  - cbn [map fst]. intros x [<-|[<-|[<-|[<-|[]]]]]; lra.
  - do 3 right; left; reflexivity.
  - cbn [map fst]. intros x [<-|[<-|[<-|[<-|[]]]]]; lra.
Qed.

(** C21: grid bins. *)
Theorem C21_edges : forall data e, get_grid_bins data = Ok e ->
  increasing e /\ exists u, increasing u /\ (forall y, Qin y u <-> Qin y data) /\ length e = S (length u) /\
  (uniform_grid u -> forall i, (i < length u)%nat ->
     (1#2) * (at_ e i + at_ e (S i)) == at_ u i /\ (forall x, x == at_ u i -> belongs e i x)).
Proof.
  intros data e H. split; [exact (grid_bins_increasing _ _ H)|].
  exists (np_unique data). split; [exact (qsorted_increasing _ (np_unique_sorted data))|].
  split; [intros y; exact (np_unique_in y data)|].
  destruct (grid_bins_spec _ _ H) as [_ [H2 _]]. split; [exact H2|].
  intros HU i Hi. exact (grid_bins_center data e i H HU Hi).
Qed.
Print Assumptions C21_edges.

(** ... so for a uniform grid the histogram is the marginal of the grid weights. *)
Theorem C21_marginal : forall d e u, get_grid_bins (map fst d) = Ok e ->
  increasing u -> (forall y, Qin y u <-> Qin y (map fst d)) -> uniform_grid u ->
  forall i, (i < length u)%nat ->
  at_ (np_histogram e d) i == weight_if (fun x => Qeq_bool x (at_ u i)) d.
Proof. exact grid_histogram_marginal. Qed.
Print Assumptions C21_marginal.

(** It fails exactly when there are fewer than two distinct values. *)
Theorem C21_error : forall data, get_grid_bins data = Err IndexError <->
  (forall x y, In x data -> In y data -> x == y).
Proof. exact grid_bins_error_iff. Qed.
Print Assumptions C21_error.

(** For a non-uniform grid the claim is false: a value can fall in another value's bin. *)
Theorem C21_nonuniform_refuted : exists data e, get_grid_bins data = Ok e /\
  ~ (forall i, (i < 3)%nat -> exists x, In x data /\ belongs e i x).
Proof. exact grid_nonuniform. Qed.
Print Assumptions C21_nonuniform_refuted.

Example C21_example : exists e, get_grid_bins [0;2;1;0;1;2] = Ok e /\ uniform_grid (np_unique [0;2;1;0;1;2]).
Proof.
  eexists. split; [vm_compute; reflexivity|]. exists 1. split; [lra|].
  intros [|[|i]] Hi; vm_compute in Hi |- *; try lia; reflexivity.
Qed.

(** C23: the histogram. *)
Theorem C23_exactly_one_bin : forall e x, nondecreasing e -> (2 <= length e)%nat ->
  at_ e 0 <= x <= at_ e (length e - 1) ->
  exists i, belongs e i x /\ forall j, belongs e j x -> j = i.
Proof.
  intros e x HS HL Hx. destruct (belongs_exists e x HS HL Hx) as [i Hi].
  exists i. split; [exact Hi|]. intros j Hj. exact (belongs_unique e x j i HS Hj Hi).
Qed.
Print Assumptions C23_exactly_one_bin.

Theorem C23_bin_weight : forall e d i p, (S i < length e)%nat -> (forall x, p x = true <-> belongs e i x) ->
  at_ (np_histogram e d) i == weight_if p d.
Proof. exact hist_bin_spec. Qed.
Print Assumptions C23_bin_weight.

Theorem C23_total : forall e d, nondecreasing e -> (2 <= length e)%nat ->
  total (np_histogram e d) ==
  weight_if (fun x => Qle_bool (at_ e 0) x && Qle_bool x (at_ e (length e - 1))) d.
Proof. exact hist_total. Qed.
Print Assumptions C23_total.

Theorem C23_density_integral : forall e d dens, hist_density e d = Ok dens ->
  sum_range (fun i => at_ dens i * (at_ e (S i) - at_ e i)) 0 (length e - 1) == 1.
Proof. exact hist_density_integral. Qed.
Print Assumptions C23_density_integral.

(** ... and the density exists as soon as some sample is in range. *)
Theorem C23_density_defined : forall e d, positive_weights d -> increasing e -> (2 <= length e)%nat ->
  (exists x w, In (x, w) d /\ at_ e 0 <= x <= at_ e (length e - 1)) ->
  exists dens, hist_density e d = Ok dens.
Proof. exact hist_density_ok_iff. Qed.
Print Assumptions C23_density_defined.

Example C23_example : np_histogram [0;1;3] [(0,1);(1,2);(3,5);(4,1)] = [1;7] /\
  nondecreasing [0;1;3] /\ increasing [0;1;3].
Proof.
  assert (increasing [0;1;3]).
  { apply increasing_step. intros [|[|i]] Hi; cbn in Hi; try lia; vm_compute; reflexivity. }
  split; [|split; [apply increasing_nondecreasing|]; assumption].
  vm_compute. reflexivity.
Qed.
