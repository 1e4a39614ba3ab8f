(** Independent vocabulary: the density curve of a weighted sample and what each statistic says about it. *)
From Coq Require Import String QArith Qabs List Arith ZArith Bool.
From Verif Require Import Py NumSpec HelpersSpec SummarySpec NumModel HelpersModel MarginalModel FrameModel ConfigModel ChainModel TextModel AnalysisModel.
Import ListNotations.
Open Scope string_scope.
Open Scope list_scope.
Open Scope Q_scope.

(** ** The curve *)
(** The bins: on a grid as in C21, otherwise evenly spaced as in C19. *)
Definition bins_of (num : numerics) (c : chain) (f : frame) (d : list (Q * Q)) (pad : bool) (e : list Q) : Prop :=
  if ch_grid c then get_grid_bins (map fst d) = Ok e
  else exists s, get_smoothed_bins (n_bins num) (smooth_value (ch_cfg c Fsmooth) false) (get_bins (ch_cfg c Fbins) (ch_cfg c Fsmooth) false (f_rows f) (length (f_cols f))) d false pad = Ok (e, s).
(** Does the value belong to bin [i]: half-open, the last bin closed. *)
Definition falls (e : list Q) (i : nat) (x : Q) : bool :=
  Qle_bool (at_ e i) x && (if (S (S i) =? length e)%nat then Qle_bool x (at_ e (S i)) else negb (Qle_bool (at_ e (S i)) x)).
Definition covered (e : list Q) (x : Q) : bool := Qle_bool (at_ e 0) x && Qle_bool x (at_ e (length e - 1)).
(** The density of the weighted sample in each bin. *)
Definition bin_density (e : list Q) (d : list (Q * Q)) (h : list Q) : Prop :=
  length h = (length e - 1)%nat /\ forall i, (S i < length e)%nat -> at_ h i == weight_if (falls e i) d / (at_ e (S i) - at_ e i) / weight_if (covered e) d.
Definition centres (e : list Q) (l : list Q) : Prop := length l = (length e - 1)%nat /\ forall i, (S i < length e)%nat -> at_ l i == (1 # 2) * (at_ e i + at_ e (S i)).
(** The width of the smoothing in bins. *)
Definition smoothing_of (c : chain) : Z := match ch_cfg c Fsmooth with Some s => s | None => if ch_grid c then 0 else 3 end.
(** Densities [ys] and cumulated densities [cs] at the positions [xs]: the (smoothed, raised) histogram of the samples,
    or their kernel density estimate, interpolated. *)
Definition curve_of (num : numerics) (c : chain) (f : frame) (d : list (Q * Q)) (pad : bool) (xs ys cs : list Q) : Prop :=
  exists e cen, bins_of num c f d pad e /\ increasing e /\ (3 <= length e)%nat /\ centres e cen /\
    evenly_spaced (at_ cen 0) (at_ cen (length cen - 1)) (n_points num) xs /\ marginal_ok xs ys cs /\
    if kde_on (ch_cfg c Fkde) then
      exists n ks area vs, (n_kde num <= n)%nat /\ evenly_spaced (at_ cen 0) (at_ cen (length cen - 1)) n ks /\ ~ area == 0 /\ length vs = n /\
        (forall i, (i < n)%nat -> at_ vs i == n_megkde num (map fst d) (map snd d) (kde_factor (ch_cfg c Fkde)) (at_ ks i) / area) /\
        forall i, (i < length xs)%nat -> on_polyline ks vs (at_ xs i) (at_ ys i)
    else
      exists h0 h2, bin_density e d h0 /\
        (if (0 <? smoothing_of c)%Z then is_smoothing (n_kernel num (smoothing_of c)) (map (n_power num (ch_power c)) h0) h2 else h2 = map (n_power num (ch_power c)) h0) /\
        forall i, (i < length xs)%nat -> on_polyline cen h2 (at_ xs i) (at_ ys i).

(** ** The statistics *)
Definition given3 (b : bound) (l x u : Q) : Prop := b_lower b = Some l /\ b_center b = Some x /\ b_upper b = Some u.
Definition statistic_means (num : numerics) (s : stat) (area : Q) (xs ys cs : list Q) (b : bound) : Prop :=
  match s with
  | SCumulative => exists l x u, given3 b l x u /\ is_quantile xs cs ((1 # 2) - area / 2) l /\ is_quantile xs cs (1 # 2) x /\ is_quantile xs cs ((1 # 2) + area / 2) u
  | SMean => exists l x u, given3 b l x u /\ is_quantile xs cs ((1 # 2) - area / 2) l /\ is_quantile xs cs ((1 # 2) + area / 2) u /\ x == (l + u) / 2
  | SMaxCentral => exists l x u, given3 b l x u /\ is_quantile xs cs ((1 # 2) - (1 # 2) * area) l /\ is_mode xs ys x /\ is_quantile xs cs ((1 # 2) + (1 # 2) * area) u
  | SMax => exists pxs pys k, padded (n_pad num) xs ys pxs pys /\ is_first_argmax pys k /\ is_mode xs ys (at_ pxs k) /\ b_center b = Some (at_ pxs k) /\
      ((exists level i1 i2, given3 b (at_ pxs i1) (at_ pxs k) (at_ pxs i2) /\ 0 < level < at_ pys k /\ stretch pys k level i1 i2 /\ Qabs (share pys i1 i2 - area) < 3 # 1000) \/
       (b_lower b = None /\ b_upper b = None /\
        exists lo hi, 0 <= lo /\ hi <= at_ pys k /\ hi - lo == at_ pys k / inject_Z (2 ^ Z.of_nat (n_tries num)) /\
          forall level i1 i2, 0 < level <= at_ pys k -> stretch pys k level i1 i2 -> Qabs (share pys i1 i2 - area) < 3 # 1000 -> lo <= level <= hi))
  | SHdi => exists l x u p j, given3 b l x u /\ (p <= j < length xs)%nat /\ l == at_ xs p /\ u == at_ xs j /\ area <= window_mass cs p j /\ l <= x <= u /\
      (1 # 1000000000000 < area -> exists m0 m1, area <= m1 - m0 /\ m1 == at_ cs j /\ (m0 == start_mass cs p \/ m0 == at_ cs p) /\ on_polyline (0 :: cs) (at_ xs 0 :: xs) ((1 # 2) * (m0 + m1)) x) /\
      ((forall i, (S i < length xs)%nat -> 1 # 1000000000000 < at_ xs (S i) - at_ xs i) -> at_ cs 0 < area ->
       forall p' j', (p' <= j' < length xs)%nat -> area <= window_mass cs p' j' -> u - l <= at_ xs j' - at_ xs p' + (1 # 1000000000000))
  end.
(** The runs [rs] of two or more positions where the curve, scaled to unit area, is at least some level: the one above which
    there is the wanted area, up to the tolerance of the solver. *)
Definition superlevel (area : Q) (xs ys : list Q) (rs : list (nat * nat)) : Prop :=
  exists dens t, length dens = length xs /\ (forall i, (i < length xs)%nat -> at_ dens i == at_ ys i / simpson xs ys) /\ simpson xs dens == 1 /\
    (forall s e, In (s, e) rs <-> is_run (map (fun y => Qle_bool t y) dens) s e /\ (s < e)%nat) /\
    (forall a b, (a < b < length rs)%nat -> (snd (nth a rs (0, 0)%nat) + 1 < fst (nth b rs (0, 0)%nat))%nat) /\
    let mass := fun level => simpson xs (map (fun y => if Qle_bool level y then y else 0) dens) in
    forall top, is_max top dens -> area < 1 -> mass top < area -> top < (5 # 10000) * inject_Z (2 ^ 100) ->
      let slack := (5 # 10000) + (8881784197001252 # 10000000000000000000000000000000) * top in
      0 < t < top /\ (mass t == area \/ ((forall v, v <= t - slack -> area < mass v) /\ (forall v, t + slack <= v -> mass v < area))).
(** One bound for each run: its ends and the highest point of the curve between them. *)
Definition mode_means (xs ys : list Q) (r : nat * nat) (b : bound) : Prop :=
  exists l x u k, given3 b l x u /\ l == at_ xs (fst r) /\ u == at_ xs (snd r) /\ (fst r <= k <= snd r)%nat /\ x == at_ xs k /\
    forall j, (fst r <= j <= snd r)%nat -> at_ ys j <= at_ ys k.
(** The entry of a column. *)
Definition entry_means (num : numerics) (c : chain) (f : frame) (d : list (Q * Q)) (e : bounds_in) : Prop :=
  match e with
  | BNone => False
  | BOne b =>
      (exists s xs ys cs, ch_cfg c Fstatistics = Some s /\ curve_of num c f d (match s with SHdi => true | _ => false end) xs ys cs /\ statistic_means num s (ch_cfg c Fsummary_area) xs ys cs b) /\
      (ch_cfg c Fmultimodal = true -> exists xs ys cs rs, curve_of num c f d true xs ys cs /\ superlevel (ch_cfg c Fsummary_area) xs ys rs /\ (length rs < 2)%nat)
  | BMany bs => ch_cfg c Fmultimodal = true /\
      exists xs ys cs rs, curve_of num c f d true xs ys cs /\ superlevel (ch_cfg c Fsummary_area) xs ys rs /\ (2 <= length rs)%nat /\ Forall2 (mode_means xs ys) rs bs
  end.
