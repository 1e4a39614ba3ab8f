(** Independent vocabulary for the convergence diagnostics. *)
From Coq Require Import String List Bool Arith ZArith QArith Qround Reals Qreals.
From Verif Require Import Py NumSpec NumModel FrameModel ConfigModel ChainModel RegistryModel ChainSpec CovSpec DiagModel.
Import ListNotations.
Open Scope list_scope.

(** The request [q] names the chain object at [l]; the list request names these objects in this order. *)
Definition denotes (w : world) (q : creq) (l : nat) : Prop :=
  match q with DName n => get_chain w n = Ok l | DObject l' => l' = l end.
Definition asked_for (w : world) (r : dreq) (ls : list nat) : Prop :=
  match r with
  | DAll => ls = map snd (k_chains (snd w))
  | DList qs => Forall2 (denotes w) qs ls
  | DOne q => exists l, denotes w q l /\ ls = [l]
  end.

(** The chain [c] with DataFrame [f] has the parameters [xs], [m] walkers and [n] steps per walker. *)
Record walker_data (c : chain) (f : frame) (xs : list (list Q)) (m n : nat) : Prop := {
  wk_wf : frame_wf f;
  wk_cols : Forall2 (column f) (data_columns c f) xs;
  wk_walkers : ch_walkers c = Z.of_nat m;
  wk_rows : length (f_index f) = (m * n)%nat }.

(** Step [i] of walker [k]. *)
Definition step_at (x : list Q) (n k i : nat) : Q := at_ x (k * n + i).

(** The within-walker variance [W] and the between-walker variance [B] of a parameter, as documented:
    B = n/(m-1) sum_j (mean_j - mean)^2, W = 1/m sum_j 1/(n-1) sum_i (x_ij - mean_j)^2. *)
Definition walker_variances (x : list Q) (m n : nat) (W B : Q) : Prop :=
  exists (mu : nat -> Q) (M : Q),
    (forall k, (k < m)%nat -> mu k * nq n == sum_range (step_at x n k) 0 n)%Q /\
    (M * nq (m * n) == sum_range (fun k => sum_range (step_at x n k) 0 n) 0 m)%Q /\
    (W * (nq m * (nq n - 1)) == sum_range (fun k => sum_range (fun i => (step_at x n k i - mu k) * (step_at x n k i - mu k)) 0 n) 0 m)%Q /\
    (B * (nq m - 1) == nq n * sum_range (fun k => (mu k - M) * (mu k - M)) 0 m)%Q.

(** The square of the ratio R-hat: as documented, and as the code computes it. *)
Definition documented_ratio (m n : nat) (W B : Q) : Q := (((nq n - 1) / nq n * W + B / nq n) / W)%Q.
Definition computed_ratio (m n : nat) (W B : Q) : Q := (((nq n - 1) / nq n * W + B / nq n + B / (nq m * nq n)) / W)%Q.
(** R-hat deviates from 1 by less than the threshold. *)
Definition near_one (q threshold : Q) : Prop := (Rabs (sqrt (Q2R q) - 1) < Q2R threshold)%R.

(** [x'] is [x] with its walkers reordered: walker [k] of [x'] is walker [p[k]] of [x]. *)
Definition walkers_reordered (m n : nat) (p : list nat) (x x' : list Q) : Prop :=
  length x' = length x /\
  forall k i, (k < m)%nat -> (i < n)%nat -> (step_at x' n k i == step_at x n (nth k p 0%nat) i)%Q.

(** The steps [a <= i < b] of walker [k]. *)
Definition window (x : list Q) (n k a b : nat) : list Q := map (step_at x n k) (seq a (b - a)).
Definition is_mean (l : list Q) (mu : Q) : Prop := (mu * nq (length l) == total l)%Q.
(** [v] is the spectral density at frequency zero of the autoregressive model fitted to [l]. *)
Definition spectral_density (yule_walker : list Q -> nat -> list R * R) (l : list Q) (v : R) : Prop :=
  (v * (1 - fold_right Rplus 0 (fst (yule_walker l 2%nat))) ^ 2 = snd (yule_walker l 2%nat) ^ 2)%R /\
  fold_right Rplus 0%R (fst (yule_walker l 2%nat)) <> 1%R.
(** [z] is the Geweke score of the windows [s] and [e]: the difference of the means in units of the root of
    the summed variances of the means. *)
Definition geweke_score (yule_walker : list Q -> nat -> list R * R) (s e : list Q) (z : R) : Prop :=
  exists ms me vs ve d, is_mean s ms /\ is_mean e me /\ spectral_density yule_walker s vs /\ spectral_density yule_walker e ve /\
    d = sqrt (vs / INR (length s) + ve / INR (length e)) /\ d <> 0%R /\ (z * d = Q2R ms - Q2R me)%R.
(** [a] is the largest integer not above [q]. *)
Definition is_floor (q : Q) (a : nat) : Prop := (nq a <= q < nq a + 1)%Q.
(** The autoregressive fit does not see shifts, and its noise amplitude scales with the data. *)
Definition equivariant (yule_walker : list Q -> nat -> list R * R) : Prop :=
  forall s s' a b, (0 < a)%Q -> affine a b s s' ->
    fst (yule_walker s' 2%nat) = fst (yule_walker s 2%nat) /\ snd (yule_walker s' 2%nat) = (Q2R a * snd (yule_walker s 2%nat))%R.
