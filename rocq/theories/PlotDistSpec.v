(** Independent vocabulary for plot_dist. *)
From Coq Require Import String List Bool Arith ZArith QArith Reals.
From Verif Require Import Py NumModel NumSpec HelpersModel MarginalModel SummarySpec FrameModel ConfigModel ChainModel RegistrySpec ChainSpec TextModel AnalysisModel HelpersSpec SurfaceModel FigureModel FigureSpec PlotDistModel.
From Verif Require Export OpacitySpec.
Import ListNotations.
Open Scope string_scope.
Open Scope list_scope.

(** The chain's marginals are drawn as a curve: smoothed, or by kernel density estimate. *)
Definition curved (c : chain) : Prop := smooth_value (ch_cfg c Fsmooth) (ch_grid c) <> 0%Z \/ kde_on (ch_cfg c Fkde) = true.
(** The area of bars of heights [ys] between [edges]. *)
Definition bars_area (edges ys : list Q) : Q := sum_range (fun i => (at_ ys i * (at_ edges (S i) - at_ edges i))%Q) 0 (length edges - 1).
(** [xs] are the centres of the bins between [edges]. *)
Definition centres_of (edges xs : list Q) : Prop := length xs = (length edges - 1)%nat /\ forall i, (i < length xs)%nat -> (at_ xs i == (at_ edges i + at_ edges (S i)) / 2)%Q.
(** A kernel that smooths: an odd number of symmetric taps that sum to one. *)
Definition smoothing_kernel (kern : list Q) : Prop :=
  (exists r, length kern = (2 * r + 1)%nat) /\ (forall k, (k < length kern)%nat -> (at_ kern k == at_ kern (length kern - 1 - k))%Q) /\ (total kern == 1)%Q.
(** The distribution is drawn as it is, not raised to a power. *)
Definition plain_power (num : numerics) (c : chain) : Prop := forall h, (n_power num (ch_power c) h == h)%Q.
(** What is drawn with: colour, dashes, width, layer. *)
Definition pen := (option string * string * Q * Z)%type.
Definition pen_of (c : chain) : pen := (ch_cfg c Fcolor, ch_cfg c Flinestyle, ch_cfg c Flinewidth, ch_cfg c Fzorder).
(** The points of an outline: those of a line, the tops of bars at their centres. *)
Inductive outline_points : dist_call -> pen -> list Q -> list Q -> Prop :=
| op_line xs ys col ls lw z : outline_points (DLine xs ys col ls lw z) (col, ls, lw, z) xs ys
| op_steps edges xs ys col ls lw z : centres_of edges xs -> outline_points (DSteps edges ys col ls lw z) (col, ls, lw, z) xs ys.
Definition fills (calls : list dist_call) : list dist_call := filter (fun c => match c with DFill _ _ _ _ _ _ _ _ _ => true | _ => false end) calls.
Definition titles (calls : list dist_call) : list string := flat_map (fun c => match c with DTitle s => [s] | _ => [] end) calls.
(** [lo, hi] is the part of [lower, upper] within the range of [xs]. *)
Definition cut_to (xs : list Q) (lower upper lo hi : Q) : Prop :=
  exists mn mx, is_min mn xs /\ is_max mx xs /\ is_max lo [lower; mn] /\ is_min hi [upper; mx] /\ (mn <= lo /\ lo <= mx /\ mn <= hi /\ hi <= mx)%Q.
