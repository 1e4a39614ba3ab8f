(** Independent vocabulary: what makes a reported interval sensible, and what "the same chain with another area" means. *)
From Coq Require Import String QArith List Arith ZArith Bool.
From Verif Require Import Py NumSpec HelpersSpec MarginalModel FrameModel ConfigModel ChainModel TextModel AnalysisModel.
Import ListNotations.
Open Scope list_scope.
Open Scope Q_scope.

(** The numeric primitives do what they should: at least two points everywhere, non-negative results, and (a number of bins
    set by hand) at least three bin edges. *)
Record usable (num : numerics) (c : chain) : Prop := {
  us_bins : (2 <= n_bins num)%nat;
  us_points : (2 <= n_points num)%nat;
  us_kde : (2 <= n_kde num)%nat;
  us_pad : (2 <= n_pad num)%nat;
  us_power : forall x, 0 <= x -> 0 <= n_power num (ch_power c) x;
  us_kernel : forall s t, In t (n_kernel num s) -> 0 <= t;
  us_megkde : forall x w k q, 0 <= n_megkde num x w k q;
  us_edges : forall b, ch_cfg c Fbins = Some b -> (3 <= b)%Z }.

(** The bounds in an entry of a summary. *)
Definition reported (e : bounds_in) (b : bound) : Prop :=
  match e with BNone => False | BOne u => b = u | BMany l => In b l end.
(** All three numbers are given and in order. *)
Definition ordered (b : bound) : Prop :=
  exists lo x up, b_lower b = Some lo /\ b_center b = Some x /\ b_upper b = Some up /\ lo <= x <= up.
(** All three numbers are given and the two ends are in order. *)
Definition ends_ordered (b : bound) : Prop :=
  exists lo x up, b_lower b = Some lo /\ b_center b = Some x /\ b_upper b = Some up /\ lo <= up.
(** Only the centre is given. *)
Definition centre_only (b : bound) : Prop := b_lower b = None /\ b_upper b = None /\ exists x, b_center b = Some x.
(** Every number given is between [lo] and [hi]. *)
Definition inside (lo hi : Q) (b : bound) : Prop :=
  forall v, b_lower b = Some v \/ b_center b = Some v \/ b_upper b = Some v -> lo <= v <= hi.

(** What is promised about the entry of a column whose samples run from [mn] to [mx]. *)
Definition sensible (c : chain) (mn mx : Q) (e : bounds_in) : Prop :=
  forall b, reported e b ->
    match e, ch_cfg c Fstatistics with
    | BOne _, Some SMax => ordered b \/ centre_only b
    | BOne _, Some SMaxCentral => ends_ordered b
    | _, _ => ordered b
    end /\
    let slack := (mx - mn) / 5 in
    if ch_grid c then inside mn mx b
    else match e, ch_cfg c Fstatistics with
         | BMany _, _ | _, Some SHdi => inside (mn - slack) (mx + slack) b
         | _, _ => inside mn mx b
         end.

(** [c'] is [c] with another summary area. *)
Definition other_area (c c' : chain) : Prop :=
  c' = with_cfg c (ch_cfg c') /\ forall g, g <> Fsummary_area -> ch_cfg c' g = ch_cfg c g.
(** The interval [i] lies within [j]. *)
Definition within (i j : Q * Q) : Prop := fst j <= fst i /\ snd i <= snd j.
Definition interval_of (b : bound) (i : Q * Q) : Prop := b_lower b = Some (fst i) /\ b_upper b = Some (snd i).
