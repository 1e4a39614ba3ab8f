(** Independent vocabulary for two-dimensional surfaces, contour levels and thinned samples. *)
From Coq Require Import QArith List Arith ZArith Bool Reals Qreals Permutation.
From Verif Require Import NumSpec.
Import ListNotations.
Open Scope Q_scope.

(** numpy's argsort: a permutation of the positions that sorts the array; ties in any order. *)
Definition argsort_ok (argsort : list Q -> list nat) : Prop :=
  forall l, Permutation (argsort l) (seq 0 (length l)) /\
    forall i j, (i < j)%nat -> (j < length l)%nat ->
      nth (nth i (argsort l) 0%nat) l 0 <= nth (nth j (argsort l) 0%nat) l 0.

Definition same_shape {A B} (m : list (list A)) (m' : list (list B)) : Prop := map (@length A) m = map (@length B) m'.
(** Every cell's density together with the value given to that cell. *)
Definition cells (m v : list (list Q)) : list (Q * Q) := combine (concat m) (concat v).
(** Total density of the cells that satisfy [p density value]. *)
Fixpoint mass (p : Q -> Q -> bool) (l : list (Q * Q)) : Q :=
  match l with [] => 0 | (h, v) :: r => (if p h v then h else 0) + mass p r end.
Definition below (a b : Q) : bool := negb (Qle_bool b a).

(** [m] has [a] rows and [b] columns. *)
Definition shaped {A} (m : list (list A)) (a b : nat) : Prop := length m = a /\ forall r, In r m -> length r = b.
Definition cell {A} (d : A) (m : list (list A)) (i j : nat) : A := nth j (nth i m []) d.

(** Total weight of the samples ((x, y), w) with [p x y]. *)
Fixpoint weight_where (p : Q -> Q -> bool) (l : list (Q * Q * Q)) : Q :=
  match l with [] => 0 | (x, y, w) :: r => (if p x y then w else 0) + weight_where p r end.

(** [out] is every [k]-th element of [l], starting with the first. *)
Definition every_kth {A} (k : nat) (l out : list A) : Prop := forall i, nth_error out i = nth_error l (i * k).

(** What a normal distribution function satisfies. *)
Definition normal_cdf_like (Phi : R -> R) : Prop :=
  (forall a b, (a < b)%R -> (Phi a < Phi b)%R) /\ Phi 0%R = (1 / 2)%R /\ forall a, (Phi a < 1)%R.
Definition increasing_R (l : list R) : Prop :=
  forall i j, (i < j)%nat -> (j < length l)%nat -> (nth i l 0 < nth j l 0)%R.

(** [v] gives every cell of the density [m] the fraction of the total density held by the cells at least as
    dense, ties in some order; so the cells up to level L hold at most the fraction L. *)
Definition credible_surface (m v : list (list Q)) : Prop :=
  same_shape m v /\
  (forall h x, In (h, x) (cells m v) ->
     mass (fun h' _ => below h h') (cells m v) + h <= x * total (concat m) /\
     x * total (concat m) <= mass (fun h' _ => Qle_bool h h') (cells m v) /\ 0 <= x <= 1 /\ (0 < h -> 0 < x)) /\
  (forall h x h' x', In (h, x) (cells m v) -> In (h', x') (cells m v) -> 0 < h' -> h' < h -> x < x') /\
  (forall L, 0 <= L -> mass (fun _ x => Qle_bool x L) (cells m v) <= L * total (concat m)).
