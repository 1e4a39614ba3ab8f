(** Independent vocabulary: weighted samples related by a change of units, results that follow it. *)
From Coq Require Import String QArith List Arith ZArith Bool Permutation.
From Verif Require Import Py NumSpec HelpersSpec HelpersModel MarginalModel FrameModel ConfigModel ChainModel TextModel AnalysisModel.
Import ListNotations.
Open Scope string_scope.
Open Scope list_scope.
Open Scope Q_scope.

(** [x'] is [x] in other units: the unit is [a] times smaller and zero moved by [b]. *)
Definition in_units (a b x x' : Q) : Prop := x' == a * x + b.
(** The weight of all samples with the value [x]. *)
Definition weight_at (x : Q) (d : list (Q * Q)) : Q := weight_if (fun y => Qeq_bool y x) d.
Definition occurs (x : Q) (d : list (Q * Q)) : Prop := exists y w, In (y, w) d /\ y == x.
(** The weighted sample [d'] is [d] in other units, its weights in other units too (a factor [k]).  The number of samples
    with a value and their order are free. *)
Definition same_sample (a b k : Q) (d d' : list (Q * Q)) : Prop :=
  0 < k /\ forall x x', in_units a b x x' -> (occurs x d <-> occurs x' d') /\ weight_at x' d' == k * weight_at x d.
(** At least two different values. *)
Definition spread (d : list (Q * Q)) : Prop := exists x y, occurs x d /\ occurs y d /\ ~ x == y.

(** Two results agree: both are values in the relation, or the same exception. *)
Definition agree {A B} (R : A -> B -> Prop) (r : res A) (r' : res B) : Prop :=
  match r, r' with Ok x, Ok y => R x y | Err e, Err e' => e = e' | _, _ => False end.
Definition opt_agree {A B} (R : A -> B -> Prop) (o : option A) (o' : option B) : Prop :=
  match o, o' with Some x, Some y => R x y | None, None => True | _, _ => False end.

(** A reported bound in other units: a missing end stays missing. *)
Definition bound_in_units (a b : Q) (u u' : bound) : Prop :=
  opt_agree (in_units a b) (b_lower u) (b_lower u') /\ opt_agree (in_units a b) (b_center u) (b_center u') /\ opt_agree (in_units a b) (b_upper u) (b_upper u').
Definition interval_in_units (a b : Q) (i i' : Q * Q) : Prop := in_units a b (fst i) (fst i') /\ in_units a b (snd i) (snd i').

(** What is assumed of h -> h ** p: equal arguments, factors, positive values. *)
Definition power_law (p : Q -> Q) : Prop :=
  (forall x y, x == y -> p x == p y) /\ (forall c x, 0 < c -> p (c * x) == p c * p x) /\ (forall c, 0 < c -> 0 < p c).

(** ** Chains *)
(** The weighted sample of a column. *)
Definition sample (c : chain) (f : frame) (column : string) (d : list (Q * Q)) : Prop :=
  exists x w, f_get f column = Some x /\ f_get f (ch_weight c) = Some w /\ d = combine (qs x) (qs w).
(** The number of histogram bins is the same: given, or read off tables of the same size. *)
Definition same_bins (c : chain) (f f' : frame) : Prop :=
  ch_cfg c Fbins <> None \/ (f_rows f' = f_rows f /\ length (f_cols f') = length (f_cols f)).
(** Without a kernel density estimate, or with one that is the same up to a factor. *)
Definition same_kde (num : numerics) (c : chain) (f f' : frame) (column : string) : Prop :=
  kde_on (ch_cfg c Fkde) = false \/
  exists s, 0 < s /\ forall x w x' w' q q', f_get f column = Some x -> f_get f (ch_weight c) = Some w -> f_get f' column = Some x' -> f_get f' (ch_weight c) = Some w' -> q' == q ->
    n_megkde num (qs x') (qs w') (kde_factor (ch_cfg c Fkde)) q' == s * n_megkde num (qs x) (qs w) (kde_factor (ch_cfg c Fkde)) q.
(** Summaries of a column: one bound, or one for each mode. *)
Definition entry_in_units (a b : Q) (e e' : bounds_in) : Prop :=
  match e, e' with
  | BOne u, BOne u' => bound_in_units a b u u'
  | BMany l, BMany l' => Forall2 (bound_in_units a b) l l'
  | _, _ => False
  end.
Definition summary_in_units (a b : Q) (s s' : dict bounds_in) : Prop := Forall2 (fun e e' => fst e' = fst e /\ entry_in_units a b (snd e) (snd e')) s s'.

(** One column of the table in other units. *)
Definition converted (a b : Q) (column : string) (f f' : frame) : Prop :=
  exists x x', f_get f column = Some x /\ f' = f_set f column x' /\ Forall2 (in_units a b) (qs x) (qs x').
(** The same rows in another order. *)
Definition picked {A} (d : A) (p : list nat) (l : list A) : list A := map (fun i => nth i l d) p.
Definition reordered (f f' : frame) : Prop :=
  exists p, Permutation p (seq 0 (f_rows f)) /\ f' = {| f_index := picked (LInt 0) p (f_index f); f_cols := map (fun cl => (fst cl, picked NaN p (snd cl))) (f_cols f) |}.
(** The weights in other units. *)
Definition reweighed (k : Q) (weight : string) (f f' : frame) : Prop :=
  exists w w', f_get f weight = Some w /\ f' = f_set f weight w' /\ Forall2 (in_units k 0) (qs w) (qs w').
(** Row [i] split into two with the same values that share its weight. *)
Definition split_row {A} (i : nat) (v v' : A) (l : list A) : list A := firstn i l ++ v :: v' :: skipn (S i) l.
Definition row_split (weight : string) (i : nat) (f f' : frame) : Prop :=
  (i < f_rows f)%nat /\ map fst (f_cols f') = map fst (f_cols f) /\
  forall n l, f_get f n = Some l -> exists v v', f_get f' n = Some (split_row i v v' l) /\
    if String.eqb n weight then cell_q v + cell_q v' == cell_q (nth i l NaN) else v = nth i l NaN /\ v' = nth i l NaN.
(** For the given columns, [f'] holds the weighted samples of [f], the weights in other units. *)
Definition same_table (num : numerics) (c : chain) (f f' : frame) (cols : list string) : Prop :=
  map fst (f_cols f') = map fst (f_cols f) /\ same_bins c f f' /\
  exists k, forall p, In p cols -> f_has f p = true ->
    same_kde num c f f' p /\ exists d d', sample c f p d /\ sample c f' p d' /\ d <> [] /\ same_sample 1 0 k d d'.
(** The same summaries for every chain, up to equality of rational numbers. *)
Definition same_summaries (s s' : dict (dict bounds_in)) : Prop := Forall2 (fun e e' => fst e' = fst e /\ summary_in_units 1 0 (snd e) (snd e')) s s'.
