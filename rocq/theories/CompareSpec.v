(** Independent vocabulary for model comparison. *)
From Coq Require Import String Ascii List Bool Arith ZArith QArith Reals Qreals Permutation.
From Verif Require Import Py NumSpec FrameModel ConfigModel ChainModel RegistryModel ChainSpec FormatSpec.
Import ListNotations.
Open Scope string_scope.
Open Scope list_scope.

(** [P] is the largest log posterior. *)
Definition is_largest (P : Q) (p : list Q) : Prop := In P p /\ forall x, In x p -> (x <= P)%Q.

(** The documented criteria, [k] free parameters, [N] data points, [P] the largest log posterior. *)
Definition AICc (k : Z) (N P : Q) : R :=
  (-(2) * Q2R P + 2 * IZR k + 2 * IZR k * (IZR k + 1) / (Q2R N - IZR k - 1))%R.
Definition BIC (k : Z) (N P : Q) : R := (-(2) * Q2R P + IZR k * ln (Q2R N))%R.

(** Squared distance between sample [i] and the point [x]; [xs] are the parameter columns. *)
Definition distance2 (xs : list (list Q)) (x : list Q) (i : nat) : Q :=
  sum_range (fun j => (at_ (nth j xs []) i - at_ x j) * (at_ (nth j xs []) i - at_ x j))%Q 0 (length xs).
Definition deviance (p : list Q) (i : nat) : Q := (-(2) * at_ p i)%Q.

(** The raw scores of a chain. *)
Definition has_aic (c : chain) (f : frame) (v : R) : Prop :=
  exists p P N k, column f (ch_post c) p /\ ch_ndata c = Some (Fin N) /\ ch_nfree c = Some k /\ is_largest P p /\
    ~ (N == inject_Z k + 1)%Q /\ v = AICc k N P.
Definition has_bic (c : chain) (f : frame) (v : R) : Prop :=
  exists p P N k, column f (ch_post c) p /\ ch_ndata c = Some (Fin N) /\ ch_nfree c = Some k /\ is_largest P p /\ (0 < N)%Q /\ v = BIC k N P.
(** DIC = mean D + p_D with p_D = mean D - D(mean), where D(mean) is the deviance of a sample nearest to
    the mean. *)
Definition has_dic (c : chain) (f : frame) (v : R) : Prop :=
  exists p w xs means Dbar i,
    column f (ch_post c) p /\ column f (ch_weight c) w /\ Forall2 (column f) (data_columns c f) xs /\ xs <> [] /\
    Forall2 (fun x m => weighted_mean x w m) xs means /\
    weighted_mean (map (fun q => -(2) * q)%Q p) w Dbar /\
    (i < length w)%nat /\ (forall j, (j < length w)%nat -> (distance2 xs means i <= distance2 xs means j)%Q) /\
    v = (Q2R Dbar + (Q2R Dbar - Q2R (deviance p i)))%R.

(** Which chains are scored. *)
Definition has_posterior (c : chain) (f : frame) : Prop := is_column f (ch_post c).
Definition has_counts (c : chain) (f : frame) : Prop := has_posterior c f /\ ch_ndata c <> None /\ ch_nfree c <> None.

(** [n] is registered for the chain [c] with DataFrame [f]. *)
Definition registered (w : world) (n : string) (c : chain) (f : frame) : Prop :=
  exists l, In (n, l) (k_chains (snd w)) /\ chain_at (fst w) l = Some c /\ f = frame_at (fst w) (ch_samples c).

(** The result [d] gives every scored chain (those with [q], in registration order) its raw score less the
    smallest raw score. *)
Record relative_scores (w : world) (q : chain -> frame -> Prop) (raw : chain -> frame -> R -> Prop) (d : dict R) : Prop := {
  rs_names : sublist (map fst d) (map fst (k_chains (snd w))) /\
             forall n c f, registered w n c f -> (In n (map fst d) <-> q c f);
  rs_scores : exists low, (forall n v, dget n d = Some v -> exists c f, registered w n c f /\ raw c f (v + low)%R) /\
              (forall n v, dget n d = Some v -> (0 <= v)%R) /\
              (d <> [] -> exists n, dget n d = Some 0%R) }.

(** The searching and sorting routines of scipy and numpy that the code calls: an index of a nearest point,
    and a sorting permutation (nothing is said about ties). *)
Definition nearest_ok (nearest : list (list Q) -> list Q -> nat) : Prop :=
  forall rows x n, rows <> [] -> (forall r, In r rows -> length r = n) -> length x = n ->
    let d i := sum_range (fun j => (at_ (nth i rows []) j - at_ x j) * (at_ (nth i rows []) j - at_ x j))%Q 0 n in
    (nearest rows x < length rows)%nat /\ forall i, (i < length rows)%nat -> (d (nearest rows x) <= d i)%Q.
Definition argsort_ok (argsort : list R -> list nat) : Prop :=
  forall l, Permutation (argsort l) (seq 0 (length l)) /\
    forall i j, (i < j)%nat -> (j < length l)%nat -> (nth (nth i (argsort l) 0%nat) l 0 <= nth (nth j (argsort l) 0%nat) l 0)%R.

(** Rounding a real number to a text. *)
Definition shows_R (s : string) (d : nat) (x : R) : Prop :=
  exists v, numeral s d v /\ (Rabs (Q2R v - x) * IZR (10 ^ Z.of_nat d) <= 1 / 2)%R.
(** At least [n] characters wide, filled with spaces on the left. *)
Definition padded (n : nat) (s t : string) : Prop :=
  exists k, t = (String.concat "" (repeat " " k) ++ s)%string /\ String.length t = Nat.max n (String.length s).
Definition cell_shows (o : option R) (t : string) : Prop :=
  match o with
  | None => padded 5 "nan" t
  | Some x => exists s, shows_R s 1 x /\ padded 5 s t
  end.

(** Row [n1] may stand before row [n2]: missing scores come last, the others are in order. *)
Definition in_order (descending : bool) (o1 o2 : option R) : Prop :=
  match o1, o2 with
  | _, None => True
  | None, Some _ => False
  | Some x, Some y => if descending then (y <= x)%R else (x <= y)%R
  end.

Fixpoint occurrences (c : ascii) (s : string) : nat :=
  match s with EmptyString => 0 | String a r => (if Ascii.eqb a c then 1 else 0) + occurrences c r end.

(** One line of a table: cells separated by "&", ended by "\\" and a newline. *)
Inductive line_of : string -> list string -> string -> Prop :=
| line_intro name cells newline : newline = String (ascii_of_nat 10) EmptyString ->
    line_of name cells (String (ascii_of_nat 9) EmptyString ++ name ++ String.concat "" (map (fun c => "  &  " ++ c ++ "  ")%string cells) ++ " \\ " ++ newline)%string.

(** The text of a comparison table.  [keys] are the selected criteria, [ds] their scores, [by_] those sorted
    by: every chain with a score is listed once, in order, with one cell for each criterion. *)
Definition header_cell (key : string) : string :=
  if String.eqb key "aic" then " & AIC" else if String.eqb key "bic" then " & BIC " else " & DIC ".
Definition shows_comparison (caption label : string) (hlines descending : bool) (keys : list string) (ds : list (dict R)) (by_ : dict R) (ncols : nat) (t : string) : Prop :=
  let newline := String (ascii_of_nat 10) EmptyString in let tabulator := String (ascii_of_nat 9) EmptyString in
  exists order lines,
    NoDup order /\ (forall n, In n order <-> exists d, In d ds /\ dget n d <> None) /\
    (forall i j, (i < j)%nat -> (j < length order)%nat -> in_order descending (dget (nth i order "") by_) (dget (nth j order "") by_)) /\
    Forall2 (fun n line => exists cells, Forall2 (fun d cell => cell_shows (dget n d) cell) ds cells /\ line_of n cells line) order lines /\
    t = latex_table caption label (String.concat "" (repeat "c" ncols))
          ((if hlines then "\hline" ++ newline else "") ++ tabulator ++ "Model" ++ String.concat "" (map header_cell keys) ++ " \\ " ++ newline ++
           (if hlines then tabulator ++ "\hline" ++ newline else "") ++ String.concat "" lines ++
           (if hlines then tabulator ++ "\hline" ++ newline else ""))%string.
