(** A minimal pandas DataFrame: row labels and labelled numeric columns.  These are pandas semantics,
    not ChainConsumer code.  Simplifications: column labels are strings or integers and are unique;
    every cell is a number (finite, NaN or infinite); row labels are integers or strings. *)
From Coq Require Import String List Bool Arith ZArith QArith.
From Verif Require Import Py.
Import ListNotations.
Open Scope list_scope.

(** a value of the DataFrame of chain.py:103-106 *)
Inductive cell := Fin (q : Q) | NaN | PInf | NInf.
(** a column label of the DataFrame of chain.py:103-106, 258 *)
Inductive clabel := CStr (s : string) | CInt (z : Z).
(** a row label of the DataFrame of chain.py:103-106, 200 *)
Inductive rlabel := LInt (z : Z) | LStr (s : string).

(** the DataFrame of chain.py:103-106 *)
Record frame := { f_index : list rlabel; f_cols : list (clabel * list cell) }.

(** Unique column labels, columns as long as the index. *)
(** the DataFrame of chain.py:103-106 *)
Definition frame_wf (f : frame) : Prop :=
  NoDup (map fst (f_cols f)) /\ forall c l, In (c, l) (f_cols f) -> length l = length (f_index f).

(** chain.py:248 *)
Definition clabel_eqb (a b : clabel) : bool :=
  match a, b with
  | CStr s, CStr t => String.eqb s t
  | CInt y, CInt z => Z.eqb y z
  | _, _ => false
  end.
(** chain.py:200 *)
Definition rlabel_eqb (a b : rlabel) : bool :=
  match a, b with
  | LStr s, LStr t => String.eqb s t
  | LInt y, LInt z => Z.eqb y z
  | _, _ => false
  end.

(** chain.py:267, diagnostic.py:79, 132, helpers.py:46 read the number of rows *)
Definition f_rows (f : frame) : nat := length (f_index f).            (* df.shape[0] *)
(** [df.empty]: some axis has length 0. *)
(** chain.py:190, 245 *)
Definition f_empty (f : frame) : bool :=
  match f_index f, f_cols f with [], _ => true | _, [] => true | _, _ => false end.

(** chain.py:205, 212, 219, 301 *)
Fixpoint col_get (c : clabel) (cols : list (clabel * list cell)) : option (list cell) :=
  match cols with
  | [] => None
  | (c', l) :: r => if clabel_eqb c c' then Some l else col_get c r
  end.
(** chain.py:253, 264 *)
Fixpoint col_set (c : clabel) (l : list cell) (cols : list (clabel * list cell)) :=
  match cols with
  | [] => [(c, l)]
  | (c', l') :: r => if clabel_eqb c c' then (c', l) :: r else (c', l') :: col_set c l r
  end.
(** chain.py:205, 212, 219, 301 *)
Definition f_get (f : frame) (name : string) : option (list cell) := col_get (CStr name) (f_cols f).
(** chain.py:196, 210, 248 *)
Definition f_has (f : frame) (name : string) : bool := match f_get f name with Some _ => true | None => false end.
(** [df[name] = values] *)
(** chain.py:253, 264 *)
Definition f_set (f : frame) (name : string) (l : list cell) : frame :=
  {| f_index := f_index f; f_cols := col_set (CStr name) l (f_cols f) |}.
(** The string column labels, in order. *)
(** chain.py:157, 257 *)
Definition str_labels (cols : list (clabel * list cell)) : list string :=
  flat_map (fun cl => match fst cl with CStr s => [s] | CInt _ => [] end) cols.
(** chain.py:157, 257 *)
Definition f_names (f : frame) : list string := str_labels (f_cols f).

(** Comparison with a finite number; NaN compares false. *)
(** chain.py:255 *)
Definition cell_gt (c : cell) (q : Q) : bool :=
  match c with Fin x => negb (Qle_bool x q) | PInf => true | _ => false end.
(** chain.py:259 *)
Definition cell_finite (c : cell) : bool := match c with Fin _ => true | _ => false end.
(** chain.py:205; only used after validation *)
Definition cell_q (c : cell) : Q := match c with Fin q => q | _ => 0 end.   (* only used after validation *)
(** chain.py:205, 212 *)
Definition qs (l : list cell) : list Q := map cell_q l.

(** [df[st:en]]: rows by position, keeping the labels. *)
(** chain.py:346 *)
Definition slice {A} (st en : nat) (l : list A) : list A := firstn (en - st) (skipn st l).
(** chain.py:346 *)
Definition f_slice (st en : nat) (f : frame) : frame :=
  {| f_index := slice st en (f_index f); f_cols := map (fun cl => (fst cl, slice st en (snd cl))) (f_cols f) |}.

(** One row by position, as [Series.to_dict()]. *)
(** chain.py:366 *)
Definition f_row (f : frame) (i : nat) : list (string * cell) :=
  flat_map (fun cl => match fst cl with CStr s => [(s, nth i (snd cl) NaN)] | CInt _ => [] end) (f_cols f).

(** [df.loc[label]] with an integer label: the row positions carrying it. *)
(** chain.py:200 *)
Fixpoint positions {A} (p : A -> bool) (i : nat) (l : list A) : list nat :=
  match l with [] => [] | x :: r => if p x then i :: positions p (S i) r else positions p (S i) r end.
(** chain.py:200 *)
Definition loc_positions (f : frame) (lab : rlabel) : list nat := positions (rlabel_eqb lab) 0 (f_index f).
