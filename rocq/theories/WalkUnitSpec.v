(** C117: walks in other units. *)
From Coq Require Import String List QArith.
From Verif Require Import Py FrameModel ConfigModel ChainModel AnalysisModel EquivSpec.
Import ListNotations.

(** The same chain with other samples: the values of [p] in other units, row by row, if the chain has the parameter *)
Definition rows_in_units (a b : Q) (p : string) (cf cf' : chain * frame) : Prop :=
  let c := fst cf in let f := snd cf in let f' := snd cf' in
  fst cf' = c /\ (In p (data_columns c f') <-> In p (data_columns c f)) /\
  (In p (data_columns c f) -> exists x x', f_get f p = Some x /\ f_get f' p = Some x' /\ Forall2 (in_units a b) (qs x) (qs x')).
(** The walk: values in other units, in the same order and colour *)
Definition walk_in_units (a b : Q) (walk walk' : list Q * string) : Prop := Forall2 (in_units a b) (fst walk) (fst walk') /\ snd walk' = snd walk.
(** The smoothed line: the same steps, values in other units *)
Definition line_in_units (a b : Q) (pts pts' : list (Q * Q)) : Prop := Forall2 (fun q q' => fst q' = fst q /\ in_units a b (snd q) (snd q')) pts pts'.
