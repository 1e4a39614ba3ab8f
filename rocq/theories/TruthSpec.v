(** C111: what a Truth's location may be and what it means. *)
From Coq Require Import String List Bool ZArith QArith.
From Verif Require Import Py FigureModel TruthModel.
Import ListNotations.

(** The number a value stands for: itself, 1 for True and 0 for False, or the number a text spells. *)
Inductive stands_for (read : string -> option Q) : loc_value -> Q -> Prop :=
| sf_number q : stands_for read (LNumber q) q
| sf_true : stands_for read (LBool true) 1
| sf_false : stands_for read (LBool false) 0
| sf_text s q : read s = Some q -> stands_for read (LText s) q.
(** Parameter by parameter, in the caller's order. *)
Definition entry_is (read : string -> option Q) (kv : loc_key * loc_value) (entry : string * Q) : Prop :=
  fst kv = KText (fst entry) /\ stands_for read (snd kv) (snd entry).
Definition names_values (read : string -> option Q) (items : list (loc_key * loc_value)) (loc : dict Q) : Prop := Forall2 (entry_is read) items loc.
(** [t] with another location *)
Definition located (t : truth) (loc : dict Q) (t' : truth) : Prop :=
  t_location t' = loc /\ t_name t' = t_name t /\ t_color t' = t_color t /\ t_edge_color t' = t_edge_color t /\ t_line_width t' = t_line_width t /\ t_line_style t' = t_line_style t /\
  t_alpha t' = t_alpha t /\ t_zorder t' = t_zorder t /\ t_marker t' = t_marker t /\ t_marker_size t' = t_marker_size t /\ t_marker_edge_width t' = t_marker_edge_width t.
