(** Independent vocabulary: what is drawn of distributions apart from colours and shading. *)
From Coq Require Import String List Bool ZArith QArith.
From Verif Require Import FigureModel FigureSpec.
Import ListNotations.

(** Outlines without their colour; shaded areas are left out. *)
Definition outlines (calls : list call) : list call :=
  flat_map (fun c => match c with
    | Curve flip xs ys _ ls lw zorder => [Curve flip xs ys None ls lw zorder]
    | Bars flip edges ys _ ls lw zorder => [Bars flip edges ys None ls lw zorder]
    | _ => []
    end) calls.
(** Walks and the smoothed walks over them. *)
Definition paths (calls : list call) : list call := filter (fun c => match c with Walk _ _ | Smoothed _ _ => true | _ => false end) calls.
Definition uncoloured (calls : list call) : list (list Q + list (Q * Q)) :=
  flat_map (fun c => match c with Walk ys _ => [inl ys] | Smoothed pts _ => [inr pts] | _ => [] end) calls.
(** The row of [p], number [j] of the columns, in a figure of walks: the parameters come last. *)
Definition parameter_row (fig : figure) (cols : list string) (j : nat) (p : string) (calls : list call) : Prop :=
  nth_error cols j = Some p /\ exists above, length (fg_axes fig) = (above + length cols)%nat /\ axis fig (above + j) 0 calls.
