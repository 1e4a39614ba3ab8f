(** Model of analysis.py:49-72, the class Bound with its conversions from and to arrays. The values of a bound are
    Python floats (with NaN and infinities) or None; [MarginalModel.bound] is the same record for finite values. *)
From Coq Require Import List QArith.
From Verif Require Import Py FrameModel MarginalModel.
Import ListNotations.

(** analysis.py:49-52 *)
Record fbound := { fb_lower : option cell; fb_center : option cell; fb_upper : option cell }.
(** analysis.py:54-62 Bound.array *)
Definition bound_array (b : fbound) : list cell :=
  [match fb_lower b with Some v => v | None => NaN end; match fb_center b with Some v => v | None => NaN end; match fb_upper b with Some v => v | None => NaN end].
(** analysis.py:64-66 Bound.all_none *)
Definition bound_all_none (b : fbound) : bool :=
  match fb_lower b, fb_center b, fb_upper b with None, None, None => true | _, _, _ => false end.
(** analysis.py:68-72 Bound.from_array; the elements are floats or (in a list) None. Simplified: the elements are numbers, pydantic accepts them. *)
Definition bound_from_array (l : list (option cell)) : res fbound :=
  match l with
  | [lo; ce; up] => Ok {| fb_lower := lo; fb_center := ce; fb_upper := up |}
  | _ => Err AssertionError                                                        (* 70 *)
  end.
(** A bound of finite values as such a bound. *)
(** analysis.py:49-72 Bound *)
Definition bound_of_finite (b : bound) : fbound :=
  {| fb_lower := option_map Fin (b_lower b); fb_center := option_map Fin (b_center b); fb_upper := option_map Fin (b_upper b) |}.
