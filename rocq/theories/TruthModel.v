(** truth.py:13-53: constructing a Truth from the location the caller gives. *)
From Coq Require Import String List Bool Arith ZArith QArith.
From Verif Require Import Py FrameModel FigureModel.
Import ListNotations.
Open Scope string_scope.
Open Scope list_scope.

(** Keys and values of the caller's dictionary or Series, by what pydantic tells apart.  A number that is not finite
    is not modelled. *)
(** truth.py:13-16, 33-40 *)
Inductive loc_key := KText (k : string) | KOther.
(** truth.py:13-16, 33-40 *)
Inductive loc_value := LNumber (q : Q) | LBool (b : bool) | LText (s : string) | LOther.
(** The argument: a dict or another Mapping, a pandas Series (labels and values), or anything else. *)
(** truth.py:13-16, 33-40 *)
Inductive loc_arg := LMapping (items : list (loc_key * loc_value)) | LSeries (items : list (loc_key * loc_value)) | LNeither.

(** truth.py:14: pydantic's validation of one item of dict[str, float] outside strict mode.  Trusted: pydantic reads
    a key only if it is a str, a bool as 0.0 or 1.0, a str as the number it spells ([read], float's parser) and refuses
    everything else. *)
Definition item_of (read : string -> option Q) (kv : loc_key * loc_value) : res (string * Q) :=
  match fst kv with
  | KOther => Err ValidationError
  | KText k => match snd kv with
               | LNumber q => Ok (k, q)
               | LBool b => Ok (k, if b then 1 else 0)
               | LText s => match read s with Some q => Ok (k, q) | None => Err ValidationError end
               | LOther => Err ValidationError
               end
  end.
(** truth.py:14, 33-40: the field validator runs after pydantic's own validation (mode "after" is the default), so that
    it is given a dict or is not run; its branch for a Series (38-39) and its raise (40) are never reached.  Trusted:
    pydantic takes a dict or a Mapping for dict[str, float], and a Series is neither. *)
Definition location_of (read : string -> option Q) (l : loc_arg) : res (dict Q) :=
  match l with
  | LMapping items => rmapM (item_of read) items
  | LSeries _ | LNeither => Err ValidationError
  end.
(** truth.py:13-31 Truth(location=l, ...): the other arguments are those of [t]; 42-53 runs if all fields are valid. *)
Definition truth_from (filled : string -> bool) (read : string -> option Q) (l : loc_arg) (t : truth) : res truth :=
  rbind (location_of read l) (fun loc => new_truth filled
    {| t_location := loc; t_name := t_name t; t_color := t_color t; t_edge_color := t_edge_color t; t_line_width := t_line_width t; t_line_style := t_line_style t; t_alpha := t_alpha t; t_zorder := t_zorder t;
       t_marker := t_marker t; t_marker_size := t_marker_size t; t_marker_edge_width := t_marker_edge_width t |}).
