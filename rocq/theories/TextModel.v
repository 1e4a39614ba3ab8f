(** analysis.py: the text of a parameter's bounds.  Numbers are exact rationals (np.log10, 10**factor and
    round() are computed exactly, half to even). *)
From Coq Require Import String Ascii List Bool Arith ZArith QArith Qround Qabs.
From Verif Require Import Py NumModel MarginalModel ConfigModel ChainModel FormatModel.
Import ListNotations.
Open Scope string_scope.
Open Scope list_scope.

(** np.floor(np.log10(q)) for positive [q]: of an integer, then of a rational. *)
(** analysis.py:448-454 *)
Fixpoint log10_fuel (n : nat) (z : Z) : Z :=
  match n with O => 0%Z | S k => if (z <? 10)%Z then 0%Z else (1 + log10_fuel k (z / 10))%Z end.
(** analysis.py:448-454 *)
Definition log10Z (z : Z) : Z := log10_fuel (S (Z.to_nat (Z.log2 z))) z.
(** analysis.py:448-454 *)
Definition lg10 (q : Q) : Z :=
  if Qle_bool 1 q then log10Z (Qfloor q) else (- (1 + log10Z (Qceiling (/ q) - 1)))%Z.

(** round(x, r) *)
(** analysis.py:475-477 *)
Definition round_to (r : nat) (x : Q) : Q := (inject_Z (round_even (x * inject_Z (pow10 r))) / inject_Z (pow10 r))%Q.

(** analysis.py:447-454 resolution; [None] is -inf (all three numbers are 0). *)
Definition resolution (upper_error lower_error center : Q) : option Z :=
  let mag q := lg10 (Qabs q) in
  if negb (Qeq_bool upper_error 0) && negb (Qeq_bool lower_error 0)
  then Some (Z.min (mag upper_error) (mag lower_error))                            (* 447-448 *)
  else if Qeq_bool upper_error 0 && negb (Qeq_bool lower_error 0)
  then Some (mag lower_error)                                                      (* 449-450 *)
  else if negb (Qeq_bool upper_error 0) && Qeq_bool lower_error 0
  then Some (mag upper_error)                                                      (* 451-452 *)
  else if Qeq_bool center 0 then None else Some (mag center).                      (* 453-454 *)

(** analysis.py:444-494 _format_single_bound.  A missing limit makes the subtraction a TypeError.  With
    resolution -inf the numbers are nan and the final "%d" % -inf (493) is an OverflowError. *)
Definition format_single_bound (b : bound) (use_pm : bool) : res string :=
  match b_upper b, b_center b, b_lower b with
  | Some upper, Some center, Some lower =>
      let upper_error := (upper - center)%Q in                                     (* 445 *)
      let lower_error := (center - lower)%Q in                                     (* 446 *)
      match resolution upper_error lower_error center with
      | None => Err OverflowError
      | Some resolution =>
          let factor := if (2 <? Z.abs resolution)%Z then (- resolution)%Z         (* 455, 458-459 *)
                        else if (resolution =? 2)%Z then (-1)%Z else 0%Z in        (* 462 *)
          let digits := if ((resolution =? 2) || (resolution =? 1))%Z then 0%nat   (* 460-461, 464-465 *)
                        else if (resolution =? -1)%Z then 2%nat                    (* 466-467 *)
                        else if (resolution =? -2)%Z then 3%nat else 1%nat in      (* 469-470, 456 *)
          let r := if (resolution =? 2)%Z then 0%nat                               (* 463 *)
                   else if (resolution =? -1)%Z then 2%nat                         (* 468 *)
                   else if (resolution =? -2)%Z then 3%nat else 1%nat in           (* 471, 457 *)
          let scaled x := round_to r (x * Qpower 10 factor)%Q in                   (* 472-477 *)
          let back x := if (resolution =? 2)%Z then (x * Qpower 10 (- factor))%Q else x in   (* 480-483 *)
          let factor := if (resolution =? 2)%Z then 0%Z else factor in             (* 484 *)
          let upper_error_text := fixed digits (back (scaled upper_error)) in      (* 486 *)
          let lower_error_text := fixed digits (back (scaled lower_error)) in      (* 487 *)
          let maximum := fixed digits (back (scaled center)) in                    (* 478-479: no negative zero *)
          let text :=
            if use_pm && String.eqb upper_error_text lower_error_text              (* 488 *)
            then (maximum ++ "\pm " ++ lower_error_text)%string                    (* 489 *)
            else (maximum ++ "^{+" ++ upper_error_text ++ "}_{-" ++ lower_error_text ++ "}")%string in   (* 491 *)
          Ok (if (factor =? 0)%Z then text
              else ("\left( " ++ text ++ " \right) \times 10^{" ++ int_text (- factor) ++ "}")%string)   (* 492-494 *)
      end
  | _, _, _ => Err TypeError
  end.

(** What get_parameter_text accepts: None, a Bound or a list of them. *)
(** analysis.py:405-430 *)
Inductive bounds_in := BNone | BOne (b : bound) | BMany (l : list bound).
(** analysis.py:66, 431 *)
Definition is_none {A} (o : option A) : bool := match o with None => true | Some _ => false end.
(** analysis.py:64-66 all_none *)
Definition all_none (b : bound) : bool := is_none (b_lower b) && is_none (b_center b) && is_none (b_upper b).
(** analysis.py:419, 425-426, 439-441 *)
Definition wrapped (wrap : bool) (s : string) : string := if wrap then ("$" ++ s ++ "$")%string else s.
(** The loop over enumerate(bounds, start=1), 420-426 *)
Fixpoint entry_lines (wrap : bool) (index : nat) (bs : list bound) : res (list string) :=
  match bs with
  | [] => Ok []
  | b :: r =>
      rbind (format_single_bound b false) (fun entry =>                            (* 421 *)
      rbind (entry_lines wrap (S index) r) (fun rest =>
      Ok (if String.eqb entry "" then rest                                         (* 422-423 *)
          else ("I" ++ dec (Z.of_nat index) ++ ": " ++ wrapped wrap entry)%string :: rest)))   (* 424-426 *)
  end.
(** analysis.py:430-441 *)
Definition one_bound_text (b : bound) (wrap : bool) (label : option string) : res string :=
  match b_lower b, b_upper b, b_center b with
  | Some _, Some _, Some _ =>
      rmap (fun text =>                                                            (* 433 *)
        wrapped wrap (match label with                                             (* 435-441 *)
                      | Some (String a s) => (String a s ++ " = " ++ text)%string
                      | _ => text end)) (format_single_bound b true)
  | _, _, _ => Ok ""                                                               (* 430-431 *)
  end.
(** analysis.py:382-441 get_parameter_text *)
Definition get_parameter_text (bound : bounds_in) (wrap : bool) (label : option string) : res string :=
  match bound with
  | BNone => Ok ""                                                                 (* 404-405 *)
  | BOne b => one_bound_text b wrap label
  | BMany [] => Err IndexError                                                     (* 408-409 *)
  | BMany [b] => one_bound_text b wrap label
  | BMany bs =>
      match filter (fun b => negb (all_none b)) bs with                            (* 412 *)
      | [] => Ok ""                                                                (* 413-414 *)
      | bs =>
          rmap (fun lines =>
            join nl ((match label with                                             (* 416-418 *)
                      | Some (String a s) => [wrapped wrap (String a s)]
                      | _ => [] end) ++ lines)) (entry_lines wrap 1 bs)            (* 420-428 *)
      end
  end.
