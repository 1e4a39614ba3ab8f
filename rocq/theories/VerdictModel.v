(** diagnostic.py: what the diagnostics log, in the order in which it is logged.  Log levels, handlers and the times
    of messages are not modelled. *)
From Coq Require Import String Ascii List Bool Arith ZArith QArith Qround Reals Qreals.
From Verif Require Import Py NumModel FrameModel ConfigModel ChainModel RegistryModel CovModel FormatModel DiagModel WarnModel NoteModel.
Import ListNotations.
Open Scope string_scope.
Open Scope list_scope.

(** diagnostic.py:83-87: v and w of one parameter (see [gr_ratio]) *)
Definition gr_parts (x : list Q) (m n : nat) : Q * Q :=
  let bs := blocks m x in
  let mq := nq m in let nn := nq n in
  let b := (nn / (mq - 1) * qsum (map (fun c => (mean c - mean x) * (mean c - mean x)) bs))%Q in   (* 83 *)
  let w := (1 / mq * qsum (map var1 bs))%Q in                                      (* 84 *)
  (((nn - 1) * w / nn + b / nn) + b / (nn * mq), w)%Q.                             (* 85-86 *)
(** diagnostic.py:93: f"{v:7.5f}" of sqrt(v / w).  One step per walker: the variances are nan.  0 / 0 is nan, and a
    positive number divided by 0 is inf. *)
Definition gr_text (x : list Q) (m n : nat) : string :=
  let '(v, w) := gr_parts x m n in
  rjust 7 (if (n <=? 1)%nat then "nan"
           else if Qeq_bool w 0 then (if Qeq_bool v 0 then "nan" else "inf")
           else fixed_R 5 (sqrt (Q2R (v / w)))).
(** diagnostic.py:90 *)
Definition gr_heading (name : string) : string := ("Gelman-Rubin Statistic values for chain " ++ name)%string.
(** diagnostic.py:92-93; the columns are strings. *)
Definition gr_line (p text : string) (passed : bool) : string := (p ++ ": " ++ text ++ " (" ++ (if passed then "Passed" else "Failed") ++ ")")%string.
(** diagnostic.py:70-95 gelman_rubin on one chain, with its log *)
Definition logged_gelman_rubin_one (threshold : Q) (c : chain) (f : frame) : logged test_result :=
  lbind (silent (select f (data_columns c f))) (fun xs =>
  let rows := f_rows f in
  if negb (Z.of_nat rows mod ch_walkers c =? 0)%Z then ([], Err ValueError)        (* 76 *)
  else if negb (1 <? ch_walkers c)%Z then ([], Err AssertionError)                 (* 77 *)
  else
    let m := Z.to_nat (ch_walkers c) in
    let n := (rows / m)%nat in
    let passed := map (fun x => gr_passed threshold (gr_ratio x m n)) xs in        (* 89 *)
    (gr_heading (ch_name c) ::                                                     (* 90 *)
     map (fun e => gr_line (fst e) (gr_text (fst (snd e)) m n) (snd (snd e))) (combine (data_columns c f) (combine xs passed)),   (* 91-93 *)
     Ok {| t_passed := forallb (fun b => b) passed; t_results := [(ch_name c, forallb (fun b => b) passed)] |})).   (* 94-95 *)

(** diagnostic.py:64, 117: the list of the results of the chains *)
Fixpoint lmapM {A B} (g : A -> logged B) (l : list A) : logged (list B) :=
  match l with
  | [] => silent (Ok [])
  | x :: r => lbind (g x) (fun y => lbind (lmapM g r) (fun ys => silent (Ok (y :: ys))))
  end.
(** diagnostic.py:62-70, 115-123 (see [over_chains]) *)
Definition logged_over (one : chain -> frame -> logged test_result) (w : world) (r : dreq) : logged test_result :=
  lbind (silent (diag_chains w r)) (fun ls =>
  let run l := match chain_at (fst w) l with
               | Some c => one c (frame_at (fst w) (ch_samples c))
               | None => ([], Err TypeError)
               end in
  match ls with
  | [] => ([], Err IndexError)
  | [l] => run l
  | _ => lbind (lmapM run ls) (fun ts => silent (Ok (combine_results ts)))
  end).
(** diagnostic.py:34-95 *)
Definition logged_gelman_rubin (w : world) (r : dreq) (threshold : Q) : logged test_result :=
  logged_over (logged_gelman_rubin_one threshold) w r.

Section geweke.
Variable yule_walker : list Q -> nat -> list R * R.
Variable normaltest : list R -> res (option R).
(** f"{pvalue:e}": Python's text of the p-value ([None]: nan) in scientific notation *)
Variable e_text : option R -> string.
(** diagnostic.py:145 *)
Definition gw_line (name text : string) : string := ("Gweke Statistic for chain " ++ name ++ " has p-value " ++ text)%string.
(** diagnostic.py:125-147 geweke on one chain (see [geweke_one]), with its log *)
Definition logged_geweke_one (first last threshold : Q) (c : chain) (f : frame) : logged test_result :=
  if negb (0 <? ch_walkers c)%Z then ([], Err AssertionError)                      (* 125-128 *)
  else
    lbind (silent (select f (data_columns c f))) (fun xs =>
    let rows := f_rows f in
    if negb (Z.of_nat rows mod ch_walkers c =? 0)%Z then ([], Err ValueError)      (* 131 *)
    else
      let m := Z.to_nat (ch_walkers c) in
      let n := nq (rows / m) in                                                    (* 132 *)
      let n_start := Qfloor (first * n) in                                         (* 133 *)
      let n_end := Qfloor ((1 - last) * n) in                                      (* 134 *)
      lbind (silent (rmapM (fun k => rmapM (fun x => z_score yule_walker n_start n_end (nth k (blocks m x) [])) xs) (seq 0 m))) (fun zss =>
      lbind (silent (normaltest (concat zss))) (fun p =>                           (* 144 *)
      let passed := match p with
                    | None => false
                    | Some v => if Rlt_dec (Q2R threshold) v then true else false  (* 146 *)
                    end in
      ([gw_line (ch_name c) (e_text p)],                                           (* 145 *)
       Ok {| t_passed := passed; t_results := [(ch_name c, passed)] |}))))%Q.
(** diagnostic.py:97-149 *)
Definition logged_geweke (w : world) (r : dreq) (first last threshold : Q) : logged test_result :=
  logged_over (logged_geweke_one first last threshold) w r.
End geweke.
