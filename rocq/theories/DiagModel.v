(** diagnostic.py: Gelman-Rubin and Geweke.  Means and variances are exact rationals; square roots and
    p-values are real numbers. *)
From Coq Require Import String List Bool Arith ZArith QArith Qround Reals Qreals.
From Verif Require Import Py NumModel FrameModel ConfigModel ChainModel RegistryModel CovModel.
Import ListNotations.
Open Scope list_scope.

(** diagnostic.py:10-17 TestResult *)
Record test_result := { t_passed : bool; t_results : dict bool }.

(** diagnostic.py:20-27 _sanitise_chains.  A chain object is its heap location. *)
Inductive creq := DName (n : string) | DObject (l : nat).
(** diagnostic.py:20-22 *)
Inductive dreq := DAll | DList (l : list creq) | DOne (c : creq).
(** diagnostic.py:26-27 *)
Definition resolve (w : world) (c : creq) : res nat :=
  match c with DName n => get_chain w n | DObject l => Ok l end.
(** diagnostic.py:20-27 *)
Definition diag_chains (w : world) (r : dreq) : res (list nat) :=
  match r with
  | DAll => Ok (dvalues (k_chains (snd w)))                                      (* 23-24 *)
  | DList l => rmapM (resolve w) l                                               (* 25-26 *)
  | DOne c => rmap (fun x => [x]) (resolve w c)                                  (* 27 *)
  end.

(** np.split(data, m): m blocks of the same number of rows; ValueError if the rows do not divide. *)
(** diagnostic.py:76, 131 *)
Definition blocks {A} (m : nat) (x : list A) : list (list A) :=
  let n := (length x / m)%nat in map (fun i => slice (i * n) (i * n + n) x) (seq 0 m).

(** diagnostic.py:80-81, 135, 139 *)
Definition mean (l : list Q) : Q := (qsum l / nq (length l))%Q.
(** np.var(c, ddof=1) *)
(** diagnostic.py:82 *)
Definition var1 (l : list Q) : Q := (qsum (map (fun x => (x - mean l) * (x - mean l)) l) / (nq (length l) - 1))%Q.

(** diagnostic.py:78-87: v / w for one parameter, [x] its column, [m] the number of walkers and [n] the
    number of steps.  [None]: the quotient is nan or inf (one step per walker, or no variance). *)
Definition gr_ratio (x : list Q) (m n : nat) : option Q :=
  let bs := blocks m x in
  let mq := nq m in let nn := nq n in
  let all_mean := mean x in                                                        (* 80 *)
  let b := (nn / (mq - 1) * qsum (map (fun c => (mean c - all_mean) * (mean c - all_mean)) bs))%Q in   (* 83 *)
  let w := (1 / mq * qsum (map var1 bs))%Q in                                      (* 84 *)
  let var := ((nn - 1) * w / nn + b / nn)%Q in                                     (* 85 *)
  let v := (var + b / (nn * mq))%Q in                                              (* 86 *)
  if (n <=? 1)%nat || Qeq_bool w 0 then None else Some (v / w)%Q.                  (* 87 *)
(** diagnostic.py:87-89: nan and inf compare false. *)
Definition gr_passed (threshold : Q) (o : option Q) : bool :=
  match o with
  | None => false
  | Some q => if Rlt_dec (Rabs (sqrt (Q2R q) - 1)) (Q2R threshold) then true else false
  end.

(** diagnostic.py:70-95 gelman_rubin on one chain.  np.split comes before the assertion. *)
Definition gelman_rubin_one (c : chain) (f : frame) (threshold : Q) : res test_result :=
  rbind (select f (data_columns c f)) (fun xs =>
  let rows := f_rows f in
  if negb (Z.of_nat rows mod ch_walkers c =? 0)%Z then Err ValueError              (* 76 *)
  else if negb (1 <? ch_walkers c)%Z then Err AssertionError                       (* 77 *)
  else
    let m := Z.to_nat (ch_walkers c) in
    let passed := forallb (fun x => gr_passed threshold (gr_ratio x m (rows / m))) xs in   (* 89, 94 *)
    Ok {| t_passed := passed; t_results := [(ch_name c, passed)] |}).              (* 95 *)

(** diagnostic.py:62-70, 115-123: one chain, or the conjunction over several. *)
Definition combine_results (rs : list test_result) : test_result :=
  {| t_passed := forallb t_passed rs;                                              (* 65, 118 *)
     t_results := fold_left (fun d r => dmerge d (t_results r)) rs [] |}.          (* 66-69, 119-122 *)
Definition over_chains (one : chain -> frame -> res test_result) (w : world) (r : dreq) : res test_result :=
  rbind (diag_chains w r) (fun ls =>
  let run l := match chain_at (fst w) l with
               | Some c => one c (frame_at (fst w) (ch_samples c))
               | None => Err TypeError
               end in
  match ls with
  | [] => Err IndexError                                                           (* 70, 123 *)
  | [l] => run l
  | _ => rmap combine_results (rmapM run ls)
  end).
(** diagnostic.py:34-95 *)
Definition gelman_rubin (w : world) (r : dreq) (threshold : Q) : res test_result :=
  over_chains (fun c f => gelman_rubin_one c f threshold) w r.

(** ** Geweke *)
(** Python slices with an integer bound of any sign. *)
(** diagnostic.py:135-141 *)
Definition py_index (i : Z) (n : nat) : nat :=
  if (i <? 0)%Z then Z.to_nat (Z.max 0 (i + Z.of_nat n)) else Nat.min (Z.to_nat i) n.
(** diagnostic.py:135-137 *)
Definition take_to {A} (i : Z) (l : list A) : list A := firstn (py_index i (length l)) l.   (* l[:i] *)
(** diagnostic.py:139-141 *)
Definition take_from {A} (i : Z) (l : list A) : list A := skipn (py_index i (length l)) l.  (* l[i:] *)

Section geweke.
(** statsmodels' yule_walker(x, order): coefficients and sigma; scipy's normaltest: the p-value, [None]
    for nan, or an exception. *)
Variable yule_walker : list Q -> nat -> list R * R.
Variable normaltest : list R -> res (option R).

(** diagnostic.py:151-155 _spec with order 2.  A zero denominator gives inf or nan: NaNResult. *)
Definition spec (x : list Q) : res R :=
  let '(beta, sigma) := yule_walker x 2 in
  let d := (1 - fold_right Rplus 0 beta)%R in
  if Req_EM_T d 0 then Err NaNResult else Ok (sigma ^ 2 / d ^ 2)%R.

(** diagnostic.py:135-143: the z-score of one parameter of one walker.  An empty window has mean nan; a
    zero denominator gives inf or nan: NaNResult. *)
Definition z_score (n_start n_end : Z) (x : list Q) : res R :=
  let s := take_to n_start x in
  let e := take_from n_end x in
  match s, e with
  | [], _ => Err NaNResult
  | _, [] => Err NaNResult
  | _, _ =>
      rbind (spec s) (fun vs =>
      rbind (spec e) (fun ve =>
      let d := sqrt (vs / INR (length s) + ve / INR (length e)) in
      if Req_EM_T d 0 then Err NaNResult
      else Ok ((Q2R (mean s) - Q2R (mean e)) / d)%R))
  end.

(** diagnostic.py:125-147 geweke on one chain: walkers in order, within a walker the columns in order. *)
Definition geweke_one (first last threshold : Q) (c : chain) (f : frame) : res test_result :=
  if negb (0 <? ch_walkers c)%Z then Err AssertionError                            (* 125-128 *)
  else
    rbind (select f (data_columns c f)) (fun xs =>
    let rows := f_rows f in
    if negb (Z.of_nat rows mod ch_walkers c =? 0)%Z then Err ValueError            (* 131 *)
    else
      let m := Z.to_nat (ch_walkers c) in
      let n := nq (rows / m) in                                                    (* 132 *)
      let n_start := Qfloor (first * n) in                                         (* 133 *)
      let n_end := Qfloor ((1 - last) * n) in                                      (* 134 *)
      rbind (rmapM (fun k => rmapM (fun x => z_score n_start n_end (nth k (blocks m x) [])) xs) (seq 0 m)) (fun zss =>
      rbind (normaltest (concat zss)) (fun p =>                                    (* 144 *)
      let passed := match p with
                    | None => false
                    | Some v => if Rlt_dec (Q2R threshold) v then true else false  (* 146 *)
                    end in
      Ok {| t_passed := passed; t_results := [(ch_name c, passed)] |})))%Q.
(** diagnostic.py:97-149 *)
Definition geweke (w : world) (r : dreq) (first last threshold : Q) : res test_result :=
  over_chains (geweke_one first last threshold) w r.
End geweke.
