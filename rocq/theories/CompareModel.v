(** comparisons.py: AIC, BIC, DIC and the comparison table.  Scores are real numbers (the data are exact
    rationals, the BIC needs a logarithm). *)
From Coq Require Import String Ascii List Bool Arith ZArith QArith Reals Qreals.
From Verif Require Import Py NumModel FrameModel ConfigModel ChainModel RegistryModel CovModel FormatModel.
Import ListNotations.
Open Scope string_scope.
Open Scope list_scope.

(** np.max of a one-dimensional array *)
(** comparisons.py:87, 132 *)
Definition np_max (p : list Q) : res Q := match p with [] => Err ValueError | x :: r => Ok (qmax_list x r) end.

(** comparisons.py:119-132: the AIC of one chain; [None] when something is missing.  num_free_params is an
    int and num_eff_data_points a finite float, so a zero divisor is a ZeroDivisionError. *)
Definition raw_aic (c : chain) (f : frame) : res (option R) :=
  match log_posterior c f, ch_ndata c, ch_nfree c with
  | Some p, Some n_data, Some n_free =>
      match n_data with
      | Fin n =>
          let k := inject_Z n_free in
          if Qeq_bool (n - k - 1) 0 then Err ZeroDivisionError
          else let c_cor := (k * (k + 1) / (n - k - 1))%Q in                       (* 131 *)
               rmap (fun m => Some (Q2R (2 * (k + c_cor - m))%Q)) (np_max p)       (* 132 *)
      | _ => Err NaNResult                                                         (* not reachable: validated *)
      end
  | _, _, _ => Ok None                                                             (* 120-129 *)
  end.

(** comparisons.py:75-87.  np.log(0) is -inf: the result is -inf or nan, reported as NaNResult. *)
Definition raw_bic (c : chain) (f : frame) : res (option R) :=
  match log_posterior c f, ch_ndata c, ch_nfree c with
  | Some p, Some n_data, Some n_free =>
      match n_data with
      | Fin n => if Qle_bool n 0 then Err NaNResult
                 else rmap (fun m => Some (IZR n_free * ln (Q2R n) - 2 * Q2R m)%R) (np_max p)   (* 87 *)
      | _ => Err NaNResult
      end
  | _, _, _ => Ok None
  end.

(** The rows of a table given by columns. *)
(** comparisons.py:46 chain.data_samples *)
Definition table_rows (xs : list (list Q)) (n : nat) : list (list Q) := map (fun i => map (fun x => nth i x 0%Q) xs) (seq 0 n).

(** comparisons.py:39-50.  [nearest pts x]: the index of the point that
    scipy.interpolate.griddata(..., method="nearest") uses.  Without data columns griddata raises
    ValueError. *)
Definition raw_dic (nearest : list (list Q) -> list Q -> nat) (c : chain) (f : frame) : res (option R) :=
  match log_posterior c f with
  | None => Ok None                                                                (* 41-42 *)
  | Some p =>
      rbind (weights c f) (fun w =>
      rbind (select f (data_columns c f)) (fun xs =>
      rbind (rmapM (fun x => average x w) xs) (fun means =>                         (* 44 *)
      let d := map (fun q => (-(2) * q)%Q) p in                                    (* 45 *)
      match xs with
      | [] => Err ValueError
      | _ =>
          let d_of_mean := nth (nearest (table_rows xs (f_rows f)) means) d 0%Q in   (* 46 *)
          rbind (average d w) (fun mean_d =>                                       (* 47 *)
          let p_d := (mean_d - d_of_mean)%Q in                                     (* 48 *)
          Ok (Some (Q2R (mean_d + p_d)%Q)))                                        (* 49-50 *)
      end)))
  end.

(** The loops over self.parent._chains.items() (39, 74, 118). *)
(** comparisons.py:39-50, 74-87, 118-132 *)
Fixpoint score_loop (raw : chain -> frame -> res (option R)) (h : heap) (d : dict nat) : res (dict R) :=
  match d with
  | [] => Ok []
  | (n, l) :: r =>
      match chain_at h l with
      | None => Err KeyError                                                       (* not reachable *)
      | Some c =>
          rbind (raw c (frame_at h (ch_samples c))) (fun s =>
          rbind (score_loop raw h r) (fun rest =>
          Ok match s with None => rest | Some v => (n, v) :: rest end))
      end
  end.
(** 51-54, 88-91, 133-136 *)
(** comparisons.py:52, 89, 134 *)
Fixpoint rmin_list (d : R) (l : list R) : R := match l with [] => d | x :: r => Rmin x (rmin_list d r) end.
(** comparisons.py:51-54, 88-91, 133-136 *)
Definition relative (d : dict R) : dict R :=
  match d with
  | [] => []
  | (_, v) :: r => let m := rmin_list v (map snd r) in map (fun kv => (fst kv, (snd kv - m)%R)) d
  end.
(** comparisons.py:38-55, 73-93, 117-137 *)
Definition scores (raw : chain -> frame -> res (option R)) (w : world) : res (dict R) :=
  rmap relative (score_loop raw (fst w) (k_chains (snd w))).
(** comparisons.py:95-137, 57-93, 15-55 *)
Definition aic (w : world) : res (dict R) := scores raw_aic w.
(** comparisons.py:57-93 *)
Definition bic (w : world) : res (dict R) := scores raw_bic w.
(** comparisons.py:15-55 *)
Definition dic (nearest : list (list Q) -> list Q -> nat) (w : world) : res (dict R) := scores (raw_dic nearest) w.

(** ** comparison_table *)
(** f"{x:5.1f}", [None] is nan *)
(** comparisons.py:207, 209, 211 *)
Definition score_text (o : option R) : string := rjust 5 (match o with Some x => fixed_R 1 x | None => "nan" end).

(** DataFrame.sort_values on one column (pandas nargsort): [argsort] is numpy's argsort, whose order of
    equal elements is unspecified; descending reverses before and after; missing values come last. *)
(** comparisons.py:202 *)
Definition nargsort (argsort : list R -> list nat) (descending : bool) (vals : list (option R)) : list nat :=
  let idx := combine vals (seq 0 (length vals)) in
  let present := flat_map (fun p => match fst p with Some x => [(x, snd p)] | None => [] end) idx in
  let missing := flat_map (fun p => match fst p with Some _ => [] | None => [snd p] end) idx in
  let items := if descending then rev present else present in
  let sorted := map (fun i => nth i (map snd items) 0%nat) (argsort (map fst items)) in
  (if descending then rev sorted else sorted) ++ missing.

(** The row labels of DataFrame({"aic": {...}, ...}): all keys in the order first met. *)
(** comparisons.py:202 *)
Definition union_keys (ds : list (dict R)) : list string := fold_left (fun ks d => fold_left add_new (dkeys d) ks) ds [].

(** comparisons.py:204-213: one line of the table *)
Definition table_line (cells : list string) (name : string) : string :=
  (tab ++ name ++ String.concat "" (map (fun c => "  &  " ++ c ++ "  ") cells) ++ " \\ " ++ nl)%string.

(** comparisons.py:194-200: the entry of [series] for one criterion *)
Definition col (used : bool) (key : string) (s : res (dict R)) : res (dict (dict R)) :=
  if used then rmap (fun d => [(key, d)]) s else Ok [].

(** comparisons.py:182, 1 if aic else 0 *)
Definition b2n (b : bool) : nat := if b then 1 else 0.

(** comparisons.py:139-217 comparison_table.  An unknown sort key is an AssertionError. *)
Definition comparison_table (repr ascii_repr : string -> string) (nearest : list (list Q) -> list Q -> nat) (argsort : list R -> list nat)
  (w : world) (caption label : option string) (hlines use_aic use_bic use_dic : bool) (sort : string) (descending : bool) : res string :=
  if String.eqb sort "bic" && negb use_bic then Err AssertionError                 (* 167-168 *)
  else if String.eqb sort "aic" && negb use_aic then Err AssertionError            (* 169-170 *)
  else if String.eqb sort "dic" && negb use_dic then Err AssertionError            (* 171-172 *)
  else if negb (smem sort ["bic"; "aic"; "dic"]) then Err AssertionError           (* 173 *)
  else
    let caption := dflt "" caption in let label := dflt "" label in                (* 175-178 *)
    let num_cols := (1 + b2n use_aic + b2n use_bic)%nat in                         (* 182 *)
    let column_text := String.concat "" (repeat "c" (num_cols + 1)) in             (* 183 *)
    let hline := ("\hline" ++ nl)%string in                                        (* 185 *)
    let head := ((if hlines then hline else "") ++                                 (* 186-187 *)
                 tab ++ "Model" ++ (if use_aic then " & AIC" else "") ++ (if use_bic then " & BIC " else "") ++
                 (if use_dic then " & DIC " else "") ++ " \\ " ++ nl ++            (* 188-190 *)
                 (if hlines then tab ++ hline else ""))%string in                  (* 191-192 *)
    rbind (col use_aic "aic" (aic w)) (fun sa =>                                   (* 194-200 *)
    rbind (col use_bic "bic" (bic w)) (fun sb =>
    rbind (col use_dic "dic" (dic nearest w)) (fun sd =>
    let series := sa ++ sb ++ sd in
    let index := union_keys (dvalues series) in                                    (* 202 *)
    match dget sort series with
    | None => Err KeyError                                                         (* not reachable *)
    | Some by_ =>
        let order := map (fun i => nth i index "") (nargsort argsort descending (map (fun n => dget n by_) index)) in
        let lines := map (fun n => table_line (map (fun s => score_text (dget n s)) (dvalues series)) n) order in   (* 203-213 *)
        table repr ascii_repr caption label column_text
          (head ++ String.concat "" lines ++ (if hlines then tab ++ hline else ""))%string   (* 214-217 *)
    end))).
