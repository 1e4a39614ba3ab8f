(** The warnings about unconstrained parameters, in the order in which they are logged (analysis.py:682-684), and the
    functions that lead to them. *)
From Coq Require Import String Ascii List Bool Arith ZArith QArith Reals.
From Verif Require Import Py NumModel MarginalModel FrameModel ConfigModel ChainModel RegistryModel FormatModel TextModel AnalysisModel WarnModel.
Import ListNotations.
Open Scope string_scope.
Open Scope list_scope.

(** An exception keeps what was logged before it. *)
(** no code of its own: a computation that logs nothing *)
Definition silent {A} (r : res A) : logged A := ([], r).
(** no code of its own: one statement after the other *)
Definition lbind {A B} (m : logged A) (g : A -> logged B) : logged B :=
  match snd m with Ok x => (fst m ++ fst (g x), snd (g x)) | Err e => (fst m, Err e) end.

(** analysis.py:683 *)
Definition unconstrained_warning (column name : string) : string := ("Parameter " ++ column ++ " in chain " ++ name ++ " is not constrained")%string.
(** analysis.py:647-686 get_parameter_summary_max, with its warning *)
Definition noted_max (column name : string) (npad tries : nat) (area : Q) (m : marginal) : logged bound :=
  let xs := pad_xs npad (mg_xs m) in                                               (* 650-654 *)
  let ys := pad_ys npad (mg_ys m) in                                               (* 652-655 *)
  let cs0 := cumsum ys in                                                          (* 656 *)
  let mx := qmax_list (hd 0%Q cs0) (tl cs0) in
  if Qeq_bool mx 0 then ([], Err NaNResult) else
  let cs := map (fun v => (v / mx)%Q) cs0 in                                       (* 657 *)
  let start := argmax ys in                                                        (* 658 *)
  let center := nth start xs 0%Q in
  match max_loop tries area ys cs start 0 (nth start ys 0%Q) with                  (* 659-681 *)
  | MaxFound i1 i2 => ([], Ok (mkB (nth i1 xs 0%Q) center (nth i2 xs 0%Q)))        (* 686 *)
  | MaxUnconverged => ([unconstrained_warning column name], Ok {| b_lower := None; b_center := Some center; b_upper := None |})   (* 682-684 *)
  | MaxIndexError => ([], Err IndexError)
  end.
(** analysis.py:262-264 get_parameter_summary; the other statistics log nothing. *)
Definition noted_parameter_summary (num : numerics) (c : chain) (f : frame) (column : string) : logged bound :=
  match ch_cfg c Fstatistics with
  | Some SMax => lbind (silent (chain_marginal num c f column false)) (noted_max column (ch_name c) (n_pad num) (n_tries num) (ch_cfg c Fsummary_area))
  | _ => silent (get_parameter_summary num c f column)
  end.
(** analysis.py:214-230 *)
Definition noted_column (num : numerics) (c : chain) (f : frame) (p : string) : logged bounds_in :=
  lbind (noted_parameter_summary num c f p) (fun summary =>                        (* 214 *)
  silent (if ch_cfg c Fmultimodal then                                             (* 217 *)
    rbind (get_parameter_hdi_intervals num c f p) (fun intervals =>                (* 218 *)
    if (2 <=? length intervals)%nat                                                (* 220 *)
    then rmap BMany (get_parameter_multimodal_bounds num c f p intervals)          (* 221-228 *)
    else Ok (BOne summary))
  else Ok (BOne summary))).                                                        (* 230 *)
(** analysis.py:209-230: the loop over the columns of one chain *)
Fixpoint noted_chain (num : numerics) (c : chain) (f : frame) (cols : list string) (acc : dict bounds_in) : logged (dict bounds_in) :=
  match cols with
  | [] => silent (Ok acc)
  | p :: r =>
      if negb (f_has f p) then noted_chain num c f r acc                           (* 212-213 *)
      else lbind (noted_column num c f p) (fun e => noted_chain num c f r (dset p e acc))
  end.
(** analysis.py:208-232: the loop over the chains *)
Fixpoint noted_loop (num : numerics) (h : heap) (chains : list chain_ref) (cols : list string) (acc : dict (dict bounds_in)) : logged (dict (dict bounds_in)) :=
  match chains with
  | [] => silent (Ok acc)
  | ByName _ :: _ => silent (Err AttributeError)
  | ByChain l :: r =>
      match chain_at h l with
      | None => silent (Err TypeError)                                             (* not reachable *)
      | Some c =>
          lbind (noted_chain num c (frame_at h (ch_samples c)) cols []) (fun res =>
          noted_loop num h r cols (dset (ch_name c) res acc))                      (* 232 *)
      end
  end.
(** analysis.py:188-234 get_summary *)
Definition noted_summary (num : numerics) (w : world) (chains : chain_request) (columns : option (list string)) : world * logged (dict (dict bounds_in)) :=
  let '(w1, chosen) := match chains with
                       | ReqAll => let '(w1, r) := sanitise_chains w ReqAll true in (w1, rmap (map ByChain) r)   (* 203-204 *)
                       | ReqList l => (w, Ok l)
                       | ReqDict d => (w, Ok (map ByName (dkeys d)))
                       end in
  (w1, lbind (silent chosen) (fun refs =>
       lbind (silent (match columns with
              | Some l => Ok l
              | None => rmap (sanitise_columns None) (rmapM (ref_object (fst w1)) refs)   (* 205-206 *)
              end)) (fun cols => noted_loop num (fst w1) refs cols []))).
(** analysis.py:88-186 get_latex_table: what it logs is logged by its get_summary (137), which comes after the chains are
    chosen (130) and is not told about [columns] and [blind]. *)
Definition latex_log (num : numerics) (w : world) (chains : chain_request) : list string :=
  let '(w1, r) := sanitise_chains w chains false in
  match r with
  | Ok locs => match rmapM (ref_object (fst w1)) (map ByChain locs) with Ok _ => fst (snd (noted_summary num w1 (ReqList (map ByChain locs)) None)) | Err _ => [] end
  | Err _ => []
  end.
