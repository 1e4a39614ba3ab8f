(** analysis.py: summaries per chain and column, and the tables.  The labels and the blind setting of the
    plot configuration are arguments; writing a file is not modelled. *)
From Coq Require Import String Ascii List Bool Arith ZArith QArith Reals.
From Verif Require Import Py NumModel MarginalModel FrameModel ConfigModel ChainModel RegistryModel CovModel FormatModel TextModel.
Import ListNotations.
Open Scope string_scope.
Open Scope list_scope.

(** Sizes and numeric primitives: [n_bins] = 2000 (helpers.py:19), [n_points] = 10000 (analysis.py:342),
    [n_kde] = 200 (350), [n_pad] = 1000 (649), [n_tries] = 50 (669); [n_power p h] = h ** p, [n_kernel s]
    the filter taps, [n_megkde data weights factor x] the density estimate of kde.py at x. *)
Record numerics := {
  n_bins : nat; n_points : nat; n_kde : nat; n_pad : nat; n_tries : nat;
  n_power : Q -> Q -> Q; n_kernel : Z -> list Q; n_megkde : list Q -> list Q -> Q -> Q -> Q }.

(** bool(chain.kde) and the bandwidth factor, analysis.py:347, 351 (True counts as 1). *)
Definition kde_on (k : kde_opt) : bool := match k with KBool b => b | KNum q => negb (Qeq_bool q 0) end.
(** analysis.py:351 *)
Definition kde_factor (k : kde_opt) : Q := match k with KBool _ => 1 | KNum q => q end.

(** What analysis.py:324-360 reads from a chain. *)
Definition marginal_config (num : numerics) (c : chain) (f : frame) (data w : list Q) : mcfg := {|
  m_grid := ch_grid c; m_smooth := ch_cfg c Fsmooth; m_bins := ch_cfg c Fbins;
  m_rows := f_rows f; m_cols := length (f_cols f);
  m_power := n_power num (ch_power c); m_kernel := n_kernel num;
  m_kde := kde_on (ch_cfg c Fkde); m_kde_eval := n_megkde num data w (kde_factor (ch_cfg c Fkde)) |}.
(** chain.py:299-301 get_data *)
Definition get_data (f : frame) (column : string) : res (list Q) :=
  match f_get f column with Some l => Ok (qs l) | None => Err KeyError end.
(** analysis.py:324-360 _get_smoothed_histogram of a chain's column *)
Definition chain_marginal (num : numerics) (c : chain) (f : frame) (column : string) (pad : bool) : res marginal :=
  rbind (get_data f column) (fun data => rbind (weights c f) (fun w =>
  smoothed_histogram (n_bins num) (n_points num) (n_kde num) (marginal_config num c f data w) (combine data w) pad)).

(** analysis.py:262-264 get_parameter_summary.  A chain without statistics is a KeyError. *)
Definition get_parameter_summary (num : numerics) (c : chain) (f : frame) (column : string) : res bound :=
  match ch_cfg c Fstatistics with
  | None => Err KeyError
  | Some s =>
      rbind (get_data f column) (fun data => rbind (weights c f) (fun w =>
      parameter_summary (n_bins num) (n_points num) (n_kde num) (n_pad num) (n_tries num)
        (marginal_config num c f data w) s (ch_cfg c Fsummary_area) (combine data w)))
  end.
(** analysis.py:578-610 get_parameter_hdi_intervals *)
Definition get_parameter_hdi_intervals (num : numerics) (c : chain) (f : frame) (column : string) : res (list (Q * Q)) :=
  rbind (chain_marginal num c f column true) (hdi_intervals (ch_cfg c Fsummary_area)).
(** analysis.py:612-645 get_parameter_multimodal_bounds *)
Definition get_parameter_multimodal_bounds (num : numerics) (c : chain) (f : frame) (column : string) (ivs : list (Q * Q)) : res (list bound) :=
  rmap (fun m => multimodal_bounds m ivs) (chain_marginal num c f column true).

(** An entry of the summary: a Bound or a list of them. *)
Definition column_summary (num : numerics) (c : chain) (f : frame) (p : string) : res bounds_in :=
  rbind (get_parameter_summary num c f p) (fun summary =>                          (* 214 *)
  if ch_cfg c Fmultimodal then                                                     (* 217 *)
    rbind (get_parameter_hdi_intervals num c f p) (fun intervals =>                (* 218 *)
    if (2 <=? length intervals)%nat                                                (* 220 *)
    then rmap BMany (get_parameter_multimodal_bounds num c f p intervals)          (* 221-228 *)
    else Ok (BOne summary))
  else Ok (BOne summary)).                                                         (* 230 *)
(** analysis.py:209-230: the loop over the columns of one chain *)
Fixpoint chain_summary (num : numerics) (c : chain) (f : frame) (cols : list string) (acc : dict bounds_in) : res (dict bounds_in) :=
  match cols with
  | [] => Ok acc
  | p :: r =>
      if negb (f_has f p) then chain_summary num c f r acc                         (* 212-213 *)
      else rbind (column_summary num c f p) (fun e => chain_summary num c f r (dset p e acc))
  end.
(** analysis.py:208-232: the loop over the chains.  Where a name stands instead of a chain, reading its
    samples or its name is an AttributeError. *)
Fixpoint summary_loop (num : numerics) (h : heap) (chains : list chain_ref) (cols : list string) (acc : dict (dict bounds_in)) : res (dict (dict bounds_in)) :=
  match chains with
  | [] => Ok acc
  | ByName _ :: _ => Err AttributeError
  | ByChain l :: r =>
      match chain_at h l with
      | None => Err TypeError                                                      (* not reachable *)
      | Some c =>
          rbind (chain_summary num c (frame_at h (ch_samples c)) cols []) (fun res =>
          summary_loop num h r cols (dset (ch_name c) res acc))                    (* 232 *)
      end
  end.
(** [_sanitise_columns(None, chains)] on arguments that may be names. *)
(** plotter.py:690-698 reads plotting_columns of what it is given; called at analysis.py:131, 205-206 *)
Definition ref_object (h : heap) (r : chain_ref) : res (chain * frame) :=
  match r with
  | ByName _ => Err AttributeError
  | ByChain l => match chain_at h l with Some c => Ok (c, frame_at h (ch_samples c)) | None => Err TypeError end
  end.
(** analysis.py:188-234 get_summary.  Iterating over a dict gives its keys. *)
Definition get_summary (num : numerics) (w : world) (chains : chain_request) (columns : option (list string)) : world * res (dict (dict bounds_in)) :=
  let '(w1, chosen) := match chains with
                       | ReqAll => let '(w1, r) := sanitise_chains w ReqAll true in (w1, rmap (map ByChain) r)   (* 203-204 *)
                       | ReqList l => (w, Ok l)
                       | ReqDict d => (w, Ok (map ByName (dkeys d)))
                       end in
  (w1, rbind chosen (fun refs =>
       rbind (match columns with
              | Some l => Ok l
              | None => rmap (sanitise_columns None) (rmapM (ref_object (fst w1)) refs)   (* 205-206 *)
              end) (fun cols => summary_loop num (fst w1) refs cols []))).

(** ** Tables *)
(** plotting/config.py:74-76 get_label *)
Definition get_label (labels : dict string) (column : string) : string := dflt column (dget column labels).
(** plotter.py:707-712 _sanitise_blinds *)
Inductive blind_opt := BlindNone | BlindBool (b : bool) | BlindList (l : list string).
(** plotter.py:707-712 *)
Definition sanitise_blinds (b : blind_opt) (columns : list string) : list string :=
  match b with BlindNone | BlindBool false => [] | BlindBool true => columns | BlindList l => l end.

(** The text of one cell, analysis.py:158-162, 171-174 *)
Definition cell_text (blank_fill : string) (d : dict bounds_in) (p : string) : res string :=
  match dget p d with Some e => get_parameter_text e true None | None => Ok blank_fill end.
(** analysis.py:148-165, 175: the end of a row, the indentation and the rule *)
Definition end_text : string := (" \\ " ++ nl)%string.
(** analysis.py:147 *)
Definition hline_text : string := ("\hline" ++ nl)%string.
(** analysis.py:151-175, one row of the table *)
Definition row_text (cells : list string) : string := (join " & " cells ++ end_text)%string.
(** analysis.py:148-177, a line present only if hlines is set *)
Definition opt_line (b : bool) (s : string) : string := if b then s else "".
(** analysis.py:88-186 get_latex_table *)
Definition get_latex_table (num : numerics) (repr ascii_repr : string -> string) (w : world) (labels : dict string) (blind : blind_opt)
  (columns : option (list string)) (chains : chain_request) (transpose : bool) (caption label : option string) (hlines : bool) (blank_fill : string) : world * res string :=
  let '(w1, r) := sanitise_chains w chains false in                                (* 130 *)
  (w1, rbind r (fun locs =>
       rbind (rmapM (ref_object (fst w1)) (map ByChain locs)) (fun final_chains =>
       let all_columns := sanitise_columns columns final_chains in                 (* 131 *)
       let blinded := sanitise_blinds blind all_columns in                         (* 132 *)
       let final_columns := filter (fun c => negb (smem c blinded)) all_columns in (* 134 *)
       rbind (snd (get_summary num w1 (ReqList (map ByChain locs)) None)) (fun fit_values =>   (* 137 *)
       let column_text := String.concat "" (repeat "c" (if transpose then length final_chains + 1 else length final_columns + 1)) in   (* 144 *)
       let header := if transpose then "Parameter" :: map (fun cf => ch_name (fst cf)) final_chains   (* 151 *)
                     else "Model" :: map (get_label labels) final_columns in       (* 164-166 *)
       rbind (if transpose
              then rmapM (fun p => rmap (fun cells => (tab ++ tab ++ get_label labels p)%string :: cells)
                                        (rmapM (fun kv => cell_text blank_fill (snd kv) p) fit_values)) final_columns   (* 154-161 *)
              else rmapM (fun kv => rmap (fun cells => (tab ++ tab ++ fst kv)%string :: cells)
                                         (rmapM (cell_text blank_fill (snd kv)) final_columns)) fit_values) (fun rows =>   (* 169-176 *)
       let center := (opt_line hlines (hline_text ++ tab ++ tab) ++ row_text header ++ opt_line hlines (tab ++ tab ++ hline_text) ++
                      String.concat "" (map row_text rows) ++ opt_line hlines (tab ++ tab ++ hline_text))%string in   (* 146-178 *)
       table repr ascii_repr (dflt "" caption) (dflt "" label) column_text center)))))%nat.   (* 138-141, 179 *)

(** analysis.py:362-380 _get_2d_latex_table; [show] renders an entry with {r:5.2f}.  Iterating over a
    0-dimensional array is a TypeError. *)
Definition hline8 : string := ("        \hline" ++ nl)%string.
(** analysis.py:362-380 _get_2d_latex_table *)
Definition table_2d {A} (show : A -> string) (repr ascii_repr : string -> string) (labels : dict string) (nm : named_matrix A) (caption label : string) : res string :=
  let parameters := map (get_label labels) (nm_columns nm) in                      (* 363 *)
  let column_def := ("c|" ++ String.concat "" (repeat "c" (length parameters)))%string in   (* 366 *)
  match parameters with
  | [] => Err ValueError                                                           (* 372: max([]) *)
  | _ =>
      let max_len := fold_right Nat.max 0%nat (map String.length parameters) in    (* 372 *)
      match nm_matrix nm with
      | Scalar _ => Err TypeError                                                  (* 374 *)
      | Mat m =>
          let rows := map (fun pr => ("        " ++ rjust max_len (fst pr) ++ String.concat "" (map (fun r => " & " ++ show r) (snd pr)) ++ " \\ " ++ nl)%string)
                          (combine parameters m) in                                (* 373-378 *)
          table repr ascii_repr caption label column_def
            (join " & " ("" :: parameters) ++ "\\ " ++ nl ++ hline8 ++ String.concat "" rows ++ hline8)%string   (* 369-371, 379-380 *)
      end
  end.
(** analysis.py:377 *)
Definition show_Q (q : Q) : string := rjust 5 (fixed 2 q).
(** analysis.py:377, on an entry that may be nan *)
Definition show_R (o : option R) : string := rjust 5 (match o with Some x => fixed_R 2 x | None => "nan" end).

(** The chain of get_correlation_table and get_covariance_table: analysis.py:285-290, 314-319 *)
Definition table_chain (w : world) (which : option chain_ref) : res (chain * frame) :=
  let at_loc l := match chain_at (fst w) l with Some c => Ok (c, frame_at (fst w) (ch_samples c)) | None => Err TypeError end in
  match which with
  | Some (ByName n) => match dget n (k_chains (snd w)) with Some l => at_loc l | None => Err AssertionError end
  | Some (ByChain l) => at_loc l
  | None => match k_chains (snd w) with [(_, l)] => at_loc l | _ => Err AssertionError end
  end.
(** analysis.py:266-293 get_correlation_table, 295-322 get_covariance_table *)
Definition get_correlation_table (repr ascii_repr : string -> string) (w : world) (labels : dict string) (which : option chain_ref) (columns : option (list string)) (caption label : string) : res string :=
  rbind (table_chain w which) (fun cf => rbind (get_correlation (fst cf) (snd cf) columns) (fun nm => table_2d show_R repr ascii_repr labels nm caption label)).
(** analysis.py:295-322 *)
Definition get_covariance_table (repr ascii_repr : string -> string) (w : world) (labels : dict string) (which : option chain_ref) (columns : option (list string)) (caption label : string) : res string :=
  rbind (table_chain w which) (fun cf => rbind (get_covariance (fst cf) (snd cf) columns) (fun nm => table_2d show_Q repr ascii_repr labels nm caption label)).
