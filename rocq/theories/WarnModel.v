(** The warnings of comparisons.py and get_max_posteriors, in the order in which they are logged.  Log levels,
    handlers and the times of messages are not modelled. *)
From Coq Require Import String Ascii List Bool Arith ZArith QArith Reals.
From Verif Require Import Py NumModel FrameModel ConfigModel ChainModel RegistryModel FormatModel CompareModel.
Import ListNotations.
Open Scope string_scope.
Open Scope list_scope.

(** What a call logs, and its result. *)
(** the calls of logger.warning and logging.warning with their texts *)
Definition logged (A : Type) : Type := (list string * res A)%type.

(** comparisons.py:77-83, 121-127: the string [missing] *)
Definition missing (c : chain) (f : frame) : string :=
  ((match log_posterior c f with None => "posterior, " | Some _ => "" end) ++
   (match ch_ndata c with None => "num_eff_data_points, " | Some _ => "" end) ++
   (match ch_nfree c with None => "num_free_params, " | Some _ => "" end))%string.
(** [s[:-2]] *)
(** comparisons.py:85, 129 *)
Definition but_last_two (s : string) : string := substring 0 (String.length s - 2) s.
(** comparisons.py:42.  The DIC names the chain, not its key. *)
Definition dic_warning (n : string) (c : chain) (f : frame) : string := ("You need to set the posterior for chain " ++ ch_name c ++ " to get the DIC")%string.
(** comparisons.py:85 *)
Definition bic_warning (n : string) (c : chain) (f : frame) : string := ("You need to set " ++ but_last_two (missing c f) ++ " for chain " ++ n ++ " to get the BIC")%string.
(** comparisons.py:129 *)
Definition aic_warning (n : string) (c : chain) (f : frame) : string := ("You need to set " ++ but_last_two (missing c f) ++ " for chain " ++ ch_name c ++ " to get the AIC")%string.

(** comparisons.py:39-50, 73-87, 117-132: the loops, with what they log.  An exception keeps what was logged before. *)
Fixpoint logged_loop (raw : chain -> frame -> res (option R)) (warning : string -> chain -> frame -> string) (h : heap) (d : dict nat) : logged (dict R) :=
  match d with
  | [] => ([], Ok [])
  | (n, l) :: r =>
      match chain_at h l with
      | None => ([], Err KeyError)                                                 (* not reachable *)
      | Some c =>
          let f := frame_at h (ch_samples c) in
          match raw c f with
          | Err e => ([], Err e)
          | Ok None => let '(ws, rest) := logged_loop raw warning h r in (warning n c f :: ws, rest)
          | Ok (Some v) => let '(ws, rest) := logged_loop raw warning h r in (ws, rmap (fun rest => (n, v) :: rest) rest)
          end
      end
  end.
(** comparisons.py:38-55, 73-93, 117-137 *)
Definition logged_scores (raw : chain -> frame -> res (option R)) (warning : string -> chain -> frame -> string) (w : world) : logged (dict R) :=
  let '(ws, r) := logged_loop raw warning (fst w) (k_chains (snd w)) in (ws, rmap relative r).
(** comparisons.py:95-137 *)
Definition logged_aic (w : world) : logged (dict R) := logged_scores raw_aic aic_warning w.
(** comparisons.py:57-93 *)
Definition logged_bic (w : world) : logged (dict R) := logged_scores raw_bic bic_warning w.
(** comparisons.py:15-55 *)
Definition logged_dic (nearest : list (list Q) -> list Q -> nat) (w : world) : logged (dict R) := logged_scores (raw_dic nearest) dic_warning w.

(** comparisons.py:194-200: what the comparison table logs: the criteria in use, in turn, up to the first exception;
    nothing when the assertions on [sort] (167-173) fail. *)
Fixpoint log_until (l : list (bool * logged (dict R))) : list string :=
  match l with
  | [] => []
  | (false, _) :: r => log_until r
  | (true, (ws, Err _)) :: _ => ws
  | (true, (ws, Ok _)) :: r => ws ++ log_until r
  end.
(** comparisons.py:166-200 *)
Definition table_log (nearest : list (list Q) -> list Q -> nat) (w : world) (use_aic use_bic use_dic : bool) (sort : string) : list string :=
  if String.eqb sort "bic" && negb use_bic then []
  else if String.eqb sort "aic" && negb use_aic then []
  else if String.eqb sort "dic" && negb use_dic then []
  else if negb (smem sort ["bic"; "aic"; "dic"]) then []
  else log_until [(use_aic, logged_aic w); (use_bic, logged_bic w); (use_dic, logged_dic nearest w)].

(** chain.py:196-198 and analysis.py:254-258: every chain without a posterior column logs the same text. *)
Definition posterior_warning : string := "No posterior column found, cannot find max posterior".
(** analysis.py:254-260 *)
Fixpoint posteriors_loop (h : heap) (d : dict nat) : logged (dict max_posterior) :=
  match d with
  | [] => ([], Ok [])
  | (n, l) :: r =>
      match chain_at h l with
      | None => ([], Err KeyError)
      | Some c =>
          match get_max_posterior_point c (frame_at h (ch_samples c)) with
          | Err e => ([], Err e)
          | Ok None => let '(ws, rest) := posteriors_loop h r in (posterior_warning :: ws, rest)
          | Ok (Some p) => let '(ws, rest) := posteriors_loop h r in (ws, rmap (fun rest => (n, p) :: rest) rest)
          end
      end
  end.
(** analysis.py:236-260 *)
Definition logged_max_posteriors (w : world) (req : option (list string)) : logged (dict max_posterior) :=
  match max_posterior_request w req with Ok d => posteriors_loop (fst w) d | Err e => ([], Err e) end.
