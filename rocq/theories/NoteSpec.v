(** Independent vocabulary for warnings about unconstrained parameters. *)
From Coq Require Import String Ascii List Bool Arith ZArith QArith Reals.
From Verif Require Import Py MarginalModel FrameModel ConfigModel ChainModel RegistryModel RegistrySpec ChainSpec CovSpec FormatSpec CompareSpec TextModel AnalysisModel AnalysisSpec ReportSpec.
Import ListNotations.
Open Scope string_scope.
Open Scope list_scope.

Definition not_constrained (p n : string) : string := ("Parameter " ++ p ++ " in chain " ++ n ++ " is not constrained")%string.
(** [t] is the warning if it is due, otherwise nothing. *)
Definition due (reason : Prop) (text : string) (t : list string) : Prop := (reason -> t = [text]) /\ (~ reason -> t = []).
(** [ws] is, for each of the columns [cols] that the chain has, in order, one warning if get_parameter_summary gives a
    centre only. *)
Definition warned_of (num : numerics) (cols : list string) (cf : chain * frame) (ws : list string) : Prop :=
  exists mine parts, kept (is_column (snd cf)) cols mine /\ ws = concat parts /\
    Forall2 (fun p t => exists b, get_parameter_summary num (fst cf) (snd cf) p = Ok b /\ due (centre_only b) (not_constrained p (ch_name (fst cf))) t) mine parts.
(** The entry is a centre without an interval. *)
Definition no_interval (e : bounds_in) : Prop := exists b, e = BOne b /\ centre_only b.
(** [ws] is one warning for each entry of the summary without an interval, in order, naming the parameter and the chain. *)
Definition announced (d : dict (dict bounds_in)) (ws : list string) : Prop :=
  exists parts, ws = concat parts /\
    Forall2 (fun nes part => exists ts, part = concat ts /\ Forall2 (fun pe t => due (no_interval (snd pe)) (not_constrained (fst pe) (fst nes)) t) (snd nes) ts) d parts.

(** The configuration does not touch the statistic or the splitting into modes. *)
Definition leaves_statistics (o : config_obj) : Prop := o_user o Fmultimodal = false /\ o_user o Fstatistics = false.
(** A session, starting with DataFrames, whose overrides leave the statistics alone. *)
Definition unforced (rgb2hex : list Q -> string) (w : world) : Prop :=
  exists h0 ops, h_chains h0 = [] /\ (forall o, In (OpOverride o) ops -> leaves_statistics o) /\ w = fst (run rgb2hex (h0, new_consumer) ops).
