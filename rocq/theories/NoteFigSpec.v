(** Independent vocabulary for the warnings a figure logs. *)
From Coq Require Import String List Bool ZArith QArith.
From Verif Require Import Py MarginalModel FrameModel ConfigModel ChainModel RegistryModel ChainSpec TextModel AnalysisModel AnalysisSpec ReportSpec FigureModel FigureSpec NoteSpec.
Import ListNotations.
Open Scope string_scope.
Open Scope list_scope.

(** [t] is the warning about [p] if get_parameter_summary gives a centre only, otherwise nothing. *)
Definition summary_warned (num : numerics) (p : string) (cf : chain * frame) (t : list string) : Prop :=
  exists b, get_parameter_summary num (fst cf) (snd cf) p = Ok b /\ due (centre_only b) (not_constrained p (ch_name (fst cf))) t.
(** A distribution whose interval is to be shaded; one that is not shaded is never announced. *)
Definition shade_warned (num : numerics) (p : string) (cf : chain * frame) (t : list string) : Prop :=
  (ch_cfg (fst cf) Fbar_shade = true -> summary_warned num p cf t) /\ (ch_cfg (fst cf) Fbar_shade = false -> t = []).
(** The warnings of the panel of [p]: of each chain that is drawn there, in order. *)
Definition panel_warned (num : numerics) (draws : string -> chain * frame -> Prop) (chains : list (chain * frame)) (p : string) (part : list string) : Prop :=
  exists drawn ts, those (draws p) chains drawn /\ part = concat ts /\ Forall2 (shade_warned num p) drawn ts.
(** The chains of a panel of plot_distributions *)
Definition draws_plotted (p : string) (cf : chain * frame) : Prop := ch_cfg (fst cf) Fplot_contour = true /\ In p (plotting_columns (fst cf) (snd cf)).
(** The warnings of a row of plot_summary: of each of the columns that are data of the chain, in order. *)
Definition row_warned (num : numerics) (errorbar : bool) (cols : list string) (cf : chain * frame) (part : list string) : Prop :=
  exists mine ts, kept (fun p => In p (data_columns (fst cf) (snd cf))) cols mine /\ part = concat ts /\
    Forall2 (fun p t => if errorbar then summary_warned num p cf t else shade_warned num p cf t) mine ts.
