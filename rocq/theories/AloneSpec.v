(** Independent vocabulary: the same chain in the company of different chains. *)
From Coq Require Import String List Bool Arith ZArith QArith Reals.
From Verif Require Import Py NumModel FrameModel ConfigModel ChainModel RegistryModel RegistrySpec ChainSpec AnalysisModel SurfaceModel FigureModel DiagModel ConsumerSpec QuerySpec.
Import ListNotations.
Open Scope string_scope.
Open Scope list_scope.

(** The consumer holds the chain object [c] under the name [n]; [f] is its DataFrame. *)
Definition stored (w : world) (n : string) (c : chain) (f : frame) : Prop :=
  exists l, In (n, l) (k_chains (snd w)) /\ chain_at (fst w) l = Some c /\ frame_at (fst w) (ch_samples c) = f.
(** Two chain objects with the same attributes (their DataFrames may be different objects). *)
Record twins (c c' : chain) : Prop := {
  tw_settings : forall f, ch_cfg c' f = ch_cfg c f;
  tw_given : forall f, ch_user c' f = ch_user c f;
  tw_name : ch_name c' = ch_name c; tw_weight : ch_weight c' = ch_weight c; tw_post : ch_post c' = ch_post c;
  tw_walkers : ch_walkers c' = ch_walkers c; tw_grid : ch_grid c' = ch_grid c; tw_nfree : ch_nfree c' = ch_nfree c; tw_ndata : ch_ndata c' = ch_ndata c;
  tw_power : ch_power c' = ch_power c; tw_showlabel : ch_showlabel c' = ch_showlabel c; tw_relheight : ch_relheight c' = ch_relheight c }.
(** Both sessions hold the chain [n], with the same attributes and the same samples, under the same override. *)
Definition shared_chain (w w' : world) (n : string) (c : chain) (f : frame) : Prop :=
  stored w n c f /\ (exists c', stored w' n c' f /\ twins c c') /\ k_override (snd w') = k_override (snd w).

(** The parameters [columns] asks for, as far as the chain has them; by default the chain's own parameters: neither the
    weights, the posterior nor the values of a colour. *)
Definition wanted (columns : option (list string)) (ov : option config_obj) (c : chain) (f : frame) (p : string) : Prop :=
  is_column f p /\
  match columns with
  | Some l => In p l
  | None => p <> ch_weight c /\ p <> ch_post c /\ ~ reserved_name p /\ ch_cfg c Fcolor_param <> Some p /\ forall o, ov = Some o -> o_cfg o Fcolor_param <> Some p
  end.

(** Questions about one chain, by name. *)
Inductive asks_about (n : string) : question -> Prop :=
| about_correlation columns caption label : asks_about n (QCorrelation (Some (ByName n)) columns caption label)
| about_covariance columns caption label : asks_about n (QCovariance (Some (ByName n)) columns caption label)
| about_best : asks_about n (QMaxPosteriors (Some [n]))
| about_gelman t : asks_about n (QGelmanRubin (DOne (DName n)) t)
| about_geweke a b t : asks_about n (QGeweke (DOne (DName n)) a b t).

(** What is drawn, apart from colours and shading. *)
Definition plain (d : draw) : list draw :=
  match d with
  | Filled _ _ _ _ _ _ _ => []
  | Lines xc yc z levels _ style lw zorder => [Lines xc yc z levels [] style lw zorder]
  | Scatter points (OneColour _ alpha) size marker zorder => [Scatter points (OneColour "" alpha) size marker zorder]
  | other => [other]
  end.
(** The settings that are chosen in view of the number of chains have been given for the chain or by the override. *)
Definition settled (ov : option config_obj) (c : chain) : Prop :=
  forall f, In f [Fbar_shade; Fshade; Fshade_alpha; Fcolor] -> ch_user c f = true \/ exists o, ov = Some o /\ o_user o f = true.
