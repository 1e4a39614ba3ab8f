(** Independent vocabulary: settings given by an override, and the same settings given to every chain. *)
From Coq Require Import String List Bool Arith ZArith QArith.
From Verif Require Import Py NumModel FrameModel ConfigModel ChainModel RegistryModel AnalysisModel FigureModel ConsumerSpec.
Import ListNotations.
Open Scope string_scope.
Open Scope list_scope.

(** [c'] is the chain [c] with the settings that the override gives written into the chain itself. *)
Record carries (o : config_obj) (c c' : chain) : Prop := {
  ca_given : forall f, o_user o f = true -> ch_cfg c' f = o_cfg o f /\ ch_user c' f = true;
  ca_other : forall f, o_user o f = false -> ch_cfg c' f = ch_cfg c f /\ ch_user c' f = ch_user c f;
  ca_name : ch_name c' = ch_name c; ca_weight : ch_weight c' = ch_weight c; ca_post : ch_post c' = ch_post c;
  ca_walkers : ch_walkers c' = ch_walkers c; ca_grid : ch_grid c' = ch_grid c; ca_nfree : ch_nfree c' = ch_nfree c; ca_ndata : ch_ndata c' = ch_ndata c;
  ca_power : ch_power c' = ch_power c; ca_showlabel : ch_showlabel c' = ch_showlabel c; ca_relheight : ch_relheight c' = ch_relheight c }.
(** The first world has the override [o]; the second has none, but the same chains in the same order, with the same
    samples, and each of them carries the settings of [o]. *)
Definition spelled_out (o : config_obj) (w w' : world) : Prop :=
  k_override (snd w) = Some o /\ k_override (snd w') = None /\
  Forall2 (fun nl nl' => fst nl' = fst nl /\ exists c c', chain_at (fst w) (snd nl) = Some c /\ chain_at (fst w') (snd nl') = Some c' /\
             frame_at (fst w') (ch_samples c') = frame_at (fst w) (ch_samples c) /\ carries o c c')
    (k_chains (snd w)) (k_chains (snd w')).
(** The override leaves alone whether contours are drawn and labelled: the automatic shading is chosen in view of these. *)
Definition leaves_contours (o : config_obj) : Prop := o_user o Fplot_contour = false /\ o_user o Fshow_contour_labels = false.
(** Chains asked for by name, or all of them. *)
Definition by_name (req : chain_request) : Prop := req = ReqAll \/ exists names, req = ReqList (map ByName names).
(** The same truths and plotting configuration. *)
Definition same_plotting (s s' : session) : Prop := s_truths s' = s_truths s /\ config_in_use (s_plotter s') = config_in_use (s_plotter s).
