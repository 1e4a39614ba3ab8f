(** Independent vocabulary: consumers with and without unknown keywords. *)
From Coq Require Import String List Bool.
From Verif Require Import Py FrameModel ConfigModel ChainModel RegistryModel KeywordModel.
Import ListNotations.

(** Every keyword of the override is a setting. *)
Definition well_spelt (w : world_kw) : Prop := forall o, y_override (snd w) = Some o -> x_names o = [].
(** The same state without the record of unknown names. *)
Definition forget (w : world_kw) : world := (fst w, {| k_chains := y_chains (snd w); k_override := option_map x_obj (y_override (snd w)) |}).
(** The chains, with their tables, a figure or summary of these chains shows. *)
Definition shown (w : world) (req : chain_request) (include_skip : bool) (l : list (chain * frame)) : Prop :=
  exists w1 locs, sanitise_chains w req include_skip = (w1, Ok locs) /\
    Forall2 (fun l cf => chain_at (fst w1) l = Some (fst cf) /\ snd cf = frame_at (fst w1) (ch_samples (fst cf))) locs l.
