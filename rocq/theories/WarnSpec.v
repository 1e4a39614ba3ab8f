(** Independent vocabulary for warnings. *)
From Coq Require Import String Ascii List Bool Arith ZArith QArith Reals.
From Verif Require Import Py NumSpec FrameModel ConfigModel ChainModel RegistryModel RegistrySpec ChainSpec CompareSpec.
Import ListNotations.
Open Scope string_scope.
Open Scope list_scope.

(** [l] names what the chain lacks to be given an AIC or a BIC. *)
Definition lacks (c : chain) (f : frame) (l : list string) : Prop :=
  sublist l ["posterior"; "num_eff_data_points"; "num_free_params"] /\
  (In "posterior" l <-> ~ has_posterior c f) /\ (In "num_eff_data_points" l <-> ch_ndata c = None) /\ (In "num_free_params" l <-> ch_nfree c = None).
(** The text about the chain [n]. *)
Definition asks_for (criterion : string) (n : string) (c : chain) (f : frame) (t : string) : Prop :=
  exists l, l <> [] /\ lacks c f l /\ t = ("You need to set " ++ String.concat ", " l ++ " for chain " ++ n ++ " to get the " ++ criterion)%string.
Definition asks_for_posterior (n : string) (c : chain) (f : frame) (t : string) : Prop :=
  ~ has_posterior c f /\ t = ("You need to set the posterior for chain " ++ n ++ " to get the DIC")%string.
(** The warnings [ws] are one text for each of the chains [names] that is left out, in order, and no other. *)
Definition one_each (w : world) (left_out : string -> Prop) (text : string -> chain -> frame -> string -> Prop) (ws : list string) : Prop :=
  exists parts, ws = concat parts /\
    Forall2 (fun n part => exists c f, registered w n c f /\ (left_out n -> exists t, part = [t] /\ text n c f t) /\ (~ left_out n -> part = [])) (map fst (k_chains (snd w))) parts.
