(** Independent vocabulary: what was set last in a session. *)
From Coq Require Import String List Bool Arith ZArith QArith.
From Verif Require Import Py FrameModel ConfigModel ChainModel RegistryModel RegistrySpec AnalysisModel FigureModel FigureSpec ConsumerSpec.
Import ListNotations.
Open Scope list_scope.

(** The override an action sets, the plotting configuration an action sets. *)
Definition sets_override (a : action) : option config_obj := match a with ARegistry (OpOverride o) => Some o | _ => None end.
Definition sets_config (a : action) : option plot_config := match a with AConfig c => Some c | _ => None end.
(** [x] is what the last setting action of [past] sets; None if there is none. *)
Definition latest {A} (sets : action -> option A) (past : list action) (x : option A) : Prop :=
  match x with
  | Some v => exists before a after, past = before ++ a :: after /\ sets a = Some v /\ forall b, In b after -> sets b = None
  | None => forall a, In a past -> sets a = None
  end.
