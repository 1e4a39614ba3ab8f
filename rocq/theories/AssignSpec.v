(** Independent vocabulary: what was assigned last to a setting. *)
From Coq Require Import String List Bool Arith ZArith QArith.
From Verif Require Import Py ColorModel FrameModel ConfigModel ChainModel RegistryModel RegistrySpec AssignModel.
Import ListNotations.
Open Scope list_scope.

Definition renames (d : deed) : Prop := match d with Rename _ _ => True | _ => False end.
(** [v] is the last value assigned to the setting [f] of the existing chain at [l]. *)
Definition assigned (rgb2hex : list Q -> string) (w0 : world) (past : list deed) (l : nat) (f : cfield) (v : ctype f) : Prop :=
  exists before after, past = before ++ Assign l (existT ctype f v) :: after /\ (exists c, chain_at (fst (doing rgb2hex w0 before)) l = Some c) /\
    forall v', ~ In (Assign l (existT ctype f v')) after.
(** The chain at [l] was made by Chain(a). *)
Definition made (rgb2hex : list Q -> string) (w0 : world) (past : list deed) (l : nat) (a : cargs) : Prop :=
  exists before after h, past = before ++ Do (OpNewChain a) :: after /\ new_chain rgb2hex (fst (doing rgb2hex w0 before)) a = (h, Ok l).
(** The override set last is [o]; [v] is the last value assigned to its attribute [f] since. *)
Definition override_assigned (past : list deed) (o : config_obj) (f : cfield) (v : ctype f) : Prop :=
  exists before between after, past = before ++ Do (OpOverride o) :: between ++ AssignOverride (existT ctype f v) :: after /\
    (forall o', ~ In (Do (OpOverride o')) (between ++ after)) /\ forall v', ~ In (AssignOverride (existT ctype f v')) after.
(** The settings that follow the number of chains if they are not given. *)
Definition automatic (f : cfield) : Prop := In f [Fbar_shade; Fsigmas; Fshade; Fshade_alpha; Fcolor].
(** The setting [f] of the chain named [n] in figures and summaries is [v]. *)
Definition in_use (w : world) (n : string) (f : cfield) (v : ctype f) : Prop :=
  exists w' finals l c, get_final_chains w = (w', Ok finals) /\ dget n finals = Some l /\ chain_at (fst w') l = Some c /\ ch_cfg c f = v.
