(** base.py, chain.py: plain attribute assignment on existing objects.  pydantic's BaseModel without validate_assignment
    (base.py:13) stores the value as it is; [_user_specified] (base.py:11) is not updated.  Undeclared attributes (a
    ValueError) and wrongly typed values are not modelled. *)
From Coq Require Import String List Bool Arith ZArith QArith.
From Verif Require Import Py ColorModel FrameModel ConfigModel ChainModel RegistryModel RegistrySpec.
Import ListNotations.
Open Scope list_scope.

(** chain.field = value; the consumer holds the same object (chainconsumer.py:60-63 stores the reference). *)
Definition assign (h : heap) (l : nat) (s : setting) : heap :=
  match chain_at h l with Some c => write_chain h l (with_cfg c (set_one (ch_cfg c) s)) | None => h end.
(** chain.name = n *)
(** chain.py:107-110, the field name *)
Definition with_name (c : chain) (n : string) : chain :=
  {| ch_cfg := ch_cfg c; ch_user := ch_user c; ch_samples := ch_samples c; ch_name := n; ch_weight := ch_weight c; ch_post := ch_post c; ch_walkers := ch_walkers c; ch_grid := ch_grid c;
     ch_nfree := ch_nfree c; ch_ndata := ch_ndata c; ch_power := ch_power c; ch_showlabel := ch_showlabel c; ch_relheight := ch_relheight c |}.
(** base.py:13, chain.py:107-110 *)
Definition rename (h : heap) (l : nat) (n : string) : heap :=
  match chain_at h l with Some c => write_chain h l (with_name c n) | None => h end.
(** override.field = value for the override in use (chainconsumer.py:148 stores the reference); base.py:15-16 reads the values
    of the originally given keys at the time of use. *)
Definition assign_override (w : world) (s : setting) : world :=
  (fst w, {| k_chains := k_chains (snd w); k_override := option_map (fun o => {| o_cfg := set_one (o_cfg o) s; o_user := o_user o |}) (k_override (snd w)) |}).

(** The calls of a session and assignments. *)
(** chainconsumer.py:20-203 and base.py:13 *)
Inductive deed := Do (o : op) | Assign (l : nat) (s : setting) | Rename (l : nat) (n : string) | AssignOverride (s : setting).
(** chainconsumer.py:20-203 and base.py:13 *)
Definition does (rgb2hex : list Q -> string) (w : world) (d : deed) : world :=
  match d with
  | Do o => fst (step rgb2hex w o)
  | Assign l s => (assign (fst w) l s, snd w)
  | Rename l n => (rename (fst w) l n, snd w)
  | AssignOverride s => assign_override w s
  end.
(** chainconsumer.py:20-203 and base.py:13, one after the other *)
Definition doing (rgb2hex : list Q -> string) (w : world) (ds : list deed) : world := fold_left (does rgb2hex) ds w.
