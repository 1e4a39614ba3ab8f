(** Independent vocabulary for the registry, settings and heap properties. *)
From Coq Require Import String List Bool Arith ZArith QArith Reals Qreals.
From Verif Require Import Py ColorModel FrameModel ConfigModel ChainModel RegistryModel.
Import ListNotations.
Open Scope list_scope.

(** Every DataFrame and chain object of [h] still exists in [h'], at the same place, with exactly the same
    contents; [h'] may contain further, new objects. *)
Definition untouched (h h' : heap) : Prop :=
  (forall l f, nth_error (h_frames h) l = Some f -> nth_error (h_frames h') l = Some f) /\
  (forall l c, nth_error (h_chains h) l = Some c -> nth_error (h_chains h') l = Some c).

(** What happened to the registry, in order of time. *)
Inductive event := Added (n : string) (l : nat) | Removed (n : string).
Definition about (n : string) (e : event) : Prop :=
  match e with Added m _ => m = n | Removed m => m = n end.
(** Event number [i] is the last one about [n]. *)
Definition last_about (log : list event) (n : string) (i : nat) (e : event) : Prop :=
  nth_error log i = Some e /\ about n e /\
  forall j e', (i < j)%nat -> nth_error log j = Some e' -> ~ about n e'.

(** The calls a user can make on one consumer, interleaved with building chains. *)
Inductive op :=
| OpNewChain (a : cargs)
| OpDivide (l : nat)
| OpAdd (l : nat)
| OpMarker (loc : list (string * cell)) (name : string) (color : option colour_input) (size : Q)
           (style : string) (alpha : Q) (extra : kwargs)
| OpRemove (n : string)
| OpRemoveChain (l : nat)
| OpOverride (o : config_obj)
| OpSelect (req : chain_request) (include_skip : bool).   (* any plot, table or summary *)

(** One call: the new world and, if it did not raise, what it did to the registry. *)
Definition step (rgb2hex : list Q -> string) (w : world) (o : op) : world * res (list event) :=
  match o with
  | OpNewChain a => let '(h, r) := new_chain rgb2hex (fst w) a in ((h, snd w), rmap (fun _ => []) r)
  | OpDivide l =>
      match chain_at (fst w) l with
      | None => (w, Err TypeError)
      | Some c => let '(h, r) := divide rgb2hex (fst w) c in ((h, snd w), rmap (fun _ => []) r)
      end
  | OpAdd l =>
      let '(w', r) := add_chain w l in
      (w', rmap (fun _ => match chain_at (fst w) l with Some c => [Added (ch_name c) l] | None => [] end) r)
  | OpMarker loc name color size style alpha extra =>
      let '(w', r) := add_marker rgb2hex w loc name color size style alpha extra in
      (w', rmap (fun _ => [Added name (length (h_chains (fst w)))]) r)
  | OpRemove n => let '(w', r) := remove_name w n in (w', rmap (fun _ => [Removed n]) r)
  | OpRemoveChain l =>
      let '(w', r) := remove_chain w l in
      (w', rmap (fun _ => match chain_at (fst w) l with Some c => [Removed (ch_name c)] | None => [] end) r)
  | OpOverride ov => (set_override w ov, Ok [])
  | OpSelect req b => let '(w', r) := sanitise_chains w req b in (w', rmap (fun _ => []) r)
  end.

(** A whole session, starting from an empty consumer: final world and log of registry events. *)
Fixpoint run (rgb2hex : list Q -> string) (w : world) (ops : list op) : world * list event :=
  match ops with
  | [] => (w, [])
  | o :: r =>
      let '(w1, e) := step rgb2hex w o in
      let '(w2, log) := run rgb2hex w1 r in
      (w2, match e with Ok es => es ++ log | Err _ => log end)
  end.

(** Number of chains among [d] that have no colour of their own. *)
Definition uncoloured (h : heap) (d : dict nat) : nat :=
  length (filter (fun nl => match chain_at h (snd nl) with
                            | Some c => match ch_cfg c Fcolor with None => true | Some _ => false end
                            | None => false end) d).

(** The real value of a transparency.  1/sqrt(0) is numpy's +inf: no value. *)
Fixpoint alpha_value (a : alpha) : option R :=
  match a with
  | AQ q => Some (Q2R q)
  | AInvSqrt O => None
  | AInvSqrt n => Some (1 / sqrt (INR n))%R
  | AHalf a => option_map (fun x => x * (1 / 2))%R (alpha_value a)
  end.

(** ** Resolved settings *)

(** The override says nothing about setting [f]. *)
Definition silent (ov : option config_obj) (f : cfield) : Prop :=
  match ov with Some o => o_user o f = false | None => True end.

(** [cfg'] are the settings of [c] after resolution, when [num] stored chains draw contours and the next
    unused palette colour is [pal]. *)
Record precedence (ov : option config_obj) (num : nat) (pal : option string) (c : chain) (cfg' : config) : Prop := {
  pr_override : forall o f, ov = Some o -> o_user o f = true -> cfg' f = o_cfg o f;
  pr_user : forall f, silent ov f -> ch_user c f = true -> cfg' f = ch_cfg c f;
  pr_shade : silent ov Fshade -> ch_user c Fshade = false -> (cfg' Fshade = true <-> (num < 5)%nat);
  pr_bar_shade : silent ov Fbar_shade -> ch_user c Fbar_shade = false -> (cfg' Fbar_shade = true <-> (num < 5)%nat);
  pr_sigmas : silent ov Fsigmas -> ch_user c Fsigmas = false -> cfg' Fsigmas = [0; 1; 2];
  pr_alpha : silent ov Fshade_alpha -> ch_user c Fshade_alpha = false -> (0 < num)%nat ->
     alpha_value (cfg' Fshade_alpha) =
     Some (if ch_cfg c Fshow_contour_labels then (1 / sqrt (INR num) / 2) else 1 / sqrt (INR num))%R;
  pr_color_kept : forall col, silent ov Fcolor -> ch_cfg c Fcolor = Some col -> cfg' Fcolor = Some col;
  pr_color_auto : silent ov Fcolor -> ch_user c Fcolor = false -> ch_cfg c Fcolor = None -> cfg' Fcolor = pal;
  pr_rest : forall f, silent ov f -> ch_user c f = false ->
     ~ In f [Fbar_shade; Fsigmas; Fshade; Fshade_alpha; Fcolor] -> cfg' f = ch_cfg c f }.

(** ** Selection of chains for output *)

(** The names a request stands for: a chain object stands for its name; no request means every stored
    chain in insertion order. *)
Definition requested (w : world) (req : chain_request) : list (option string) :=
  match req with
  | ReqList l => map (fun r => match r with
                               | ByName n => Some n
                               | ByChain p => option_map ch_name (chain_at (fst w) p) end) l
  | ReqDict d => map (fun kv => option_map ch_name (chain_at (fst w) (snd kv))) d
  | ReqAll => map Some (get_names w)
  end.
(** The chain has something to draw. *)
Definition draws (h : heap) (c : chain) : Prop :=
  f_empty (frame_at h (ch_samples c)) = false /\
  (ch_cfg c Fplot_contour = true \/ ch_cfg c Fplot_cloud = true \/ ch_cfg c Fplot_point = true).
(** [ls] are the final chains of the names, in order; with [all = false] the ones with nothing to draw are
    left out. *)
Inductive selected (h : heap) (finals : dict nat) (all : bool) : list string -> list nat -> Prop :=
| sel_nil : selected h finals all [] []
| sel_take n ns l ls c : dget n finals = Some l -> chain_at h l = Some c -> ch_name c = n ->
    all = true \/ draws h c -> selected h finals all ns ls -> selected h finals all (n :: ns) (l :: ls)
| sel_drop n ns l ls c : dget n finals = Some l -> chain_at h l = Some c -> ch_name c = n ->
    all = false -> ~ draws h c -> selected h finals all ns ls -> selected h finals all (n :: ns) ls.
