(** chainconsumer.py: the chain registry, overrides and the resolution of the final chains; the chain
    selection of plotter.py and analysis.py. *)
From Coq Require Import String List Bool Arith ZArith QArith.
From Verif Require Import Py NumModel ColorModel MarginalModel FrameModel ConfigModel ChainModel.
Import ListNotations.
Open Scope list_scope.

(** chainconsumer.py:20-23 the consumer's own state (the truths are modelled with the plots). *)
Record consumer := { k_chains : dict nat; k_override : option config_obj }.
(** chainconsumer.py:20-23 *)
Definition new_consumer : consumer := {| k_chains := []; k_override := None |}.

(** chainconsumer.py:20-23, the consumer and the objects it shares with its caller *)
Definition world := (heap * consumer)%type.

(** chainconsumer.py:51-63 add_chain *)
Definition add_chain (w : world) (l : nat) : world * res unit :=
  let '(h, k) := w in
  match chain_at h l with
  | None => (w, Err TypeError)                                                     (* not a chain object *)
  | Some c =>
      if dmem (ch_name c) (k_chains k) then (w, Err AssertionError)                (* 60-61 *)
      else ((h, {| k_chains := dset (ch_name c) l (k_chains k); k_override := k_override k |}), Ok tt)  (* 62 *)
  end.

(** chainconsumer.py:77-118 add_marker.  [loc] is the location dictionary; [color] and the other keyword
    arguments come in [a] (its samples and name are ignored). *)
Definition marker_frame (loc : list (string * cell)) : frame :=
  let f0 := {| f_index := [LInt 0]; f_cols := map (fun kv => (CStr (fst kv), [snd kv])) loc |} in  (* 103 *)
  f_set (f_set f0 "weight" [Fin 1]) "log_posterior" [Fin 1].                       (* 104-105 *)
Definition kset (k : kwargs) (f : cfield) (v : itype f) : kwargs := fun g =>
  match cfield_eq_dec f g with left e => eq_rect f (fun g => option (itype g)) (Some v) g e | right _ => k g end.
(** [extra] are the further keyword arguments.  Passing plot_contour or plot_point again is a TypeError
    (duplicate keyword). *)
Definition marker_kwargs (color : option colour_input) (size : Q) (style : string) (alpha : Q) (extra : kwargs) : kwargs :=
  let k1 := match color with Some c => kset extra Fcolor (Some c) | None => extra end in   (* 106-107 *)
  kset (kset (kset (kset (kset k1 Fmarker_size size) Fmarker_style style) Fmarker_alpha alpha)
             Fplot_contour false) Fplot_point true.                                (* 111-115 *)
Definition add_marker (rgb2hex : list Q -> string) (w : world) (loc : list (string * cell)) (name : string)
  (color : option colour_input) (size : Q) (style : string) (alpha : Q) (extra : kwargs) : world * res unit :=
  let '(h, k) := w in
  if match extra Fplot_contour, extra Fplot_point with None, None => false | _, _ => true end
  then (w, Err TypeError)
  else
    let '(h1, lf) := alloc_frame h (marker_frame loc) in
    let a := {| a_cfg := marker_kwargs color size style alpha extra; a_samples := lf; a_name := name;
                a_weight := None; a_post := None; a_walkers := None; a_grid := None; a_nfree := None;
                a_ndata := None; a_power := None; a_showlabel := None; a_relheight := None |} in
    match new_chain rgb2hex h1 a with                                              (* 108-117 *)
    | (h2, Err e) => ((h2, k), Err e)
    | (h2, Ok l) => add_chain (h2, k) l                                            (* 118 *)
    end.

(** chainconsumer.py:120-134 remove_chain, by name or by chain object *)
Definition remove_name (w : world) (name : string) : world * res unit :=
  let '(h, k) := w in
  if dmem name (k_chains k)
  then ((h, {| k_chains := dpop name (k_chains k); k_override := k_override k |}), Ok tt)   (* 133 *)
  else (w, Err AssertionError).                                                    (* 132 *)
Definition remove_chain (w : world) (l : nat) : world * res unit :=
  match chain_at (fst w) l with Some c => remove_name w (ch_name c) | None => (w, Err TypeError) end.  (* 129-130 *)

(** chainconsumer.py:136-149 set_override *)
Definition set_override (w : world) (o : config_obj) : world :=
  (fst w, {| k_chains := k_chains (snd w); k_override := Some o |}).

(** chainconsumer.py:186-203 get_chain, get_names *)
Definition get_chain (w : world) (name : string) : res nat :=
  match dget name (k_chains (snd w)) with Some l => Ok l | None => Err AssertionError end.
(** chainconsumer.py:198-203 *)
Definition get_names (w : world) : list string := dkeys (k_chains (snd w)).

(** chainconsumer.py:153 [{k: v.model_copy() for k, v in self._chains.items()}]: a shallow copy - a new
    chain object that shares the DataFrame. *)
Fixpoint copy_chains (h : heap) (d : dict nat) : heap * dict nat :=
  match d with
  | [] => (h, [])
  | (n, l) :: r =>
      match chain_at h l with
      | Some c => let '(h1, l1) := alloc_chain h c in
                  let '(h2, r2) := copy_chains h1 r in (h2, (n, l1) :: r2)
      | None => copy_chains h r                                                    (* not reachable *)
      end
  end.

(** chainconsumer.py:154 *)
Definition num_contour_chains (h : heap) (d : dict nat) : nat :=
  length (filter (fun nl => match chain_at h (snd nl) with Some c => ch_cfg c Fplot_contour | None => false end) d).

(** chainconsumer.py:158-162 global_config *)
Definition mk (f : cfield) (v : ctype f) : setting := existT ctype f v.
(** chainconsumer.py:158-162 *)
Definition global_config (num : nat) (sa : alpha) : list setting :=
  [mk Fbar_shade (num <? 5)%nat; mk Fsigmas [0; 1; 2]; mk Fshade (num <? 5)%nat; mk Fshade_alpha sa].

(** chainconsumer.py:166-182: the loop body over the copied chains, in order; [colors] is what the colour
    generator has still to give. *)
Fixpoint resolve_loop (h : heap) (num : nat) (ov : option config_obj) (colors : list (res string)) (d : dict nat)
  : heap * res unit :=
  match d with
  | [] => (h, Ok tt)
  | (_, l) :: r =>
      match chain_at h l with
      | None => (h, Err KeyError)                                                  (* not reachable *)
      | Some c =>
          let sa := if ch_cfg c Fshow_contour_labels then AHalf (AInvSqrt num) else AInvSqrt num in  (* 162, 171-172 *)
          let base := global_config num sa in                                      (* 168 *)
          match (match ch_cfg c Fcolor with
                 | Some _ => Ok (base, colors)
                 | None => match colors with
                           | [] => Err StopIteration                               (* 176 *)
                           | x :: cs => rbind x (fun col => Ok (base ++ [mk Fcolor (Some col)], cs))
                           end
                 end) with
          | Err e => (h, Err e)
          | Ok (local, colors') =>
              let cfg1 := apply_if_not_user_set (ch_user c) local (ch_cfg c) in    (* 178 *)
              let cfg2 := match ov with
                          | Some o => apply_settings (user_specified_dump o) cfg1  (* 181-182 *)
                          | None => cfg1
                          end in
              resolve_loop (write_chain h l (with_cfg c cfg2)) num ov colors' r
          end
      end
  end.

(** chainconsumer.py:151-184 _get_final_chains *)
Definition get_final_chains (w : world) : world * res (dict nat) :=
  let '(h, k) := w in
  let '(h1, finals) := copy_chains h (k_chains k) in
  let num := num_contour_chains h (k_chains k) in
  match resolve_loop h1 num (k_override k) next_colour finals with
  | (h2, Ok _) => ((h2, k), Ok finals)
  | (h2, Err e) => ((h2, k), Err e)
  end.

(** The chain selection argument of plotting and analysis calls: names or chain objects, a dict (keys are
    ignored), or nothing. *)
(** plotter.py:906-917 *)
Inductive chain_ref := ByName (n : string) | ByChain (l : nat).
(** plotter.py:906-917 *)
Inductive chain_request := ReqList (l : list chain_ref) | ReqDict (d : dict nat) | ReqAll.

(** plotter.py:906-917 _sanitise_chains *)
Definition pick (h : heap) (finals : dict nat) (n : res string) : res nat :=
  rbind n (fun n => match dget n finals with Some l => Ok l | None => Err KeyError end).
(** plotter.py:912 *)
Definition ref_name (h : heap) (r : chain_ref) : res string :=
  match r with
  | ByName n => Ok n
  | ByChain l => match chain_at h l with Some c => Ok (ch_name c) | None => Err TypeError end
  end.
(** chain.py:187-190 *)
Definition skip_at (h : heap) (l : nat) : bool :=
  match chain_at h l with Some c => skip c (frame_at h (ch_samples c)) | None => true end.
(** plotter.py:906-917 *)
Definition sanitise_chains (w : world) (req : chain_request) (include_skip : bool) : world * res (list nat) :=
  match get_final_chains w with
  | (w1, Err e) => (w1, Err e)
  | (w1, Ok finals) =>
      let h := fst w1 in
      let chosen := match req with
                    | ReqList l => rmapM (fun r => pick h finals (ref_name h r)) l               (* 912 *)
                    | ReqDict d => rmapM (fun kv => pick h finals (ref_name h (ByChain (snd kv)))) d  (* 914 *)
                    | ReqAll => Ok (dvalues finals)                                  (* 916 *)
                    end in
      (w1, rmap (filter (fun l => include_skip || negb (skip_at h l))) chosen)        (* 917 *)
  end.

(** plotter.py:690-698 _sanitise_columns *)
Definition add_new (res : list string) (c : string) : list string := if smem c res then res else res ++ [c].
(** plotter.py:690-698 *)
Definition sanitise_columns (columns : option (list string)) (chains : list (chain * frame)) : list string :=
  match columns with
  | Some l => l                                                                    (* 698 *)
  | None => fold_left (fun res cf => fold_left add_new (plotting_columns (fst cf) (snd cf)) res) chains []  (* 692-697 *)
  end.

(** analysis.py:236-260 get_max_posteriors.  A list request is turned into a dict (duplicates collapse);
    an unknown name is a KeyError. *)
Definition max_posterior_request (w : world) (req : option (list string)) : res (dict nat) :=
  match req with
  | None => Ok (k_chains (snd w))                                                  (* 249-250 *)
  | Some l =>
      rbind (rmapM (fun n => match dget n (k_chains (snd w)) with Some c => Ok (n, c) | None => Err KeyError end) l)
            (fun kvs => Ok (fold_left (fun acc kv => dset (fst kv) (snd kv) acc) kvs []))    (* 251-252 *)
  end.
(** analysis.py:254-260 *)
Fixpoint max_posteriors_loop (h : heap) (d : dict nat) : res (dict max_posterior) :=
  match d with
  | [] => Ok []
  | (n, l) :: r =>
      match chain_at h l with
      | None => Err KeyError
      | Some c =>
          rbind (get_max_posterior_point c (frame_at h (ch_samples c))) (fun mp =>
          rbind (max_posteriors_loop h r) (fun rest =>
          Ok match mp with None => rest | Some p => (n, p) :: rest end))           (* 254-258 *)
      end
  end.
(** analysis.py:236-260 *)
Definition get_max_posteriors (w : world) (req : option (list string)) : res (dict max_posterior) :=
  rbind (max_posterior_request w req) (max_posteriors_loop (fst w)).
