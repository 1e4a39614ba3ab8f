(** Keyword arguments that are not settings: base.py and the calls that take keyword arguments. *)
From Coq Require Import String List Bool Arith ZArith QArith.
From Verif Require Import Py NumModel ColorModel MarginalModel FrameModel ConfigModel ChainModel RegistryModel.
Import ListNotations.
Open Scope list_scope.

(** The keyword arguments of one call: those that are settings, and the names of the others.  (A name that is not a
    setting but happens to be an attribute of the class, such as [copy], is not modelled.) *)
(** base.py:10-11 *)
Record keywords := { kw_known : kwargs; kw_unknown : list string }.

(** base.py:6-13: [model_config] leaves pydantic's default extra="ignore", so unknown names are accepted and no
    attribute is made; line 11 records every name that was written. *)
Record config_kw := { x_obj : config_obj; x_names : list string }.   (* x_names: recorded names that are no settings *)
(** base.py:10-13, chain.py:41-88 *)
Definition new_config_kw (rgb2hex : list Q -> string) (k : keywords) : res config_kw :=
  rmap (fun o => {| x_obj := o; x_names := kw_unknown k |}) (new_config rgb2hex (kw_known k)).

(** base.py:15-16 get_user_specified_dump: getattr raises AttributeError for a recorded name that is no attribute. *)
Definition dump_kw (o : config_kw) : res (list setting) :=
  match x_names o with [] => Ok (user_specified_dump (x_obj o)) | _ => Err AttributeError end.

(** chain.py:45-151, base.py:10-11: Chain(...).  The recorded names are only compared with names of settings
    (chain.py:92), so the unknown ones are never seen again. *)
Definition new_chain_kw (rgb2hex : list Q -> string) (h : heap) (a : cargs) (unknown : list string) : heap * res nat :=
  new_chain rgb2hex h a.

(** chainconsumer.py:20-23: the state of the consumer with such an override. *)
Record consumer_kw := { y_chains : dict nat; y_override : option config_kw }.
(** chainconsumer.py:20-23 *)
Definition world_kw := (heap * consumer_kw)%type.
(** chainconsumer.py:136-149 *)
Definition set_override_kw (w : world_kw) (o : config_kw) : world_kw :=
  (fst w, {| y_chains := y_chains (snd w); y_override := Some o |}).                (* 136-149 *)

(** chainconsumer.py:166-182 the loop, as [resolve_loop]; line 182 reads the override anew for every chain. *)
Fixpoint resolve_loop_kw (h : heap) (num : nat) (ov : option config_kw) (colors : list (res string)) (d : dict nat)
  : heap * res unit :=
  match d with
  | [] => (h, Ok tt)
  | (_, l) :: r =>
      match chain_at h l with
      | None => (h, Err KeyError)                                                  (* not reachable *)
      | Some c =>
          let sa := if ch_cfg c Fshow_contour_labels then AHalf (AInvSqrt num) else AInvSqrt num in  (* 162, 171-172 *)
          let base := global_config num sa in                                      (* 168 *)
          match (match ch_cfg c Fcolor with
                 | Some _ => Ok (base, colors)
                 | None => match colors with
                           | [] => Err StopIteration                               (* 176 *)
                           | x :: cs => rbind x (fun col => Ok (base ++ [mk Fcolor (Some col)], cs))
                           end
                 end) with
          | Err e => (h, Err e)
          | Ok (local, colors') =>
              let cfg1 := apply_if_not_user_set (ch_user c) local (ch_cfg c) in    (* 178 *)
              let h1 := write_chain h l (with_cfg c cfg1) in
              match ov with
              | None => resolve_loop_kw h1 num ov colors' r
              | Some o => match dump_kw o with
                          | Err e => (h1, Err e)                                   (* 182 *)
                          | Ok s => resolve_loop_kw (write_chain h l (with_cfg c (apply_settings s cfg1))) num ov colors' r
                          end
              end
          end
      end
  end.
(** chainconsumer.py:151-184 _get_final_chains *)
Definition get_final_chains_kw (w : world_kw) : world_kw * res (dict nat) :=
  let '(h, k) := w in
  let '(h1, finals) := copy_chains h (y_chains k) in
  let num := num_contour_chains h (y_chains k) in
  match resolve_loop_kw h1 num (y_override k) next_colour finals with
  | (h2, Ok _) => ((h2, k), Ok finals)
  | (h2, Err e) => ((h2, k), Err e)
  end.
(** plotter.py:906-917 _sanitise_chains, as [sanitise_chains]. *)
Definition sanitise_chains_kw (w : world_kw) (req : chain_request) (include_skip : bool) : world_kw * res (list nat) :=
  match get_final_chains_kw w with
  | (w1, Err e) => (w1, Err e)
  | (w1, Ok finals) =>
      let h := fst w1 in
      let chosen := match req with
                    | ReqList l => rmapM (fun r => pick h finals (ref_name h r)) l               (* 912 *)
                    | ReqDict d => rmapM (fun kv => pick h finals (ref_name h (ByChain (snd kv)))) d  (* 914 *)
                    | ReqAll => Ok (dvalues finals)                                  (* 916 *)
                    end in
      (w1, rmap (filter (fun l => include_skip || negb (skip_at h l))) chosen)        (* 917 *)
  end.
