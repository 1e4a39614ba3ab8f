(** chain.py: the Chain object, its validation and its methods, over an explicit heap of DataFrames and
    chain objects.  A function that may allocate or update objects takes and returns the heap. *)
From Coq Require Import String Ascii List Bool Arith ZArith QArith.
From Verif Require Import Py NumModel ColorModel MarginalModel FrameModel ConfigModel.
Import ListNotations.
Open Scope list_scope.

(** chain.py:100-151 a Chain object.  [ch_samples] is the location of its DataFrame. *)
Record chain := {
  ch_cfg : config;
  ch_user : cfield -> bool;            (* base.py:8 _user_specified, restricted to the settings *)
  ch_samples : nat;
  ch_name : string;
  ch_weight : string;                  (* weight_column *)
  ch_post : string;                    (* posterior_column *)
  ch_walkers : Z;
  ch_grid : bool;
  ch_nfree : option Z;
  ch_ndata : option cell;
  ch_power : Q;
  ch_showlabel : bool;
  ch_relheight : Q }.

(** [chain.setting = value] for several settings. *)
(** chain.py:90-97 *)
Definition with_cfg (c : chain) (cfg : config) : chain :=
  {| ch_cfg := cfg; ch_user := ch_user c; ch_samples := ch_samples c; ch_name := ch_name c;
     ch_weight := ch_weight c; ch_post := ch_post c; ch_walkers := ch_walkers c; ch_grid := ch_grid c;
     ch_nfree := ch_nfree c; ch_ndata := ch_ndata c; ch_power := ch_power c;
     ch_showlabel := ch_showlabel c; ch_relheight := ch_relheight c |}.

(** chain.py:103-106 the objects that chains and callers share; no code of its own *)
Record heap := { h_frames : list frame; h_chains : list chain }.

(** chain.py:103-106; for a location that does not exist, never reached *)
Definition no_frame : frame := {| f_index := []; f_cols := [] |}.
(** chain.py:103-106 self.samples *)
Definition frame_at (h : heap) (l : nat) : frame := nth l (h_frames h) no_frame.
(** chainconsumer.py:21, 62 a chain object *)
Definition chain_at (h : heap) (l : nat) : option chain := nth_error (h_chains h) l.
(** Python assignment to an object, chain.py:93, 97, 253, 264 *)
Fixpoint list_update {A} (l : list A) (i : nat) (x : A) : list A :=
  match l, i with [], _ => [] | _ :: r, O => x :: r | y :: r, S k => y :: list_update r k x end.
(** Allocation returns the new location; existing locations are untouched. *)
(** chain.py:238-241 v.copy() *)
Definition alloc_frame (h : heap) (f : frame) : heap * nat :=
  ({| h_frames := h_frames h ++ [f]; h_chains := h_chains h |}, length (h_frames h)).
(** chain.py:253, 264 assignment to a column of self.samples *)
Definition write_frame (h : heap) (l : nat) (f : frame) : heap :=
  {| h_frames := list_update (h_frames h) l f; h_chains := h_chains h |}.
(** chain.py:100 Chain(...), chainconsumer.py:153 model_copy *)
Definition alloc_chain (h : heap) (c : chain) : heap * nat :=
  ({| h_frames := h_frames h; h_chains := h_chains h ++ [c] |}, length (h_chains h)).
(** chain.py:93, 97, 287, 289 setattr on a chain *)
Definition write_chain (h : heap) (l : nat) (c : chain) : heap :=
  {| h_frames := h_frames h; h_chains := list_update (h_chains h) l c |}.

(** The keyword arguments of Chain(...) besides the settings: [None] when not given. *)
(** chain.py:103-151 *)
Record cargs := {
  a_cfg : kwargs;
  a_samples : nat;                     (* location of the caller's DataFrame *)
  a_name : string;
  a_weight : option string;
  a_post : option string;
  a_walkers : option Z;
  a_grid : option bool;
  a_nfree : option (option Z);
  a_ndata : option (option cell);
  a_power : option Q;
  a_showlabel : option bool;
  a_relheight : option Q }.

(** chain.py:103-151, the default of a Field *)
Definition dflt {A} (d : A) (o : option A) : A := match o with Some x => x | None => d end.

(** [x >= 0] as pydantic's ge: rejects exactly the values below (NaN passes). *)
(** chain.py:129-138, 147-151 *)
Definition cell_ge0 (c : cell) : bool :=
  match c with Fin q => Qle_bool 0 q | NaN => true | PInf => true | NInf => false end.

(** chain.py:112-151: defaults of the remaining fields *)
Definition build (color : option (option string)) (a : cargs) (samples : nat) : chain := {|
  ch_cfg := fill color (a_cfg a);
  ch_user := user_keys (a_cfg a);
  ch_samples := samples;
  ch_name := a_name a;
  ch_weight := dflt "weight"%string (a_weight a);
  ch_post := dflt "log_posterior"%string (a_post a);
  ch_walkers := dflt 1%Z (a_walkers a);
  ch_grid := dflt false (a_grid a);
  ch_nfree := dflt None (a_nfree a);
  ch_ndata := dflt None (a_ndata a);
  ch_power := dflt 1 (a_power a);
  ch_showlabel := dflt true (a_showlabel a);
  ch_relheight := dflt 1 (a_relheight a) |}.

(** The ge/le constraints (chain.py:52, 75, 122, 132, 137, 150) *)
Definition field_ranges (c : chain) : bool :=
  config_ranges (ch_cfg c) && (1 <=? ch_walkers c)%Z &&
  match ch_nfree c with Some n => (0 <=? n)%Z | None => true end &&
  match ch_ndata c with Some v => cell_ge0 v | None => true end &&
  Qle_bool 0 (ch_relheight c).

(** np.average(values, weights=w): ZeroDivisionError when the weights sum to zero. *)
(** chain.py:264 *)
Definition average (vals w : list Q) : res Q :=
  let s := qsum w in
  if Qeq_bool s 0 then Err ZeroDivisionError
  else Ok (qsum (map (fun p => fst p * snd p) (combine vals w)) / s).

(** chain.py:263-264: [for param in self.samples: self.samples[param] -= np.average(...)].
    [self.weights] is read afresh for every column. *)
Fixpoint shift_loop (weight : string) (params : list string) (f : frame) : res frame :=
  match params with
  | [] => Ok f
  | p :: r =>
      match f_get f p, f_get f weight with
      | Some vals, Some w =>
          rbind (average (qs vals) (qs w)) (fun mu =>
          shift_loop weight r (f_set f p (map (fun c => match c with Fin q => Fin (q - mu) | c => c end) vals)))
      | _, _ => Err KeyError
      end
  end.

(** chain.py:243-297 _validate_model on the (already copied) frame at [ch_samples c]. *)
Definition validate_model (h : heap) (c : chain) : heap * res chain :=
  let f := frame_at h (ch_samples c) in
  if f_empty f then (h, Err AssertionError)                                        (* 245 *)
  else
    let has_w := f_has f (ch_weight c) in                                          (* 248 *)
    if negb has_w && negb (String.eqb (ch_weight c) "weight") then (h, Err AssertionError)   (* 249-251 *)
    else if has_w && negb (forallb (fun x => cell_gt x 0) (dflt [] (f_get f (ch_weight c))))
    then (h, Err AssertionError)                                                   (* 255 *)
    else
      let f1 := if has_w then f else f_set f (ch_weight c) (repeat (Fin 1) (f_rows f)) in  (* 253 *)
      let h1 := write_frame h (ch_samples c) f1 in
      if negb (forallb (fun cl => match fst cl with CStr _ => true | CInt _ => false end
                                  && forallb cell_finite (snd cl)) (f_cols f1))
      then (h1, Err AssertionError)                                                (* 257-259 *)
      else
        match (if ch_cfg c Fshift_params then shift_loop (ch_weight c) (f_names f1) f1 else Ok f1) with
        | Err e => (h1, Err e)                                                     (* 262-264 *)
        | Ok f2 =>
            let h2 := write_frame h1 (ch_samples c) f2 in
            if negb (Z.of_nat (f_rows f2) mod ch_walkers c =? 0)%Z then (h2, Err AssertionError)   (* 267 *)
            else if match ch_cfg c Fcolor_param with Some p => negb (f_has f2 p) | None => false end
            then (h2, Err AssertionError)                                          (* 273-276 *)
            else if match ch_ndata c with Some v => negb (cell_finite v) | None => false end
            then (h2, Err AssertionError)                                          (* 279-280 *)
            else                                                                   (* 282-283: an int is finite *)
              let c1 := with_cfg c
                          match ch_cfg c Fstatistics with
                          | Some _ => ch_cfg c
                          | None => cset (ch_cfg c) Fstatistics
                                      (Some (if ch_cfg c Fmultimodal then SHdi else SMax))   (* 285-289 *)
                          end in
              if ch_cfg c1 Fmultimodal && negb match ch_cfg c1 Fstatistics with Some SHdi => true | _ => false end
              then (h2, Err ValueError)                                            (* 291-295 *)
              else (h2, Ok c1)
        end.

(** Chain(samples=..., name=..., **kwargs): field validators (colour, then ranges; pydantic reports all
    range and ValueError failures as one ValidationError), the copying validator (chain.py:238-241),
    the model validator, then base.py:10-12. *)
Definition new_chain (rgb2hex : list Q -> string) (h : heap) (a : cargs) : heap * res nat :=
  match (match a_cfg a Fcolor with
         | Some v => rmap Some (wrap (rbind (convert_color rgb2hex v) (revalidate_color rgb2hex)))  (* 83-88, 231-236 *)
         | None => Ok None end) with
  | Err e => (h, Err e)
  | Ok color =>
      let '(h1, l) := alloc_frame h (frame_at h (a_samples a)) in                  (* 241 v.copy() *)
      let c := build color a l in
      if negb (field_ranges c) then (h1, Err ValidationError)
      else match validate_model h1 c with
           | (h2, Err e) => (h2, Err (wrapped e))
           | (h2, Ok c1) => let '(h3, lc) := alloc_chain h2 c1 in (h3, Ok lc)
           end
  end.

(** chain.py:153-171 data_columns.  [c.lower()] on an ASCII string. *)
Definition reserved : list string :=
  ["weight"; "weights"; "posterior"; "posteriors"; "log_weights"; "log_posterior"; "log_posteriors"]%string.
(** chain.py:153-171 *)
Definition data_columns (c : chain) (f : frame) : list string :=
  filter (fun n => negb (String.eqb n (ch_weight c)) && negb (String.eqb n (ch_post c))   (* 158-159 *)
                   && negb (smem (lower n) reserved))                              (* 160-169 *)
         (f_names f).

(** chain.py:178-185 plotting_columns *)
Definition plotting_columns (c : chain) (f : frame) : list string :=
  let cols := data_columns c f in
  if negb (ch_cfg c Fplot_cloud) then cols
  else filter (fun n => negb match ch_cfg c Fcolor_param with Some p => String.eqb n p | None => false end) cols.

(** chain.py:187-190 skip *)
Definition skip (c : chain) (f : frame) : bool :=
  f_empty f || negb (ch_cfg c Fplot_contour || ch_cfg c Fplot_cloud || ch_cfg c Fplot_point).

(** chain.py:202-219 weights, log_posterior, color_data *)
Definition weights (c : chain) (f : frame) : res (list Q) :=
  match f_get f (ch_weight c) with Some w => Ok (qs w) | None => Err KeyError end.
(** chain.py:207-212 *)
Definition log_posterior (c : chain) (f : frame) : option (list Q) := option_map qs (f_get f (ch_post c)).
(** chain.py:214-219 *)
Definition color_data (c : chain) (f : frame) : res (option (list Q)) :=
  match ch_cfg c Fcolor_param with
  | None => Ok None
  | Some p => match f_get f p with Some v => Ok (Some (qs v)) | None => Err KeyError end
  end.

(** chain.py:192-200 max_posterior_row: the position of the largest posterior is used as a row LABEL.
    A label carried by several rows gives a DataFrame, which MaxPosterior then rejects
    (ValidationError); reported here. *)
Definition max_posterior_row (c : chain) (f : frame) : res (option nat) :=
  match f_get f (ch_post c) with
  | None => Ok None                                                                (* 196-198 *)
  | Some p =>
      let am := argmax (qs p) in                                                   (* 199 *)
      match loc_positions f (LInt (Z.of_nat am)) with                              (* 200 *)
      | [] => Err KeyError
      | [i] => Ok (Some i)
      | _ => Err ValidationError
      end
  end.

(** chain.py:358-369 get_max_posterior_point: (log posterior, coordinate) *)
Definition max_posterior := (Q * list (string * Q))%type.
(** chain.py:358-369 *)
Definition get_max_posterior_point (c : chain) (f : frame) : res (option max_posterior) :=
  rbind (max_posterior_row c f) (fun r =>
  match r with
  | None => Ok None                                                                (* 364-365 *)
  | Some i =>
      let row := f_row f i in                                                      (* 366 *)
      match dget (ch_post c) row with
      | None => Err KeyError
      | Some lp =>                                                                 (* 367 *)
          let rest := dpop (ch_post c) row in
          Ok (Some (cell_q lp,
                    map (fun kv => (fst kv, cell_q (snd kv)))
                        (filter (fun kv => smem (fst kv) (plotting_columns c f)) rest)))   (* 368-369 *)
      end
  end).

(** chain.py:350-352: [self.model_dump(exclude={"samples","name","walkers"})] without "color", as the
    keyword arguments of the new chain. *)
Definition dumped (cfg : config) : kwargs := fun f =>
  match f return option (itype f) with
  | Fcolor => None
  | Fstatistics => Some (cfg Fstatistics) | Fsummary_area => Some (cfg Fsummary_area) | Fsigmas => Some (cfg Fsigmas)
  | Flinestyle => Some (cfg Flinestyle) | Flinewidth => Some (cfg Flinewidth)
  | Fshow_contour_labels => Some (cfg Fshow_contour_labels) | Fshade => Some (cfg Fshade)
  | Fshade_alpha => Some (cfg Fshade_alpha) | Fshade_gradient => Some (cfg Fshade_gradient)
  | Fbar_shade => Some (cfg Fbar_shade) | Fmultimodal => Some (cfg Fmultimodal) | Fbins => Some (cfg Fbins)
  | Fkde => Some (cfg Fkde) | Fsmooth => Some (cfg Fsmooth) | Fcolor_param => Some (cfg Fcolor_param)
  | Fcmap => Some (cfg Fcmap) | Fnum_cloud => Some (cfg Fnum_cloud) | Fplot_cloud => Some (cfg Fplot_cloud)
  | Fplot_contour => Some (cfg Fplot_contour) | Fplot_point => Some (cfg Fplot_point)
  | Fmarker_style => Some (cfg Fmarker_style) | Fmarker_size => Some (cfg Fmarker_size)
  | Fmarker_alpha => Some (cfg Fmarker_alpha) | Fzorder => Some (cfg Fzorder)
  | Fshift_params => Some (cfg Fshift_params)
  end.

(** [str(i)] for a non-negative integer. *)
(** chain.py:353 *)
Definition digit (d : Z) : string := String (ascii_of_nat (Z.to_nat (48 + d))) EmptyString.
(** chain.py:353 *)
Fixpoint dec_fuel (fuel : nat) (z : Z) : string :=
  match fuel with
  | O => EmptyString
  | S k => if (z <? 10)%Z then digit z else (dec_fuel k (z / 10) ++ digit (z mod 10))%string
  end.
(** One unit of fuel per digit is enough: [z < 10^(z+1)], and the number of digits is at most
    the number of bits plus one. *)
(** chain.py:353 f"{self.name} Walker {i}" *)
Definition dec (z : Z) : string := dec_fuel (S (Z.to_nat (Z.log2_up (z + 2)))) z.

(** chain.py:330-356 divide.  np.split (line 346) is a ValueError when the rows do not divide evenly;
    the blocks keep the original row labels. *)
Fixpoint divide_loop (rgb2hex : list Q -> string) (h : heap) (c : chain) (size : nat) (i : nat) (n : nat)
  : heap * res (list nat) :=
  match n with
  | O => (h, Ok [])
  | S k =>
      let '(h1, lf) := alloc_frame h (f_slice (i * size) (i * size + size) (frame_at h (ch_samples c))) in  (* 349 *)
      let args := {| a_cfg := dumped (ch_cfg c); a_samples := lf;
                     a_name := (ch_name c ++ " Walker " ++ dec (Z.of_nat i))%string;
                     a_weight := Some (ch_weight c); a_post := Some (ch_post c); a_walkers := None;
                     a_grid := Some (ch_grid c); a_nfree := Some (ch_nfree c); a_ndata := Some (ch_ndata c);
                     a_power := Some (ch_power c); a_showlabel := Some (ch_showlabel c);
                     a_relheight := Some (ch_relheight c) |} in                    (* 350-353 *)
      match new_chain rgb2hex h1 args with
      | (h2, Err e) => (h2, Err e)
      | (h2, Ok l) =>
          match divide_loop rgb2hex h2 c size (S i) k with
          | (h3, Err e) => (h3, Err e)
          | (h3, Ok ls) => (h3, Ok (l :: ls))
          end
      end
  end.
(** chain.py:330-356 *)
Definition divide (rgb2hex : list Q -> string) (h : heap) (c : chain) : heap * res (list nat) :=
  if negb (1 <? ch_walkers c)%Z then (h, Err AssertionError)                       (* 343 *)
  else if ch_grid c then (h, Err AssertionError)                                   (* 344 *)
  else
    let rows := f_rows (frame_at h (ch_samples c)) in
    if negb (Z.of_nat rows mod ch_walkers c =? 0)%Z then (h, Err ValueError)        (* 346 *)
    else let w := Z.to_nat (ch_walkers c) in
         divide_loop rgb2hex h c (rows / w) 0 w.

(** chain.py:498-523 _filter_var_names.  [len(negations) != 1] fails on mixtures and on []. *)
Definition tilde : ascii := "~"%char.
(** chain.py:498-523, v.startswith("~") *)
Definition negated (v : string) : bool :=
  match v with String c _ => Ascii.eqb c tilde | EmptyString => false end.
(** chain.py:498-523, v[1:] *)
Definition drop1 (v : string) : string := match v with String _ r => r | EmptyString => EmptyString end.
(** chain.py:498-523 *)
Definition filter_var_names (var_names : option (list string)) (all_vars : list string) : res (list string) :=
  match var_names with
  | None => Ok all_vars                                                            (* 503-504 *)
  | Some names =>
      let has_t := existsb negated names in
      let has_f := existsb (fun v => negb (negated v)) names in                    (* 506 *)
      match has_t, has_f with
      | true, false => Ok (filter (fun v => negb (smem v (map drop1 names))) all_vars)   (* 513-518 *)
      | false, true => Ok (filter (fun v => smem v names) all_vars)                (* 521-523 *)
      | _, _ => Err ValueError                                                     (* 508-511 *)
      end
  end.

(** chain.py:423-424: the DataFrame built from an emcee flat chain (a list of rows, each with one value
    per dimension); [chain.T] is the list of dimensions.  zip(strict=False) stops at the shorter list; a
    name given twice keeps its first place with the last dimension's values. *)
Definition default_index (n : nat) : list rlabel := map (fun i => LInt (Z.of_nat i)) (seq 0 n).
(** chain.py:400-426 *)
Definition emcee_frame (columns : list string) (dims : list (list Q)) (rows : nat) : frame :=
  let d := fold_left (fun acc cv => dset (fst cv) (snd cv) acc) (combine columns dims) [] in
  {| f_index := match d with [] => [] | _ => default_index rows end;
     f_cols := map (fun kv => (CStr (fst kv), map Fin (snd kv))) d |}.
(** chain.py:400-426 *)
Definition from_emcee (rgb2hex : list Q -> string) (h : heap) (columns : list string)
  (dims : list (list Q)) (rows : nat) (a : cargs) : heap * res nat :=
  let '(h1, l) := alloc_frame h (emcee_frame columns dims rows) in
  new_chain rgb2hex h1
    {| a_cfg := a_cfg a; a_samples := l; a_name := a_name a; a_weight := a_weight a; a_post := a_post a;
       a_walkers := a_walkers a; a_grid := a_grid a; a_nfree := a_nfree a; a_ndata := a_ndata a;
       a_power := a_power a; a_showlabel := a_showlabel a; a_relheight := a_relheight a |}.  (* 426 *)

(** chain.py:449-452: the DataFrame built from numpyro samples ([value] already raveled).  pandas raises
    ValueError for columns of different lengths. *)
Definition numpyro_frame (var_names : option (list string)) (samples : list (string * list Q)) : res frame :=
  rbind (filter_var_names var_names (map fst samples)) (fun names =>
  let d := filter (fun kv => smem (fst kv) names) samples in
  let n := match d with [] => 0%nat | (_, v) :: _ => length v end in
  if forallb (fun kv => (length (snd kv) =? n)%nat) d then
    Ok {| f_index := default_index n; f_cols := map (fun kv => (CStr (fst kv), map Fin (snd kv))) d |}
  else Err ValueError).
