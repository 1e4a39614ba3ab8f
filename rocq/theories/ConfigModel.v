(** ChainConfig (chain.py:41-97) and BetterBase (base.py). *)
From Coq Require Import String List Bool Arith ZArith QArith Eqdep_dec.
From Verif Require Import Py ColorModel MarginalModel.
Import ListNotations.
Open Scope list_scope.

(** chain.py:51-81 the 26 settings, in declaration order *)
Inductive cfield :=
| Fstatistics | Fsummary_area | Fsigmas | Fcolor | Flinestyle | Flinewidth | Fshow_contour_labels
| Fshade | Fshade_alpha | Fshade_gradient | Fbar_shade | Fmultimodal | Fbins | Fkde | Fsmooth
| Fcolor_param | Fcmap | Fnum_cloud | Fplot_cloud | Fplot_contour | Fplot_point
| Fmarker_style | Fmarker_size | Fmarker_alpha | Fzorder | Fshift_params.

(** chain.py:41-81 *)
Definition all_fields : list cfield :=
  [Fstatistics; Fsummary_area; Fsigmas; Fcolor; Flinestyle; Flinewidth; Fshow_contour_labels;
   Fshade; Fshade_alpha; Fshade_gradient; Fbar_shade; Fmultimodal; Fbins; Fkde; Fsmooth;
   Fcolor_param; Fcmap; Fnum_cloud; Fplot_cloud; Fplot_contour; Fplot_point;
   Fmarker_style; Fmarker_size; Fmarker_alpha; Fzorder; Fshift_params].

(** chain.py:51-81, comparison of names *)
Definition cfield_eq_dec (a b : cfield) : {a = b} + {a <> b}.
Proof. decide equality. Defined.

(** A transparency: a number given by the user, or the automatic 1/sqrt(n) (chainconsumer.py:162),
    possibly halved (chainconsumer.py:172).  Kept symbolic so that the model computes; its value is
    given by [AlphaSpec.alpha_value]. *)
Inductive alpha := AQ (q : Q) | AInvSqrt (n : nat) | AHalf (a : alpha).

(** [kde: int | float | bool] *)
(** chain.py:64 *)
Inductive kde_opt := KBool (b : bool) | KNum (q : Q).

(** chain.py:51-81, the annotated types *)
Definition ctype (f : cfield) : Type :=
  match f with
  | Fstatistics => option stat
  | Fsummary_area => Q
  | Fsigmas => list Q
  | Fcolor => option string
  | Flinestyle => string
  | Flinewidth => Q
  | Fshow_contour_labels => bool
  | Fshade => bool
  | Fshade_alpha => alpha
  | Fshade_gradient => Q
  | Fbar_shade => bool
  | Fmultimodal => bool
  | Fbins => option Z
  | Fkde => kde_opt
  | Fsmooth => option Z
  | Fcolor_param => option string
  | Fcmap => string
  | Fnum_cloud => Q
  | Fplot_cloud => bool
  | Fplot_contour => bool
  | Fplot_point => bool
  | Fmarker_style => string
  | Fmarker_size => Q
  | Fmarker_alpha => Q
  | Fzorder => Z
  | Fshift_params => bool
  end.

(** chain.py:41-81 *)
Definition config := forall f : cfield, ctype f.

(** chain.py:51-81 the defaults *)
Definition default_config : config := fun f =>
  match f return ctype f with
  | Fstatistics => None
  | Fsummary_area => 6827 # 10000
  | Fsigmas => [0; 1; 2]
  | Fcolor => None
  | Flinestyle => "-"%string
  | Flinewidth => 1
  | Fshow_contour_labels => false
  | Fshade => true
  | Fshade_alpha => AQ (1 # 2)
  | Fshade_gradient => 1
  | Fbar_shade => true
  | Fmultimodal => false
  | Fbins => None
  | Fkde => KBool false
  | Fsmooth => None
  | Fcolor_param => None
  | Fcmap => "viridis"%string
  | Fnum_cloud => 10000
  | Fplot_cloud => false
  | Fplot_contour => true
  | Fplot_point => false
  | Fmarker_style => "."%string
  | Fmarker_size => 10
  | Fmarker_alpha => 1
  | Fzorder => 10%Z
  | Fshift_params => false
  end.

(** [setattr(self, key, value)] *)
(** chain.py:93, 97 *)
Definition cset (c : config) (f : cfield) (v : ctype f) : config := fun g =>
  match cfield_eq_dec f g with left e => eq_rect f ctype v g e | right _ => c g end.

(** A keyword argument [key=value]. *)
(** chain.py:90, 95 *)
Definition setting := { f : cfield & ctype f }.
(** chain.py:93, 97 *)
Definition set_one (c : config) (s : setting) : config := cset c (projT1 s) (projT2 s).

(** chain.py:95-97 _apply *)
Definition apply_settings (l : list setting) (c : config) : config := fold_left set_one l c.
(** chain.py:90-93 _apply_if_not_user_set *)
Definition apply_if_not_user_set (user : cfield -> bool) (l : list setting) (c : config) : config :=
  fold_left (fun c s => if user (projT1 s) then c else set_one c s) l c.

(** What the caller writes for a setting: as stored, except that a colour may be a name, hex code or
    RGB array. *)
(** chain.py:51-81, 83-88 *)
Definition itype (f : cfield) : Type :=
  match f with Fcolor => option colour_input | g => ctype g end.
(** The keyword arguments of ChainConfig(...)/Chain(...): [Some v] when the caller wrote the keyword. *)
(** chain.py:41-81, base.py:10-11 *)
Definition kwargs := forall f : cfield, option (itype f).

(** pydantic turns a ValueError or AssertionError raised by a validator into a ValidationError and lets
    every other exception escape. *)
(** pydantic, for chain.py:83-88, 231-241, 243-297 *)
Definition wrapped (e : exn) : exn :=
  match e with ValueError | AssertionError => ValidationError | e => e end.
(** pydantic, for chain.py:83-88, 231-241, 243-297 *)
Definition wrap {A} (r : res A) : res A := match r with Ok a => Ok a | Err e => Err (wrapped e) end.

(** chain.py:83-88 (ChainConfig) and chain.py:231-236 (Chain): the colour validators.  pydantic runs
    both on a Chain. *)
Definition convert_color (rgb2hex : list Q -> string) (v : option colour_input) : res (option string) :=
  match v with None => Ok None | Some c => rmap Some (format rgb2hex (Some c)) end.
(** chain.py:83-88, on a colour that is already a string *)
Definition revalidate_color (rgb2hex : list Q -> string) (v : option string) : res (option string) :=
  match v with None => Ok None | Some c => rmap Some (format rgb2hex (Some (CName c))) end.

(** Settings as given, colour converted, defaults elsewhere. *)
(** chain.py:51-88 *)
Definition fill (color : option (option string)) (k : kwargs) : config := fun f =>
  match f return option (itype f) -> ctype f with
  | Fcolor => fun _ => match color with Some c => c | None => default_config Fcolor end
  | Fstatistics => fun v => match v with Some x => x | None => default_config Fstatistics end
  | Fsummary_area => fun v => match v with Some x => x | None => default_config Fsummary_area end
  | Fsigmas => fun v => match v with Some x => x | None => default_config Fsigmas end
  | Flinestyle => fun v => match v with Some x => x | None => default_config Flinestyle end
  | Flinewidth => fun v => match v with Some x => x | None => default_config Flinewidth end
  | Fshow_contour_labels => fun v => match v with Some x => x | None => default_config Fshow_contour_labels end
  | Fshade => fun v => match v with Some x => x | None => default_config Fshade end
  | Fshade_alpha => fun v => match v with Some x => x | None => default_config Fshade_alpha end
  | Fshade_gradient => fun v => match v with Some x => x | None => default_config Fshade_gradient end
  | Fbar_shade => fun v => match v with Some x => x | None => default_config Fbar_shade end
  | Fmultimodal => fun v => match v with Some x => x | None => default_config Fmultimodal end
  | Fbins => fun v => match v with Some x => x | None => default_config Fbins end
  | Fkde => fun v => match v with Some x => x | None => default_config Fkde end
  | Fsmooth => fun v => match v with Some x => x | None => default_config Fsmooth end
  | Fcolor_param => fun v => match v with Some x => x | None => default_config Fcolor_param end
  | Fcmap => fun v => match v with Some x => x | None => default_config Fcmap end
  | Fnum_cloud => fun v => match v with Some x => x | None => default_config Fnum_cloud end
  | Fplot_cloud => fun v => match v with Some x => x | None => default_config Fplot_cloud end
  | Fplot_contour => fun v => match v with Some x => x | None => default_config Fplot_contour end
  | Fplot_point => fun v => match v with Some x => x | None => default_config Fplot_point end
  | Fmarker_style => fun v => match v with Some x => x | None => default_config Fmarker_style end
  | Fmarker_size => fun v => match v with Some x => x | None => default_config Fmarker_size end
  | Fmarker_alpha => fun v => match v with Some x => x | None => default_config Fmarker_alpha end
  | Fzorder => fun v => match v with Some x => x | None => default_config Fzorder end
  | Fshift_params => fun v => match v with Some x => x | None => default_config Fshift_params end
  end (k f).

(** base.py:10-12: the keys the caller wrote. *)
Definition user_keys (k : kwargs) : cfield -> bool := fun f => match k f with Some _ => true | None => false end.

(** chain.py:52 and 75: ge/le constraints on the settings (checked only on values the caller gave:
    the defaults satisfy them). *)
Definition config_ranges (c : config) : bool :=
  Qle_bool 0 (c Fsummary_area) && Qle_bool (c Fsummary_area) 1 && Qle_bool 1 (c Fmarker_size).

(** A ChainConfig object used as override. *)
(** chain.py:41-81, base.py:6-16 *)
Record config_obj := { o_cfg : config; o_user : cfield -> bool }.

(** ChainConfig(...): pydantic validation.  Unknown keywords are not modelled. *)
(** chain.py:41-88, base.py:10-11 *)
Definition new_config (rgb2hex : list Q -> string) (k : kwargs) : res config_obj :=
  rbind (match k Fcolor with Some v => rmap Some (wrap (convert_color rgb2hex v)) | None => Ok None end)
    (fun color =>
     let c := fill color k in
     if config_ranges c then Ok {| o_cfg := c; o_user := user_keys k |} else Err ValidationError).

(** base.py:16-17 get_user_specified_dump.  A Python set has no fixed order; the keys are distinct, so
    the order does not matter ([apply_settings] overwrites different keys). *)
Definition user_specified_dump (o : config_obj) : list setting :=
  map (fun f => existT ctype f (o_cfg o f)) (filter (o_user o) all_fields).
