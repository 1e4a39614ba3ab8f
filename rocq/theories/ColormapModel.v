(** color_finder.py: colours drawn from a matplotlib colour map. *)
From Coq Require Import String List Bool ZArith QArith Qabs.
From Verif Require Import Py NumModel ColorModel.
Import ListNotations.
Open Scope Q_scope.

(** plt.get_cmap: the colour map of a name, from a position in [0, 1] to RGBA values, or its exception (ValueError). *)
(** color_finder.py:105 *)
Definition colour_maps := string -> res (Q -> list Q).

(** color_finder.py:104-108 get_colormap.  np.linspace refuses a negative number. *)
Definition get_colormap (rgb2hex : list Q -> string) (maps : colour_maps) (num : Z) (name : string) (scale : Q) : res (list string) :=
  rbind (maps name) (fun cm =>
  if (num <? 0)%Z then Err ValueError else
  let n := Z.to_nat num in
  rbind (get_formatted rgb2hex (map (fun x => CRgb (cm x)) (linspace (5 # 100) (9 # 10) n))) (fun color_list =>   (* 105 *)
  let scales := map (fun x => scale + (1 - scale) * Qabs (1 - x)) (linspace 0 2 n) in                              (* 106 *)
  rmapM (fun cs => scale_colour rgb2hex (CName (fst cs)) (snd cs)) (combine color_list scales))).                  (* 107-108 *)
(** color_finder.py:104 scale: float = 0.7 *)
Definition default_scale : Q := 7 # 10.
