(** plotting/watermark.py: where and how large the watermark is written.  Real arithmetic stands for floating point. *)
From Coq Require Import String List Bool ZArith QArith Qreals Reals.
From Verif Require Import Py ColorModel ConfigModel RegistryModel FigureModel ConsumerSpec.
Import ListNotations.
Open Scope R_scope.

(** matplotlib's TextPath((0, 0), text, size=..., prop=..., usetex=...).get_extents(): width and height of the text at a font
    size.  [kwargs] stands for the font properties taken out of it (plotting/watermark.py:26-28). *)
Definition text_metrics := string -> dict pyval -> bool -> Z -> R * R.

(** Whether Python takes a value for true; [other] decides for values of further types. *)
(** plotting/watermark.py:29-30 *)
Definition truthy (other : nat -> bool) (v : pyval) : bool :=
  match v with
  | VNum q => negb (Qeq_bool q 0)
  | VStr s => negb (String.eqb s EmptyString)
  | VBool b => b
  | VOther n => other n
  end.
(** plotting/watermark.py:29-30 [if usetex]; None is false. *)
Definition rendered_by_tex (other : nat -> bool) (wm : watermark) : bool :=
  match wm_usetex wm with Some v => truthy other v | None => false end.

(** plotter.py:278, 425, 528, 679: size_scale of the triangle figure and of the three other ones *)
Definition triangle_scale : R := 1.
(** plotter.py:425, 528, 679 *)
Definition other_scale : R := 8 / 10.
(** plotter.py:278, 425, 528, 679 *)
Definition scale_of (d : drawing) : R := match d with DTriangle _ _ _ _ => triangle_scale | _ => other_scale end.

(** The text as passed to fig.text or axes.text: position, rotation in degrees, font size in points. *)
(** plotting/watermark.py:46-51 *)
Record mark := { mk_x : R; mk_y : R; mk_rotation : R; mk_size : Z }.

(** plotting/watermark.py:21-51 for a watermark that is written ([wm] holds its text, axis and keyword arguments).  np.arctan2(-dy, dx)
    is written for a positive width.  A text without extent divides by zero: numpy gives inf, which int refuses. *)
Definition layout (metrics : text_metrics) (other : nat -> bool) (fig_size : Q * Q) (dpi : Z) (size_scale : R) (wm : watermark) : res mark :=
  let dy := Q2R (snd fig_size) * IZR dpi in                                        (* 21-22 *)
  let dx := Q2R (fst fig_size) * IZR dpi in
  let rotation := 180 / PI * atan (- dy / dx) in                                   (* 23 *)
  let usetex := rendered_by_tex other wm in
  let scale := if usetex then 1 else 8 / 10 in                                     (* 30-33 *)
  let bb0 := metrics (wm_text wm) (wm_kwargs wm) usetex 50%Z in                    (* 35 *)
  let bb1 := metrics (wm_text wm) (wm_kwargs wm) usetex 51%Z in                    (* 36 *)
  let dw := (fst bb1 - fst bb0) * (IZR dpi / 100) in                               (* 37 *)
  let dh := (snd bb1 - snd bb0) * (IZR dpi / 100) in                               (* 38 *)
  let below := dh * Rabs (dy / dx) + dw in
  if Req_EM_T below 0 then Err OverflowError
  else
    let size := sqrt (dy ^ 2 + dx ^ 2) / below * (7 / 10) * scale * size_scale in  (* 39 *)
    let size := match wm_axis wm with                                              (* 40-44 *)
                | Some _ => size * (if usetex then 7 / 10 else 8 / 10)
                | None => size end in
    let trunc := if Rle_dec 0 size then Int_part size else (- Int_part (- size))%Z in   (* 45 int() *)
    Ok {| mk_x := 1 / 2; mk_y := 1 / 2; mk_rotation := rotation; mk_size := trunc |}.   (* 46-52 *)
