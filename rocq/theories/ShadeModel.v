(** plotting/contours.py:193-202, 272-278: the colours of the contour levels. *)
From Coq Require Import String Ascii List Bool Arith ZArith QArith Reals Qreals.
From Verif Require Import Py NumModel ColorModel.
Import ListNotations.
Open Scope list_scope.

(** Python int(x) of a real number truncates towards zero. *)
(** color_finder.py:115-117 *)
Definition int_R (x : R) : Z := if Rle_dec 0 x then Int_part x else (- Int_part (- x))%Z.
(** color_finder.py:110-118 scale_colour for a real factor; [None] is NaN, which int() refuses (ValueError). *)
Definition scale_colour_R (color : string) (factor : option R) : res string :=
  rbind (format (fun _ => EmptyString) (Some (CName color))) (fun c =>
  let hexx := strip c in                                                           (* 111 *)
  if match factor with Some s => if Rlt_dec s 0 then true else false | None => false end then Ok hexx else   (* 112-113 *)
  match hexx with
  | String r1 (String r2 (String g1 (String g2 (String b1 (String b2 EmptyString))))) =>
      rbind (hex2 r1 r2) (fun r => rbind (hex2 g1 g2) (fun g => rbind (hex2 b1 b2) (fun b =>   (* 114 *)
      match factor with
      | None => Err ValueError                                                     (* 115 *)
      | Some s => let sc v := clamp (int_R (IZR v * s)) 0 255 in                   (* 115-117 *)
                  Ok (String hash (hex_of (sc r) (hex_of (sc g) (hex_of (sc b) EmptyString))))  (* 118 *)
      end)))
  | _ => Ok hexx                                                                   (* 112-113 *)
  end).
(** plotting/contours.py:272-278 _scale_colours: np.logspace raises 10 to its arguments, which are natural logarithms here.  A
    logarithm of a number that is not positive makes every factor NaN (the last of several, if its own logarithm exists,
    comes after the failure). *)
Definition log_scales (num : nat) (g : Q) : list (option R) :=
  let minv := Q2R (1 - (1 # 10) * g) in let maxv := Q2R (1 + (1 # 2) * g) in       (* 275 *)
  map (fun i => if Rlt_dec 0 minv then if Rlt_dec 0 maxv then Some (Rpower 10 (ln minv + INR i * ((ln maxv - ln minv) / INR (num - 1))))
                else None else None) (seq 0 num).                                  (* 276 *)
Definition scale_colours (colour : string) (num : nat) (g : Q) : res (list string) := rmapM (scale_colour_R colour) (log_scales num g).   (* 277 *)
(** plotting/contours.py:193-202: the colours of the bands and of the lines *)
Definition contour_colours (base : string) (num : nat) (g : Q) (shade : bool) : res (list string * list string) :=
  rbind (scale_colours base num g) (fun bands =>                                   (* 193 *)
  let sub0 := qmax (1 # 10) (1 - (1 # 5) * g) in                                   (* 194 *)
  let sub := if shade then (sub0 * (9 # 10))%Q else sub0 in                        (* 198-199 *)
  match bands with
  | [] => Err IndexError                                                           (* 200 *)
  | b :: _ => rbind (scale_colour (fun _ => EmptyString) (CName b) sub) (fun first =>
              rbind (rmapM (fun c => scale_colour (fun _ => EmptyString) (CName c) sub) (removelast bands)) (fun rest =>   (* 200-202 *)
              Ok (bands, first :: rest)))
  end).
