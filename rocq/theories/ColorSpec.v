(** Independent vocabulary for colours. *)
From Coq Require Import String Ascii List ZArith QArith Qround.
From Verif Require Import Py ColorModel.
Import ListNotations.
Open Scope char_scope.

(** The 22 hexadecimal digits and their values. *)
Definition digit_table : list (ascii * Z) :=
  [("0",0); ("1",1); ("2",2); ("3",3); ("4",4); ("5",5); ("6",6); ("7",7); ("8",8); ("9",9);
   ("a",10); ("b",11); ("c",12); ("d",13); ("e",14); ("f",15);
   ("A",10); ("B",11); ("C",12); ("D",13); ("E",14); ("F",15)]%Z.
Definition is_digit (c : ascii) (v : Z) : Prop := In (c, v) digit_table.

(** [s] is "#rrggbb" with channel values r, g, b. *)
Definition is_colour (s : string) (r g b : Z) : Prop :=
  exists r1 r2 g1 g2 b1 b2 x1 x2 y1 y2 z1 z2,
    s = String "#" (String r1 (String r2 (String g1 (String g2 (String b1 (String b2 EmptyString)))))) /\
    is_digit r1 x1 /\ is_digit r2 x2 /\ is_digit g1 y1 /\ is_digit g2 y2 /\ is_digit b1 z1 /\ is_digit b2 z2 /\
    r = (16 * x1 + x2)%Z /\ g = (16 * y1 + y2)%Z /\ b = (16 * z1 + z2)%Z.
Definition valid_colour (s : string) : Prop := exists r g b, is_colour s r g b.

(** A colour of the palette: one of the shades of one of the named colours. *)
Definition palette_colour (s : string) : Prop := exists name shades, In (name, shades) all_colours /\ In s shades.
