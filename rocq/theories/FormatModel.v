(** Python text formatting used by the tables and the parameter text: [str % tuple-of-str], fixed-point
    numbers, and helpers.py's table frame.  A str is a [string] (code points below 256).  These are
    Python semantics (CPython 3.11), except [table_frame], which is ChainConsumer code. *)
From Coq Require Import String Ascii List Bool Arith ZArith QArith Qround Qabs Reals Lia.
From Verif Require Import Py NumModel ConfigModel ChainModel.
Import ListNotations.
Open Scope string_scope.
Open Scope list_scope.

(** analysis.py:147-177, 362-380, comparisons.py:181-217 write this character *)
Definition nl : string := String (ascii_of_nat 10) EmptyString.
(** analysis.py:149-177, comparisons.py:189-215 write this character *)
Definition tab : string := String (ascii_of_nat 9) EmptyString.
(** analysis.py:373, 377 pad with spaces *)
Definition spaces (n : nat) : string := String.concat "" (repeat " " n).
(** [sep.join(l)] *)
(** analysis.py:151, 161, 164, 175, 370, 429 *)
Definition join (sep : string) (l : list string) : string := String.concat sep l.
(** [s.rjust(w)] *)
(** analysis.py:373-375, comparisons.py:207-211 *)
Definition rjust (w : nat) (s : string) : string := (spaces (w - String.length s) ++ s)%string.

(** ** The % operator on strings *)
(** analysis.py:178, 366, 373-380, 486-493 and comparisons.py:217, the operator % *)
Inductive stage := AfterPct | Flags | Width | Dot | Prec | Len.
(** analysis.py:178, 366, 373-380, 486-493 and comparisons.py:217, the operator % *)
Record directive := { d_stage : stage; d_left : bool; d_width : Z; d_prec : option Z }.
(** analysis.py:178, 366, 373-380, 486-493 and comparisons.py:217, the operator % *)
Definition fresh : directive := {| d_stage := AfterPct; d_left := false; d_width := 0; d_prec := None |}.
(** analysis.py:178, 366, 373-380, 486-493 and comparisons.py:217, the operator % *)
Definition char_in (c : ascii) (l : string) : bool := existsb (Ascii.eqb c) (list_ascii_of_string l).
(** analysis.py:178, 366, 373-380, 486-493 and comparisons.py:217, the operator % *)
Definition is_digit (c : ascii) : bool := char_in c "0123456789".
(** analysis.py:178, 366, 373-380, 486-493 and comparisons.py:217, the operator % *)
Definition digit_val (c : ascii) : Z := Z.of_nat (nat_of_ascii c) - 48.
(** analysis.py:178, 366, 373-380, 486-493 and comparisons.py:217, the operator % *)
Definition early (s : stage) : bool := match s with AfterPct | Flags => true | _ => false end.
(** What the next character does: continue the directive, fail, or be the conversion. *)
(** analysis.py:178, 366, 373-380, 486-493 and comparisons.py:217, the operator % *)
Inductive action := Continue (d : directive) | Fail (e : exn) | Convert.
(** analysis.py:178, 366, 373-380, 486-493 and comparisons.py:217, the operator % *)
Definition with_stage (d : directive) (s : stage) : directive :=
  {| d_stage := s; d_left := d_left d; d_width := d_width d; d_prec := d_prec d |}.
(** analysis.py:178, 366, 373-380, 486-493 and comparisons.py:217, the operator % *)
Definition classify (d : directive) (c : ascii) : action :=
  let s := d_stage d in
  if match s with AfterPct => Ascii.eqb c "(" | _ => false end then Fail TypeError       (* needs a mapping *)
  else if early s && char_in c "-+ #0" then
    Continue {| d_stage := Flags; d_left := d_left d || Ascii.eqb c "-"; d_width := d_width d; d_prec := d_prec d |}
  else if early s && Ascii.eqb c "*" then Fail TypeError                                (* wants an int *)
  else if (early s || match s with Width => true | _ => false end) && is_digit c then
    Continue {| d_stage := Width; d_left := d_left d; d_width := d_width d * 10 + digit_val c; d_prec := d_prec d |}
  else if (early s || match s with Width => true | _ => false end) && Ascii.eqb c "." then
    Continue {| d_stage := Dot; d_left := d_left d; d_width := d_width d; d_prec := Some 0%Z |}
  else if match s with Dot => Ascii.eqb c "*" | _ => false end then Fail TypeError
  else if match s with Dot | Prec => is_digit c | _ => false end then
    Continue {| d_stage := Prec; d_left := d_left d; d_width := d_width d;
                d_prec := Some (match d_prec d with Some p => p * 10 + digit_val c | None => digit_val c end)%Z |}
  else if match s with Len => false | _ => char_in c "hlL" end then Continue (with_stage d Len)
  else Convert.
(** analysis.py:178, 366, 373-380, 486-493 and comparisons.py:217, the operator % *)
Definition truncate (p : option Z) (s : string) : string :=
  match p with Some k => substring 0 (Z.to_nat k) s | None => s end.
(** analysis.py:178, 366, 373-380, 486-493 and comparisons.py:217, the operator % *)
Definition justify (d : directive) (s : string) : string :=
  let fill := spaces (Z.to_nat (d_width d) - String.length s) in
  if d_left d then (s ++ fill)%string else (fill ++ s)%string.
(** The conversion of a string argument; [repr], [ascii_repr]: Python's repr() and ascii(). *)
(** analysis.py:178, 366, 373-380, 486-493 and comparisons.py:217, the operator % *)
Definition convert (repr ascii_repr : string -> string) (d : directive) (c : ascii) (a : string) : res string :=
  if Ascii.eqb c "s" then Ok (justify d (truncate (d_prec d) a))
  else if Ascii.eqb c "r" then Ok (justify d (truncate (d_prec d) (repr a)))
  else if Ascii.eqb c "a" then Ok (justify d (truncate (d_prec d) (ascii_repr a)))
  else if char_in c "diuoxXeEfFgG" then Err TypeError
  else if Ascii.eqb c "c" then (if (String.length a =? 1)%nat then Ok (justify d a) else Err TypeError)
  else Err ValueError.
(** analysis.py:178, 366, 373-380, 486-493 and comparisons.py:217, the operator % *)
Definition percent : ascii := "%"%char.
(** analysis.py:178, 366, 373-380, 486-493 and comparisons.py:217, the operator % *)
Fixpoint pct (repr ascii_repr : string -> string) (s : string) (st : option directive) (args : list string) : res string :=
  match s with
  | EmptyString => match st, args with Some _, _ => Err ValueError | None, [] => Ok EmptyString | None, _ => Err TypeError end
  | String c r =>
      match st with
      | None => if Ascii.eqb c percent then pct repr ascii_repr r (Some fresh) args
                else rmap (String c) (pct repr ascii_repr r None args)
      | Some d =>
          match classify d c with
          | Continue d' => pct repr ascii_repr r (Some d') args
          | Fail e => Err e
          | Convert =>
              if Ascii.eqb c percent && match d_stage d with AfterPct => true | _ => false end
              then rmap (String c) (pct repr ascii_repr r None args)
              else match args with
                   | [] => Err TypeError
                   | a :: rest => rbind (convert repr ascii_repr d c a) (fun t => rmap (fun o => (t ++ o)%string) (pct repr ascii_repr r None rest))
                   end
          end
      end
  end.
(** analysis.py:178, 366, 373-380, 486-493 and comparisons.py:217, the operator % *)
Definition pct_format (repr ascii_repr : string -> string) (fmt : string) (args : list string) : res string :=
  pct repr ascii_repr fmt None args.

(** helpers.py:133-141 get_latex_table_frame *)
Definition table_frame (caption label : string) : string :=
  ("\begin{table}" ++ nl ++ "    \centering" ++ nl ++ "    \caption{" ++ caption ++ "}" ++ nl ++
   "    \label{" ++ label ++ "}" ++ nl ++ "    \begin{tabular}{%s}" ++ nl ++ "        %s    \end{tabular}" ++ nl ++ "\end{table}")%string.
(** [get_latex_table_frame(caption, label) % (column_text, center_text)]: analysis.py:178, 380, comparisons.py:217 *)
Definition table (repr ascii_repr : string -> string) (caption label column_text center_text : string) : res string :=
  pct_format repr ascii_repr (table_frame caption label) [column_text; center_text].

(** ** Numbers *)
(** Nearest integer, ties to even. *)
(** analysis.py:475-477, 486-491 *)
Definition round_even (q : Q) : Z :=
  let f := Qfloor q in
  match (q - inject_Z f ?= 1 # 2)%Q with
  | Lt => f
  | Gt => f + 1
  | Eq => if Z.even f then f else f + 1
  end%Z.
(** The same for a real number. *)
(** comparisons.py:207-211 *)
Definition round_even_R (x : R) : Z :=
  let f := (up x - 1)%Z in
  match total_order_T (x - IZR f) (/ 2) with
  | inleft (left _) => f
  | inleft (right _) => if Z.even f then f else (f + 1)%Z
  | inright _ => (f + 1)%Z
  end.
(** The last [d] decimal digits of [z]. *)
(** analysis.py:486-491 *)
Fixpoint digits_n (d : nat) (z : Z) : string :=
  match d with O => EmptyString | S k => (digits_n k (z / 10) ++ digit (z mod 10))%string end.
(** analysis.py:486-491 *)
Definition pow10 (d : nat) : Z := (10 ^ Z.of_nat d)%Z.
(** "%0.df": the text of [z] / 10^d, [z] not negative, with a sign in front if [neg]. *)
(** analysis.py:486-491 *)
Definition render (neg : bool) (d : nat) (z : Z) : string :=
  ((if neg then "-" else "") ++ dec (z / pow10 d) ++ (match d with O => "" | _ => "." ++ digits_n d (z mod pow10 d) end))%string.
(** "%0.df" % q and f"{q:.df}" for an exact number; minus zero is not modelled. *)
(** analysis.py:486-491 *)
Definition fixed (d : nat) (q : Q) : string := render (negb (Qle_bool 0 q)) d (round_even (Qabs q * inject_Z (pow10 d))).
(** comparisons.py:207-211 *)
Definition fixed_R (d : nat) (x : R) : string := render (if Rlt_dec x 0 then true else false) d (round_even_R (Rabs x * IZR (pow10 d))).
(** "%d" *)
(** analysis.py:493 *)
Definition int_text (z : Z) : string := if (z <? 0)%Z then ("-" ++ dec (- z))%string else dec z.
