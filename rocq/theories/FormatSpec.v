(** Independent vocabulary for text: the documented table layout and reading decimal numerals. *)
From Coq Require Import String Ascii List Bool Arith ZArith QArith.
Import ListNotations.
Open Scope string_scope.
Open Scope list_scope.

(** The LaTeX table with the given caption, label, column specification and body. *)
Definition latex_table (caption label columns body : string) : string :=
  let newline := String (ascii_of_nat 10) EmptyString in
  ("\begin{table}" ++ newline ++ "    \centering" ++ newline ++ "    \caption{" ++ caption ++ "}" ++ newline ++
   "    \label{" ++ label ++ "}" ++ newline ++ "    \begin{tabular}{" ++ columns ++ "}" ++ newline ++
   "        " ++ body ++ "    \end{tabular}" ++ newline ++ "\end{table}")%string.
Definition contains (c : ascii) (s : string) : Prop := exists a b, s = (a ++ String c b)%string.

(** Reading a decimal numeral: optional minus sign, digits, optionally a point and more digits. *)
Fixpoint read_nat (s : string) (acc : Z) : option Z :=
  match s with
  | EmptyString => Some acc
  | String c r => let d := (Z.of_nat (nat_of_ascii c) - 48)%Z in
                  if ((0 <=? d) && (d <=? 9))%Z then read_nat r (acc * 10 + d)%Z else None
  end.
(** The part before the first point, and the part after it if there is one. *)
Fixpoint split_point (s : string) : string * option string :=
  match s with
  | EmptyString => (EmptyString, None)
  | String c r => if Ascii.eqb c "." then (EmptyString, Some r)
                  else let '(a, b) := split_point r in (String c a, b)
  end.
Definition read_unsigned (s : string) : option Q :=
  match split_point s with
  | (EmptyString, _) => None
  | (a, None) => option_map inject_Z (read_nat a 0)
  | (a, Some b) => match b, read_nat a 0, read_nat b 0 with
                   | EmptyString, _, _ => None
                   | _, Some x, Some y => Some (inject_Z x + inject_Z y / inject_Z (10 ^ Z.of_nat (String.length b)))%Q
                   | _, _, _ => None
                   end
  end.
Definition read_decimal (s : string) : option Q :=
  match s with
  | String c r => if Ascii.eqb c "-" then option_map Qopp (read_unsigned r) else read_unsigned s
  | EmptyString => None
  end.
(** The number of digits after the point. *)
Definition decimals (s : string) : nat := match split_point s with (_, Some b) => String.length b | _ => 0%nat end.

(** [s] is a decimal numeral with [d] digits after the point whose value is [v]. *)
Definition numeral (s : string) (d : nat) (v : Q) : Prop := (exists v', read_decimal s = Some v' /\ (v' == v)%Q) /\ decimals s = d.
(** ... and that value is as near to [x] as [d] digits allow. *)
Definition shows (s : string) (d : nat) (x : Q) : Prop :=
  exists v, numeral s d v /\ (-(1 # 2) <= (v - x) * inject_Z (10 ^ Z.of_nat d) <= 1 # 2)%Q.
