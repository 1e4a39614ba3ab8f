(** Independent vocabulary for the text of parameter bounds. *)
From Coq Require Import String Ascii List Bool Arith ZArith QArith Qabs.
From Verif Require Import FormatSpec.
Import ListNotations.
Open Scope string_scope.
Open Scope list_scope.

(** The error that decides the precision: the smaller of the errors that are not zero; the center if both
    are zero. *)
Definition deciding (lower center upper e : Q) : Prop :=
  let up := Qabs (upper - center) in let lo := Qabs (center - lower) in
  (0 < e)%Q /\
  ((0 < up \/ 0 < lo)%Q -> (e == up \/ e == lo)%Q /\ (0 < up -> e <= up)%Q /\ (0 < lo -> e <= lo)%Q) /\
  ((up == 0 /\ lo == 0)%Q -> (e == Qabs center)%Q).

(** The numeral [s] with [d] decimals, taken times 10^k, is a multiple of [unit] and differs from [x] by at
    most [tolerance] units. *)
Definition shown (s : string) (d : nat) (k : Z) (unit tolerance x : Q) : Prop :=
  exists v, numeral s d v /\ (exists m : Z, v * 10 ^ k == inject_Z m * unit)%Q /\ (Qabs (v * 10 ^ k - x) <= tolerance * unit)%Q.

Definition expression (symmetric : bool) (C U L : string) : string :=
  if symmetric then (C ++ "\pm " ++ L)%string else (C ++ "^{+" ++ U ++ "}_{-" ++ L ++ "}")%string.
(** [t] shows [body] times 10^k. *)
Definition times_power (k : Z) (body t : string) : Prop :=
  (k = 0%Z /\ t = body) \/
  (k <> 0%Z /\ exists e, numeral e 0 (inject_Z k) /\ t = ("\left( " ++ body ++ " \right) \times 10^{" ++ e ++ "}")%string).

(** [t] shows the bound: two significant digits for the deciding error, every number rounded to the same
    decimal place 10^r, and the symmetric form (if allowed at all) exactly when both errors are shown alike. *)
Definition text_shows (symmetric_allowed : bool) (tolerance : Q -> Q) (lower center upper : Q) (t : string) : Prop :=
  exists e r k d C U L,
    deciding lower center upper e /\ (10 * 10 ^ r <= e)%Q /\ (e < 100 * 10 ^ r)%Q /\
    shown C d k (10 ^ r) (tolerance e) center /\
    shown U d k (10 ^ r) (tolerance e) (upper - center)%Q /\
    shown L d k (10 ^ r) (tolerance e) (center - lower)%Q /\
    times_power k (expression (symmetric_allowed && String.eqb U L) C U L) t.

(** Half a unit; when the deciding error is at least 10 and less than 100, 0.55 units. *)
Definition half_unit (e : Q) : Q := 1 # 2.
Definition nearly_half_unit (e : Q) : Q := if Qle_bool 10 e && negb (Qle_bool 100 e) then 11 # 20 else 1 # 2.

(** Dollar signs around [s] if wanted. *)
Definition dollars (wrap : bool) (s t : string) : Prop := if wrap then t = ("$" ++ s ++ "$")%string else t = s.
