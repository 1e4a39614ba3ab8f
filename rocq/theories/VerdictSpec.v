(** Independent vocabulary for the log of the diagnostics. *)
From Coq Require Import String Ascii List Bool Arith ZArith QArith Reals Qreals.
From Verif Require Import Py NumSpec NumModel FrameModel ConfigModel ChainModel RegistryModel ChainSpec FormatSpec CompareSpec DiagModel DiagSpec WarnModel.
Import ListNotations.
Open Scope string_scope.
Open Scope list_scope.

(** The text of the ratio R-hat of a parameter: five decimals, "nan" where there is nothing to compare (one step per
    walker, or no variance at all), "inf" where only the walkers differ; at least seven characters wide. *)
Definition shows_ratio (x : list Q) (m n : nat) (t : string) : Prop :=
  exists s, padded 7 s t /\
    ((n <= 1)%nat /\ s = "nan" \/
     (2 <= n)%nat /\ exists W B, walker_variances x m n W B /\
       ((W == 0)%Q /\ (B == 0)%Q /\ s = "nan" \/
        (W == 0)%Q /\ ~ (B == 0)%Q /\ s = "inf" \/
        ~ (W == 0)%Q /\ shows_R s 5 (sqrt (Q2R (computed_ratio m n W B))))).
(** A parameter passes. *)
Definition converged (x : list Q) (m n : nat) (threshold : Q) : Prop :=
  (2 <= n)%nat /\ exists W B, walker_variances x m n W B /\ ~ (W == 0)%Q /\ near_one (computed_ratio m n W B) threshold.
(** The line about the parameter [p] with the samples [x]. *)
Definition parameter_line (m n : nat) (threshold : Q) (p : string) (x : list Q) (line : string) : Prop :=
  exists t verdict, line = (p ++ ": " ++ t ++ " (" ++ verdict ++ ")")%string /\ shows_ratio x m n t /\
    (converged x m n threshold /\ verdict = "Passed" \/ ~ converged x m n threshold /\ verdict = "Failed").
(** A line that reports a failure. *)
Definition says_failed (line : string) : Prop := exists s, line = (s ++ " (Failed)")%string.

(** What several chains log: [single] is what the call logs and returns for a single chain object.  They come in turn; the
    first chain that cannot be tested, which logs nothing, ends the call. *)
Definition in_turn (single : nat -> logged test_result) (ls : list nat) (whole : logged test_result) : Prop :=
  match snd whole with
  | Ok _ => ls <> [] /\ Forall (fun l => exists t, snd (single l) = Ok t) ls /\ fst whole = concat (map (fun l => fst (single l)) ls)
  | Err e => (ls = [] /\ e = IndexError /\ fst whole = []) \/
             exists before l after, ls = before ++ l :: after /\ Forall (fun l => exists t, snd (single l) = Ok t) before /\
               single l = ([], Err e) /\ fst whole = concat (map (fun l => fst (single l)) before)
  end.
