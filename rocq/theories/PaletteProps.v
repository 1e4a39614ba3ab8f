(** C52: the palettes and the short names. *)
From Coq Require Import String Ascii List Bool Arith ZArith QArith Lia.
From Verif Require Import Py ColorModel ColorSpec ColorProofs PaletteSpec.
Import ListNotations.
Open Scope string_scope.
Open Scope list_scope.

(** Reading off the channels *)
Definition digit_value (c : ascii) : option Z := option_map snd (find (fun p => Ascii.eqb c (fst p)) digit_table).
Definition channels (s : string) : option (Z * Z * Z) :=
  match s with
  | String h (String r1 (String r2 (String g1 (String g2 (String b1 (String b2 EmptyString)))))) =>
      if Ascii.eqb h hash then
        match digit_value r1, digit_value r2, digit_value g1, digit_value g2, digit_value b1, digit_value b2 with
        | Some x1, Some x2, Some y1, Some y2, Some z1, Some z2 => Some (16 * x1 + x2, 16 * y1 + y2, 16 * z1 + z2)%Z
        | _, _, _, _, _, _ => None
        end
      else None
  | _ => None
  end.
Lemma digit_value_ok c v : digit_value c = Some v -> is_digit c v.
Proof. unfold digit_value. destruct (find _ digit_table) as [[d w]|] eqn:E; [|discriminate]. intros H. injection H as <-. apply find_some in E as [E1 E2]. apply Ascii.eqb_eq in E2. cbn [fst] in E2. subst d. exact E1. Qed.
Lemma channels_ok s r g b : channels s = Some (r, g, b) -> is_colour s r g b.
Proof.
  destruct s as [|h [|r1 [|r2 [|g1 [|g2 [|b1 [|b2 [|x s]]]]]]]]; try discriminate. cbn [channels]. destruct (Ascii.eqb h hash) eqn:EH; [|discriminate]. apply Ascii.eqb_eq in EH. subst h.
  destruct (digit_value r1) as [x1|] eqn:E1; [|discriminate]. destruct (digit_value r2) as [x2|] eqn:E2; [|discriminate]. destruct (digit_value g1) as [y1|] eqn:E3; [|discriminate]. destruct (digit_value g2) as [y2|] eqn:E4; [|discriminate].
  destruct (digit_value b1) as [z1|] eqn:E5; [|discriminate]. destruct (digit_value b2) as [z2|] eqn:E6; [|discriminate]. intros H. injection H as <- <- <-.
  exists r1, r2, g1, g2, b1, b2, x1, x2, y1, y2, z1, z2. repeat split; try (apply digit_value_ok; assumption).
Qed.
Definition sum_of (s : string) : Z := match channels s with Some (r, g, b) => (r + g + b)%Z | None => (-1)%Z end.
Lemma sum_of_ok s t : (0 <=? sum_of t)%Z && (sum_of t <? sum_of s)%Z = true -> darker s t.
Proof.
  unfold sum_of. destruct (channels t) as [[[r' g'] b']|] eqn:E2; [|discriminate]. destruct (channels s) as [[[r g] b]|] eqn:E1; intros H; apply andb_true_iff in H as [H1 H2]; apply Z.leb_le in H1; apply Z.ltb_lt in H2; [|lia].
  exists r, g, b, r', g', b'. split; [apply channels_ok; exact E1|]. split; [apply channels_ok; exact E2|exact H2].
Qed.
Fixpoint darkening (l : list string) : bool := match l with s :: ((t :: _) as r) => (0 <=? sum_of t)%Z && (sum_of t <? sum_of s)%Z && darkening r | _ => true end.
Lemma darkening_ok : forall l i s t, darkening l = true -> nth_error l i = Some s -> nth_error l (S i) = Some t -> darker s t.
Proof.
  induction l as [|x [|y l] IH]; intros [|i] s t H E1 E2; try discriminate; try (destruct i; discriminate); cbn [darkening] in H; apply andb_true_iff in H as [H1 H2].
  - cbn [nth_error] in E1, E2. injection E1 as <-. injection E2 as <-. apply sum_of_ok. exact H1.
  - exact (IH i s t H2 E1 E2).
Qed.
Lemma palettes_ok : forallb (fun kv => (length (snd kv) =? 9)%nat && darkening (snd kv)) all_colours = true.
Proof. vm_compute. reflexivity. Qed.
(** Every palette has nine shades, each darker than the one before. *)
Theorem C52_shades : forall name shades, In (name, shades) all_colours -> length shades = 9%nat /\ forall i s t, nth_error shades i = Some s -> nth_error shades (S i) = Some t -> darker s t.
Proof.
  intros name shades H. pose proof palettes_ok as T. rewrite forallb_forall in T. specialize (T _ H). cbn [snd] in T. apply andb_true_iff in T as [T1 T2]. split; [apply Nat.eqb_eq; exact T1|]. intros i s t. apply darkening_ok. exact T2.
Qed.
Print Assumptions C52_shades.
(** A short name is as good as the name it stands for; k and black are the darkest grey, f and white the lightest. *)
Theorem C52_short_names : forall rgb2hex a name, In (a, name) short_names ->
  format rgb2hex (Some (CName a)) = format rgb2hex (Some (CName name)) /\ exists shades, In (name, shades) all_colours.
Proof.
  assert (T : forallb (fun p => match format_name (fst p), format_name (snd p), dget (snd p) all_colours with Ok c, Ok d, Some _ => String.eqb c d | _, _, _ => false end) short_names = true) by (vm_compute; reflexivity).
  rewrite forallb_forall in T. intros rgb a name H. specialize (T _ H). cbn [fst snd] in T. cbn [format]. destruct (format_name a) as [c|]; [|discriminate]. destruct (format_name name) as [d|]; [|discriminate]. destruct (dget name all_colours) as [sh|] eqn:E; [|discriminate].
  apply String.eqb_eq in T. subst d. split; [reflexivity|]. exists sh. apply dget_In. exact E.
Qed.
Print Assumptions C52_short_names.
Theorem C52_black_white : forall rgb2hex, exists shades darkest lightest, In ("gray", shades) all_colours /\ nth_error shades 8 = Some darkest /\ nth_error shades 0 = Some lightest /\
  format rgb2hex (Some (CName "k")) = Ok darkest /\ format rgb2hex (Some (CName "black")) = Ok darkest /\ format rgb2hex (Some (CName "f")) = Ok lightest /\ format rgb2hex (Some (CName "white")) = Ok lightest.
Proof.
  intros rgb. assert (T : match dget "gray" all_colours, format_name "k", format_name "f" with Some sh, Ok d, Ok l => nth_error sh 8 = Some d /\ nth_error sh 0 = Some l /\ format_name "black" = Ok d /\ format_name "white" = Ok l | _, _, _ => False end) by (vm_compute; repeat split; reflexivity).
  destruct (dget "gray" all_colours) as [sh|] eqn:E; [|contradiction]. destruct (format_name "k") as [d|] eqn:E1; [|contradiction]. destruct (format_name "f") as [l|] eqn:E2; [|contradiction]. destruct T as [T1 [T2 [T3 T4]]].
  exists sh, d, l. split; [apply dget_In; exact E|]. split; [exact T1|]. split; [exact T2|]. cbn [format]. repeat split; assumption.
Qed.
Print Assumptions C52_black_white.
(** The names of the primary colours mean what they say. *)
Theorem C52_primary : forall rgb2hex, (exists c, format rgb2hex (Some (CName "red")) = Ok c /\ reddish c) /\ (exists c, format rgb2hex (Some (CName "green")) = Ok c /\ greenish c) /\ (exists c, format rgb2hex (Some (CName "blue")) = Ok c /\ bluish c).
Proof.
  intros rgb. cbn [format].
  assert (K : forall n (P : Z -> Z -> Z -> bool), match format_name n with Ok c => match channels c with Some (r, g, b) => P r g b | None => false end | Err _ => false end = true ->
    exists c r g b, format_name n = Ok c /\ is_colour c r g b /\ P r g b = true).
  { intros n P H. destruct (format_name n) as [c|]; [|discriminate]. destruct (channels c) as [[[r g] b]|] eqn:E; [|discriminate]. exists c, r, g, b. split; [reflexivity|]. split; [apply channels_ok; exact E|exact H]. }
  destruct (K "red" (fun r g b => (g <? r) && (b <? r))%Z) as [c1 [r1 [g1 [b1 [E1 [I1 H1]]]]]]; [vm_compute; reflexivity|]. destruct (K "green" (fun r g b => (r <? g) && (b <? g))%Z) as [c2 [r2 [g2 [b2 [E2 [I2 H2]]]]]]; [vm_compute; reflexivity|].
  destruct (K "blue" (fun r g b => (r <? b) && (g <? b))%Z) as [c3 [r3 [g3 [b3 [E3 [I3 H3]]]]]]; [vm_compute; reflexivity|].
  apply andb_true_iff in H1 as [A1 B1]. apply andb_true_iff in H2 as [A2 B2]. apply andb_true_iff in H3 as [A3 B3]. apply Z.ltb_lt in A1, B1, A2, B2, A3, B3.
  split; [exists c1|split; [exists c2|exists c3]]; (split; [assumption|]); eexists _, _, _; (split; [eassumption|]); split; assumption.
Qed.
Print Assumptions C52_primary.
Example C52_palette_nonvacuous : (exists shades, In ("blue", shades) all_colours /\ nth_error shades 4 = Some "#3b82f6") /\ In ("lb", "sky") short_names /\ darker "#dbeafe" "#bfdbfe".
Proof. split; [eexists; split; [right; right; right; right; right; right; left; reflexivity|reflexivity]|]. split; [vm_compute; tauto|]. apply sum_of_ok. vm_compute. reflexivity. Qed.
