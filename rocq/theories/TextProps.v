(** C33: the text of a parameter's bounds. *)
From Coq Require Import String Ascii List Bool Arith ZArith QArith Qround Qabs Qpower Lia Lqa.
From Verif Require Import Py NumModel MarginalModel ConfigModel ChainModel ChainUseProofs FormatModel FormatSpec FormatProofs TextModel TextSpec TextProofs.
Import ListNotations.
Open Scope string_scope.
Open Scope list_scope.

Definition limits (b : bound) (l c u : Q) : Prop := b_lower b = Some l /\ b_center b = Some c /\ b_upper b = Some u.
Definition labelled (label : option string) (t : string) : string :=
  match label with Some s => if String.eqb s "" then t else (s ++ " = " ++ t)%string | None => t end.

(** A single bound, alone or as the only element of a list.  Missing from the documented claim: when the
    deciding error is between 10 and 100 the numbers are rounded twice, see [C33_half_unit_refuted]. *)
Theorem C33_single_partial : forall b l c u arg wrap label, limits b l c u -> ~ (l == 0 /\ c == 0 /\ u == 0)%Q -> arg = BOne b \/ arg = BMany [b] ->
  exists t out, text_shows true nearly_half_unit l c u t /\ dollars wrap (labelled label t) out /\ get_parameter_text arg wrap label = Ok out.
Proof.
  intros b l c u arg wrap label [EL [EC EU]] NZ HA. destruct (single_text b l c u true EL EC EU NZ) as [t [T1 T2]]. exists t. eexists. split; [exact T2|]. split; [|destruct HA as [-> | ->]; cbn [get_parameter_text]; unfold one_bound_text; rewrite EL, EU, EC, T1; cbn [rmap]; reflexivity].
  unfold dollars, wrapped, labelled. destruct label as [[|a s]|]; destruct wrap; reflexivity.
Qed.
Print Assumptions C33_single_partial.
Example C33_single_nonvacuous : get_parameter_text (BOne (mkB (122222 # 1) (123456 # 1) (125801 # 1))) true (Some "x") = Ok "$x = \left( 123.5^{+2.3}_{-1.2} \right) \times 10^{3}$".
Proof. vm_compute. reflexivity. Qed.
(** The numbers of bounds between 10 and 100 are rounded to one decimal and then to integers: center 13.46875
    is shown as 14. *)
Theorem C33_half_unit_refuted : exists b l c u, limits b l c u /\ (l < c < u)%Q /\ get_parameter_text (BOne b) false None = Ok "14\pm 16" /\ (1 # 2 < Qabs (14 - c))%Q.
Proof. exists (mkB ((431 # 32) - 16) (431 # 32) ((431 # 32) + 16)). do 3 eexists. split; [split; [reflexivity|split; reflexivity]|]. split; [split; vm_compute; reflexivity|]. split; vm_compute; reflexivity. Qed.
Print Assumptions C33_half_unit_refuted.
Theorem C33_missing : forall b wrap label, b_lower b = None \/ b_center b = None \/ b_upper b = None ->
  get_parameter_text (BOne b) wrap label = Ok "" /\ get_parameter_text (BMany [b]) wrap label = Ok "" /\ get_parameter_text BNone wrap label = Ok "".
Proof.
  intros [[l|] [c|] [u|]] wrap label H; cbn in H; destruct H as [H|[H|H]]; try discriminate H; repeat split; reflexivity.
Qed.
Print Assumptions C33_missing.
Example C33_missing_nonvacuous : b_lower {| b_lower := None; b_center := Some 3; b_upper := None |} = None. Proof. reflexivity. Qed.
(** A parameter that is exactly zero has no text. *)
Theorem C33_zero_refuted : exists b l c u, limits b l c u /\ (l <= c <= u)%Q /\ get_parameter_text (BOne b) false None = Err OverflowError.
Proof. exists (mkB 0 0 0), 0%Q, 0%Q, 0%Q. split; [split; [reflexivity|split; reflexivity]|]. split; [split; apply Qle_refl|reflexivity]. Qed.
Print Assumptions C33_zero_refuted.

(** ** Lists of bounds *)
Definition given (b : bound) : bool := match b_lower b with Some _ => true | None => false end.
Definition label_lines (wrap : bool) (label : option string) (ls : list string) : Prop :=
  match label with Some s => if String.eqb s "" then ls = [] else exists t, dollars wrap s t /\ ls = [t] | None => ls = [] end.
Lemma entry_lines_ok wrap : forall bs i, (forall b, In b bs -> exists l c u, limits b l c u /\ ~ (l == 0 /\ c == 0 /\ u == 0)%Q) ->
  exists lines, entry_lines wrap i bs = Ok lines /\ length lines = length bs /\
    forall j b, nth_error bs j = Some b -> exists l c u t t' n, limits b l c u /\ text_shows false nearly_half_unit l c u t /\ dollars wrap t t' /\ numeral n 0 (inject_Z (Z.of_nat (i + j))) /\ nth_error lines j = Some ("I" ++ n ++ ": " ++ t')%string.
Proof.
  induction bs as [|b bs IH]; intros i H; [exists []; split; [reflexivity|split; [reflexivity|intros [|j] b Hb; discriminate]]|].
  destruct (H b (or_introl eq_refl)) as [l [c [u [[EL [EC EU]] NZ]]]]. destruct (single_text b l c u false EL EC EU NZ) as [t [T1 T2]]. destruct (IH (S i)) as [lines [L1 [L2 L3]]]; [intros x Hx; apply H; right; exact Hx|].
  cbn [entry_lines]. rewrite T1. cbn [rbind]. rewrite L1. cbn [rbind].
  assert (NE : String.eqb t "" = false).
  { destruct T2 as (e & r & k & d & C & U & L & _ & _ & _ & _ & _ & _ & [[_ ->]|[_ [x [_ ->]]]]); [|reflexivity]. cbn [andb]. unfold expression. destruct C; reflexivity. }
  rewrite NE. eexists. split; [reflexivity|]. split; [cbn [length]; rewrite L2; reflexivity|]. intros [|j] b' Hb; cbn [nth_error] in *.
  - injection Hb as <-. exists l, c, u, t, (wrapped wrap t), (dec (Z.of_nat i)). split; [split; [exact EL|split; assumption]|]. split; [exact T2|]. split; [unfold dollars, wrapped; destruct wrap; reflexivity|]. split; [|reflexivity].
    rewrite Nat.add_0_r. pose proof (int_text_read (Z.of_nat i)) as N. unfold int_text in N. destruct (Z.ltb_spec (Z.of_nat i) 0) as [K|_]; [lia|exact N].
  - destruct (L3 j b' Hb) as (l' & c' & u' & t' & t'' & n & A). exists l', c', u', t', t'', n. replace (i + S j)%nat with (S i + j)%nat by lia. exact A.
Qed.
(** Several bands: one line for each bound, numbered from 1, after a line with the label if there is one. *)
Theorem C33_multimodal_partial : forall bs wrap label, (2 <= length bs)%nat ->
  (forall b, In b bs -> (b_lower b = None /\ b_center b = None /\ b_upper b = None) \/ exists l c u, limits b l c u /\ ~ (l == 0 /\ c == 0 /\ u == 0)%Q) ->
  (filter given bs = [] -> get_parameter_text (BMany bs) wrap label = Ok "") /\
  (filter given bs <> [] -> exists ls lines, label_lines wrap label ls /\ length lines = length (filter given bs) /\
     get_parameter_text (BMany bs) wrap label = Ok (String.concat (String (ascii_of_nat 10) "") (ls ++ lines)) /\
     forall j b, nth_error (filter given bs) j = Some b -> exists l c u t t' n, limits b l c u /\ text_shows false nearly_half_unit l c u t /\ dollars wrap t t' /\
       numeral n 0 (inject_Z (Z.of_nat (1 + j))) /\ nth_error lines j = Some ("I" ++ n ++ ": " ++ t')%string).
Proof.
  intros bs wrap label L2 H.
  assert (EF : filter (fun b => negb (all_none b)) bs = filter given bs).
  { apply filter_ext_in. intros b Hb. unfold all_none, given. destruct (H b Hb) as [[-> [-> ->]]|[l [c [u [[-> [-> ->]] _]]]]]; reflexivity. }
  assert (ET : get_parameter_text (BMany bs) wrap label = match filter given bs with [] => Ok "" | x :: r => rmap (fun lines => join nl ((match label with Some (String a s) => [wrapped wrap (String a s)] | _ => [] end) ++ lines)) (entry_lines wrap 1 (x :: r)) end).
  { destruct bs as [|b1 [|b2 bs]]; [cbn in L2; lia|cbn in L2; lia|]. unfold get_parameter_text. rewrite EF. destruct (filter given (b1 :: b2 :: bs)); reflexivity. }
  rewrite ET. split; [intros ->; reflexivity|]. intros NE. destruct (filter given bs) as [|x r] eqn:EG; [contradiction|]. rewrite <- EG.
  destruct (entry_lines_ok wrap (filter given bs) 1) as [lines [E1 [E2 E3]]].
  { intros b Hb. apply filter_In in Hb. destruct Hb as [Hb Gb]. destruct (H b Hb) as [[K _]|K]; [unfold given in Gb; rewrite K in Gb; discriminate|exact K]. }
  rewrite E1. cbn [rmap]. eexists _, lines. split; [|split; [exact E2|split; [reflexivity|exact E3]]]. unfold label_lines. destruct label as [[|a s]|]; try reflexivity. cbn [String.eqb]. exists (wrapped wrap (String a s)). split; [unfold dollars, wrapped; destruct wrap; reflexivity|reflexivity].
Qed.
Print Assumptions C33_multimodal_partial.
Example C33_multimodal_nonvacuous : get_parameter_text (BMany [mkB 0 1 2; {| b_lower := None; b_center := None; b_upper := None |}; mkB 9 10 12]) true (Some "x") =
  Ok ("$x$" ++ nl ++ "I1: $1.0^{+1.0}_{-1.0}$" ++ nl ++ "I2: $10.0^{+2.0}_{-1.0}$")%string.
Proof. vm_compute. reflexivity. Qed.
(** The empty list, and a list with a bound that is missing only some limits, raise. *)
Theorem C33_raises : forall wrap label, get_parameter_text (BMany []) wrap label = Err IndexError /\
  forall b rest, b_lower b = None \/ b_center b = None \/ b_upper b = None -> ~ (b_lower b = None /\ b_center b = None /\ b_upper b = None) -> rest <> [] ->
    get_parameter_text (BMany (b :: rest)) wrap label = Err TypeError.
Proof.
  intros wrap label. split; [reflexivity|]. intros b rest H1 H2 NE. destruct rest as [|x r]; [contradiction|]. unfold get_parameter_text. cbn [filter].
  assert (A : all_none b = false) by (destruct b as [[l|] [c|] [u|]]; cbn in *; try reflexivity; exfalso; apply H2; auto). rewrite A. cbn [negb].
  assert (F : format_single_bound b false = Err TypeError) by (destruct b as [[l|] [c|] [u|]]; cbn in *; try reflexivity; destruct H1 as [H1|[H1|H1]]; discriminate H1).
  destruct (if negb (all_none x) then _ else _); cbn [entry_lines]; rewrite F; reflexivity.
Qed.
Print Assumptions C33_raises.
