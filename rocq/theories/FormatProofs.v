(** Proofs about text formatting. *)
From Coq Require Import String Ascii List Bool Arith ZArith QArith Qround Qabs Lia Reals Qreals Lra Lqa.
From Verif Require Import Py NumModel NumFacts ConfigModel ChainModel ChainUseProofs FormatModel FormatSpec.
Import ListNotations.
Open Scope string_scope.
Open Scope list_scope.

(** ** Strings *)
Lemma sapp_assoc a b c : ((a ++ b) ++ c = a ++ (b ++ c))%string.
Proof. induction a as [|x a IH]; [reflexivity|]. cbn. rewrite IH. reflexivity. Qed.
Lemma sapp_nil a : (a ++ "" = a)%string.
Proof. induction a as [|x a IH]; [reflexivity|]. cbn. rewrite IH. reflexivity. Qed.
Lemma sapp_len a b : String.length (a ++ b)%string = (String.length a + String.length b)%nat.
Proof. induction a as [|x a IH]; [reflexivity|]. cbn. rewrite IH. reflexivity. Qed.
Lemma contains_nil c : ~ contains c "".
Proof. intros [a [b H]]. destruct a; discriminate. Qed.
Lemma contains_cons c x s : contains c (String x s) <-> x = c \/ contains c s.
Proof.
  split.
  - intros [a [b H]]. destruct a as [|y a]; cbn in H; injection H as -> H; [left; reflexivity|]. right. exists a, b. exact H.
  - intros [->|[a [b ->]]]; [exists "", s; reflexivity|exists (String x a), b; reflexivity].
Qed.
Lemma contains_app c a b : contains c (a ++ b)%string <-> contains c a \/ contains c b.
Proof.
  induction a as [|x a IH]; cbn; [split; [tauto|intros [H|H]; [exfalso; exact (contains_nil c H)|exact H]]|]. rewrite !contains_cons, IH. tauto.
Qed.
Lemma contains_dec c s : {contains c s} + {~ contains c s}.
Proof.
  induction s as [|x s IH]; [right; apply contains_nil|]. destruct (ascii_dec x c) as [->|N]; [left; apply contains_cons; left; reflexivity|].
  destruct IH as [H|H]; [left; apply contains_cons; right; exact H|]. right. rewrite contains_cons. intros [K|K]; contradiction.
Qed.

(** ** The % operator *)
Section pct.
Variables repr arepr : string -> string.
Notation pct := (pct repr arepr).
Lemma pct_lit s t args : ~ contains percent s -> pct (s ++ t) None args = rmap (fun o => (s ++ o)%string) (pct t None args).
Proof.
  induction s as [|c s IH]; intros H; cbn [String.append]; [destruct (pct t None args); reflexivity|]. cbn [FormatModel.pct]. rewrite contains_cons in H.
  destruct (Ascii.eqb_spec c percent) as [->|N]; [exfalso; apply H; left; reflexivity|]. rewrite IH by tauto. destruct (pct t None args); reflexivity.
Qed.
Lemma classify_brace d : classify d "}" = Convert.
Proof. destruct d as [s l w p]. destruct s; reflexivity. Qed.
Lemma convert_brace d a : convert repr arepr d "}" a = Err ValueError.
Proof. reflexivity. Qed.
(** A stretch of text followed by a closing brace: an error, or it uses up an argument, or its output is no
    longer than itself, and shorter if it contains a percent sign. *)
Lemma segment s2 : forall s1 st args,
  (exists e, pct (s1 ++ String "}" s2) st args = Err e) \/
  (exists out args', pct (s1 ++ String "}" s2) st args = rmap (fun o => (out ++ o)%string) (pct (String "}" s2) None args') /\
    ((length args' < length args)%nat \/
     (args' = args /\ (String.length out <= String.length s1)%nat /\ (st = None -> contains percent s1 -> (String.length out < String.length s1)%nat)))).
Proof.
  remember (String "}" s2) as t eqn:Et.
  induction s1 as [|c s1 IH]; intros st args.
  - destruct st as [d|].
    + left. rewrite Et. cbn [String.append FormatModel.pct]. rewrite classify_brace. cbn [Ascii.eqb andb]. destruct args as [|a r]; [eexists; reflexivity|]. rewrite convert_brace. eexists. reflexivity.
    + right. exists "", args. split; [cbn [String.append]; destruct (pct t None args); reflexivity|]. right. split; [reflexivity|]. split; [cbn; lia|]. intros _ H. exfalso. exact (contains_nil _ H).
  - cbn [String.append FormatModel.pct]. destruct st as [d|].
    + destruct (classify d c) as [d'|e|] eqn:EC.
      * destruct (IH (Some d') args) as [H|[out [args' [H1 H2]]]]; [left; exact H|]. right. exists out, args'. split; [exact H1|].
        destruct H2 as [H2|[H2 [H3 _]]]; [left; exact H2|]. right. split; [exact H2|]. split; [cbn; lia|]. discriminate.
      * left. eexists. reflexivity.
      * destruct (Ascii.eqb c percent && _)%bool.
        -- destruct (IH None args) as [[e H]|[out [args' [H1 H2]]]]; [left; exists e; rewrite H; reflexivity|]. right. exists (String c out), args'. rewrite H1. split; [destruct (pct t None args'); reflexivity|].
           destruct H2 as [H2|[H2 [H3 _]]]; [left; exact H2|]. right. split; [exact H2|]. split; [cbn; lia|discriminate].
        -- destruct args as [|a rest]; [left; eexists; reflexivity|]. destruct (convert repr arepr d c a) as [tx|e]; [|left; eexists; reflexivity]. cbn [rbind].
           destruct (IH None rest) as [[e H]|[out [args' [H1 H2]]]]; [left; exists e; rewrite H; reflexivity|]. right. exists (tx ++ out)%string, args'. rewrite H1.
           split; [destruct (pct t None args'); cbn [rmap]; rewrite ?sapp_assoc; reflexivity|]. left. destruct H2 as [H2|[-> _]]; cbn [length]; lia.
    + destruct (Ascii.eqb_spec c percent) as [->|N].
      * destruct (IH (Some fresh) args) as [H|[out [args' [H1 H2]]]]; [left; exact H|]. right. exists out, args'. split; [exact H1|].
        destruct H2 as [H2|[H2 [H3 _]]]; [left; exact H2|]. right. split; [exact H2|]. split; [cbn; lia|]. intros _ _. cbn. lia.
      * destruct (IH None args) as [[e H]|[out [args' [H1 H2]]]]; [left; exists e; rewrite H; reflexivity|]. right. exists (String c out), args'. rewrite H1. split; [destruct (pct t None args'); reflexivity|].
        destruct H2 as [H2|[H2 [H3 H4]]]; [left; exact H2|]. right. split; [exact H2|]. split; [cbn; lia|]. intros _ HC. apply contains_cons in HC. destruct HC as [HC|HC]; [contradiction|]. specialize (H4 eq_refl HC). cbn. lia.
Qed.
End pct.

(** ** The table frame *)
Definition head1 : string := ("\begin{table}" ++ nl ++ "    \centering" ++ nl ++ "    \caption{")%string.
Definition head2 : string := ("}" ++ nl ++ "    \label{")%string.
Definition head3 : string := ("}" ++ nl ++ "    \begin{tabular}{")%string.
Definition mid : string := ("}" ++ nl ++ "        ")%string.
Definition foot : string := ("    \end{tabular}" ++ nl ++ "\end{table}")%string.
Lemma frame_parts caption label : table_frame caption label = (head1 ++ (caption ++ (head2 ++ (label ++ (head3 ++ ("%s" ++ (mid ++ ("%s" ++ foot))))))))%string.
Proof. unfold table_frame, head1, head2, head3, mid, foot. rewrite !sapp_assoc. reflexivity. Qed.
Lemma table_parts caption label cols body : latex_table caption label cols body = (head1 ++ (caption ++ (head2 ++ (label ++ (head3 ++ (cols ++ (mid ++ (body ++ foot))))))))%string.
Proof. unfold latex_table, head1, head2, head3, mid, foot, nl. rewrite !sapp_assoc. reflexivity. Qed.
Ltac no_percent := let H := fresh in intros H; repeat (rewrite contains_cons in H || rewrite contains_app in H); repeat (destruct H as [H|H]; [discriminate H|]); exact (contains_nil _ H).
Lemma np1 : ~ contains percent head1. Proof. unfold head1, nl. cbn [String.append]. no_percent. Qed.
Lemma np2 : ~ contains percent head2. Proof. unfold head2, nl. cbn [String.append]. no_percent. Qed.
Lemma np3 : ~ contains percent head3. Proof. unfold head3, nl. cbn [String.append]. no_percent. Qed.
Lemma np4 : ~ contains percent mid. Proof. unfold mid, nl. cbn [String.append]. no_percent. Qed.
Lemma np5 : ~ contains percent foot. Proof. unfold foot, nl. cbn [String.append]. no_percent. Qed.
Lemma pct_s repr arepr t args : pct repr arepr ("%s" ++ t)%string None args = match args with [] => Err TypeError | a :: rest => rmap (fun o => (a ++ o)%string) (pct repr arepr t None rest) end.
Proof.
  cbn [String.append]. change (pct repr arepr (String "%" (String "s" t)) None args) with (pct repr arepr (String "s" t) (Some fresh) args).
  cbn [pct]. change (classify fresh "s") with Convert. cbn [Ascii.eqb andb]. destruct args as [|a rest]; [reflexivity|].
  assert (E : convert repr arepr fresh "s" a = Ok a). { unfold convert. cbn [Ascii.eqb Bool.eqb]. unfold justify, fresh, truncate, d_width, d_left, d_prec. cbn. reflexivity. }
  rewrite E. reflexivity.
Qed.
Lemma tail_pct repr arepr args : pct repr arepr (head3 ++ ("%s" ++ (mid ++ ("%s" ++ foot))))%string None args =
  match args with [a; b] => Ok (head3 ++ (a ++ (mid ++ (b ++ foot))))%string | _ => Err TypeError end.
Proof.
  rewrite (pct_lit repr arepr head3) by exact np3. rewrite pct_s. destruct args as [|a args]; [reflexivity|]. rewrite (pct_lit repr arepr mid) by exact np4. rewrite pct_s. destruct args as [|b args]; [reflexivity|].
  assert (E : pct repr arepr foot None args = match args with [] => Ok foot | _ => Err TypeError end).
  { rewrite <- (sapp_nil foot). rewrite (pct_lit repr arepr foot) by exact np5. destruct args; reflexivity. }
  rewrite E. destruct args; reflexivity.
Qed.
Lemma table_verbatim repr arepr caption label cols body : ~ contains percent caption -> ~ contains percent label ->
  table repr arepr caption label cols body = Ok (latex_table caption label cols body).
Proof.
  intros HC HL. unfold table, pct_format. rewrite frame_parts, table_parts. rewrite (pct_lit repr arepr head1) by exact np1. rewrite (pct_lit repr arepr caption) by exact HC.
  rewrite (pct_lit repr arepr head2) by exact np2. rewrite (pct_lit repr arepr label) by exact HL. rewrite tail_pct. reflexivity.
Qed.
Lemma table_not_verbatim repr arepr caption label cols body : contains percent caption \/ contains percent label ->
  table repr arepr caption label cols body <> Ok (latex_table caption label cols body).
Proof.
  intros HC. unfold table, pct_format. rewrite frame_parts, table_parts. rewrite (pct_lit repr arepr head1) by exact np1.
  set (args := [cols; body]).
  assert (B3 : exists t, (head3 ++ ("%s" ++ (mid ++ ("%s" ++ foot))) = String "}" t)%string) by (eexists; reflexivity). destruct B3 as [t3 E3].
  assert (B2 : exists t, (head2 ++ (label ++ (head3 ++ ("%s" ++ (mid ++ ("%s" ++ foot))))) = String "}" t)%string) by (eexists; reflexivity). destruct B2 as [t2 E2].
  destruct (segment repr arepr t2 caption None args) as [[e H]|[out [a1 [H1 H2]]]].
  { rewrite <- E2 in H. rewrite H. discriminate. }
  rewrite <- E2 in H1. rewrite H1. rewrite (pct_lit repr arepr head2) by exact np2.
  destruct (segment repr arepr t3 label None a1) as [[e H]|[out2 [a2 [K1 K2]]]].
  { rewrite <- E3 in H. rewrite H. discriminate. }
  rewrite <- E3 in K1. rewrite K1, tail_pct. intros HE.
  assert (A2 : a2 = args /\ a1 = args).
  { destruct a2 as [|x [|y [|z a2]]]; try discriminate HE. destruct H2 as [H2|[-> _]].
    - exfalso. unfold args in H2. cbn in H2. destruct K2 as [K2|[K2 _]]; [|rewrite <- K2 in H2]; cbn [length] in *; lia.
    - destruct K2 as [K2|[K2 _]]; [unfold args in K2; cbn in K2; lia|]. split; [exact K2|reflexivity]. }
  destruct A2 as [-> ->]. destruct H2 as [H2|[_ [H2 H3]]]; [exfalso; exact (Nat.lt_irrefl _ H2)|]. destruct K2 as [K2|[_ [K2 K3]]]; [exfalso; exact (Nat.lt_irrefl _ K2)|]. unfold args in HE. cbn [rmap] in HE.
  apply (f_equal (fun r => match r with Ok o => String.length o | Err _ => 0%nat end)) in HE. cbv beta iota in HE. rewrite !sapp_len in HE. destruct HC as [HC|HC]; [specialize (H3 eq_refl HC)|specialize (K3 eq_refl HC)]; lia.
Qed.

(** ** Numbers *)
Open Scope Q_scope.
Lemma round_even_near q : -(1 # 2) <= inject_Z (round_even q) - q <= 1 # 2.
Proof.
  unfold round_even. pose proof (Qfloor_le q) as H1. pose proof (Qlt_floor q) as H2. rewrite inject_Z_plus in H2. change (inject_Z 1) with 1 in H2.
  destruct (Qcompare_spec (q - inject_Z (Qfloor q)) (1 # 2)) as [E|E|E].
  - destruct (Z.even (Qfloor q)); [lra|]. rewrite inject_Z_plus. change (inject_Z 1) with 1. lra.
  - lra.
  - rewrite inject_Z_plus. change (inject_Z 1) with 1. lra.
Qed.
Lemma round_even_nonneg q : 0 <= q -> (0 <= round_even q)%Z.
Proof.
  intros H. unfold round_even. assert (F : (0 <= Qfloor q)%Z) by (apply (Qfloor_resp_le 0 q) in H; exact H).
  destruct (_ ?= _); [destruct (Z.even _); lia|lia|lia].
Qed.
Lemma round_even_int z : round_even (inject_Z z) = z.
Proof.
  unfold round_even. rewrite Qfloor_Z. destruct (Qcompare_spec (inject_Z z - inject_Z z) (1 # 2)) as [E|E|E]; [lra|reflexivity|lra].
Qed.
Lemma floor_comp q q' : q == q' -> Qfloor q = Qfloor q'. Proof. apply Qfloor_comp. Qed.
Lemma round_even_comp q q' : q == q' -> round_even q = round_even q'.
Proof.
  intros E. unfold round_even. rewrite (floor_comp _ _ E). destruct (Qcompare_spec (q - inject_Z (Qfloor q')) (1 # 2)), (Qcompare_spec (q' - inject_Z (Qfloor q')) (1 # 2)); try reflexivity; exfalso; lra.
Qed.

Lemma digit_char d : (0 <= d < 10)%Z -> exists c, digit d = String c "" /\ (Z.of_nat (nat_of_ascii c) - 48 = d)%Z /\ Ascii.eqb c "." = false /\ Ascii.eqb c "-" = false.
Proof.
  intros H. assert (C : (d = 0 \/ d = 1 \/ d = 2 \/ d = 3 \/ d = 4 \/ d = 5 \/ d = 6 \/ d = 7 \/ d = 8 \/ d = 9)%Z) by lia.
  repeat (destruct C as [->|C]; [eexists; split; [reflexivity|]; split; [reflexivity|split; reflexivity]|]). subst d. eexists. split; [reflexivity|]. split; [reflexivity|split; reflexivity].
Qed.
(** Texts consisting of digits. *)
Definition digits (s : string) : Prop := forall c, contains c s -> exists d, (0 <= d < 10)%Z /\ digit d = String c "".
Lemma digits_app a b : digits a -> digits b -> digits (a ++ b).
Proof. intros H K c HC. apply contains_app in HC. destruct HC; auto. Qed.
Lemma digits_digit d : (0 <= d < 10)%Z -> digits (digit d).
Proof. intros H c HC. destruct (digit_char d H) as [c' [E _]]. rewrite E in HC. apply contains_cons in HC. destruct HC as [->|HC]; [exists d; auto|exfalso; exact (contains_nil _ HC)]. Qed.
Lemma read_parse s : digits s -> forall acc, read_nat s acc = Some (parse s acc).
Proof.
  induction s as [|c s IH]; intros H acc; [reflexivity|]. cbn [read_nat parse]. destruct (H c) as [d [D1 D2]]; [apply contains_cons; left; reflexivity|].
  destruct (digit_char d D1) as [c' [E1 [E2 _]]]. rewrite E1 in D2. injection D2 as ->. rewrite E2. destruct (Z.leb_spec 0 d); [|lia]. destruct (Z.leb_spec d 9); [|lia]. cbn [andb].
  apply IH. intros x Hx. apply H. apply contains_cons. right. exact Hx.
Qed.
Lemma digits_dec_fuel k : forall z, (0 <= z)%Z -> digits (dec_fuel k z).
Proof.
  induction k as [|k IH]; intros z H; cbn [dec_fuel]; [intros c HC; exfalso; exact (contains_nil _ HC)|]. destruct (Z.ltb_spec z 10); [apply digits_digit; lia|].
  apply digits_app; [apply IH; apply Z.div_pos; lia|apply digits_digit; apply Z.mod_pos_bound; lia].
Qed.
Lemma dec_digits z : (0 <= z)%Z -> digits (dec z).
Proof. apply digits_dec_fuel. Qed.
Lemma digit_ne d : digit d <> "". Proof. discriminate. Qed.
Lemma sapp_ne a b : b <> "" -> (a ++ b)%string <> "".
Proof. destruct a; [auto|discriminate]. Qed.
Lemma dec_ne z : dec z <> "".
Proof. unfold dec. cbn [dec_fuel]. destruct (z <? 10)%Z; [apply digit_ne|apply sapp_ne; apply digit_ne]. Qed.
Lemma digits_n_ok d : forall z, (0 <= z)%Z -> digits (digits_n d z) /\ String.length (digits_n d z) = d.
Proof.
  induction d as [|d IH]; intros z H; cbn [digits_n]; [split; [intros c HC; exfalso; exact (contains_nil _ HC)|reflexivity]|]. destruct (IH (z / 10)%Z) as [I1 I2]; [apply Z.div_pos; lia|]. split.
  - apply digits_app; [exact I1|]. apply digits_digit. apply Z.mod_pos_bound. lia.
  - rewrite sapp_len, I2. cbn. lia.
Qed.
Lemma digits_n_parse d : forall z acc, (0 <= z)%Z -> parse (digits_n d z) acc = (acc * pow10 d + z mod pow10 d)%Z.
Proof.
  induction d as [|d IH]; intros z acc H; cbn [digits_n]; [unfold pow10; cbn; rewrite Z.mod_1_r; lia|]. rewrite parse_app, IH by (apply Z.div_pos; lia).
  rewrite parse_digit by (apply Z.mod_pos_bound; lia). unfold pow10. rewrite Nat2Z.inj_succ, Z.pow_succ_r by lia. rewrite (Z.rem_mul_r z 10) by (try lia; apply Z.pow_pos_nonneg; lia). lia.
Qed.
Lemma split_digits a t : digits a -> split_point (a ++ String "." t)%string = (a, Some t).
Proof.
  induction a as [|c a IH]; intros H; [reflexivity|]. cbn [String.append split_point]. destruct (H c) as [d [D1 D2]]; [apply contains_cons; left; reflexivity|].
  destruct (digit_char d D1) as [c' [E1 [_ [E3 _]]]]. rewrite E1 in D2. injection D2 as ->. rewrite E3. rewrite IH by (intros x Hx; apply H; apply contains_cons; right; exact Hx). reflexivity.
Qed.
Lemma split_digits_none a : digits a -> split_point a = (a, None).
Proof.
  induction a as [|c a IH]; intros H; [reflexivity|]. cbn [split_point]. destruct (H c) as [d [D1 D2]]; [apply contains_cons; left; reflexivity|].
  destruct (digit_char d D1) as [c' [E1 [_ [E3 _]]]]. rewrite E1 in D2. injection D2 as ->. rewrite E3. rewrite IH by (intros x Hx; apply H; apply contains_cons; right; exact Hx). reflexivity.
Qed.
Lemma pow10_pos d : (0 < pow10 d)%Z. Proof. unfold pow10. apply Z.pow_pos_nonneg; lia. Qed.
Definition body (d : nat) (z : Z) : string := (dec (z / pow10 d) ++ (match d with O => "" | _ => "." ++ digits_n d (z mod pow10 d) end))%string.
Lemma body_read d z : (0 <= z)%Z -> (exists v, read_unsigned (body d z) = Some v /\ v == inject_Z z / inject_Z (pow10 d)) /\ decimals (body d z) = d /\
  exists c r, body d z = String c r /\ Ascii.eqb c "-" = false.
Proof.
  intros H. pose proof (pow10_pos d) as P. assert (HD : (0 <= z / pow10 d)%Z) by (apply Z.div_pos; lia). pose proof (dec_digits _ HD) as DG. pose proof (dec_ne (z / pow10 d)) as NE.
  assert (MP : (0 <= z mod pow10 d)%Z) by (apply Z.mod_pos_bound; lia).
  assert (HEAD : exists c r, dec (z / pow10 d) = String c r /\ Ascii.eqb c "-" = false).
  { destruct (dec (z / pow10 d)) as [|c r]; [contradiction|]. exists c, r. split; [reflexivity|]. destruct (DG c) as [x [X1 X2]]; [apply contains_cons; left; reflexivity|].
    destruct (digit_char x X1) as [c' [E1 [_ [_ E4]]]]. rewrite E1 in X2. injection X2 as ->. exact E4. }
  unfold body. destruct d as [|d].
  - rewrite sapp_nil. split; [|split].
    + unfold read_unsigned. rewrite split_digits_none by exact DG. destruct (dec (z / pow10 0)) as [|c r] eqn:ED; [contradiction|]. rewrite <- ED, (read_parse _) by (rewrite ED; exact DG). rewrite parse_dec by exact HD.
      cbn [option_map]. eexists. split; [reflexivity|]. change (pow10 0) with 1%Z. rewrite Z.div_1_r. change (inject_Z 1) with 1. field.
    + unfold decimals. rewrite split_digits_none by exact DG. reflexivity.
    + destruct HEAD as [c [r [E1 E2]]]. exists c, r. auto.
  - set (D := S d) in *. destruct (digits_n_ok D (z mod pow10 D) MP) as [N1 N2]. cbn [String.append]. split; [|split].
    + unfold read_unsigned. rewrite split_digits by exact DG. destruct (dec (z / pow10 D)) as [|c r] eqn:ED; [contradiction|]. rewrite <- ED.
      destruct (digits_n D (z mod pow10 D)) as [|c' r'] eqn:EN; [cbn in N2; discriminate|]. rewrite <- EN. rewrite (read_parse (dec _)) by (rewrite ED; exact DG). rewrite (read_parse (digits_n _ _)) by (rewrite EN; exact N1).
      rewrite parse_dec by exact HD. rewrite digits_n_parse by exact MP. rewrite EN, N2. eexists. split; [reflexivity|]. fold (pow10 D). rewrite Z.mul_0_l, Z.add_0_l, Z.mod_mod by lia.
      assert (E : inject_Z z == inject_Z (pow10 D) * inject_Z (z / pow10 D) + inject_Z (z mod pow10 D)) by (rewrite <- inject_Z_mult, <- inject_Z_plus, <- Z.div_mod by lia; reflexivity).
      rewrite E. field. change 0 with (inject_Z 0). rewrite inject_Z_injective. lia.
    + unfold decimals. rewrite split_digits by exact DG. exact N2.
    + destruct HEAD as [c [r [E1 E2]]]. rewrite E1. cbn [String.append]. eauto.
Qed.
Lemma render_read neg d z : (0 <= z)%Z -> numeral (render neg d z) d (if neg then - (inject_Z z / inject_Z (pow10 d)) else inject_Z z / inject_Z (pow10 d)).
Proof.
  intros H. destruct (body_read d z H) as [[v [R1 R2]] [R3 [c [r [R4 R5]]]]]. unfold render. fold (body d z). unfold numeral. destruct neg.
  - change ("-" ++ body d z)%string with (String "-" (body d z)). split.
    + unfold read_decimal. cbn [Ascii.eqb Bool.eqb]. change (Ascii.eqb "-" "-") with true. cbv iota. rewrite R1. cbn [option_map]. eexists. split; [reflexivity|]. rewrite R2. reflexivity.
    + unfold decimals in *. cbn [split_point]. change (Ascii.eqb "-" ".") with false. cbv iota. destruct (split_point (body d z)) as [a b]. exact R3.
  - change ("" ++ body d z)%string with (body d z). split; [|exact R3]. exists v. split; [|exact R2]. rewrite R4 in *. unfold read_decimal. rewrite R5. exact R1.
Qed.
Lemma fixed_shows d q : shows (fixed d q) d q.
Proof.
  unfold shows, fixed. set (p := Qabs q * inject_Z (pow10 d)). assert (PP : 0 < inject_Z (pow10 d)) by (change 0 with (inject_Z 0); rewrite <- Zlt_Qlt; apply pow10_pos).
  assert (P0 : 0 <= p) by (unfold p; pose proof (Qabs_nonneg q); nra). pose proof (round_even_near p) as N. pose proof (render_read (negb (Qle_bool 0 q)) d (round_even p) (round_even_nonneg p P0)) as R.
  eexists. split; [exact R|]. fold (pow10 d). assert (NZ : ~ inject_Z (pow10 d) == 0) by lra.
  destruct (Qle_bool 0 q) eqn:E; cbn [negb].
  - apply Qle_bool_iff in E. assert (EP : p == q * inject_Z (pow10 d)) by (unfold p; rewrite Qabs_pos by exact E; reflexivity).
    assert (EV : (inject_Z (round_even p) / inject_Z (pow10 d) - q) * inject_Z (pow10 d) == inject_Z (round_even p) - q * inject_Z (pow10 d)) by (field; exact NZ). rewrite EV, <- EP. exact N.
  - assert (E' : q < 0). { destruct (Qlt_le_dec q 0) as [L|L]; [exact L|]. apply Qle_bool_iff in L. congruence. }
    assert (EP : p == - q * inject_Z (pow10 d)) by (unfold p; rewrite Qabs_neg by lra; reflexivity).
    assert (EV : (- (inject_Z (round_even p) / inject_Z (pow10 d)) - q) * inject_Z (pow10 d) == - (inject_Z (round_even p) - - q * inject_Z (pow10 d))) by (field; exact NZ). rewrite EV, <- EP. lra.
Qed.
(** A number with at most [d] decimals is shown exactly. *)
Lemma fixed_exact d q z : q * inject_Z (pow10 d) == inject_Z z -> numeral (fixed d q) d q.
Proof.
  intros H. assert (PP : 0 < inject_Z (pow10 d)) by (change 0 with (inject_Z 0); rewrite <- Zlt_Qlt; apply pow10_pos). assert (NZ : ~ inject_Z (pow10 d) == 0) by lra.
  unfold fixed. assert (EZ : round_even (Qabs q * inject_Z (pow10 d)) = Z.abs z).
  { transitivity (round_even (inject_Z (Z.abs z))); [|apply round_even_int]. apply round_even_comp. destruct (Qlt_le_dec q 0) as [L|L].
    - rewrite Qabs_neg by lra. transitivity (- inject_Z z); [rewrite <- H; ring|]. rewrite <- inject_Z_opp. rewrite Z.abs_neq; [reflexivity|]. apply Z.lt_le_incl. rewrite Zlt_Qlt. rewrite <- H. change (inject_Z 0) with 0. nra.
    - rewrite Qabs_pos by exact L. rewrite H. rewrite Z.abs_eq; [reflexivity|]. rewrite Zle_Qle. rewrite <- H. change (inject_Z 0) with 0. nra. }
  rewrite EZ. pose proof (render_read (negb (Qle_bool 0 q)) d (Z.abs z) (Z.abs_nonneg z)) as [[v [R1 R2]] R3]. split; [|exact R3]. exists v. split; [exact R1|]. rewrite R2.
  destruct (Qle_bool 0 q) eqn:E; cbn [negb].
  - apply Qle_bool_iff in E. rewrite Z.abs_eq by (rewrite Zle_Qle, <- H; change (inject_Z 0) with 0; nra). rewrite <- H. field. exact NZ.
  - assert (E' : q < 0). { destruct (Qlt_le_dec q 0) as [L|L]; [exact L|]. apply Qle_bool_iff in L. congruence. }
    rewrite Z.abs_neq by (rewrite Zle_Qle, <- H; change (inject_Z 0) with 0; nra). rewrite inject_Z_opp, <- H. field. exact NZ.
Qed.
Lemma fixed_comp d q q' : q == q' -> fixed d q = fixed d q'.
Proof.
  intros E. unfold fixed. f_equal.
  - f_equal. apply eq_true_iff_eq. rewrite !Qle_bool_iff. rewrite E. reflexivity.
  - apply round_even_comp. rewrite E. reflexivity.
Qed.
