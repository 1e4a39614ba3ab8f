(** Proofs about colour names and colour scaling. *)
From Coq Require Import String Ascii List Bool Arith ZArith QArith Qround Lia Lqa.
From Verif Require Import Py ColorModel ColorSpec.
Import ListNotations.
Open Scope list_scope.

Definition digitb (c : ascii) : bool := existsb (fun p => Ascii.eqb c (fst p)) digit_table.
Definition validb (s : string) : bool :=
  match s with
  | String h (String r1 (String r2 (String g1 (String g2 (String b1 (String b2 EmptyString)))))) =>
      Ascii.eqb h hash && digitb r1 && digitb r2 && digitb g1 && digitb g2 && digitb b1 && digitb b2
  | _ => false
  end.
Lemma digitb_ok c : digitb c = true -> exists v, is_digit c v.
Proof.
  intros H. apply existsb_exists in H. destruct H as [[d v] [H1 H2]]. apply Ascii.eqb_eq in H2. cbn in H2. subst d. exists v. exact H1.
Qed.
Lemma validb_ok s : validb s = true -> valid_colour s.
Proof.
  destruct s as [|h [|r1 [|r2 [|g1 [|g2 [|b1 [|b2 [|x s]]]]]]]]; cbn [validb]; try discriminate.
  rewrite !andb_true_iff. intros [[[[[[H R1] R2] G1] G2] B1] B2]. apply Ascii.eqb_eq in H. subst h.
  apply digitb_ok in R1, R2, G1, G2, B1, B2.
  destruct R1 as [a A], R2 as [b B], G1 as [c C], G2 as [d D], B1 as [e E], B2 as [f F].
  exists (16 * a + b)%Z, (16 * c + d)%Z, (16 * e + f)%Z. exists r1, r2, g1, g2, b1, b2, a, b, c, d, e, f.
  repeat split; assumption.
Qed.

(** Every entry of every row of the table is a valid colour. *)
Lemma table_valid : forallb (fun kv => forallb validb (snd kv)) all_colours = true.
Proof. vm_compute. reflexivity. Qed.
Lemma palette_valid s : palette_colour s -> valid_colour s.
Proof.
  intros [n [l [H1 H2]]]. apply validb_ok. pose proof table_valid as T. rewrite forallb_forall in T.
  specialize (T _ H1). cbn in T. rewrite forallb_forall in T. apply T. exact H2.
Qed.
Lemma valid_hash s : valid_colour s -> exists r, s = String hash r.
Proof. intros [r [g [b [r1 [r2 [g1 [g2 [b1 [b2 [x1 [x2 [y1 [y2 [z1 [z2 [H _]]]]]]]]]]]]]]]]. subst s. eexists. reflexivity. Qed.

Lemma colour_at_palette n i c : colour_at n i = Ok c -> palette_colour c.
Proof.
  unfold colour_at. destruct (dget n all_colours) as [l|] eqn:E; [|discriminate]. apply dget_In in E.
  destruct (_ <? 0)%Z; [discriminate|]. destruct (nth_error l _) as [x|] eqn:EN; [|discriminate]. intros H. injection H as <-.
  exists n, l. split; [exact E|apply (nth_error_In _ _ EN)].
Qed.

Lemma format_name_hash r : format_name (String hash r) = Ok (String hash r).
Proof. reflexivity. Qed.
Lemma format_name_result s c : format_name s = Ok c -> (exists r, c = String hash r) /\ (c = s \/ palette_colour c).
Proof.
  destruct s as [|x r]; cbn [format_name]; [discriminate|].
  destruct (Ascii.eqb_spec x hash) as [->|N].
  - intros H. injection H as <-. split; [exists r; reflexivity|left; reflexivity].
  - intros H. assert (P : palette_colour c).
    { destruct (dmem (String x r) all_colours); [apply (colour_at_palette _ _ _ H)|].
      destruct (dget (String x r) aliases); [apply (colour_at_palette _ _ _ H)|discriminate]. }
    split; [apply valid_hash, palette_valid, P|right; exact P].
Qed.
Lemma format_result rgb i c : format rgb (Some i) = Ok c -> exists r, c = String hash r.
Proof. destruct i as [s|l]; cbn [format]; intros H; apply format_name_result in H; tauto. Qed.
Lemma format_idem rgb i c : format rgb (Some i) = Ok c -> format rgb (Some (CName c)) = Ok c.
Proof. intros H. destruct (format_result _ _ _ H) as [r ->]. reflexivity. Qed.

(** The finite tables of names and aliases *)
Lemma names_ok : forallb (fun kv => match format_name (fst kv), nth_error (snd kv) 4 with
                                    | Ok c, Some d => String.eqb c d | _, _ => false end) all_colours = true.
Proof. vm_compute. reflexivity. Qed.
Lemma aliases_ok : forallb (fun kv => String.eqb (fst kv) "e" || match format_name (fst kv) with Ok _ => true | Err _ => false end) aliases = true.
Proof. vm_compute. reflexivity. Qed.
Lemma alias_not_hash : forallb (fun kv => negb (dmem (fst kv) all_colours)) aliases = true.
Proof. vm_compute. reflexivity. Qed.

(** * Scaling *)
Lemma is_digit_hex c v : is_digit c v -> hex_digit c = Some v /\ (0 <= v <= 15)%Z /\ c <> hash.
Proof.
  unfold is_digit, digit_table. cbn [In]. intros H.
  repeat (destruct H as [H|H]; [injection H as <- <-; split; [vm_compute; reflexivity|split; [lia|discriminate]]|]). destruct H.
Qed.
Lemma digit_hex_is v : (0 <= v <= 15)%Z -> is_digit (digit_hex v) v.
Proof.
  intros H. assert (HC : (v = 0 \/ v = 1 \/ v = 2 \/ v = 3 \/ v = 4 \/ v = 5 \/ v = 6 \/ v = 7 \/ v = 8 \/ v = 9 \/ v = 10 \/
    v = 11 \/ v = 12 \/ v = 13 \/ v = 14 \/ v = 15)%Z) by lia.
  unfold is_digit, digit_table.
  repeat (destruct HC as [->|HC]; [vm_compute; tauto|]). subst v. vm_compute. tauto.
Qed.
Lemma strip_colour r1 r2 g1 g2 b1 b2 : r1 <> hash -> b2 <> hash ->
  strip (String hash (String r1 (String r2 (String g1 (String g2 (String b1 (String b2 EmptyString))))))) =
  String r1 (String r2 (String g1 (String g2 (String b1 (String b2 EmptyString))))).
Proof.
  intros H1 H2. unfold strip, srev. cbn [lstrip]. rewrite Ascii.eqb_refl.
  destruct (Ascii.eqb_spec r1 hash); [contradiction|]. cbn [srev_app lstrip].
  destruct (Ascii.eqb_spec b2 hash); [contradiction|]. reflexivity.
Qed.
Lemma int_of_floor q : (0 <= q)%Q -> int_of q = Qfloor q.
Proof.
  intros H. unfold int_of, Qfloor. destruct q as [n d]. cbn. apply Z.quot_div_nonneg; [|lia]. unfold Qle in H. cbn in H. lia.
Qed.
Lemma clamp_spec v : (0 <= v)%Z -> clamp v 0 255 = Z.min 255 v.
Proof. intros H. unfold clamp. destruct (Z.ltb_spec v 0); [lia|]. destruct (Z.ltb_spec 255 v); lia. Qed.
Lemma hex_of_colour r g b : (0 <= r <= 255)%Z -> (0 <= g <= 255)%Z -> (0 <= b <= 255)%Z ->
  is_colour (String hash (hex_of r (hex_of g (hex_of b EmptyString)))) r g b.
Proof.
  intros Hr Hg Hb.
  assert (D : forall v, (0 <= v <= 255)%Z -> (0 <= v / 16 <= 15)%Z /\ (0 <= v mod 16 <= 15)%Z /\ v = (16 * (v / 16) + v mod 16)%Z).
  { intros v Hv. pose proof (Z.mod_pos_bound v 16 ltac:(lia)). pose proof (Z.div_mod v 16 ltac:(lia)).
    split; [split; [apply Z.div_pos; lia|apply Z.lt_succ_r, Z.div_lt_upper_bound; lia]|split; lia]. }
  destruct (D r Hr) as [R1 [R2 R3]], (D g Hg) as [G1 [G2 G3]], (D b Hb) as [B1 [B2 B3]].
  exists (digit_hex (r / 16)), (digit_hex (r mod 16)), (digit_hex (g / 16)), (digit_hex (g mod 16)), (digit_hex (b / 16)), (digit_hex (b mod 16)).
  exists (r / 16)%Z, (r mod 16)%Z, (g / 16)%Z, (g mod 16)%Z, (b / 16)%Z, (b mod 16)%Z.
  split; [reflexivity|]. repeat (split; [apply digit_hex_is; assumption|]). repeat split; assumption.
Qed.
Definition scaled (v : Z) (f : Q) : Z := Z.min 255 (Qfloor (inject_Z v * f)).
Lemma scaled_range v f : (0 <= v)%Z -> (0 <= f)%Q -> (0 <= scaled v f <= 255)%Z.
Proof.
  intros Hv Hf. unfold scaled. assert (0 <= Qfloor (inject_Z v * f))%Z; [|lia].
  change 0%Z with (Qfloor 0). apply Qfloor_resp_le. apply Qmult_le_0_compat; [|exact Hf]. change 0%Q with (inject_Z 0). rewrite <- Zle_Qle. exact Hv.
Qed.
Lemma scale_spec rgb s r g b f : is_colour s r g b -> (0 <= f)%Q ->
  exists s', scale_colour rgb (CName s) f = Ok s' /\ is_colour s' (scaled r f) (scaled g f) (scaled b f).
Proof.
  intros [r1 [r2 [g1 [g2 [b1 [b2 [x1 [x2 [y1 [y2 [z1 [z2 [-> [D1 [D2 [D3 [D4 [D5 [D6 [-> [-> ->]]]]]]]]]]]]]]]]]]]]] Hf.
  apply is_digit_hex in D1, D2, D3, D4, D5, D6.
  destruct D1 as [D1 [E1 N1]], D2 as [D2 [E2 _]], D3 as [D3 [E3 _]], D4 as [D4 [E4 _]], D5 as [D5 [E5 _]], D6 as [D6 [E6 N6]].
  unfold scale_colour. cbn [format]. change "#"%char with hash. rewrite format_name_hash. cbn [rbind].
  rewrite (strip_colour _ _ _ _ _ _ N1 N6). assert (HF : Qle_bool 0 f = true) by (apply Qle_bool_iff; exact Hf). rewrite HF. cbn [negb].
  unfold hex2. rewrite D1, D2, D3, D4, D5, D6. cbn [rbind].
  assert (HS : forall v, (0 <= v)%Z -> clamp (int_of (inject_Z v * f)) 0 255 = scaled v f).
  { intros v Hv. assert (P : (0 <= inject_Z v * f)%Q).
    { apply Qmult_le_0_compat; [|exact Hf]. change 0%Q with (inject_Z 0). rewrite <- Zle_Qle. exact Hv. }
    rewrite int_of_floor by exact P. apply clamp_spec. change 0%Z with (Qfloor 0). apply Qfloor_resp_le. exact P. }
  rewrite !HS by lia. eexists. split; [reflexivity|]. apply hex_of_colour; apply scaled_range; try exact Hf; lia.
Qed.
Lemma is_colour_range s r g b : is_colour s r g b -> (0 <= r <= 255)%Z /\ (0 <= g <= 255)%Z /\ (0 <= b <= 255)%Z.
Proof.
  intros [r1 [r2 [g1 [g2 [b1 [b2 [x1 [x2 [y1 [y2 [z1 [z2 [-> [D1 [D2 [D3 [D4 [D5 [D6 [-> [-> ->]]]]]]]]]]]]]]]]]]]]].
  apply is_digit_hex in D1, D2, D3, D4, D5, D6. lia.
Qed.
Lemma is_digit_fun c v w : is_digit c v -> is_digit c w -> v = w.
Proof. intros A B. apply is_digit_hex in A, B. destruct A as [A _], B as [B _]. congruence. Qed.
Lemma is_colour_fun s r g b r' g' b' : is_colour s r g b -> is_colour s r' g' b' -> r = r' /\ g = g' /\ b = b'.
Proof.
  intros [r1 [r2 [g1 [g2 [b1 [b2 [x1 [x2 [y1 [y2 [z1 [z2 [-> [D1 [D2 [D3 [D4 [D5 [D6 [-> [-> ->]]]]]]]]]]]]]]]]]]]]].
  intros [q1 [q2 [h1 [h2 [c1 [c2 [u1 [u2 [v1 [v2 [w1 [w2 [E [F1 [F2 [F3 [F4 [F5 [F6 [-> [-> ->]]]]]]]]]]]]]]]]]]]]].
  injection E as <- <- <- <- <- <-.
  rewrite (is_digit_fun _ _ _ D1 F1), (is_digit_fun _ _ _ D2 F2), (is_digit_fun _ _ _ D3 F3), (is_digit_fun _ _ _ D4 F4), (is_digit_fun _ _ _ D5 F5), (is_digit_fun _ _ _ D6 F6).
  auto.
Qed.
Lemma scaled_one v : (0 <= v <= 255)%Z -> scaled v 1 = v.
Proof.
  intros H. unfold scaled. rewrite (Qfloor_comp _ (inject_Z v)) by (ring). rewrite Qfloor_Z. lia.
Qed.
Lemma scaled_mono v f f' : (0 <= v)%Z -> (f <= f')%Q -> (scaled v f <= scaled v f')%Z.
Proof.
  intros Hv Hf. unfold scaled. assert (Qfloor (inject_Z v * f) <= Qfloor (inject_Z v * f'))%Z; [|lia].
  apply Qfloor_resp_le. rewrite !(Qmult_comm (inject_Z v)). apply Qmult_le_compat_r; [exact Hf|].
  change 0%Q with (inject_Z 0). rewrite <- Zle_Qle. exact Hv.
Qed.
