(** Proofs about the shades of contours. *)
From Coq Require Import String Ascii List Bool Arith ZArith QArith Qround Reals Qreals Lia Lra.
From Verif Require Import Py NumModel ColorModel ColorSpec ColorProofs ShadeModel ShadeSpec.
Import ListNotations.
Open Scope list_scope.
Open Scope R_scope.

Lemma int_part_bounds x : IZR (Int_part x) <= x < IZR (Int_part x) + 1.
Proof. destruct (base_Int_part x) as [A B]. lra. Qed.
Lemma int_part_mono x y : x <= y -> (Int_part x <= Int_part y)%Z.
Proof.
  intros H. pose proof (int_part_bounds x). pose proof (int_part_bounds y).
  assert (L : IZR (Int_part x) < IZR (Int_part y + 1)) by (rewrite plus_IZR; lra). apply lt_IZR in L. lia.
Qed.
Lemma int_part_unique x z : IZR z <= x < IZR z + 1 -> z = Int_part x.
Proof.
  intros H. pose proof (int_part_bounds x). assert (A : IZR z < IZR (Int_part x + 1)) by (rewrite plus_IZR; lra).
  assert (B : IZR (Int_part x) < IZR (z + 1)) by (rewrite plus_IZR; lra). apply lt_IZR in A, B. lia.
Qed.
Definition scaledR (v : Z) (s : R) : Z := Z.min 255 (Int_part (IZR v * s)).
Lemma scaledR_range v s : (0 <= v)%Z -> 0 <= s -> (0 <= scaledR v s <= 255)%Z.
Proof.
  intros Hv Hs. unfold scaledR. assert (0 <= Int_part (IZR v * s))%Z; [|lia].
  replace 0%Z with (Int_part 0). { apply int_part_mono, Rmult_le_pos; [apply IZR_le in Hv; exact Hv|exact Hs]. }
  symmetry. apply int_part_unique. lra.
Qed.
Lemma scaledR_channel v s : shade_channel s v (scaledR v s).
Proof. exists (Int_part (IZR v * s)). split; [apply int_part_bounds|reflexivity]. Qed.
Lemma channel_scaledR v s v' : shade_channel s v v' -> v' = scaledR v s.
Proof. intros [z [B ->]]. unfold scaledR. rewrite (int_part_unique _ _ B). reflexivity. Qed.
Lemma scaledR_mono v s s' : (0 <= v)%Z -> s <= s' -> (scaledR v s <= scaledR v s')%Z.
Proof.
  intros Hv Hs. unfold scaledR. assert (Int_part (IZR v * s) <= Int_part (IZR v * s'))%Z; [|lia].
  apply int_part_mono, Rmult_le_compat_l; [apply IZR_le in Hv; exact Hv|exact Hs].
Qed.
Lemma scaledR_one v : (0 <= v <= 255)%Z -> scaledR v 1 = v.
Proof. intros H. unfold scaledR. rewrite Rmult_1_r, <- (int_part_unique (IZR v) v) by lra. lia. Qed.

Lemma scale_R_spec s r g b f : is_colour s r g b -> 0 <= f ->
  exists s', scale_colour_R s (Some f) = Ok s' /\ is_colour s' (scaledR r f) (scaledR g f) (scaledR b f).
Proof.
  intros [r1 [r2 [g1 [g2 [b1 [b2 [x1 [x2 [y1 [y2 [z1 [z2 [-> [D1 [D2 [D3 [D4 [D5 [D6 [-> [-> ->]]]]]]]]]]]]]]]]]]]]] Hf.
  apply is_digit_hex in D1, D2, D3, D4, D5, D6.
  destruct D1 as [D1 [E1 N1]], D2 as [D2 [E2 _]], D3 as [D3 [E3 _]], D4 as [D4 [E4 _]], D5 as [D5 [E5 _]], D6 as [D6 [E6 N6]].
  unfold scale_colour_R. cbn [format]. change "#"%char with hash. rewrite format_name_hash. cbn [rbind].
  rewrite (strip_colour _ _ _ _ _ _ N1 N6). destruct (Rlt_dec f 0) as [C|_]; [exfalso; lra|].
  unfold hex2. rewrite D1, D2, D3, D4, D5, D6. cbn [rbind].
  assert (HS : forall v, (0 <= v)%Z -> clamp (int_R (IZR v * f)) 0 255 = scaledR v f).
  { intros v Hv. assert (P : 0 <= IZR v * f) by (apply Rmult_le_pos; [apply IZR_le in Hv; exact Hv|exact Hf]).
    unfold int_R. destruct (Rle_dec 0 (IZR v * f)); [|contradiction]. apply clamp_spec.
    replace 0%Z with (Int_part 0) by (symmetry; apply int_part_unique; lra). apply int_part_mono, P. }
  rewrite !HS by lia. eexists. split; [reflexivity|]. apply hex_of_colour; apply scaledR_range; try exact Hf; lia.
Qed.
Lemma scale_R_shade s f : valid_colour s -> 0 <= f -> exists s', scale_colour_R s (Some f) = Ok s' /\ shade_of f s s'.
Proof.
  intros [r [g [b H]]] Hf. destruct (scale_R_spec _ _ _ _ _ H Hf) as [s' [E C]]. exists s'. split; [exact E|].
  exists r, g, b, (scaledR r f), (scaledR g f), (scaledR b f). repeat split; try assumption; apply scaledR_channel.
Qed.
Lemma Q2R_of v : Q2R (inject_Z v) = IZR v.
Proof. unfold Q2R. cbn. lra. Qed.
Lemma scaled_channel v f : shade_channel (Q2R f) v (scaled v f).
Proof.
  exists (Qfloor (inject_Z v * f)). split; [|reflexivity]. rewrite <- (Q2R_of v), <- Q2R_mult. rewrite <- !(Q2R_of (Qfloor _)). split.
  - apply Qle_Rle, Qfloor_le.
  - pose proof (Qlt_floor (inject_Z v * f)) as L. apply Qlt_Rlt in L. rewrite inject_Z_plus, Q2R_plus in L. rewrite (Q2R_of 1) in L. exact L.
Qed.
Lemma scale_Q_shade s f : valid_colour s -> (0 <= f)%Q -> exists s', scale_colour (fun _ => EmptyString) (CName s) f = Ok s' /\ shade_of (Q2R f) s s'.
Proof.
  intros [r [g [b H]]] Hf. destruct (scale_spec (fun _ => EmptyString) _ _ _ _ _ H Hf) as [s' [E C]]. exists s'. split; [exact E|].
  exists r, g, b, (scaled r f), (scaled g f), (scaled b f). repeat split; try assumption; apply scaled_channel.
Qed.
Lemma shade_valid f s s' : shade_of f s s' -> valid_colour s'.
Proof. intros [r [g [b [r' [g' [b' [_ [H _]]]]]]]]. exists r', g', b'. exact H. Qed.

Lemma Q2R_min g : Q2R (1 - (1 # 10) * g) = 1 - Q2R g / 10.
Proof. rewrite Q2R_minus, Q2R_mult. unfold Q2R at 1 2. cbn. lra. Qed.
Lemma Q2R_max g : Q2R (1 + (1 # 2) * g) = 1 + Q2R g / 2.
Proof. rewrite Q2R_plus, Q2R_mult. unfold Q2R at 1 2. cbn. lra. Qed.
Lemma log_scales_eq n g : -2 < Q2R g < 10 -> log_scales n g = map (fun i => Some (band_factor (Q2R g) n i)) (seq 0 n).
Proof.
  intros H. unfold log_scales. cbv zeta. rewrite Q2R_min, Q2R_max. apply map_ext_in. intros i Hi. apply in_seq in Hi.
  destruct (Rlt_dec 0 (1 - Q2R g / 10)) as [_|C]; [|exfalso; lra]. destruct (Rlt_dec 0 (1 + Q2R g / 2)) as [_|C]; [|exfalso; lra].
  unfold band_factor. cbv zeta. do 2 f_equal. destruct n as [|[|k]]; [lia| |].
  - assert (i = 0)%nat by lia. subst. cbn [INR]. ring.
  - replace (S (S k) - 1)%nat with (S k) by lia. unfold Rdiv. ring.
Qed.
Lemma band_factor_pos g n i : 0 < band_factor g n i.
Proof. unfold band_factor, Rpower. apply exp_pos. Qed.

Lemma Forall2_nth' {A B} (P : A -> B -> Prop) l l' a b : Forall2 P l l' -> forall i, (i < length l)%nat -> P (nth i l a) (nth i l' b).
Proof. induction 1 as [|x y l l' H F IH]; intros i Hi; cbn in Hi; [lia|]. destruct i; cbn; [exact H|apply IH; lia]. Qed.
Lemma Forall2_len' {A B} (P : A -> B -> Prop) l l' : Forall2 P l l' -> length l' = length l.
Proof. induction 1; cbn; congruence. Qed.
Lemma rmapM_each {A B} (f : A -> res B) (P : A -> B -> Prop) l : (forall x, In x l -> exists y, f x = Ok y /\ P x y) ->
  exists ys, rmapM f l = Ok ys /\ Forall2 P l ys.
Proof.
  induction l as [|x r IH]; intros H; cbn; [eexists; split; [reflexivity|constructor]|].
  destruct (H x (or_introl eq_refl)) as [y [Ey Py]]. destruct (IH (fun z Hz => H z (or_intror Hz))) as [ys [E F]].
  exists (y :: ys). rewrite Ey, E. split; [reflexivity|constructor; assumption].
Qed.
Lemma scale_colours_spec base n g : valid_colour base -> -2 < Q2R g < 10 ->
  exists bands, scale_colours base n g = Ok bands /\ length bands = n /\ forall i, (i < n)%nat -> shade_of (band_factor (Q2R g) n i) base (nth i bands EmptyString).
Proof.
  intros V H. unfold scale_colours. rewrite log_scales_eq by exact H.
  destruct (rmapM_each (scale_colour_R base) (fun o s => exists i, o = Some (band_factor (Q2R g) n i) /\ shade_of (band_factor (Q2R g) n i) base s)
    (map (fun i => Some (band_factor (Q2R g) n i)) (seq 0 n))) as [bands [E F]].
  { intros o Ho. apply in_map_iff in Ho as [i [<- _]]. destruct (scale_R_shade base (band_factor (Q2R g) n i) V) as [s [Es Hs]]; [apply Rlt_le, band_factor_pos|].
    exists s. split; [exact Es|]. exists i. split; [reflexivity|exact Hs]. }
  exists bands. split; [exact E|]. pose proof (Forall2_len' _ _ _ F) as L. rewrite map_length, seq_length in L. split; [exact L|].
  intros i Hi. pose proof (Forall2_nth' _ _ _ None EmptyString F i) as P. rewrite map_length, seq_length in P. destruct (P Hi) as [j [Ej Hj]].
  rewrite (nth_indep _ None (Some (band_factor (Q2R g) n 0%nat))) in Ej by (rewrite map_length, seq_length; exact Hi).
  rewrite (map_nth (fun i => Some (band_factor (Q2R g) n i))), seq_nth in Ej by exact Hi. injection Ej as Ej. cbn in Ej. rewrite Ej. exact Hj.
Qed.
Lemma sub_factor g (shade : bool) : let sub0 := qmax (1 # 10) (1 - (1 # 5) * g) in
  (0 <= (if shade then (sub0 * (9 # 10))%Q else sub0))%Q /\ Q2R (if shade then (sub0 * (9 # 10))%Q else sub0) = line_factor (Q2R g) shade.
Proof.
  cbv zeta. assert (E : Q2R (1 - (1 # 5) * g) = 1 - Q2R g / 5) by (rewrite Q2R_minus, Q2R_mult; unfold Q2R at 1 2; cbn; lra).
  assert (E1 : Q2R (1 # 10) = 1 / 10) by (unfold Q2R; cbn; lra). assert (E9 : Q2R (9 # 10) = 9 / 10) by (unfold Q2R; cbn; lra).
  assert (M : Q2R (qmax (1 # 10) (1 - (1 # 5) * g)) = Rmax (1 / 10) (1 - Q2R g / 5)).
  { unfold qmax. destruct (Qle_bool (1 # 10) (1 - (1 # 5) * g)) eqn:L.
    - apply Qle_bool_iff, Qle_Rle in L. rewrite E1, E in L. rewrite E, Rmax_right by exact L. reflexivity.
    - assert (L' : (1 - (1 # 5) * g < 1 # 10)%Q) by (apply Qnot_le_lt; intros C; apply Qle_bool_iff in C; congruence).
      apply Qlt_Rlt in L'. rewrite E1, E in L'. rewrite E1, Rmax_left by lra. reflexivity. }
  assert (P : 1 / 10 <= Q2R (qmax (1 # 10) (1 - (1 # 5) * g))) by (rewrite M; apply Rmax_l).
  assert (P0 : (0 <= qmax (1 # 10) (1 - (1 # 5) * g))%Q) by (apply Rle_Qle; rewrite RMicromega.Q2R_0; lra).
  unfold line_factor. destruct shade.
  - split; [apply Qmult_le_0_compat; [exact P0|discriminate]|]. rewrite Q2R_mult, M, E9. ring.
  - split; [exact P0|]. rewrite M. ring.
Qed.
Lemma contour_colours_inv base n g shade p : contour_colours base n g shade = Ok p -> scale_colours base n g = Ok (fst p) /\ n <> 0%nat.
Proof.
  unfold contour_colours. destruct (scale_colours base n g) as [bands|] eqn:E; [|discriminate]. cbn [rbind].
  destruct bands as [|b r]; [discriminate|]. destruct (scale_colour _ _ _); [|discriminate]. cbn [rbind]. destruct (rmapM _ _); [|discriminate]. intros H. injection H as <-.
  split; [reflexivity|]. intros ->. discriminate.
Qed.
Lemma removelast_nth {A} (l : list A) d : forall i, (S i < length l)%nat -> nth i (removelast l) d = nth i l d.
Proof.
  induction l as [|x r IH]; intros i H; [cbn in H; lia|]. destruct r as [|y r]; [cbn in H; lia|]. change (removelast (x :: y :: r)) with (x :: removelast (y :: r)).
  destruct i; [reflexivity|]. cbn [nth]. apply IH. cbn in H |- *. lia.
Qed.
Lemma removelast_length {A} (l : list A) : length (removelast l) = (length l - 1)%nat.
Proof.
  induction l as [|x r IH]; [reflexivity|]. destruct r as [|y r]; [reflexivity|]. change (removelast (x :: y :: r)) with (x :: removelast (y :: r)). cbn [length] in *. rewrite IH. lia.
Qed.
Lemma removelast_In {A} (l : list A) x : In x (removelast l) -> In x l.
Proof.
  induction l as [|y r IH]; [auto|]. destruct r as [|z r]; [intros []|]. change (removelast (y :: z :: r)) with (y :: removelast (z :: r)).
  intros [->|H]; [left; reflexivity|right; exact (IH H)].
Qed.
Lemma contour_colours_spec base n g (shade : bool) : valid_colour base -> -2 < Q2R g < 10 -> (1 <= n)%nat ->
  exists bands lines, contour_colours base n g shade = Ok (bands, lines) /\ length bands = n /\ length lines = n /\
    (forall i, (i < n)%nat -> shade_of (band_factor (Q2R g) n i) base (nth i bands EmptyString)) /\
    shade_of (line_factor (Q2R g) shade) (nth 0 bands EmptyString) (nth 0 lines EmptyString) /\
    (forall i, (S i < n)%nat -> shade_of (line_factor (Q2R g) shade) (nth i bands EmptyString) (nth (S i) lines EmptyString)).
Proof.
  intros V H Hn. destruct (scale_colours_spec base n g V H) as [bands [E [L B]]]. unfold contour_colours. rewrite E. cbn [rbind].
  destruct (sub_factor g shade) as [P F]. cbv zeta in P, F |- *. set (sub := if shade then _ else _) in P, F |- *.
  assert (VB : forall c, In c bands -> valid_colour c).
  { intros c Hc. apply (In_nth _ _ EmptyString) in Hc as [i [Hi <-]]. apply (shade_valid _ _ _ (B i ltac:(lia))). }
  destruct bands as [|b0 r]; [cbn in L; lia|]. destruct (scale_Q_shade b0 sub (VB b0 (or_introl eq_refl)) P) as [f0 [Ef Hf]]. rewrite Ef. cbn [rbind].
  destruct (rmapM_each (fun c => scale_colour (fun _ => EmptyString) (CName c) sub) (shade_of (Q2R sub)) (removelast (b0 :: r))) as [rest [Er Fr]].
  { intros c Hc. apply scale_Q_shade; [apply VB, removelast_In, Hc|exact P]. }
  rewrite Er. cbn [rbind]. exists (b0 :: r), (f0 :: rest). split; [reflexivity|]. split; [exact L|].
  pose proof (Forall2_len' _ _ _ Fr) as Lr. rewrite removelast_length in Lr. split; [cbn [length] in *; lia|]. split; [exact B|].
  rewrite <- F. split; [exact Hf|]. intros i Hi. change (nth (S i) (f0 :: rest) EmptyString) with (nth i rest EmptyString). rewrite <- (removelast_nth (b0 :: r) EmptyString i) by lia.
  apply (Forall2_nth' _ _ _ EmptyString EmptyString Fr i). rewrite removelast_length. lia.
Qed.

(** ** The order of the shades *)
Lemma no_lighter_of f f' base c c' : 0 <= f -> f <= f' -> shade_of f base c -> shade_of f' base c' -> no_lighter c c'.
Proof.
  intros P L [r [g [b [r1 [g1 [b1 [C [C1 [X1 [X2 X3]]]]]]]]]] [r' [g' [b' [r2 [g2 [b2 [C' [C2 [Y1 [Y2 Y3]]]]]]]]]].
  destruct (is_colour_fun _ _ _ _ _ _ _ C C') as [<- [<- <-]]. apply channel_scaledR in X1, X2, X3, Y1, Y2, Y3. subst.
  destruct (is_colour_range _ _ _ _ C) as [R1 [R2 R3]].
  eexists _, _, _, _, _, _. split; [exact C1|]. split; [exact C2|]. repeat split; apply scaledR_mono; lia || exact L.
Qed.
Lemma shade_self base : valid_colour base -> shade_of 1 base base.
Proof.
  intros [r [g [b C]]]. destruct (is_colour_range _ _ _ _ C) as [R1 [R2 R3]]. exists r, g, b, r, g, b. split; [exact C|]. split; [exact C|].
  repeat split; [rewrite <- (scaledR_one r R1) at 2|rewrite <- (scaledR_one g R2) at 2|rewrite <- (scaledR_one b R3) at 2]; apply scaledR_channel.
Qed.
Lemma Rpower10_mono x y : x <= y -> Rpower 10 x <= Rpower 10 y.
Proof. intros H. apply Rle_Rpower; lra. Qed.
Lemma ln_minmax g : 0 <= g < 10 -> ln (1 - g / 10) <= 0 <= ln (1 + g / 2).
Proof.
  intros H. rewrite <- ln_1. split; [destruct (Req_dec g 0) as [->|]; [right; f_equal; lra|left; apply ln_increasing; lra]|].
  destruct (Req_dec g 0) as [->|]; [right; f_equal; lra|left; apply ln_increasing; lra].
Qed.
Lemma band_factor_mono g n i j : 0 <= g < 10 -> (i <= j)%nat -> band_factor g n i <= band_factor g n j.
Proof.
  intros H L. pose proof (ln_minmax g H) as [A B]. unfold band_factor. cbv zeta. apply Rpower10_mono. destruct n as [|[|k]]; [lra|lra|].
  assert (P : 0 < INR (S k)) by (apply lt_0_INR; lia). assert (T : INR i / INR (S k) <= INR j / INR (S k)).
  { apply Rmult_le_compat_r; [apply Rlt_le, Rinv_0_lt_compat, P|apply le_INR, L]. }
  set (t := INR i / INR (S k)) in *. set (t' := INR j / INR (S k)) in *.
  assert (Q : (t' - t) * (ln (1 + g / 2) - ln (1 - g / 10)) >= 0) by (apply Rle_ge, Rmult_le_pos; lra). lra.
Qed.
Lemma Rpower10_0 : Rpower 10 0 = 1.
Proof. apply Rpower_O. lra. Qed.
Lemma band_factor_first g n : 0 <= g < 10 -> band_factor g n 0 <= 1.
Proof.
  intros H. pose proof (ln_minmax g H) as [A B]. unfold band_factor. cbv zeta. apply Rle_trans with (Rpower 10 0); [|right; apply Rpower10_0]. apply Rpower10_mono.
  destruct n as [|[|k]]; [lra|lra|]. cbn [INR]. unfold Rdiv. rewrite Rmult_0_l. lra.
Qed.
Lemma band_factor_last g n : 0 <= g < 10 -> (2 <= n)%nat -> 1 <= band_factor g n (n - 1).
Proof.
  intros H Hn. pose proof (ln_minmax g H) as [A B]. unfold band_factor. cbv zeta. apply Rle_trans with (Rpower 10 0); [right; symmetry; apply Rpower10_0|]. apply Rpower10_mono.
  destruct n as [|[|k]]; [lia|lia|]. replace (S (S k) - 1)%nat with (S k) by lia. replace (INR (S k) / INR (S k)) with 1; [lra|]. field. apply not_0_INR. lia.
Qed.
Lemma band_factor_flat n i : band_factor 0 n i = 1.
Proof.
  unfold band_factor. cbv zeta. replace (1 - 0 / 10) with 1 by lra. replace (1 + 0 / 2) with 1 by lra. rewrite ln_1, !Rmult_0_r, Rplus_0_r. apply Rpower10_0.
Qed.
Lemma line_factor_le g shade : 0 <= g -> 0 <= line_factor g shade <= 1.
Proof.
  intros H. unfold line_factor. assert (1 / 10 <= Rmax (1 / 10) (1 - g / 5) <= 1) by (unfold Rmax; destruct (Rle_dec _ _); lra). destruct shade; lra.
Qed.
Lemma same_of base c : shade_of 1 base c -> same_channels base c.
Proof.
  intros [r [g [b [r1 [g1 [b1 [C [C1 [X1 [X2 X3]]]]]]]]]]. apply channel_scaledR in X1, X2, X3. destruct (is_colour_range _ _ _ _ C) as [R1 [R2 R3]].
  rewrite scaledR_one in X1, X2, X3 by assumption. subst. exists r, g, b. split; assumption.
Qed.
(** ** Refused shades *)
Lemma scale_nan base : valid_colour base -> scale_colour_R base None = Err ValueError.
Proof.
  intros [r [g [b [r1 [r2 [g1 [g2 [b1 [b2 [x1 [x2 [y1 [y2 [z1 [z2 [-> [D1 [D2 [D3 [D4 [D5 [D6 _]]]]]]]]]]]]]]]]]]]]]].
  apply is_digit_hex in D1, D2, D3, D4, D5, D6.
  destruct D1 as [D1 [E1 N1]], D2 as [D2 [E2 _]], D3 as [D3 [E3 _]], D4 as [D4 [E4 _]], D5 as [D5 [E5 _]], D6 as [D6 [E6 N6]].
  unfold scale_colour_R. cbn [format]. change "#"%char with hash. rewrite format_name_hash. cbn [rbind].
  rewrite (strip_colour _ _ _ _ _ _ N1 N6). unfold hex2. rewrite D1, D2, D3, D4, D5, D6. reflexivity.
Qed.
Lemma steep_fails base n g shade : valid_colour base -> (1 <= n)%nat -> Q2R g <= -2 \/ 10 <= Q2R g -> contour_colours base n g shade = Err ValueError.
Proof.
  intros V Hn H. unfold contour_colours, scale_colours, log_scales. cbv zeta. rewrite Q2R_min, Q2R_max. destruct n as [|n]; [lia|]. cbn [seq map rmapM].
  assert (E : (if Rlt_dec 0 (1 - Q2R g / 10) then if Rlt_dec 0 (1 + Q2R g / 2) then
     Some (Rpower 10 (ln (1 - Q2R g / 10) + INR 0 * ((ln (1 + Q2R g / 2) - ln (1 - Q2R g / 10)) / INR (S n - 1)))) else None else None) = None).
  { destruct (Rlt_dec 0 (1 - Q2R g / 10)); [|reflexivity]. destruct (Rlt_dec 0 (1 + Q2R g / 2)); [exfalso; lra|reflexivity]. }
  rewrite E, scale_nan by exact V. reflexivity.
Qed.
Lemma scale_short h f : String.length (strip (String hash h)) <> 6%nat -> scale_colour_R (String hash h) f = Ok (strip (String hash h)).
Proof.
  intros N. unfold scale_colour_R. cbn [format]. rewrite format_name_hash. cbn [rbind]. set (t := strip _) in N |- *.
  destruct (match f with Some s => _ | None => _ end); [reflexivity|].
  destruct t as [|a [|b [|c [|d [|e [|g [|k t]]]]]]]; try reflexivity. exfalso. apply N. reflexivity.
Qed.
Lemma short_fails h n g shade e : String.length (strip (String hash h)) <> 6%nat -> format_name (strip (String hash h)) = Err e -> (1 <= n)%nat ->
  contour_colours (String hash h) n g shade = Err e.
Proof.
  intros N F Hn. unfold contour_colours, scale_colours. destruct (rmapM_each (scale_colour_R (String hash h)) (fun _ s => s = strip (String hash h)) (log_scales n g)) as [bands [E B]].
  { intros o _. eexists. split; [apply scale_short, N|reflexivity]. }
  rewrite E. cbn [rbind]. pose proof (Forall2_len' _ _ _ B) as L. unfold log_scales in L. cbv zeta in L. rewrite map_length, seq_length in L.
  destruct bands as [|b r]; [cbn in L; lia|]. inversion B; subst. unfold scale_colour. cbn [format]. rewrite F. reflexivity.
Qed.
