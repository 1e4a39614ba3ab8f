(** C88: colours drawn from a colour map. *)
From Coq Require Import String Ascii List Bool Arith ZArith QArith Qabs Qround Lia Lqa.
From Verif Require Import Py NumModel NumSpec NumFacts ColorModel ColorSpec ColorProofs ColorProps AnalysisProofs ChainUseProofs ColormapModel ColormapSpec.
Import ListNotations.
Open Scope string_scope.
Open Scope list_scope.
Open Scope Q_scope.

Lemma along_linspace a b n i x : nth_error (linspace a b n) i = Some x -> exists t, along n i t /\ 0 <= t <= 1 /\ x == a + t * (b - a).
Proof.
  intros E. assert (L : (i < n)%nat) by (rewrite <- (linspace_length a b n); apply nth_error_Some; congruence).
  assert (EX : at_ (linspace a b n) i = x) by (unfold at_; apply nth_error_nth; exact E).
  destruct n as [|[|m]]; [lia| |].
  - exists 0. split; [cbn; reflexivity|]. split; [lra|]. destruct i as [|i]; [|lia]. cbn in E. injection E as <-. ring.
  - pose proof (linspace_at a b (S (S m)) i L ltac:(lia)) as H. rewrite EX in H. replace (S (S m) - 1)%nat with (S m) in H by lia.
    assert (P : 0 < nq (S m)) by (apply nq_pos; lia). exists (nq i / nq (S m)). split; [|split].
    + cbn [along]. unfold nq. field. unfold nq in P. lra.
    + split; [apply Qle_shift_div_l; [exact P|]; rewrite Qmult_0_l; apply (nq_le 0 i); lia|]. apply Qle_shift_div_r; [exact P|]. rewrite Qmult_1_l. apply nq_le. lia.
    + rewrite H. field. lra.
Qed.
Lemma along_unique n i t t' : along n i t -> along n i t' -> t == t'.
Proof.
  destruct n as [|[|m]]; cbn [along]; intros A B; [lra|lra|]. assert (P : 0 < nq (S m)) by (apply nq_pos; lia). unfold nq in P. rewrite <- B in A.
  apply (Qmult_inj_r _ _ (inject_Z (Z.of_nat (S m)))); [lra|exact A].
Qed.
Lemma format_hex rgb l : valid_colour (rgb l) -> format rgb (Some (CRgb l)) = Ok (rgb l).
Proof. intros V. cbn [format]. destruct (valid_hash _ V) as [r ->]. apply format_name_hash. Qed.

(** As many colours as asked for: the i-th is the colour map's at a position going evenly from 0.05 to 0.9, darkened by a factor
    going evenly from one to the scale in the middle and back. *)
Theorem C88_colours : forall rgb2hex maps num name scale cm, maps name = Ok cm -> writes_colours rgb2hex cm -> (0 <= num)%Z -> 0 <= scale ->
  exists l, get_colormap rgb2hex maps num name scale = Ok l /\ Z.of_nat (length l) = num /\
    forall i c, nth_error l i = Some c -> exists t x f, along (length l) i t /\ 0 <= t <= 1 /\ x == (1 # 20) + t * (17 # 20) /\
      f == scale + (1 - scale) * Qabs (1 - 2 * t) /\ times (rgb2hex (cm x)) f c.
Proof.
  intros rgb maps num name scale cm EM WR HN HS. unfold get_colormap. rewrite EM. cbn [rbind]. destruct (Z.ltb_spec num 0) as [K|_]; [lia|]. set (n := Z.to_nat num).
  set (xs := linspace (5 # 100) (9 # 10) n). set (ts := linspace 0 2 n).
  assert (EF : get_formatted rgb (map (fun x => CRgb (cm x)) xs) = Ok (map (fun x => rgb (cm x)) xs)).
  { unfold get_formatted. clearbody xs. induction xs as [|x xs IH]; [reflexivity|]. cbn [map rmapM]. rewrite (format_hex rgb (cm x) (WR x)). cbn [rbind]. rewrite IH. reflexivity. }
  rewrite EF. cbn [rbind]. set (scales := map _ ts).
  assert (LX : length xs = n) by apply linspace_length. assert (LT : length ts = n) by apply linspace_length.
  assert (KEY : forall i cs, nth_error (combine (map (fun x => rgb (cm x)) xs) scales) i = Some cs -> exists t x, along n i t /\ 0 <= t <= 1 /\ x == (1 # 20) + t * (17 # 20) /\
     fst cs = rgb (cm x) /\ snd cs == scale + (1 - scale) * Qabs (1 - 2 * t)).
  { intros i cs E. assert (EL : (i < length (combine (map (fun x => rgb (cm x)) xs) scales))%nat) by (apply nth_error_Some; congruence).
    rewrite combine_length, map_length in EL. unfold scales in EL. rewrite map_length, LX, LT in EL.
    assert (E1 : exists x, nth_error xs i = Some x) by (destruct (nth_error xs i) as [x|] eqn:E0; [eauto|apply nth_error_None in E0; lia]). destruct E1 as [x E1].
    assert (E2 : exists u, nth_error ts i = Some u) by (destruct (nth_error ts i) as [u|] eqn:E0; [eauto|apply nth_error_None in E0; lia]). destruct E2 as [u E2].
    assert (E3 : nth_error (combine (map (fun x => rgb (cm x)) xs) scales) i = Some (rgb (cm x), scale + (1 - scale) * Qabs (1 - u))).
    { apply nth_combine; [rewrite nth_error_map, E1; reflexivity|]. unfold scales. rewrite nth_error_map, E2. reflexivity. }
    assert (EE : cs = (rgb (cm x), scale + (1 - scale) * Qabs (1 - u))) by congruence. subst cs. destruct (along_linspace _ _ _ _ _ E1) as [t [A1 [A2 A3]]]. destruct (along_linspace _ _ _ _ _ E2) as [t' [B1 [B2 B3]]].
    exists t, x. split; [exact A1|]. split; [exact A2|]. split; [rewrite A3; ring|]. split; [reflexivity|]. cbn [snd].
    assert (U : 1 - u == 1 - 2 * t) by (rewrite B3, (along_unique _ _ _ _ A1 B1); ring). apply Qplus_comp; [reflexivity|]. apply Qmult_comp; [reflexivity|]. apply Qabs_wd. exact U. }
  assert (SC : forall i cs, nth_error (combine (map (fun x => rgb (cm x)) xs) scales) i = Some cs -> exists s', scale_colour rgb (CName (fst cs)) (snd cs) = Ok s' /\ times (fst cs) (snd cs) s').
  { intros i cs E. destruct (KEY i cs E) as [t [x [_ [T [_ [E1 E2]]]]]]. destruct (WR x) as [r [g [b C]]]. rewrite <- E1 in C.
    assert (F0 : 0 <= snd cs). { rewrite E2. pose proof (Qabs_nonneg (1 - 2 * t)). assert (Qabs (1 - 2 * t) <= 1) by (apply Qabs_Qle_condition; lra). nra. }
    destruct (C53_scale rgb _ _ _ _ _ C F0) as [s' [S1 S2]]. exists s'. split; [exact S1|]. exists r, g, b. auto. }
  destruct (rmapM_total (fun cs => scale_colour rgb (CName (fst cs)) (snd cs)) (combine (map (fun x => rgb (cm x)) xs) scales)) as [l EL].
  { intros cs HI. destruct (In_nth_error _ _ HI) as [i E]. destruct (SC i cs E) as [s' [S1 _]]. eauto. }
  exists l. split; [exact EL|]. destruct (rmapM_Ok_iff _ _ _ EL) as [LL NTH].
  assert (LN : length l = n). { rewrite LL, combine_length, map_length. unfold scales. rewrite map_length. lia. }
  split; [rewrite LN; unfold n; lia|]. rewrite LN. intros i c EC.
  assert (E : exists cs, nth_error (combine (map (fun x => rgb (cm x)) xs) scales) i = Some cs).
  { destruct (nth_error (combine (map (fun x => rgb (cm x)) xs) scales) i) as [cs|] eqn:E0; [eauto|]. apply nth_error_None in E0. assert ((i < length l)%nat) by (apply nth_error_Some; congruence). lia. }
  destruct E as [cs E]. destruct (KEY i cs E) as [t [x [A1 [A2 [A3 [A4 A5]]]]]]. destruct (SC i cs E) as [s' [S1 S2]]. destruct (NTH i cs E) as [c' [N1 N2]]. rewrite EC in N1. injection N1 as <-. rewrite S1 in N2. injection N2 as <-.
  exists t, x, (snd cs). rewrite A4 in S2. auto 6.
Qed.
Print Assumptions C88_colours.
(** In particular, with a scale between 0 and 1 every colour is valid and no lighter than the colour map's, and the first and the
    last are the colour map's own. *)
Theorem C88_shades : forall rgb2hex maps num name scale cm l, maps name = Ok cm -> writes_colours rgb2hex cm -> (0 <= num)%Z -> 0 <= scale <= 1 ->
  get_colormap rgb2hex maps num name scale = Ok l ->
  (forall i c, nth_error l i = Some c -> valid_colour c /\ exists t x, along (length l) i t /\ x == (1 # 20) + t * (17 # 20) /\ no_lighter c (rgb2hex (cm x))) /\
  (forall c rest, l = c :: rest -> exists x, x == 1 # 20 /\ same_colour (rgb2hex (cm x)) c) /\
  (forall c d rest, l = (rest ++ [d; c])%list -> exists x, x == 9 # 10 /\ same_colour (rgb2hex (cm x)) c).
Proof.
  intros rgb maps num name scale cm l EM WR HN HS E. destruct (C88_colours rgb maps num name scale cm EM WR HN (proj1 HS)) as [l' [E' [LN K]]]. rewrite E in E'. injection E' as <-.
  assert (ONE : forall c c' f, f == 1 -> times c f c' -> same_colour c c').
  { intros c c' f F [r [g [b [C1 C2]]]]. exists r, g, b. split; [exact C1|]. pose proof (is_colour_range _ _ _ _ C1) as [R1 [R2 R3]]. setoid_replace f with 1 in C2 by exact F.
    change (is_colour c' (scaled r 1) (scaled g 1) (scaled b 1)) in C2. rewrite !scaled_one in C2 by lia. exact C2. }
  split; [|split].
  - intros i c HI. destruct (K i c HI) as [t [x [f [A1 [A2 [A3 [A4 [r [g [b [C1 C2]]]]]]]]]]]. split; [exists (scaled r f), (scaled g f), (scaled b f); exact C2|]. exists t, x. split; [exact A1|]. split; [exact A3|].
    intros r0 g0 b0 r' g' b' D1 D2. destruct (is_colour_fun _ _ _ _ _ _ _ D1 C1) as [-> [-> ->]]. destruct (is_colour_fun _ _ _ _ _ _ _ D2 C2) as [-> [-> ->]].
    pose proof (is_colour_range _ _ _ _ C1) as [R1 [R2 R3]].
    assert (F1 : f <= 1). { rewrite A4. pose proof (Qabs_nonneg (1 - 2 * t)). assert (Qabs (1 - 2 * t) <= 1) by (apply Qabs_Qle_condition; lra). nra. }
    pose proof (scaled_mono r f 1 (proj1 R1) F1) as M1. pose proof (scaled_mono g f 1 (proj1 R2) F1) as M2. pose proof (scaled_mono b f 1 (proj1 R3) F1) as M3. rewrite scaled_one in M1, M2, M3 by assumption. auto.
  - intros c rest ->. destruct (K 0%nat c eq_refl) as [t [x [f [A1 [A2 [A3 [A4 T]]]]]]]. assert (T0 : t == 0).
    { destruct rest as [|d rest]; cbn [length along] in A1; [exact A1|]. assert (P : 0 < inject_Z (Z.of_nat (S (length rest)))) by (change 0 with (inject_Z 0); rewrite <- Zlt_Qlt; lia).
      change (inject_Z (Z.of_nat 0)) with 0 in A1. apply Qmult_integral in A1. destruct A1 as [A1|A1]; [exact A1|lra]. }
    exists x. split; [rewrite A3, T0; ring|]. apply (ONE _ _ f); [|exact T]. rewrite A4. assert (U : Qabs (1 - 2 * t) == 1) by (transitivity (Qabs 1); [apply Qabs_wd; rewrite T0; ring|reflexivity]). rewrite U. ring.
  - intros c d rest ->. assert (L : length (rest ++ [d; c]) = S (S (length rest))) by (rewrite app_length; cbn; lia).
    assert (EC : nth_error (rest ++ [d; c]) (S (length rest)) = Some c) by (rewrite nth_error_app2 by lia; replace (S (length rest) - length rest)%nat with 1%nat by lia; reflexivity).
    destruct (K _ c EC) as [t [x [f [A1 [A2 [A3 [A4 T]]]]]]]. rewrite L in A1. cbn [along] in A1. assert (T1 : t == 1).
    { assert (P : 0 < inject_Z (Z.of_nat (S (length rest)))) by (change 0 with (inject_Z 0); rewrite <- Zlt_Qlt; lia). apply (Qmult_inj_r _ _ (inject_Z (Z.of_nat (S (length rest))))); [lra|]. rewrite A1. ring. }
    exists x. split; [rewrite A3, T1; ring|]. apply (ONE _ _ f); [|exact T]. rewrite A4. assert (U : Qabs (1 - 2 * t) == 1) by (transitivity (Qabs (-1)); [apply Qabs_wd; rewrite T1; ring|reflexivity]). rewrite U. ring.
Qed.
Print Assumptions C88_shades.
(** A colour map (all its colours are one grey) and the default scale. *)
Definition ex88_rgb : list Q -> string := fun _ => "#808080".
Definition ex88_maps : colour_maps := fun n => if String.eqb n "grey" then Ok (fun _ => [1 # 2; 1 # 2; 1 # 2; 1]) else Err ValueError.
Example C88_nonvacuous : (exists cm, ex88_maps "grey" = Ok cm /\ writes_colours ex88_rgb cm) /\ get_colormap ex88_rgb ex88_maps 5 "grey" default_scale = Ok ["#808080"; "#6c6c6c"; "#595959"; "#6c6c6c"; "#808080"].
Proof. split; [|vm_compute; reflexivity]. eexists. split; [reflexivity|]. intros x. apply validb_ok. vm_compute. reflexivity. Qed.
(** A negative scale: the middle colour lacks its leading number sign and is no colour. *)
Theorem C88_negative_refuted : exists rgb2hex maps num name scale cm l c, maps name = Ok cm /\ writes_colours rgb2hex cm /\ (0 <= num)%Z /\
  get_colormap rgb2hex maps num name scale = Ok l /\ In c l /\ ~ valid_colour c.
Proof.
  exists ex88_rgb, ex88_maps, 3%Z, "grey", (-1), (fun _ => [1 # 2; 1 # 2; 1 # 2; 1]), ["#808080"; "808080"; "#808080"], "808080".
  split; [reflexivity|]. split; [intros x; apply validb_ok; vm_compute; reflexivity|]. split; [lia|]. split; [vm_compute; reflexivity|]. split; [right; left; reflexivity|].
  intros V. destruct (valid_hash _ V) as [r E]. discriminate.
Qed.
Print Assumptions C88_negative_refuted.
