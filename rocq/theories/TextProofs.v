(** Proofs about the text of parameter bounds. *)
From Coq Require Import String Ascii List Bool Arith ZArith QArith Qround Qabs Qpower Lia Lqa.
From Verif Require Import Py NumModel MarginalModel ConfigModel ChainModel ChainUseProofs FormatModel FormatSpec FormatProofs TextModel TextSpec.
Import ListNotations.
Open Scope string_scope.
Open Scope list_scope.
Open Scope Q_scope.

(** ** Powers of ten *)
Lemma ten_nz : ~ 10 == 0. Proof. discriminate. Qed.
Lemma p10_pos z : 0 < 10 ^ z. Proof. apply Qpower_0_lt. reflexivity. Qed.
Lemma p10_plus a b : 10 ^ (a + b) == 10 ^ a * 10 ^ b. Proof. apply Qpower_plus. exact ten_nz. Qed.
Lemma p10_opp a : 10 ^ (- a) == / 10 ^ a. Proof. apply Qpower_opp. Qed.
Lemma p10_inj z : (0 <= z)%Z -> 10 ^ z == inject_Z (10 ^ z). Proof. intros H. change 10 with (inject_Z 10). symmetry. apply Zpower_Qpower. exact H. Qed.
Lemma pow10_p10 d : inject_Z (pow10 d) == 10 ^ Z.of_nat d. Proof. unfold pow10. rewrite p10_inj by lia. reflexivity. Qed.

(** ** Logarithm *)
Lemma log10_fuel_spec n : forall z, (1 <= z < 2 ^ Z.of_nat n)%Z -> let k := log10_fuel n z in (0 <= k)%Z /\ (10 ^ k <= z < 10 ^ (k + 1))%Z.
Proof.
  induction n as [|n IH]; intros z H; [change (2 ^ Z.of_nat 0)%Z with 1%Z in H; lia|]. cbn [log10_fuel]. destruct (Z.ltb_spec z 10) as [L|L]; [cbn; lia|].
  rewrite Nat2Z.inj_succ, Z.pow_succ_r in H by lia. assert (HD : (1 <= z / 10 < 2 ^ Z.of_nat n)%Z) by (split; [apply Z.div_le_lower_bound; lia|apply Z.div_lt_upper_bound; lia]).
  destruct (IH _ HD) as [K1 [K2 K3]]. set (k := log10_fuel n (z / 10)) in *. cbv zeta. split; [lia|]. replace (1 + k + 1)%Z with (Z.succ (k + 1)) by lia. replace (1 + k)%Z with (Z.succ k) by lia. rewrite !Z.pow_succ_r by lia.
  pose proof (Z.mul_div_le z 10 ltac:(lia)). pose proof (Z.mul_succ_div_gt z 10 ltac:(lia)). lia.
Qed.
Lemma log10Z_spec z : (1 <= z)%Z -> (0 <= log10Z z)%Z /\ (10 ^ log10Z z <= z < 10 ^ (log10Z z + 1))%Z.
Proof.
  intros H. unfold log10Z. apply log10_fuel_spec. pose proof (Z.log2_spec z ltac:(lia)) as [_ L]. rewrite Nat2Z.inj_succ, Z2Nat.id by apply Z.log2_nonneg. lia.
Qed.
Lemma lg10_spec q : 0 < q -> 10 ^ lg10 q <= q /\ q < 10 ^ (lg10 q + 1).
Proof.
  intros P. unfold lg10. destruct (Qle_bool 1 q) eqn:E.
  - apply Qle_bool_iff in E. assert (F1 : (1 <= Qfloor q)%Z) by (apply (Qfloor_resp_le 1 q) in E; exact E). destruct (log10Z_spec _ F1) as [K1 [K2 K3]]. set (k := log10Z (Qfloor q)) in *. rewrite !p10_inj by lia.
    pose proof (Qfloor_le q). pose proof (Qlt_floor q) as L. split.
    + apply (Qle_trans _ (inject_Z (Qfloor q))); [rewrite <- Zle_Qle; exact K2|assumption].
    + apply (Qlt_le_trans _ _ _ L). rewrite <- Zle_Qle. lia.
  - assert (Q1 : q < 1). { destruct (Qlt_le_dec q 1) as [L|L]; [exact L|]. apply Qle_bool_iff in L. congruence. }
    assert (I1 : 1 < / q). { apply (Qlt_shift_inv_l 1 q P). lra. } set (m := Qceiling (/ q)). pose proof (Qle_ceiling (/ q)) as C1. pose proof (Qceiling_lt (/ q)) as C2. fold m in C1, C2.
    assert (M2 : (2 <= m)%Z). { assert (inject_Z 1 < inject_Z m) by (change (inject_Z 1) with 1; lra). rewrite <- Zlt_Qlt in H. lia. }
    destruct (log10Z_spec (m - 1) ltac:(lia)) as [K1 [K2 K3]]. set (k := log10Z (m - 1)) in *.
    assert (A1 : / q <= 10 ^ (k + 1)). { rewrite p10_inj by lia. apply (Qle_trans _ _ _ C1). rewrite <- Zle_Qle. lia. }
    assert (A2 : 10 ^ k < / q). { rewrite p10_inj by lia. apply (Qle_lt_trans _ (inject_Z (m - 1))); [rewrite <- Zle_Qle; lia|exact C2]. }
    assert (QI : / q * q == 1) by (field; lra). split.
    + rewrite p10_opp. replace (1 + k)%Z with (k + 1)%Z by lia. apply Qle_shift_inv_r; [apply p10_pos|]. pose proof (p10_pos (k + 1)). nra.
    + replace (- (1 + k) + 1)%Z with (- k)%Z by lia. rewrite p10_opp. apply Qlt_shift_inv_l; [apply p10_pos|]. nra.
Qed.
Lemma p10_lt a b : 10 ^ a < 10 ^ b -> (a < b)%Z.
Proof.
  intros H. destruct (Z.lt_ge_cases a b) as [L|L]; [exact L|]. exfalso. replace a with (b + (a - b))%Z in H by lia. rewrite p10_plus in H. assert (1 <= 10 ^ (a - b)). { rewrite p10_inj by lia. change 1 with (inject_Z 1). rewrite <- Zle_Qle. pose proof (Z.pow_pos_nonneg 10 (a - b) ltac:(lia) ltac:(lia)). lia. }
  pose proof (p10_pos b). nra.
Qed.
Lemma lg10_mono p q : 0 < p -> p <= q -> (lg10 p <= lg10 q)%Z.
Proof.
  intros P L. destruct (lg10_spec p P) as [A1 A2]. destruct (lg10_spec q ltac:(lra)) as [B1 B2]. assert (10 ^ lg10 p < 10 ^ (lg10 q + 1)) by lra. apply p10_lt in H. lia.
Qed.
Lemma lg10_comp p q : 0 < p -> p == q -> lg10 p = lg10 q.
Proof. intros P E. apply Z.le_antisymm; apply lg10_mono; lra. Qed.

(** ** The deciding error *)
Lemma qeqb q : Qeq_bool q 0 = true <-> Qabs q == 0.
Proof.
  rewrite Qeq_bool_iff. split; intros H; [rewrite H; reflexivity|]. destruct (Qlt_le_dec q 0) as [L|L]; [rewrite Qabs_neg in H by lra; lra|rewrite Qabs_pos in H by lra; exact H].
Qed.
Lemma qnz q : Qeq_bool q 0 = false <-> 0 < Qabs q.
Proof.
  pose proof (Qabs_nonneg q) as N. split; intros H.
  - destruct (Qlt_le_dec 0 (Qabs q)) as [L|L]; [exact L|]. assert (E : Qabs q == 0) by lra. apply qeqb in E. congruence.
  - destruct (Qeq_bool q 0) eqn:E; [|reflexivity]. apply qeqb in E. lra.
Qed.
Lemma resolution_spec l c u res : resolution (u - c) (c - l) c = Some res -> exists e, deciding l c u e /\ 10 ^ res <= e /\ e < 10 ^ (res + 1).
Proof.
  unfold resolution, deciding. cbv zeta. set (up := u - c). set (lo := c - l). clearbody up lo. pose proof (Qabs_nonneg up) as NU. pose proof (Qabs_nonneg lo) as NL.
  destruct (Qeq_bool up 0) eqn:EU, (Qeq_bool lo 0) eqn:EL; cbn [negb andb]; try apply qeqb in EU; try apply qnz in EU; try apply qeqb in EL; try apply qnz in EL.
  - destruct (Qeq_bool c 0) eqn:EC; [discriminate|]. intros H. injection H as <-. apply qnz in EC. exists (Qabs c). split; [|apply lg10_spec; exact EC].
    split; [exact EC|]. split; [intros [K|K]; lra|reflexivity].
  - intros H. injection H as <-. exists (Qabs lo). split; [|apply lg10_spec; exact EL]. split; [exact EL|]. split; [intros _; split; [right; reflexivity|]; split; lra|intros [_ K]; lra].
  - intros H. injection H as <-. exists (Qabs up). split; [|apply lg10_spec; exact EU]. split; [exact EU|]. split; [intros _; split; [left; reflexivity|]; split; lra|intros [K _]; lra].
  - intros H. injection H as <-. destruct (Qlt_le_dec (Qabs up) (Qabs lo)) as [L|L].
    + exists (Qabs up). rewrite Z.min_l by (apply lg10_mono; lra). split; [|apply lg10_spec; exact EU]. split; [exact EU|]. split; [intros _; split; [left; reflexivity|]; split; lra|intros [K _]; lra].
    + exists (Qabs lo). rewrite Z.min_r by (apply lg10_mono; lra). split; [|apply lg10_spec; exact EL]. split; [exact EL|]. split; [intros _; split; [right; reflexivity|]; split; lra|intros [K _]; lra].
Qed.
Lemma resolution_none l c u : resolution (u - c) (c - l) c = None <-> (l == 0 /\ c == 0 /\ u == 0).
Proof.
  unfold resolution. destruct (Qeq_bool (u - c) 0) eqn:EU, (Qeq_bool (c - l) 0) eqn:EL; cbn [negb andb].
  - apply Qeq_bool_iff in EU. apply Qeq_bool_iff in EL. destruct (Qeq_bool c 0) eqn:EC; [apply Qeq_bool_iff in EC|apply Qeq_bool_neq in EC]; (split; [|tauto || discriminate || (intros; exfalso; tauto)]); [intros _; repeat split; lra|discriminate].
  - apply Qeq_bool_neq in EL. split; [discriminate|]. intros [A [B C]]. exfalso. apply EL. lra.
  - apply Qeq_bool_neq in EU. split; [discriminate|]. intros [A [B C]]. exfalso. apply EU. lra.
  - apply Qeq_bool_neq in EU. split; [discriminate|]. intros [A [B C]]. exfalso. apply EU. lra.
Qed.

(** ** Numbers *)
Lemma fixed_near d q : exists v z, numeral (fixed d q) d v /\ v * inject_Z (pow10 d) == inject_Z z /\ -(1 # 2) <= (v - q) * inject_Z (pow10 d) <= 1 # 2.
Proof.
  destruct (fixed_shows d q) as [v [[[v' [R E]] D] N]]. fold (pow10 d) in N. unfold fixed in R.
  set (p := Qabs q * inject_Z (pow10 d)) in *. assert (PP : 0 < inject_Z (pow10 d)) by (change 0 with (inject_Z 0); rewrite <- Zlt_Qlt; apply pow10_pos). assert (P0 : 0 <= p) by (unfold p; pose proof (Qabs_nonneg q); nra).
  destruct (render_read (negb (Qle_bool 0 q)) d (round_even p) (round_even_nonneg p P0)) as [[v2 [R2 E2]] _]. rewrite R in R2. injection R2 as <-.
  assert (NZ : ~ inject_Z (pow10 d) == 0) by lra. exists v. eexists. split; [split; [exists v'; split; [exact R|exact E]|exact D]|]. split; [|exact N]. rewrite <- E, E2.
  instantiate (1 := if negb (Qle_bool 0 q) then (- round_even p)%Z else round_even p). destruct (negb (Qle_bool 0 q)); [rewrite inject_Z_opp|]; field; exact NZ.
Qed.
Lemma round_to_near r x : exists z, round_to r x * inject_Z (pow10 r) == inject_Z z /\ -(1 # 2) <= (round_to r x - x) * inject_Z (pow10 r) <= 1 # 2.
Proof.
  assert (PP : 0 < inject_Z (pow10 r)) by (change 0 with (inject_Z 0); rewrite <- Zlt_Qlt; apply pow10_pos). assert (NZ : ~ inject_Z (pow10 r) == 0) by lra.
  exists (round_even (x * inject_Z (pow10 r))). unfold round_to. split; [field; exact NZ|]. pose proof (round_even_near (x * inject_Z (pow10 r))) as N.
  assert (E : (inject_Z (round_even (x * inject_Z (pow10 r))) / inject_Z (pow10 r) - x) * inject_Z (pow10 r) == inject_Z (round_even (x * inject_Z (pow10 r))) - x * inject_Z (pow10 r)) by (field; exact NZ). rewrite E. exact N.
Qed.
Lemma abs_le x t : Qabs x <= t <-> - t <= x <= t. Proof. apply Qabs_Qle_condition. Qed.
(** Rounding to [d] decimals and showing [d] decimals. *)
Lemma shown_direct d k f x : shown (fixed d (round_to d (x * 10 ^ f))) d k (10 ^ (k - Z.of_nat d)) (1 # 2) x \/ (f + k <> 0)%Z.
Proof.
  destruct (Z.eq_dec (f + k) 0) as [EK|]; [|right; assumption]. left. destruct (round_to_near d (x * 10 ^ f)) as [z [Z1 Z2]]. set (y := round_to d (x * 10 ^ f)) in *. exists y. split; [apply (fixed_exact d y z); exact Z1|].
  assert (KP : 10 ^ k == 10 ^ (k - Z.of_nat d) * inject_Z (pow10 d)) by (rewrite pow10_p10, <- p10_plus; replace (k - Z.of_nat d + Z.of_nat d)%Z with k by lia; reflexivity).
  assert (FK : 10 ^ f * 10 ^ k == 1) by (rewrite <- p10_plus, EK; reflexivity). split.
  - exists z. rewrite KP, <- Z1. ring.
  - apply abs_le. pose proof (p10_pos (k - Z.of_nat d)) as UP. set (u := 10 ^ (k - Z.of_nat d)) in *.
    assert (E : y * 10 ^ k - x == u * ((y - x * 10 ^ f) * inject_Z (pow10 d))). { rewrite KP at 1. transitivity (y * (u * inject_Z (pow10 d)) - x * 1); [ring|]. rewrite <- FK. rewrite KP. ring. }
    rewrite E. set (t := (y - x * 10 ^ f) * inject_Z (pow10 d)) in *. clearbody t u. nra.
Qed.
Lemma shown_two x : shown (fixed 0 (round_to 0 (x * 10 ^ (-1)) * 10 ^ 1)) 0 0 (10 ^ 1) (1 # 2) x.
Proof.
  destruct (round_to_near 0 (x * 10 ^ (-1))) as [z [Z1 Z2]]. set (y := round_to 0 (x * 10 ^ (-1))) in *. change (inject_Z (pow10 0)) with 1 in *. change (10 ^ 1) with 10 in *. change (10 ^ (-1)) with (1 # 10) in *. exists (y * 10). split.
  - apply (fixed_exact 0 (y * 10) (z * 10)). change (inject_Z (pow10 0)) with 1. rewrite inject_Z_mult. change (inject_Z 10) with 10. lra.
  - change (10 ^ 0) with 1. split; [exists z; lra|]. apply abs_le. lra.
Qed.
Lemma shown_one x : shown (fixed 0 (round_to 1 (x * 10 ^ 0))) 0 0 (10 ^ 0) (11 # 20) x.
Proof.
  destruct (round_to_near 1 (x * 10 ^ 0)) as [z [Z1 Z2]]. set (y := round_to 1 (x * 10 ^ 0)) in *. change (inject_Z (pow10 1)) with 10 in *. change (10 ^ 0) with 1 in *.
  destruct (fixed_near 0 y) as [v [m [F1 [F2 F3]]]]. change (inject_Z (pow10 0)) with 1 in *. exists v. split; [exact F1|]. change (10 ^ 0) with 1. split; [exists m; lra|]. apply abs_le. lra.
Qed.
Lemma int_text_read z : numeral (int_text z) 0 (inject_Z z).
Proof.
  assert (B : forall n, body 0 n = dec n) by (intros n; unfold body; rewrite sapp_nil; change (pow10 0) with 1%Z; rewrite Z.div_1_r; reflexivity).
  unfold int_text. destruct (Z.ltb_spec z 0) as [L|L].
  - pose proof (render_read true 0 (- z) ltac:(lia)) as [[v [R E]] D]. unfold render in *. fold (body 0 (- z)) in *. rewrite B in *. split; [|exact D]. exists v. split; [exact R|]. rewrite E. change (inject_Z (pow10 0)) with 1. rewrite inject_Z_opp. field.
  - pose proof (render_read false 0 z L) as [[v [R E]] D]. unfold render in *. fold (body 0 z) in *. rewrite B in *. split; [|exact D]. exists v. split; [exact R|]. rewrite E. change (inject_Z (pow10 0)) with 1. field.
Qed.

(** ** The text *)
Lemma tol_ge e : 1 # 2 <= nearly_half_unit e. Proof. unfold nearly_half_unit. destruct (_ && _); lra. Qed.
Lemma shown_weaken s d k u t t' x : 0 < u -> t <= t' -> shown s d k u t x -> shown s d k u t' x.
Proof. intros U L [v [N [M B]]]. exists v. split; [exact N|]. split; [exact M|]. nra. Qed.
Lemma shown_comp s d k u u' t x : u == u' -> shown s d k u t x -> shown s d k u' t x.
Proof. intros E [v [N [[m M] B]]]. exists v. split; [exact N|]. split; [exists m; rewrite <- E; exact M|]. rewrite <- E. exact B. Qed.
Lemma single_text b l c u use_pm : b_lower b = Some l -> b_center b = Some c -> b_upper b = Some u -> ~ (l == 0 /\ c == 0 /\ u == 0) ->
  exists t, format_single_bound b use_pm = Ok t /\ text_shows use_pm nearly_half_unit l c u t.
Proof.
  intros EL EC EU NZ. unfold format_single_bound. rewrite EL, EC, EU. destruct (resolution (u - c) (c - l) c) as [res|] eqn:ER; [|exfalso; apply NZ; apply resolution_none; exact ER].
  destruct (resolution_spec l c u res ER) as [e [HD [E1 E2]]]. eexists. split; [reflexivity|]. cbv zeta.
  assert (G : exists k d (sh : Q -> string),
    (forall x, fixed (if ((res =? 2) || (res =? 1))%Z then 0%nat else if (res =? -1)%Z then 2%nat else if (res =? -2)%Z then 3%nat else 1%nat)
       ((fun x => if (res =? 2)%Z then x * 10 ^ (- (if (2 <? Z.abs res)%Z then - res else if (res =? 2)%Z then -1 else 0)) else x)
          (round_to (if (res =? 2)%Z then 0%nat else if (res =? -1)%Z then 2%nat else if (res =? -2)%Z then 3%nat else 1%nat) (x * 10 ^ (if (2 <? Z.abs res)%Z then - res else if (res =? 2)%Z then -1 else 0)))) = sh x) /\
    (forall x, shown (sh x) d k (10 ^ (res - 1)) (nearly_half_unit e) x) /\
    (if (res =? 2)%Z then 0%Z else (if (2 <? Z.abs res)%Z then - res else if (res =? 2)%Z then -1 else 0))%Z = (- k)%Z).
  { pose proof (p10_pos (res - 1)) as UP. assert (W : forall s d k x, shown s d k (10 ^ (res - 1)) (1 # 2) x -> shown s d k (10 ^ (res - 1)) (nearly_half_unit e) x) by (intros s d k x; apply shown_weaken; [exact UP|apply tol_ge]).
    destruct (Z.ltb_spec 2 (Z.abs res)) as [BIG|SM].
    - exists res, 1%nat. eexists. split; [|split].
      + intros x. replace (res =? 2)%Z with false by (symmetry; apply Z.eqb_neq; lia). replace (res =? 1)%Z with false by (symmetry; apply Z.eqb_neq; lia). replace (res =? -1)%Z with false by (symmetry; apply Z.eqb_neq; lia). replace (res =? -2)%Z with false by (symmetry; apply Z.eqb_neq; lia). cbn [orb]. instantiate (1 := fun x => fixed 1 (round_to 1 (x * 10 ^ (- res)))). reflexivity.
      + intros x. apply W. destruct (shown_direct 1 res (- res) x) as [S|S]; [exact S|lia].
      + replace (res =? 2)%Z with false by (symmetry; apply Z.eqb_neq; lia). reflexivity.
    - assert (C : (res = 2 \/ res = 1 \/ res = 0 \/ res = -1 \/ res = -2)%Z) by lia. destruct C as [->|[->|[->|[->| ->]]]].
      + exists 0%Z, 0%nat. eexists. split; [intros x; instantiate (1 := fun x => fixed 0 (round_to 0 (x * 10 ^ (-1)) * 10 ^ 1)); reflexivity|]. split; [|reflexivity]. intros x. apply W. exact (shown_two x).
      + exists 0%Z, 0%nat. eexists. split; [intros x; instantiate (1 := fun x => fixed 0 (round_to 1 (x * 10 ^ 0))); reflexivity|]. split; [|reflexivity]. intros x.
        assert (T : nearly_half_unit e = 11 # 20). { unfold nearly_half_unit. change (10 ^ 1) with 10 in E1. change (10 ^ (1 + 1)) with 100 in E2. replace (Qle_bool 10 e) with true by (symmetry; apply Qle_bool_iff; exact E1).
          destruct (Qle_bool 100 e) eqn:K; [apply Qle_bool_iff in K; lra|reflexivity]. } rewrite T. exact (shown_one x).
      + exists 0%Z, 1%nat. eexists. split; [intros x; instantiate (1 := fun x => fixed 1 (round_to 1 (x * 10 ^ 0))); reflexivity|]. split; [|reflexivity]. intros x. apply W. destruct (shown_direct 1 0 0 x) as [S|S]; [exact S|lia].
      + exists 0%Z, 2%nat. eexists. split; [intros x; instantiate (1 := fun x => fixed 2 (round_to 2 (x * 10 ^ 0))); reflexivity|]. split; [|reflexivity]. intros x. apply W. destruct (shown_direct 2 0 0 x) as [S|S]; [exact S|lia].
      + exists 0%Z, 3%nat. eexists. split; [intros x; instantiate (1 := fun x => fixed 3 (round_to 3 (x * 10 ^ 0))); reflexivity|]. split; [|reflexivity]. intros x. apply W. destruct (shown_direct 3 0 0 x) as [S|S]; [exact S|lia]. }
  destruct G as [k [d [sh [G1 [G2 G3]]]]]. cbv beta in G1. rewrite !G1, G3. exists e, (res - 1)%Z, k, d, (sh c), (sh (u - c)), (sh (c - l)). split; [exact HD|].
  assert (P1 : 10 * 10 ^ (res - 1) == 10 ^ res) by (change 10 with (10 ^ 1) at 1; rewrite <- p10_plus; replace (1 + (res - 1))%Z with res by lia; reflexivity).
  assert (P2 : 100 * 10 ^ (res - 1) == 10 ^ (res + 1)) by (change 100 with (10 ^ 2); rewrite <- p10_plus; replace (2 + (res - 1))%Z with (res + 1)%Z by lia; reflexivity).
  split; [rewrite P1; exact E1|]. split; [rewrite P2; exact E2|]. split; [apply G2|]. split; [apply G2|]. split; [apply G2|].
  unfold times_power, expression. destruct (Z.eqb_spec (- k) 0) as [K|K].
  - left. split; [lia|]. reflexivity.
  - right. split; [lia|]. exists (int_text (- - k)). split; [|reflexivity]. rewrite Z.opp_involutive. apply int_text_read.
Qed.
