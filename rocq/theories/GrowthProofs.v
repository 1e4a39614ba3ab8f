(** Proofs: reported intervals grow with the area. *)
From Coq Require Import String QArith Qabs Qround List Arith ZArith Bool Lia.
From Verif Require Import Py NumSpec NumModel NumFacts InterpFacts HelpersSpec HelpersModel HelpersProofs MarginalModel SummarySpec SimpsonFacts MarginalProofs QuantileProofs MaxProofs HdiProofs BandProofs
  FrameModel FrameFacts ConfigModel ChainModel TextModel AnalysisModel AnalysisSpec EquivSpec EquivApi SummaryProps ReportSpec ReportProofs.
From Coq Require Import Lqa.
Import ListNotations.
Open Scope list_scope.
Open Scope Q_scope.

(** ** The maximum statistic *)
Section maxloop.
Variables (a a' : Q) (ys cs : list Q) (start : nat).
Hypothesis Haa : a <= a'.
Hypothesis Hs : (1 <= start)%nat.
Hypothesis Hl : (start < length ys)%nat.
Hypothesis H0 : at_ ys 0 == 0.
Hypothesis Hlast : at_ ys (length ys - 1) == 0.
Lemma max_loop_grows tries : forall minv maxv i1 i2 j1 j2, 0 <= minv -> minv < maxv -> maxv <= at_ ys start ->
  max_loop tries a ys cs start minv maxv = MaxFound i1 i2 -> max_loop tries a' ys cs start minv maxv = MaxFound j1 j2 -> (j1 <= i1 /\ i2 <= j2)%nat.
Proof.
  induction tries as [|k IH]; cbn [max_loop]; intros minv maxv i1 i2 j1 j2 A B C H H'; [discriminate|].
  set (mid := (maxv + minv) / 2) in *. assert (E2 : mid == (1#2) * (maxv + minv)) by (unfold mid; field).
  destruct (find_stretch ys start Hs Hl H0 Hlast mid) as [k1 [k2 [F1 [F2 F3]]]]; [lra|lra|]. rewrite F1, F2 in H, H'.
  set (s1 := (start - k1)%nat) in *. set (s2 := (start + k2)%nat) in *. set (g := nth s2 cs 0 - nth s1 cs 0) in *.
  assert (Hin : forall v w i j, v <= w -> stretch ys start v j1 j2 -> stretch ys start w i j -> (j1 <= i /\ j <= j2)%nat) by (intros v w i j L S1 S2; eapply stretch_nested; eassumption).
  destruct (qltb (Qabs (g - a)) max_threshold) eqn:T, (qltb (Qabs (g - a')) max_threshold) eqn:T'.
  - injection H as <- <-. injection H' as <- <-. lia.
  - injection H as <- <-. apply qlt_true in T. apply qlt_false in T'. apply Qabs_Qlt_condition in T.
    assert (G : g < a'). { destruct (Qlt_le_dec g a') as [L|L]; [exact L|]. rewrite Qabs_pos in T' by lra. lra. }
    assert (qltb g a' = true) as E by (apply qlt_true; exact G). rewrite E in H'.
    destruct (max_loop_found a' ys cs start Hs Hl H0 Hlast k minv mid j1 j2 A ltac:(lra) ltac:(lra) H') as [lv [V1 [V2 _]]]. apply (Hin lv mid); [lra|exact V2|exact F3].
  - injection H' as <- <-. apply qlt_true in T'. apply qlt_false in T. apply Qabs_Qlt_condition in T'.
    assert (G : a <= g). { destruct (Qlt_le_dec g a) as [L|L]; [|exact L]. rewrite Qabs_neg in T by lra. lra. }
    assert (qltb g a = false) as E by (apply qlt_false; exact G). rewrite E in H.
    destruct (max_loop_found a ys cs start Hs Hl H0 Hlast k mid maxv i1 i2 ltac:(lra) ltac:(lra) C H) as [lv [V1 [V2 _]]]. apply (Hin mid lv); [lra|exact F3|exact V2].
  - destruct (qltb g a) eqn:G, (qltb g a') eqn:G'.
    + exact (IH minv mid i1 i2 j1 j2 A ltac:(lra) ltac:(lra) H H').
    + apply qlt_true in G. apply qlt_false in G'. lra.
    + destruct (max_loop_found a' ys cs start Hs Hl H0 Hlast k minv mid j1 j2 A ltac:(lra) ltac:(lra) H') as [lv' [V1' [V2' _]]].
      destruct (max_loop_found a ys cs start Hs Hl H0 Hlast k mid maxv i1 i2 ltac:(lra) ltac:(lra) C H) as [lv [V1 [V2 _]]]. apply (Hin lv' lv); [lra|exact V2'|exact V2].
    + exact (IH mid maxv i1 i2 j1 j2 ltac:(lra) ltac:(lra) C H H').
Qed.
End maxloop.

Lemma summary_max_grows n tries a a' m lo x up lo' x' up' : (2 <= n)%nat -> mg_ok m -> a <= a' ->
  summary_max n tries a m = Ok (mkB lo x up) -> summary_max n tries a' m = Ok (mkB lo' x' up') -> lo' <= lo /\ up <= up' /\ x' = x.
Proof.
  intros Hn HM Haa H H'. destruct (mok_lens _ _ _ HM) as [L1 [L2 L3]].
  assert (Nx : mg_xs m <> []) by (intros E; rewrite E in L3; cbn in L3; lia). assert (Ny : mg_ys m <> []) by (intros E; rewrite E in L1; cbn in L1; lia).
  unfold summary_max in H, H'. set (pxs := pad_xs n (mg_xs m)) in *. set (pys := pad_ys n (mg_ys m)) in *.
  assert (HP : padded n (mg_xs m) (mg_ys m) pxs pys) by (apply pad_padded; assumption).
  assert (LPX : length pys = (n + length (mg_xs m) + n)%nat /\ length pxs = (n + length (mg_xs m) + n)%nat) by (eapply (padded_len n); eassumption). destruct LPX as [LP LX].
  assert (Np : pys <> []) by (intros E; rewrite E in LP; cbn in LP; lia). pose proof (argmax_spec pys Np) as HK. set (k := argmax pys) in *.
  assert (HMD : is_mode (mg_xs m) (mg_ys m) (at_ pxs k) /\ 0 < at_ pys k /\ (1 <= k)%nat) by (eapply (padded_mode n); eassumption). destruct HMD as [_ [Hpos Hk1]].
  assert (Kl : (k < length pys)%nat) by apply HK.
  assert (PF : at_ pys 0 == 0) by (eapply (padded_first n); eassumption). assert (PL : at_ pys (length pys - 1) == 0) by (eapply (padded_last n); eassumption). assert (PX : nondecreasing pxs) by (eapply (padded_xs_nd n); eassumption).
  destruct (Qeq_bool _ 0); [discriminate|]. set (cs := map _ (cumsum pys)) in *. change (nth k pys 0) with (at_ pys k) in *.
  destruct (max_loop tries a pys cs k 0 (at_ pys k)) as [i1 i2| |] eqn:E; [|discriminate|discriminate]. destruct (max_loop tries a' pys cs k 0 (at_ pys k)) as [j1 j2| |] eqn:E'; [|discriminate|discriminate].
  injection H as <- <- <-. injection H' as <- <- <-.
  destruct (max_loop_grows a a' pys cs k Haa Hk1 Kl PF PL tries 0 (at_ pys k) i1 i2 j1 j2 (Qle_refl 0) Hpos (Qle_refl _) E E') as [N1 N2].
  destruct (max_loop_found a pys cs k Hk1 Kl PF PL _ _ _ _ _ (Qle_refl 0) Hpos (Qle_refl _) E) as [v [_ [(S1&S2&_) _]]].
  destruct (max_loop_found a' pys cs k Hk1 Kl PF PL _ _ _ _ _ (Qle_refl 0) Hpos (Qle_refl _) E') as [v' [_ [(S1'&S2'&_) _]]].
  split; [apply PX; lia|]. split; [apply PX; lia|reflexivity].
Qed.

(** ** The quantile statistics *)
Lemma quantiles_grow m a a' l u l' u' : mg_ok m -> a <= a' ->
  interp_res (mg_cs m) (mg_xs m) ((1#2) - (1#2) * a) = Ok l -> interp_res (mg_cs m) (mg_xs m) ((1#2) + (1#2) * a) = Ok u ->
  interp_res (mg_cs m) (mg_xs m) ((1#2) - (1#2) * a') = Ok l' -> interp_res (mg_cs m) (mg_xs m) ((1#2) + (1#2) * a') = Ok u' -> l' <= l /\ u <= u'.
Proof. intros HM Haa L U L' U'. split; [eapply (interp_res_mono _ _ _ HM _ _ _ _ _ L' L)|eapply (interp_res_mono _ _ _ HM _ _ _ _ _ U U')]. Unshelve. all: lra. Qed.
Lemma quantiles_grow2 m a a' l u l' u' : mg_ok m -> a <= a' ->
  interp_res (mg_cs m) (mg_xs m) ((1#2) - a / 2) = Ok l -> interp_res (mg_cs m) (mg_xs m) ((1#2) + a / 2) = Ok u ->
  interp_res (mg_cs m) (mg_xs m) ((1#2) - a' / 2) = Ok l' -> interp_res (mg_cs m) (mg_xs m) ((1#2) + a' / 2) = Ok u' -> l' <= l /\ u <= u'.
Proof.
  intros HM Haa L U L' U'. assert (E : a / 2 == (1#2) * a) by field. assert (E' : a' / 2 == (1#2) * a') by field.
  split; [eapply (interp_res_mono _ _ _ HM _ _ _ _ _ L' L)|eapply (interp_res_mono _ _ _ HM _ _ _ _ _ U U')]. Unshelve. all: lra.
Qed.

(** ** The threshold of the bands *)
Lemma bisect_loop_in f xtol rtol fa : forall fuel xa dm, 0 <= dm -> xa <= bisect_loop fuel f xtol rtol fa xa dm <= xa + dm.
Proof.
  induction fuel as [|k IH]; intros xa dm Hdm; [cbn [bisect_loop]; lra|]. rewrite bisect_loop_S. cbv zeta. assert (E : dm / 2 == (1#2) * dm) by field. set (d := dm / 2) in *.
  destruct (_ || _); [lra|]. destruct (Bool.eqb _ _); [specialize (IH (xa + d) d)|specialize (IH xa d)]; destruct IH as [I1 I2]; lra.
Qed.
Lemma bisect_loop_mono f f' xtol rtol fa fa' : 0 < fa -> 0 < fa' -> (forall t, f' t <= f t) -> forall fuel xa dm, 0 <= dm ->
  bisect_loop fuel f' xtol rtol fa' xa dm <= bisect_loop fuel f xtol rtol fa xa dm.
Proof.
  intros Hfa Hfa' HF. induction fuel as [|k IH]; intros xa dm Hdm; [cbn [bisect_loop]; lra|]. rewrite !bisect_loop_S. cbv zeta. assert (E : dm / 2 == (1#2) * dm) by field. set (d := dm / 2) in *. set (xm := xa + d) in *.
  assert (qneg fa = false) as -> by (apply qlt_false; lra). assert (qneg fa' = false) as -> by (apply qlt_false; lra).
  specialize (HF xm). pose proof (bisect_loop_in f xtol rtol fa k xm d ltac:(lra)) as R1. pose proof (bisect_loop_in f' xtol rtol fa' k xa d ltac:(lra)) as R2. assert (EX : xm == xa + d) by reflexivity.
  destruct (qltb (Qabs d) (xtol + rtol * Qabs xm)); [rewrite !orb_true_r; lra|]. rewrite !orb_false_r.
  destruct (Qeq_bool (f' xm) 0) eqn:Z', (Qeq_bool (f xm) 0) eqn:Z; try lra.
  - apply qeqb_true in Z'. apply qeqb_false in Z. assert (qneg (f xm) = false) as -> by (apply qlt_false; lra). cbn [Bool.eqb]. lra.
  - apply qeqb_false in Z'. apply qeqb_true in Z. assert (qneg (f' xm) = true) as -> by (apply qlt_true; lra). cbn [Bool.eqb]. lra.
  - apply qeqb_false in Z'. apply qeqb_false in Z. destruct (qneg (f xm)) eqn:N; cbn [Bool.eqb].
    + apply qlt_true in N. assert (qneg (f' xm) = true) as -> by (apply qlt_true; lra). cbn [Bool.eqb]. apply IH. lra.
    + destruct (qneg (f' xm)); cbn [Bool.eqb]; [lra|apply IH; lra].
Qed.
Lemma bisect_mono maxiter f f' xa xb xtol rtol t t' : xa <= xb -> (forall v, f' v <= f v) -> 0 <= f' xa ->
  bisect maxiter f xa xb xtol rtol = Ok t -> bisect maxiter f' xa xb xtol rtol = Ok t' -> t' <= t.
Proof.
  intros Hab HF H0. unfold bisect. pose proof (HF xa) as Fa. pose proof (HF xb) as Fb.
  assert (RG : forall g ga, xa <= bisect_loop maxiter g xtol rtol ga xa (xb - xa) <= xb). { intros g ga. pose proof (bisect_loop_in g xtol rtol ga maxiter xa (xb - xa) ltac:(lra)). lra. }
  destruct (Qeq_bool (f' xa) 0) eqn:A'.
  { intros H H'. injection H' as <-. destruct (Qeq_bool (f xa) 0); [injection H as <-; lra|]. destruct (Qeq_bool (f xb) 0); [injection H as <-; lra|]. destruct (Bool.eqb _ _); [discriminate|]. injection H as <-. apply RG. }
  apply qeqb_false in A'. assert (Qeq_bool (f xa) 0 = false) as -> by (apply qeqb_false; lra).
  destruct (Qeq_bool (f xb) 0) eqn:B.
  { intros H H'. injection H as <-. destruct (Qeq_bool (f' xb) 0); [injection H' as <-; lra|]. destruct (Bool.eqb _ _); [discriminate|]. injection H' as <-. apply RG. }
  assert (qneg (f xa) = false) as -> by (apply qlt_false; lra). assert (qneg (f' xa) = false) as -> by (apply qlt_false; lra).
  destruct (qneg (f xb)) eqn:N; cbn [Bool.eqb]; [|discriminate]. apply qlt_true in N. assert (Qeq_bool (f' xb) 0 = false) as -> by (apply qeqb_false; lra). assert (qneg (f' xb) = true) as -> by (apply qlt_true; lra). cbn [Bool.eqb].
  intros H H'. injection H as <-. injection H' as <-. apply bisect_loop_mono; [lra|lra|exact HF|lra].
Qed.

(** A mask that grows: each run lies in a run. *)
Lemma run_within mask mask' s e : (forall k, nth k mask false = true -> nth k mask' false = true) -> is_run mask s e -> exists s' e', is_run mask' s' e' /\ (s' <= s)%nat /\ (e <= e')%nat.
Proof.
  intros H (R1&R2&R3&_). destruct (run_around mask' s (H s (R3 s ltac:(lia)))) as [s' [e' [R I]]]. exists s', e'. split; [exact R|]. split; [lia|].
  destruct (Nat.le_gt_cases e e') as [L|L]; [exact L|exfalso]. destruct R as (_&Q2&_&_&Q5).
  assert (T : nth (S e') mask' false = true) by (apply H, R3; lia). destruct Q5 as [Q5|Q5]; [|congruence]. rewrite nth_overflow in T by lia. discriminate.
Qed.
Lemma bands_grow m h a a' ivs ivs' : mg_ok m -> 0 < h -> uniform h (mg_xs m) -> a <= a' -> a' <= 1 -> hdi_intervals a m = Ok ivs -> hdi_intervals a' m = Ok ivs' -> (2 <= length ivs)%nat ->
  forall iv, In iv ivs -> exists iv', In iv' ivs' /\ within iv iv'.
Proof.
  intros HM Hh HU Haa Ha1 H H' L iv HI. unfold hdi_intervals in H, H'.
  apply rbind_ok in H. destruct H as [dens [D H]]. rewrite D in H'. cbn [rbind] in H'. apply rbind_ok in H. destruct H as [t [T H]]. apply rbind_ok in H'. destruct H' as [t' [T' H']].
  destruct (dens_facts m HM h Hh HU dens D) as [LD [ND SD]]. destruct (peak_spec m HM h Hh HU dens D) as [_ [_ PP]].
  assert (TT : t' <= t).
  { unfold hdi_threshold in T, T'. eapply (bisect_mono 100 (fun v => mass_above dens (mg_xs m) v - a) (fun v => mass_above dens (mg_xs m) v - a')); [| | |exact T|exact T']; [lra|intros v; lra|]. pose proof (mass_0 m HM h Hh HU dens D) as M0. lra. }
  set (mask := map (fun y => Qle_bool t y) dens) in *. set (mask' := map (fun y => Qle_bool t' y) dens) in *.
  assert (MM : forall k, nth k mask false = true -> nth k mask' false = true).
  { intros k Hk. destruct (Nat.lt_ge_cases k (length dens)) as [Lk|Lk]; [|unfold mask in Hk; rewrite nth_overflow in Hk by (rewrite map_length; exact Lk); discriminate].
    unfold mask, mask' in *. rewrite (nth_indep _ false (Qle_bool t 0)) in Hk by (rewrite map_length; exact Lk). rewrite (map_nth (fun y => Qle_bool t y)) in Hk. rewrite (nth_indep _ false (Qle_bool t' 0)) by (rewrite map_length; exact Lk). rewrite (map_nth (fun y => Qle_bool t' y)).
    apply qle_true in Hk. apply qle_true. lra. }
  assert (LM : length mask = length (mg_xs m)) by (unfold mask; rewrite map_length; exact LD). assert (LM' : length mask' = length (mg_xs m)) by (unfold mask'; rewrite map_length; exact LD).
  destruct (mask_runs (mg_xs m) mask (mok_inc _ _ _ HM) LM) as [rs [R1 [R2 _]]]. destruct (mask_runs (mg_xs m) mask' (mok_inc _ _ _ HM) LM') as [rs' [R1' [R2' _]]]. rewrite R1 in H. rewrite R1' in H'. cbn [rbind] in H, H'.
  assert (E : ivs = map (fun se => (at_ (mg_xs m) (fst se), at_ (mg_xs m) (snd se))) rs).
  { destruct rs as [|r rs]; [|injection H as <-; reflexivity]. cbn [map] in H. destruct (b_lower (summary_hdi a m)); [destruct (b_upper (summary_hdi a m))|]; injection H as <-; cbn in L; lia. }
  rewrite E in HI. apply in_map_iff in HI. destruct HI as [[s e] [<- HI]]. apply R2 in HI. destruct HI as [HR SE].
  destruct (run_within mask mask' s e MM HR) as [s' [e' [HR' [S1 S2]]]]. assert (HI' : In (s', e') rs') by (apply R2'; split; [exact HR'|lia]).
  assert (E' : ivs' = map (fun se => (at_ (mg_xs m) (fst se), at_ (mg_xs m) (snd se))) rs') by (destruct rs' as [|r' rs']; [destruct HI'|injection H' as <-; reflexivity]).
  exists (at_ (mg_xs m) s', at_ (mg_xs m) e'). split; [rewrite E'; apply in_map_iff; exists (s', e'); auto|].
  destruct HR as (_&Q2&_). destruct HR' as (_&Q2'&_). pose proof (increasing_nondecreasing _ (mok_inc _ _ _ HM)) as ND'. split; cbn [fst snd]; apply ND'; lia.
Qed.

(** ** The highest density interval *)
Lemma hdi_grows m a a' lo x up lo' x' up' : mg_ok m -> 0 < a -> a <= a' -> a' <= 1 ->
  (forall i, (S i < length (mg_xs m))%nat -> 1 # 1000000000000 < at_ (mg_xs m) (S i) - at_ (mg_xs m) i) -> at_ (mg_cs m) 0 < a ->
  summary_hdi a m = mkB lo x up -> summary_hdi a' m = mkB lo' x' up' -> up - lo <= up' - lo' + (1 # 1000000000000).
Proof.
  intros HM A0 Haa A1 SP C0 H H'. destruct (C28_hdi_mass m a' HM ltac:(lra)) as [l1 [x1 [u1 [p [j (E&I&El&Eu&W&_)]]]]]. rewrite H' in E. injection E as <- <- <-.
  destruct (C28_hdi_narrowest m a HM ltac:(lra) SP C0) as [l2 [x2 [u2 [E2 K]]]]. rewrite H in E2. injection E2 as <- <- <-. specialize (K p j I ltac:(lra)). rewrite El, Eu. exact K.
Qed.
