(** C28: the HDI summary. *)
From Coq Require Import QArith Qabs List Arith ZArith Bool Lia Lqa.
From Verif Require Import Py NumSpec NumModel NumFacts InterpFacts HelpersProofs MarginalModel SummarySpec QuantileProofs MaxProofs.
Import ListNotations.
Open Scope Q_scope.

Lemma eps_pos : 0 < hdi_eps. Proof. reflexivity. Qed.
Opaque hdi_eps.

Lemma skipn_nth_cons {A} (l : list A) i x r d : skipn i l = x :: r -> nth i l d = x /\ skipn (S i) l = r /\ (i < length l)%nat.
Proof.
  revert l. induction i as [|i IH]; intros [|y l]; cbn [skipn]; try discriminate.
  - intros H. injection H as -> ->. cbn. repeat split. lia.
  - intros H. destruct (IH l H) as [A1 [A2 A3]]. cbn. repeat split; [exact A1|exact A2|lia].
Qed.
Lemma removelast_length {A} (l : list A) : length (removelast l) = (length l - 1)%nat.
Proof.
  induction l as [|x [|y l] IH]; [reflexivity|reflexivity|]. cbn [removelast length] in *. lia.
Qed.
Lemma nth_removelast {A} (l : list A) i d : (S i < length l)%nat -> nth i (removelast l) d = nth i l d.
Proof.
  revert i. induction l as [|x l IH]; intros i H; [cbn in H; lia|]. destruct l as [|y l]; [cbn in H; lia|].
  destruct i as [|i]; [reflexivity|]. change (removelast (x :: y :: l)) with (x :: removelast (y :: l)).
  cbn [nth]. apply IH. cbn in *; lia.
Qed.

Section Loop.
Variables (area : Q) (cdf xp : list Q).
Let N := length cdf.
Hypothesis Ha : 0 < area.
Hypothesis HN : (2 <= N)%nat.
Hypothesis Hc : nondecreasing cdf.
Hypothesis Hlast : at_ cdf (N - 1) == 1.

(** A window found by the loop. *)
Definition win (b : hdi_best) : Prop :=
  exists a e w, (a < e < N)%nat /\ hb_width b = Some w /\ w = at_ xp e - at_ xp a /\
    hb_lower b = at_ xp a /\ hb_upper b = at_ xp e /\ hb_m0 b = at_ cdf a /\ hb_m1 b = at_ cdf e /\
    area <= at_ cdf e - at_ cdf a /\ hdi_eps < w.

Lemma first_end i : (S i < N)%nat ->
  let e := searchsorted cdf (at_ cdf i + area) in
  (i < e)%nat /\ ((e < N)%nat -> area <= at_ cdf e - at_ cdf i) /\
  (forall b, (b < N)%nat -> area <= at_ cdf b - at_ cdf i -> (e <= b)%nat).
Proof.
  intros Hi e. split; [|split].
  - destruct (Nat.lt_ge_cases i e) as [L|L]; [exact L|exfalso].
    assert (HL : (e < length cdf)%nat) by (fold N; lia).
    pose proof (searchsorted_ge cdf (at_ cdf i + area) HL) as G. fold e in G.
    assert (at_ cdf e <= at_ cdf i) by (apply Hc; fold N; lia). lra.
  - intros L. pose proof (searchsorted_ge cdf (at_ cdf i + area) L) as G. fold e in G. lra.
  - intros b Hb Hm. destruct (Nat.le_gt_cases e b) as [L|L]; [exact L|exfalso].
    pose proof (searchsorted_lt cdf (at_ cdf i + area) b L). lra.
Qed.

Lemma hdi_loop_spec starts : forall i best, skipn i (removelast cdf) = starts ->
  (hb_width best = None \/ win best) ->
  let r := hdi_loop area cdf xp i starts best in
  (r = best \/ win r) /\
  (forall w, hb_width best = Some w -> exists w', hb_width r = Some w' /\ w' <= w) /\
  (forall a b, (i <= a)%nat -> (a < b < N)%nat -> area <= at_ cdf b - at_ cdf a ->
     (forall e, (a < e <= b)%nat -> area <= at_ cdf e - at_ cdf a -> hdi_eps < at_ xp e - at_ xp a /\ at_ xp e <= at_ xp b) ->
     exists w', hb_width r = Some w' /\ w' <= at_ xp b - at_ xp a + hdi_eps).
Proof.
  pose proof eps_pos as EP.
  induction starts as [|m rest IH]; intros i best Hs Hbest; cbn [hdi_loop]; cbv zeta.
  - split; [left; reflexivity|]. split; [intros w Hw; exists w; split; [exact Hw|lra]|].
    intros a b Hia Hab Hm _. exfalso.
    assert (length (skipn i (removelast cdf)) = 0%nat) by (rewrite Hs; reflexivity).
    rewrite skipn_length, removelast_length in H. fold N in H. lia.
  - destruct (skipn_nth_cons _ _ _ _ 0 Hs) as [Hm [Hrest Hi]]. rewrite removelast_length in Hi. fold N in Hi.
    rewrite nth_removelast in Hm by (fold N; lia). change (nth i cdf 0) with (at_ cdf i) in Hm. subst m.
    assert (Hub : forall j, (j < N)%nat -> at_ cdf j <= 1) by (intros j Hj; rewrite <- Hlast; apply Hc; fold N; lia).
    assert (Hno : 1 < at_ cdf i + area -> forall a b, (i <= a)%nat -> (a < b < N)%nat -> area <= at_ cdf b - at_ cdf a -> False).
    { intros H a b Hia Hab Hmm. assert (at_ cdf i <= at_ cdf a) by (apply Hc; fold N; lia).
      pose proof (Hub b ltac:(lia)). lra. }
    destruct (qltb (1 + hdi_eps) (at_ cdf i + area)) eqn:EB.
    { apply qlt_true in EB. split; [left; reflexivity|]. split; [intros w Hw; exists w; split; [exact Hw|lra]|].
      intros a b Hia Hab Hm _. exfalso. apply (Hno ltac:(lra) a b); assumption. }
    destruct (first_end i ltac:(lia)) as [F1 [F2 F3]].
    set (e := searchsorted cdf (at_ cdf i + area)) in *.
    assert ((e <=? i)%nat = false) as -> by (apply Nat.leb_gt; exact F1).
    fold N. destruct (N <=? e)%nat eqn:EE.
    { apply Nat.leb_le in EE. split; [left; reflexivity|]. split; [intros w Hw; exists w; split; [exact Hw|lra]|].
      intros a b Hia Hab Hm _. exfalso. refine (Hno _ a b Hia Hab Hm).
      pose proof (searchsorted_lt cdf (at_ cdf i + area) (N - 1) ltac:(fold e; lia)). lra. }
    apply Nat.leb_gt in EE. specialize (F2 EE).
    change (nth e cdf 0) with (at_ cdf e).
    assert (qltb (at_ cdf e - at_ cdf i) (area - hdi_eps) = false) as -> by (apply qlt_false; lra).
    cbn [andb]. change (nth e xp 0) with (at_ xp e). change (nth i xp 0) with (at_ xp i).
    change (nth e cdf 0) with (at_ cdf e).
    assert (Hskip : (forall e0, (i < e0 <= e)%nat -> True) ) by auto.
    (* the next state and what it guarantees *)
    destruct (Qle_bool (at_ xp e - at_ xp i) hdi_eps) eqn:EW.
    + apply qle_true in EW. destruct (IH (S i) best Hrest Hbest) as [I1 [I2 I3]].
      split; [exact I1|]. split; [exact I2|].
      intros a b Hia Hab Hm Hsp. destruct (Nat.eq_dec a i) as [->|Na].
      * exfalso. assert (e <= b)%nat by (apply F3; [lia|exact Hm]).
        destruct (Hsp e ltac:(lia) F2) as [S1 _]. lra.
      * apply (I3 a b); try assumption; lia.
    + apply qle_false in EW.
      set (nb := {| hb_width := Some (at_ xp e - at_ xp i); hb_lower := at_ xp i; hb_upper := at_ xp e;
                    hb_m0 := at_ cdf i; hb_m1 := at_ cdf e |}).
      assert (Hnb : win nb).
      { exists i, e, (at_ xp e - at_ xp i). repeat split; try reflexivity; try assumption; lia. }
      set (cond := match hb_width best with None => true | Some w => qltb (at_ xp e - at_ xp i) (w - hdi_eps) end).
      destruct cond eqn:EC; unfold cond in EC.
      * destruct (IH (S i) nb Hrest (or_intror Hnb)) as [I1 [I2 I3]].
        destruct (I2 (at_ xp e - at_ xp i) eq_refl) as [w' [W1 W2]].
        split; [right; destruct I1 as [->|I1]; [exact Hnb|exact I1]|]. split.
        { intros w Hw. rewrite Hw in EC. apply qlt_true in EC. exists w'. split; [exact W1|lra]. }
        intros a b Hia Hab Hm Hsp. destruct (Nat.eq_dec a i) as [->|Na].
        { exists w'. split; [exact W1|]. assert (e <= b)%nat by (apply F3; [lia|exact Hm]).
          destruct (Hsp e ltac:(lia) F2) as [_ S2]. lra. }
        apply (I3 a b); try assumption; lia.
      * destruct (hb_width best) as [wb|] eqn:EWb; [|discriminate]. apply qlt_false in EC.
        assert (Hb2 : hb_width best = None \/ win best) by (destruct Hbest; [congruence|right; assumption]).
        destruct (IH (S i) best Hrest Hb2) as [I1 [I2 I3]].
        split; [exact I1|]. split; [intros w Hw; apply I2; congruence|].
        intros a b Hia Hab Hm Hsp. destruct (Nat.eq_dec a i) as [->|Na].
        { destruct (I2 wb EWb) as [w' [W1 W2]]. exists w'. split; [exact W1|].
          assert (e <= b)%nat by (apply F3; [lia|exact Hm]).
          destruct (Hsp e ltac:(lia) F2) as [_ S2]. lra. }
        apply (I3 a b); try assumption; lia.
Qed.
End Loop.

Section Hdi.
Variable m : marginal.
Variable area : Q.
Hypothesis HM : mg_ok m.
Hypothesis Ha : 0 < area <= 1.
Let xs := mg_xs m.
Let ys := mg_ys m.
Let cs := mg_cs m.
Let cdf := 0 :: cs.
Let xp := hd 0 xs :: xs.

Lemma hd_xs : hd 0 xs = at_ xs 0. Proof. apply hd_at. Qed.
Lemma cdf_len : length cdf = S (length xs).
Proof. unfold cdf. cbn. destruct (mok_lens _ _ _ HM) as [_ [L _]]. fold cs xs in L. lia. Qed.
Lemma xp_len : length xp = S (length xs). Proof. reflexivity. Qed.
Lemma cdf_nd : nondecreasing cdf.
Proof.
  apply nondecreasing_step. intros i Hi. rewrite cdf_len in Hi. unfold cdf.
  destruct i as [|i].
  - rewrite at_cons_0, at_cons_S. apply (mok_cs_range _ _ _ HM). fold xs; lia.
  - rewrite !at_cons_S. apply (mok_cs_nd _ _ _ HM); [lia|]. destruct (mok_lens _ _ _ HM) as [_ [L _]]. fold xs in L. lia.
Qed.
Lemma xp_nd : nondecreasing xp.
Proof.
  apply nondecreasing_step. intros i Hi. rewrite xp_len in Hi. unfold xp.
  destruct i as [|i].
  - rewrite at_cons_0, at_cons_S, hd_xs. lra.
  - rewrite !at_cons_S. apply (increasing_nondecreasing _ (mok_inc _ _ _ HM)); fold xs; lia.
Qed.
Lemma cdf_last : at_ cdf (length cdf - 1) == 1.
Proof.
  rewrite cdf_len. destruct (mok_lens _ _ _ HM) as [_ [_ L]]. fold xs in L.
  replace (S (length xs) - 1)%nat with (S (length xs - 1)) by lia. unfold cdf. rewrite at_cons_S.
  apply (mok_cs_last _ _ _ HM).
Qed.

Let start := {| hb_width := None; hb_lower := hd 0 xp; hb_upper := last xp 0; hb_m0 := 0; hb_m1 := 1 |}.
Let best := hdi_loop area cdf xp 0 (removelast cdf) start.

(** The window chosen, as indices into [cdf]/[xp]. *)
Lemma best_window : exists a e, (a < e < length cdf)%nat /\ hb_lower best == at_ xp a /\ hb_upper best == at_ xp e /\
  hb_m0 best == at_ cdf a /\ hb_m1 best == at_ cdf e /\ area <= at_ cdf e - at_ cdf a /\ (2 <= e)%nat /\
  (best = start -> a = 0%nat).
Proof.
  destruct (mok_lens _ _ _ HM) as [_ [_ L]]. fold xs in L.
  destruct (hdi_loop_spec area cdf xp (proj1 Ha) ltac:(rewrite cdf_len; lia) cdf_nd cdf_last (removelast cdf) 0 start eq_refl (or_introl eq_refl))
    as [[E|W] _]; [fold best in E|fold best in W].
  - exists 0%nat, (length xs). rewrite cdf_len. split; [lia|]. rewrite E. cbn [hb_lower hb_upper hb_m0 hb_m1].
    split; [reflexivity|]. split.
    { unfold start. cbn [hb_upper]. rewrite last_at by discriminate. rewrite xp_len.
      replace (S (length xs) - 1)%nat with (length xs) by lia. reflexivity. }
    split; [reflexivity|]. pose proof cdf_last as CL. rewrite cdf_len in CL.
    replace (S (length xs) - 1)%nat with (length xs) in CL by lia.
    split; [unfold start; cbn; rewrite CL; reflexivity|]. split; [|split; [lia|reflexivity]].
    rewrite CL. unfold cdf. rewrite at_cons_0. lra.
  - destruct W as [a [e [w (P1&P2&P3&P4&P5&P6&P7&P8&P9)]]]. exists a, e. split; [exact P1|].
    rewrite P4, P5, P6, P7. repeat (split; [reflexivity|]). split; [exact P8|]. split.
    + destruct e as [|[|e]]; [lia| |lia]. exfalso. assert (a = 0%nat) by lia. subst a.
      pose proof eps_pos. unfold xp in P3. rewrite at_cons_0, at_cons_S, hd_xs in P3. subst w. lra.
    + intros E. rewrite E in P2. discriminate.
Qed.

Lemma start_mass_cdf p : start_mass cs p <= at_ cdf (S p).
Proof.
  unfold cdf. rewrite at_cons_S. destruct p; cbn [start_mass]; [|lra].
  apply (mok_cs_range _ _ _ HM). destruct (mok_lens _ _ _ HM) as [_ [_ L]]. fold xs in L |- *. lia.
Qed.

Theorem hdi_sound : exists p j c, (p <= j < length xs)%nat /\ (1 <= j)%nat /\
  b_lower (summary_hdi area m) = Some (hb_lower best) /\ b_upper (summary_hdi area m) = Some (hb_upper best) /\
  b_center (summary_hdi area m) = Some c /\
  hb_lower best == at_ xs p /\ hb_upper best == at_ xs j /\ area <= window_mass cs p j /\
  hb_lower best <= c <= hb_upper best /\
  (hdi_eps < area -> exists m0 m1, area <= m1 - m0 /\ m1 == at_ cs j /\ (m0 == start_mass cs p \/ m0 == at_ cs p) /\
     on_polyline (0 :: cs) (at_ xs 0 :: xs) ((1#2) * (m0 + m1)) c).
Proof.
  pose proof eps_pos as EP. destruct best_window as [a [e (P1&P2&P3&P4&P5&P6&P7&_)]].
  destruct (mok_lens _ _ _ HM) as [_ [L2 L]]. fold xs in L. fold xs cs in L2.
  exists (a - 1)%nat, (e - 1)%nat. rewrite cdf_len in P1.
  assert (Exa : at_ xp a == at_ xs (a - 1)).
  { unfold xp. destruct a as [|a]; [rewrite at_cons_0, hd_xs; reflexivity|]. rewrite at_cons_S. replace (S a - 1)%nat with a by lia. reflexivity. }
  assert (Exe : at_ xp e = at_ xs (e - 1)).
  { unfold xp. destruct e as [|e]; [lia|]. rewrite at_cons_S. replace (S e - 1)%nat with e by lia. reflexivity. }
  assert (Ece : at_ cdf e = at_ cs (e - 1)).
  { unfold cdf. destruct e as [|e]; [lia|]. rewrite at_cons_S. replace (S e - 1)%nat with e by lia. reflexivity. }
  assert (Hxnd := xp_nd). assert (Hcnd := cdf_nd).
  assert (Hle : at_ xp a <= at_ xp e) by (apply Hxnd; [lia|rewrite xp_len; lia]).
  set (c := if Qle_bool (hb_m1 best - hb_m0 best) hdi_eps then (1#2) * (hb_lower best + hb_upper best)
            else np_interp (hb_m0 best + (1#2) * (hb_m1 best - hb_m0 best)) cdf xp (hb_lower best) (hb_upper best)).
  exists c. split; [lia|]. split; [lia|].
  assert (ES : summary_hdi area m = mkB (hb_lower best) c (hb_upper best)) by reflexivity.
  rewrite ES. cbn [mkB b_lower b_upper b_center]. repeat (split; [reflexivity|]).
  split; [rewrite P2; exact Exa|]. split; [rewrite P3, Exe; reflexivity|].
  split.
  { unfold window_mass. rewrite <- Ece. destruct a as [|a].
    - cbn [Nat.sub start_mass]. unfold cdf in P6. rewrite at_cons_0 in P6. fold cdf in P6. exact P6.
    - replace (S a - 1)%nat with a by lia. pose proof (start_mass_cdf a). lra. }
  set (q := hb_m0 best + (1#2) * (hb_m1 best - hb_m0 best)) in *.
  assert (Eq : q == (1#2) * (at_ cdf a + at_ cdf e)) by (unfold q; rewrite P4, P5; ring).
  assert (Lcx : length cdf = length xp) by (rewrite cdf_len, xp_len; reflexivity).
  assert (Hq0 : at_ cdf 0 <= q).
  { rewrite Eq. assert (at_ cdf 0 <= at_ cdf a) by (apply Hcnd; [lia|rewrite cdf_len; lia]). lra. }
  assert (Hq1 : q <= at_ cdf (length cdf - 1)).
  { rewrite Eq. assert (at_ cdf e <= at_ cdf (length cdf - 1)) by (apply Hcnd; rewrite ?cdf_len; lia). lra. }
  destruct (np_interp_bracket q cdf xp (hb_lower best) (hb_upper best) Lcx ltac:(discriminate) Hcnd Hxnd Hq0 Hq1) as [B1 B2].
  split.
  - unfold c. destruct (Qle_bool _ hdi_eps) eqn:EQ; [rewrite P2, P3; lra|]. fold q.
    assert (at_ xp a <= np_interp q cdf xp (hb_lower best) (hb_upper best)) by (apply B1; [rewrite cdf_len; lia|lra]).
    assert (np_interp q cdf xp (hb_lower best) (hb_upper best) <= at_ xp e) by (apply B2; [rewrite cdf_len; lia|lra]).
    rewrite <- P2 in H. rewrite <- P3 in H0. split; assumption.
  - intros Hae. exists (hb_m0 best), (hb_m1 best). split; [rewrite P4, P5; exact P6|].
    split; [rewrite P5, Ece; reflexivity|]. split.
    { destruct a as [|a].
      - left. cbn [Nat.sub start_mass]. rewrite P4. reflexivity.
      - right. rewrite P4. unfold cdf. rewrite at_cons_S. replace (S a - 1)%nat with a by lia. reflexivity. }
    unfold c. destruct (Qle_bool _ hdi_eps) eqn:EQ; [apply qle_true in EQ; lra|]. fold q.
    destruct (np_interp_polyline q cdf xp (hb_lower best) (hb_upper best) Lcx ltac:(rewrite cdf_len; lia) Hcnd Hq0 Hq1)
      as [j [t (Q1&Q2&Q3&Q4)]].
    exists j, t. rewrite <- hd_xs. split; [exact Q1|]. split; [exact Q2|]. split; [|exact Q4].
    apply Qeq_trans with q; [unfold q; ring|exact Q3].
Qed.

Hypothesis Hsp : forall i, (S i < length xs)%nat -> hdi_eps < at_ xs (S i) - at_ xs i.
Hypothesis H0 : at_ cs 0 < area.

Theorem hdi_minimal : forall p j, (p <= j < length xs)%nat -> area <= window_mass cs p j ->
  hb_upper best - hb_lower best <= at_ xs j - at_ xs p + hdi_eps.
Proof.
  intros p j Hpj Hm. pose proof eps_pos as EP. destruct (mok_lens _ _ _ HM) as [_ [L2 L]]. fold xs in L. fold xs cs in L2.
  pose proof (increasing_nondecreasing _ (mok_inc _ _ _ HM)) as HX. fold xs in HX.
  destruct (hdi_loop_spec area cdf xp (proj1 Ha) ltac:(rewrite cdf_len; lia) cdf_nd cdf_last (removelast cdf) 0 start eq_refl (or_introl eq_refl))
    as [HB [_ H3]]; fold best in HB, H3.
  set (a := match p with O => O | S _ => S p end).
  assert (Ea : at_ cdf a == start_mass cs p).
  { unfold a, cdf. destruct p; [rewrite at_cons_0|rewrite at_cons_S]; reflexivity. }
  assert (Exa : at_ xp a == at_ xs p).
  { unfold a, xp. destruct p; [rewrite at_cons_0, hd_xs|rewrite at_cons_S]; reflexivity. }
  assert (Hj1 : (p < j)%nat).
  { destruct (Nat.eq_dec p j) as [->|N]; [exfalso|lia]. unfold window_mass in Hm. destruct j as [|j]; cbn [start_mass] in Hm; lra. }
  assert (Exj : at_ xp (S j) = at_ xs j) by reflexivity.
  assert (Ecj : at_ cdf (S j) = at_ cs j) by reflexivity.
  destruct (H3 a (S j) ltac:(lia)) as [w' [W1 W2]].
  - rewrite cdf_len. unfold a. destruct p; lia.
  - rewrite Ecj, Ea. exact Hm.
  - intros e He Hme. split; [|apply xp_nd; [lia|rewrite xp_len; lia]].
    destruct e as [|e]; [lia|]. change (at_ xp (S e)) with (at_ xs e).
    change (at_ cdf (S e)) with (at_ cs e) in Hme.
    assert (Hpe : (p < e)%nat).
    { destruct p as [|p]; [|unfold a in He; lia]. destruct e as [|e]; [|lia]. exfalso.
      rewrite Ea in Hme. cbn [start_mass] in Hme. lra. }
    rewrite Exa. specialize (Hsp p ltac:(lia)). assert (at_ xs (S p) <= at_ xs e) by (apply HX; lia). lra.
  - assert (EW : hb_upper best - hb_lower best == w').
    { destruct HB as [E|HB]; [rewrite E in W1; discriminate|].
      destruct HB as [a' [e' [w (P1&P2&P3&P4&P5&_)]]]. rewrite W1 in P2. injection P2 as ->.
      rewrite P3, P4, P5. reflexivity. }
    rewrite EW. rewrite Exj, Exa in W2. exact W2.
Qed.
End Hdi.
Transparent hdi_eps.
