(** C22: the smoothed marginal. *)
From Coq Require Import QArith Qabs Qround List Arith ZArith Bool Lia Lqa.
From Verif Require Import Py NumSpec NumModel NumFacts InterpFacts HelpersSpec HelpersModel HelpersProofs ExtentsProofs
  DensityProofs MarginalModel SummarySpec SimpsonFacts.
Import ListNotations.
Open Scope Q_scope.

(** Assumptions on the parameters standing for the float power, the Gaussian taps and the KDE. *)
Record cfg_ok (c : mcfg) : Prop := {
  ok_power : forall x, 0 <= x -> 0 <= m_power c x;
  ok_kernel : forall s, all_nonneg (m_kernel c s);
  ok_kde : forall x, 0 <= m_kde_eval c x
}.

Lemma map_at_gen {A} (f : A -> Q) l i d : (i < length l)%nat -> at_ (map f l) i = f (nth i l d).
Proof.
  intros H. unfold at_. rewrite (nth_indep _ 0 (f d)) by (rewrite map_length; exact H). apply map_nth.
Qed.

Lemma filter1d_length k l : length (filter1d k l) = length l.
Proof. unfold filter1d. rewrite map_length, seq_length. reflexivity. Qed.
Lemma filter1d_nonneg k l : all_nonneg k -> all_nonneg l -> all_nonneg (filter1d k l).
Proof.
  intros Hk Hl x Hx. unfold filter1d in Hx. apply in_map_iff in Hx. destruct Hx as [i [<- _]].
  apply qsum_nonneg. intros y Hy. apply in_map_iff in Hy. destruct Hy as [j [<- _]].
  apply Qmult_le_0_compat; apply all_nonneg_at; assumption.
Qed.

Lemma bin_centers_increasing e : increasing e -> increasing (bin_centers e).
Proof.
  intros H. apply increasing_step. intros i Hi. rewrite bin_centers_length in Hi.
  rewrite !bin_centers_at by lia.
  assert (at_ e i < at_ e (S i)) by (apply H; lia).
  assert (at_ e (S i) < at_ e (S (S i))) by (apply H; lia). lra.
Qed.

Lemma linspace_nondecreasing a b n : a <= b -> nondecreasing (linspace a b n).
Proof.
  intros H i j Hij Hj. rewrite linspace_length in Hj.
  destruct n as [|[|n]]; [lia| |].
  - replace i with 0%nat by lia. replace j with 0%nat by lia. lra.
  - rewrite !linspace_at by lia.
    assert (Hp : 0 < nq (S (S n) - 1)) by (apply nq_pos; lia).
    assert (0 <= (b - a) / nq (S (S n) - 1)) by (apply Qle_shift_div_l; lra).
    assert (nq i <= nq j) by (apply nq_le; exact Hij). nra.
Qed.

Lemma interp_all_nonneg xp fp xs ys :
  length xp = length fp -> nondecreasing xp -> all_nonneg fp ->
  opt_all (map (interp1d xp fp) xs) = Some ys -> length ys = length xs /\ all_nonneg ys.
Proof.
  intros HL HS HF H. destruct (opt_all_some _ _ H) as [L1 L2]. rewrite map_length in L1, L2.
  split; [exact L1|]. intros y Hy. destruct (In_at _ _ Hy) as [i [Hi <-]].
  specialize (L2 i 0 ltac:(lia)).
  assert (E : interp1d xp fp (nth i xs 0) = Some (at_ ys i)).
  { change (at_ ys i) with (nth i ys 0). rewrite <- L2.
    rewrite (nth_indep _ None (interp1d xp fp 0)) by (rewrite map_length; lia).
    rewrite map_nth. reflexivity. }
  destruct (interp1d_some _ _ _ _ E) as [A [B ->]].
  apply np_interp_nonneg; tauto.
Qed.

(** With all abscissae equal, Simpson gives zero (divisions by zero are replaced by zero, as in scipy). *)
Lemma basic_simpson_const c : forall pts x0 y0, x0 == c -> (forall p, In p pts -> fst p == c) ->
  basic_simpson x0 y0 pts == 0.
Proof.
  fix IH 1. intros [|[a ya] [|[b yb] l]] x0 y0 E0 El; try reflexivity.
  cbn [basic_simpson].
  assert (E1 : a == c) by (apply (El (a, ya)); left; reflexivity).
  assert (E2 : b == c) by (apply (El (b, yb)); right; left; reflexivity).
  rewrite IH; [|exact E2|intros p Hp; apply El; right; right; exact Hp].
  unfold simp_panel. cbv zeta. assert (E3 : (a - x0 + (b - a)) == 0) by lra. rewrite E3. unfold Qdiv. ring.
Qed.
Lemma simpson_const c xs ys : (forall x, In x xs -> x == c) -> length xs = length ys -> simpson xs ys == 0.
Proof.
  intros Hx L. unfold simpson.
  destruct (combine xs ys) as [|[x0 y0] rest] eqn:EC; [reflexivity|].
  assert (HI : forall p, In p ((x0, y0) :: rest) -> fst p == c).
  { intros [x y] Hp. rewrite <- EC in Hp. apply in_combine_l in Hp. apply Hx; exact Hp. }
  assert (E0 : x0 == c) by (apply (HI (x0, y0)); left; reflexivity).
  assert (HI' : forall p, In p rest -> fst p == c) by (intros p Hp; apply HI; right; exact Hp).
  assert (HR : forall p, In p (removelast rest) -> fst p == c).
  { intros p Hp. apply HI'. destruct (list_eq_dec (fun p q : Q * Q => ltac:(repeat decide equality)) rest []) as [->|N]; [exact Hp|].
    rewrite (app_removelast_last (0,0) N). apply in_or_app; left; exact Hp. }
  destruct (Nat.odd (length ys)) eqn:EO; [apply (basic_simpson_const c); assumption|].
  destruct rest as [|[x1 y1] rest'].
  { exfalso. assert (length (combine xs ys) = 1%nat) by (rewrite EC; reflexivity). rewrite combine_length in H.
    assert (length ys = 1%nat) as Hy by lia. rewrite Hy in EO. discriminate. }
  destruct rest' as [|p2 rest'].
  { assert (E1 : x1 == c) by (apply (HI' (x1, y1)); left; reflexivity).
    assert (E2 : x1 - x0 == 0) by lra. rewrite E2. ring. }
  assert (HL : (3 <= length xs)%nat).
  { assert (length (combine xs ys) = length ((x0,y0) :: (x1,y1) :: p2 :: rest')) by (rewrite EC; reflexivity).
    rewrite combine_length in H. cbn in H. lia. }
  rewrite (basic_simpson_const c) by assumption.
  unfold simp_corr. cbv zeta.
  assert (HN : forall i, (i < length xs)%nat -> nth i xs 0 == c) by (intros i Hi; apply Hx, nth_In; exact Hi).
  set (a0 := nth (length ys - 3) xs 0). set (a1 := nth (length ys - 2) xs 0). set (a2 := nth (length ys - 1) xs 0).
  assert (Z0 : a1 - a0 == 0) by (unfold a0, a1; rewrite !HN by lia; ring).
  assert (Z1 : a2 - a1 == 0) by (unfold a2, a1; rewrite !HN by lia; ring).
  rewrite Z0, Z1. unfold Qdiv. ring.
Qed.

(** The bin edges used are non-decreasing. *)
Lemma extents_ordered nbins d pad lo hi :
  (2 <= nbins)%nat -> positive_weights d -> d <> [] ->
  get_extents nbins d false true false pad = Ok (lo, hi) -> lo <= hi.
Proof.
  intros Hn HW HN H. destruct (hist_range d) as [rlo rhi] eqn:HR.
  destruct (ext_unfold nbins d rlo rhi Hn HN HW HR false true false pad)
    as [i1 [i2 [lo' [hi' [I1 [I2 [I12 [_ [_ [_ [_ [Elo [Ehi EG]]]]]]]]]]]]].
  assert (lo' <= hi').
  { rewrite Elo, Ehi.
    assert (at_ (linspace rlo rhi (S nbins)) i1 <= at_ (linspace rlo rhi (S nbins)) (nbins - i2)); [|lra].
    apply (ext_be_nd nbins d rlo rhi HN HR); [lia|]. rewrite linspace_length. lia. }
  rewrite EG in H. destruct pad; injection H as <- <-; lra.
Qed.

Definition edges_of (nbins : nat) (c : mcfg) (d : wdata) (pad : bool) (e : list Q) : Prop :=
  if m_grid c then get_grid_bins (map fst d) = Ok e
  else exists s, get_smoothed_bins nbins (smooth_value (m_smooth c) (m_grid c))
                   (get_bins (m_bins c) (m_smooth c) (m_grid c) (m_rows c) (m_cols c)) d false pad = Ok (e, s).

Lemma edges_nondecreasing nbins c d pad e :
  (2 <= nbins)%nat -> positive_weights d -> d <> [] -> edges_of nbins c d pad e -> nondecreasing e.
Proof.
  intros Hn HW HN. unfold edges_of. destruct (m_grid c).
  - intros H. apply increasing_nondecreasing, (grid_bins_increasing _ _ H).
  - intros [s H]. unfold get_smoothed_bins in H.
    destruct (get_extents nbins d false true false pad) as [[lo hi]|] eqn:E; [|discriminate].
    cbn [rbind] in H.
    pose proof (extents_ordered _ _ _ _ _ Hn HW HN E) as Hlh.
    destruct (_ =? 0)%Z.
    + destruct (_ <? 0)%Z; [discriminate|]. injection H as <- _. apply linspace_nondecreasing; exact Hlh.
    + destruct (_ <? 0)%Z; [discriminate|]. injection H as <- _. apply linspace_nondecreasing; exact Hlh.
Qed.

Lemma total_at_last l : l <> [] -> at_ (cumsum l) (length l - 1) == total l.
Proof.
  intros H. destruct l as [|x r]; [congruence|]. rewrite cumsum_at by (cbn; lia).
  unfold total. replace (S (length (x :: r) - 1)) with (length (x :: r)) by (cbn; lia). reflexivity.
Qed.

Definition smoothed_heights (c : mcfg) (h0 : list Q) : list Q :=
  let h1 := map (m_power c) h0 in
  let sv := smooth_value (m_smooth c) (m_grid c) in
  if (0 <? sv)%Z then filter1d (m_kernel c sv) h1 else h1.

Lemma smoothed_histogram_inv nbins npts nkde c d pad m :
  (2 <= nbins)%nat -> (2 <= npts)%nat -> (2 <= nkde)%nat ->
  positive_weights d -> d <> [] -> cfg_ok c ->
  smoothed_histogram nbins npts nkde c d pad = Ok m ->
  exists e, edges_of nbins c d pad e /\ increasing e /\ (2 <= length e)%nat /\
    mg_xs m = linspace (at_ (bin_centers e) 0) (last (bin_centers e) 0) npts /\
    length (mg_ys m) = npts /\ all_nonneg (mg_ys m) /\ 0 < total (mg_ys m) /\
    length (mg_cs m) = npts /\
    (forall i, (i < npts)%nat -> at_ (mg_cs m) i == sum_range (at_ (mg_ys m)) 0 (S i) / total (mg_ys m)) /\
    (m_kde c = false -> exists h0, hist_density e d = Ok h0 /\
       opt_all (map (interp1d (bin_centers e) (smoothed_heights c h0)) (mg_xs m)) = Some (mg_ys m)).
Proof.
  intros Hnb Hnp Hnk HW HN HC H. unfold smoothed_histogram in H.
  set (sv := smooth_value (m_smooth c) (m_grid c)) in *.
  set (bm := if m_grid c then get_grid_bins (map fst d) else
               rmap fst (get_smoothed_bins nbins sv (get_bins (m_bins c) (m_smooth c) (m_grid c) (m_rows c) (m_cols c)) d false pad)) in *.
  destruct bm as [e|] eqn:EB; [|discriminate]. cbn [rbind] in H.
  assert (HE : edges_of nbins c d pad e).
  { unfold bm in EB. unfold edges_of. destruct (m_grid c); [exact EB|]. fold sv.
    destruct (get_smoothed_bins nbins sv _ d false pad) as [[e' s]|]; [|discriminate].
    cbn [rmap fst] in EB. injection EB as ->. exists s. reflexivity. }
  destruct (bin_centers e) as [|c0 cr] eqn:EC; [discriminate|].
  destruct (hist_density e d) as [hist0|] eqn:EH; [|discriminate]. cbn [rbind] in H.
  assert (HS : nondecreasing e) by (exact (edges_nondecreasing nbins c d pad e Hnb HW HN HE)).
  destruct (hist_density_nonneg _ _ _ HW HS EH) as [Hh0 [HI _]].
  destruct (hist_density_inv _ _ _ EH) as [Lh0 _].
  assert (Lc : length (bin_centers e) = (length e - 1)%nat) by apply bin_centers_length.
  assert (Le : (2 <= length e)%nat) by (rewrite EC in Lc; cbn in Lc; lia).
  assert (HIc : increasing (c0 :: cr)) by (rewrite <- EC; apply bin_centers_increasing; exact HI).
  assert (Hc0l : c0 <= last (c0 :: cr) 0).
  { rewrite last_at by congruence. change c0 with (at_ (c0 :: cr) 0) at 1.
    apply (increasing_nondecreasing _ HIc); cbn; lia. }
  set (hist1 := map (m_power c) hist0) in *.
  assert (Hh1 : all_nonneg hist1).
  { intros x Hx. apply in_map_iff in Hx. destruct Hx as [y [<- Hy]]. apply (ok_power c HC). apply Hh0; exact Hy. }
  set (hist := if (0 <? sv)%Z then filter1d (m_kernel c sv) hist1 else hist1) in *.
  assert (Hh : all_nonneg hist /\ length hist = length (c0 :: cr)).
  { rewrite <- EC, Lc, <- Lh0. unfold hist. destruct (0 <? sv)%Z.
    - split; [apply filter1d_nonneg; [apply (ok_kernel c HC)|exact Hh1]|].
      rewrite filter1d_length. unfold hist1. apply map_length.
    - split; [exact Hh1|]. unfold hist1. apply map_length. }
  destruct Hh as [Hh Lh].
  set (xs := linspace c0 (last (c0 :: cr) 0) npts) in *.
  assert (HY : exists ys, length ys = npts /\ all_nonneg ys /\
     (m_kde c = false -> opt_all (map (interp1d (c0 :: cr) hist) xs) = Some ys) /\
     (let cs0 := cumsum ys in let mm := qmax_list (hd 0 cs0) (tl cs0) in
      if Qeq_bool mm 0 then Err NaNResult
      else Ok {| mg_xs := xs; mg_ys := ys; mg_cs := map (fun v => v / mm) cs0 |}) = Ok m).
  { revert H. destruct (m_kde c).
    - set (nk := Nat.max nkde _). set (kxs := linspace c0 (last (c0 :: cr) 0) nk).
      set (ys0 := map (m_kde_eval c) kxs).
      destruct (Qeq_bool (simpson kxs ys0) 0) eqn:EA; [discriminate|]. apply qeqb_false in EA.
      destruct (opt_all _) as [ys|] eqn:EO; [|discriminate]. intros H. exists ys.
      assert (HA : 0 < simpson kxs ys0).
      { destruct (Qlt_le_dec c0 (last (c0 :: cr) 0)) as [L|L].
        - assert (Hnk2 : (2 <= nk)%nat) by (unfold nk; lia).
          assert (Hst : 0 < (last (c0 :: cr) 0 - c0) / nq (nk - 1)).
          { apply Qlt_shift_div_l; [apply nq_pos; lia|]. lra. }
          destruct (simpson_weights nk _ Hnk2 Hst) as [ws [W1 [W2 W3]]].
          assert (Lk : length kxs = nk) by apply linspace_length.
          assert (Ly : length ys0 = nk) by (unfold ys0; rewrite map_length; exact Lk).
          assert (E0 : simpson kxs ys0 == dot ws ys0).
          { apply W3; [exact Lk|exact Ly|]. apply linspace_uniform; exact Hnk2. }
          assert (0 <= dot ws ys0).
          { assert (Z0 : dot ws (repeat 0 nk) == 0).
            { apply dot_zero; [|rewrite repeat_length; lia]. intros i Hi. unfold at_. rewrite nth_repeat. reflexivity. }
            rewrite <- Z0. apply dot_le; [exact W2|rewrite repeat_length; lia|lia|].
            intros i Hi. unfold at_ at 1. rewrite nth_repeat. unfold ys0.
            rewrite at_map by (rewrite Lk; lia). apply (ok_kde c HC). }
          destruct (Qlt_le_dec 0 (simpson kxs ys0)) as [L2|L2]; [exact L2|]. exfalso; apply EA; lra.
        - (* a single bin: the KDE grid has zero width and the area is zero *)
          exfalso. apply EA. assert (Eq : last (c0 :: cr) 0 == c0) by lra.
          assert (Lk : length kxs = nk) by apply linspace_length.
          apply (simpson_const c0); [|unfold ys0; rewrite map_length; reflexivity].
          intros x Hx. destruct (In_at _ _ Hx) as [i [Hi <-]].
          assert (Hr := linspace_range c0 (last (c0 :: cr) 0) nk i Hc0l). 
          assert (2 <= nk)%nat by (unfold nk; lia). rewrite Lk in Hi. fold kxs in Hr.
          assert (c0 <= at_ kxs i <= last (c0 :: cr) 0) by (apply Hr; lia). lra. }
      destruct (interp_all_nonneg kxs (map (fun y => y / simpson kxs ys0) ys0) xs ys) as [A B]; try assumption.
      + unfold ys0. rewrite !map_length. reflexivity.
      + apply linspace_nondecreasing; exact Hc0l.
      + intros x Hx. apply in_map_iff in Hx. destruct Hx as [y [<- Hy]]. apply in_map_iff in Hy.
        destruct Hy as [z [<- _]]. apply Qle_shift_div_l; [exact HA|]. rewrite Qmult_0_l. apply (ok_kde c HC).
      + split; [rewrite A; apply linspace_length|]. split; [exact B|]. split; [discriminate|exact H].
    - destruct (opt_all _) as [ys|] eqn:EO; [|discriminate]. intros H. exists ys.
      destruct (interp_all_nonneg (c0 :: cr) hist xs ys) as [A B]; try assumption.
      + symmetry; exact Lh.
      + apply increasing_nondecreasing; exact HIc.
      + split; [rewrite A; apply linspace_length|]. split; [exact B|]. split; [intros _; reflexivity|exact H]. }
  destruct HY as [ys [Ly [Hy [HP HM]]]]. cbv zeta in HM.
  destruct (Qeq_bool _ 0) eqn:EZ in HM; [discriminate|]. apply qeqb_false in EZ.
  injection HM as <-. cbn [mg_xs mg_ys mg_cs].
  assert (Hne : ys <> []) by (intros ->; cbn in Ly; lia).
  assert (EM : qmax_list (hd 0 (cumsum ys)) (tl (cumsum ys)) == total ys).
  { assert (Lcs : length (cumsum ys) = length ys) by apply cumsum_length.
    rewrite <- (total_at_last ys Hne), <- Lcs.
    apply qmax_list_last; [apply cumsum_nondecreasing; exact Hy|].
    intros E. rewrite E in Lcs. cbn in Lcs. lia. }
  rewrite EM in EZ.
  assert (HT : 0 < total ys).
  { assert (0 <= total ys); [|lra]. rewrite <- (total_at_last ys Hne). apply cumsum_nonneg; exact Hy. }
  exists e. split; [exact HE|]. split; [exact HI|]. split; [exact Le|].
  split; [rewrite EC; reflexivity|]. split; [exact Ly|]. split; [exact Hy|]. split; [exact HT|].
  split; [rewrite map_length, cumsum_length; exact Ly|].
  split.
  { intros i Hi. rewrite at_map by (rewrite cumsum_length; lia). rewrite EM, cumsum_at by lia. reflexivity. }
  intros HK. exists hist0. split; [exact EH|]. rewrite EC. exact (HP HK).
Qed.
