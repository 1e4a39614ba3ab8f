(** The marginal and the summaries under a change of units. *)
From Coq Require Import QArith Qabs Qround List Arith ZArith Bool Lia Permutation Lqa.
From Verif Require Import Py NumSpec NumModel NumFacts HelpersModel MarginalModel HelpersSpec HelpersProofs EquivSpec EquivFacts.
Import ListNotations.
Open Scope Q_scope.

(** ** Weighted samples *)
Lemma occurs_Qin x d : occurs x d <-> Qin x (map fst d).
Proof.
  split.
  - intros [y [w [H E]]]. exists y. split; [apply in_map_iff; exists (y, w); auto|exact E].
  - intros [y [H E]]. apply in_map_iff in H as [[z w] [<- H]]. exists z, w. auto.
Qed.
Lemma weight_if_values (p : Q -> bool) u d : (forall x y, x == y -> p x = p y) -> qsorted u -> (forall x, In x (map fst d) -> Qin x u) ->
  weight_if p d == qsum (map (fun x => if p x then weight_at x d else 0) u).
Proof.
  intros P S. unfold weight_at. induction d as [|[x w] d IH]; intros H; cbn [weight_if].
  - induction u as [|y u IHu]; cbn; [reflexivity|]. rewrite <- IHu; [destruct (p y); ring|eapply qsorted_tl; exact S|intros ? []].
  - rewrite IH by (intros y Y; apply H; right; exact Y). assert (C : (if p x then w else 0) == qsum (map (fun y => if p y then if Qeq_bool x y then w else 0 else 0) u)).
    { destruct (H x (or_introl eq_refl)) as [z [Z E]]. apply In_at in Z as [i [I Z]]. apply qsorted_increasing in S. clear IH H. revert i I Z. induction u as [|y u IHu]; intros i I Z; [cbn in I; lia|]. cbn [map qsum].
      assert (S' : increasing u). { intros a b A B. specialize (S (Datatypes.S a) (Datatypes.S b) ltac:(lia) ltac:(cbn; lia)). rewrite !at_cons_S in S. exact S. }
      destruct i as [|i].
      - change (y = z) in Z. subst z. rewrite (P y x E). replace (Qeq_bool x y) with true by (symmetry; apply Qeq_bool_iff; symmetry; exact E).
        assert (T : qsum (map (fun y0 => if p y0 then if Qeq_bool x y0 then w else 0 else 0) u) == 0).
        { assert (N : forall y0, In y0 u -> ~ x == y0). { intros y0 Y0. apply In_at in Y0 as [j [J <-]]. specialize (S 0%nat (Datatypes.S j) ltac:(lia) ltac:(cbn; lia)). rewrite at_cons_S, at_cons_0 in S. lra. }
          clear -N. induction u as [|y0 u IHu]; [reflexivity|]. cbn [map qsum]. rewrite IHu by (intros y1 Y1; apply N; right; exact Y1). replace (Qeq_bool x y0) with false; [destruct (p y0); ring|]. symmetry. apply qeqb_false. apply N. left. reflexivity. }
        rewrite T. destruct (p x); ring.
      - rewrite at_cons_S in Z. rewrite <- (IHu S' i ltac:(cbn in I; lia) Z). specialize (S 0%nat (Datatypes.S i) ltac:(lia) I). rewrite at_cons_S, at_cons_0 in S. rewrite Z in S.
        replace (Qeq_bool x y) with false; [destruct (p y); ring|]. symmetry. apply qeqb_false. lra. }
    rewrite C. clear. induction u as [|y u IHu]; cbn [map qsum weight_if]; [ring|]. rewrite <- IHu. destruct (p y), (Qeq_bool x y); ring.
Qed.
Lemma in_bin_aff a b lo hi cl x lo' hi' x' : 0 < a -> aff a b lo lo' -> aff a b hi hi' -> aff a b x x' -> in_bin lo' hi' cl x' = in_bin lo hi cl x.
Proof. intros A L H X. unfold in_bin. rewrite (leb_aff a b lo x lo' x'), (ltb_aff a b x hi x' hi'), (leb_aff a b x hi x' hi') by assumption. reflexivity. Qed.
Lemma in_bin_eq lo hi cl x y : x == y -> in_bin lo hi cl x = in_bin lo hi cl y.
Proof. intros E. apply (in_bin_aff 1 0); try apply aff1; [reflexivity|]. unfold aff. rewrite E. ring. Qed.

Section image.
Variables (a b k : Q) (d d' : list (Q * Q)).
Hypothesis A : 0 < a.
Hypothesis HS : same_sample a b k d d'.

Lemma back x' : aff a b ((x' - b) / a) x'.
Proof. unfold aff. field. intros K. rewrite K in A. exact (Qlt_irrefl _ A). Qed.
Lemma values_lin : lin a b (np_unique (map fst d)) (np_unique (map fst d')).
Proof.
  assert (E : Forall2 Qeq (map (fun x => a * x + b) (np_unique (map fst d))) (np_unique (map fst d'))).
  { apply qsorted_ext_length; [| apply qsorted_increasing, np_unique_sorted|].
    - intros i j IJ J. rewrite map_length in J. rewrite !at_map by lia. pose proof (qsorted_increasing _ (np_unique_sorted (map fst d)) i j IJ J) as L. apply Qplus_lt_l. apply Qmult_lt_l; assumption.
    - intros y. destruct (proj2 HS _ _ (back y)) as [M _]. rewrite !occurs_Qin in M. pose proof (np_unique_in y (map fst d')) as N'. pose proof (np_unique_in ((y - b) / a) (map fst d)) as N.
      assert (E0 : Qin y (map (fun x => a * x + b) (np_unique (map fst d))) <-> Qin ((y - b) / a) (np_unique (map fst d))); [|tauto]. split.
      + intros [z [Z E]]. apply in_map_iff in Z as [x [<- X]]. exists x. split; [exact X|]. rewrite <- E. field. intros K. rewrite K in A. exact (Qlt_irrefl _ A).
      + intros [z [Z E]]. exists (a * z + b). split; [apply in_map_iff; exists z; auto|]. rewrite E. symmetry. apply back. }
  revert E. generalize (np_unique (map fst d')). generalize (np_unique (map fst d)). induction l as [|x l IH]; intros m E; inversion E; subst; constructor; [|apply IH; assumption]. unfold aff. symmetry. assumption.
Qed.
Lemma bins_aff lo hi lo' hi' cl : aff a b lo lo' -> aff a b hi hi' -> aff k 0 (bin_weight lo hi cl d) (bin_weight lo' hi' cl d').
Proof.
  intros L H. unfold aff. rewrite !bin_weight_if.
  rewrite (weight_if_values (in_bin lo hi cl) (np_unique (map fst d)) d); [|intros x y E; apply in_bin_eq; exact E|apply np_unique_sorted|intros x X; apply np_unique_in; exists x; split; [exact X|reflexivity]].
  rewrite (weight_if_values (in_bin lo' hi' cl) (np_unique (map fst d')) d'); [|intros x y E; apply in_bin_eq; exact E|apply np_unique_sorted|intros x X; apply np_unique_in; exists x; split; [exact X|reflexivity]].
  apply qsum_lin. generalize values_lin. generalize (np_unique (map fst d')). generalize (np_unique (map fst d)). induction l as [|x l IH]; intros m E; inversion E as [|? x' ? m' X E']; subst; constructor; [|apply IH; assumption].
  rewrite (in_bin_aff a b lo hi cl x lo' hi' x') by assumption. destruct (in_bin lo hi cl x); [|apply aff0]. unfold aff. rewrite (proj2 (proj2 HS _ _ X)). ring.
Qed.
Lemma empty_iff : d = [] <-> d' = [].
Proof.
  split; intros E; rewrite E in *.
  - destruct d' as [|[x w] r]; [reflexivity|]. destruct (proj2 HS _ _ (back x)) as [[_ M] _]. destruct M as [y [v [[] _]]]. exists x, w. split; [left; reflexivity|reflexivity].
  - destruct d as [|[x w] r]; [reflexivity|]. destruct (proj2 HS x (a * x + b) (Qeq_refl _)) as [[M _] _]. destruct M as [y [v [[] _]]]. exists x, w. split; [left; reflexivity|reflexivity].
Qed.
Lemma min_aff m m' : is_min m (map fst d) -> is_min m' (map fst d') -> aff a b m m'.
Proof.
  intros [I L] [I' L']. assert (O : occurs m d) by (apply occurs_Qin; exists m; split; [exact I|reflexivity]). apply (proj2 HS m (a * m + b) (Qeq_refl _)) in O. apply occurs_Qin in O as [y [Y E]].
  assert (O' : occurs m' d') by (apply occurs_Qin; exists m'; split; [exact I'|reflexivity]). apply (proj2 HS _ _ (back m')) in O'. apply occurs_Qin in O' as [z [Z E']].
  specialize (L z Z). specialize (L' y Y). rewrite E in L'. rewrite E' in L. assert (aff a b ((m' - b) / a) m') by apply back. pose proof (aff_le a b m ((m' - b) / a) (a * m + b) m' A (Qeq_refl _) H) as K. apply K in L. unfold aff. lra.
Qed.
Lemma max_aff m m' : is_max m (map fst d) -> is_max m' (map fst d') -> aff a b m m'.
Proof.
  intros [I L] [I' L']. assert (O : occurs m d) by (apply occurs_Qin; exists m; split; [exact I|reflexivity]). apply (proj2 HS m (a * m + b) (Qeq_refl _)) in O. apply occurs_Qin in O as [y [Y E]].
  assert (O' : occurs m' d') by (apply occurs_Qin; exists m'; split; [exact I'|reflexivity]). apply (proj2 HS _ _ (back m')) in O'. apply occurs_Qin in O' as [z [Z E']].
  specialize (L z Z). specialize (L' y Y). rewrite E in L'. rewrite E' in L. assert (aff a b ((m' - b) / a) m') by apply back. pose proof (aff_le a b ((m' - b) / a) m m' (a * m + b) A H (Qeq_refl _)) as K. apply K in L. unfold aff. lra.
Qed.
Hypothesis HW : a == 1 \/ spread d.
Hypothesis HN : d <> [].
Lemma range_aff : aff a b (fst (hist_range d)) (fst (hist_range d')) /\ aff a b (snd (hist_range d)) (snd (hist_range d')).
Proof.
  assert (HN' : d' <> []) by (intros E; apply HN, empty_iff, E). unfold hist_range.
  pose proof min_aff as MI. pose proof max_aff as MA. destruct (map fst d) as [|x r] eqn:E; [destruct d; [congruence|discriminate]|]. destruct (map fst d') as [|x' r'] eqn:E'; [destruct d'; [congruence|discriminate]|].
  assert (M1 : aff a b (qmin_list x r) (qmin_list x' r')) by (apply MI; split; apply qmin_list_spec). assert (M2 : aff a b (qmax_list x r) (qmax_list x' r')) by (apply MA; split; apply qmax_list_spec).
  rewrite (eqb_aff a b (qmin_list x r) (qmax_list x r) (qmin_list x' r') (qmax_list x' r')) by assumption. destruct (Qeq_bool (qmin_list x r) (qmax_list x r)) eqn:EQ; [|split; assumption]. apply Qeq_bool_iff in EQ.
  destruct HW as [A1|[y [z [Y [Z N]]]]]; [cbn [fst snd]; unfold aff in *; split; rewrite ?M1, ?M2, A1; ring|]. exfalso. apply N.
  apply occurs_Qin in Y as [y0 [Y EY]]. apply occurs_Qin in Z as [z0 [Z EZ]]. rewrite E in Y, Z. destruct (qmin_list_spec x r) as [L1 _]. destruct (qmax_list_spec x r) as [L2 _].
  pose proof (L1 _ Y). pose proof (L1 _ Z). pose proof (L2 _ Y). pose proof (L2 _ Z). lra.
Qed.

(** ** helpers.py *)
Lemma scaled_ratio c m m' l l' : 0 < c -> lin c 0 l l' -> aff c 0 m m' -> lin 1 0 (map (fun v => v / m) l) (map (fun v => v / m') l').
Proof. intros C L M. apply (lin_map2 c 0); [exact L|]. intros x x' _ X. unfold aff in *. rewrite X, M. setoid_replace (c * x + 0) with (c * x) by ring. setoid_replace (c * m + 0) with (c * m) by ring. rewrite (div_scaled c x m C). ring. Qed.
Lemma minus_lin l l' : lin 1 0 l l' -> lin 1 0 (map (fun c => 1 - c) l) (map (fun c => 1 - c) l').
Proof. intros L. apply (lin_map2 1 0); [exact L|]. intros x x' _ X. unfold aff in *. rewrite X. ring. Qed.
Lemma extents_aff n plot wide tiny pad : rrel (fun p p' => aff a b (fst p) (fst p') /\ aff a b (snd p) (snd p')) (get_extents n d plot wide tiny pad) (get_extents n d' plot wide tiny pad).
Proof.
  assert (K0 : 0 < k) by exact (proj1 HS). unfold get_extents. destruct range_aff as [R1 R2]. destruct (hist_range d) as [lo hi], (hist_range d') as [lo' hi']. cbn [fst snd] in *. cbv zeta.
  pose proof (linspace_lin a b lo hi lo' hi' (S n) R1 R2) as BE. pose proof (hist_bins_lin a b k d d' _ _ bins_aff BE) as H. fold (np_histogram (linspace lo hi (S n)) d) in H. fold (np_histogram (linspace lo' hi' (S n)) d') in H.
  pose proof (bin_centers_lin _ _ _ _ BE) as BC. assert (LL : length (np_histogram (linspace lo hi (S n)) d) = length (bin_centers (linspace lo hi (S n)))) by (unfold np_histogram; rewrite hist_bins_length, bin_centers_length; reflexivity).
  revert H BC LL. generalize (np_histogram (linspace lo hi (S n)) d) (np_histogram (linspace lo' hi' (S n)) d') (bin_centers (linspace lo hi (S n))) (bin_centers (linspace lo' hi' (S n))). intros h h' c c' H BC LL.
  pose proof (cumsum_lin _ _ _ H) as CS. pose proof (cumsum_length h) as LC. revert CS LC. generalize (cumsum h) (cumsum h'). intros s s' CS LC.
  pose proof (qmax_list_lin _ _ _ _ _ _ K0 (lin_tl _ _ _ _ CS) (lin_hd0 _ _ _ CS)) as M0. revert M0. generalize (qmax_list (hd 0 s) (tl s)) (qmax_list (hd 0 s') (tl s')). intros m m' M0.
  rewrite (eqb0_aff k m m' K0 M0). destruct (Qeq_bool m 0); [reflexivity|].
  pose proof (scaled_ratio k m m' s s' K0 CS M0) as C1. apply minus_lin, lin_rev in C1. assert (LI : length (rev (map (fun c0 => 1 - c0) (map (fun c0 => c0 / m) s))) = length c) by (rewrite rev_length, !map_length; congruence).
  revert C1 LI. generalize (rev (map (fun c0 => 1 - c0) (map (fun c0 => c0 / m) s))) (rev (map (fun c0 => 1 - c0) (map (fun c0 => c0 / m') s'))). intros i i' C1 LI.
  assert (P1 : 0 < 1) by reflexivity. pose proof (qmax_list_lin _ _ _ _ _ _ P1 (lin_tl _ _ _ _ C1) (lin_hd0 _ _ _ C1)) as M1. revert M1. generalize (qmax_list (hd 0 i) (tl i)) (qmax_list (hd 0 i') (tl i')). intros m1 m1' M1.
  rewrite (eqb0_aff 1 m1 m1' P1 M1). destruct (Qeq_bool m1 0); [reflexivity|]. pose proof (scaled_ratio 1 m1 m1' i i' P1 C1 M1) as C2. pose proof (minus_lin _ _ (lin_rev _ _ _ _ C2)) as C3.
  assert (L2 : length (map (fun c0 => c0 / m1) i) = length c) by (rewrite map_length; exact LI). assert (L3 : length (map (fun c0 => 1 - c0) (rev (map (fun c0 => c0 / m1) i))) = length c) by (rewrite map_length, rev_length, map_length; exact LI).
  revert C2 C3 L2 L3. generalize (map (fun c0 => 1 - c0) (rev (map (fun c0 => c0 / m1) i))) (map (fun c0 => 1 - c0) (rev (map (fun c0 => c0 / m1') i'))). generalize (map (fun c0 => c0 / m1) i) (map (fun c0 => c0 / m1') i'). intros p p' q q' C2 C3 L2 L3.
  rewrite (first_gt_lin 1 0 q q' (extents_threshold plot wide tiny) (extents_threshold plot wide tiny) P1 C3 (aff1 _)), (first_gt_lin 1 0 p p' (extents_threshold plot wide tiny) (extents_threshold plot wide tiny) P1 C2 (aff1 _)).
  destruct (first_gt q _) as [i1|] eqn:F1; [|reflexivity]. destruct (first_gt p _) as [i2|] eqn:F2; [|reflexivity]. apply first_gt_some in F1 as [F1 _]. apply first_gt_some in F2 as [F2 _].
  rewrite (lin_length _ _ _ _ BC). assert (B1 : aff a b (nth i1 c 0) (nth i1 c' 0)) by (apply lin_nth; [exact BC|lia]).
  assert (B2 : aff a b (nth (py_neg_index (length c) i2) c 0) (nth (py_neg_index (length c) i2) c' 0)) by (apply lin_nth; [exact BC|unfold py_neg_index; destruct i2; lia]).
  destruct pad; cbn [rrel fst snd]; [|split; assumption]. unfold aff in *. split; rewrite B1, B2; ring.
Qed.
Lemma smoothed_bins_aff n smooth bins plot pad : rrel (fun p p' => lin a b (fst p) (fst p') /\ snd p = snd p') (get_smoothed_bins n smooth bins d plot pad) (get_smoothed_bins n smooth bins d' plot pad).
Proof.
  unfold get_smoothed_bins. eapply rrel_bind; [apply extents_aff|]. intros [lo hi] [lo' hi'] [L H]. cbn [fst snd] in *. destruct (smooth =? 0)%Z; [destruct (bins <? 0)%Z|destruct (2 * smooth * bins <? 0)%Z]; try reflexivity; cbn [rrel fst snd]; (split; [apply linspace_lin; assumption|reflexivity]).
Qed.
Lemma grid_bins_aff : rrel (lin a b) (get_grid_bins (map fst d)) (get_grid_bins (map fst d')).
Proof.
  unfold get_grid_bins. pose proof values_lin as V. destruct V as [|x x' l l' X V]; [reflexivity|]. destruct V as [|y y' l l' Y V]; [reflexivity|]. cbv zeta. cbn [rrel].
  assert (L : lin a b (x :: y :: l) (x' :: y' :: l')) by (repeat (constructor; [assumption|]); exact V). assert (D : (1 # 2) * (y' - x') == a * ((1 # 2) * (y - x))) by (unfold aff in X, Y; rewrite X, Y; ring).
  apply lin_app; [apply (lin_map2 a b); [exact L|]; intros z z' _ Z; unfold aff in *; rewrite Z, D; ring|]. constructor; [|constructor]. pose proof (lin_last_any a b _ _ 0 0 L ltac:(discriminate)) as E. unfold aff in *. rewrite E, D. ring.
Qed.
Lemma density_aff e e' : lin a b e e' -> rrel (lin (/ a) 0) (hist_density e d) (hist_density e' d').
Proof.
  intros E. assert (K0 : 0 < k) by exact (proj1 HS). unfold hist_density. cbv zeta. pose proof (hist_bins_lin a b k d d' _ _ bins_aff E) as H. fold (np_histogram e d) in H. fold (np_histogram e' d') in H. pose proof (bin_widths_lin _ _ _ _ E) as W.
  pose proof (qsum_lin _ _ _ H) as T. rewrite (eqb0_aff k _ _ K0 T). replace (existsb (fun w => Qeq_bool w 0) (bin_widths e')) with (existsb (fun w => Qeq_bool w 0) (bin_widths e)).
  2:{ clear -W A. induction W as [|x x' l l' X W IH]; [reflexivity|]. cbn. rewrite IH, (eqb0_aff a x x' A X). reflexivity. }
  destruct (_ || _); [reflexivity|]. cbn [rrel]. revert T. generalize (qsum (np_histogram e d)) (qsum (np_histogram e' d')). intros t t' T. pose proof (combine_lin _ _ _ _ _ _ _ _ H W) as C.
  clear -C T A K0. induction C as [|[x w] [x' w'] l l' [X W] C IH]; constructor; [|exact IH]. cbn [fst snd] in *. unfold aff in *. rewrite X, W, T. setoid_replace (k * x + 0) with (k * x) by ring. setoid_replace (a * w + 0) with (a * w) by ring. setoid_replace (k * t + 0) with (k * t) by ring.
  unfold Qdiv. rewrite !Qinv_mult_distr. assert (NK : ~ k == 0) by (intros Z; rewrite Z in K0; exact (Qlt_irrefl _ K0)). setoid_replace (k * x * (/ a * / w) * (/ k * / t)) with ((k * / k) * (/ a * (x * / w * / t))) by ring. rewrite (Qmult_inv_r k NK). ring.
Qed.
End image.

(** ** The marginal *)
Lemma power_lin p s l l' : power_law p -> 0 < s -> lin s 0 l l' -> lin (p s) 0 (map p l) (map p l').
Proof. intros [E [M _]] S L. apply (lin_map2 s 0); [exact L|]. intros x x' _ X. unfold aff in *. rewrite (E _ _ X), <- (M s x S), (E (s * x + 0) (s * x)) by ring. ring. Qed.

Record mrel (a b s : Q) (m m' : marginal) : Prop := {
  mr_xs : lin a b (mg_xs m) (mg_xs m'); mr_ys : lin s 0 (mg_ys m) (mg_ys m'); mr_cs : lin 1 0 (mg_cs m) (mg_cs m');
  mr_len : length (mg_ys m) = length (mg_xs m); mr_len' : length (mg_cs m) = length (mg_xs m); mr_ne : mg_xs m <> [] }.

(** Two settings that differ only in the density estimates, which follow the change of units and have the same grid. *)
Record crel (a b : Q) (c c' : mcfg) : Prop := {
  cr_grid : m_grid c' = m_grid c; cr_smooth : m_smooth c' = m_smooth c;
  cr_bins : get_bins (m_bins c') (m_smooth c') (m_grid c') (m_rows c') (m_cols c') = get_bins (m_bins c) (m_smooth c) (m_grid c) (m_rows c) (m_cols c);
  cr_power : m_power c' = m_power c; cr_kernel : m_kernel c' = m_kernel c; cr_kde : m_kde c' = m_kde c;
  cr_eval : m_kde c = true -> a == 1 /\ b == 0 /\ exists s, 0 < s /\ forall x x', x' == x -> m_kde_eval c' x' == s * m_kde_eval c x }.

Lemma finish_rel a b s xs xs' o o' : 0 < s -> lin a b xs xs' -> orel (orel (lin s 0)) o o' -> (forall ys, o = Some (Some ys) -> length ys = length xs) ->
  let fin xs o := match o with
  | None => Err NaNResult
  | Some None => Err ValueError
  | Some (Some ys) =>
      let cs0 := cumsum ys in
      let m := qmax_list (hd 0 cs0) (tl cs0) in
      if Qeq_bool m 0 then Err NaNResult
      else Ok {| mg_xs := xs; mg_ys := ys; mg_cs := map (fun v => v / m) cs0 |}
  end in
  rrel (mrel a b s) (fin xs o) (fin xs' o').
Proof.
  intros S X O L fin. unfold fin. destruct o as [[ys|]|], o' as [[ys'|]|]; cbn [orel] in O; try contradiction; try reflexivity. cbv zeta.
  pose proof (cumsum_lin _ _ _ O) as C. pose proof (qmax_list_lin _ _ _ _ _ _ S (lin_tl _ _ _ _ C) (lin_hd0 _ _ _ C)) as M. rewrite (eqb0_aff s _ _ S M). destruct (Qeq_bool _ 0) eqn:E; [reflexivity|]. cbn [rrel].
  specialize (L ys eq_refl). constructor; cbn [mg_xs mg_ys mg_cs]; try assumption.
  - apply (scaled_ratio s); assumption.
  - rewrite map_length, cumsum_length. exact L.
  - intros N. subst xs. destruct ys; [|discriminate]. discriminate.
Qed.
Lemma opt_all_length {X} (l : list (option X)) r : opt_all l = Some r -> length r = length l.
Proof. revert r. induction l as [|[x|] l IH]; intros r H; cbn in H; [injection H as <-; reflexivity| |discriminate]. destruct (opt_all l) as [t|]; [|discriminate]. injection H as <-. cbn. rewrite (IH t); reflexivity. Qed.
Lemma interp_many a b s xp xp' fp fp' xs xs' : 0 < a -> lin a b xp xp' -> lin s 0 fp fp' -> lin a b xs xs' -> orel (lin s 0) (opt_all (map (interp1d xp fp) xs)) (opt_all (map (interp1d xp' fp') xs')).
Proof. intros A P F X. apply opt_all_lin. induction X as [|x x' l l' X L IH]; constructor; [|exact IH]. apply (interp1d_lin a b); try assumption. right. reflexivity. Qed.

Lemma power_unit p x : power_law p -> x == 1 -> p x == 1.
Proof.
  intros [E [M P]] X. assert (H : p x == p x * p x). { rewrite <- (M x x) by (rewrite X; reflexivity). apply E. rewrite X. reflexivity. }
  assert (N : ~ p x == 0) by (intros Z; pose proof (P x ltac:(rewrite X; reflexivity)) as K; rewrite Z in K; exact (Qlt_irrefl _ K)). apply (Qmult_inj_r _ _ (p x) N). rewrite <- H. ring.
Qed.
Lemma marginal_rel1 a b k d d' c c' nbins npts nkde pad : 0 < a -> same_sample a b k d d' -> (a == 1 \/ spread d) -> d <> [] -> power_law (m_power c) -> crel a b c c' ->
  exists s, 0 < s /\ (a == 1 -> s == 1) /\ rrel (mrel a b s) (smoothed_histogram nbins npts nkde c d pad) (smoothed_histogram nbins npts nkde c' d' pad).
Proof.
  intros A HS HW HN HP HC. destruct HC as [G SM B PW KE KD EV]. assert (IA : 0 < / a) by (apply Qinv_lt_0_compat; exact A).
  assert (IS : exists s, 0 < s /\ (if m_kde c then a == 1 /\ b == 0 /\ forall x x', x' == x -> m_kde_eval c' x' == s * m_kde_eval c x else True) /\ (m_kde c = false -> s = m_power c (/ a))).
  { destruct (m_kde c) eqn:K; [destruct (EV eq_refl) as [A1 [B0 [s [S E]]]]; exists s; repeat split; try assumption; discriminate|]. exists (m_power c (/ a)). repeat split. apply HP. exact IA. }
  destruct IS as [s [S [EV' SV]]]. exists (if m_kde c then 1 else s). split; [destruct (m_kde c); [reflexivity|exact S]|]. split; [intros A1; destruct (m_kde c); [reflexivity|rewrite (SV eq_refl); apply power_unit; [exact HP|rewrite A1; reflexivity]]|]. unfold smoothed_histogram. cbv zeta. rewrite G, SM, PW, KE, KD. rewrite SM, G in B. rewrite B.
  eapply (rrel_bind (lin a b)).
  { destruct (m_grid c); [eapply grid_bins_aff; eassumption|]. pose proof (smoothed_bins_aff a b k d d' A HS HW HN nbins (smooth_value (m_smooth c) false) (get_bins (m_bins c) (m_smooth c) false (m_rows c) (m_cols c)) false pad) as R.
    destruct (get_smoothed_bins _ _ _ d _ _) as [p|e], (get_smoothed_bins _ _ _ d' _ _) as [p'|e']; cbn in R |- *; try contradiction; [exact (proj1 R)|exact R]. }
  intros bins bins' HB. pose proof (bin_centers_lin _ _ _ _ HB) as BC. pose proof (bin_centers_length bins) as LB. destruct BC as [|c0 c0' cr cr' C0 CR]; [reflexivity|].
  assert (CC : lin a b (c0 :: cr) (c0' :: cr')) by (constructor; assumption). eapply (rrel_bind (fun l l' => lin (/ a) 0 l l')).
  { eapply density_aff; eassumption. }
  intros h h' HH. pose proof (linspace_lin a b _ _ _ _ npts C0 (lin_last_any a b _ _ 0 0 CC ltac:(discriminate))) as HX.
  apply (finish_rel a b).
  - destruct (m_kde c); [reflexivity|exact S].
  - exact HX.
  - destruct (m_kde c).
    + destruct EV' as [A1 [B0 E]]. assert (NG : Z.to_nat (trunc (qmax_list (hd 0 bins') bins')) = Z.to_nat (trunc (qmax_list (hd 0 bins) bins))).
      { f_equal. assert (Q0 : aff a b (qmax_list (hd 0 bins) bins) (qmax_list (hd 0 bins') bins')) by (apply qmax_list_lin; [exact A|exact HB|apply lin_hd; [exact HB|intros N; rewrite N in LB; discriminate]]).
        assert (Q1 : qmax_list (hd 0 bins') bins' == qmax_list (hd 0 bins) bins) by (unfold aff in Q0; rewrite Q0, A1, B0; ring). unfold trunc. rewrite (Qfloor_comp _ _ Q1), (Qceiling_comp _ _ Q1). replace (Qle_bool 0 (qmax_list (hd 0 bins') bins')) with (Qle_bool 0 (qmax_list (hd 0 bins) bins)); [reflexivity|]. apply eq_true_iff_eq. rewrite !Qle_bool_iff, Q1. reflexivity. }
      rewrite NG. pose proof (linspace_lin a b _ _ _ _ (Nat.max nkde (Z.to_nat (trunc (qmax_list (hd 0 bins) bins)))) C0 (lin_last_any a b _ _ 0 0 CC ltac:(discriminate))) as KX. revert KX.
      generalize (linspace c0 (last (c0 :: cr) 0) (Nat.max nkde (Z.to_nat (trunc (qmax_list (hd 0 bins) bins))))) (linspace c0' (last (c0' :: cr') 0) (Nat.max nkde (Z.to_nat (trunc (qmax_list (hd 0 bins) bins))))). intros kx kx' KX.
      assert (KY : lin s 0 (map (m_kde_eval c) kx) (map (m_kde_eval c') kx')). { apply (lin_map2 a b); [exact KX|]. intros x x' _ X. unfold aff in *. rewrite (E x x'); [ring|rewrite X, A1, B0; ring]. }
      pose proof (simpson_lin a b s kx kx' _ _ A KX KY ltac:(rewrite map_length; reflexivity)) as AR. assert (PS : 0 < a * s) by (apply Qmult_lt_0_compat; assumption). rewrite (eqb0_aff (a * s) _ _ PS AR). destruct (Qeq_bool _ 0) eqn:Z0; [exact I|]. cbn [orel].
      apply (interp_many a b); try assumption. apply (lin_map2 s 0); [exact KY|]. intros x x' _ X. unfold aff in *. rewrite X, AR, A1. setoid_replace (s * x + 0) with (s * x) by ring. setoid_replace (1 * s * simpson kx (map (m_kde_eval c) kx) + 0) with (s * simpson kx (map (m_kde_eval c) kx)) by ring. rewrite (div_scaled s _ _ S). ring.
    + rewrite (SV eq_refl). cbn [orel]. apply (interp_many a b); try assumption. pose proof (power_lin _ _ _ _ HP IA HH) as HL. destruct (0 <? _)%Z; [apply filter1d_lin|]; exact HL.
  - intros ys H. destruct (m_kde c); [destruct (Qeq_bool _ 0); [discriminate|]|]; injection H as H; apply opt_all_length in H; rewrite map_length in H; exact H.
Qed.

Lemma marginal_rel a b k d d' c c' nbins npts nkde pad : 0 < a -> same_sample a b k d d' -> (a == 1 \/ spread d) -> d <> [] -> power_law (m_power c) -> crel a b c c' ->
  exists s, 0 < s /\ rrel (mrel a b s) (smoothed_histogram nbins npts nkde c d pad) (smoothed_histogram nbins npts nkde c' d' pad).
Proof. intros A HS HW HN HP HC. destruct (marginal_rel1 a b k d d' c c' nbins npts nkde pad A HS HW HN HP HC) as [s [S [_ R]]]. exists s. split; assumption. Qed.

(** ** The summaries *)
Definition brel (a b : Q) (u u' : bound) : Prop := orel (aff a b) (b_lower u) (b_lower u') /\ orel (aff a b) (b_center u) (b_center u') /\ orel (aff a b) (b_upper u) (b_upper u').
Lemma mkB_rel a b l c u l' c' u' : aff a b l l' -> aff a b c c' -> aff a b u u' -> brel a b (mkB l c u) (mkB l' c' u').
Proof. intros L C U. repeat split; assumption. Qed.

Section summaries.
Variables (a b s : Q) (m m' : marginal).
Hypothesis A : 0 < a.
Hypothesis Sp : 0 < s.
Hypothesis MR : mrel a b s m m'.

Lemma interp_rel q : rrel (aff a b) (interp_res (mg_cs m) (mg_xs m) q) (interp_res (mg_cs m') (mg_xs m') q).
Proof.
  unfold interp_res. pose proof (interp1d_lin 1 0 a b q q (mg_cs m) (mg_cs m') (mg_xs m) (mg_xs m') eq_refl (mr_cs _ _ _ _ _ MR) (mr_xs _ _ _ _ _ MR) (or_introl (mr_ne _ _ _ _ _ MR)) (aff1 q)) as R.
  destruct (interp1d (mg_cs m) _ _), (interp1d (mg_cs m') _ _); cbn in *; try contradiction; [exact R|reflexivity].
Qed.
Lemma cumulative_rel area : rrel (brel a b) (summary_cumulative area m) (summary_cumulative area m').
Proof. unfold summary_cumulative. repeat (eapply rrel_bind; [apply interp_rel|]; intros ? ? ?). apply mkB_rel; assumption. Qed.
Lemma mean_rel area : rrel (brel a b) (summary_mean area m) (summary_mean area m').
Proof. unfold summary_mean. repeat (eapply rrel_bind; [apply interp_rel|]; intros ? ? ?). apply mkB_rel; try assumption. unfold aff in *. rewrite H, H1. ring. Qed.
Lemma argmax_lt l : l <> [] -> (argmax l < length l)%nat.
Proof. intros N. destruct l as [|x l]; [congruence|]. apply argmax_spec. discriminate. Qed.
Lemma max_central_rel area : rrel (brel a b) (summary_max_central area m) (summary_max_central area m').
Proof.
  unfold summary_max_central. repeat (eapply rrel_bind; [apply interp_rel|]; intros ? ? ?). apply mkB_rel; try assumption. rewrite (argmax_lin s 0 _ _ Sp (mr_ys _ _ _ _ _ MR)). apply lin_nth; [apply MR|].
  rewrite <- (mr_len _ _ _ _ _ MR). apply argmax_lt. intros N. pose proof (mr_len _ _ _ _ _ MR) as L. rewrite N in L. apply (mr_ne _ _ _ _ _ MR). destruct (mg_xs m); [reflexivity|discriminate].
Qed.
Lemma max_loop_rel tries area ys ys' cs cs' start lo lo' hi hi' : lin s 0 ys ys' -> lin 1 0 cs cs' -> aff s 0 lo lo' -> aff s 0 hi hi' -> max_loop tries area ys' cs' start lo' hi' = max_loop tries area ys cs start lo hi.
Proof.
  intros Y C. revert lo lo' hi hi'. induction tries as [|n IH]; intros lo lo' hi hi' L H; [reflexivity|]. cbn [max_loop]. cbv zeta. assert (M : aff s 0 ((hi + lo) / 2) ((hi' + lo') / 2)) by (unfold aff in *; rewrite L, H; unfold Qdiv; ring).
  rewrite (first_lt_lin s 0 _ _ _ _ Sp (lin_rev _ _ _ _ (lin_firstn _ _ start _ _ Y)) M), (first_lt_lin s 0 _ _ _ _ Sp (lin_skipn _ _ start _ _ Y) M).
  destruct (first_lt (rev _) _) as [k1|]; [|reflexivity]. destruct (first_lt (skipn _ _) _) as [k2|]; [|reflexivity].
  assert (D : nth (start + k2) cs' 0 - nth (start - k1) cs' 0 == nth (start + k2) cs 0 - nth (start - k1) cs 0). { pose proof (lin_nth0 1 cs cs' (start + k2) C) as N1. pose proof (lin_nth0 1 cs cs' (start - k1) C) as N2. unfold aff in *. rewrite N1, N2. ring. }
  revert D. generalize (nth (start + k2) cs' 0 - nth (start - k1) cs' 0) (nth (start + k2) cs 0 - nth (start - k1) cs 0). intros x' x D.
  assert (E1 : qltb (Qabs (x' - area)) max_threshold = qltb (Qabs (x - area)) max_threshold). { apply (ltb_aff 1 0); [reflexivity| |apply aff1]. unfold aff. rewrite D. ring. }
  assert (E2 : qltb x' area = qltb x area). { apply (ltb_aff 1 0); [reflexivity| |apply aff1]. unfold aff. rewrite D. ring. }
  rewrite E1, E2. clear E1 E2. destruct (qltb (Qabs (x - area)) max_threshold); [reflexivity|]. destruct (qltb x area); apply IH; assumption.
Qed.
Lemma max_loop_range tries area ys cs start lo hi i1 i2 : max_loop tries area ys cs start lo hi = MaxFound i1 i2 -> (i1 <= start)%nat /\ (i2 < length ys)%nat.
Proof.
  revert lo hi. induction tries as [|n IH]; intros lo hi H; [discriminate|]. cbn [max_loop] in H. cbv zeta in H. destruct (first_lt (rev _) _) as [k1|] eqn:F1; [|discriminate]. destruct (first_lt (skipn _ _) _) as [k2|] eqn:F2; [|discriminate].
  destruct (qltb (Qabs _) _); [|destruct (qltb _ area); eapply IH; exact H]. injection H as <- <-. apply first_lt_some in F2 as [F2 _]. rewrite skipn_length in F2. lia.
Qed.
Lemma max_rel npad tries area : rrel (brel a b) (summary_max npad tries area m) (summary_max npad tries area m').
Proof.
  destruct MR as [HX HY HC HL HL' HN]. unfold summary_max. cbv zeta.
  assert (PX : lin a b (pad_xs npad (mg_xs m)) (pad_xs npad (mg_xs m'))). { unfold pad_xs. repeat apply lin_app; try assumption; apply lin_repeat; [apply lin_hd|apply lin_last_any]; assumption. }
  assert (PY : lin s 0 (pad_ys npad (mg_ys m)) (pad_ys npad (mg_ys m'))). { unfold pad_ys. repeat apply lin_app; try assumption; apply linspace_lin; try apply aff0; [apply lin_hd0; exact HY|apply lin_last; [exact HY|apply aff0]]. }
  assert (PL : length (pad_ys npad (mg_ys m)) = length (pad_xs npad (mg_xs m))) by (unfold pad_ys, pad_xs; rewrite !app_length, !linspace_length, !repeat_length, HL; reflexivity).
  assert (PN : pad_ys npad (mg_ys m) <> []). { unfold pad_ys. intros N. apply app_eq_nil in N as [_ N]. apply app_eq_nil in N as [N _]. rewrite N in HL. apply HN. destruct (mg_xs m); [reflexivity|discriminate]. }
  revert PX PY PL PN. generalize (pad_xs npad (mg_xs m)) (pad_xs npad (mg_xs m')) (pad_ys npad (mg_ys m)) (pad_ys npad (mg_ys m')). intros xs xs' ys ys' PX PY PL PN.
  pose proof (cumsum_lin _ _ _ PY) as C. pose proof (qmax_list_lin _ _ _ _ _ _ Sp (lin_tl _ _ _ _ C) (lin_hd0 _ _ _ C)) as M. rewrite (eqb0_aff s _ _ Sp M). destruct (Qeq_bool _ 0); [reflexivity|].
  rewrite (argmax_lin s 0 _ _ Sp PY). pose proof (argmax_lt ys PN) as AL. assert (X0 : aff a b (nth (argmax ys) xs 0) (nth (argmax ys) xs' 0)) by (apply lin_nth; [exact PX|lia]).
  rewrite (max_loop_rel tries area ys ys' _ _ (argmax ys) 0 0 _ _ PY (scaled_ratio s _ _ _ _ Sp C M) (aff0 s) (lin_nth0 s _ _ (argmax ys) PY)).
  destruct (max_loop _ _ _ _ _ _ _) as [i1 i2| |] eqn:ML; [|repeat split; cbn; exact X0|reflexivity]. apply max_loop_range in ML as [I1 I2]. apply mkB_rel; [|exact X0|]; (apply lin_nth; [exact PX|lia]).
Qed.

(** ** Highest density interval: only a shift of zero. *)
Hypothesis A1 : a == 1.
Definition hrel (h h' : hdi_best) : Prop := orel (aff 1 0) (hb_width h) (hb_width h') /\ aff a b (hb_lower h) (hb_lower h') /\ aff a b (hb_upper h) (hb_upper h') /\ aff 1 0 (hb_m0 h) (hb_m0 h') /\ aff 1 0 (hb_m1 h) (hb_m1 h').
Lemma hdi_loop_rel area cdf cdf' xp xp' i l l' h h' : lin 1 0 cdf cdf' -> lin a b xp xp' -> length xp = length cdf -> (i + length l <= length cdf)%nat -> lin 1 0 l l' -> hrel h h' -> hrel (hdi_loop area cdf xp i l h) (hdi_loop area cdf' xp' i l' h').
Proof.
  intros C X L. revert i l' h h'. induction l as [|x l IH]; intros i l' h h' I HL; inversion HL as [|? x' ? r' X0 HL']; subst; intros H; [exact H|]. cbn [hdi_loop length] in *. cbv zeta.
  assert (R0 : aff 1 0 (x + area) (x' + area)) by (unfold aff in *; rewrite X0; ring). assert (P1 : 0 < 1) by reflexivity.
  rewrite (ltb_aff 1 0 (1 + hdi_eps) (x + area) (1 + hdi_eps) (x' + area) P1 (aff1 _) R0). destruct (qltb (1 + hdi_eps) (x + area)); [exact H|].
  rewrite (searchsorted_lin 1 0 cdf cdf' _ _ P1 C R0), (lin_length _ _ _ _ C). set (e1 := if (searchsorted cdf (x + area) <=? i)%nat then S i else searchsorted cdf (x + area)). destruct (length cdf <=? e1)%nat eqn:LE; [exact H|]. apply Nat.leb_gt in LE.
  assert (D0 : aff 1 0 (nth e1 cdf 0 - x) (nth e1 cdf' 0 - x')). { pose proof (lin_nth0 1 cdf cdf' e1 C) as N. unfold aff in *. rewrite N, X0. ring. }
  rewrite (ltb_aff 1 0 _ (area - hdi_eps) _ (area - hdi_eps) P1 D0 (aff1 _)). set (e2 := if qltb (nth e1 cdf 0 - x) (area - hdi_eps) && (S e1 <? length cdf)%nat then S e1 else e1).
  assert (E2 : (e2 < length cdf)%nat). { unfold e2. destruct (qltb _ _); cbn [andb]; [|exact LE]. destruct (S e1 <? length cdf)%nat eqn:Q; [apply Nat.ltb_lt; exact Q|exact LE]. }
  assert (LO : aff a b (nth i xp 0) (nth i xp' 0)) by (apply lin_nth; [exact X|lia]). assert (UP : aff a b (nth e2 xp 0) (nth e2 xp' 0)) by (apply lin_nth; [exact X|lia]).
  assert (W : aff 1 0 (nth e2 xp 0 - nth i xp 0) (nth e2 xp' 0 - nth i xp' 0)) by (unfold aff in *; rewrite LO, UP, A1; ring).
  rewrite (leb_aff 1 0 _ hdi_eps _ hdi_eps P1 W (aff1 _)). destruct (Qle_bool _ hdi_eps); [apply IH; [lia|assumption|exact H]|].
  assert (B : match hb_width h' with None => true | Some w => qltb (nth e2 xp' 0 - nth i xp' 0) (w - hdi_eps) end = match hb_width h with None => true | Some w => qltb (nth e2 xp 0 - nth i xp 0) (w - hdi_eps) end).
  { destruct H as [HW _]. destruct (hb_width h) as [w|], (hb_width h') as [w'|]; cbn in HW; try contradiction; [|reflexivity]. apply (ltb_aff 1 0); [exact P1|exact W|]. unfold aff in *. rewrite HW. ring. }
  rewrite B. destruct (match hb_width h with None => _ | Some _ => _ end); (apply IH; [lia|assumption|]); [|exact H]. repeat split; cbn [hb_width hb_lower hb_upper hb_m0 hb_m1 orel]; try assumption. apply lin_nth0. exact C.
Qed.
Lemma hdi_rel area : brel a b (summary_hdi area m) (summary_hdi area m').
Proof.
  destruct MR as [HX HY HC HL HL' HN]. unfold summary_hdi. cbv zeta. cbn [hd]. assert (P1 : 0 < 1) by reflexivity.
  assert (C : lin 1 0 (0 :: mg_cs m) (0 :: mg_cs m')) by (constructor; [apply aff0|exact HC]). assert (H0 : aff a b (hd 0 (mg_xs m)) (hd 0 (mg_xs m'))) by (apply lin_hd; assumption). assert (X : lin a b (hd 0 (mg_xs m) :: mg_xs m) (hd 0 (mg_xs m') :: mg_xs m')) by (constructor; assumption).
  assert (LEN : length (hd 0 (mg_xs m) :: mg_xs m) = length (0 :: mg_cs m)) by (cbn; congruence).
  match goal with |- context [hdi_loop area (0 :: mg_cs m) ?xp 0 ?l ?h] => assert (HR : hrel (hdi_loop area (0 :: mg_cs m) xp 0 l h) (hdi_loop area (0 :: mg_cs m') (hd 0 (mg_xs m') :: mg_xs m') 0 (removelast (0 :: mg_cs m')) {| hb_width := None; hb_lower := hd 0 (mg_xs m'); hb_upper := last (hd 0 (mg_xs m') :: mg_xs m') 0; hb_m0 := 0; hb_m1 := 1 |})) end.
  { apply hdi_loop_rel; try assumption.
    - rewrite removelast_firstn_len, firstn_length. lia.
    - apply lin_removelast. exact C.
    - repeat split; cbn [hb_width hb_lower hb_upper hb_m0 hb_m1 orel]; try assumption; try apply aff1. apply lin_last_any; [exact X|discriminate]. }
  revert HR. generalize (hdi_loop area (0 :: mg_cs m) (hd 0 (mg_xs m) :: mg_xs m) 0 (removelast (0 :: mg_cs m)) {| hb_width := None; hb_lower := hd 0 (mg_xs m); hb_upper := last (hd 0 (mg_xs m) :: mg_xs m) 0; hb_m0 := 0; hb_m1 := 1 |}).
  generalize (hdi_loop area (0 :: mg_cs m') (hd 0 (mg_xs m') :: mg_xs m') 0 (removelast (0 :: mg_cs m')) {| hb_width := None; hb_lower := hd 0 (mg_xs m'); hb_upper := last (hd 0 (mg_xs m') :: mg_xs m') 0; hb_m0 := 0; hb_m1 := 1 |}). intros h' h [_ [L [U [M0 M1]]]].
  assert (MM : aff 1 0 (hb_m1 h - hb_m0 h) (hb_m1 h' - hb_m0 h')) by (unfold aff in *; rewrite M0, M1; ring). apply mkB_rel; try assumption.
  rewrite (leb_aff 1 0 _ hdi_eps _ hdi_eps P1 MM (aff1 _)). destruct (Qle_bool _ hdi_eps); [unfold aff in *; rewrite L, U; ring|]. apply (np_interp_lin 1 0); try assumption. unfold aff in *. rewrite M0, M1. ring.
Qed.

(** ** Bands *)
Lemma bisect_loop_rel n f f' xt rt fa fa' x x' dm dm' : (forall t t', aff 1 0 t t' -> aff 1 0 (f t) (f' t')) -> aff 1 0 fa fa' -> aff 1 0 x x' -> aff 1 0 dm dm' -> aff 1 0 (bisect_loop n f xt rt fa x dm) (bisect_loop n f' xt rt fa' x' dm').
Proof.
  intros F FA. revert x x' dm dm'. induction n as [|n IH]; intros x x' dm dm' X D; [exact X|]. cbn [bisect_loop]. cbv zeta. assert (P1 : 0 < 1) by reflexivity.
  assert (D2 : aff 1 0 (dm / 2) (dm' / 2)) by (unfold aff in *; rewrite D; unfold Qdiv; ring). assert (XM : aff 1 0 (x + dm / 2) (x' + dm' / 2)) by (unfold aff in *; rewrite X, D; unfold Qdiv; ring).
  pose proof (F _ _ XM) as FM. assert (N1 : qneg (f' (x' + dm' / 2)) = qneg (f (x + dm / 2))) by (apply (ltb_aff 1 0); [exact P1|exact FM|apply aff0]). assert (N2 : qneg fa' = qneg fa) by (apply (ltb_aff 1 0); [exact P1|exact FA|apply aff0]).
  assert (Z0 : Qeq_bool (f' (x' + dm' / 2)) 0 = Qeq_bool (f (x + dm / 2)) 0) by (apply (eqb0_aff 1); assumption).
  assert (T : qltb (Qabs (dm' / 2)) (xt + rt * Qabs (x' + dm' / 2)) = qltb (Qabs (dm / 2)) (xt + rt * Qabs (x + dm / 2))).
  { apply (ltb_aff 1 0); [exact P1| |]; unfold aff in *. - rewrite D2. setoid_replace (1 * (dm / 2) + 0) with (dm / 2) by ring. ring. - rewrite XM. setoid_replace (1 * (x + dm / 2) + 0) with (x + dm / 2) by ring. ring. }
  rewrite N1, N2, Z0, T. destruct (_ || _); [exact XM|]. apply IH; [|exact D2]. destruct (Bool.eqb _ _); assumption.
Qed.
Lemma bisect_rel n f f' x x' y y' xt rt : (forall t t', aff 1 0 t t' -> aff 1 0 (f t) (f' t')) -> aff 1 0 x x' -> aff 1 0 y y' -> rrel (aff 1 0) (bisect n f x y xt rt) (bisect n f' x' y' xt rt).
Proof.
  intros F X Y. unfold bisect. cbv zeta. assert (P1 : 0 < 1) by reflexivity. pose proof (F _ _ X) as FX. pose proof (F _ _ Y) as FY. rewrite (eqb0_aff 1 _ _ P1 FX), (eqb0_aff 1 _ _ P1 FY). destruct (Qeq_bool (f x) 0); [exact X|]. destruct (Qeq_bool (f y) 0); [exact Y|].
  assert (N1 : qneg (f' x') = qneg (f x)) by (apply (ltb_aff 1 0); [exact P1|exact FX|apply aff0]). assert (N2 : qneg (f' y') = qneg (f y)) by (apply (ltb_aff 1 0); [exact P1|exact FY|apply aff0]). rewrite N1, N2. destruct (Bool.eqb _ _); [reflexivity|].
  apply bisect_loop_rel; try assumption. unfold aff in *. rewrite X, Y. ring.
Qed.
Lemma run_starts_lt i p l : Forall (fun j => (j < i + length l)%nat) (run_starts i p l).
Proof. revert i p. induction l as [|x l IH]; intros i p; cbn [run_starts length]; [constructor|]. assert (H : Forall (fun j => (j < i + S (length l))%nat) (run_starts (S i) x l)) by (eapply Forall_impl; [|apply IH]; cbn; intros; lia). destruct (_ && _); [constructor; [lia|exact H]|exact H]. Qed.
Lemma run_ends_lt i p l : Forall (fun j => (j < i + length l)%nat) (run_ends i p l).
Proof. revert i p. induction l as [|x l IH]; intros i p; cbn [run_ends length]; [constructor|]. assert (H : Forall (fun j => (j < i + S (length l))%nat) (run_ends (S i) x l)) by (eapply Forall_impl; [|apply IH]; cbn; intros; lia). destruct (_ && _); [constructor; [lia|exact H]|exact H]. Qed.
Lemma mask_rel x x' mask : lin a b x x' -> length x = length mask -> rrel (Forall2 (paff a b a b)) (mask_to_intervals x mask) (mask_to_intervals x' mask).
Proof.
  intros X L. unfold mask_to_intervals. destruct mask as [|b0 r]; [constructor|]. set (starts := _ ++ run_starts 1 b0 r). set (ends := run_ends 1 b0 r ++ _). destruct (length starts =? length ends)%nat eqn:E; [|reflexivity]. cbn [rrel].
  assert (S1 : Forall (fun j => (j < length x)%nat) starts). { unfold starts. rewrite L. apply Forall_app. split; [destruct b0; [constructor; [cbn; lia|constructor]|constructor]|]. apply (run_starts_lt 1). }
  assert (S2 : Forall (fun j => (j < length x)%nat) ends). { unfold ends. rewrite L. apply Forall_app. split; [apply (run_ends_lt 1)|]. destruct (last _ _); [constructor; [cbn; lia|constructor]|constructor]. }
  clearbody starts ends. clear E L. revert ends S2. induction S1 as [|i l I S1 IH]; intros ends S2; [constructor|]. destruct S2 as [|j ends J S2]; [constructor|]. cbn [combine filter fst snd].
  assert (XI : aff a b (nth i x 0) (nth i x' 0)) by (apply lin_nth; assumption). assert (XJ : aff a b (nth j x 0) (nth j x' 0)) by (apply lin_nth; assumption). rewrite (ltb_aff a b _ _ _ _ A XI XJ). specialize (IH ends S2). destruct (qltb _ _); [|exact IH]. constructor; [split; assumption|exact IH].
Qed.
Lemma density_rel : rrel (lin 1 0) (hdi_density m) (hdi_density m').
Proof.
  destruct MR as [HX HY HC HL HL' HN]. unfold hdi_density. cbv zeta. pose proof (simpson_lin a b s _ _ _ _ A HX HY (eq_sym HL)) as AR. assert (PS : 0 < a * s) by (apply Qmult_lt_0_compat; assumption). rewrite (eqb0_aff _ _ _ PS AR). destruct (Qeq_bool _ 0); [reflexivity|]. cbn [rrel].
  apply (scaled_ratio s); [exact Sp|exact HY|]. unfold aff in *. rewrite AR, A1. ring.
Qed.
Lemma intervals_rel area : rrel (Forall2 (paff a b a b)) (hdi_intervals area m) (hdi_intervals area m').
Proof.
  pose proof (hdi_rel area) as HB. pose proof density_rel as HD. destruct MR as [HX HY HC HL HL' HN]. unfold hdi_intervals. cbv zeta. assert (P1 : 0 < 1) by reflexivity.
  destruct (hdi_density m) as [dn|e] eqn:ED, (hdi_density m') as [dn'|e'] eqn:ED'; cbn in HD; try contradiction; [|subst; reflexivity]. cbn [rbind].
  assert (LD : length dn = length (mg_xs m)). { unfold hdi_density in ED. cbv zeta in ED. destruct (Qeq_bool _ 0); [discriminate|]. injection ED as <-. rewrite map_length. exact HL. }
  eapply (rrel_bind (aff 1 0)).
  { unfold hdi_threshold. apply bisect_rel; [|apply aff0|apply qmax_list_lin; [exact P1|exact HD|apply lin_hd0; exact HD]]. intros t t' T. unfold mass_above.
    assert (ML : lin 1 0 (map (fun y => if Qle_bool t y then y else 0) dn) (map (fun y => if Qle_bool t' y then y else 0) dn')). { apply (lin_map2 1 0); [exact HD|]. intros y y' _ Y. rewrite (leb_aff 1 0 t y t' y' P1 T Y). destruct (Qle_bool t y); [exact Y|apply aff0]. }
    pose proof (simpson_lin a b 1 _ _ _ _ A HX ML ltac:(rewrite map_length; congruence)) as SL. unfold aff in *. rewrite SL, A1. ring. }
  intros t t' T. eapply (rrel_bind (Forall2 (paff a b a b))).
  { replace (map (fun y => Qle_bool t' y) dn') with (map (fun y => Qle_bool t y) dn). - apply mask_rel; [exact HX|]. rewrite map_length. congruence. - clear -HD T P1. induction HD as [|y y' l l' Y L IH]; [reflexivity|]. cbn. rewrite IH, (leb_aff 1 0 t y t' y' P1 T Y). reflexivity. }
  intros iv iv' HI. destruct HI as [|p p' l l' P HI]; [|constructor; assumption]. destruct HB as [B1 [_ B2]]. destruct (b_lower (summary_hdi area m)), (b_lower (summary_hdi area m')); cbn in B1; try contradiction; [|constructor]. destruct (b_upper (summary_hdi area m)), (b_upper (summary_hdi area m')); cbn in B2; try contradiction; constructor; [split; assumption|constructor].
Qed.
End summaries.

Section modes.
Variables (a b s : Q) (m m' : marginal).
Hypothesis A : 0 < a.
Hypothesis Sp : 0 < s.
Hypothesis MR : mrel a b s m m'.
Lemma masked_lin c e mask l l' : lin c e l l' -> lin c e (masked mask l) (masked mask l').
Proof. intros L. unfold masked. revert mask. induction L as [|x x' l l' X L IH]; intros [|t mask]; try constructor. cbn. destruct t; cbn; [constructor; [exact X|apply IH]|apply IH]. Qed.
Lemma masked_length {X Y} mask (l : list X) (l' : list Y) : length l = length l' -> length (masked mask l) = length (masked mask l').
Proof. unfold masked. revert mask l'. induction l as [|x l IH]; intros [|t mask] [|x' l'] L; try discriminate; try reflexivity. cbn. injection L as L. destruct t; cbn; rewrite (IH mask l' L); reflexivity. Qed.
Lemma multimodal_rel iv iv' : paff a b a b iv iv' -> brel a b (multimodal_bound m iv) (multimodal_bound m' iv').
Proof.
  intros [I1 I2]. destruct MR as [HX HY HC HL HL' HN]. unfold multimodal_bound. cbv zeta. pose proof (qmin_list_lin a b _ _ _ _ A HX (lin_hd _ _ _ _ HX HN)) as MN. pose proof (qmax_list_lin a b _ _ _ _ A HX (lin_hd _ _ _ _ HX HN)) as MX.
  pose proof (aff_max a b _ _ _ _ A I1 MN) as LO. pose proof (aff_min a b _ _ _ _ A I2 MX) as UP. revert LO UP. generalize (qmax (fst iv) (qmin_list (hd 0 (mg_xs m)) (mg_xs m))) (qmax (fst iv') (qmin_list (hd 0 (mg_xs m')) (mg_xs m'))) (qmin (snd iv) (qmax_list (hd 0 (mg_xs m)) (mg_xs m))) (qmin (snd iv') (qmax_list (hd 0 (mg_xs m')) (mg_xs m'))).
  intros lo lo' up up' LO UP. apply mkB_rel; try assumption. replace (map (fun x => Qle_bool lo' x && Qle_bool x up') (mg_xs m')) with (map (fun x => Qle_bool lo x && Qle_bool x up) (mg_xs m)).
  2:{ clear -HX LO UP A. induction HX as [|x x' l l' X L IH]; [reflexivity|]. cbn. rewrite IH, (leb_aff a b lo x lo' x' A LO X), (leb_aff a b x up x' up' A X UP). reflexivity. }
  remember (map (fun x => Qle_bool lo x && Qle_bool x up) (mg_xs m)) as mask eqn:EM. destruct (existsb (fun b0 => b0) mask) eqn:EX; [|unfold aff in *; rewrite LO, UP; ring].
  rewrite (argmax_lin s 0 _ _ Sp (masked_lin _ _ mask _ _ HY)). apply lin_nth; [apply masked_lin; exact HX|]. rewrite <- (masked_length mask _ _ HL). apply argmax_lt.
  assert (ML : length mask = length (mg_ys m)) by (rewrite EM, map_length; congruence). clear -EX ML. revert ML EX. generalize (mg_ys m). induction mask as [|t mask IH]; intros [|y l] ML EX; try discriminate. cbn in EX. unfold masked. cbn. destruct t; [discriminate|]. apply IH; [injection ML; auto|exact EX].
Qed.
End modes.
