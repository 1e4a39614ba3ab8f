(** Proofs: the range of an axis follows the weighted samples. *)
From Coq Require Import String QArith List Arith ZArith Lia Lqa.
From Verif Require Import Py NumSpec NumModel HelpersSpec HelpersModel NumFacts FrameModel ConfigModel ChainModel ChainSpec RegistryModel AnalysisModel SurfaceModel FigureModel FigureSpec EquivSpec EquivFacts EquivProofs AxisEquivSpec.
Import ListNotations.
Open Scope string_scope.
Open Scope list_scope.
Open Scope Q_scope.

Lemma whole_values c f p d : whole_sample c f p d -> exists v w, get_data f p = Ok v /\ weights c f = Ok w /\ d = combine v w /\ map fst d = v.
Proof.
  intros [x [w [X [W [L ->]]]]]. exists (qs x), (qs w). unfold get_data, weights. rewrite X, W. repeat split. unfold qs. revert w L W. clear X. induction x as [|y x IH]; intros [|v w] L W; try discriminate; [reflexivity|]. cbn [map combine fst].
  f_equal. assert (E : forall w, length x = length w -> map fst (combine (map cell_q x) (map cell_q w)) = map cell_q x); [|apply E; cbn in L; lia]. clear. induction x as [|y x IH]; intros [|v w] L; try discriminate; [reflexivity|]. cbn [map combine fst]. f_equal. apply IH. cbn in L. lia.
Qed.
Lemma min_ex l : l <> [] -> exists m, is_min m l.
Proof. destruct l as [|x l]; [congruence|]. intros _. exists (qmin_list x l). split; apply qmin_list_spec. Qed.
Lemma max_ex l : l <> [] -> exists m, is_max m l.
Proof. destruct l as [|x l]; [congruence|]. intros _. exists (qmax_list x l). split; apply qmax_list_spec. Qed.
Lemma ne_min m l : is_min m l -> l <> [].
Proof. intros [H _] ->. destruct H. Qed.

Section follow.
Variables (a b : Q) (num : numerics) (wide : bool) (p : string).
Hypothesis A : 0 < a.

Lemma ranged_to cf cf' e : covers_alike a b p cf cf' -> ranged num wide p cf e -> exists e', ranged num wide p cf' e' /\ interval_in_units a b e e'.
Proof.
  destruct cf as [c f], cf' as [c' f']. intros [IC [G [F1 [F2 [EX PT]]]]] [HI HR]. cbn [fst snd] in *. unfold extended in *. pose proof (proj1 IC HI) as HI'. destruct HR as [lo hi v FL GR GD MN MX|lo hi v w FL GR GD GW GE|lp coords v FC FD GP GV].
  - destruct (EX HI FL) as [k [d [d' [W [W' [NE [SS _]]]]]]]. pose proof (empty_iff a b k d d' A SS) as EI. destruct (whole_values _ _ _ _ W) as [v0 [w0 [D0 [_ [_ V0]]]]]. destruct (whole_values _ _ _ _ W') as [v1 [w1 [D1 [_ [_ V1]]]]].
    rewrite GD in D0. injection D0 as <-. assert (NV : v1 <> []) by (intros E; apply NE, EI; rewrite <- V1 in E; destruct d'; [reflexivity|discriminate]).
    destruct (min_ex _ NV) as [lo' L']. destruct (max_ex _ NV) as [hi' H']. exists (lo', hi'). split; [split; [exact HI'|]|].
    + eapply or_grid with (v := v1); cbn [fst snd]; try assumption; [rewrite F1, F2; exact FL|congruence].
    + rewrite <- V0 in MN, MX. rewrite <- V1 in L', H'. split; [exact (min_aff a b k d d' A SS _ _ MN L')|exact (max_aff a b k d d' A SS _ _ MX H')].
  - destruct (EX HI FL) as [k [d [d' [W [W' [NE [SS SP]]]]]]]. destruct (whole_values _ _ _ _ W) as [v0 [w0 [D0 [D0' [-> V0]]]]]. destruct (whole_values _ _ _ _ W') as [v1 [w1 [D1 [D1' [-> V1]]]]].
    rewrite GD in D0. injection D0 as <-. rewrite GW in D0'. injection D0' as <-. pose proof (extents_aff a b k _ _ A SS SP NE (n_bins num) true wide false false) as R. rewrite GE in R.
    destruct (get_extents (n_bins num) (combine v1 w1) true wide false false) as [[lo' hi']|] eqn:GE'; [|contradiction]. cbn [rrel fst snd] in R. exists (lo', hi'). split; [split; [exact HI'|]|exact R].
    eapply or_samples; cbn [fst snd]; try eassumption; [rewrite F1, F2; exact FL|congruence].
  - assert (NX : ~ (ch_cfg c Fplot_contour = true \/ ch_cfg c Fplot_cloud = true)) by (rewrite FC, FD; intros [X|X]; discriminate). destruct (proj1 (PT HI NX) v) as [v' [[lp' [co' [P1 P2]]] U]]; [exists lp, coords; auto|].
    exists (v', v'). split; [split; [exact HI'|]|split; exact U]. eapply or_point; cbn [fst snd]; try eassumption; congruence.
Qed.
Lemma ranged_from cf cf' e' : covers_alike a b p cf cf' -> ranged num wide p cf' e' -> exists e, ranged num wide p cf e /\ interval_in_units a b e e'.
Proof.
  destruct cf as [c f], cf' as [c' f']. intros [IC [G [F1 [F2 [EX PT]]]]] [HI' HR]. cbn [fst snd] in *. unfold extended in *. pose proof (proj2 IC HI') as HI. rewrite <- F1, <- F2 in EX, PT. destruct HR as [lo' hi' v1 FL GR GD MN MX|lo' hi' v1 w1 FL GR GD GW GE|lp coords v FC FD GP GV].
  - destruct (EX HI FL) as [k [d [d' [W [W' [NE [SS _]]]]]]]. destruct (whole_values _ _ _ _ W) as [v0 [w0 [D0 [_ [_ V0]]]]]. destruct (whole_values _ _ _ _ W') as [v [w [D1 [_ [_ V1]]]]].
    rewrite GD in D1. injection D1 as <-. assert (NV : v0 <> []) by (intros E; apply NE; rewrite <- V0 in E; destruct d; [reflexivity|discriminate]).
    destruct (min_ex _ NV) as [lo L']. destruct (max_ex _ NV) as [hi H']. exists (lo, hi). split; [split; [exact HI|]|].
    + eapply or_grid with (v := v0); cbn [fst snd]; try assumption; [rewrite <- F1, <- F2; exact FL|congruence].
    + rewrite <- V1 in MN, MX. rewrite <- V0 in L', H'. split; [exact (min_aff a b k d d' A SS _ _ L' MN)|exact (max_aff a b k d d' A SS _ _ H' MX)].
  - destruct (EX HI FL) as [k [d [d' [W [W' [NE [SS SP]]]]]]]. destruct (whole_values _ _ _ _ W) as [v0 [w0 [D0 [D0' [-> V0]]]]]. destruct (whole_values _ _ _ _ W') as [v [w [D1 [D1' [-> V1]]]]].
    rewrite GD in D1. injection D1 as <-. rewrite GW in D1'. injection D1' as <-. pose proof (extents_aff a b k _ _ A SS SP NE (n_bins num) true wide false false) as R. rewrite GE in R.
    destruct (get_extents (n_bins num) (combine v0 w0) true wide false false) as [[lo hi]|] eqn:GE'; [|contradiction]. cbn [rrel fst snd] in R. exists (lo, hi). split; [split; [exact HI|]|exact R].
    eapply or_samples; cbn [fst snd]; try eassumption; [rewrite <- F1, <- F2; exact FL|congruence].
  - assert (NX : ~ (ch_cfg c' Fplot_contour = true \/ ch_cfg c' Fplot_cloud = true)) by (rewrite FC, FD; intros [X|X]; discriminate). destruct (proj2 (PT HI NX) v) as [v' [[lp' [co' [P1 P2]]] U]]; [exists lp, coords; auto|].
    exists (v', v'). split; [split; [exact HI|]|split; exact U]. eapply or_point; cbn [fst snd]; try eassumption; congruence.
Qed.
Lemma in_to {X Y} (R : X -> Y -> Prop) l l' x : Forall2 R l l' -> In x l -> exists y, In y l' /\ R x y.
Proof. intros F. induction F as [|u v l l' U F IH]; intros []; [subst; exists v; split; [left; reflexivity|exact U]|]. destruct (IH H) as [y [Y1 Y2]]. exists y. split; [right; exact Y1|exact Y2]. Qed.
Lemma in_from {X Y} (R : X -> Y -> Prop) l l' y : Forall2 R l l' -> In y l' -> exists x, In x l /\ R x y.
Proof. intros F. induction F as [|u v l l' U F IH]; intros []; [subst; exists u; split; [left; reflexivity|exact U]|]. destruct (IH H) as [x [Y1 Y2]]. exists x. split; [right; exact Y1|exact Y2]. Qed.

Lemma range_follows cfg cfg' chains chains' r r' : Forall2 (covers_alike a b p) chains chains' -> dget p (p_extents cfg) = None -> dget p (p_extents cfg') = None ->
  range_of num cfg wide chains p r -> range_of num cfg' wide chains' p r' -> interval_in_units a b r r'.
Proof.
  intros F E E' R R'. unfold range_of in R, R'. rewrite E in R. rewrite E' in R'. destruct R as [B [[c1 [e1 [I1 [R1 X1]]]] [c2 [e2 [I2 [R2 X2]]]]]]. destruct R' as [B' [[c1' [e1' [I1' [R1' X1']]]] [c2' [e2' [I2' [R2' X2']]]]]].
  destruct (in_to _ _ _ _ F I1) as [d1 [J1 K1]]. destruct (ranged_to _ _ _ K1 R1) as [g1 [G1 U1]]. destruct (in_to _ _ _ _ F I2) as [d2 [J2 K2]]. destruct (ranged_to _ _ _ K2 R2) as [g2 [G2 U2]].
  destruct (in_from _ _ _ _ F I1') as [d1' [J1' K1']]. destruct (ranged_from _ _ _ K1' R1') as [g1' [G1' U1']]. destruct (in_from _ _ _ _ F I2') as [d2' [J2' K2']]. destruct (ranged_from _ _ _ K2' R2') as [g2' [G2' U2']].
  destruct (B' _ _ J1 G1) as [L1 _]. destruct (B' _ _ J2 G2) as [_ L2]. destruct (B _ _ J1' G1') as [L3 _]. destruct (B _ _ J2' G2') as [_ L4].
  destruct U1 as [U1 _]. destruct U2 as [_ U2]. destruct U1' as [U1' _]. destruct U2' as [_ U2']. unfold interval_in_units, in_units in *. rewrite X1, X2, X1', X2' in *.
  assert (M : forall x y, x <= y -> a * x + b <= a * y + b) by (intros x y XY; apply Qplus_le_l; apply Qmult_le_l; assumption). apply M in L3. apply M in L4. split; lra.
Qed.
End follow.

(** ** The point of maximum posterior *)
Lemma row_get f i n : dget n (f_row f i) = option_map (fun l => nth i l NaN) (f_get f n).
Proof.
  unfold f_row, f_get. induction (f_cols f) as [|[[s|z] l] r IH]; [reflexivity| |]; cbn [flat_map fst snd app dget col_get clabel_eqb]; [|exact IH]. destruct (String.eqb n s); [reflexivity|exact IH].
Qed.
Lemma kept_get {A} (g : string -> bool) n (d : dict A) : dget n (filter (fun kv => g (fst kv)) d) = if g n then dget n d else None.
Proof.
  induction d as [|[k v] d IH]; [cbn; destruct (g n); reflexivity|]. cbn [filter fst]. destruct (String.eqb_spec n k) as [->|N].
  - destruct (g k) eqn:G; cbn [dget]; rewrite ?String.eqb_refl; [reflexivity|]. rewrite IH. reflexivity.
  - cbn [dget]. destruct (g k); cbn [dget]; destruct (String.eqb_spec n k); try contradiction; exact IH.
Qed.
Lemma values_get {A B} (g : A -> B) n (d : dict A) : dget n (map (fun kv => (fst kv, g (snd kv))) d) = option_map g (dget n d).
Proof. induction d as [|[k v] d IH]; [reflexivity|]. cbn [map dget fst snd]. destruct (String.eqb n k); [reflexivity|exact IH]. Qed.
Lemma peak_row c f p v : p <> ch_post c -> (peak_at c f p v <-> exists i lp l, max_posterior_row c f = Ok (Some i) /\ f_get f (ch_post c) = Some lp /\ smem p (plotting_columns c f) = true /\ f_get f p = Some l /\ v = cell_q (nth i l NaN)).
Proof.
  intros N. unfold peak_at, get_max_posterior_point. split.
  - intros [lp [co [H V]]]. destruct (max_posterior_row c f) as [[i|]|]; cbn [rbind] in H; try discriminate. cbv zeta in H. rewrite row_get in H. destruct (f_get f (ch_post c)) as [q|] eqn:Q0; cbn [option_map] in H; [|discriminate]. injection H as <- <-.
    rewrite values_get, (kept_get (fun n => smem n (plotting_columns c f))) in V. destruct (smem p (plotting_columns c f)) eqn:SM; [|discriminate]. rewrite dget_dpop_other, row_get in V by (intros E; apply N; symmetry; exact E). destruct (f_get f p) as [l|] eqn:L; [|discriminate]. cbn [option_map] in V. injection V as <-.
    exists i, q, l. repeat split; assumption.
  - intros [i [q [l [R [Q0 [SM [L ->]]]]]]]. rewrite R. cbn [rbind]. cbv zeta. rewrite row_get, Q0. cbn [option_map]. eexists _, _. split; [reflexivity|].
    rewrite values_get, (kept_get (fun n => smem n (plotting_columns c f))), SM, dget_dpop_other, row_get, L by (intros E; apply N; symmetry; exact E). reflexivity.
Qed.
Lemma positions_range {A} (g : A -> bool) l k i : In i (positions g k l) -> (k <= i < k + length l)%nat.
Proof. revert k. induction l as [|x l IH]; intros k H; [destruct H|]. cbn [positions] in H. cbn [length]. destruct (g x); [destruct H as [->|H]; [lia|]|]; apply IH in H; lia. Qed.
Lemma row_range c f i : max_posterior_row c f = Ok (Some i) -> (i < f_rows f)%nat.
Proof.
  unfold max_posterior_row. destruct (f_get f (ch_post c)); [|discriminate]. cbv zeta. destruct (loc_positions f _) as [|j [|? ?]] eqn:E; try discriminate. intros H. injection H as <-. unfold loc_positions in E.
  pose proof (positions_range (rlabel_eqb (LInt (Z.of_nat (argmax (qs l))))) (f_index f) 0 j) as P. rewrite E in P. unfold f_rows. specialize (P (or_introl eq_refl)). lia.
Qed.
Lemma units_nth a b x x' i : Forall2 (in_units a b) (qs x) (qs x') -> (i < length x)%nat -> in_units a b (cell_q (nth i x NaN)) (cell_q (nth i x' NaN)).
Proof.
  revert x' i. induction x as [|y x IH]; intros x' i F I; [cbn in I; lia|]. destruct x' as [|y' x']; [inversion F|]. unfold qs in F. cbn [map] in F. inversion F; subst. destruct i as [|i]; [assumption|]. cbn [nth]. apply IH; [assumption|cbn in I; lia].
Qed.
Lemma units_length a b x x' : Forall2 (in_units a b) (qs x) (qs x') -> length x' = length x.
Proof. intros F. assert (E : forall l l0, Forall2 (in_units a b) l l0 -> length l = length l0) by (intros l l0 G; induction G; cbn; congruence). apply E in F. unfold qs in F. rewrite !map_length in F. symmetry. exact F. Qed.
