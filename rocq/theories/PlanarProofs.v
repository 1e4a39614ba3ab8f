(** The two-dimensional surface under a change of units. *)
From Coq Require Import String QArith Qabs Qround List Arith ZArith Bool Lia Permutation Reals Qreals Lqa.
From Verif Require Import Py NumSpec NumModel NumFacts HelpersModel MarginalModel FrameModel ConfigModel ChainModel RegistryModel AnalysisModel HelpersSpec HelpersProofs EquivSpec EquivFacts EquivProofs EquivApi.
From Verif Require Import ShadeModel SurfaceModel SurfaceSpec SurfaceProofs PlanarSpec.
From Verif Require FrameFacts.
Import ListNotations.
Open Scope list_scope.
Open Scope Q_scope.

(** ** Weighted points *)
Lemma delta (g : Q -> Q) x : forall u, (forall a b, a == b -> g a == g b) -> qsorted u -> Qin x u -> qsum (map (fun y => if Qeq_bool x y then g y else 0) u) == g x.
Proof.
  intros u P S [z [Z E]]. apply In_at in Z as [i [I Z]]. apply qsorted_increasing in S. revert i I Z. induction u as [|y u IHu]; intros i I Z; [cbn in I; lia|]. cbn [map qsum].
  assert (S' : increasing u). { intros a b A B. specialize (S (Datatypes.S a) (Datatypes.S b) ltac:(lia) ltac:(cbn; lia)). rewrite !at_cons_S in S. exact S. }
  destruct i as [|i].
  - change (y = z) in Z. subst z. replace (Qeq_bool x y) with true by (symmetry; apply Qeq_bool_iff; symmetry; exact E).
    assert (T : qsum (map (fun y0 => if Qeq_bool x y0 then g y0 else 0) u) == 0).
    { assert (N : forall y0, In y0 u -> ~ x == y0). { intros y0 Y0. apply In_at in Y0 as [j [J <-]]. specialize (S 0%nat (Datatypes.S j) ltac:(lia) ltac:(cbn; lia)). rewrite at_cons_S, at_cons_0 in S. lra. }
      clear -N. induction u as [|y0 u IHu]; [reflexivity|]. cbn [map qsum]. rewrite IHu by (intros y1 Y1; apply N; right; exact Y1). replace (Qeq_bool x y0) with false; [ring|]. symmetry. apply qeqb_false. apply N. left. reflexivity. }
    rewrite T, (P y x E). ring.
  - rewrite at_cons_S in Z. rewrite (IHu S' i ltac:(cbn in I; lia) Z). specialize (S 0%nat (Datatypes.S i) ltac:(lia) I). rewrite at_cons_S, at_cons_0 in S. rewrite Z in S.
    replace (Qeq_bool x y) with false; [ring|]. symmetry. apply qeqb_false. lra.
Qed.
Lemma qsum_map_ext {A} (f g : A -> Q) l : (forall x, In x l -> f x == g x) -> qsum (map f l) == qsum (map g l).
Proof. induction l as [|x l IH]; intros H; [reflexivity|]. cbn [map qsum]. rewrite (H x (or_introl eq_refl)), IH by (intros y Y; apply H; right; exact Y). reflexivity. Qed.
Lemma qsum_map_plus {A} (f g : A -> Q) l : qsum (map (fun x => f x + g x) l) == qsum (map f l) + qsum (map g l).
Proof. induction l as [|x l IH]; cbn [map qsum]; [ring|]. rewrite IH. ring. Qed.
Lemma qsum_map_zero {A} (f : A -> Q) l : (forall x, In x l -> f x == 0) -> qsum (map f l) == 0.
Proof. intros H. rewrite (qsum_map_ext f (fun _ => 0) l H). clear. induction l; cbn [map qsum]; [reflexivity|]. rewrite IHl. ring. Qed.
Definition respects (P : Q -> Q -> bool) : Prop := forall a b c d, a == b -> c == d -> P a c = P b d.
Lemma weight_where_values (P : Q -> Q -> bool) U V s : respects P -> qsorted U -> qsorted V ->
  (forall x y w, In ((x, y), w) s -> Qin x U /\ Qin y V) ->
  weight_where P s == qsum (map (fun u => qsum (map (fun v => if P u v then weight_at2 u v s else 0) V)) U).
Proof.
  intros HP SU SV. unfold weight_at2. induction s as [|[[x y] w] s IH]; intros H; cbn [weight_where].
  - symmetry. apply qsum_map_zero. intros u _. apply qsum_map_zero. intros v _. destruct (P u v); reflexivity.
  - destruct (H x y w (or_introl eq_refl)) as [HX HY]. rewrite IH by (intros a b c K; apply (H a b c); right; exact K).
    assert (C : (if P x y then w else 0) == qsum (map (fun u => qsum (map (fun v => if P u v then if Qeq_bool x u && Qeq_bool y v then w else 0 else 0) V)) U)).
    { transitivity (qsum (map (fun u => if Qeq_bool x u then (if P u y then w else 0) else 0) U)).
      - symmetry. apply (delta (fun u => if P u y then w else 0)); [|exact SU|exact HX]. intros a b E. rewrite (HP a b y y E (Qeq_refl _)). reflexivity.
      - apply qsum_map_ext. intros u _. destruct (Qeq_bool x u).
        + rewrite <- (delta (fun v => if P u v then w else 0) y V); [|intros a b E; rewrite (HP u u a b (Qeq_refl _) E); reflexivity|exact SV|exact HY].
          apply qsum_map_ext. intros v _. destruct (P u v), (Qeq_bool y v); reflexivity.
        + symmetry. apply qsum_map_zero. intros v _. destruct (P u v); reflexivity. }
    rewrite C, <- qsum_map_plus. apply qsum_map_ext. intros u _. rewrite <- qsum_map_plus. apply qsum_map_ext. intros v _. destruct (P u v); [|ring]. reflexivity.
Qed.

Section image.
Variables (u : units) (k : Q) (s s' : list (Q * Q * Q)).
Hypothesis HU : positive_units u.
Hypothesis HS : same_points u k s s'.
Let xs := map (fun p : Q * Q * Q => fst (fst p)) s.
Let ys := map (fun p : Q * Q * Q => snd (fst p)) s.
Let xs' := map (fun p : Q * Q * Q => fst (fst p)) s'.
Let ys' := map (fun p : Q * Q * Q => snd (fst p)) s'.
Let A := proj1 HU.
Let C := proj2 HU.
Definition bare (l : list Q) : list (Q * Q) := map (fun x => (x, 0)) l.
Lemma bare_fst l : map fst (bare l) = l.
Proof. unfold bare. rewrite map_map. apply map_id. Qed.
Lemma bare_weight p l : weight_if p (bare l) == 0.
Proof. induction l as [|x l IH]; cbn [bare map weight_if]; [reflexivity|]. change (map (fun x => (x, 0)) l) with (bare l). rewrite IH. destruct (p x); ring. Qed.
Lemma occurs_bare x l : occurs x (bare l) <-> Qin x l.
Proof. rewrite occurs_Qin, bare_fst. reflexivity. Qed.
Lemma Qin_xs x : Qin x xs <-> exists y, occurs2 x y s.
Proof.
  split; [intros [z [Z E]]; apply in_map_iff in Z as [[[p q] w] [<- Z]]; exists q, p, q, w; split; [exact Z|split; [exact E|reflexivity]]|].
  intros [y [p [q [w [Z [E _]]]]]]. exists p. split; [apply in_map_iff; exists ((p, q), w); auto|exact E].
Qed.
Lemma Qin_ys y : Qin y ys <-> exists x, occurs2 x y s.
Proof.
  split; [intros [z [Z E]]; apply in_map_iff in Z as [[[p q] w] [<- Z]]; exists p, p, q, w; split; [exact Z|split; [reflexivity|exact E]]|].
  intros [x [p [q [w [Z [_ E]]]]]]. exists q. split; [apply in_map_iff; exists ((p, q), w); auto|exact E].
Qed.
Lemma Qin_xs' x : Qin x xs' <-> exists y, occurs2 x y s'.
Proof.
  split; [intros [z [Z E]]; apply in_map_iff in Z as [[[p q] w] [<- Z]]; exists q, p, q, w; split; [exact Z|split; [exact E|reflexivity]]|].
  intros [y [p [q [w [Z [E _]]]]]]. exists p. split; [apply in_map_iff; exists ((p, q), w); auto|exact E].
Qed.
Lemma Qin_ys' y : Qin y ys' <-> exists x, occurs2 x y s'.
Proof.
  split; [intros [z [Z E]]; apply in_map_iff in Z as [[[p q] w] [<- Z]]; exists p, p, q, w; split; [exact Z|split; [reflexivity|exact E]]|].
  intros [x [p [q [w [Z [_ E]]]]]]. exists q. split; [apply in_map_iff; exists ((p, q), w); auto|exact E].
Qed.
Lemma back_x x' : in_x u ((x' - u_b u) / u_a u) x'.
Proof. apply back. exact A. Qed.
Lemma back_y y' : in_y u ((y' - u_d u) / u_c u) y'.
Proof. apply back. exact C. Qed.
Lemma values_x : lin (u_a u) (u_b u) (np_unique xs) (np_unique xs').
Proof.
  pose proof (values_lin (u_a u) (u_b u) 1 (bare xs) (bare xs') A) as V. rewrite !bare_fst in V. apply V. split; [reflexivity|]. intros x x' X. split; [|unfold weight_at; rewrite !bare_weight; ring].
  rewrite !occurs_bare, Qin_xs, Qin_xs'. split.
  - intros [y O]. exists (u_c u * y + u_d u). apply (proj2 HS x x' y _ X (Qeq_refl _)). exact O.
  - intros [y O]. exists ((y - u_d u) / u_c u). apply (proj2 HS x x' _ y X (back_y y)). exact O.
Qed.
Lemma values_y : lin (u_c u) (u_d u) (np_unique ys) (np_unique ys').
Proof.
  pose proof (values_lin (u_c u) (u_d u) 1 (bare ys) (bare ys') C) as V. rewrite !bare_fst in V. apply V. split; [reflexivity|]. intros y y' Y. split; [|unfold weight_at; rewrite !bare_weight; ring].
  rewrite !occurs_bare, Qin_ys, Qin_ys'. split.
  - intros [x O]. exists (u_a u * x + u_b u). apply (proj2 HS x _ y y' (Qeq_refl _) Y). exact O.
  - intros [x O]. exists ((x - u_b u) / u_a u). apply (proj2 HS _ x y y' (back_x x) Y). exact O.
Qed.
Lemma where_aff (P P' : Q -> Q -> bool) : respects P -> respects P' -> (forall x x' y y', in_x u x x' -> in_y u y y' -> P' x' y' = P x y) ->
  weight_where P' s' == k * weight_where P s.
Proof.
  intros R R' E. rewrite (weight_where_values P (np_unique xs) (np_unique ys) s R); [|apply np_unique_sorted|apply np_unique_sorted|].
  2:{ intros x y w K. split; apply np_unique_in; [exists x|exists y]; (split; [apply in_map_iff; exists ((x, y), w); auto|reflexivity]). }
  rewrite (weight_where_values P' (np_unique xs') (np_unique ys') s' R'); [|apply np_unique_sorted|apply np_unique_sorted|].
  2:{ intros x y w K. split; apply np_unique_in; [exists x|exists y]; (split; [apply in_map_iff; exists ((x, y), w); auto|reflexivity]). }
  setoid_replace (k * qsum (map (fun u0 => qsum (map (fun v => if P u0 v then weight_at2 u0 v s else 0) (np_unique ys))) (np_unique xs))) with
    (k * qsum (map (fun u0 => qsum (map (fun v => if P u0 v then weight_at2 u0 v s else 0) (np_unique ys))) (np_unique xs)) + 0) by ring.
  apply (qsum_lin k). generalize values_x. generalize (np_unique xs) (np_unique xs'). induction l as [|x l IH]; intros m L; inversion L as [|? x' ? m' X L']; subst; constructor; [|apply IH; exact L'].
  apply (qsum_lin k). generalize values_y. generalize (np_unique ys) (np_unique ys'). clear L L' IH. induction l0 as [|y l0 IH]; intros m0 L; inversion L as [|? y' ? m0' Y L']; subst; constructor; [|apply IH; exact L'].
  rewrite (E x x' y y' X Y). destruct (P x y); [|apply aff0]. unfold aff. rewrite (proj2 (proj2 HS x x' y y' X Y)). ring.
Qed.
End image.

(** ** The two margins *)
Lemma margin_x p : forall x y w, length y = length x -> length w = length x -> weight_if p (combine x w) == weight_where (fun a _ => p a) (combine (combine x y) w).
Proof. induction x as [|a x IH]; intros [|b y] [|v w] L1 L2; try discriminate; [reflexivity|]. cbn [combine weight_if weight_where]. rewrite (IH y w) by (cbn in *; lia). reflexivity. Qed.
Lemma margin_y p : forall x y w, length y = length x -> length w = length x -> weight_if p (combine y w) == weight_where (fun _ b => p b) (combine (combine x y) w).
Proof. induction x as [|a x IH]; intros [|b y] [|v w] L1 L2; try discriminate; [reflexivity|]. cbn [combine weight_if weight_where]. rewrite (IH y w) by (cbn in *; lia). reflexivity. Qed.
Lemma occurs_x : forall x y w q, length y = length x -> length w = length x -> occurs q (combine x w) <-> exists v, occurs2 q v (combine (combine x y) w).
Proof.
  intros x y w q L1 L2. split.
  - intros [a [v [H E]]]. apply (In_nth _ _ (0, 0)) in H as [i [I H]]. rewrite combine_length in I. rewrite combine_nth in H by congruence. injection H as H1 H2. exists (nth i y 0), a, (nth i y 0), v. split; [|split; [exact E|reflexivity]].
    assert (J : (i < length (combine (combine x y) w))%nat) by (rewrite !combine_length; lia). pose proof (nth_In _ ((0, 0), 0) J) as K. rewrite combine_nth in K by (rewrite combine_length; lia). rewrite combine_nth in K by congruence. rewrite H1, H2 in K. exact K.
  - intros [v [a [b [t [H [E _]]]]]]. apply (In_nth _ _ ((0, 0), 0)) in H as [i [I H]]. rewrite !combine_length in I. rewrite combine_nth in H by (rewrite combine_length; lia). rewrite combine_nth in H by congruence. injection H as H1 H2 H3.
    exists a, t. split; [|exact E]. assert (J : (i < length (combine x w))%nat) by (rewrite combine_length; lia). pose proof (nth_In _ (0, 0) J) as K. rewrite combine_nth in K by congruence. rewrite H1, H3 in K. exact K.
Qed.
Lemma occurs_y : forall x y w q, length y = length x -> length w = length x -> occurs q (combine y w) <-> exists v, occurs2 v q (combine (combine x y) w).
Proof.
  intros x y w q L1 L2. split.
  - intros [a [v [H E]]]. apply (In_nth _ _ (0, 0)) in H as [i [I H]]. rewrite combine_length in I. rewrite combine_nth in H by congruence. injection H as H1 H2. exists (nth i x 0), (nth i x 0), a, v. split; [|split; [reflexivity|exact E]].
    assert (J : (i < length (combine (combine x y) w))%nat) by (rewrite !combine_length; lia). pose proof (nth_In _ ((0, 0), 0) J) as K. rewrite combine_nth in K by (rewrite combine_length; lia). rewrite combine_nth in K by congruence. rewrite H1, H2 in K. exact K.
  - intros [v [a [b [t [H [_ E]]]]]]. apply (In_nth _ _ ((0, 0), 0)) in H as [i [I H]]. rewrite !combine_length in I. rewrite combine_nth in H by (rewrite combine_length; lia). rewrite combine_nth in H by congruence. injection H as H1 H2 H3.
    exists b, t. split; [|exact E]. assert (J : (i < length (combine y w))%nat) by (rewrite combine_length; lia). pose proof (nth_In _ (0, 0) J) as K. rewrite combine_nth in K by congruence. rewrite H2, H3 in K. exact K.
Qed.

Section columns.
Variables (u : units) (k : Q) (x y w x' y' w' : list Q).
Hypothesis HU : positive_units u.
Hypothesis L1 : length y = length x.
Hypothesis L2 : length w = length x.
Hypothesis L1' : length y' = length x'.
Hypothesis L2' : length w' = length x'.
Hypothesis HS : same_points u k (combine (combine x y) w) (combine (combine x' y') w').
Lemma sample_x : same_sample (u_a u) (u_b u) k (combine x w) (combine x' w').
Proof.
  split; [exact (proj1 HS)|]. intros q q' E. split.
  - rewrite (occurs_x x y w q L1 L2), (occurs_x x' y' w' q' L1' L2'). split; intros [v O].
    + exists (u_c u * v + u_d u). apply (proj2 HS q q' v _ E (Qeq_refl _)). exact O.
    + exists ((v - u_d u) / u_c u). apply (proj2 HS q q' _ v E (back_y u HU v)). exact O.
  - unfold weight_at. rewrite (margin_x _ x y w L1 L2), (margin_x _ x' y' w' L1' L2'). apply (where_aff u k _ _ HU HS).
    + intros a b c d K _. apply eq_true_iff_eq. rewrite !Qeq_bool_iff, K. reflexivity.
    + intros a b c d K _. apply eq_true_iff_eq. rewrite !Qeq_bool_iff, K. reflexivity.
    + intros a a' b b' K _. apply (eqb_aff (u_a u) (u_b u)); [exact (proj1 HU)|exact K|exact E].
Qed.
Lemma sample_y : same_sample (u_c u) (u_d u) k (combine y w) (combine y' w').
Proof.
  split; [exact (proj1 HS)|]. intros q q' E. split.
  - rewrite (occurs_y x y w q L1 L2), (occurs_y x' y' w' q' L1' L2'). split; intros [v O].
    + exists (u_a u * v + u_b u). apply (proj2 HS v _ q q' (Qeq_refl _) E). exact O.
    + exists ((v - u_b u) / u_a u). apply (proj2 HS _ v q q' (back_x u HU v) E). exact O.
  - unfold weight_at. rewrite (margin_y _ x y w L1 L2), (margin_y _ x' y' w' L1' L2'). apply (where_aff u k _ _ HU HS).
    + intros a b c d _ K. apply eq_true_iff_eq. rewrite !Qeq_bool_iff, K. reflexivity.
    + intros a b c d _ K. apply eq_true_iff_eq. rewrite !Qeq_bool_iff, K. reflexivity.
    + intros a a' b b' _ K. apply (eqb_aff (u_c u) (u_d u)); [exact (proj2 HU)|exact K|exact E].
Qed.

(** ** The histogram *)
Definition mlin (t : Q) : matrix -> matrix -> Prop := Forall2 (lin t 0).
Definition trel (a b : Q) (p p' : Q -> bool) : Prop :=
  (forall v v', aff a b v v' -> p' v' = p v) /\ (forall v1 v2, v1 == v2 -> p v1 = p v2) /\ (forall v1 v2, v1 == v2 -> p' v1 = p' v2).
Lemma edge_bins_rel a b e e' : 0 < a -> lin a b e e' -> Forall2 (trel a b) (edge_bins e) (edge_bins e').
Proof.
  intros Ha. induction 1 as [|v v' l l' V L IH]; [constructor|]. destruct L as [|z z' l l' Z L]; [constructor|]. cbn [edge_bins] in *. constructor; [|exact IH].
  replace (match l' with [] => true | _ :: _ => false end) with (match l with [] => true | _ :: _ => false end) by (destruct L; reflexivity).
  split; [|split]; [intros q q' E; apply (in_bin_aff a b); assumption|intros q q' E; apply in_bin_eq; exact E|intros q q' E; apply in_bin_eq; exact E].
Qed.
Lemma histogram2d_lin ex ey ex' ey' : lin (u_a u) (u_b u) ex ex' -> lin (u_c u) (u_d u) ey ey' -> mlin k (histogram2d ex ey x y w) (histogram2d ex' ey' x' y' w').
Proof.
  intros EX EY. unfold histogram2d. pose proof (edge_bins_rel _ _ _ _ (proj1 HU) EX) as BX. pose proof (edge_bins_rel _ _ _ _ (proj2 HU) EY) as BY.
  induction BX as [|p p' l l' [P1 [P2 P3]] BX IH]; [constructor|]. cbn [map]. constructor; [|exact IH]. clear IH BX.
  induction BY as [|q q' m m' [Q1 [Q2 Q3]] BY IH]; [constructor|]. cbn [map]. constructor; [|exact IH]. unfold aff.
  pose proof (qsum_weight_where (fun a b => p a && q b) (combine (combine x y) w)) as E1. pose proof (qsum_weight_where (fun a b => p' a && q' b) (combine (combine x' y') w')) as E2. cbv beta in E1, E2.
  rewrite E1, E2. rewrite (where_aff u k _ _ HU HS (fun a b => p a && q b) (fun a b => p' a && q' b)); [ring| | |].
  - intros a b c d K1 K2. rewrite (P2 a b K1), (Q2 c d K2). reflexivity.
  - intros a b c d K1 K2. rewrite (P3 a b K1), (Q3 c d K2). reflexivity.
  - intros a a' b b' K1 K2. rewrite (P1 a a' K1), (Q1 b b' K2). reflexivity.
Qed.
End columns.

(** ** Matrices *)
Lemma mlin_length t m m' : mlin t m m' -> length m' = length m.
Proof. intros H. symmetry. induction H; cbn; congruence. Qed.
Lemma mlin_width t m m' : mlin t m m' -> width m' = width m.
Proof. intros [|r r' l l' R _]; [reflexivity|]. cbn. exact (lin_length _ _ _ _ R). Qed.
Lemma mlin_entry t m m' i j : mlin t m m' -> aff t 0 (entry 0 m i j) (entry 0 m' i j).
Proof.
  intros H. unfold entry. apply lin_nth0. revert i. induction H as [|r r' l l' R _ IH]; intros [|i]; cbn [nth]; try constructor; try exact R; apply IH.
Qed.
Lemma transpose_lin t m m' : mlin t m m' -> mlin t (transpose 0 m) (transpose 0 m').
Proof.
  intros H. unfold transpose. rewrite (mlin_length _ _ _ H), (mlin_width _ _ _ H). unfold mlin. induction (seq 0 (width m)) as [|j l IH]; cbn [map]; constructor; [|exact IH]. apply lin_map. intros i _. apply mlin_entry. exact H.
Qed.
Lemma filter_rows_lin t kern m m' : mlin t m m' -> mlin t (map (filter1d kern) m) (map (filter1d kern) m').
Proof. induction 1 as [|r r' l l' R _ IH]; constructor; [apply filter1d_lin; exact R|exact IH]. Qed.
Lemma filter2d_lin t kern m m' : mlin t m m' -> mlin t (filter2d kern m) (filter2d kern m').
Proof. intros H. unfold filter2d. apply filter_rows_lin, transpose_lin, filter_rows_lin, transpose_lin, H. Qed.
Lemma map2_lin t t1 (f g : Q -> Q) m m' : mlin t m m' -> (forall v v', aff t 0 v v' -> aff t1 0 (f v) (g v')) -> mlin t1 (map (map f) m) (map (map g) m').
Proof. intros H K. induction H as [|r r' l l' R _ IH]; constructor; [|exact IH]. apply (lin_map2 t 0); [exact R|]. intros v v' _. apply K. Qed.
Lemma power_aff p t v v' : power_law p -> 0 < t -> aff t 0 v v' -> aff (p t) 0 (p v) (p v').
Proof. intros [P1 [P2 P3]] T E. unfold aff in *. rewrite (P1 v' (t * v)) by (rewrite E; ring). rewrite (P2 t v T). ring. Qed.

(** ** helpers.py: get_smoothed_histogram2d *)
Lemma points_data c f px py s : frame_wf f -> points c f px py s -> exists x y w, get_data f px = Ok x /\ get_data f py = Ok y /\ weights c f = Ok w /\ s = combine (combine x y) w /\ length y = length x /\ length w = length x /\
  exists cx cy cw, f_get f px = Some cx /\ f_get f py = Some cy /\ f_get f (ch_weight c) = Some cw /\ x = qs cx /\ y = qs cy /\ w = qs cw.
Proof.
  intros WF [x [y [w [X [Y [W ->]]]]]]. exists (qs x), (qs y), (qs w). unfold get_data, weights. rewrite X, Y, W.
  assert (LN : forall n l, f_get f n = Some l -> length l = length (f_index f)). { intros n l H. apply (FrameFacts.f_get_wf f n l WF) in H. exact (proj2 WF _ _ H). }
  assert (LQ : forall l : list FrameModel.cell, length (qs l) = length l) by (intros l; apply map_length). do 4 (split; [reflexivity|]). rewrite !LQ, (LN _ _ X), (LN _ _ Y), (LN _ _ W). do 2 (split; [reflexivity|]). exists x, y, w. auto 10.
Qed.
Lemma surface_rel kde2 num u k t c f f' px py s s' : positive_units u -> 0 < t -> power_law (n_power num (ch_power c)) -> same_bins c f f' -> frame_wf f -> frame_wf f' ->
  points c f px py s -> points c f' px py s' -> same_points u k s s' -> spread_out u s -> s <> [] -> same_kde2 kde2 u t c f f' px py ->
  rrel (surface_in_units u (n_power num (ch_power c) (if kde_on (ch_cfg c Fkde) then t else k)))
    (get_smoothed_histogram2d num kde2 c f px py) (get_smoothed_histogram2d num kde2 c f' px py).
Proof.
  intros HU T HP HB WF WF' D D' HS [SX SY] NE HK. destruct (points_data _ _ _ _ _ WF D) as [x [y [w [X [Y [W [-> [L1 [L2 [cx [cy [cw [CX [CY [CW [EX [EY EW]]]]]]]]]]]]]]]]].
  destruct (points_data _ _ _ _ _ WF' D') as [x' [y' [w' [X' [Y' [W' [-> [L1' [L2' [cx' [cy' [cw' [CX' [CY' [CW' [EX' [EY' EW']]]]]]]]]]]]]]]]].
  pose proof (sample_x u k x y w x' y' w' HU L1 L2 L1' L2' HS) as SSX. pose proof (sample_y u k x y w x' y' w' HU L1 L2 L1' L2' HS) as SSY.
  assert (SPX : u_a u == 1 \/ spread (combine x w)). { destruct SX as [SX|[a [b [a' [b' [O [O' N]]]]]]]; [left; exact SX|right]. exists a, a'. split; [apply (occurs_x x y w a L1 L2); eauto|]. split; [apply (occurs_x x y w a' L1 L2); eauto|exact N]. }
  assert (SPY : u_c u == 1 \/ spread (combine y w)). { destruct SY as [SY|[a [b [a' [b' [O [O' N]]]]]]]; [left; exact SY|right]. exists b, b'. split; [apply (occurs_y x y w b L1 L2); eauto|]. split; [apply (occurs_y x y w b' L1 L2); eauto|exact N]. }
  assert (NX : combine x w <> []) by (intros K; apply NE; destruct x, y, w; try reflexivity; try discriminate L1; try discriminate L2; discriminate K). assert (NY : combine y w <> []) by (intros K; apply NE; destruct x, y, w; try reflexivity; try discriminate L1; try discriminate L2; discriminate K).
  assert (FX : map fst (combine x w) = x) by (apply map_fst_combine; congruence). assert (FY : map fst (combine y w) = y) by (apply map_fst_combine; congruence).
  assert (FX' : map fst (combine x' w') = x') by (apply map_fst_combine; congruence). assert (FY' : map fst (combine y' w') = y') by (apply map_fst_combine; congruence).
  unfold get_smoothed_histogram2d. rewrite X, Y, W, X', Y', W'. cbn [rbind]. cbv zeta.
  assert (NB : get_bins (ch_cfg c Fbins) (ch_cfg c Fsmooth) (ch_grid c) (f_rows f') (length (f_cols f')) = get_bins (ch_cfg c Fbins) (ch_cfg c Fsmooth) (ch_grid c) (f_rows f) (length (f_cols f))) by exact (bins_same c f f' x w x' w' num HB).
  rewrite NB. set (nb := get_bins _ _ _ _ _). set (sv := smooth_value _ _).
  set (edges := fun d w => if ch_grid c then get_grid_bins d else rmap fst (get_smoothed_bins (n_bins num) sv nb (combine d w) false false)).
  change (if ch_grid c then get_grid_bins x else rmap fst (get_smoothed_bins (n_bins num) sv nb (combine x w) false false)) with (edges x w).
  change (if ch_grid c then get_grid_bins y else rmap fst (get_smoothed_bins (n_bins num) sv nb (combine y w) false false)) with (edges y w).
  change (if ch_grid c then get_grid_bins x' else rmap fst (get_smoothed_bins (n_bins num) sv nb (combine x' w') false false)) with (edges x' w').
  change (if ch_grid c then get_grid_bins y' else rmap fst (get_smoothed_bins (n_bins num) sv nb (combine y' w') false false)) with (edges y' w').
  assert (RX : rrel (lin (u_a u) (u_b u)) (edges x w) (edges x' w')).
  { unfold edges. destruct (ch_grid c); [pose proof (grid_bins_aff _ _ _ _ _ (proj1 HU) SSX) as G; rewrite FX, FX' in G; exact G|].
    pose proof (smoothed_bins_aff _ _ _ _ _ (proj1 HU) SSX SPX NX (n_bins num) sv nb false false) as G. destruct (get_smoothed_bins _ _ _ (combine x w) _ _), (get_smoothed_bins _ _ _ (combine x' w') _ _); cbn [rrel rmap] in *; try contradiction; [exact (proj1 G)|exact G]. }
  assert (RY : rrel (lin (u_c u) (u_d u)) (edges y w) (edges y' w')).
  { unfold edges. destruct (ch_grid c); [pose proof (grid_bins_aff _ _ _ _ _ (proj2 HU) SSY) as G; rewrite FY, FY' in G; exact G|].
    pose proof (smoothed_bins_aff _ _ _ _ _ (proj2 HU) SSY SPY NY (n_bins num) sv nb false false) as G. destruct (get_smoothed_bins _ _ _ (combine y w) _ _), (get_smoothed_bins _ _ _ (combine y' w') _ _); cbn [rrel rmap] in *; try contradiction; [exact (proj1 G)|exact G]. }
  eapply rrel_bind; [exact RX|]. intros ex ex' EEX. eapply rrel_bind; [exact RY|]. intros ey ey' EEY.
  pose proof (bin_centers_lin _ _ _ _ EEX) as CEX. pose proof (bin_centers_lin _ _ _ _ EEY) as CEY. assert (K0 : 0 < k) by exact (proj1 HS).
  destruct (kde_on (ch_cfg c Fkde)) eqn:KO.
  - destruct HK as [HK|HK]; [congruence|]. rewrite (lin_length _ _ _ _ CEX). set (nn := (length (bin_centers ex) * 2)%nat). inversion EEX as [|bx bx' rx rx' BX BRX]; subst ex ex'; [reflexivity|]. inversion EEY as [|by_ by_' ry ry' BY BRY]; subst ey ey'; [reflexivity|].
    pose proof (linspace_lin _ _ _ _ _ _ nn (qmin_list_lin _ _ _ _ _ _ (proj1 HU) BRX BX) (qmax_list_lin _ _ _ _ _ _ (proj1 HU) BRX BX)) as XK.
    pose proof (linspace_lin _ _ _ _ _ _ nn (qmin_list_lin _ _ _ _ _ _ (proj2 HU) BRY BY) (qmax_list_lin _ _ _ _ _ _ (proj2 HU) BRY BY)) as YK.
    cbn [rrel]. split; [|split; [exact XK|exact YK]]. cbn [fst snd]. clear - HK CX CY CW CX' CY' CW' EX EY EW EX' EY' EW' XK YK HP T. change (Forall2 (in_units ?a 0)) with (lin a 0).
    induction XK as [|a a' l l' Ha _ IH]; constructor; [|exact IH]. clear IH. induction YK as [|b b' m m' Hb _ IH]; constructor; [|exact IH]. apply power_aff; [exact HP|exact T|]. unfold aff. subst. rewrite (HK cx cy cw cx' cy' cw' a b a' b'); try assumption. ring.
  - cbn [rrel]. split; [|split; [exact CEX|exact CEY]]. cbn [fst snd]. pose proof (histogram2d_lin u k x y w x' y' w' HU HS ex ey ex' ey' EEX EEY) as HH.
    pose proof (map2_lin k (n_power num (ch_power c) k) (n_power num (ch_power c)) (n_power num (ch_power c)) _ _ HH (fun v v' => power_aff _ k v v' HP K0)) as PH.
    destruct (0 <? sv)%Z; [apply filter2d_lin|]; exact PH.
Qed.

(** ** Contours *)
Lemma concat_lin t m m' : mlin t m m' -> lin t 0 (concat m) (concat m').
Proof. induction 1 as [|r r' l l' R _ IH]; [constructor|]. cbn [concat]. apply Forall2_app; [exact R|exact IH]. Qed.
Lemma mlin_shape t m m' : mlin t m m' -> same_shape m m'.
Proof. unfold same_shape. induction 1 as [|r r' l l' R _ IH]; [reflexivity|]. cbn [map]. rewrite (lin_length _ _ _ _ R), IH. reflexivity. Qed.
Lemma total_lin t l l' : lin t 0 l l' -> total l' == t * total l.
Proof. intros H. pose proof (qsum_lin t l l' H) as E. unfold aff in E. rewrite <- !qsum_total, E. ring. Qed.
Lemma mass_lin t (p p' : Q -> Q -> bool) : forall l l', lin t 0 l l' -> forall v, length v = length l -> (forall a b x, aff t 0 a b -> p' b x = p a x) ->
  mass p' (combine l' v) == t * mass p (combine l v).
Proof.
  induction 1 as [|a b l l' E _ IH]; intros [|x v] L K; try discriminate; [cbn; ring|]. cbn [combine mass].
  rewrite (IH v) by (cbn in L; try lia; exact K). rewrite (K a b x E). unfold aff in E. destruct (p a x); [|ring]. rewrite E. ring.
Qed.
Lemma pair_lin t : forall l l', lin t 0 l l' -> forall (v : list Q) h x, length v = length l -> In (h, x) (combine l v) -> exists h' : Q, aff t 0 h h' /\ In (h', x) (combine l' v).
Proof.
  induction 1 as [|a b l l' E _ IH]; intros [|x v] h y L I; try discriminate; [destruct I|]. cbn [combine] in *. destruct I as [I|I].
  - injection I as <- <-. exists b. split; [exact E|left; reflexivity].
  - destruct (IH v h y ltac:(cbn in L; lia) I) as [h' [K1 K2]]. exists h'. split; [exact K1|right; exact K2].
Qed.
Lemma same_shape_concat {A B} (m : list (list A)) (v : list (list B)) : same_shape m v -> length (concat v) = length (concat m).
Proof. revert v. induction m as [|r m IH]; intros [|q v] H; try discriminate; [reflexivity|]. cbn [concat]. unfold same_shape in H. cbn [map] in H. injection H as H1 H2. rewrite !app_length, (IH v H2), H1. reflexivity. Qed.
Lemma credible_lin t m m' v : 0 < t -> mlin t m m' -> credible_surface m' v -> credible_surface m v.
Proof.
  intros T M [S [C1 [C2 C3]]]. assert (SM := mlin_shape _ _ _ M). assert (SV : same_shape m v) by (unfold same_shape in *; congruence).
  assert (LL := concat_lin _ _ _ M). assert (LV := same_shape_concat _ _ SV). assert (TT := total_lin _ _ _ LL). unfold cells in *.
  assert (LE : forall p q, t * p <= t * q <-> p <= q) by (intros p q; rewrite Qmult_le_l by exact T; reflexivity).
  split; [exact SV|]. split; [|split].
  - intros h x I. destruct (pair_lin t _ _ LL _ _ _ LV I) as [h' [E I']]. destruct (C1 h' x I') as [D1 [D2 [D3 D4]]].
    rewrite (mass_lin t (fun h0 _ => below h h0) (fun h0 _ => below h' h0) _ _ LL (concat v) LV), TT in D1; [|intros a b _ K; unfold below; f_equal; apply eq_true_iff_eq; rewrite !Qle_bool_iff; apply (aff_le t 0); assumption].
    rewrite (mass_lin t (fun h0 _ => Qle_bool h h0) (fun h0 _ => Qle_bool h' h0) _ _ LL (concat v) LV), TT in D2; [|intros a b _ K; apply eq_true_iff_eq; rewrite !Qle_bool_iff; apply (aff_le t 0); assumption].
    unfold cells in *. split; [apply LE; unfold aff in E; rewrite E in D1; eapply Qle_trans; [|eapply Qle_trans; [exact D1|]]; apply Qle_lteq; right; ring|]. split; [apply LE; eapply Qle_trans; [|eapply Qle_trans; [exact D2|]]; apply Qle_lteq; right; ring|]. split; [exact D3|]. intros Hh. apply D4. unfold aff in E. rewrite E. pose proof (Qmult_lt_0_compat t h T Hh). lra.
  - intros h x g y I J P Q. destruct (pair_lin t _ _ LL _ _ _ LV I) as [h' [E I']]. destruct (pair_lin t _ _ LL _ _ _ LV J) as [g' [E' J']]. unfold aff in E, E'. apply (C2 h' x g' y I' J'); [rewrite E'; pose proof (Qmult_lt_0_compat t g T P); lra|].
    rewrite E, E'. assert (K : t * g < t * h) by (rewrite Qmult_lt_l; assumption). lra.
  - intros L HL. specialize (C3 L HL). rewrite (mass_lin t (fun _ x => Qle_bool x L) (fun _ x => Qle_bool x L) _ _ LL (concat v) LV), TT in C3 by reflexivity. unfold cells. apply LE. lra.
Qed.
Lemma never_empty_eq m m' : mlin 1 m m' -> mlin 1 (never_empty m) (never_empty m').
Proof.
  intros M. unfold never_empty. apply (map2_lin 1 1 _ _ _ _ M). intros v v' E. assert (K : v' == v) by (unfold aff in E; rewrite E; ring). replace (Qeq_bool v' 0) with (Qeq_bool v 0); [destruct (Qeq_bool v 0); [apply aff1|exact E]|].
  apply eq_true_iff_eq. rewrite !Qeq_bool_iff, K. reflexivity.
Qed.
Lemma never_empty_full t m m' : 0 < t -> full m -> mlin t m m' -> mlin t (never_empty m) (never_empty m').
Proof.
  intros T F M. unfold never_empty. unfold full in F. induction M as [|r r' l l' R _ IH]; [constructor|]. cbn [map]. constructor; [|apply IH; intros v V; apply F; cbn [concat]; apply in_or_app; right; exact V].
  assert (FR : forall v, In v r -> ~ v == 0) by (intros v V; apply F; cbn [concat]; apply in_or_app; left; exact V). clear - T FR R. induction R as [|v v' q q' V _ IH]; [constructor|]. cbn [map]. constructor; [|apply IH; intros z Z; apply FR; right; exact Z].
  assert (N : ~ v == 0) by (apply FR; left; reflexivity). replace (Qeq_bool v 0) with false by (symmetry; apply qeqb_false; exact N). replace (Qeq_bool v' 0) with false; [exact V|]. symmetry. apply qeqb_false. intros E. apply N. unfold aff in V. rewrite E in V. assert (K : t * v == 0) by lra. apply Qmult_integral in K. destruct K as [K|K]; [lra|exact K].
Qed.
Lemma surface_units_eq u t t' s s' : t == t' -> surface_in_units u t s s' -> surface_in_units u t' s s'.
Proof.
  intros E [A B]. split; [|exact B]. clear B. induction A as [|r r' l l' R _ IH]; constructor; [|exact IH]. clear IH. induction R as [|v v' q q' V _ IH]; constructor; [|exact IH]. unfold in_units in *. rewrite V, E. reflexivity.
Qed.
Lemma power_one p : power_law p -> p 1 == 1.
Proof.
  intros [P1 [P2 P3]]. pose proof (P2 1 1 ltac:(reflexivity)) as E. assert (K : p (1 * 1) == p 1) by (apply P1; reflexivity). rewrite K in E.
  assert (0 < p 1) by (apply P3; reflexivity). assert (F : (p 1 - 1) * p 1 == 0) by lra. apply Qmult_integral in F. destruct F as [F|F]; lra.
Qed.

Lemma cell_in : forall m v i j r, same_shape m v -> nth_error m i = Some r -> (j < length r)%nat -> In (cell 0 m i j, cell 0 v i j) (cells m v).
Proof.
  unfold cells, cell. induction m as [|q m IH]; intros [|p v] i j r S E L; try discriminate; [destruct i; discriminate|]. unfold same_shape in S. cbn [map] in S. injection S as S1 S2.
  assert (C : combine (concat (q :: m)) (concat (p :: v)) = combine q p ++ combine (concat m) (concat v)).
  { cbn [concat]. clear - S1. revert p S1. induction q as [|a q IH]; intros [|b p] S1; try discriminate; [reflexivity|]. cbn. f_equal. apply IH. cbn in S1. lia. }
  rewrite C. apply in_or_app. destruct i as [|i]; cbn [nth nth_error] in *.
  - left. injection E as ->. rewrite <- (combine_nth r p j 0 0 S1). apply nth_In. rewrite combine_length. lia.
  - right. apply (IH v i j r S2 E L).
Qed.
Lemma mass_fst p : forall l v v', length v = length l -> length v' = length l -> mass (fun h _ => p h) (combine l v) == mass (fun h _ => p h) (combine l v').
Proof. induction l as [|a l IH]; intros [|x v] [|y v'] L L'; try discriminate; [reflexivity|]. cbn [combine mass]. rewrite (IH v v') by (cbn in *; lia). reflexivity. Qed.
Lemma mass_split h : forall l v, length v = length l -> mass (fun g _ => Qle_bool h g) (combine l v) == mass (fun g _ => below h g) (combine l v) + h * nq (length (filter (Qeq_bool h) l)).
Proof.
  induction l as [|a l IH]; intros [|x v] L; try discriminate; [cbn; unfold nq; cbn; ring|]. cbn [combine mass filter]. rewrite (IH v) by (cbn in L; lia). unfold below.
  destruct (Qeq_bool h a) eqn:E; [apply Qeq_bool_iff in E|apply qeqb_false in E].
  - replace (Qle_bool h a) with true by (symmetry; apply Qle_bool_iff; lra). replace (Qle_bool a h) with true by (symmetry; apply Qle_bool_iff; lra). cbn [negb length]. rewrite nq_S, <- E. ring.
  - destruct (Qle_bool h a) eqn:F, (Qle_bool a h) eqn:G; cbn [negb]; try ring; exfalso.
    + apply Qle_bool_iff in F, G. apply E. lra.
    + assert (~ h <= a) by (intros K; apply Qle_bool_iff in K; congruence). assert (~ a <= h) by (intros K; apply Qle_bool_iff in K; congruence). lra.
Qed.
Lemma untied_value m v i j r : nth_error m i = Some r -> (j < length r)%nat -> untied m i j -> credible_surface m v ->
  cell 0 v i j * total (concat m) == mass (fun g _ => Qle_bool (cell 0 m i j) g) (combine (concat m) (concat m)).
Proof.
  intros E L U [S [C1 _]]. destruct (C1 _ _ (cell_in m v i j r S E L)) as [D1 [D2 _]]. unfold cells in *. set (h := cell 0 m i j) in *.
  assert (LV : length (concat v) = length (concat m)) by (symmetry; apply same_shape_length, S). unfold untied in U. fold h in U.
  pose proof (mass_split h (concat m) (concat v) LV) as M. rewrite U in M. change (nq 1) with 1 in M. rewrite (mass_fst (fun g => Qle_bool h g) (concat m) (concat m) (concat v) eq_refl LV).
  apply Qle_antisym; [exact D2|]. rewrite M. lra.
Qed.

Lemma power_factor p t k b : power_law p -> t == 1 -> k == 1 -> p (if b : bool then t else k) == 1.
Proof. intros HP T K. rewrite <- (power_one p HP). apply (proj1 HP). destruct b; assumption. Qed.
Lemma transpose_size {A} (d : A) m m' : map (@length A) m = map (@length A) m' -> length (transpose d m) = length (transpose d m') /\ width (transpose d m) = width (transpose d m').
Proof.
  intros H. assert (L : length m = length m') by (rewrite <- (map_length (@length A) m), H, map_length; reflexivity).
  assert (W : width m = width m') by (destruct m, m'; try discriminate; [reflexivity|]; cbn in *; injection H; auto).
  unfold transpose. rewrite !map_length, !seq_length, W, L. split; [reflexivity|]. destruct (width m'); [reflexivity|]. cbn. rewrite !map_length. reflexivity.
Qed.
Lemma contour_args_same xc yc z xc' yc' z' l b : length xc' = length xc -> length yc' = length yc -> length z' = length z -> width z' = width z ->
  contour_args xc' yc' z' l b = contour_args xc yc z l b.
Proof. intros E1 E2 E3 E4. unfold contour_args. rewrite E1, E2, E3, E4. reflexivity. Qed.

Section contours.
Variable num : numerics.
Variable kde2 : list Q -> list Q -> list Q -> Q -> Q * Q -> Q.
Variable argsort : list Q -> list nat.
Variable Phi : R -> R.
Hypothesis HA : argsort_ok argsort.
Hypothesis HP : forall p v, 0 <= v -> 0 <= n_power num p v.
Hypothesis HK : forall s, all_nonneg (n_kernel num s).
Hypothesis HD : forall x y w t p, 0 <= kde2 x y w t p.
Lemma convert_cases m : all_nonneg (concat m) -> convert_to_stdev argsort (never_empty m) = Err IndexError /\ concat m = [] \/
  exists v, convert_to_stdev argsort (never_empty m) = Ok v /\ credible_surface (never_empty m) v /\ concat m <> [].
Proof.
  intros N. assert (D : concat m = [] \/ concat m <> []) by (destruct (concat m); [left; reflexivity|right; discriminate]). destruct D as [E|E].
  - left. split; [|exact E]. assert (K : concat (never_empty m) = []) by (unfold never_empty; rewrite <- concat_map, E; reflexivity).
    unfold convert_to_stdev. rewrite K. destruct (HA []) as [P _]. apply Permutation_sym, Permutation_nil in P. rewrite P. cbn. reflexivity.
  - right. destruct (fill_positive m N E) as [F1 F2]. destruct (convert_credible argsort _ HA F1 F2) as [v [V C]]. exists v. split; [exact V|]. split; [exact C|exact E].
Qed.
Lemma contour_rel u t s2 c f f' px py : (forall w, weights c f = Ok w -> all_nonneg w) -> (forall w, weights c f' = Ok w -> all_nonneg w) -> 0 < t ->
  (t == 1 \/ forall hist xc yc, get_smoothed_histogram2d num kde2 c f px py = Ok (hist, xc, yc) -> full hist) ->
  rrel (surface_in_units u t) (get_smoothed_histogram2d num kde2 c f px py) (get_smoothed_histogram2d num kde2 c f' px py) ->
  rrel (fun ds ds' => exists hist xc yc, get_smoothed_histogram2d num kde2 c f px py = Ok (hist, xc, yc) /\ Forall2 (draw_in_units u (never_empty hist)) ds ds')
    (plot_contour num kde2 argsort Phi s2 c f px py) (plot_contour num kde2 argsort Phi s2 c f' px py).
Proof.
  intros W W' T FL R. unfold plot_contour. cbv zeta. destruct (chain_colour c) as [base|]; [cbn [rbind]|reflexivity]. destruct (contour_colours _ _ _ _) as [cols|]; [cbn [rbind]|reflexivity].
  destruct (get_smoothed_histogram2d num kde2 c f px py) as [[[hist xc] yc]|] eqn:H, (get_smoothed_histogram2d num kde2 c f' px py) as [[[hist' xc'] yc']|] eqn:H'; cbn [rrel] in R; try contradiction; [|exact R]. cbn [rbind].
  pose proof R as R0. destruct R as [RM [RX RY]]. cbn [fst snd] in *.
  pose proof (surface_nonneg num kde2 c f px py hist xc yc HP HK HD W H) as N. pose proof (surface_nonneg num kde2 c f' px py hist' xc' yc' HP HK HD W' H') as N'.
  fold (never_empty hist). fold (never_empty hist'). assert (M : mlin t (never_empty hist) (never_empty hist')).
  { destruct FL as [E|FL]; [|apply never_empty_full; [exact T|apply (FL hist xc yc eq_refl)|exact RM]]. apply (surface_units_eq u t 1) in R0; [|exact E]. destruct R0 as [R0 _]. cbn [fst snd] in R0.
    pose proof (never_empty_eq _ _ R0) as M. destruct (surface_units_eq u 1 t (never_empty hist, [], []) (never_empty hist', [], [])) as [M' _]; [symmetry; exact E|split; [exact M|split; constructor]|]. exact M'. }
  assert (LC : length (concat hist') = length (concat hist)) by (apply lin_length with t 0, concat_lin; exact RM).
  destruct (convert_cases hist N) as [[E Z]|[v [E [C Z]]]], (convert_cases hist' N') as [[E' Z']|[v' [E' [C' Z']]]]; rewrite E, E'; cbn [rbind].
  - reflexivity.
  - exfalso. apply Z'. rewrite Z in LC. destruct (concat hist'); [reflexivity|discriminate].
  - exfalso. apply Z. rewrite Z' in LC. destruct (concat hist); [reflexivity|discriminate].
  - assert (LX : length xc' = length xc) by (apply lin_length with (u_a u) (u_b u); exact RX). assert (LY : length yc' = length yc) by (apply lin_length with (u_c u) (u_d u); exact RY).
    pose proof (mlin_shape _ _ _ M) as SM. assert (SV : map (@length Q) v' = map (@length Q) v). { destruct C as [S1 _], C' as [S2 _]. unfold same_shape in *. congruence. }
    destruct (transpose_size 0%Q _ _ SV) as [T1 T2]. unfold filled_args. rewrite !(contour_args_same xc yc (transpose 0%Q v) xc' yc' (transpose 0%Q v') _ _ LX LY T1 T2).
    set (shaded := (ch_cfg c Fshade && alpha_positive (ch_cfg c Fshade_alpha))%bool). set (levels := get_levels Phi s2 (ch_cfg c Fsigmas)).
    match goal with |- context[rbind (if shaded then ?a else ?b) _] => destruct (if shaded then a else b); [cbn [rbind]|reflexivity] end.
    destruct (contour_args xc yc (transpose 0%Q v) levels false) as [[]|] eqn:A; [cbn [rbind rrel]|reflexivity].
    apply contour_args_ok in A as [Z1 [Z2 [Z3 [Z4 _]]]].
    assert (Nx : xc <> []) by (intros ->; cbn in Z4; lia). assert (Ny : yc <> []) by (intros ->; cbn in Z3; lia).
    assert (Px : (0 < length xc)%nat) by lia. assert (Py_ : (0 < length yc)%nat) by lia.
    assert (Nx' : xc' <> []) by (intros ->; cbn in LX; lia). assert (Ny' : yc' <> []) by (intros ->; cbn in LY; lia).
    assert (Sv : shaped v (length xc) (length yc)) by (apply (same_shape_shaped _ _ _ _ (proj1 C)), map_map_shaped, (surface_shaped num kde2 c f px py hist xc yc H Nx Ny)).
    assert (Sv' : shaped v' (length xc) (length yc)). { apply (same_shape_shaped _ _ _ _ (proj1 C')), map_map_shaped. rewrite <- LX, <- LY. apply (surface_shaped num kde2 c f' px py hist' xc' yc' H' Nx' Ny'). }
    assert (SR : same_regions (never_empty hist) (transpose 0%Q v) (transpose 0%Q v')).
    { exists v, v'. split; [exact C|]. split; [apply (credible_lin t _ _ _ T M C')|]. split; exists (length xc), (length yc).
      - split; [exact Sv|]. split; [apply transpose_shaped; assumption|]. intros i j I J. apply (transpose_cell 0%Q v _ _ i j Sv I J).
      - split; [exact Sv'|]. split; [apply transpose_shaped; assumption|]. intros i j I J. apply (transpose_cell 0%Q v' _ _ i j Sv' I J). }
    exists hist, xc, yc. split; [reflexivity|]. apply Forall2_app; [destruct shaded; constructor; [|constructor]|].
    + cbn. auto 10.
    + constructor; [cbn; auto 10|]. destruct (ch_cfg c Fshow_contour_labels : bool); constructor; [reflexivity|constructor].
Qed.
End contours.

(** ** Tables *)
Lemma weight_where_perm P s s' : Permutation s s' -> weight_where P s == weight_where P s'.
Proof. induction 1 as [|[[x y] w] s s' H IH|[[x y] w] [[x' y'] w'] s|s s' s'' H IH H' IH']; cbn [weight_where]; [reflexivity|rewrite IH; reflexivity|ring|rewrite IH; exact IH']. Qed.
Lemma weight_where_app P : forall s s', weight_where P (s ++ s') == weight_where P s + weight_where P s'.
Proof. induction s as [|[[x y] w] s IH]; intros s'; cbn [app weight_where]; [ring|]. rewrite IH. ring. Qed.
Lemma weight_at2_eq x x' y y' s : x == x' -> y == y' -> weight_at2 x y s == weight_at2 x' y' s.
Proof.
  intros X Y. unfold weight_at2. induction s as [|[[a b] w] s IH]; cbn [weight_where]; [reflexivity|]. rewrite IH. replace (Qeq_bool a x && Qeq_bool b y)%bool with (Qeq_bool a x' && Qeq_bool b y')%bool; [reflexivity|].
  f_equal; apply eq_true_iff_eq; rewrite !Qeq_bool_iff; [rewrite X|rewrite Y]; reflexivity.
Qed.
Lemma occurs2_eq x x' y y' s : x == x' -> y == y' -> occurs2 x y s -> occurs2 x' y' s.
Proof. intros X Y [a [b [w [I [E F]]]]]. exists a, b, w. split; [exact I|]. split; [rewrite E; exact X|rewrite F; exact Y]. Qed.
Lemma points_same k s s' : 0 < k -> (forall x y, occurs2 x y s <-> occurs2 x y s') -> (forall x y, weight_at2 x y s' == k * weight_at2 x y s) -> same_points no_units k s s'.
Proof.
  intros K O W. split; [exact K|]. intros x x' y y' X Y. unfold in_x, in_y, in_units, no_units in X, Y. cbn in X, Y. assert (X' : x == x') by (rewrite X; ring). assert (Y' : y == y') by (rewrite Y; ring). split.
  - rewrite O. split; apply occurs2_eq; try assumption; symmetry; assumption.
  - rewrite W, (weight_at2_eq x x' y y') by assumption. reflexivity.
Qed.
Lemma points_perm s s' : Permutation s s' -> same_points no_units 1 s s'.
Proof.
  intros P. apply points_same; [reflexivity| |].
  - intros x y. unfold occurs2. split; intros [a [b [w [I E]]]]; exists a, b, w; (split; [|exact E]); [eapply Permutation_in; [exact P|exact I]|eapply Permutation_in; [symmetry; exact P|exact I]].
  - intros x y. unfold weight_at2. rewrite (weight_where_perm _ _ _ P). ring.
Qed.
Lemma points_split l r p v v' w : v + v' == w -> same_points no_units 1 (l ++ (p, w) :: r) (l ++ (p, v) :: (p, v') :: r).
Proof.
  intros V. destruct p as [a b]. apply points_same; [reflexivity| |].
  - intros x y. unfold occurs2. split; intros [a0 [b0 [w0 [I E]]]]; apply in_app_or in I; cbn [In] in I.
    + destruct I as [I|[I|I]]; [exists a0, b0, w0| injection I as <- <- <-; exists a, b, v|exists a0, b0, w0]; (split; [apply in_or_app; cbn [In]; auto|exact E]).
    + destruct I as [I|[I|[I|I]]]; [exists a0, b0, w0| injection I as <- <- <-; exists a, b, w| injection I as <- <- <-; exists a, b, w|exists a0, b0, w0]; (split; [apply in_or_app; cbn [In]; auto|exact E]).
  - intros x y. unfold weight_at2. rewrite !weight_where_app. cbn [weight_where]. destruct (Qeq_bool a x && Qeq_bool b y)%bool; rewrite <- ?V; ring.
Qed.
Definition point_in (u : units) (k : Q) (p p' : Q * Q * Q) : Prop := in_x u (fst (fst p)) (fst (fst p')) /\ in_y u (snd (fst p)) (snd (fst p')) /\ snd p' == k * snd p.
Lemma points_map u k s s' : positive_units u -> 0 < k -> Forall2 (point_in u k) s s' -> same_points u k s s'.
Proof.
  intros [UA UC] K F. split; [exact K|]. intros x x' y y' X Y. split.
  - split.
    + intros [a [b [w [I [E1 E2]]]]]. induction F as [|[[p q] v] [[p' q'] v'] l l' [F1 [F2 F3]] F IH]; [destruct I|]. cbn [fst snd] in *. destruct I as [I|I].
      * injection I as -> -> ->. exists p', q', v'. split; [left; reflexivity|]. split; [apply (aff_eq _ _ _ _ _ _ UA F1 X); exact E1|apply (aff_eq _ _ _ _ _ _ UC F2 Y); exact E2].
      * destruct (IH I) as [a' [b' [w' [I' E']]]]. exists a', b', w'. split; [right; exact I'|exact E'].
    + intros [a [b [w [I [E1 E2]]]]]. induction F as [|[[p q] v] [[p' q'] v'] l l' [F1 [F2 F3]] F IH]; [destruct I|]. cbn [fst snd] in *. destruct I as [I|I].
      * injection I as -> -> ->. exists p, q, v. split; [left; reflexivity|]. split; [apply (aff_eq _ _ _ _ _ _ UA F1 X); exact E1|apply (aff_eq _ _ _ _ _ _ UC F2 Y); exact E2].
      * destruct (IH I) as [a' [b' [w' [I' E']]]]. exists a', b', w'. split; [right; exact I'|exact E'].
  - unfold weight_at2. induction F as [|[[p q] v] [[p' q'] v'] l l' [F1 [F2 F3]] F IH]; cbn [weight_where]; [ring|]. rewrite IH. cbn [fst snd] in *.
    rewrite (eqb_aff _ _ _ _ _ _ UA F1 X), (eqb_aff _ _ _ _ _ _ UC F2 Y). destruct (Qeq_bool p x && Qeq_bool q y)%bool; [rewrite F3|]; ring.
Qed.
Lemma points_zip u k : forall x y w x' y' w', Forall2 (in_x u) x x' -> Forall2 (in_y u) y y' -> Forall2 (in_units k 0) w w' -> Forall2 (point_in u k) (combine (combine x y) w) (combine (combine x' y') w').
Proof.
  intros x y w x' y' w' X. revert y w y' w'. induction X as [|a a' x x' A X IH]; intros y w y' w' Y W; [constructor|]. destruct Y as [|b b' y y' B Y]; [constructor|]. destruct W as [|v v' w w' V W]; [constructor|].
  cbn [combine]. constructor; [|apply IH; assumption]. split; [exact A|]. split; [exact B|]. cbn [snd]. unfold in_units in V. rewrite V. ring.
Qed.
Lemma spread_none s : spread_out no_units s.
Proof. split; left; reflexivity. Qed.
Lemma points_ne c f px py s : frame_wf f -> (0 < f_rows f)%nat -> points c f px py s -> s <> [].
Proof.
  intros [_ WF] R [x [y [w [X [Y [W ->]]]]]] E. pose proof (WF _ _ (FrameFacts.f_get_In _ _ _ X)) as LX. pose proof (WF _ _ (FrameFacts.f_get_In _ _ _ Y)) as LY. pose proof (WF _ _ (FrameFacts.f_get_In _ _ _ W)) as LW.
  apply (f_equal (@length _)) in E. rewrite !combine_length in E. unfold qs in E. rewrite !map_length in E. cbn in E. unfold f_rows in R. lia.
Qed.
Lemma plane_rescaled u k c px py f f' s : positive_units u -> 0 < k -> frame_wf f -> (0 < f_rows f)%nat -> px <> py -> px <> ch_weight c -> py <> ch_weight c ->
  rescaled u k c px py f f' -> points c f px py s -> spread_out u s -> same_plane u k c f f' px py.
Proof.
  intros HU K WF R N1 N2 N3 [x [y [w [x' [y' [w' [X [Y [W [FX [FY [FW ->]]]]]]]]]]]] P SP. pose proof (points_ne _ _ _ _ _ WF R P) as NE. destruct P as [x0 [y0 [w0 [X0 [Y0 [W0 E]]]]]]. rewrite X in X0. rewrite Y in Y0. rewrite W in W0. injection X0 as <-. injection Y0 as <-. injection W0 as <-.
  destruct (set_shape f px x' x X) as [_ [A2 A3]]. assert (Y1 : f_get (f_set f px x') py = Some y) by (rewrite FrameFacts.f_get_set_other by congruence; exact Y).
  destruct (set_shape (f_set f px x') py y' y Y1) as [_ [B2 B3]]. assert (W1 : f_get (f_set (f_set f px x') py y') (ch_weight c) = Some w) by (rewrite !FrameFacts.f_get_set_other by congruence; exact W).
  destruct (set_shape (f_set (f_set f px x') py y') (ch_weight c) w' w W1) as [_ [C2 C3]]. split; [right; split; congruence|].
  exists s, (combine (combine (qs x') (qs y')) (qs w')). split; [exists x, y, w; auto|]. split.
  { exists x', y', w'. split; [rewrite !FrameFacts.f_get_set_other by congruence; apply FrameFacts.f_get_set_same|]. split; [rewrite FrameFacts.f_get_set_other by congruence; apply FrameFacts.f_get_set_same|]. split; [apply FrameFacts.f_get_set_same|reflexivity]. }
  split; [exact NE|]. split; [|exact SP]. subst s. apply points_map; [exact HU|exact K|]. apply points_zip; assumption.
Qed.
Lemma plane_reordered c px py f f' : frame_wf f -> (0 < f_rows f)%nat -> f_has f px = true -> f_has f py = true -> f_has f (ch_weight c) = true -> reordered f f' -> same_plane no_units 1 c f f' px py.
Proof.
  intros WF R HX HY HW O. apply f_has_some in HX as [x X]. apply f_has_some in HY as [y Y]. apply f_has_some in HW as [w W]. destruct (reordered_shape _ _ O) as [E1 E2]. split; [right; split; [exact E1|rewrite <- (map_length fst (f_cols f')), E2, map_length; reflexivity]|].
  destruct O as [q [Q0 E]]. pose proof (proj2 WF _ _ (FrameFacts.f_get_In _ _ _ X)) as LX. pose proof (proj2 WF _ _ (FrameFacts.f_get_In _ _ _ Y)) as LY. pose proof (proj2 WF _ _ (FrameFacts.f_get_In _ _ _ W)) as LW.
  assert (P : points c f px py (combine (combine (qs x) (qs y)) (qs w))) by (exists x, y, w; auto). eexists _, (combine (combine (qs (picked NaN q x)) (qs (picked NaN q y))) (qs (picked NaN q w))). split; [exact P|]. split.
  { exists (picked NaN q x), (picked NaN q y), (picked NaN q w). subst f'. unfold f_get in *. cbn [f_cols]. rewrite !(col_get_map (g := picked NaN q)), X, Y, W. auto. }
  split; [exact (points_ne _ _ _ _ _ WF R P)|]. split; [|apply spread_none]. apply points_perm.
  rewrite !qs_picked, combine_picked by (unfold qs; rewrite !map_length; congruence). rewrite combine_picked by (rewrite combine_length; unfold qs; rewrite !map_length; lia). symmetry. apply picked_perm. rewrite !combine_length. unfold qs. rewrite !map_length, LX, LY, LW, !Nat.min_id. exact Q0.
Qed.
Lemma plane_split c px py f f' i : frame_wf f -> ch_cfg c Fbins <> None -> f_has f px = true -> f_has f py = true -> f_has f (ch_weight c) = true -> px <> ch_weight c -> py <> ch_weight c ->
  row_split (ch_weight c) i f f' -> same_plane no_units 1 c f f' px py.
Proof.
  intros WF B HX HY HW N1 N2 [I [S1 S2]]. apply f_has_some in HX as [x X]. apply f_has_some in HY as [y Y]. apply f_has_some in HW as [w W]. split; [left; exact B|].
  pose proof (proj2 WF _ _ (FrameFacts.f_get_In _ _ _ X)) as LX. pose proof (proj2 WF _ _ (FrameFacts.f_get_In _ _ _ Y)) as LY. pose proof (proj2 WF _ _ (FrameFacts.f_get_In _ _ _ W)) as LW.
  destruct (S2 _ _ W) as [u [u' [W' U]]]. rewrite String.eqb_refl in U. destruct (S2 _ _ X) as [v [v' [X' V]]]. destruct (String.eqb_spec px (ch_weight c)) as [E|_]; [contradiction|]. destruct V as [-> ->]. destruct (S2 _ _ Y) as [z [z' [Y' V]]]. destruct (String.eqb_spec py (ch_weight c)) as [E|_]; [contradiction|]. destruct V as [-> ->].
  assert (P : points c f px py (combine (combine (qs x) (qs y)) (qs w))) by (exists x, y, w; auto). eexists _, _. split; [exact P|]. split; [eexists _, _, _; split; [exact X'|]; split; [exact Y'|]; split; [exact W'|reflexivity]|].
  split; [eapply points_ne; [exact WF| |exact P]; unfold f_rows in *; lia|]. split; [|apply spread_none].
  assert (LQ : forall l : list FrameModel.cell, length (qs l) = length l) by (intros l; apply map_length). assert (NQ : forall l, nth i (qs l) 0 = cell_q (nth i l NaN)) by (intros l; exact (map_nth cell_q l NaN i)). unfold f_rows in I.
  rewrite !qs_split, split_combine by (rewrite !LQ; lia). rewrite split_combine by (rewrite combine_length, !LQ; lia). unfold split_row. rewrite (split_at i ((0, 0), 0) (combine (combine (qs x) (qs y)) (qs w))) at 1 by (rewrite !combine_length, !LQ; lia).
  rewrite combine_nth by (rewrite combine_length, !LQ; lia). rewrite combine_nth by (rewrite !LQ; lia). rewrite !NQ. apply points_split. exact U.
Qed.
