(** Lists related by x' = a * x + b, and how the numeric primitives act on them. *)
From Coq Require Import QArith Qabs Qround List Arith ZArith Bool Lia Lqa.
From Verif Require Import Py NumSpec NumModel NumFacts HelpersModel MarginalModel.
Import ListNotations.
Open Scope Q_scope.

Definition aff (a b x x' : Q) : Prop := x' == a * x + b.
Definition lin (a b : Q) : list Q -> list Q -> Prop := Forall2 (aff a b).
Definition orel {A B} (R : A -> B -> Prop) (o : option A) (o' : option B) : Prop :=
  match o, o' with Some x, Some y => R x y | None, None => True | _, _ => False end.
Definition rrel {A B} (R : A -> B -> Prop) (r : res A) (r' : res B) : Prop :=
  match r, r' with Ok x, Ok y => R x y | Err e, Err e' => e = e' | _, _ => False end.

Lemma rrel_bind {A B C D} (R : A -> B -> Prop) (T : C -> D -> Prop) r r' k k' :
  rrel R r r' -> (forall x y, R x y -> rrel T (k x) (k' y)) -> rrel T (rbind r k) (rbind r' k').
Proof. destruct r, r'; cbn; intros H K; try contradiction; auto. Qed.
Lemma rrel_impl {A B} (R T : A -> B -> Prop) r r' : rrel R r r' -> (forall x y, R x y -> T x y) -> rrel T r r'.
Proof. destruct r, r'; cbn; auto. Qed.

(** ** Comparisons *)
Lemma aff_le a b x y x' y' : 0 < a -> aff a b x x' -> aff a b y y' -> (x' <= y' <-> x <= y).
Proof. unfold aff. intros A X Y. rewrite X, Y, <- (Qmult_le_l x y a A). split; lra. Qed.
Lemma aff_eq a b x y x' y' : 0 < a -> aff a b x x' -> aff a b y y' -> (x' == y' <-> x == y).
Proof.
  unfold aff. intros A X Y. rewrite X, Y. split; [|intros ->; reflexivity]. intros H. apply (Qmult_inj_l x y a); [|lra]. intros E. rewrite E in A. exact (Qlt_irrefl _ A).
Qed.
Lemma leb_aff a b x y x' y' : 0 < a -> aff a b x x' -> aff a b y y' -> Qle_bool x' y' = Qle_bool x y.
Proof. intros A X Y. apply eq_true_iff_eq. rewrite !Qle_bool_iff. eapply aff_le; eauto. Qed.
Lemma ltb_aff a b x y x' y' : 0 < a -> aff a b x x' -> aff a b y y' -> qltb x' y' = qltb x y.
Proof. intros A X Y. unfold qltb. f_equal. eapply leb_aff; eauto. Qed.
Lemma eqb_aff a b x y x' y' : 0 < a -> aff a b x x' -> aff a b y y' -> Qeq_bool x' y' = Qeq_bool x y.
Proof. intros A X Y. apply eq_true_iff_eq. rewrite !Qeq_bool_iff. eapply aff_eq; eauto. Qed.
Lemma aff0 a : aff a 0 0 0.
Proof. unfold aff. ring. Qed.
Lemma aff1 x : aff 1 0 x x.
Proof. unfold aff. ring. Qed.
Lemma eqb0_aff a x x' : 0 < a -> aff a 0 x x' -> Qeq_bool x' 0 = Qeq_bool x 0.
Proof. intros A X. eapply eqb_aff; eauto. apply aff0. Qed.
Lemma aff_max a b x y x' y' : 0 < a -> aff a b x x' -> aff a b y y' -> aff a b (qmax x y) (qmax x' y').
Proof. intros A X Y. unfold qmax. rewrite (leb_aff a b x y x' y') by assumption. destruct (Qle_bool x y); assumption. Qed.
Lemma aff_min a b x y x' y' : 0 < a -> aff a b x x' -> aff a b y y' -> aff a b (qmin x y) (qmin x' y').
Proof. intros A X Y. unfold qmin. rewrite (leb_aff a b x y x' y') by assumption. destruct (Qle_bool x y); assumption. Qed.

(** ** Lists *)
Lemma lin_length a b l l' : lin a b l l' -> length l' = length l.
Proof. intros H. symmetry. induction H; cbn; congruence. Qed.
Lemma lin_map {A} a b (f g : A -> Q) l : (forall i, In i l -> aff a b (f i) (g i)) -> lin a b (map f l) (map g l).
Proof. induction l as [|i l IH]; intros H; constructor; [apply H; left; reflexivity|apply IH; intros j J; apply H; right; exact J]. Qed.
Lemma lin_map2 a b c e (f g : Q -> Q) l l' : lin a b l l' -> (forall x x', In x l -> aff a b x x' -> aff c e (f x) (g x')) -> lin c e (map f l) (map g l').
Proof. induction 1 as [|x x' l l' X L IH]; intros H; constructor; [apply H; [left; reflexivity|exact X]|apply IH; intros y y' I; apply H; right; exact I]. Qed.
Lemma lin_app a b l l' m m' : lin a b l l' -> lin a b m m' -> lin a b (l ++ m) (l' ++ m').
Proof. apply Forall2_app. Qed.
Lemma lin_rev a b l l' : lin a b l l' -> lin a b (rev l) (rev l').
Proof. induction 1; cbn; [constructor|]. apply lin_app; [assumption|]. repeat constructor. assumption. Qed.
Lemma lin_nth a b l l' i : lin a b l l' -> (i < length l)%nat -> aff a b (nth i l 0) (nth i l' 0).
Proof. intros H. revert i. induction H as [|x x' l l' X L IH]; intros i I; [cbn in I; lia|]. destruct i; cbn; [exact X|]. apply IH. cbn in I. lia. Qed.
Lemma lin_nth0 a l l' i : lin a 0 l l' -> aff a 0 (nth i l 0) (nth i l' 0).
Proof.
  intros H. destruct (Nat.lt_ge_cases i (length l)) as [I|I]; [apply lin_nth; assumption|]. rewrite !nth_overflow; [apply aff0|rewrite (lin_length _ _ _ _ H); exact I|exact I].
Qed.
Lemma lin_hd a b l l' : lin a b l l' -> l <> [] -> aff a b (hd 0 l) (hd 0 l').
Proof. intros [|x x' m m' X L] N; [congruence|exact X]. Qed.
Lemma lin_hd0 a l l' : lin a 0 l l' -> aff a 0 (hd 0 l) (hd 0 l').
Proof. intros [|x x' m m' X L]; [apply aff0|exact X]. Qed.
Lemma lin_tl a b l l' : lin a b l l' -> lin a b (tl l) (tl l').
Proof. intros [|x x' m m' X L]; [constructor|exact L]. Qed.
Lemma lin_last a b l l' d d' : lin a b l l' -> aff a b d d' -> aff a b (last l d) (last l' d').
Proof.
  intros H D. induction H as [|x x' l l' X L IH]; [exact D|]. destruct L as [|y y' l l' Y L]; [exact X|]. exact IH.
Qed.
Lemma lin_last_any a b l l' d d' : lin a b l l' -> l <> [] -> aff a b (last l d) (last l' d').
Proof.
  intros H N. induction H as [|x x' l l' X L IH]; [congruence|]. destruct L as [|y y' l l' Y L]; [exact X|]. apply IH. discriminate.
Qed.
Lemma lin_removelast a b l l' : lin a b l l' -> lin a b (removelast l) (removelast l').
Proof. induction 1 as [|x x' l l' X L IH]; [constructor|]. destruct L as [|y y' l l' Y L]; [constructor|]. constructor; [exact X|exact IH]. Qed.
Lemma lin_firstn a b n l l' : lin a b l l' -> lin a b (firstn n l) (firstn n l').
Proof. intros H. revert n. induction H; intros [|n]; cbn; constructor; [assumption|]. apply IHForall2. Qed.
Lemma lin_skipn a b n l l' : lin a b l l' -> lin a b (skipn n l) (skipn n l').
Proof. intros H. revert n. induction H; intros [|n]; cbn; try constructor; try assumption. apply IHForall2. Qed.
Lemma lin_repeat a b x x' n : aff a b x x' -> lin a b (repeat x n) (repeat x' n).
Proof. intros H. induction n; constructor; assumption. Qed.
Lemma lin_refl l : lin 1 0 l l.
Proof. induction l; constructor; [apply aff1|assumption]. Qed.

Lemma qsum_lin a l l' : lin a 0 l l' -> aff a 0 (qsum l) (qsum l').
Proof. unfold aff. induction 1 as [|x x' l l' X L IH]; cbn [qsum]; [ring|]. unfold aff in X. rewrite X, IH. ring. Qed.
Lemma cumsum_from_lin a acc acc' l l' : lin a 0 l l' -> aff a 0 acc acc' -> lin a 0 (cumsum_from acc l) (cumsum_from acc' l').
Proof.
  intros H. revert acc acc'. induction H as [|x x' l l' X L IH]; intros acc acc' C; cbn; constructor; [|apply IH]; unfold aff in *; rewrite X, C; ring.
Qed.
Lemma cumsum_lin a l l' : lin a 0 l l' -> lin a 0 (cumsum l) (cumsum l').
Proof. intros H. apply cumsum_from_lin; [exact H|apply aff0]. Qed.
Lemma qmax_list_lin a b d d' l l' : 0 < a -> lin a b l l' -> aff a b d d' -> aff a b (qmax_list d l) (qmax_list d' l').
Proof. intros A H. revert d d'. induction H; intros d d' D; cbn; [exact D|]. apply IHForall2. apply aff_max; assumption. Qed.
Lemma qmin_list_lin a b d d' l l' : 0 < a -> lin a b l l' -> aff a b d d' -> aff a b (qmin_list d l) (qmin_list d' l').
Proof. intros A H. revert d d'. induction H; intros d d' D; cbn; [exact D|]. apply IHForall2. apply aff_min; assumption. Qed.
Lemma linspace_lin a b x y x' y' n : aff a b x x' -> aff a b y y' -> lin a b (linspace x y n) (linspace x' y' n).
Proof.
  intros X Y. destruct n as [|[|n]]; [constructor|repeat constructor; exact X|]. unfold linspace. apply lin_map. intros i _. unfold aff in *. rewrite X, Y. unfold Qdiv. ring.
Qed.
Lemma argmax_from_lin a b best best' bi i l l' : 0 < a -> lin a b l l' -> aff a b best best' -> argmax_from best' bi i l' = argmax_from best bi i l.
Proof.
  intros A H. revert best best' bi i. induction H as [|x x' l l' X L IH]; intros best best' bi i B; [reflexivity|]. cbn. rewrite (ltb_aff a b best x best' x') by assumption. destruct (qltb best x); apply IH; assumption.
Qed.
Lemma argmax_lin a b l l' : 0 < a -> lin a b l l' -> argmax l' = argmax l.
Proof. intros A [|x x' m m' X L]; [reflexivity|]. cbn. eapply argmax_from_lin; eauto. Qed.
Lemma searchsorted_lin a b l l' v v' : 0 < a -> lin a b l l' -> aff a b v v' -> searchsorted l' v' = searchsorted l v.
Proof. intros A H V. induction H as [|x x' l l' X L IH]; [reflexivity|]. cbn. rewrite (leb_aff a b v x v' x') by assumption. destruct (Qle_bool v x); congruence. Qed.
Lemma first_lt_lin a b l l' v v' : 0 < a -> lin a b l l' -> aff a b v v' -> first_lt l' v' = first_lt l v.
Proof. intros A H V. induction H as [|x x' l l' X L IH]; [reflexivity|]. cbn. rewrite (ltb_aff a b x v x' v') by assumption. destruct (qltb x v); congruence. Qed.
Lemma first_gt_lin a b l l' v v' : 0 < a -> lin a b l l' -> aff a b v v' -> first_gt l' v' = first_gt l v.
Proof. intros A H V. induction H as [|x x' l l' X L IH]; [reflexivity|]. cbn. rewrite (ltb_aff a b v x v' x') by assumption. destruct (qltb v x); congruence. Qed.

(** ** Interpolation: positions scale with (a, b), values with (c, e) *)
Lemma div_scaled a x y : 0 < a -> (a * x) / (a * y) == x / y.
Proof.
  intros A. destruct (Qeq_dec y 0) as [E|E]; [rewrite E; unfold Qdiv; rewrite Qmult_0_r; change (/ 0) with 0; ring|]. field. split; [exact E|]. intros K. rewrite K in A. exact (Qlt_irrefl _ A).
Qed.
Definition paff (a b c e : Q) (p p' : Q * Q) : Prop := aff a b (fst p) (fst p') /\ aff c e (snd p) (snd p').
Lemma combine_lin a b c e l l' m m' : lin a b l l' -> lin c e m m' -> Forall2 (paff a b c e) (combine l m) (combine l' m').
Proof. intros H. revert m m'. induction H as [|x x' l l' X L IH]; intros m m' M; [constructor|]. destruct M; cbn; constructor; [split; assumption|]. apply IH. assumption. Qed.
Lemma interp_scan_lin a b c e x x' x0 x0' y0 y0' pts pts' : 0 < a -> Forall2 (paff a b c e) pts pts' -> aff a b x x' -> aff a b x0 x0' -> aff c e y0 y0' ->
  aff c e (interp_scan x x0 y0 pts) (interp_scan x' x0' y0' pts').
Proof.
  intros A H X. revert x0 x0' y0 y0'. induction H as [|[x1 y1] [x1' y1'] pts pts' [H1 H2] H IH]; intros x0 x0' y0 y0' X0 Y0; [exact Y0|]. cbn [fst snd interp_scan] in *.
  rewrite (leb_aff a b x1 x x1' x'), (eqb_aff a b x0 x x0' x') by assumption. destruct (Qle_bool x1 x); [apply IH; assumption|]. destruct (Qeq_bool x0 x); [exact Y0|].
  unfold aff in *. assert (E1 : x1' - x0' == a * (x1 - x0)) by (rewrite H1, X0; ring). assert (E2 : x' - x0' == a * (x - x0)) by (rewrite X, X0; ring). assert (E3 : y1' - y0' == c * (y1 - y0)) by (rewrite H2, Y0; ring).
  rewrite E1, E2, E3, Y0. set (k := y1 - y0). set (u := x - x0). set (v := x1 - x0). assert (E4 : c * k / (a * v) * (a * u) == c * k * ((a * u) / (a * v))) by (unfold Qdiv; ring). rewrite E4, (div_scaled a u v A). unfold Qdiv. ring.
Qed.
Lemma np_interp_lin a b c e x x' xp xp' fp fp' l l' r r' : 0 < a -> lin a b xp xp' -> lin c e fp fp' -> aff a b x x' -> aff c e l l' -> aff c e r r' ->
  aff c e (np_interp x xp fp l r) (np_interp x' xp' fp' l' r').
Proof.
  intros A H F X L R. unfold np_interp. destruct H as [|x0 x0' xp xp' X0 H]; [exact L|]. destruct F as [|y0 y0' fp fp' Y0 F]; [exact L|]. cbn [combine].
  rewrite (ltb_aff a b x x0 x' x0') by assumption. destruct (qltb x x0); [exact L|].
  rewrite (ltb_aff a b (last (x0 :: xp) x0) x (last (x0' :: xp') x0') x'); [|assumption|apply lin_last; [constructor; assumption|assumption]|assumption]. destruct (qltb _ x); [exact R|].
  apply (interp_scan_lin a b c e); try assumption. apply combine_lin; assumption.
Qed.
Lemma interp1d_lin a b c e x x' xp xp' fp fp' : 0 < a -> lin a b xp xp' -> lin c e fp fp' -> (fp <> [] \/ e == 0) -> aff a b x x' ->
  orel (aff c e) (interp1d xp fp x) (interp1d xp' fp' x').
Proof.
  intros A H F N X. unfold interp1d. destruct H as [|x0 x0' xp xp' X0 H]; [exact I|]. rewrite (ltb_aff a b x x0 x' x0') by assumption.
  rewrite (ltb_aff a b (last (x0 :: xp) x0) x (last (x0' :: xp') x0') x'); [|assumption|apply lin_last; [constructor; assumption|assumption]|assumption].
  destruct (qltb x x0) eqn:E1; [exact I|]. destruct (qltb (last (x0 :: xp) x0) x) eqn:E2; [exact I|]. cbn [orel orb].
  destruct N as [N|N]; [|apply (np_interp_lin a b); try assumption; try (constructor; assumption); unfold aff; rewrite N; ring].
  unfold np_interp. destruct F as [|y0 y0' fp fp' Y0 F]; [congruence|]. cbn [combine]. rewrite (ltb_aff a b x x0 x' x0'), E1 by assumption.
  rewrite (ltb_aff a b (last (x0 :: xp) x0) x (last (x0' :: xp') x0') x'), E2; [|assumption|apply lin_last; [constructor; assumption|assumption]|assumption].
  apply (interp_scan_lin a b c e); try assumption. apply combine_lin; assumption.
Qed.
Lemma opt_all_lin c e l l' : Forall2 (orel (aff c e)) l l' -> orel (lin c e) (opt_all l) (opt_all l').
Proof.
  induction 1 as [|[x|] [x'|] l l' X L IH]; cbn in *; try contradiction; try exact I; [constructor|]. destruct (opt_all l), (opt_all l'); cbn in *; try contradiction; try exact I. constructor; assumption.
Qed.

(** ** Smoothing *)
Lemma filter1d_lin s k l l' : lin s 0 l l' -> lin s 0 (filter1d k l) (filter1d k l').
Proof.
  intros H. unfold filter1d. cbv zeta. rewrite (lin_length _ _ _ _ H). apply lin_map. intros i _. apply qsum_lin. apply lin_map. intros j _.
  pose proof (lin_nth0 _ _ _ (reflect_index (length l) (Z.of_nat i + Z.of_nat j - Z.of_nat (Nat.div2 (length k)))) H) as E. unfold aff in *. rewrite E. ring.
Qed.

(** ** Histograms *)
Lemma bin_centers_lin a b e e' : lin a b e e' -> lin a b (bin_centers e) (bin_centers e').
Proof. induction 1 as [|x x' l l' X L IH]; [constructor|]. destruct L as [|y y' l l' Y L]; [constructor|]. cbn [bin_centers] in *. constructor; [|exact IH]. unfold aff in *. rewrite X, Y. ring. Qed.
Lemma bin_widths_lin a b e e' : lin a b e e' -> lin a 0 (bin_widths e) (bin_widths e').
Proof. induction 1 as [|x x' l l' X L IH]; [constructor|]. destruct L as [|y y' l l' Y L]; [constructor|]. cbn [bin_widths] in *. constructor; [|exact IH]. unfold aff in *. rewrite X, Y. ring. Qed.
Lemma hist_bins_lin a b k d d' e e' : (forall lo hi lo' hi' cl, aff a b lo lo' -> aff a b hi hi' -> aff k 0 (bin_weight lo hi cl d) (bin_weight lo' hi' cl d')) ->
  lin a b e e' -> lin k 0 (hist_bins e d) (hist_bins e' d').
Proof.
  intros H. induction 1 as [|x x' l l' X L IH]; [constructor|]. destruct L as [|y y' l l' Y L]; [constructor|]. cbn [hist_bins] in *. constructor; [|exact IH].
  replace (match l' with [] => true | _ :: _ => false end) with (match l with [] => true | _ :: _ => false end) by (destruct L; reflexivity). apply H; assumption.
Qed.

(** ** Simpson *)
Lemma simp_panel_lin a b s x0 x1 x2 y0 y1 y2 x0' x1' x2' y0' y1' y2' : 0 < a -> aff a b x0 x0' -> aff a b x1 x1' -> aff a b x2 x2' -> aff s 0 y0 y0' -> aff s 0 y1 y1' -> aff s 0 y2 y2' ->
  aff (a * s) 0 (simp_panel x0 x1 x2 y0 y1 y2) (simp_panel x0' x1' x2' y0' y1' y2').
Proof.
  unfold aff. intros A X0 X1 X2 Y0 Y1 Y2. unfold simp_panel. cbv zeta.
  assert (H0 : x1' - x0' == a * (x1 - x0)) by (rewrite X0, X1; ring). assert (H1 : x2' - x1' == a * (x2 - x1)) by (rewrite X2, X1; ring). rewrite H0, H1, Y0, Y1, Y2.
  set (h0 := x1 - x0). set (h1 := x2 - x1). rewrite (div_scaled a h0 h1 A).
  assert (E1 : a * h0 + a * h1 == a * (h0 + h1)) by ring. assert (E2 : a * h0 * (a * h1) == a * (a * (h0 * h1))) by ring. rewrite E1, E2, (div_scaled a (h0 + h1) _ A).
  assert (E3 : a * (h0 + h1) * ((h0 + h1) / (a * (h0 * h1))) == (h0 + h1) * ((a * (h0 + h1)) / (a * (h0 * h1)))) by (unfold Qdiv; ring). rewrite E3, (div_scaled a _ _ A). unfold Qdiv. ring.
Qed.
Lemma simp_corr_lin a b s x0 x1 x2 y0 y1 y2 x0' x1' x2' y0' y1' y2' : 0 < a -> aff a b x0 x0' -> aff a b x1 x1' -> aff a b x2 x2' -> aff s 0 y0 y0' -> aff s 0 y1 y1' -> aff s 0 y2 y2' ->
  aff (a * s) 0 (simp_corr x0 x1 x2 y0 y1 y2) (simp_corr x0' x1' x2' y0' y1' y2').
Proof.
  unfold aff. intros A X0 X1 X2 Y0 Y1 Y2. unfold simp_corr. cbv zeta.
  assert (H0 : x1' - x0' == a * (x1 - x0)) by (rewrite X0, X1; ring). assert (H1 : x2' - x1' == a * (x2 - x1)) by (rewrite X2, X1; ring). rewrite H0, H1, Y0, Y1, Y2.
  set (h0 := x1 - x0). set (h1 := x2 - x1).
  assert (E1 : (2 * (a * h1 * (a * h1)) + 3 * (a * h0) * (a * h1)) / (6 * (a * h1 + a * h0)) == a * ((2 * (h1 * h1) + 3 * h0 * h1) / (6 * (h1 + h0)))).
  { transitivity ((a * (a * (2 * (h1 * h1) + 3 * h0 * h1))) / (a * (6 * (h1 + h0)))); [|rewrite (div_scaled a _ _ A); unfold Qdiv; ring]. apply Qmult_comp; [ring|]. apply Qinv_comp. ring. }
  assert (E2 : (a * h1 * (a * h1) + 3 * (a * h0) * (a * h1)) / (6 * (a * h0)) == a * ((h1 * h1 + 3 * h0 * h1) / (6 * h0))).
  { transitivity ((a * (a * (h1 * h1 + 3 * h0 * h1))) / (a * (6 * h0))); [|rewrite (div_scaled a _ _ A); unfold Qdiv; ring]. apply Qmult_comp; [ring|]. apply Qinv_comp. ring. }
  assert (E3 : a * h1 * (a * h1) * (a * h1) / (6 * (a * h0) * (a * h0 + a * h1)) == a * (h1 * h1 * h1 / (6 * h0 * (h0 + h1)))).
  { transitivity ((a * (a * (a * (h1 * h1 * h1)))) / (a * (a * (6 * h0 * (h0 + h1))))); [|rewrite !(div_scaled a _ _ A); unfold Qdiv; ring]. apply Qmult_comp; [ring|]. apply Qinv_comp. ring. }
  rewrite E1, E2, E3. ring.
Qed.
Lemma basic_simpson_lin a b s x0 y0 x0' y0' pts pts' : 0 < a -> aff a b x0 x0' -> aff s 0 y0 y0' -> Forall2 (paff a b s 0) pts pts' ->
  aff (a * s) 0 (basic_simpson x0 y0 pts) (basic_simpson x0' y0' pts').
Proof.
  intros A. revert x0 y0 x0' y0' pts'. induction pts as [pts IH] using (well_founded_induction (Wf_nat.well_founded_ltof _ (@length (Q * Q)))). intros x0 y0 x0' y0' pts' X0 Y0 H.
  destruct H as [|[x1 y1] [x1' y1'] pts pts' [X1 Y1] H]; [cbn; unfold aff; ring|]. destruct H as [|[x2 y2] [x2' y2'] pts pts' [X2 Y2] H]; [cbn; unfold aff; ring|]. cbn [fst snd basic_simpson] in *.
  pose proof (simp_panel_lin a b s _ _ _ _ _ _ _ _ _ _ _ _ A X0 X1 X2 Y0 Y1 Y2) as E1.
  assert (E2 := IH pts ltac:(unfold Wf_nat.ltof; cbn; lia) _ _ _ _ _ X2 Y2 H). unfold aff in *. rewrite E1, E2. ring.
Qed.
Lemma simpson_lin a b s xs xs' ys ys' : 0 < a -> lin a b xs xs' -> lin s 0 ys ys' -> length xs = length ys -> aff (a * s) 0 (simpson xs ys) (simpson xs' ys').
Proof.
  intros A HX HY HL. unfold simpson. cbv zeta. rewrite (lin_length _ _ _ _ HY). pose proof (combine_lin _ _ _ _ _ _ _ _ HX HY) as HC. assert (LC : length (combine xs ys) = length ys) by (rewrite combine_length; lia).
  destruct HC as [|[x0 y0] [x0' y0'] r r' [X0 Y0] HC]; [apply aff0|]. cbn [fst snd] in *. cbn [length] in LC. rename LC into LR. destruct (Nat.odd (length ys)) eqn:OD; [apply (basic_simpson_lin a b); assumption|].
  assert (G : (4 <= length ys)%nat -> aff (a * s) 0 (basic_simpson x0 y0 (removelast r) + simp_corr (nth (length ys - 3) xs 0) (nth (length ys - 2) xs 0) (nth (length ys - 1) xs 0) (nth (length ys - 3) ys 0) (nth (length ys - 2) ys 0) (nth (length ys - 1) ys 0))
      (basic_simpson x0' y0' (removelast r') + simp_corr (nth (length ys - 3) xs' 0) (nth (length ys - 2) xs' 0) (nth (length ys - 1) xs' 0) (nth (length ys - 3) ys' 0) (nth (length ys - 2) ys' 0) (nth (length ys - 1) ys' 0))).
  { intros L4. assert (RL : Forall2 (paff a b s 0) (removelast r) (removelast r')). { clear -HC. induction HC as [|p p' l l' P L IH]; [constructor|]. destruct L; [constructor|]. constructor; assumption. }
    pose proof (basic_simpson_lin a b s _ _ _ _ _ _ A X0 Y0 RL) as E1.
    assert (E2 := simp_corr_lin a b s (nth (length ys - 3) xs 0) (nth (length ys - 2) xs 0) (nth (length ys - 1) xs 0) (nth (length ys - 3) ys 0) (nth (length ys - 2) ys 0) (nth (length ys - 1) ys 0)
      (nth (length ys - 3) xs' 0) (nth (length ys - 2) xs' 0) (nth (length ys - 1) xs' 0) (nth (length ys - 3) ys' 0) (nth (length ys - 2) ys' 0) (nth (length ys - 1) ys' 0) A
      ltac:(apply lin_nth; [exact HX|lia]) ltac:(apply lin_nth; [exact HX|lia]) ltac:(apply lin_nth; [exact HX|lia]) ltac:(apply lin_nth0; exact HY) ltac:(apply lin_nth0; exact HY) ltac:(apply lin_nth0; exact HY)).
    unfold aff in *. rewrite E1, E2. ring. }
  destruct HC as [|[x1 y1] [x1' y1'] r r' [X1 Y1] HC]; cbn [length] in LR; [destruct (length ys) as [|[|]]; cbn in *; lia|]. cbn [fst snd] in *.
  destruct HC as [|p p' r r' P HC]; [unfold aff in *; rewrite X0, X1, Y0, Y1; ring|]. apply G. cbn [length] in LR. destruct (length ys) as [|[|[|[|]]]]; cbn in *; try lia; discriminate.
Qed.
