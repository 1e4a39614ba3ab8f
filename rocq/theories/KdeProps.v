(** C54: kernel density estimates. *)
From Coq Require Import List Bool Arith QArith Reals Qreals Permutation Sorted Lra Lia.
From Verif Require Import Py ConfigModel AnalysisModel SurfaceModel KdeModel KdeSpec KdeProofs KdeUnits.
Import ListNotations.
Open Scope list_scope.
Open Scope R_scope.

Lemma kde_factor_number k : kde_on k = true -> Q2R (kde_factor k) = kde_number k.
Proof. destruct k as [[|]|q]; cbn; intros H; [unfold Q2R; cbn; field|discriminate|reflexivity]. Qed.
Lemma kde_value_number k : Q2R (kde_value k) = kde_number k.
Proof. destruct k as [[|]|q]; cbn; [unfold Q2R; cbn; field|unfold Q2R; cbn; field|reflexivity]. Qed.
Lemma kde_nonzero k : kde_on k = true -> kde_number k <> 0.
Proof.
  destruct k as [[|]|q]; cbn; intros H; [lra|discriminate|]. intros E. apply (f_equal (fun b : bool => b)) in H. rewrite negb_true_iff in H. apply Qeq_bool_neq in H. apply H. apply eqR_Qeq. rewrite E. unfold Q2R. cbn. field.
Qed.

(** In one dimension, wherever the estimate is used for summaries and marginals, the kernel width is the rule of thumb
    times the chain's kde setting, and points further than three widths away do not count. *)
Theorem C54_marginal : forall nearest data w k xs vs, finds_nearest nearest -> kde_on k = true -> kde_marginal nearest data w k xs = Ok vs ->
  let d := combine w data in let width := width_for (kde_number k) (length data) 1 in estimates (away1 d) width (width * 3) d xs vs.
Proof. intros nearest data w k xs vs NB K H d width. unfold kde_marginal in H. apply (kde1_ok _ _ _ _ _ _ _ NB) in H. destruct H as [_ [_ [_ H]]]. rewrite (kde_factor_number k K) in H. exact H. Qed.
Print Assumptions C54_marginal.
(** In two dimensions, and in plot_dist, the kernel width is the rule of thumb alone, whatever the kde setting: the
    setting is the number of widths beyond which points do not count. *)
Theorem C54_surface_partial : forall nearest data w k ts vs, finds_nearest nearest -> kde_surface nearest data w k ts = Ok vs ->
  let d := combine w data in let width := width_for 1 (length data) 2 in estimates (away2 d) width (width * kde_number k) d ts vs.
Proof. intros nearest data w k ts vs NB H d width. unfold kde_surface in H. apply (kde2_ok _ _ _ _ _ _ _ NB) in H. destruct H as [_ [_ [_ H]]]. rewrite (kde_value_number k) in H. exact H. Qed.
Print Assumptions C54_surface_partial.
Theorem C54_dist_partial : forall nearest data w k xs vs, finds_nearest nearest -> kde_dist nearest data w k xs = Ok vs ->
  let d := combine w data in let width := width_for 1 (length data) 1 in estimates (away1 d) width (width * kde_number k) d xs vs.
Proof. intros nearest data w k xs vs NB H d width. unfold kde_dist in H. apply (kde1_ok _ _ _ _ _ _ _ NB) in H. destruct H as [_ [_ [_ H]]]. rewrite (kde_value_number k) in H. exact H. Qed.
Print Assumptions C54_dist_partial.

(** The estimate exists for at least four positively weighted points that are spread out. *)
Theorem C54_exists : forall nearest data w k xs, length w = length data -> (4 <= length data)%nat -> (forall v, In v w -> 0 < v) -> (exists x y, In x data /\ In y data /\ x <> y) ->
  kde_on k = true -> (exists vs, kde_marginal nearest data w k xs = Ok vs) /\ (exists vs, kde_dist nearest data w k xs = Ok vs).
Proof.
  intros nearest data w k xs E L H [x [y [Hx [Hy D]]]] K. split.
  - apply (kde1_total nearest data w _ _ _ x y); try assumption. rewrite (kde_factor_number k K). apply kde_nonzero. exact K.
  - apply (kde1_total nearest data w _ _ _ x y); try assumption. lra.
Qed.
Print Assumptions C54_exists.
Theorem C54_exists_surface : forall nearest (data : list (R * R)) w k ts, let d := combine w data in length w = length data -> (4 <= length data)%nat -> (forall v, In v w -> 0 < v) ->
  covariance fst fst d * covariance snd snd d <> covariance fst snd d * covariance fst snd d -> exists vs, kde_surface nearest data w k ts = Ok vs.
Proof. intros nearest data w k ts d E L H D. apply (kde2_total nearest data w); try assumption. lra. Qed.
Print Assumptions C54_exists_surface.

Lemma estimate_nonneg {A} (away : A -> R) width reach w (data : list A) v : (forall u, In u w -> 0 <= u) -> estimate away width reach (combine w data) v -> 0 <= v.
Proof.
  intros H [chosen [_ ->]]. apply total_nonneg. intros i _. destruct (nth_error _ i) as [p|] eqn:E; [|lra]. apply nth_error_In, combine_in in E as [E _]. apply Rmult_le_pos; [apply H; exact E|apply Rlt_le, exp_pos].
Qed.
Lemma estimate_pos {A} (away : A -> R) width reach w (data : list A) v : (forall u, In u w -> 0 < u) -> estimate away width reach (combine w data) v -> 0 < v.
Proof.
  intros H [chosen [C ->]]. destruct C as [C1 [C2 C3]]. apply total_pos; [destruct C3 as [[C3 _]|[C3 _]]; intros ->; cbn in C3; lia|]. intros i Hi. destruct (nth_error _ i) as [p|] eqn:E; [|apply nth_error_None in E; specialize (C2 i Hi); lia].
  apply nth_error_In, combine_in in E as [E _]. apply Rmult_lt_0_compat; [apply H; exact E|apply exp_pos].
Qed.
Lemma F2_len {A B} (P : A -> B -> Prop) l l' : Forall2 P l l' -> length l = length l'.
Proof. induction 1; cbn; congruence. Qed.
Lemma F2_forall {A B} (P : A -> B -> Prop) (Q : B -> Prop) l l' : Forall2 P l l' -> (forall a b, P a b -> Q b) -> forall b, In b l' -> Q b.
Proof. intros F H. induction F; intros z Hz; [destruct Hz|]. destruct Hz as [<-|Hz]; [eapply H; eassumption|apply IHF; exact Hz]. Qed.
(** One value per target, none negative; positive if the weights are. *)
Theorem C54_values : forall nearest data w k xs vs, finds_nearest nearest -> kde_marginal nearest data w k xs = Ok vs \/ kde_dist nearest data w k xs = Ok vs ->
  length vs = length xs /\ (forall v, In v vs -> 0 <= v) /\ ((forall u, In u w -> 0 < u) -> forall v, In v vs -> 0 < v).
Proof.
  intros nearest data w k xs vs NB H. unfold kde_marginal, kde_dist in H. assert (G : exists width reach, (forall v, In v w -> 0 <= v) /\ estimates (away1 (combine w data)) width reach (combine w data) xs vs) by (destruct H as [H|H]; apply (kde1_ok _ _ _ _ _ _ _ NB) in H; destruct H as [_ [H1 [_ H2]]]; eauto).
  destruct G as [width [reach [G1 G2]]]. split; [symmetry; exact (F2_len _ _ _ G2)|]. split.
  - apply (F2_forall _ _ _ _ G2). intros a b. apply estimate_nonneg. exact G1.
  - intros P. apply (F2_forall _ _ _ _ G2). intros a b. apply estimate_pos. exact P.
Qed.
Print Assumptions C54_values.
Theorem C54_values_surface : forall nearest data w k ts vs, finds_nearest nearest -> kde_surface nearest data w k ts = Ok vs ->
  length vs = length ts /\ (forall v, In v vs -> 0 <= v) /\ ((forall u, In u w -> 0 < u) -> forall v, In v vs -> 0 < v).
Proof.
  intros nearest data w k ts vs NB H. unfold kde_surface in H. apply (kde2_ok _ _ _ _ _ _ _ NB) in H. destruct H as [_ [G1 [_ G2]]]. split; [symmetry; exact (F2_len _ _ _ G2)|]. split.
  - apply (F2_forall _ _ _ _ G2). intros a b. apply estimate_nonneg. exact G1.
  - intros P. apply (F2_forall _ _ _ _ G2). intros a b. apply estimate_pos. exact P.
Qed.
Print Assumptions C54_values_surface.
(** Scaling all weights scales all values. *)
Theorem C54_weights : forall nearest c data w k xs, 0 < c ->
  kde_marginal nearest data (map (Rmult c) w) k xs = rmap (map (Rmult c)) (kde_marginal nearest data w k xs) /\ kde_dist nearest data (map (Rmult c) w) k xs = rmap (map (Rmult c)) (kde_dist nearest data w k xs).
Proof. intros. split; apply megkde_scaled; assumption. Qed.
Print Assumptions C54_weights.
Theorem C54_weights_surface : forall nearest c data w k ts, 0 < c -> kde_surface nearest data (map (Rmult c) w) k ts = rmap (map (Rmult c)) (kde_surface nearest data w k ts).
Proof. intros. apply megkde_scaled. assumption. Qed.
Print Assumptions C54_weights_surface.
(** Units do not matter: moving and stretching the parameters, and the targets with them, leaves all values as they are. *)
Theorem C54_units : forall nearest a b data w k xs, 0 < a -> let move := map (fun x => a * x + b) in
  kde_marginal nearest (move data) w k (move xs) = kde_marginal nearest data w k xs /\ kde_dist nearest (move data) w k (move xs) = kde_dist nearest data w k xs.
Proof. intros nearest a b data w k xs H move. unfold kde_marginal, kde_dist, move. rewrite !map_map. split; apply kde1_units; exact H. Qed.
Print Assumptions C54_units.
Theorem C54_units_surface : forall nearest a b a' b' data w k ts, 0 < a -> 0 < a' -> let move := map (fun p : R * R => (a * fst p + b, a' * snd p + b')) in
  kde_surface nearest (move data) w k (move ts) = kde_surface nearest data w k ts.
Proof. intros nearest a b a' b' data w k ts H H' move. unfold kde_surface, move. rewrite !map_map. cbn [fst snd]. apply (kde2_units nearest data w _ _ ts a b a' b' H H'). Qed.
Print Assumptions C54_units_surface.

(** ** The tree can exist *)
Definition far (x t : list R) : R := total (fun p => (fst p - snd p) * (fst p - snd p)) (combine x t).
Fixpoint place (f : nat -> R) (i : nat) (l : list nat) : list nat := match l with [] => [i] | j :: r => if rle (f i) (f j) then i :: l else j :: place f i r end.
Definition by_distance (f : nat -> R) (l : list nat) : list nat := fold_right (place f) [] l.
Definition closest (d : list (list R)) (t : list R) (k : nat) : list nat := firstn k (by_distance (fun i => far (nth i d []) t) (seq 0 (length d))).
Lemma place_perm (f : nat -> R) i l : Permutation (i :: l) (place f i l).
Proof. induction l as [|j l IH]; cbn; [reflexivity|]. destruct (rle _ _); [reflexivity|]. rewrite perm_swap. constructor. exact IH. Qed.
Lemma by_distance_perm (f : nat -> R) l : Permutation l (by_distance f l).
Proof. induction l as [|i l IH]; cbn; [constructor|]. rewrite <- place_perm. constructor. exact IH. Qed.
Lemma place_sorted (f : nat -> R) i l : StronglySorted (fun a b => f a <= f b) l -> StronglySorted (fun a b => f a <= f b) (place f i l).
Proof.
  induction l as [|j l IH]; intros S; cbn; [repeat constructor|]. inversion S as [|? ? S1 S2]; subst. destruct (rle (f i) (f j)) eqn:E.
  - apply rle_true in E. constructor; [exact S|]. constructor; [exact E|]. eapply Forall_impl; [|exact S2]. intros a Ha. cbn in Ha. lra.
  - apply rle_false in E. constructor; [apply IH; exact S1|]. rewrite Forall_forall in *. intros a Ha. apply (Permutation_in _ (Permutation_sym (place_perm f i l))) in Ha. destruct Ha as [<-|Ha]; [lra|apply S2; exact Ha].
Qed.
Lemma by_distance_sorted (f : nat -> R) l : StronglySorted (fun a b => f a <= f b) (by_distance f l).
Proof. induction l; cbn; [constructor|]. apply place_sorted. exact IHl. Qed.
Lemma sorted_split (f : nat -> R) l k i j : StronglySorted (fun a b => f a <= f b) l -> In i (firstn k l) -> In j (skipn k l) -> f i <= f j.
Proof.
  revert k. induction l as [|a l IH]; intros k S Hi Hj; [destruct k; destruct Hi|]. destruct k; [destruct Hi|]. cbn in Hi, Hj. inversion S as [|? ? S1 S2]; subst. destruct Hi as [<-|Hi]; [|eapply IH; eassumption]. rewrite Forall_forall in S2. apply S2. rewrite <- (firstn_skipn k l). apply in_or_app. right. exact Hj.
Qed.
Lemma nodup_front {A} (l r : list A) : NoDup (l ++ r) -> NoDup l.
Proof. induction l as [|a l IH]; cbn; intros H; [constructor|]. inversion H; subst. constructor; [intros K; apply H2; apply in_or_app; left; exact K|apply IH; assumption]. Qed.
Lemma closest_ok : finds_nearest closest.
Proof.
  unfold finds_nearest. cbv zeta. intros d t k L. set (l := closest d t k). set (f := fun i => far (nth i d []) t). pose proof (by_distance_perm f (seq 0 (length d))) as P. pose proof (by_distance_sorted f (seq 0 (length d))) as S. set (o := by_distance f (seq 0 (length d))) in *. change l with (firstn k o).
  assert (ND : NoDup o) by (apply (Permutation_NoDup P), seq_NoDup). assert (LO : length o = length d) by (rewrite <- (Permutation_length P), seq_length; reflexivity).
  split; [rewrite <- (firstn_skipn k o) in ND; eapply nodup_front; exact ND|]. split; [rewrite firstn_length; lia|]. split.
  - intros i Hi. assert (H : In i o) by (rewrite <- (firstn_skipn k o); apply in_or_app; left; exact Hi). apply (Permutation_in _ (Permutation_sym P)) in H. apply in_seq in H. lia.
  - intros i j Hi Hj Lj. apply (sorted_split f o k i j S Hi). assert (H : In j o) by (apply (Permutation_in _ P), in_seq; lia). rewrite <- (firstn_skipn k o) in H. apply in_app_or in H as [H|H]; [contradiction|exact H].
Qed.

(** ** The kde setting in two dimensions *)
Lemma total_perm {A} (f : A -> R) l l' : Permutation l l' -> total f l = total f l'.
Proof. induction 1; cbn; lra. Qed.
Lemma total_seq {A} (f : option A -> R) (d : list A) : total (fun i => f (nth_error d i)) (seq 0 (length d)) = total (fun p => f (Some p)) d.
Proof. induction d as [|a d IH]; [reflexivity|]. cbn [length seq total nth_error]. f_equal. rewrite <- seq_shift, total_map. exact IH. Qed.
Lemma estimate_all {A} (away : A -> R) width reach (d : list (R * A)) v : (4 <= length d)%nat -> (forall p, In p d -> away (snd p) <= reach * reach) -> estimate away width reach d v ->
  v = total (fun p => fst p * exp (- (away (snd p) / (2 * (width * width))))) d.
Proof.
  intros L H [chosen [[C1 [C2 C3]] ->]]. assert (IN : forall i, (i < length d)%nat -> exists p, nth_error d i = Some p /\ away (snd p) <= reach * reach).
  { intros i Hi. destruct (nth_error d i) as [p|] eqn:E; [|apply nth_error_None in E; lia]. exists p. split; [reflexivity|]. apply H. eapply nth_error_In. exact E. }
  assert (P : Permutation chosen (seq 0 (length d))).
  { destruct C3 as [[_ C3]|[_ [C3 _]]].
    - apply NoDup_Permutation; [exact C1|apply seq_NoDup|]. intros i. rewrite C3, in_seq. split; [intros [p [Hp _]]; assert (i < length d)%nat by (apply nth_error_Some; congruence); lia|]. intros Hi. apply IN. lia.
    - exfalso. specialize (C3 (seq 0 (length d)) (seq_NoDup _ _)). rewrite seq_length in C3. assert (length d < 4)%nat; [|lia]. apply C3. intros i Hi. apply IN. apply in_seq in Hi. lia. }
  rewrite (total_perm _ _ _ P). rewrite (total_seq (fun o => match o with Some p => fst p * exp (- (away (snd p) / (2 * (width * width)))) | None => 0 end) d). reflexivity.
Qed.
(** Settings that reach all the points give the same values: the kernel does not get wider. *)
Theorem C54_surface_setting_ignored : forall nearest data w k1 k2 ts v1 v2, finds_nearest nearest -> let d := combine w data in let width := width_for 1 (length data) 2 in (4 <= length data)%nat ->
  (forall k t x, k = k1 \/ k = k2 -> In t ts -> In x data -> away2 d t x <= (width * kde_number k) * (width * kde_number k)) ->
  kde_surface nearest data w k1 ts = Ok v1 -> kde_surface nearest data w k2 ts = Ok v2 -> v1 = v2.
Proof.
  intros nearest data w k1 k2 ts v1 v2 NB d width L H H1 H2. assert (EL : length w = length data) by (unfold kde_surface in H1; apply (kde2_ok _ _ _ _ _ _ _ NB) in H1; exact (proj1 H1)).
  apply (C54_surface_partial _ _ _ _ _ _ NB) in H1. apply (C54_surface_partial _ _ _ _ _ _ NB) in H2. cbv zeta in H1, H2. fold d in H1, H2. fold width in H1, H2. assert (LD : (4 <= length d)%nat) by (unfold d; rewrite combine_length; lia).
  revert v2 H2. induction H1 as [|t v ts v1 P1 F1 IH]; intros v2 H2; inversion H2 as [|? v' ? v2' P2 F2]; subst; [reflexivity|]. f_equal.
  - apply estimate_all in P1; [|exact LD|intros p Hp; apply H; [left; reflexivity|left; reflexivity|apply combine_in in Hp; apply Hp]]. apply estimate_all in P2; [|exact LD|intros p Hp; apply H; [right; reflexivity|left; reflexivity|apply combine_in in Hp; apply Hp]]. congruence.
  - apply IH; [|exact F2]. intros k t' x Hk Ht Hx. apply H; [exact Hk|right; exact Ht|exact Hx].
Qed.
Print Assumptions C54_surface_setting_ignored.

(** Five points: the corners of a square and its centre. *)
Definition square : list (R * R) := [(1, 1); (1, -1); (-1, 1); (-1, -1); (0, 0)].
Definition ones : list R := [1; 1; 1; 1; 1].
Lemma ones_pos v : In v ones -> 0 < v. Proof. cbn. intuition lra. Qed.
Lemma square_covs : let d := combine ones square in covariance fst fst d = 1 /\ covariance snd snd d = 1 /\ covariance fst snd d = 0.
Proof. unfold covariance, mean_of, W. cbn [combine ones square total fst snd]. repeat split; field. Qed.
Lemma square_away t x : away2 (combine ones square) t x = (fst x - fst t) * (fst x - fst t) + (snd x - snd t) * (snd x - snd t).
Proof. unfold away2. cbv zeta. destruct square_covs as [-> [-> ->]]. field. Qed.
Lemma fifth_root n : (n = 5)%nat -> let p := Rpower (INR n) (- (1 / (4 + INR 2))) in 0 < p /\ p * p * (p * p) * (p * p) = / 5.
Proof.
  intros -> p. split; [apply exp_pos|]. unfold p. rewrite <- !Rpower_plus. replace (_ + _ + _) with (- (1)) by (cbn; field). rewrite Rpower_Ropp, Rpower_1 by (cbn; lra). cbn. f_equal. ring.
Qed.
Lemma square_width c : 1 <= c -> 2 <= (width_for 1 5 2 * c) * (width_for 1 5 2 * c).
Proof.
  intros H. unfold width_for. destruct (fifth_root 5 eq_refl) as [P Q]. set (p := Rpower _ _) in *. assert (K : 1 / 2 <= p * p). { destruct (Rle_lt_dec (1 / 2) (p * p)) as [K|K]; [exact K|]. exfalso. assert (0 < p * p) by nra. set (q := p * p) in *. assert (q * q < 1 / 4) by nra. assert (q * q * q < 1 / 8) by nra. lra. }
  assert (1 <= c * c) by nra. replace (2 * 1 * p * c * (2 * 1 * p * c)) with (4 * (p * p) * (c * c)) by ring. assert (0 <= (p * p - 1 / 2) * (c * c)) by (apply Rmult_le_pos; nra). nra.
Qed.
Lemma width_scale c n dim : width_for c n dim = width_for 1 n dim * c. Proof. unfold width_for. ring. Qed.
Lemma square_near t x : In t [(0, 0)] -> In x square -> away2 (combine ones square) t x <= 2.
Proof. intros [<-|[]] Hx. rewrite square_away. cbn [fst snd]. cbn in Hx. repeat (destruct Hx as [<-|Hx]; [cbn [fst snd]; lra|]). destruct Hx. Qed.
Lemma square_exists nearest k : exists vs, kde_surface nearest square ones k [(0, 0)] = Ok vs.
Proof. apply C54_exists_surface; [reflexivity|cbn; lia|exact ones_pos|]. cbv zeta. destruct square_covs as [-> [-> ->]]. lra. Qed.
(** The kde setting does not control the kernel width in two dimensions. *)
Theorem C54_surface_refuted : ~ (forall nearest data w k ts vs, finds_nearest nearest -> kde_on k = true -> kde_surface nearest data w k ts = Ok vs ->
  let d := combine w data in let width := width_for (kde_number k) (length data) 2 in estimates (away2 d) width (width * 3) d ts vs).
Proof.
  intros H. destruct (square_exists closest (KNum 2)) as [vs E]. pose proof (H closest square ones (KNum 2) [(0, 0)] vs closest_ok eq_refl E) as H1. pose proof (C54_surface_partial closest square ones (KNum 2) [(0, 0)] vs closest_ok E) as H2. cbv zeta in H1, H2.
  assert (K2 : kde_number (KNum 2) = 2) by (cbn; unfold Q2R; cbn; field). rewrite K2 in H1, H2. change (length square) with 5%nat in H1, H2. rewrite (width_scale 2) in H1. set (s := width_for 1 5 2) in *.
  inversion H1 as [|? v ? vs' P1 F1]; subst. inversion H2 as [|? ? ? ? P2 F2]; subst. apply estimate_all in P1; [|cbn; lia|]. 2: { intros p Hp. apply combine_in in Hp as [_ Hp]. eapply Rle_trans; [apply square_near; [left; reflexivity|exact Hp]|]. replace (s * 2 * 3) with (s * 6) by ring. apply square_width. lra. }
  apply estimate_all in P2; [|cbn; lia|]. 2: { intros p Hp. apply combine_in in Hp as [_ Hp]. eapply Rle_trans; [apply square_near; [left; reflexivity|exact Hp]|]. apply square_width. lra. }
  rewrite P1 in P2. cbn [combine ones square total] in P2. rewrite !square_away in P2. cbn [fst snd] in P2. pose proof (square_width 1 (Rle_refl 1)) as SW. fold s in SW. rewrite !Rmult_1_r in SW.
  assert (X : exp (- (2 / (2 * (s * 2 * (s * 2))))) = exp (- (2 / (2 * (s * s))))).
  { replace ((1 - 0) * (1 - 0) + (1 - 0) * (1 - 0)) with 2 in P2 by ring. replace ((1 - 0) * (1 - 0) + (-1 - 0) * (-1 - 0)) with 2 in P2 by ring. replace ((-1 - 0) * (-1 - 0) + (1 - 0) * (1 - 0)) with 2 in P2 by ring. replace ((-1 - 0) * (-1 - 0) + (-1 - 0) * (-1 - 0)) with 2 in P2 by ring. replace ((0 - 0) * (0 - 0) + (0 - 0) * (0 - 0)) with 0 in P2 by ring.
    unfold Rdiv in P2 at 5 10. rewrite !Rmult_0_l in P2. lra. }
  apply exp_inv in X. replace (2 / (2 * (s * 2 * (s * 2)))) with (/ (s * s) * / 4) in X by (field; intros Z; rewrite Z in SW; lra). replace (2 / (2 * (s * s))) with (/ (s * s)) in X by (field; intros Z; rewrite Z in SW; lra).
  assert (0 < / (s * s)) by (apply Rinv_0_lt_compat; lra). lra.
Qed.
Print Assumptions C54_surface_refuted.
(** Nor in plot_dist. *)
Definition column : list R := [-1; -1; 0; 1; 1].
Lemma column_var : covariance (fun v => v) (fun v => v) (combine ones column) = 1.
Proof. unfold covariance, mean_of, W. cbn [combine ones column total fst snd]. field. Qed.
Lemma column_away t x : away1 (combine ones column) t x = (x - t) * (x - t).
Proof. unfold away1. rewrite column_var. field. Qed.
Lemma column_width c : 1 <= c -> 1 <= (width_for 1 5 1 * c) * (width_for 1 5 1 * c).
Proof.
  intros H. unfold width_for. assert (Q : let p := Rpower (INR 5) (- (1 / (4 + INR 1))) in 0 < p /\ p * p * (p * p) * p = / 5).
  { split; [apply exp_pos|]. rewrite <- !Rpower_plus. replace (_ + _ + _) with (- (1)) by (cbn; field). rewrite Rpower_Ropp, Rpower_1 by (cbn; lra). cbn. f_equal. ring. }
  cbv zeta in Q. destruct Q as [P Q]. set (p := Rpower _ _) in *. assert (K : 1 / 2 <= p). { destruct (Rle_lt_dec (1 / 2) p) as [K|K]; [exact K|]. exfalso. assert (p * p < 1 / 4) by nra. assert (0 < p * p) by nra. assert (p * p * (p * p) < 1 / 16) by nra. assert (p * p * (p * p) * p < 1 / 16 * 1) by nra. lra. }
  assert (1 <= 2 * 1 * p * c) by nra. nra.
Qed.
Lemma column_near x : In x column -> away1 (combine ones column) 0 x <= 1.
Proof. rewrite column_away. cbn. intros Hx. repeat (destruct Hx as [<-|Hx]; [lra|]). destruct Hx. Qed.
Lemma column_exists nearest k : kde_on k = true -> (exists vs, kde_marginal nearest column ones k [0] = Ok vs) /\ exists vs, kde_dist nearest column ones k [0] = Ok vs.
Proof. intros K. apply C54_exists; [reflexivity|cbn; lia|exact ones_pos|exists (-1), 0; cbn; repeat split; [auto|auto|lra]|exact K]. Qed.
Theorem C54_dist_refuted : ~ (forall nearest data w k xs vs, finds_nearest nearest -> kde_on k = true -> kde_dist nearest data w k xs = Ok vs ->
  let d := combine w data in let width := width_for (kde_number k) (length data) 1 in estimates (away1 d) width (width * 3) d xs vs).
Proof.
  intros H. destruct (proj2 (column_exists closest (KNum 2) eq_refl)) as [vs E]. pose proof (H closest column ones (KNum 2) [0] vs closest_ok eq_refl E) as H1. pose proof (C54_dist_partial closest column ones (KNum 2) [0] vs closest_ok E) as H2. cbv zeta in H1, H2.
  assert (K2 : kde_number (KNum 2) = 2) by (cbn; unfold Q2R; cbn; field). rewrite K2 in H1, H2. change (length column) with 5%nat in H1, H2. rewrite (width_scale 2) in H1. set (s := width_for 1 5 1) in *.
  inversion H1 as [|? v ? vs' P1 F1]; subst. inversion H2 as [|? ? ? ? P2 F2]; subst. apply estimate_all in P1; [|cbn; lia|]. 2: { intros p Hp. apply combine_in in Hp as [_ Hp]. eapply Rle_trans; [apply column_near; exact Hp|]. replace (s * 2 * 3) with (s * 6) by ring. apply column_width. lra. }
  apply estimate_all in P2; [|cbn; lia|]. 2: { intros p Hp. apply combine_in in Hp as [_ Hp]. eapply Rle_trans; [apply column_near; exact Hp|]. apply column_width. lra. }
  rewrite P1 in P2. cbn [combine ones column total] in P2. rewrite !column_away in P2. cbn [fst snd] in P2. pose proof (column_width 1 (Rle_refl 1)) as SW. fold s in SW. rewrite !Rmult_1_r in SW.
  assert (X : exp (- (1 / (2 * (s * 2 * (s * 2))))) = exp (- (1 / (2 * (s * s))))).
  { replace ((-1 - 0) * (-1 - 0)) with 1 in P2 by ring. replace ((1 - 0) * (1 - 0)) with 1 in P2 by ring. replace ((0 - 0) * (0 - 0)) with 0 in P2 by ring. unfold Rdiv in P2 at 3 8. rewrite !Rmult_0_l in P2. lra. }
  apply exp_inv in X. replace (1 / (2 * (s * 2 * (s * 2)))) with (/ (s * s) * / 8) in X by (field; intros Z; rewrite Z in SW; lra). replace (1 / (2 * (s * s))) with (/ (s * s) * / 2) in X by (field; intros Z; rewrite Z in SW; lra).
  assert (0 < / (s * s)) by (apply Rinv_0_lt_compat; lra). lra.
Qed.
Print Assumptions C54_dist_refuted.
(** The hypotheses are met: a tree, data and targets; and settings that are ignored. *)
Example C54_nonvacuous : finds_nearest closest /\ (exists vs, kde_marginal closest column ones (KNum 2) [0] = Ok vs /\ length vs = 1%nat /\ forall v, In v vs -> 0 < v) /\
  exists vs, kde_surface closest square ones (KBool true) [(0, 0)] = Ok vs /\ kde_surface closest square ones (KNum 2) [(0, 0)] = Ok vs /\ length vs = 1%nat.
Proof.
  split; [exact closest_ok|]. split.
  - destruct (proj1 (column_exists closest (KNum 2) eq_refl)) as [vs E]. exists vs. split; [exact E|]. destruct (C54_values closest column ones (KNum 2) [0] vs closest_ok (or_introl E)) as [L [_ P]]. split; [exact L|]. apply P. exact ones_pos.
  - destruct (square_exists closest (KBool true)) as [v1 E1]. destruct (square_exists closest (KNum 2)) as [v2 E2]. exists v1. split; [exact E1|]. assert (v1 = v2); [|subst; split; [exact E2|apply (C54_values_surface _ _ _ _ _ _ closest_ok E1)]].
    assert (K2 : kde_number (KNum 2) = 2) by (cbn; unfold Q2R; cbn; field). apply (C54_surface_setting_ignored closest square ones (KBool true) (KNum 2) [(0, 0)]); [exact closest_ok|cbn; lia| |exact E1|exact E2]. intros k t x Hk Ht Hx. eapply Rle_trans; [apply square_near; assumption|]. change (length square) with 5%nat. destruct Hk as [->| ->]; [cbn [kde_number]|rewrite K2]; apply square_width; lra.
Qed.
