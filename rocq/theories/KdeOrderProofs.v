(** Kernel density estimates of the same weighted samples, written in another way. *)
From Coq Require Import List Bool Arith QArith Reals Qreals Permutation FinFun Lra Lia.
From Verif Require Import Py ConfigModel AnalysisModel SurfaceModel KdeModel KdeSpec KdeProofs KdeProps.
From Verif Require SurfaceProofs.
Import ListNotations.
Open Scope list_scope.
Open Scope R_scope.

(** ** Sums do not depend on the order *)
Lemma W_perm {A} (d d' : list (R * A)) : Permutation d d' -> W d' = W d.
Proof. intros P. symmetry. apply total_perm. exact P. Qed.
Lemma mean_perm {A} (f : A -> R) d d' : Permutation d d' -> mean_of f d' = mean_of f d.
Proof. intros P. unfold mean_of. rewrite (W_perm _ _ P). f_equal. symmetry. apply total_perm. exact P. Qed.
Lemma covariance_perm {A} (f g : A -> R) d d' : Permutation d d' -> covariance f g d' = covariance f g d.
Proof. intros P. unfold covariance. rewrite (W_perm _ _ P), !(mean_perm _ _ _ P). rewrite <- (total_perm _ _ _ P). rewrite <- (total_perm (fun p => fst p * fst p) _ _ P). reflexivity. Qed.

(** ** The estimates of a list are those of its permutations *)
Lemma perm_indices {A} (d d' : list A) : Permutation d d' -> exists f g, (forall i, (i < length d)%nat -> (f i < length d)%nat /\ (g i < length d)%nat /\ g (f i) = i /\ f (g i) = i) /\
  forall i, (i < length d)%nat -> nth_error d' i = nth_error d (f i).
Proof.
  intros P. destruct d as [|a0 d0]; [apply Permutation_nil in P; subst; exists (fun i => i), (fun i => i); split; [cbn; lia|reflexivity]|]. set (d := a0 :: d0) in *.
  pose proof (Permutation_length P) as L. apply (Permutation_nth d d' a0) in P. cbv zeta in P. destruct P as [_ [f [F1 [F2 F3]]]].
  destruct (bSurjective_bBijective F1 (proj1 (bInjective_bSurjective F1) F2)) as [g [G1 G2]]. exists f, g. split; [intros i I; destruct (G2 i I); auto|].
  intros i I. rewrite (nth_error_nth' d' a0) by lia. rewrite (nth_error_nth' d a0) by (apply F1; exact I). f_equal. apply F3. exact I.
Qed.
Lemma map_nodup {A B} (f : A -> B) l : NoDup l -> (forall x y, In x l -> In y l -> f x = f y -> x = y) -> NoDup (map f l).
Proof.
  induction 1 as [|a l N ND IH]; intros I; cbn; constructor; [|apply IH; intros x y X Y; apply I; right; assumption].
  intros H. apply in_map_iff in H as [b [E Hb]]. apply N. rewrite (I a b (or_introl eq_refl) (or_intror Hb) (eq_sym E)). exact Hb.
Qed.
Lemma estimate_perm {A} (away : A -> R) width reach (d d' : list (R * A)) v : Permutation d d' -> estimate away width reach d' v -> estimate away width reach d v.
Proof.
  intros P [chosen [C ->]]. pose proof (Permutation_length P) as LP. destruct (perm_indices _ _ P) as [f [g [FG N]]]. unfold counted in C. rewrite <- LP in C. cbv zeta in C. destruct C as [C1 [C2 C3]].
  exists (map f chosen). split.
  - unfold counted. cbv zeta. split; [|split].
    + apply map_nodup; [exact C1|]. intros x y X Y E. destruct (FG x (C2 _ X)) as [_ [_ [K _]]]. destruct (FG y (C2 _ Y)) as [_ [_ [K' _]]]. congruence.
    + intros i H. apply in_map_iff in H as [j [<- J]]. apply FG, C2, J.
    + assert (WI : forall i, (i < length d)%nat -> (exists p, nth_error d (f i) = Some p /\ away (snd p) <= reach * reach) <-> (exists p, nth_error d' i = Some p /\ away (snd p) <= reach * reach)) by (intros i I; rewrite (N i I); reflexivity).
      assert (WG : forall i, (i < length d)%nat -> (exists p, nth_error d i = Some p /\ away (snd p) <= reach * reach) <-> (exists p, nth_error d' (g i) = Some p /\ away (snd p) <= reach * reach)).
      { intros i I. destruct (FG i I) as [_ [G1 [_ G2]]]. rewrite (N (g i) G1), G2. reflexivity. }
      destruct C3 as [[C3 C4]|[C3 [C4 C5]]]; [left|right].
      * split; [rewrite map_length; exact C3|]. intros i. split.
        -- intros H. apply in_map_iff in H as [j [<- J]]. apply WI; [apply C2; exact J|]. apply C4. exact J.
        -- intros H. assert (I : (i < length d)%nat) by (destruct H as [p [E _]]; apply nth_error_Some; congruence). apply in_map_iff. exists (g i). split; [apply FG; exact I|]. apply C4. apply WG; assumption.
      * split; [rewrite map_length; exact C3|]. split.
        -- intros l ND H. assert (LI : forall i, In i l -> (i < length d)%nat) by (intros i I; destruct (H i I) as [p [E _]]; apply nth_error_Some; congruence).
           rewrite <- (map_length g l). apply C4.
           ++ apply map_nodup; [exact ND|]. intros x y X Y E. destruct (FG x (LI _ X)) as [_ [_ [_ K]]]. destruct (FG y (LI _ Y)) as [_ [_ [_ K']]]. congruence.
           ++ intros i I. apply in_map_iff in I as [j [<- J]]. apply WG; [apply LI; exact J|apply H; exact J].
        -- intros i j p q Hi Hj Ep Eq. apply in_map_iff in Hi as [i0 [<- Hi]]. assert (Lj : (j < length d)%nat) by (apply nth_error_Some; congruence). destruct (FG j Lj) as [_ [G1 [_ G2]]].
           apply (C5 i0 (g j) p q); [exact Hi| |rewrite N by (apply C2; exact Hi); exact Ep|rewrite N by exact G1; rewrite G2; exact Eq].
           intros K. apply Hj. apply in_map_iff. exists (g j). split; [exact G2|exact K].
  - rewrite total_map. apply total_ext. intros i I. rewrite (N i (C2 i I)). reflexivity.
Qed.

(** ** When an estimate is determined *)
Lemma nodup_in_split (ch l : list nat) : NoDup l -> incl l ch -> NoDup ch -> exists r, Permutation ch (l ++ r) .
Proof.
  intros ND IN NC. exists (filter (fun i => negb (if in_dec Nat.eq_dec i l then true else false)) ch). apply NoDup_Permutation; [exact NC| |].
  - assert (NF : NoDup (filter (fun i => negb (if in_dec Nat.eq_dec i l then true else false)) ch)) by (apply NoDup_filter; exact NC).
    assert (DJ : forall i, In i l -> ~ In i (filter (fun i => negb (if in_dec Nat.eq_dec i l then true else false)) ch)).
    { intros i I H. apply filter_In in H as [_ H]. destruct (in_dec Nat.eq_dec i l); [discriminate|contradiction]. }
    clear IN. induction ND as [|a l' N ND IH]; [exact NF|]. clear IH. revert NF DJ. generalize (filter (fun i => negb (if in_dec Nat.eq_dec i (a :: l') then true else false)) ch). intros r NF DJ.
    assert (G : forall m, NoDup m -> (forall i, In i m -> ~ In i r) -> NoDup (m ++ r)).
    { induction 1 as [|b m Nb NDm IH]; intros D; [exact NF|]. cbn. constructor; [|apply IH; intros i I; apply D; right; exact I]. intros H. apply in_app_or in H as [H|H]; [contradiction|]. exact (D b (or_introl eq_refl) H). }
    apply G; [constructor; assumption|exact DJ].
  - intros i. rewrite in_app_iff, filter_In. split.
    + intros H. destruct (in_dec Nat.eq_dec i l); [left; assumption|right; split; [exact H|reflexivity]].
    + intros [H|[H _]]; [apply IN; exact H|exact H].
Qed.
Lemma total_const {A} c (l : list A) : total (fun _ => c) l = c * INR (length l).
Proof. induction l as [|a l IH]; [cbn; ring|]. cbn [total]. rewrite IH. cbn [length]. rewrite S_INR. ring. Qed.
Lemma total_app {A} (f : A -> R) l r : total f (l ++ r) = total f l + total f r.
Proof. induction l as [|a l IH]; cbn; [ring|]. rewrite IH. ring. Qed.
(** A choice none of whose values is below any other value has the largest sum. *)
Lemma largest_sum (g : nat -> R) m ch l : NoDup ch -> NoDup l -> length l = length ch -> (forall i, In i ch -> m <= g i) -> (forall j, In j l -> ~ In j ch -> g j <= m) -> total g l <= total g ch.
Proof.
  intros NC NL LL H1 H2. set (h := fun i => g i - m).
  assert (E : forall x, total g x = total h x + m * INR (length x)).
  { intros x. unfold h. rewrite <- (total_const m x), <- total_plus. apply total_ext. intros; ring. }
  rewrite !E, LL. apply Rplus_le_compat_r. set (p := fun i => if in_dec Nat.eq_dec i ch then true else false).
  assert (S1 : total h l <= total h (filter p l)).
  { clear LL NL. induction l as [|i l IH]; cbn [filter total]; [lra|]. assert (IHl := IH ltac:(intros j J; apply H2; right; exact J)). unfold p at 1. destruct (in_dec Nat.eq_dec i ch) as [I|I]; cbn [total]; [lra|].
    assert (h i <= 0) by (unfold h; pose proof (H2 i (or_introl eq_refl) I); lra). lra. }
  destruct (nodup_in_split ch (filter p l)) as [r P]; [apply NoDup_filter; exact NL| |exact NC|].
  { intros i I. apply filter_In in I as [_ I]. unfold p in I. destruct (in_dec Nat.eq_dec i ch); [assumption|discriminate]. }
  rewrite (total_perm h _ _ P), total_app. assert (0 <= total h r); [|lra]. apply total_nonneg. intros i I. assert (In i ch) by (apply (Permutation_in _ (Permutation_sym P)), in_or_app; right; exact I). unfold h. specialize (H1 i H). lra.
Qed.
Lemma list_max_away {A} (away : A -> R) (d : list A) l : l <> [] -> (forall i, In i l -> (i < length d)%nat) -> exists i p, In i l /\ nth_error d i = Some p /\ forall j q, In j l -> nth_error d j = Some q -> away q <= away p.
Proof.
  induction l as [|a l IH]; intros N H; [congruence|]. destruct (nth_error d a) as [pa|] eqn:Ea; [|apply nth_error_None in Ea; pose proof (H a (or_introl eq_refl)); lia].
  destruct l as [|b l]; [exists a, pa; split; [left; reflexivity|]; split; [exact Ea|]; intros j q [<-|[]] E; replace q with pa by congruence; lra|].
  destruct IH as [i [p [I [E M]]]]; [discriminate|intros i I; apply H; right; exact I|]. destruct (Rle_dec (away p) (away pa)) as [C|C].
  - exists a, pa. split; [left; reflexivity|]. split; [exact Ea|]. intros j q [<-|J] Ej; [replace q with pa by congruence; lra|]. specialize (M j q J Ej). lra.
  - exists i, p. split; [right; exact I|]. split; [exact E|]. intros j q [<-|J] Ej; [replace q with pa by congruence; lra|]. exact (M j q J Ej).
Qed.
Lemma estimate_unique {A} (away : A -> R) width reach (d : list (R * A)) v v' : width <> 0 ->
  ((exists l, NoDup l /\ (4 <= length l)%nat /\ forall i, In i l -> exists p, nth_error d i = Some p /\ away (snd p) <= reach * reach) \/ (exists c, 0 <= c /\ forall p, In p d -> fst p = c)) ->
  estimate away width reach d v -> estimate away width reach d v' -> v = v'.
Proof.
  intros WZ COND [ch [C ->]] [ch' [C' ->]]. unfold counted in C, C'. cbv zeta in C, C'. destruct C as [C1 [C2 C3]], C' as [C1' [C2' C3']].
  destruct C3 as [[C3 C4]|[C3 [C4 C5]]], C3' as [[C3' C4']|[C3' [C4' C5']]].
  - apply total_perm. apply NoDup_Permutation; [exact C1|exact C1'|]. intros i. rewrite C4, C4'. reflexivity.
  - exfalso. specialize (C4' ch C1 (fun i I => proj1 (C4 i) I)). lia.
  - exfalso. specialize (C4 ch' C1' (fun i I => proj1 (C4' i) I)). lia.
  - destruct COND as [[l [L1 [L2 L3]]]|[c [CP CE]]]; [exfalso; specialize (C4 l L1 L3); lia|].
    set (g := fun i => match nth_error d i with Some p => fst p * exp (- (away (snd p) / (2 * (width * width)))) | None => 0 end).
    assert (MONO : forall i j p q, nth_error d i = Some p -> nth_error d j = Some q -> away (snd p) <= away (snd q) -> g j <= g i).
    { intros i j p q Ep Eq L. unfold g. rewrite Ep, Eq, (CE p), (CE q) by (eapply nth_error_In; eassumption). apply Rmult_le_compat_l; [exact CP|].
      assert (P : 0 < 2 * (width * width)) by (pose proof (Rsqr_pos_lt _ WZ) as K; unfold Rsqr in K; lra). assert (K : - (away (snd q) / (2 * (width * width))) <= - (away (snd p) / (2 * (width * width)))).
      { apply Ropp_le_contravar. apply Rmult_le_compat_r; [apply Rlt_le, Rinv_0_lt_compat; exact P|exact L]. }
      destruct K as [K|K]; [apply Rlt_le, exp_increasing; exact K|rewrite K; lra]. }
    assert (HALF : forall x y, NoDup x -> NoDup y -> length x = 4%nat -> length y = 4%nat -> (forall i, In i x -> (i < length d)%nat) -> (forall i, In i y -> (i < length d)%nat) ->
      (forall i j p q, In i x -> ~ In j x -> nth_error d i = Some p -> nth_error d j = Some q -> away (snd p) <= away (snd q)) -> total g y <= total g x).
    { intros x y NX NY LX LY BX BY K. destruct (list_max_away (fun p => away (snd p)) d x) as [m [p [M1 [M2 M3]]]]; [destruct x; [discriminate LX|discriminate]|exact BX|].
      apply (largest_sum g (g m)); try assumption; [lia| |].
      - intros i I. destruct (nth_error d i) as [q|] eqn:E; [|apply nth_error_None in E; specialize (BX i I); lia]. exact (MONO _ _ _ _ E M2 (M3 i q I E)).
      - intros j J NJ. destruct (nth_error d j) as [q|] eqn:E; [|apply nth_error_None in E; specialize (BY j J); lia]. exact (MONO _ _ _ _ M2 E (K m j p q M1 NJ M2 E)). }
    apply Rle_antisym; apply HALF; try assumption; lia.
Qed.

(** ** The estimator exists for all orders of the rows *)
Lemma combine_length_perm {A} (w w' : list R) (l l' : list A) : length w = length l -> length w' = length l' -> Permutation (combine w l) (combine w' l') -> length l' = length l.
Proof. intros L L' P. apply Permutation_length in P. rewrite !combine_length in P. lia. Qed.
Lemma perm_weights {A} (w w' : list R) (l l' : list A) : length w = length l -> length w' = length l' -> Permutation (combine w l) (combine w' l') -> Permutation w w'.
Proof.
  intros L L' P. assert (E : forall (x : list R) (y : list A), length x = length y -> map fst (combine x y) = x) by (induction x as [|a x IH]; intros [|b y] K; cbn in *; try discriminate; [reflexivity|]; rewrite IH by lia; reflexivity).
  rewrite <- (E w l L), <- (E w' l' L'). apply Permutation_map. exact P.
Qed.
Lemma new_perm dim train w train' w' tr fa k : length w' = length train' -> Permutation (combine w train) (combine w' train') -> new_megkde dim train w tr fa = Ok k ->
  exists k', new_megkde dim train' w' tr fa = Ok k' /\ kd_sigma k' = kd_sigma k /\ length (kd_d k') = length (kd_d k).
Proof.
  intros L' P H. pose proof (new_megkde_ok _ _ _ _ _ _ H) as K. cbv zeta in K. destruct K as [E1 [E2 [E3 [E4 [E5 [E6 [E7 [E8 [E9 _]]]]]]]]].
  pose proof (combine_length_perm _ _ _ _ E1 L' P) as LT. pose proof (perm_weights _ _ _ _ E1 L' P) as PW.
  assert (RS : rsum w' = rsum w) by (rewrite (rsum_W w train E1), (rsum_W w' train' L'); apply W_perm; exact P).
  assert (CF : cov_fact w' = cov_fact w). { rewrite (cov_fact_W w train E1), (cov_fact_W w' train' L'), (W_perm _ _ P). f_equal. f_equal. symmetry. apply total_perm. exact P. }
  assert (ME : forall j, average w' (map (comp j) train') = average w (map (comp j) train)) by (intros j; rewrite !average_mean by assumption; apply mean_perm; exact P).
  set (mean := map (fun j => average w (map (comp j) train)) (seq 0 dim)) in *.
  assert (MM : map (fun j => average w' (map (comp j) train')) (seq 0 dim) = mean) by (apply map_ext; exact ME).
  assert (CE : forall j i, cov_entry w' (map (comp j) (map (fun x => minus x mean) train')) (map (comp i) (map (fun x => minus x mean) train')) = cov_entry w (map (comp j) (map (fun x => minus x mean) train)) (map (comp i) (map (fun x => minus x mean) train))).
  { intros j i. rewrite !map_map. rewrite (cov_entry_covariance (fun x => comp j (minus x mean)) (fun x => comp i (minus x mean)) w' train' L'), (cov_entry_covariance (fun x => comp j (minus x mean)) (fun x => comp i (minus x mean)) w train E1). apply covariance_perm. exact P. }
  unfold new_megkde. rewrite L', Nat.eqb_refl. cbn [negb]. rewrite RS, (proj2 (req_false _ _) E2). cbv zeta.
  assert (EX : existsb (fun v => negb (rle 0 v)) w' = false).
  { apply not_true_iff_false. intros X. apply existsb_exists in X as [v [V N]]. apply (Permutation_in _ (Permutation_sym PW)) in V. apply E3 in V. apply rle_true in V. rewrite V in N. discriminate. }
  rewrite EX, CF. rewrite (proj2 (rle_false _ _) E4). rewrite MM.
  rewrite (map_ext _ (fun j => map (fun k0 => cov_entry w (map (comp j) (map (fun x => minus x mean) train)) (map (comp k0) (map (fun x => minus x mean) train))) (seq 0 dim))) by (intros j; apply map_ext; intros i; apply CE).
  rewrite E5. cbn [rbind]. eexists. split; [reflexivity|]. cbn [kd_sigma kd_d]. split; [rewrite E9, LT; reflexivity|]. rewrite E7, !map_length. exact LT.
Qed.
Lemma filter_shorter {A} (p : A -> bool) l : (length (filter p l) <= length l)%nat.
Proof. induction l as [|a l IH]; cbn; [lia|]. destruct (p a); cbn; lia. Qed.
Lemma evaluate_some nearest nearest' k k' targets vs : evaluate nearest k targets = Ok vs -> kd_sigma k' = kd_sigma k -> length (kd_d k') = length (kd_d k) -> exists vs', evaluate nearest' k' targets = Ok vs'.
Proof.
  intros H ES EL. unfold evaluate in H. destruct (req (kd_sigma k) 0) eqn:E0; [discriminate|]. destruct targets as [|t ts]; [exists []; unfold evaluate; rewrite ES, E0; reflexivity|].
  assert (L4 : (4 <= length (kd_d k))%nat).
  { cbn [rmapM] in H. cbv zeta in H. match type of H with context [(nmin <=? length ?b)%nat] => set (ball := b) in * end.
    assert (BL : (length ball <= length (kd_d k))%nat). { unfold ball. etransitivity; [apply filter_shorter|]. rewrite seq_length. lia. }
    destruct (nmin <=? length ball)%nat eqn:E1; [apply Nat.leb_le in E1; unfold nmin in E1; lia|]. destruct (length (kd_d k) <? nmin)%nat eqn:E2; [discriminate|]. apply Nat.ltb_ge in E2. exact E2. }
  apply evaluate_total; [rewrite ES; apply req_false; exact E0|rewrite EL; exact L4].
Qed.

Lemma estimates_perm {A} (away : A -> A -> R) width reach (d d' : list (R * A)) ts vs vs' : Permutation d d' -> width <> 0 ->
  ((forall t, In t ts -> exists l, NoDup l /\ (4 <= length l)%nat /\ forall i, In i l -> exists p, nth_error d i = Some p /\ away t (snd p) <= reach * reach) \/ (exists c, 0 <= c /\ forall p, In p d -> fst p = c)) ->
  estimates away width reach d ts vs -> estimates away width reach d' ts vs' -> vs' = vs.
Proof.
  intros P WZ COND H. revert vs'. induction H as [|t v ts vs E1 _ IH]; intros vs' H'; inversion H' as [|? v' ? vs'' E2 H2]; subst; [reflexivity|]. f_equal.
  - symmetry. apply (estimate_unique (away t) width reach d); [exact WZ| |exact E1|exact (estimate_perm _ _ _ _ _ _ P E2)]. destruct COND as [C|C]; [left; apply C; left; reflexivity|right; exact C].
  - apply IH; [|exact H2]. destruct COND as [C|C]; [left; intros t' T; apply C; right; exact T|right; exact C].
Qed.
Lemma kde1_perm nearest data w data' w' tr fa xs vs : finds_nearest nearest -> length w' = length data' -> Permutation (combine w data) (combine w' data') -> fa <> 0 ->
  let d := combine w data in let width := width_for fa (length data) 1 in
  megkde_at nearest 1 (map (fun x => [x]) data) w tr fa (map (fun x => [x]) xs) = Ok vs ->
  exists vs', megkde_at nearest 1 (map (fun x => [x]) data') w' tr fa (map (fun x => [x]) xs) = Ok vs' /\
  (((forall t, In t xs -> exists l, NoDup l /\ (4 <= length l)%nat /\ forall i, In i l -> exists p, nth_error d i = Some p /\ away1 d t (snd p) <= (width * tr) * (width * tr)) \/ (exists c, forall v, In v w -> v = c)) -> vs' = vs).
Proof.
  intros NB L' P FA d width H. pose proof (kde1_ok _ _ _ _ _ _ _ NB H) as [L [N [_ E]]]. pose proof (combine_length_perm _ _ _ _ L L' P) as LD.
  assert (EX : exists vs', megkde_at nearest 1 (map (fun x => [x]) data') w' tr fa (map (fun x => [x]) xs) = Ok vs').
  { unfold megkde_at in *. apply SurfaceProofs.rbind_ok in H as [k [H1 H2]]. destruct (new_perm 1 (map (fun x => [x]) data) w (map (fun x => [x]) data') w' tr fa k) as [k' [K1 [K2 K3]]]; [rewrite map_length; exact L'| |exact H1|].
    { rewrite !combine_map2. apply Permutation_map. exact P. }
    rewrite K1. cbn [rbind]. exact (evaluate_some nearest nearest k k' _ vs H2 K2 K3). }
  destruct EX as [vs' H']. exists vs'. split; [exact H'|]. intros COND. pose proof (kde1_ok _ _ _ _ _ _ _ NB H') as [_ [_ [_ E']]]. rewrite LD in E'. cbv zeta in E, E'. fold d in E. fold width in E, E'.
  assert (AW : forall t x, away1 (combine w' data') t x = away1 d t x) by (intros t x; unfold away1; rewrite (covariance_perm _ _ _ _ P); reflexivity).
  apply (estimates_perm (away1 d) width (width * tr) d (combine w' data') xs); [exact P|apply width_nonzero; exact FA| |exact E|].
  - destruct COND as [C|[c C]]; [left; exact C|right]. destruct w as [|w0 w]; [exists 0; split; [lra|intros p []]|]. exists c. split; [rewrite <- (C w0 (or_introl eq_refl)); apply N; left; reflexivity|]. intros p Hp. apply combine_in in Hp as [Hp _]. apply C. exact Hp.
  - clear - E' AW. unfold estimates in *. induction E' as [|t v ts vs'' H _ IH]; constructor; [|exact IH]. unfold estimate, counted in *. destruct H as [ch [H1 H2]]. exists ch. setoid_rewrite AW in H1. split; [exact H1|]. rewrite H2. apply total_ext. intros i _. destruct (nth_error _ i); [rewrite AW|]; reflexivity.
Qed.
Lemma kde2_perm nearest (data : list (R * R)) w data' w' tr fa ts vs : finds_nearest nearest -> length w' = length data' -> Permutation (combine w data) (combine w' data') -> fa <> 0 ->
  let d := combine w data in let width := width_for fa (length data) 2 in
  megkde_at nearest 2 (map (fun p => [fst p; snd p]) data) w tr fa (map (fun p => [fst p; snd p]) ts) = Ok vs ->
  exists vs', megkde_at nearest 2 (map (fun p => [fst p; snd p]) data') w' tr fa (map (fun p => [fst p; snd p]) ts) = Ok vs' /\
  (((forall t, In t ts -> exists l, NoDup l /\ (4 <= length l)%nat /\ forall i, In i l -> exists p, nth_error d i = Some p /\ away2 d t (snd p) <= (width * tr) * (width * tr)) \/ (exists c, forall v, In v w -> v = c)) -> vs' = vs).
Proof.
  intros NB L' P FA d width H. pose proof (kde2_ok _ _ _ _ _ _ _ NB H) as [L [N [_ E]]]. pose proof (combine_length_perm _ _ _ _ L L' P) as LD.
  assert (EX : exists vs', megkde_at nearest 2 (map (fun p => [fst p; snd p]) data') w' tr fa (map (fun p => [fst p; snd p]) ts) = Ok vs').
  { unfold megkde_at in *. apply SurfaceProofs.rbind_ok in H as [k [H1 H2]]. destruct (new_perm 2 (map (fun p => [fst p; snd p]) data) w (map (fun p => [fst p; snd p]) data') w' tr fa k) as [k' [K1 [K2 K3]]]; [rewrite map_length; exact L'| |exact H1|].
    { rewrite !combine_map2. apply Permutation_map. exact P. }
    rewrite K1. cbn [rbind]. exact (evaluate_some nearest nearest k k' _ vs H2 K2 K3). }
  destruct EX as [vs' H']. exists vs'. split; [exact H'|]. intros COND. pose proof (kde2_ok _ _ _ _ _ _ _ NB H') as [_ [_ [_ E']]]. rewrite LD in E'. cbv zeta in E, E'. fold d in E. fold width in E, E'.
  assert (AW : forall t x, away2 (combine w' data') t x = away2 d t x) by (intros t x; unfold away2; rewrite !(covariance_perm _ _ _ _ P); reflexivity).
  apply (estimates_perm (away2 d) width (width * tr) d (combine w' data') ts); [exact P|apply width_nonzero; exact FA| |exact E|].
  - destruct COND as [C|[c C]]; [left; exact C|right]. destruct w as [|w0 w]; [exists 0; split; [lra|intros p []]|]. exists c. split; [rewrite <- (C w0 (or_introl eq_refl)); apply N; left; reflexivity|]. intros p Hp. apply combine_in in Hp as [Hp _]. apply C. exact Hp.
  - clear - E' AW. unfold estimates in *. induction E' as [|t v ts vs'' H _ IH]; constructor; [|exact IH]. unfold estimate, counted in *. destruct H as [ch [H1 H2]]. exists ch. setoid_rewrite AW in H1. split; [exact H1|]. rewrite H2. apply total_ext. intros i _. destruct (nth_error _ i); [rewrite AW|]; reflexivity.
Qed.
