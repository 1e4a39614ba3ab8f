(** The mean shift. *)
From Coq Require Import String List Bool Arith ZArith QArith Lia Lqa Setoid.
From Verif Require Import Py NumSpec NumModel NumFacts ColorModel MarginalModel FrameModel FrameFacts ConfigModel ChainModel ChainSpec.
Import ListNotations.
Open Scope list_scope.
Open Scope Q_scope.

Definition qdot (v w : list Q) : Q := qsum (map (fun p => fst p * snd p) (combine v w)).
Lemma sum_n_ext f g a n : (forall i, (a <= i < a + n)%nat -> f i == g i) -> sum_n f a n == sum_n g a n.
Proof.
  revert a. induction n as [|n IH]; intros a H; [reflexivity|]. cbn [sum_n]. rewrite (H a) by lia.
  rewrite (IH (S a)) by (intros i Hi; apply H; lia). reflexivity.
Qed.
Lemma sum_n_shift1 f a n : sum_n f (S a) n == sum_n (fun i => f (S i)) a n.
Proof. revert a. induction n as [|n IH]; intros a; [reflexivity|]. cbn [sum_n]. rewrite IH. reflexivity. Qed.
Lemma qdot_wsum v w : length v = length w -> qdot v w == wsum v w.
Proof.
  unfold wsum, sum_range. rewrite Nat.sub_0_r. revert v. induction w as [|y w IH]; intros [|x v] H; cbn in H; try discriminate; [reflexivity|].
  unfold qdot in *. cbn [combine map qsum fst snd length sum_n]. rewrite (IH v) by lia.
  rewrite sum_n_shift1. rewrite !at_cons_0. apply Qplus_inj_l. apply sum_n_ext. intros i _. rewrite !at_cons_S. reflexivity.
Qed.
Lemma qdot_sub v w mu : length v = length w -> qdot (map (fun q => q - mu) v) w == qdot v w - mu * qsum w.
Proof.
  revert v. induction w as [|y w IH]; intros [|x v] H; cbn in H; try discriminate; unfold qdot in *; cbn [combine map qsum fst snd].
  - ring.
  - rewrite (IH v) by lia. ring.
Qed.
Lemma qsum_pos w : w <> [] -> (forall x, In x w -> 0 < x) -> 0 < qsum w.
Proof.
  induction w as [|x w IH]; intros N H; [congruence|]. cbn. pose proof (H x (or_introl eq_refl)).
  destruct w as [|y w]; [cbn; lra|]. assert (0 < qsum (y :: w)) by (apply IH; [discriminate|intros z Hz; apply H; right; exact Hz]). lra.
Qed.

(** Deviations from the mean. *)
Definition sqdev (w : list Q) (m : Q) : Q := qsum (map (fun x => (x - m) * (x - m)) w).
Lemma sqdev_nonneg w m : 0 <= sqdev w m.
Proof. unfold sqdev. induction w as [|x w IH]; cbn; [lra|]. assert (0 <= (x - m) * (x - m)) by (destruct (Qlt_le_dec (x - m) 0); nra). lra. Qed.
Lemma sqdev_zero w m : sqdev w m == 0 -> forall x, In x w -> x == m.
Proof.
  induction w as [|y w IH]; intros H x HI; [destruct HI|]. unfold sqdev in *. cbn in H.
  pose proof (sqdev_nonneg w m) as P. unfold sqdev in P.
  assert (Q0 : 0 <= (y - m) * (y - m)) by (destruct (Qlt_le_dec (y - m) 0); nra).
  assert (Z1 : (y - m) * (y - m) == 0) by lra. assert (Z2 : qsum (map (fun x => (x - m) * (x - m)) w) == 0) by lra.
  destruct HI as [<-|HI]; [|apply IH; assumption].
  destruct (Q_dec y m) as [[L|L]|E]; [exfalso; nra|exfalso; nra|exact E].
Qed.
Lemma sqdev_expand w m : sqdev w m == qdot w w - 2 * m * qsum w + nq (length w) * m * m.
Proof.
  induction w as [|x w IH]; unfold sqdev, qdot in *; cbn [map combine qsum fst snd length].
  - unfold nq. cbn. ring.
  - rewrite IH. unfold nq. rewrite Nat2Z.inj_succ. unfold Z.succ. rewrite inject_Z_plus. change (inject_Z 1) with 1. ring.
Qed.
Lemma nq_pos n : (0 < n)%nat -> 0 < nq n.
Proof. intros H. unfold nq. change 0 with (inject_Z 0). rewrite <- Zlt_Qlt. lia. Qed.
(** (sum w)^2 <= n sum w^2, with equality only for constant lists. *)
Lemma cauchy w : w <> [] -> qsum w * qsum w <= nq (length w) * qdot w w /\
  (qsum w * qsum w == nq (length w) * qdot w w -> forall x y, In x w -> In y w -> x == y).
Proof.
  intros N. assert (P : 0 < nq (length w)) by (apply nq_pos; destruct w; [congruence|cbn; lia]).
  set (n := nq (length w)) in *. set (m := qsum w / n).
  assert (Hm : m * n == qsum w) by (unfold m; field; lra).
  pose proof (sqdev_expand w m) as E. fold n in E. pose proof (sqdev_nonneg w m) as NN.
  assert (E2 : n * sqdev w m == n * qdot w w - qsum w * qsum w).
  { rewrite E, <- Hm. ring. }
  split.
  - assert (0 <= n * sqdev w m) by nra. lra.
  - intros HE x y Hx Hy. assert (Z : sqdev w m == 0).
    { assert (ZZ : n * sqdev w m == 0) by lra. destruct (Qeq_dec (sqdev w m) 0) as [|NE]; [assumption|]. exfalso. nra. }
    rewrite (sqdev_zero w m Z x Hx), (sqdev_zero w m Z y Hy). reflexivity.
Qed.
Lemma cauchy_const w a : (forall x, In x w -> x == a) -> qsum w * qsum w == nq (length w) * qdot w w.
Proof.
  intros H. assert (S1 : qsum w == nq (length w) * a).
  { induction w as [|x w IH]; [cbn; unfold nq; cbn; ring|]. cbn [qsum length]. rewrite IH by (intros y Hy; apply H; right; exact Hy).
    rewrite (H x (or_introl eq_refl)). unfold nq. rewrite Nat2Z.inj_succ. unfold Z.succ. rewrite inject_Z_plus. change (inject_Z 1) with 1. ring. }
  assert (S2 : qdot w w == nq (length w) * a * a).
  { clear S1. induction w as [|x w IH]; [cbn; unfold nq; cbn; ring|]. unfold qdot in *. cbn [map combine qsum fst snd length].
    rewrite IH by (intros y Hy; apply H; right; exact Hy).
    rewrite (H x (or_introl eq_refl)). unfold nq. rewrite Nat2Z.inj_succ. unfold Z.succ. rewrite inject_Z_plus. change (inject_Z 1) with 1. ring. }
  rewrite S1, S2. ring.
Qed.
Lemma qsum_sub w mu : qsum (map (fun q => q - mu) w) == qsum w - mu * nq (length w).
Proof.
  induction w as [|x w IH]; cbn [map qsum length]; [unfold nq; cbn; ring|]. rewrite IH.
  unfold nq. rewrite Nat2Z.inj_succ. unfold Z.succ. rewrite inject_Z_plus. change (inject_Z 1) with 1. ring.
Qed.

(** * The loop *)
Definition shift_col (vals : list cell) (mu : Q) : list cell := map (fun c => match c with Fin q => Fin (q - mu) | c => c end) vals.
Lemma shift_col_len vals mu : length (shift_col vals mu) = length vals.
Proof. apply map_length. Qed.
Lemma qs_shift vals mu : forallb cell_finite vals = true -> qs (shift_col vals mu) = map (fun q => q - mu) (qs vals).
Proof.
  intros H. unfold qs, shift_col. rewrite !map_map. apply map_ext_in. intros c Hc. rewrite forallb_forall in H. specialize (H c Hc).
  destruct c; try discriminate. reflexivity.
Qed.
Lemma shift_finite vals mu : forallb cell_finite (shift_col vals mu) = forallb cell_finite vals.
Proof. unfold shift_col. induction vals as [|c vals IH]; [reflexivity|]. cbn. rewrite IH. destruct c; reflexivity. Qed.

Definition mean_of (vals w : list cell) : Q := qdot (qs vals) (qs w) / qsum (qs w).

(** Columns other than the weights, with the weights fixed. *)
Lemma shift_fixed weight w : forall L f, f_get f weight = Some w -> ~ In weight L -> NoDup L ->
  (forall p, In p L -> In p (f_names f)) ->
  (L <> [] -> ~ qsum (qs w) == 0) ->
  exists f', shift_loop weight L f = Ok f' /\ f_index f' = f_index f /\ map fst (f_cols f') = map fst (f_cols f) /\
    (forall p, ~ In p L -> f_get f' p = f_get f p) /\
    (forall p vals, In p L -> f_get f p = Some vals -> f_get f' p = Some (shift_col vals (mean_of vals w))).
Proof.
  induction L as [|p L IH]; intros f Hw Hn ND HL HS; cbn [shift_loop].
  - exists f. repeat split; auto. intros p vals [].
  - inversion ND as [|? ? Hp ND']; subst.
    assert (HP : In p (f_names f)) by (apply HL; left; reflexivity).
    destruct (f_has_get f p (proj2 (f_has_names f p) HP)) as [vals Hv]. rewrite Hv, Hw.
    unfold average. assert (HZ : Qeq_bool (qsum (qs w)) 0 = false).
    { destruct (Qeq_bool (qsum (qs w)) 0) eqn:E; [|reflexivity]. apply Qeq_bool_iff in E. exfalso. apply HS; [discriminate|exact E]. }
    rewrite HZ. cbn [rbind]. fold (qdot (qs vals) (qs w)). fold (mean_of vals w). fold (shift_col vals (mean_of vals w)).
    set (f1 := f_set f p (shift_col vals (mean_of vals w))).
    assert (Npw : p <> weight) by (intros ->; apply Hn; left; reflexivity).
    destruct (IH f1) as [f' [E1 [E2 [E3 [E4 E5]]]]].
    + unfold f1. rewrite f_get_set_other by exact Npw. exact Hw.
    + intros H. apply Hn. right. exact H.
    + exact ND'.
    + intros q Hq. unfold f1. rewrite f_set_names by exact HP. apply HL. right. exact Hq.
    + intros _. apply HS. discriminate.
    + exists f'. split; [exact E1|]. split; [exact E2|]. split; [rewrite E3; apply f_set_labels; exact HP|]. split.
      * intros q Hq. rewrite E4 by (intros H; apply Hq; right; exact H). unfold f1. apply f_get_set_other. intros ->. apply Hq. left. reflexivity.
      * intros q v [<-|Hq] Hqv.
        -- rewrite E4 by exact Hp. unfold f1. rewrite f_get_set_same. congruence.
        -- apply E5; [exact Hq|]. unfold f1. rewrite f_get_set_other; [exact Hqv|]. intros ->. contradiction.
Qed.
Lemma shift_fixed_fail weight w : forall L f, f_get f weight = Some w -> (forall p, In p L -> In p (f_names f)) ->
  L <> [] -> qsum (qs w) == 0 -> shift_loop weight L f = Err ZeroDivisionError.
Proof.
  intros [|p L] f Hw HL N HS; [congruence|]. cbn [shift_loop].
  destruct (f_has_get f p (proj2 (f_has_names f p) (HL p (or_introl eq_refl)))) as [vals Hv]. rewrite Hv, Hw.
  unfold average. apply Qeq_bool_iff in HS. rewrite HS. reflexivity.
Qed.
Lemma shift_app weight L M f f' : shift_loop weight L f = Ok f' -> shift_loop weight (L ++ M) f = shift_loop weight M f'.
Proof.
  revert f. induction L as [|p L IH]; intros f H; cbn [shift_loop app] in *; [congruence|].
  destruct (f_get f p) as [vals|]; [|discriminate]. destruct (f_get f weight) as [w|]; [|discriminate].
  destruct (average (qs vals) (qs w)) as [mu|e]; cbn [rbind] in *; [|discriminate]. apply IH. exact H.
Qed.

(** The whole loop: the columns before the weights, the weights, the columns after. *)
Definition new_w (w : list cell) : list cell := shift_col w (mean_of w w).
Lemma new_w_sum w : forallb cell_finite w = true -> 0 < qsum (qs w) ->
  qsum (qs (new_w w)) * qsum (qs w) == qsum (qs w) * qsum (qs w) - nq (length (qs w)) * qdot (qs w) (qs w).
Proof.
  intros HF HP. unfold new_w. rewrite (qs_shift _ _ HF), qsum_sub. unfold mean_of. field. lra.
Qed.
Lemma shift_all weight pre post f w :
  f_names f = pre ++ weight :: post -> NoDup (f_names f) -> f_get f weight = Some w ->
  forallb cell_finite w = true -> (forall x, In x (qs w) -> 0 < x) -> w <> [] ->
  (post = [] \/ exists x y, In x (qs w) /\ In y (qs w) /\ ~ x == y) ->
  exists f', shift_loop weight (f_names f) f = Ok f' /\ f_index f' = f_index f /\ map fst (f_cols f') = map fst (f_cols f) /\
    f_get f' weight = Some (new_w w) /\
    (forall p vals, In p pre -> f_get f p = Some vals -> f_get f' p = Some (shift_col vals (mean_of vals w))) /\
    (forall p vals, In p post -> f_get f p = Some vals -> f_get f' p = Some (shift_col vals (mean_of vals (new_w w)))).
Proof.
  intros EN ND Hw HF HP HN HC.
  assert (SP : 0 < qsum (qs w)) by (apply qsum_pos; [unfold qs; destruct w; [congruence|discriminate]|exact HP]).
  rewrite EN in ND. pose proof (NoDup_remove _ _ _ ND) as [ND1 Hnw].
  assert (NDpre : NoDup pre). { clear -ND1. induction pre as [|x pre IH]; [constructor|]. cbn in ND1. inversion ND1; subst. constructor; [intros H; apply H1; apply in_or_app; left; exact H|apply IH; assumption]. }
  assert (NDpost : NoDup post). { clear -ND1. induction pre as [|x pre IH]; [exact ND1|]. cbn in ND1. inversion ND1; subst. apply IH; assumption. }
  assert (Disj : forall p, In p pre -> In p post -> False).
  { clear -ND1. intros p H1 H2. induction pre as [|x pre IH]; [destruct H1|]. cbn in ND1. inversion ND1; subst. destruct H1 as [->|H1]; [apply H3; apply in_or_app; right; exact H2|apply IH; assumption]. }
  assert (Npre : ~ In weight pre) by (intros H; apply Hnw; apply in_or_app; left; exact H).
  assert (Npost : ~ In weight post) by (intros H; apply Hnw; apply in_or_app; right; exact H).
  destruct (shift_fixed weight w pre f Hw Npre NDpre) as [f1 [A1 [A2 [A3 [A4 A5]]]]].
  { intros p Hp. rewrite EN. apply in_or_app. left. exact Hp. }
  { intros _ HZ. lra. }
  rewrite EN, (shift_app _ _ _ _ _ A1). cbn [shift_loop].
  assert (Hw1 : f_get f1 weight = Some w) by (rewrite A4 by exact Npre; exact Hw). rewrite Hw1.
  unfold average. assert (HZ : Qeq_bool (qsum (qs w)) 0 = false).
  { destruct (Qeq_bool (qsum (qs w)) 0) eqn:E; [|reflexivity]. apply Qeq_bool_iff in E. lra. }
  rewrite HZ. cbn [rbind]. fold (qdot (qs w) (qs w)). fold (mean_of w w). fold (shift_col w (mean_of w w)). fold (new_w w).
  set (f2 := f_set f1 weight (new_w w)).
  assert (Nm : f_names f1 = f_names f) by (apply str_labels_ext; exact A3).
  assert (Inw : In weight (f_names f1)) by (rewrite Nm, EN; apply in_or_app; right; left; reflexivity).
  destruct (shift_fixed weight (new_w w) post f2) as [f3 [B1 [B2 [B3 [B4 B5]]]]].
  - apply f_get_set_same.
  - exact Npost.
  - exact NDpost.
  - intros p Hp. unfold f2. rewrite f_set_names by exact Inw. rewrite Nm, EN. apply in_or_app. right. right. exact Hp.
  - intros Hne HZ0. destruct HC as [->|[x [y [Hx [Hy Hxy]]]]]; [congruence|].
    assert (NQ : qs w <> []) by (destruct (qs w); [destruct Hx|discriminate]).
    destruct (cauchy (qs w) NQ) as [_ CE]. apply Hxy. apply CE; [|exact Hx|exact Hy].
    pose proof (new_w_sum w HF SP) as E. rewrite HZ0 in E. lra.
  - exists f3. split; [exact B1|]. split; [rewrite B2; exact A2|].
    split; [rewrite B3; unfold f2; rewrite f_set_labels by exact Inw; exact A3|].
    split; [rewrite B4 by exact Npost; apply f_get_set_same|]. split.
    + intros p vals Hp Hv. rewrite B4 by (intros H; apply (Disj p Hp H)). unfold f2.
      rewrite f_get_set_other by (intros ->; contradiction). apply A5; assumption.
    + intros p vals Hp Hv. apply B5; [exact Hp|]. unfold f2. rewrite f_get_set_other by (intros ->; contradiction).
      rewrite A4 by (intros H; apply (Disj p H Hp)). exact Hv.
Qed.
Lemma shift_all_fail weight pre post f w :
  f_names f = pre ++ weight :: post -> NoDup (f_names f) -> f_get f weight = Some w ->
  forallb cell_finite w = true -> (forall x, In x (qs w) -> 0 < x) -> w <> [] ->
  post <> [] -> (forall x y, In x (qs w) -> In y (qs w) -> x == y) ->
  shift_loop weight (f_names f) f = Err ZeroDivisionError.
Proof.
  intros EN ND Hw HF HP HN HC HE.
  assert (SP : 0 < qsum (qs w)) by (apply qsum_pos; [unfold qs; destruct w; [congruence|discriminate]|exact HP]).
  rewrite EN in ND. pose proof (NoDup_remove _ _ _ ND) as [ND1 Hnw].
  assert (NDpre : NoDup pre). { clear -ND1. induction pre as [|x pre IH]; [constructor|]. cbn in ND1. inversion ND1; subst. constructor; [intros H; apply H1; apply in_or_app; left; exact H|apply IH; assumption]. }
  assert (Npre : ~ In weight pre) by (intros H; apply Hnw; apply in_or_app; left; exact H).
  destruct (shift_fixed weight w pre f Hw Npre NDpre) as [f1 [A1 [A2 [A3 [A4 A5]]]]].
  { intros p Hp. rewrite EN. apply in_or_app. left. exact Hp. }
  { intros _ HZ. lra. }
  rewrite EN, (shift_app _ _ _ _ _ A1). cbn [shift_loop].
  assert (Hw1 : f_get f1 weight = Some w) by (rewrite A4 by exact Npre; exact Hw). rewrite Hw1.
  unfold average. assert (HZ : Qeq_bool (qsum (qs w)) 0 = false).
  { destruct (Qeq_bool (qsum (qs w)) 0) eqn:E; [|reflexivity]. apply Qeq_bool_iff in E. lra. }
  rewrite HZ. cbn [rbind]. fold (qdot (qs w) (qs w)). fold (mean_of w w). fold (shift_col w (mean_of w w)). fold (new_w w).
  assert (Nm : f_names f1 = f_names f) by (apply str_labels_ext; exact A3).
  assert (Inw : In weight (f_names f1)) by (rewrite Nm, EN; apply in_or_app; right; left; reflexivity).
  apply (shift_fixed_fail weight (new_w w)); [apply f_get_set_same| |exact HC|].
  - intros p Hp. rewrite f_set_names by exact Inw. rewrite Nm, EN. apply in_or_app. right. right. exact Hp.
  - pose proof (new_w_sum w HF SP) as E.
    destruct (qs w) as [|a r] eqn:Eq; [cbn in SP; lra|].
    pose proof (cauchy_const (a :: r) a (fun x Hx => HE x a Hx (or_introl eq_refl))) as CC.
    destruct (Qeq_dec (qsum (qs (new_w w))) 0) as [|NE]; [assumption|]. exfalso.
    assert (EZ : qsum (qs (new_w w)) * qsum (a :: r) == 0) by (rewrite E; lra).
    apply Qmult_integral in EZ. destruct EZ; [contradiction|lra].
Qed.
(** The shifted weights are not all positive. *)
Lemma new_w_nonpos w : w <> [] -> forallb cell_finite w = true -> (forall x, In x (qs w) -> 0 < x) ->
  exists x, In x (qs (new_w w)) /\ x <= 0.
Proof.
  intros HN HF HP.
  assert (NQ : qs w <> []) by (unfold qs; destruct w; [congruence|discriminate]).
  assert (SP : 0 < qsum (qs w)) by (apply qsum_pos; assumption).
  assert (LE : qsum (qs (new_w w)) <= 0).
  { pose proof (new_w_sum w HF SP) as E. destruct (cauchy (qs w) NQ) as [C _]. 
    destruct (Qlt_le_dec 0 (qsum (qs (new_w w)))) as [L|L]; [exfalso; nra|exact L]. }
  assert (NQ2 : qs (new_w w) <> []) by (unfold new_w; rewrite qs_shift by exact HF; destruct (qs w); [congruence|discriminate]).
  destruct (existsb (fun x => Qle_bool x 0) (qs (new_w w))) eqn:EX.
  - apply existsb_exists in EX. destruct EX as [x [X1 X2]]. exists x. split; [exact X1|]. apply Qle_bool_iff. exact X2.
  - exfalso. assert (0 < qsum (qs (new_w w))); [|lra]. apply qsum_pos; [exact NQ2|]. intros x Hx.
    destruct (Qlt_le_dec 0 x) as [L|L]; [exact L|]. exfalso. assert (HT : existsb (fun x => Qle_bool x 0) (qs (new_w w)) = true); [|congruence].
    apply existsb_exists. exists x. split; [exact Hx|apply Qle_bool_iff; exact L].
Qed.
