(** Proofs for C117. *)
From Coq Require Import String List Bool Arith ZArith QArith Lia Lqa.
From Verif Require Import Py NumModel ColorModel FrameModel ConfigModel ChainModel AnalysisModel SurfaceModel FigureModel FigureSpec FigureProofs WalkProofs EquivSpec WalkUnitSpec.
Import ListNotations.
Open Scope list_scope.
Open Scope Q_scope.

Section units.
Variables a b : Q.
Local Notation U := (Forall2 (in_units a b)).
Lemma unit_len l l' : U l l' -> length l' = length l.
Proof. induction 1; cbn; congruence. Qed.
Lemma unit_skip n : forall l l', U l l' -> U (skipn n l) (skipn n l').
Proof. induction n as [|n IH]; intros l l' H; [exact H|]. destruct H; [constructor|]. cbn. apply IH. assumption. Qed.
Lemma unit_first n : forall l l', U l l' -> U (firstn n l) (firstn n l').
Proof. induction n as [|n IH]; intros l l' H; [constructor|]. destruct H; [constructor|]. cbn. constructor; [assumption|]. apply IH. assumption. Qed.
Lemma unit_every k l l' : U l l' -> U (every k l) (every k l').
Proof.
  intros H. unfold every. rewrite (unit_len _ _ H). generalize (length l) as fuel. intros fuel. revert l l' H. induction fuel as [|fuel IH]; intros l l' H; [constructor|]. destruct H as [|x x' l l' X H]; [constructor|]. cbn [every_fuel]. constructor; [exact X|]. apply IH. apply unit_skip. exact H.
Qed.
Lemma unit_thin mp l l' : U l l' -> U (thin mp l) (thin mp l').
Proof. intros H. unfold thin. rewrite (unit_len _ _ H). destruct (_ <? _)%nat; [apply unit_every|]; exact H. Qed.
Lemma unit_sum l l' : U l l' -> qsum l' == a * qsum l + b * nq (length l).
Proof.
  induction 1 as [|x x' l l' X H IH]; [cbn [qsum length]; change (nq 0) with 0; ring|]. cbn [qsum length]. unfold in_units in X. assert (E : nq (S (length l)) == 1 + nq (length l)) by (unfold nq; rewrite Nat2Z.inj_succ, <- Z.add_1_l, inject_Z_plus; reflexivity). rewrite E, X, IH. ring.
Qed.
Lemma unit_mean w l l' j : (0 < w)%nat -> U l l' -> (j + w <= length l)%nat -> in_units a b (box_mean w l (Nat.div2 w + j)) (box_mean w l' (Nat.div2 w + j)).
Proof.
  intros W H L. destruct (box_mean_ok w l j W) as [E|E]; [|lia]. destruct (box_mean_ok w l' j W) as [E'|E']; [|rewrite (unit_len _ _ H) in E'; lia].
  pose proof (unit_sum _ _ (unit_first w _ _ (unit_skip j _ _ H))) as S. rewrite <- E, <- E', firstn_length, skipn_length in S. replace (Nat.min w (length l - j)) with w in S by lia.
  assert (N : ~ nq w == 0) by (unfold nq; intros K; assert (inject_Z (Z.of_nat w) > 0) by (change 0 with (inject_Z 0); rewrite <- Zlt_Qlt; lia); lra).
  unfold in_units. apply (Qmult_inj_r _ _ _ N). rewrite S. ring.
Qed.
Lemma unit_points n l l' s : (forall i, In i s -> in_units a b (box_mean n l i) (box_mean n l' i)) -> line_in_units a b (map (fun i => (nq i, box_mean n l i)) s) (map (fun i => (nq i, box_mean n l' i)) s).
Proof. induction s as [|i r IH]; intros G; [constructor|]. cbn [map]. constructor; [cbn [fst snd]; split; [reflexivity|apply G; left; reflexivity]|]. apply IH. intros k K. apply G. right. exact K. Qed.
Lemma unit_smoothed w l l' pts : U l l' -> smoothed_walk w l = Ok pts -> exists pts', smoothed_walk w l' = Ok pts' /\ line_in_units a b pts pts'.
Proof.
  intros H. unfold smoothed_walk. destruct (Z.leb_spec w 0); [discriminate|]. cbv zeta. rewrite (unit_len _ _ H). assert (W : (0 < Z.to_nat w)%nat) by lia. generalize dependent (Z.to_nat w). intros n W. destruct (Nat.ltb_spec (length l) n) as [_|L].
  - destruct (Nat.even n); [|discriminate]. intros E. injection E as <-. exists []. split; [reflexivity|constructor].
  - destruct (Nat.div2 n =? 0)%nat; intros E; injection E as <-; eexists; (split; [reflexivity|]); [constructor|]. unfold line_in_units.
    assert (G : forall i, In i (seq (Nat.div2 n) (length l - 2 * Nat.div2 n)%nat) -> in_units a b (box_mean n l i) (box_mean n l' i)).
    { intros i I. apply in_seq in I. pose proof (Nat.div2_odd n) as O. assert (B : (Nat.b2n (Nat.odd n) <= 1)%nat) by (destruct (Nat.odd n); cbn; lia).
      replace i with (Nat.div2 n + (i - Nat.div2 n))%nat by lia. apply unit_mean; [exact W|exact H|lia]. }
    exact (unit_points n l l' _ G).
Qed.
Definition drawn_alike (calls calls' : list call) : Prop := Forall2 (walk_in_units a b) (walks calls) (walks calls') /\ Forall2 (line_in_units a b) (smooths calls) (smooths calls').
Lemma limits_none e calls : match e with Some x => set_limits AY (Some x) | None => Ok [] end = Ok calls -> walks calls = [] /\ smooths calls = [].
Proof. destruct e as [[[lo hi]|]|]; cbn; intros H; try discriminate; injection H as <-; split; reflexivity. Qed.
Lemma unit_plot_walk cfg cfg' p p' l l' e e' convolve col lg lg' calls calls' : U l l' -> plot_walk cfg p l e convolve col lg = Ok calls -> plot_walk cfg' p' l' e' convolve col lg' = Ok calls' -> drawn_alike calls calls'.
Proof.
  intros H. unfold plot_walk. destruct (match e with Some x => _ | None => _ end) as [y|] eqn:Y; [|discriminate]. destruct (match e' with Some x => _ | None => _ end) as [y'|] eqn:Y'; [|discriminate]. cbn [rbind].
  destruct (limits_none _ _ Y) as [Y1 Y2]. destruct (limits_none _ _ Y') as [Y1' Y2']. destruct l as [|v l]; [discriminate|]. destruct l' as [|v' l']; [discriminate|].
  destruct (match convolve with None => Ok [] | Some w => rbind (scale_colour _ _ _) (fun c2 => rmap _ (smoothed_walk w (v :: l))) end) as [cv|] eqn:C; [|discriminate].
  destruct (match convolve with None => Ok [] | Some w => rbind (scale_colour _ _ _) (fun c2 => rmap _ (smoothed_walk w (v' :: l'))) end) as [cv'|] eqn:C'; [|discriminate]. cbn [rbind]. intros E E'. injection E as <-. injection E' as <-.
  assert (K : walks cv = [] /\ walks cv' = [] /\ Forall2 (line_in_units a b) (smooths cv) (smooths cv')).
  { destruct convolve as [w|]; [|injection C as <-; injection C' as <-; repeat split; constructor]. destruct (scale_colour _ _ _) as [c2|]; [|discriminate]. cbn [rbind] in *.
    destruct (smoothed_walk w (v :: l)) as [pts|] eqn:S; [|discriminate]. destruct (unit_smoothed _ _ _ _ H S) as [pts' [S' LU]]. rewrite S' in C'. cbn [rmap] in *. injection C as <-. injection C' as <-. split; [reflexivity|]. split; [reflexivity|]. cbn [smooths flat_map app]. constructor; [exact LU|constructor]. }
  destruct K as [K1 [K2 K3]]. unfold drawn_alike. rewrite !walks_app, !smooths_app, Y1, Y2, Y1', Y2'. unfold walks, smooths in *. cbn [flat_map app]. rewrite !flat_map_app.
  destruct lg, lg'; cbn [flat_map app]; rewrite K1, K2; (split; [constructor; [split; [exact H|reflexivity]|constructor]|exact K3]).
Qed.
Lemma alike_app x x' y y' : drawn_alike x x' -> drawn_alike y y' -> drawn_alike (x ++ y) (x' ++ y').
Proof. intros [A1 A2] [B1 B2]. unfold drawn_alike. rewrite !walks_app, !smooths_app. split; apply Forall2_app; assumption. Qed.
Lemma truths_none p (truths : list truth) : walks (flat_map (fun t => match dget p (t_location t) with Some v => [HLine v (truth_line t)] | None => [] end) truths) = [] /\ smooths (flat_map (fun t => match dget p (t_location t) with Some v => [HLine v (truth_line t)] | None => [] end) truths) = [].
Proof. induction truths as [|t r [I1 I2]]; [split; reflexivity|]. cbn [flat_map]. rewrite walks_app, smooths_app, I1, I2. destruct (dget p (t_location t)); split; reflexivity. Qed.
Lemma unit_row mp cfg cfg' truths truths' bs bs' convolve p calls calls' : Forall2 (rows_in_units a b p) (pb_chains bs) (pb_chains bs') ->
  column_row mp cfg truths bs convolve p = Ok calls -> column_row mp cfg' truths' bs' convolve p = Ok calls' -> drawn_alike calls calls'.
Proof.
  intros F. unfold column_row, walk_rows. destruct (rmap _ (rmapM _ (pb_chains bs))) as [r|] eqn:R; [|discriminate]. destruct (rmap _ (rmapM _ (pb_chains bs'))) as [r'|] eqn:R'; [|discriminate]. cbn [rbind]. intros E E'. injection E as <-. injection E' as <-.
  apply alike_app.
  2:{ unfold drawn_alike. rewrite !walks_app, !smooths_app, !(proj1 (truths_none _ _)), !(proj2 (truths_none _ _)). destruct (smem p (pb_blind bs)), (smem p (pb_blind bs')); split; constructor. }
  destruct (rmapM _ (pb_chains bs)) as [rs|] eqn:M; [|discriminate]. destruct (rmapM _ (pb_chains bs')) as [rs'|] eqn:M'; [|discriminate]. cbn [rmap] in R, R'. injection R as <-. injection R' as <-. apply rmapM_ok in M, M'.
  revert rs rs' M M'. generalize (pb_extents bs) (pb_extents bs') (pb_logs bs) (pb_logs bs'). intros ex ex' lo lo'. induction F as [|[c f] [c' f'] l l' [F1 [F2 F3]] F IH]; intros rs rs' M M'; inversion M as [|? x ? xs X XS]; inversion M' as [|? x' ? xs' X' XS']; subst; [split; constructor|].
  cbn [concat]. apply alike_app; [|exact (IH _ _ XS XS')]. cbn [fst snd] in *. subst c'. destruct (smem p (data_columns c f)) eqn:D, (smem p (data_columns c f')) eqn:D'.
  - apply smem_In in D. destruct (F3 D) as [v [v' [V [V' UV]]]]. unfold get_data in X, X'. rewrite V in X. rewrite V' in X'. cbn [rbind] in X, X'. destruct (chain_colour c) as [col|]; [|discriminate]. cbn [rbind] in X, X'. exact (unit_plot_walk _ _ _ _ _ _ _ _ _ _ _ _ _ _ (unit_thin mp _ _ UV) X X').
  - exfalso. apply smem_In in D. apply F2, smem_In in D. congruence.
  - exfalso. apply smem_In in D'. apply F2, smem_In in D'. congruence.
  - injection X as <-. injection X' as <-. split; constructor.
Qed.
End units.
