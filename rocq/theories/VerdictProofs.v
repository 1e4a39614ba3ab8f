(** Proofs about the log of the diagnostics. *)
From Coq Require Import String Ascii List Bool Arith ZArith QArith Qround Reals Qreals Lia Lqa.
From Verif Require Import Py NumSpec NumModel NumFacts FrameModel ConfigModel ChainModel RegistryModel ChainSpec FormatModel FormatSpec FormatProofs CompareSpec CompareProofs DiagModel DiagSpec DiagProofs CovModel CovProofs WarnModel NoteModel NoteProofs VerdictModel VerdictSpec.
Import ListNotations.
Open Scope string_scope.
Open Scope list_scope.

(** ** One parameter *)
Lemma text_spec x m n : length x = (m * n)%nat -> (2 <= m)%nat -> shows_ratio x m n (gr_text x m n).
Proof.
  intros L M2. unfold gr_text, gr_parts. cbv zeta. eexists. split; [apply rjust_padded|]. fold (w0 x m). fold (b0 x m n).
  destruct (Nat.leb_spec n 1) as [H|H]; [left; split; [lia|reflexivity]|right]. split; [lia|]. exists (w0 x m), (b0 x m n). split; [apply variances_exist; [exact L|exact M2|lia]|].
  pose proof (gt1 m M2) as PM. pose proof (gt1 n ltac:(lia)) as PN. set (W := w0 x m). set (B := b0 x m n).
  assert (HM : ~ nq m == 0) by lra. assert (HN : ~ nq n == 0) by lra.
  assert (EV : (nq n - 1) * W / nq n + B / nq n + B / (nq n * nq m) == (nq n - 1) / nq n * W + B * ((nq m + 1) / (nq n * nq m))) by (field; split; assumption).
  destruct (Qeq_bool W 0) eqn:EW.
  - apply Qeq_bool_iff in EW. assert (EV' : (nq n - 1) * W / nq n + B / nq n + B / (nq n * nq m) == B * ((nq m + 1) / (nq n * nq m))) by (rewrite EV, EW; ring).
    assert (PC : ~ (nq m + 1) / (nq n * nq m) == 0).
    { assert (0 < (nq m + 1) / (nq n * nq m))%Q; [|lra]. apply Qlt_shift_div_l; nra. }
    destruct (Qeq_bool ((nq n - 1) * W / nq n + B / nq n + B / (nq n * nq m)) 0) eqn:E0.
    + left. apply Qeq_bool_iff in E0. rewrite EV' in E0. apply Qmult_integral in E0. split; [exact EW|]. split; [tauto|reflexivity].
    + right; left. apply Qeq_bool_neq in E0. rewrite EV' in E0. split; [exact EW|]. split; [|reflexivity]. intros Z. apply E0. rewrite Z. ring.
  - right; right. apply Qeq_bool_neq in EW. split; [exact EW|].
    rewrite (Qeq_eqR _ (computed_ratio m n W B)); [apply fixed_R_shows|]. unfold computed_ratio. field. repeat (split; try assumption).
Qed.
Lemma passed_spec x m n t : length x = (m * n)%nat -> (2 <= m)%nat -> (gr_passed t (gr_ratio x m n) = true <-> converged x m n t).
Proof.
  intros L M2. unfold converged. destruct (le_lt_dec 2 n) as [N2|N1].
  - rewrite (param_passes x m n t _ _ L M2 N2 (variances_exist x m n L M2 N2)). split.
    + intros [H1 H2]. split; [exact N2|]. do 2 eexists. split; [apply variances_exist; assumption|]. auto.
    + intros [_ [W [B [V H]]]]. apply (param_passes x m n t _ _ L M2 N2 (variances_exist x m n L M2 N2)). apply (param_passes x m n t _ _ L M2 N2 V). exact H.
  - unfold gr_ratio. destruct (Nat.leb_spec n 1) as [H|H]; [|lia]. cbn. split; [discriminate|intros [H2 _]; lia].
Qed.
Lemma line_spec x m n t p : length x = (m * n)%nat -> (2 <= m)%nat -> parameter_line m n t p x (gr_line p (gr_text x m n) (gr_passed t (gr_ratio x m n))).
Proof.
  intros L M2. exists (gr_text x m n), (if gr_passed t (gr_ratio x m n) then "Passed" else "Failed"). split; [reflexivity|]. split; [apply text_spec; assumption|].
  pose proof (passed_spec x m n t L M2) as P. destruct (gr_passed t (gr_ratio x m n)); [left; split; [tauto|reflexivity]|right]. split; [|reflexivity]. intros H. apply P in H. discriminate.
Qed.
Lemma sapp_inj_tail a b c d : String.length c = String.length d -> (a ++ c = b ++ d)%string -> c = d.
Proof.
  revert b. induction a as [|x a IH]; intros [|y b] L E; cbn in E; [exact E| | |].
  - apply (f_equal String.length) in E. cbn in E. rewrite sapp_len in E. lia.
  - apply (f_equal String.length) in E. cbn in E. rewrite sapp_len in E. lia.
  - injection E as _ E. exact (IH _ L E).
Qed.
Lemma line_failed p t b : says_failed (gr_line p t b) <-> b = false.
Proof.
  split.
  - intros [s E]. destruct b; [|reflexivity]. unfold gr_line in E. change (p ++ ": " ++ t ++ " (" ++ "Passed" ++ ")")%string with (p ++ (": " ++ (t ++ " (Passed)")))%string in E. rewrite <- !sapp_assoc in E. apply sapp_inj_tail in E; [discriminate E|reflexivity].
  - intros ->. exists (p ++ ": " ++ t)%string. unfold gr_line. rewrite !sapp_assoc. reflexivity.
Qed.

(** ** One chain *)
Lemma one_log c f xs m n th : walker_data c f xs m n -> (2 <= m)%nat ->
  logged_gelman_rubin_one th c f =
  (gr_heading (ch_name c) :: map (fun e => gr_line (fst e) (gr_text (fst (snd e)) m n) (snd (snd e))) (combine (data_columns c f) (combine xs (map (fun x => gr_passed th (gr_ratio x m n)) xs))),
   Ok {| t_passed := forallb (fun b => b) (map (fun x => gr_passed th (gr_ratio x m n)) xs); t_results := [(ch_name c, forallb (fun b => b) (map (fun x => gr_passed th (gr_ratio x m n)) xs))] |}).
Proof.
  intros D M2. unfold logged_gelman_rubin_one. rewrite (select_ok f _ xs (wk_wf _ _ _ _ _ D) (wk_cols _ _ _ _ _ D)). unfold lbind, silent. cbn [fst snd]. unfold f_rows. rewrite (wk_rows _ _ _ _ _ D), (wk_walkers _ _ _ _ _ D).
  rewrite Nat2Z.inj_mul. replace (Z.of_nat m * Z.of_nat n)%Z with (Z.of_nat n * Z.of_nat m)%Z by lia. rewrite Z.mod_mul by lia. cbn [Z.eqb negb].
  destruct (Z.ltb_spec 1 (Z.of_nat m)); [|lia]. cbn [negb]. rewrite Nat2Z.id. replace (m * n / m)%nat with n by (rewrite Nat.mul_comm, Nat.div_mul; lia). reflexivity.
Qed.
Lemma lines_spec m n th cols xs : length cols = length xs -> (forall x, In x xs -> length x = (m * n)%nat) -> (2 <= m)%nat ->
  let lines := map (fun e => gr_line (fst e) (gr_text (fst (snd e)) m n) (snd (snd e))) (combine cols (combine xs (map (fun x => gr_passed th (gr_ratio x m n)) xs))) in
  length lines = length xs /\
  (forall i p x, nth_error cols i = Some p -> nth_error xs i = Some x -> exists line, nth_error lines i = Some line /\ parameter_line m n th p x line) /\
  (forallb (fun b => b) (map (fun x => gr_passed th (gr_ratio x m n)) xs) = true <-> Forall (fun line => ~ says_failed line) lines).
Proof.
  intros LE LX M2. cbv zeta. revert cols LE. induction xs as [|x xs IH]; intros [|p cols] LE; try discriminate LE; [cbn; split; [reflexivity|]; split; [intros [|i] ? ? H; discriminate H|split; [constructor|reflexivity]]|].
  cbn [map combine length nth_error forallb fst snd]. destruct (IH (fun y H => LX y (or_intror H)) cols ltac:(cbn in LE; congruence)) as [I1 [I2 I3]]. split; [cbn; f_equal; exact I1|]. split.
  - intros [|i] q y E1 E2; cbn in *; [|exact (I2 i q y E1 E2)]. injection E1 as <-. injection E2 as <-. eexists. split; [reflexivity|]. apply line_spec; [apply LX; left; reflexivity|exact M2].
  - rewrite andb_true_iff, I3. split.
    + intros [H1 H2]. constructor; [|exact H2]. rewrite line_failed, H1. discriminate.
    + intros H. apply Forall_cons_iff in H. destruct H as [H1 H2]. split; [|exact H2]. rewrite line_failed in H1. destruct (gr_passed _ _); [reflexivity|exfalso; apply H1; reflexivity].
Qed.

(** ** The result is the same, and errors are silent *)
Definition quiet (g : chain -> frame -> logged test_result) : Prop := forall c f e, snd (g c f) = Err e -> fst (g c f) = [].
Lemma forallb_id {A} (g : A -> bool) l : forallb (fun b => b) (map g l) = forallb g l.
Proof. induction l as [|x l IH]; [reflexivity|]. cbn. rewrite IH. reflexivity. Qed.
Lemma gr_same th c f : snd (logged_gelman_rubin_one th c f) = gelman_rubin_one c f th.
Proof.
  unfold logged_gelman_rubin_one, gelman_rubin_one, lbind, silent. cbn [fst snd]. destruct (select f (data_columns c f)) as [xs|e]; [|reflexivity]. cbn [rbind fst snd]. destruct (negb _); [reflexivity|]. destruct (negb _); [reflexivity|]. cbn [snd].
  rewrite forallb_id. reflexivity.
Qed.
Lemma gr_quiet th : quiet (logged_gelman_rubin_one th).
Proof.
  intros c f e. unfold logged_gelman_rubin_one, lbind, silent. cbn [fst snd]. destruct (select f (data_columns c f)) as [xs|x]; [|reflexivity]. cbn [fst snd]. destruct (negb _); [reflexivity|]. destruct (negb _); [reflexivity|]. cbn [snd]. intros H. discriminate H.
Qed.
Section geweke.
Variables (yw : list Q -> nat -> list R * R) (nt : list R -> res (option R)) (et : option R -> string).
Lemma gw_same a b th c f : snd (logged_geweke_one yw nt et a b th c f) = geweke_one yw nt a b th c f.
Proof.
  unfold logged_geweke_one, geweke_one, lbind, silent. destruct (negb _); [reflexivity|]. cbn [fst snd]. destruct (select f (data_columns c f)) as [xs|e]; [|reflexivity]. cbn [rbind fst snd]. destruct (negb _); [reflexivity|]. cbn [fst snd].
  destruct (rmapM _ _) as [zss|e]; [|reflexivity]. cbn [rbind fst snd]. destruct (nt _) as [p|e]; reflexivity.
Qed.
Lemma gw_quiet a b th : quiet (logged_geweke_one yw nt et a b th).
Proof.
  intros c f e. unfold logged_geweke_one, lbind, silent. destruct (negb _); [reflexivity|]. cbn [fst snd]. destruct (select f (data_columns c f)) as [xs|x]; [|reflexivity]. cbn [fst snd]. destruct (negb _); [reflexivity|]. cbn [fst snd].
  destruct (rmapM _ _) as [zss|x]; [|reflexivity]. cbn [fst snd]. destruct (nt _) as [p|x]; [intros H; discriminate H|reflexivity].
Qed.
Lemma gw_log a b th c f ws t : logged_geweke_one yw nt et a b th c f = (ws, Ok t) -> exists zs p, nt zs = Ok p /\ ws = [gw_line (ch_name c) (et p)] /\ (t_passed t = true <-> exists v, p = Some v /\ (Q2R th < v)%R) /\
  forall nt', nt' zs = Ok p -> exists t', geweke_one yw nt' a b th c f = Ok t'.
Proof.
  unfold logged_geweke_one, geweke_one, lbind, silent. destruct (negb _); [discriminate|]. cbn [fst snd]. destruct (select f (data_columns c f)) as [xs|x]; [|discriminate]. cbn [fst snd rbind]. destruct (negb _); [discriminate|]. cbn [fst snd].
  destruct (rmapM _ _) as [zss|x]; [|discriminate]. cbn [fst snd rbind]. destruct (nt _) as [p|x] eqn:EN; [|discriminate]. cbn [fst snd app]. intros H. injection H as <- <-. exists (concat zss), p. split; [exact EN|]. split; [reflexivity|]. cbn [t_passed]. split; [|intros nt' EN'; rewrite EN'; cbn [rbind]; eexists; reflexivity].
  destruct p as [v|]; [|split; [discriminate|intros [v [H _]]; discriminate H]]. destruct (Rlt_dec (Q2R th) v) as [L|L]; (split; [|intros [v' [H1 H2]]]); try reflexivity; try discriminate; [intros _; exists v; auto|]. injection H1 as <-. contradiction.
Qed.
End geweke.

(** ** Several chains *)
Definition run_logged (one : chain -> frame -> logged test_result) (w : world) (l : nat) : logged test_result :=
  match chain_at (fst w) l with Some c => one c (frame_at (fst w) (ch_samples c)) | None => ([], Err TypeError) end.
Lemma run_denotes one w q l : denotes w q l -> logged_over one w (DOne q) = run_logged one w l.
Proof.
  intros HD. unfold logged_over, lbind, silent. cbn [fst snd]. rewrite (proj2 (diag_chains_spec w (DOne q) [l])) by (exists l; auto). fold (run_logged one w l). destruct (run_logged one w l) as [ws t]. reflexivity.
Qed.
Lemma run_single one w l : logged_over one w (DOne (DObject l)) = run_logged one w l.
Proof. unfold logged_over, lbind, silent. cbn [diag_chains resolve rmap fst snd]. fold (run_logged one w l). destruct (run_logged one w l) as [ws t]. reflexivity. Qed.
Lemma lmapM_same {A B} (g : A -> logged B) (k : A -> res B) l : (forall x, snd (g x) = k x) -> snd (lmapM g l) = rmapM k l.
Proof.
  intros E. induction l as [|x l IH]; [reflexivity|]. cbn [lmapM rmapM]. unfold lbind at 1. rewrite (E x). destruct (k x) as [y|e]; [|reflexivity]. cbn [snd rbind]. unfold lbind, silent. cbn [fst snd]. rewrite IH. destruct (rmapM k l); reflexivity.
Qed.
Lemma over_same g k w r : (forall c f, snd (g c f) = k c f) -> snd (logged_over g w r) = over_chains k w r.
Proof.
  intros E. unfold logged_over, over_chains, lbind at 1, silent. cbn [fst snd]. destruct (diag_chains w r) as [ls|e]; [|reflexivity]. cbn [rbind]. fold (run_logged g w). fold (run_one k w).
  assert (ER : forall l, snd (run_logged g w l) = run_one k w l). { intros l. unfold run_logged, run_one. destruct (chain_at (fst w) l); [apply E|reflexivity]. }
  destruct ls as [|l1 [|l2 ls]]; [reflexivity|apply ER|]. cbn [snd]. unfold lbind. rewrite (lmapM_same (run_logged g w) (run_one k w)) by exact ER. destruct (rmapM (run_one k w) (l1 :: l2 :: ls)); reflexivity.
Qed.
Lemma lmapM_turn {A B} (g : A -> logged B) l : (forall x e, snd (g x) = Err e -> fst (g x) = []) ->
  match snd (lmapM g l) with
  | Ok _ => Forall (fun x => exists y, snd (g x) = Ok y) l /\ fst (lmapM g l) = concat (map (fun x => fst (g x)) l)
  | Err e => exists before x after, l = before ++ x :: after /\ Forall (fun x => exists y, snd (g x) = Ok y) before /\ g x = ([], Err e) /\ fst (lmapM g l) = concat (map (fun x => fst (g x)) before)
  end.
Proof.
  intros QU. induction l as [|x l IH]; [split; [constructor|reflexivity]|]. cbn [lmapM]. unfold lbind at 1 3 5. destruct (snd (g x)) as [y|e] eqn:EX.
  - cbn [fst snd]. unfold lbind, silent. destruct (snd (lmapM g l)) as [ys|e]; cbn [fst snd].
    + destruct IH as [I1 I2]. split; [constructor; [exists y; exact EX|exact I1]|]. cbn [map concat]. rewrite app_nil_r, I2. reflexivity.
    + destruct IH as [before [z [after [-> [I1 [I2 I3]]]]]]. exists (x :: before), z, after. split; [reflexivity|]. split; [constructor; [exists y; exact EX|exact I1]|]. split; [exact I2|]. cbn [map concat]. rewrite I3. reflexivity.
  - cbn [fst snd]. exists [], x, l. split; [reflexivity|]. split; [constructor|]. rewrite (QU x e EX). split; [|reflexivity]. pose proof (QU x e EX) as Q1. destruct (g x) as [a b]. cbn in Q1, EX. subst. reflexivity.
Qed.
Lemma over_turn g w r ls : quiet g -> asked_for w r ls -> in_turn (fun l => logged_over g w (DOne (DObject l))) ls (logged_over g w r).
Proof.
  intros QU HA. apply diag_chains_spec in HA.
  assert (QR : forall l e, snd (run_logged g w l) = Err e -> fst (run_logged g w l) = []). { intros l e. unfold run_logged. destruct (chain_at (fst w) l); [apply QU|reflexivity]. }
  assert (EF : logged_over g w r = match ls with [] => ([], Err IndexError) | [l] => run_logged g w l | _ => lbind (lmapM (run_logged g w) ls) (fun ts => silent (Ok (combine_results ts))) end).
  { unfold logged_over, lbind at 1, silent at 1. cbn [fst snd]. rewrite HA. cbn [app]. symmetry. apply surjective_pairing. }
  rewrite EF. clear EF HA. unfold in_turn.
  assert (ES : forall l, logged_over g w (DOne (DObject l)) = run_logged g w l) by (intros; apply run_single).
  assert (EM : forall l0, map (fun l => fst (logged_over g w (DOne (DObject l)))) l0 = map (fun l => fst (run_logged g w l)) l0) by (intros; apply map_ext; intros; rewrite ES; reflexivity).
  assert (EA : forall l0, Forall (fun l => exists t, snd (run_logged g w l) = Ok t) l0 -> Forall (fun l => exists t, snd (logged_over g w (DOne (DObject l))) = Ok t) l0).
  { intros l0. apply Forall_impl. intros l. rewrite ES. auto. }
  destruct ls as [|l1 [|l2 ls]].
  - cbn [snd fst]. left. auto.
  - destruct (snd (run_logged g w l1)) as [t|e] eqn:E1.
    + split; [discriminate|]. split; [apply EA; constructor; [exists t; exact E1|constructor]|]. rewrite EM. cbn. rewrite app_nil_r. reflexivity.
    + right. exists [], l1, []. split; [reflexivity|]. split; [constructor|]. rewrite ES. pose proof (QR l1 e E1) as Q1. destruct (run_logged g w l1) as [a b]. cbn in *. subst. auto.
  - pose proof (lmapM_turn (run_logged g w) (l1 :: l2 :: ls) QR) as T. set (L := l1 :: l2 :: ls) in *. unfold lbind, silent. destruct (snd (lmapM (run_logged g w) L)) as [ts|e]; cbn [fst snd].
    + destruct T as [T1 T2]. split; [discriminate|]. split; [apply EA; exact T1|]. rewrite EM, app_nil_r. exact T2.
    + right. destruct T as [before [x [after [T1 [T2 [T3 T4]]]]]]. exists before, x, after. split; [exact T1|]. split; [apply EA; exact T2|]. rewrite ES, EM. auto.
Qed.
