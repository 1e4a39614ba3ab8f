(** C37-C39: model comparison. *)
From Coq Require Import String Ascii List Bool Arith ZArith QArith Qround Lia Reals Qreals Permutation Lra Lqa.
From Verif Require Import Py NumSpec NumModel NumFacts FrameModel FrameFacts ColorModel MarginalModel ConfigModel ChainModel RegistryModel RegistrySpec ChainSpec HeapFacts RegistryProofs ShiftProofs ChainProofs
  ChainUseProofs CovModel CovSpec CovProofs DiagProofs GewekeProofs RegistryProps ChainProps SessionProofs FormatModel FormatSpec FormatProofs CompareModel CompareSpec CompareProofs.
Import ListNotations.
Open Scope string_scope.
Open Scope list_scope.

Lemma registered_sound rgb plain w n c f : session rgb plain w -> registered w n c f -> sound c f /\ (plain = true -> unshifted c f).
Proof. intros S [l [_ [HC ->]]]. exact (proj2 (proj2 (proj1 (session_good _ _ _ S)) l c HC)). Qed.
Lemma session_ok rgb plain w : session rgb plain w -> world_ok w.
Proof. intros S. exact (reachable_ok _ _ (session_reachable _ _ _ S)). Qed.

(** ** C38 *)
Theorem C38_aic : forall rgb2hex w, session rgb2hex false w ->
  (forall n c f N k, registered w n c f -> has_posterior c f -> ch_ndata c = Some (Fin N) -> ch_nfree c = Some k -> ~ (N == inject_Z k + 1)%Q) ->
  exists d, aic w = Ok d /\ relative_scores w has_counts has_aic d.
Proof.
  intros rgb w S H. apply scores_ok; [exact (session_ok _ _ _ S)|]. intros n c f R. apply aic_raw; [exact (proj1 (registered_sound _ _ _ _ _ _ S R))|]. intros N k. exact (H n c f N k R).
Qed.
Print Assumptions C38_aic.
(** Otherwise it raises: N = k + 1. *)
Theorem C38_aic_raises : forall rgb2hex w e, session rgb2hex false w ->
  (aic w = Err e <-> e = ZeroDivisionError /\ exists n c f N k, registered w n c f /\ has_posterior c f /\ ch_ndata c = Some (Fin N) /\ ch_nfree c = Some k /\ (N == inject_Z k + 1)%Q).
Proof.
  intros rgb w e S. pose proof (session_ok _ _ _ S) as W. split.
  - intros H. destruct (scores_err _ _ _ W H) as [n [c [f [R E]]]]. destruct (aic_err c f e (proj1 (registered_sound _ _ _ _ _ _ S R)) E) as [-> [N [k K]]]. split; [reflexivity|]. exists n, c, f, N, k. auto.
  - intros [-> [n [c [f [N [k [R [H1 [H2 [H3 H4]]]]]]]]]]. pose proof (aic_zero c f N k (proj1 (registered_sound _ _ _ _ _ _ S R)) H1 H2 H3 H4) as Z. unfold aic. destruct (scores raw_aic w) as [d|e] eqn:E.
    + destruct (scores_ok_inv _ _ _ _ _ _ W E R) as [o Ho]. rewrite Z in Ho. discriminate.
    + destruct (scores_err _ _ _ W E) as [n' [c' [f' [R' E']]]]. destruct (aic_err c' f' e (proj1 (registered_sound _ _ _ _ _ _ S R')) E') as [-> _]. reflexivity.
Qed.
Print Assumptions C38_aic_raises.
Theorem C38_bic : forall rgb2hex w, session rgb2hex false w ->
  (forall n c f N, registered w n c f -> has_counts c f -> ch_ndata c = Some (Fin N) -> (0 < N)%Q) ->
  exists d, bic w = Ok d /\ relative_scores w has_counts has_bic d.
Proof.
  intros rgb w S H. apply scores_ok; [exact (session_ok _ _ _ S)|]. intros n c f R. apply bic_raw; [exact (proj1 (registered_sound _ _ _ _ _ _ S R))|]. intros N. exact (H n c f N R).
Qed.
Print Assumptions C38_bic.
(** Without data points (N = 0) the logarithm is infinite. *)
Theorem C38_bic_infinite : forall rgb2hex w e, session rgb2hex false w ->
  (bic w = Err e <-> e = NaNResult /\ exists n c f N, registered w n c f /\ has_counts c f /\ ch_ndata c = Some (Fin N) /\ (N == 0)%Q).
Proof.
  intros rgb w e S. pose proof (session_ok _ _ _ S) as W. split.
  - intros H. destruct (scores_err _ _ _ W H) as [n [c [f [R E]]]]. destruct (bic_err c f e (proj1 (registered_sound _ _ _ _ _ _ S R)) E) as [-> [HC [N K]]]. split; [reflexivity|]. exists n, c, f, N. auto.
  - intros [-> [n [c [f [N [R [H1 [H2 H3]]]]]]]]. pose proof (bic_zero c f N (proj1 (registered_sound _ _ _ _ _ _ S R)) H1 H2 H3) as Z. unfold bic. destruct (scores raw_bic w) as [d|e] eqn:E.
    + destruct (scores_ok_inv _ _ _ _ _ _ W E R) as [o Ho]. rewrite Z in Ho. discriminate.
    + destruct (scores_err _ _ _ W E) as [n' [c' [f' [R' E']]]]. destruct (bic_err c' f' e (proj1 (registered_sound _ _ _ _ _ _ S R')) E') as [-> _]. reflexivity.
Qed.
Print Assumptions C38_bic_infinite.
(** The DIC, when shift_params (which also shifts the weights, C10) is not used. *)
Theorem C38_dic : forall rgb2hex nearest w, session rgb2hex true w -> nearest_ok nearest ->
  (forall n c f, registered w n c f -> has_posterior c f -> data_columns c f <> []) ->
  exists d, dic nearest w = Ok d /\ relative_scores w has_posterior has_dic d.
Proof.
  intros rgb nearest w S NO H. apply scores_ok; [exact (session_ok _ _ _ S)|]. intros n c f R. destruct (registered_sound _ _ _ _ _ _ S R) as [SO U].
  destruct (log_posterior_spec c f SO) as [[EP NP]|[p [EP [HP _]]]]; [right; split; [exact NP|unfold raw_dic; rewrite EP; reflexivity]|].
  apply dic_raw; [exact NO|exact SO|exact (proj2 (U eq_refl))|]. apply (H n c f R). eexists. exact HP.
Qed.
Print Assumptions C38_dic.
(** A chain that does not qualify changes nothing. *)
Theorem C38_unscored : forall rgb2hex nearest w l c w', session rgb2hex false w -> chain_at (fst w) l = Some c -> add_chain w l = (w', Ok tt) ->
  let f := frame_at (fst w) (ch_samples c) in
  (~ has_counts c f -> aic w' = aic w /\ bic w' = bic w) /\ (~ has_posterior c f -> dic nearest w' = dic nearest w).
Proof.
  intros rgb nearest w l c w' S HC H f. destruct (proj2 (proj1 (session_good _ _ _ S)) l c HC) as [_ [SO _]]. fold f in SO.
  split; intros NQ.
  - split; apply (scores_add _ w l c w' HC); try exact H; fold f.
    + unfold raw_aic. destruct (log_posterior_spec c f SO) as [[-> _]|[p [-> [HP _]]]]; [reflexivity|]. destruct (ch_ndata c) as [x|] eqn:EN; [|reflexivity]. destruct (ch_nfree c) as [k|] eqn:EK; [|reflexivity]. exfalso. apply NQ. split; [eexists; exact HP|]. rewrite EN, EK. split; discriminate.
    + unfold raw_bic. destruct (log_posterior_spec c f SO) as [[-> _]|[p [-> [HP _]]]]; [reflexivity|]. destruct (ch_ndata c) as [x|] eqn:EN; [|reflexivity]. destruct (ch_nfree c) as [k|] eqn:EK; [|reflexivity]. exfalso. apply NQ. split; [eexists; exact HP|]. rewrite EN, EK. split; discriminate.
  - apply (scores_add _ w l c w' HC); [|exact H]. fold f. unfold raw_dic. destruct (log_posterior_spec c f SO) as [[-> _]|[p [-> [HP _]]]]; [reflexivity|]. exfalso. apply NQ. eexists. exact HP.
Qed.
Print Assumptions C38_unscored.
(** The raw AIC and BIC are determined by the chain. *)
Lemma largest_unique P P' p : is_largest P p -> is_largest P' p -> (P == P')%Q.
Proof. intros [I1 L1] [I2 L2]. apply Qle_antisym; auto. Qed.
Lemma column_unique f n p p' : frame_wf f -> column f n p -> column f n p' -> p = p'.
Proof.
  intros [ND _] H H'. unfold column in *. assert (E : map Fin p = map Fin p').
  { clear - ND H H'. induction (f_cols f) as [|[k v] r IH]; [destruct H|]. cbn in ND. inversion ND as [|? ? NI ND']; subst. destruct H as [H|H], H' as [H'|H'].
    - congruence.
    - injection H as -> _. exfalso. apply NI. apply (in_map fst) in H'. exact H'.
    - injection H' as -> _. exfalso. apply NI. apply (in_map fst) in H. exact H.
    - apply IH; assumption. }
  clear H H'. revert p' E. clear. induction p as [|x p IH]; intros [|y p'] E; try discriminate; [reflexivity|]. cbn in E. injection E as -> E. f_equal. apply IH. exact E.
Qed.
Theorem C38_determined : forall rgb2hex w n c f, session rgb2hex false w -> registered w n c f ->
  (forall x y, has_aic c f x -> has_aic c f y -> x = y) /\ (forall x y, has_bic c f x -> has_bic c f y -> x = y).
Proof.
  intros rgb w n c f S R. destruct (registered_sound _ _ _ _ _ _ S R) as [SO _]. split; intros x y (p & P & N & k & H1 & H2 & H3 & H4 & H5 & ->) (p' & P' & N' & k' & H1' & H2' & H3' & H4' & H5' & ->);
    rewrite (column_unique _ _ _ _ (so_wf _ _ SO) H1 H1') in *; pose proof (largest_unique _ _ _ H4 H4') as EP; rewrite H2 in H2'; rewrite H3 in H3'; injection H2' as <-; injection H3' as <-; unfold AICc, BIC; rewrite (Qeq_eqR _ _ EP); reflexivity.
Qed.
Print Assumptions C38_determined.

(** ** C37 *)
Theorem C37_aic : forall rgb2hex w d, session rgb2hex false w -> aic w = Ok d ->
  (forall n v, dget n d = Some v -> (0 <= v)%R) /\ (d <> [] -> exists n, dget n d = Some 0%R) /\
  (forall n m u v, dget n d = Some u -> dget m d = Some v -> exists cn fn cm fm x y, registered w n cn fn /\ registered w m cm fm /\ has_aic cn fn x /\ has_aic cm fm y /\ (u - v = x - y)%R).
Proof.
  intros rgb w d S H. destruct (C38_aic rgb w S) as [d' [H' [RN [low [R1 [R2 R3]]]]]].
  - intros n c f N k R HP EN EK E. assert (HE : aic w = Err ZeroDivisionError) by (apply (C38_aic_raises rgb w _ S); split; [reflexivity|]; exists n, c, f, N, k; auto). congruence.
  - rewrite H in H'. injection H' as <-. split; [exact R2|]. split; [exact R3|]. intros n m u v Hu Hv. destruct (R1 n u Hu) as [cn [fn [A1 A2]]]. destruct (R1 m v Hv) as [cm [fm [B1 B2]]]. exists cn, fn, cm, fm, (u + low)%R, (v + low)%R.
    do 4 (split; [assumption|]). ring.
Qed.
Print Assumptions C37_aic.
Theorem C37_bic : forall rgb2hex w d, session rgb2hex false w -> bic w = Ok d ->
  (forall n v, dget n d = Some v -> (0 <= v)%R) /\ (d <> [] -> exists n, dget n d = Some 0%R) /\
  (forall n m u v, dget n d = Some u -> dget m d = Some v -> exists cn fn cm fm x y, registered w n cn fn /\ registered w m cm fm /\ has_bic cn fn x /\ has_bic cm fm y /\ (u - v = x - y)%R).
Proof.
  intros rgb w d S H. destruct (C38_bic rgb w S) as [d' [H' [RN [low [R1 [R2 R3]]]]]].
  - intros n c f N R HC EN. destruct (Qlt_le_dec 0 N) as [L|L]; [exact L|]. exfalso. destruct (registered_sound _ _ _ _ _ _ S R) as [SO _]. destruct (so_ndata _ _ SO _ EN) as [q [EQ Hq]]. injection EQ as <-.
    assert (HE : bic w = Err NaNResult) by (apply (C38_bic_infinite rgb w _ S); split; [reflexivity|]; exists n, c, f, N; repeat (split; [assumption|]); lra). congruence.
  - rewrite H in H'. injection H' as <-. split; [exact R2|]. split; [exact R3|]. intros n m u v Hu Hv. destruct (R1 n u Hu) as [cn [fn [A1 A2]]]. destruct (R1 m v Hv) as [cm [fm [B1 B2]]]. exists cn, fn, cm, fm, (u + low)%R, (v + low)%R.
    do 4 (split; [assumption|]). ring.
Qed.
Print Assumptions C37_bic.
Theorem C37_dic : forall rgb2hex nearest w d, session rgb2hex true w -> nearest_ok nearest -> dic nearest w = Ok d ->
  (forall n v, dget n d = Some v -> (0 <= v)%R) /\ (d <> [] -> exists n, dget n d = Some 0%R) /\
  (forall n m u v, dget n d = Some u -> dget m d = Some v -> exists cn fn cm fm x y, registered w n cn fn /\ registered w m cm fm /\ has_dic cn fn x /\ has_dic cm fm y /\ (u - v = x - y)%R).
Proof.
  intros rgb nearest w d S NO H. destruct (C38_dic rgb nearest w S NO) as [d' [H' [RN [low [R1 [R2 R3]]]]]].
  - intros n c f R HP DC. destruct (registered_sound _ _ _ _ _ _ S R) as [SO _]. destruct (scores_ok_inv _ _ _ _ _ _ (session_ok _ _ _ S) H R) as [o Ho]. rewrite (dic_no_columns nearest c f SO HP DC) in Ho. discriminate.
  - rewrite H in H'. injection H' as <-. split; [exact R2|]. split; [exact R3|]. intros n m u v Hu Hv. destruct (R1 n u Hu) as [cn [fn [A1 A2]]]. destruct (R1 m v Hv) as [cm [fm [B1 B2]]]. exists cn, fn, cm, fm, (u + low)%R, (v + low)%R.
    do 4 (split; [assumption|]). ring.
Qed.
Print Assumptions C37_dic.

(** ** C39 *)
Definition selected (use_aic use_bic use_dic : bool) : list string :=
  (if use_aic then ["aic"] else []) ++ (if use_bic then ["bic"] else []) ++ (if use_dic then ["dic"] else []).
Definition criterion (nearest : list (list Q) -> list Q -> nat) (w : world) (key : string) : res (dict R) :=
  if String.eqb key "aic" then aic w else if String.eqb key "bic" then bic w else dic nearest w.
Lemma sort_checks ua ub ud sort : In sort (selected ua ub ud) -> (String.eqb sort "bic" && negb ub = false) /\ (String.eqb sort "aic" && negb ua = false) /\ (String.eqb sort "dic" && negb ud = false) /\ negb (smem sort ["bic"; "aic"; "dic"]) = false.
Proof. destruct ua, ub, ud; cbn; intros H; repeat (destruct H as [<-|H]; [repeat split; reflexivity|]); destruct H. Qed.
Theorem C39_rejected : forall repr ascii_repr nearest argsort w caption label hlines ua ub ud sort descending, ~ In sort (selected ua ub ud) ->
  comparison_table repr ascii_repr nearest argsort w caption label hlines ua ub ud sort descending = Err AssertionError.
Proof.
  intros repr arepr nearest argsort w caption label hlines ua ub ud sort desc NI. unfold comparison_table.
  destruct (String.eqb_spec sort "bic") as [->|N1]; [destruct ub; [exfalso; apply NI; destruct ua; cbn; tauto|reflexivity]|]. destruct (String.eqb_spec sort "aic") as [->|N2]; [destruct ua; [exfalso; apply NI; cbn; tauto|reflexivity]|].
  destruct (String.eqb_spec sort "dic") as [->|N3]; [destruct ud; [exfalso; apply NI; destruct ua, ub; cbn; tauto|reflexivity]|]. cbn [andb]. destruct (smem sort ["bic"; "aic"; "dic"]) eqn:E; [|reflexivity]. apply smem_In in E. cbn in E. intuition congruence.
Qed.
Print Assumptions C39_rejected.
Theorem C39_table : forall repr ascii_repr nearest argsort w caption label hlines ua ub ud sort descending ds by_,
  argsort_ok argsort -> In sort (selected ua ub ud) -> Forall2 (fun key d => criterion nearest w key = Ok d) (selected ua ub ud) ds -> criterion nearest w sort = Ok by_ ->
  (forall s, caption = Some s \/ label = Some s -> ~ contains "%" s) ->
  exists t, comparison_table repr ascii_repr nearest argsort w caption label hlines ua ub ud sort descending = Ok t /\
    shows_comparison (match caption with Some s => s | None => "" end) (match label with Some s => s | None => "" end) hlines descending (selected ua ub ud) ds by_ (2 + (if ua then 1 else 0) + (if ub then 1 else 0)) t.
Proof.
  intros repr arepr nearest argsort w caption label hlines ua ub ud sort desc ds by_ AS HS HD HB HP. destruct (sort_checks _ _ _ _ HS) as [S1 [S2 [S3 S4]]]. unfold comparison_table. rewrite S1, S2, S3, S4.
  change (dflt "" caption) with (match caption with Some s => s | None => "" end). change (dflt "" label) with (match label with Some s => s | None => "" end).
  set (cap := match caption with Some s => s | None => "" end). set (lab := match label with Some s => s | None => "" end).
  assert (NC : ~ contains percent cap) by (unfold cap; destruct caption as [s|]; [apply HP; auto|apply contains_nil]). assert (NL : ~ contains percent lab) by (unfold lab; destruct label as [s|]; [apply HP; auto|apply contains_nil]).
  assert (G : exists series, dvalues series = ds /\ dget sort series = Some by_ /\ dkeys series = selected ua ub ud /\
    exists sa sb sd, col ua "aic" (aic w) = Ok sa /\ col ub "bic" (bic w) = Ok sb /\ col ud "dic" (dic nearest w) = Ok sd /\ series = sa ++ sb ++ sd).
  { exists (combine (selected ua ub ud) ds). unfold selected in *.
    destruct ua, ub, ud; cbn [app] in *; repeat (match goal with H : Forall2 _ (_ :: _) _ |- _ => inversion H; clear H; subst end); repeat (match goal with H : Forall2 _ [] _ |- _ => inversion H; clear H; subst end); try contradiction;
      cbn [criterion String.eqb Ascii.eqb Bool.eqb] in *; repeat match goal with H : criterion nearest w ?k = Ok _ |- _ => unfold criterion in H; cbn in H end;
      (split; [reflexivity|]); (split; [cbn in HS; repeat (destruct HS as [<-|HS]; [cbn in HB |- *; congruence|]); contradiction|]); (split; [reflexivity|]);
      repeat match goal with H : ?x = Ok _ |- _ => rewrite H; clear H end; unfold col; cbn [rmap]; do 3 eexists; repeat (split; [reflexivity|]); reflexivity. }
  destruct G as [series [E1 [E2 [E3 [sa [sb [sd [A1 [A2 [A3 ES]]]]]]]]]]. cbv zeta. rewrite A1. cbn [rbind]. rewrite A2. cbn [rbind]. rewrite A3. cbn [rbind]. rewrite <- ES, E2, E1.
  destruct (order_spec argsort desc ds by_ AS) as [O1 [O2 O3]]. cbv zeta. set (order := map _ (nargsort argsort desc _)) in *. eexists. split; [rewrite (table_verbatim repr arepr) by assumption; reflexivity|].
  exists order, (map (fun n => table_line (map (fun s => score_text (dget n s)) ds) n) order). split; [exact O1|]. split; [exact O2|]. split; [exact O3|]. split.
  - clear. induction order as [|n r IH]; [constructor|]. cbn [map]. constructor; [|exact IH]. exists (map (fun s => score_text (dget n s)) ds). split; [clear; induction ds; cbn [map]; constructor; [apply score_text_ok|assumption]|]. unfold table_line. constructor. reflexivity.
  - replace (1 + b2n ua + b2n ub + 1)%nat with (2 + (if ua then 1 else 0) + (if ub then 1 else 0))%nat by (destruct ua, ub; reflexivity). f_equal. rewrite !sapp_assoc. f_equal. f_equal. f_equal. unfold selected. destruct ua, ub, ud; reflexivity.
Qed.
Print Assumptions C39_table.
(** With the DIC, the column specification fits the rows. *)
Theorem C39_rectangular : forall ua ub (ds : list (dict R)) (w : world) nearest, Forall2 (fun key d => criterion nearest w key = Ok d) (selected ua ub true) ds ->
  (2 + (if ua then 1 else 0) + (if ub then 1 else 0) = 1 + length ds)%nat.
Proof. intros ua ub ds w nearest H. rewrite <- (Forall2_len _ _ _ H). destruct ua, ub; reflexivity. Qed.
Print Assumptions C39_rectangular.
(** A criterion that raises makes the table raise. *)
Theorem C39_raises : forall repr ascii_repr nearest argsort w caption label hlines ua ub ud sort descending before key after ds e,
  In sort (selected ua ub ud) -> selected ua ub ud = before ++ key :: after -> Forall2 (fun k d => criterion nearest w k = Ok d) before ds -> criterion nearest w key = Err e ->
  comparison_table repr ascii_repr nearest argsort w caption label hlines ua ub ud sort descending = Err e.
Proof.
  intros repr arepr nearest argsort w caption label hlines ua ub ud sort desc before key after ds e HS HE HD HK. destruct (sort_checks _ _ _ _ HS) as [S1 [S2 [S3 S4]]]. unfold comparison_table. rewrite S1, S2, S3, S4. clear S1 S2 S3 S4 HS.
  assert (G : forall (k : string -> res (dict R)), (forall x, k x = criterion nearest w x) -> k "aic" = aic w /\ k "bic" = bic w /\ k "dic" = dic nearest w) by (intros k Hk; rewrite !Hk; repeat split; reflexivity).
  destruct (G (criterion nearest w) (fun x => eq_refl)) as [<- [<- <-]]. clear G. set (cr := criterion nearest w) in *. clearbody cr.
  unfold selected in HE. destruct ua, ub, ud; cbn [app] in HE; destruct before as [|x1 [|x2 [|x3 before]]]; cbn [app] in HE; try discriminate HE; inversion HE; clear HE; subst;
    repeat match goal with H : Forall2 _ (_ :: _) _ |- _ => inversion H; clear H; subst end; try (exfalso; match goal with H : _ = ?b ++ _ |- _ => destruct b; discriminate H end);
    unfold col; repeat (match goal with H : cr _ = _ |- _ => rewrite H; clear H end); reflexivity.
Qed.
Print Assumptions C39_raises.

(** ** Examples *)
(** Functions that meet the contracts of scipy's nearest neighbour and numpy's argsort. *)
Fixpoint first_min (l : list Q) : nat :=
  match l with [] => 0 | d :: r => match r with [] => 0 | _ => let k := first_min r in if Qle_bool d (nth k r 0%Q) then 0 else S k end end.
Lemma first_min_spec l : l <> [] -> (first_min l < length l)%nat /\ forall i, (i < length l)%nat -> (nth (first_min l) l 0 <= nth i l 0)%Q.
Proof.
  induction l as [|d r IH]; [contradiction|]. intros _. destruct r as [|d' r']; [cbn; split; [lia|]; intros [|i] Hi; [apply Qle_refl|cbn in Hi; lia]|]. set (r := d' :: r') in *. destruct IH as [I1 I2]; [discriminate|].
  change (first_min (d :: r)) with (if Qle_bool d (nth (first_min r) r 0%Q) then 0%nat else S (first_min r)). destruct (Qle_bool d (nth (first_min r) r 0%Q)) eqn:E.
  - apply Qle_bool_iff in E. split; [cbn; lia|]. intros [|i] Hi; [apply Qle_refl|]. cbn [nth]. cbn [length] in Hi. specialize (I2 i ltac:(lia)). eapply Qle_trans; [exact E|exact I2].
  - split; [cbn [length]; lia|]. assert (L : (nth (first_min r) r 0 <= d)%Q) by (destruct (Qlt_le_dec d (nth (first_min r) r 0)) as [K|K]; [apply Qlt_le_weak, Qle_bool_iff in K; congruence|exact K]).
    intros [|i] Hi; cbn [nth]; [exact L|]. apply I2. cbn [length] in Hi. lia.
Qed.
Definition squared (x r : list Q) : Q := sum_range (fun j => (at_ r j - at_ x j) * (at_ r j - at_ x j))%Q 0 (length x).
Definition ex_nearest (rows : list (list Q)) (x : list Q) : nat := first_min (map (squared x) rows).
Lemma ex_nearest_ok : nearest_ok ex_nearest.
Proof.
  intros rows x n NE RL XL d. assert (NM : map (squared x) rows <> []) by (destruct rows; [contradiction|discriminate]). destruct (first_min_spec _ NM) as [F1 F2]. rewrite map_length in F1, F2. split; [exact F1|]. intros i Hi.
  assert (E : forall k, (k < length rows)%nat -> nth k (map (squared x) rows) 0%Q = d k).
  { intros k Hk. rewrite (nth_indep _ 0%Q (squared x [])) by (rewrite map_length; exact Hk). rewrite (map_nth (squared x)). unfold squared, d. rewrite XL. reflexivity. }
  unfold ex_nearest. rewrite <- (E _ F1), <- (E _ Hi). apply F2. exact Hi.
Qed.
Fixpoint insert (l : list R) (i : nat) (ks : list nat) : list nat :=
  match ks with [] => [i] | k :: r => if Rle_dec (nth i l 0%R) (nth k l 0%R) then i :: ks else k :: insert l i r end.
Definition ex_argsort (l : list R) : list nat := fold_right (insert l) [] (seq 0 (length l)).
Lemma insert_perm l i ks : Permutation (insert l i ks) (i :: ks).
Proof. induction ks as [|k r IH]; cbn [insert]; [reflexivity|]. destruct (Rle_dec _ _); [reflexivity|]. rewrite IH. apply perm_swap. Qed.
Lemma insert_sorted l i ks : ForallOrdPairs (fun a b => (nth a l 0 <= nth b l 0)%R) ks -> ForallOrdPairs (fun a b => (nth a l 0 <= nth b l 0)%R) (insert l i ks).
Proof.
  induction 1 as [|k r H1 H2 IH]; cbn [insert]; [repeat constructor|]. destruct (Rle_dec (nth i l 0%R) (nth k l 0%R)) as [L|L].
  - constructor; [|constructor; assumption]. constructor; [exact L|]. rewrite Forall_forall in *. intros y Hy. specialize (H1 y Hy). Lra.lra.
  - constructor; [|exact IH]. rewrite Forall_forall in *. intros y Hy. apply (Permutation_in _ (insert_perm l i r)) in Hy. destruct Hy as [<-|Hy]; [Lra.lra|exact (H1 y Hy)].
Qed.
Lemma ex_argsort_ok : argsort_ok ex_argsort.
Proof.
  intros l. unfold ex_argsort. assert (P : Permutation (fold_right (insert l) [] (seq 0 (length l))) (seq 0 (length l))) by (induction (seq 0 (length l)) as [|i s IH]; [reflexivity|]; cbn [fold_right]; rewrite insert_perm, IH; reflexivity).
  split; [exact P|]. intros i j Hi Hj. apply (fop_nth (fun a b => (nth a l 0 <= nth b l 0)%R) 0%nat); [|exact Hi|rewrite P, seq_length; exact Hj].
  clear. induction (seq 0 (length l)) as [|k s IH]; [constructor|]. cbn [fold_right]. apply insert_sorted. exact IH.
Qed.

(** Chains "A" and "B" with everything, "C" without posterior, "D" without the counts. *)
Definition ex37_frame : frame := {| f_index := [LInt 0; LInt 1; LInt 2]; f_cols := [(CStr "x", [Fin 0; Fin 1; Fin 2]); (CStr "y", [Fin 0; Fin 0; Fin 3]); (CStr "log_posterior", [Fin (-3); Fin (-1); Fin (-2)])] |}.
Definition ex37_plain : frame := {| f_index := [LInt 0; LInt 1]; f_cols := [(CStr "x", [Fin 4; Fin 5])] |}.
Definition ex37_args (name : string) (samples : nat) (k : option Z) (n : option cell) : cargs :=
  {| a_cfg := no_kw; a_samples := samples; a_name := name; a_weight := None; a_post := None; a_walkers := None; a_grid := None;
     a_nfree := Some k; a_ndata := Some n; a_power := None; a_showlabel := None; a_relheight := None |}.
Definition ex37_heap : heap := {| h_frames := [ex37_frame; ex37_plain]; h_chains := [] |}.
Definition ex37_ops : list op :=
  [OpNewChain (ex37_args "A" 0 (Some 2%Z) (Some (Fin 10))); OpNewChain (ex37_args "B" 0 (Some 3%Z) (Some (Fin 20))); OpNewChain (ex37_args "C" 1 (Some 3%Z) (Some (Fin 20)));
   OpNewChain (ex37_args "D" 0 None None); OpAdd 0; OpAdd 1; OpAdd 2; OpAdd 3].
Definition ex37 : world := fst (run ex_rgb (ex37_heap, new_consumer) ex37_ops).
Lemma ex37_session plain : session ex_rgb plain ex37.
Proof.
  exists ex37_heap, ex37_ops. split; [reflexivity|]. split; [intros f [<-|[<-|[]]]; frame_wf_tac|]. split; [|reflexivity].
  intros o HO. repeat (destruct HO as [<-|HO]; [try exact I; intros P; discriminate|]). destruct HO.
Qed.
Definition ex37_chain (l : nat) : chain := match chain_at (fst ex37) l with Some c => c | None => build None (ex_args "" no_kw) 0 end.
Lemma ex37_registered n c f : registered ex37 n c f -> exists l, In (n, l) [("A", 0); ("B", 1); ("C", 2); ("D", 3)]%nat /\ c = ex37_chain l /\ f = frame_at (fst ex37) (ch_samples c).
Proof.
  intros [l [HI [HC ->]]]. exists l. split; [|split; [unfold ex37_chain; rewrite HC; reflexivity|reflexivity]].
  assert (E : k_chains (snd ex37) = [("A", 0); ("B", 1); ("C", 2); ("D", 3)]%nat) by (vm_compute; reflexivity). rewrite E in HI. exact HI.
Qed.
Lemma ex37_counts n c f : registered ex37 n c f -> forall N, ch_ndata c = Some (Fin N) -> (N = 10 /\ ch_nfree c = Some 2%Z \/ N = 20 /\ ch_nfree c = Some 3%Z)%Q.
Proof.
  intros R. destruct (ex37_registered n c f R) as [l [HI [-> _]]]. repeat (destruct HI as [HI|HI]; [injection HI as <- <-; vm_compute; intros N H; (discriminate || injection H as <-; tauto)|]). destruct HI.
Qed.
Lemma ex37_columns n c f : registered ex37 n c f -> data_columns c f <> [].
Proof.
  intros R. destruct (ex37_registered n c f R) as [l [HI [-> ->]]]. repeat (destruct HI as [HI|HI]; [injection HI as <- <-; vm_compute; discriminate|]). destruct HI.
Qed.
Example C38_nonvacuous : exists da db dd, aic ex37 = Ok da /\ bic ex37 = Ok db /\ dic ex_nearest ex37 = Ok dd /\
  relative_scores ex37 has_counts has_aic da /\ relative_scores ex37 has_counts has_bic db /\ relative_scores ex37 has_posterior has_dic dd /\
  map fst da = ["A"; "B"] /\ map fst db = ["A"; "B"] /\ map fst dd = ["A"; "B"; "D"].
Proof.
  destruct (C38_aic ex_rgb ex37 (ex37_session false)) as [da [A1 A2]].
  { intros n c f N k R _ EN EK E. destruct (ex37_counts n c f R N EN) as [[-> EK']|[-> EK']]; rewrite EK in EK'; injection EK' as ->; discriminate E. }
  destruct (C38_bic ex_rgb ex37 (ex37_session false)) as [db [B1 B2]].
  { intros n c f N R _ EN. destruct (ex37_counts n c f R N EN) as [[-> _]|[-> _]]; reflexivity. }
  destruct (C38_dic ex_rgb ex_nearest ex37 (ex37_session true) ex_nearest_ok) as [dd [D1 D2]].
  { intros n c f R _. exact (ex37_columns n c f R). }
  exists da, db, dd. do 6 (split; [assumption|]).
  assert (K : forall raw ns d, match score_loop raw (fst ex37) (k_chains (snd ex37)) with Ok s => map fst s = ns | Err _ => True end -> scores raw ex37 = Ok d -> map fst d = ns).
  { intros raw ns d H E. unfold scores in E. destruct (score_loop raw (fst ex37) (k_chains (snd ex37))) as [s|]; [|discriminate]. injection E as <-. rewrite relative_names. exact H. }
  split; [|split]; (eapply K; [|eassumption]); vm_compute; reflexivity.
Qed.
(** Without the DIC the column specification promises one more column than the rows have. *)
Theorem C39_superfluous_column_refuted : exists rgb2hex w ds by_ t, session rgb2hex true w /\ Forall2 (fun key d => criterion ex_nearest w key = Ok d) ["aic"; "bic"] ds /\
  comparison_table (fun s => s) (fun s => s) ex_nearest ex_argsort w None None true true true false "bic" true = Ok t /\
  shows_comparison "" "" true true ["aic"; "bic"] ds by_ 4 t /\ (1 + length ds)%nat = 3%nat /\ (exists d n, In d ds /\ dget n d <> None).
Proof.
  destruct C38_nonvacuous as [da [db [dd [A [B [D [_ [_ [_ [EA _]]]]]]]]]].
  destruct (C39_table (fun s => s) (fun s => s) ex_nearest ex_argsort ex37 None None true true true false "bic" true [da; db] db) as [t [T1 T2]];
    [exact ex_argsort_ok|cbn; tauto|constructor; [exact A|constructor; [exact B|constructor]]|exact B|intros s [H|H]; discriminate|].
  exists ex_rgb, ex37, [da; db], db, t. split; [exact (ex37_session true)|]. split; [constructor; [exact A|constructor; [exact B|constructor]]|]. split; [exact T1|]. split; [exact T2|]. split; [reflexivity|].
  exists da, "A". split; [left; reflexivity|]. assert (M : In "A" (dkeys da)) by (unfold dkeys; rewrite EA; left; reflexivity). apply dget_Some_mem in M. destruct M as [v ->]. discriminate.
Qed.
Print Assumptions C39_superfluous_column_refuted.
Example C39_nonvacuous : exists t, comparison_table (fun s => s) (fun s => s) ex_nearest ex_argsort ex37 (Some "Caption") (Some "tab:x") false true false true "dic" false = Ok t.
Proof.
  destruct C38_nonvacuous as [da [db [dd [A [B [D _]]]]]].
  destruct (C39_table (fun s => s) (fun s => s) ex_nearest ex_argsort ex37 (Some "Caption") (Some "tab:x") false true false true "dic" false [da; dd] dd) as [t [T1 T2]];
    [exact ex_argsort_ok|cbn; tauto|constructor; [exact A|constructor; [exact D|constructor]]|exact D|intros s [H|H]; injection H as <-; intros K; repeat (apply contains_cons in K; destruct K as [K|K]; [discriminate|]); exact (contains_nil _ K)|eauto].
Qed.
(** N = k + 1. *)
Example C38_aic_raises_example : let w := fst (run ex_rgb (ex37_heap, new_consumer) [OpNewChain (ex37_args "A" 0 (Some 2%Z) (Some (Fin 3))); OpAdd 0]) in
  session ex_rgb false w /\ aic w = Err ZeroDivisionError.
Proof.
  split; [|vm_compute; reflexivity]. eexists ex37_heap, _. split; [reflexivity|]. split; [intros f [<-|[<-|[]]]; frame_wf_tac|]. split; [|reflexivity]. intros o [<-|[<-|[]]]; [intros P; discriminate|exact I].
Qed.
Example C37_nonvacuous : session ex_rgb false ex37 /\ session ex_rgb true ex37 /\ nearest_ok ex_nearest /\
  exists da db dd, aic ex37 = Ok da /\ bic ex37 = Ok db /\ dic ex_nearest ex37 = Ok dd /\ da <> [] /\ db <> [] /\ dd <> [].
Proof.
  split; [apply ex37_session|]. split; [apply ex37_session|]. split; [exact ex_nearest_ok|]. destruct C38_nonvacuous as [da [db [dd [A [B [D [_ [_ [_ [EA [EB ED]]]]]]]]]]]. exists da, db, dd. do 3 (split; [assumption|]).
  split; [|split]; intros ->; discriminate.
Qed.
