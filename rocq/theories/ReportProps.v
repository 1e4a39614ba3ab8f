(** C79, C80: reported intervals are ordered, lie in the range of the data and grow with the area. *)
From Coq Require Import String QArith Qabs Qround List Arith ZArith Bool Lia.
From Verif Require Import Py NumSpec NumModel HelpersSpec HelpersModel MarginalModel SummarySpec FrameModel FrameFacts ConfigModel ChainModel RegistryModel RegistrySpec ChainSpec TextModel AnalysisModel AnalysisSpec
  ChainProps RegistryProps AnalysisProofs AnalysisProps EquivSpec EquivApi EquivProps SessionProofs NumFacts SimpsonFacts SummaryProps ReportSpec ReportProofs GrowthProofs.
From Coq Require Import Lqa.
Import ListNotations.
Open Scope string_scope.
Open Scope list_scope.
Open Scope Q_scope.

Lemma good_positive c f p d : sound c f -> unshifted c f -> sample c f p d -> positive_weights d.
Proof.
  intros S [_ U] [x [w [X [W ->]]]] y v HI. apply in_combine_r in HI. unfold qs in HI. apply in_map_iff in HI. destruct HI as [cl [E HI]].
  apply (f_get_wf f _ w (so_wf _ _ S)) in W. pose proof (proj2 (so_clean _ _ S) _ _ _ W HI) as [q Hq]. subst cl. cbn in E. subst v. exact (U w q W HI).
Qed.
Lemma session_chain rgb w l c : session rgb true w -> chain_at (fst w) l = Some c -> sound c (frame_at (fst w) (ch_samples c)) /\ unshifted c (frame_at (fst w) (ch_samples c)).
Proof. intros S H. destruct (session_good _ _ _ S) as [[_ G] _]. destruct (G l c H) as [_ [G1 G2]]. split; [exact G1|exact (G2 eq_refl)]. Qed.

(** * C79 *)
(** Any chain of a session without shift_params, any column with at least two different values: whatever the summary says
    about it is in order and within the range of the samples (a fifth of the range beyond it for the highest density interval
    and the separate modes of a chain that is not a grid). *)
Theorem C79_chain : forall rgb2hex num w l c p d mn mx e, session rgb2hex true w -> chain_at (fst w) l = Some c ->
  let f := frame_at (fst w) (ch_samples c) in
  usable num c -> 0 < ch_cfg c Fsummary_area <= 1 -> sample c f p d -> is_min mn (map fst d) -> is_max mx (map fst d) -> mn < mx ->
  entry_of num c f p e -> sensible c mn mx e.
Proof.
  intros rgb num w l c p d mn mx e S HC f U A D Hmn Hmx L E. destruct (session_chain _ _ _ _ S HC) as [G1 G2].
  eapply (entry_sensible num c f p d); try eassumption. eapply good_positive; eassumption.
Qed.
Print Assumptions C79_chain.
(** The same for what get_summary() returns, chain by chain and column by column. *)
Theorem C79_summary : forall rgb2hex num w columns w' s n es p e, session rgb2hex true w -> get_summary num w ReqAll columns = (w', Ok s) -> dget n s = Some es -> dget p es = Some e ->
  exists l c d, chain_at (fst w') l = Some c /\ ch_name c = n /\
    let f := frame_at (fst w') (ch_samples c) in
    sample c f p d /\
    forall mn mx, usable num c -> 0 < ch_cfg c Fsummary_area <= 1 -> is_min mn (map fst d) -> is_max mx (map fst d) -> mn < mx -> sensible c mn mx e.
Proof.
  intros rgb num w columns w' s n es p e S H N P.
  destruct (get_final_chains w) as [w1 [finals|ex]] eqn:F; [|unfold get_summary, sanitise_chains in H; rewrite F in H; discriminate].
  destruct (C32_all _ _ _ _ _ _ _ _ (session_reachable _ _ _ S) F H) as [-> [K [locs [chains [cols (S1&O&NM&A&B)]]]]].
  assert (G : world_good true w1) by (change w1 with (fst (w1, Ok finals)); rewrite <- F; apply final_good; exact (session_good _ _ _ S)).
  assert (NS : In (n, es) s) by (apply dget_In; exact N).
  assert (X : exists l cf, chain_at (fst w1) l = Some (fst cf) /\ snd cf = frame_at (fst w1) (ch_samples (fst cf)) /\ ch_name (fst cf) = n /\ summary_of num cols cf es).
  { assert (KN : map fst s = map name_of chains) by (unfold dkeys in K; rewrite K, NM; reflexivity). clear -O B NS KN. unfold dvalues in B. revert locs chains O B KN. induction s as [|[k v] s IH]; intros locs chains O B KN; [destruct NS|].
    destruct chains as [|cf chains]; [discriminate|]. cbn [map] in B, KN. inversion B as [|? ? ? ? B1 B2]; subst. inversion O as [|l ? ls ? O1 O2]; subst. injection KN as K1 K2. cbn [fst snd] in *.
    destruct NS as [E|NS]; [injection E as <- <-; exists l, cf; destruct O1; repeat split; try assumption; [symmetry; exact K1|apply B1|apply B1]|]. exact (IH NS ls chains O2 B2 K2). }
  destruct X as [l [[c f] (X1&X2&X3&[_ X4])]]. cbn [fst snd] in *. subst f. destruct G as [[_ G] _]. destruct (G l c X1) as [_ [G1 G2]]. specialize (G2 eq_refl). set (f := frame_at (fst w1) (ch_samples c)) in *.
  pose proof (X4 p e P) as E. assert (D : exists d, sample c f p d).
  { pose proof (so_weight _ _ G1) as HW. unfold f_has in HW. destruct E as [b [E _]]. unfold get_parameter_summary in E. destruct (ch_cfg c Fstatistics); [|discriminate]. unfold get_data in E. destruct (f_get f p) as [x|] eqn:EX; [|discriminate]. unfold weights in E. destruct (f_get f (ch_weight c)) as [v|] eqn:EW; [|discriminate].
    exists (combine (qs x) (qs v)), x, v. auto. }
  destruct D as [d D]. exists l, c, d. split; [exact X1|]. split; [exact X3|]. split; [exact D|]. intros mn mx U A0 Hmn Hmx L. eapply (entry_sensible num c f p d); try eassumption. eapply good_positive; eassumption.
Qed.
Print Assumptions C79_summary.
(** A column with a single value has no summary: whatever the statistic, the request fails. *)
Theorem C79_single_value_refuted : forall rgb2hex num w l c p d v, session rgb2hex true w -> chain_at (fst w) l = Some c ->
  let f := frame_at (fst w) (ch_samples c) in
  usable num c -> sample c f p d -> d <> [] -> (forall x, In x (map fst d) -> x == v) ->
  forall e, ~ entry_of num c f p e.
Proof.
  intros rgb num w l c p d v S HC f U D HN V e [b [B _]]. destruct (session_chain _ _ _ _ S HC) as [G1 G2].
  pose proof (good_positive c f p d G1 G2 D) as HW. destruct (ch_cfg c Fstatistics) as [st|] eqn:ES; [|unfold get_parameter_summary in B; rewrite ES in B; discriminate].
  rewrite (summary_marginal num c f p d D st ES) in B. destruct st; apply rbind_ok in B; destruct B as [m [M _]]; exact (constant_marginal num c f p d v _ U D HW HN V m M).
Qed.
Print Assumptions C79_single_value_refuted.

(** * C80 *)
Lemma other_marginal num c c' f p pad : other_area c c' -> chain_marginal num c' f p pad = chain_marginal num c f p pad.
Proof.
  intros [E H]. unfold chain_marginal, marginal_config, weights. rewrite (H Fsmooth), (H Fbins), (H Fkde) by discriminate. rewrite E. reflexivity.
Qed.
Lemma other_sample c c' f p d : other_area c c' -> sample c f p d -> sample c' f p d.
Proof. intros [E _] [x [w [X [W D]]]]. exists x, w. split; [exact X|]. split; [rewrite E; exact W|exact D]. Qed.
(** The intervals of all statistics but the highest density one are nested: a larger area gives an interval around the one of
    the smaller area, with the same centre. *)
Theorem C80_nested : forall rgb2hex num w l c c' p d mn mx st b b' i i', session rgb2hex true w -> chain_at (fst w) l = Some c ->
  let f := frame_at (fst w) (ch_samples c) in
  usable num c -> other_area c c' -> 0 < ch_cfg c Fsummary_area -> ch_cfg c Fsummary_area <= ch_cfg c' Fsummary_area -> ch_cfg c' Fsummary_area <= 1 ->
  sample c f p d -> is_min mn (map fst d) -> is_max mx (map fst d) -> mn < mx ->
  ch_cfg c Fstatistics = Some st -> st <> SHdi ->
  get_parameter_summary num c f p = Ok b -> get_parameter_summary num c' f p = Ok b' -> interval_of b i -> interval_of b' i' ->
  within i i' /\ (st <> SMean -> exists x, b_center b = Some x /\ b_center b' = Some x).
Proof.
  intros rgb num w l c c' p d mn mx st b b' i i' S HC f U OA A0 A1 A2 D Hmn Hmx L ES NH H H' I I'. destruct (session_chain _ _ _ _ S HC) as [G1 G2].
  pose proof (good_positive c f p d G1 G2 D) as HW. pose proof (other_sample c c' f p d OA D) as D'.
  assert (ES' : ch_cfg c' Fstatistics = Some st) by (rewrite (proj2 OA) by discriminate; exact ES).
  rewrite (summary_marginal num c f p d D st ES) in H. rewrite (summary_marginal num c' f p d D' st ES') in H'. rewrite !(other_marginal num c c' f p _ OA) in H'.
  set (a := ch_cfg c Fsummary_area) in *. set (a' := ch_cfg c' Fsummary_area) in *. destruct I as [I1 I2], I' as [J1 J2].
  destruct st; [| | | |congruence]; apply rbind_ok in H; destruct H as [m [M H]]; rewrite M in H'; cbn [rbind] in H'; destruct (marginal_facts num c f p d mn mx U D HW Hmn Hmx L _ m M) as [OK _].
  - destruct b as [lo x up], b' as [lo' x' up']. cbn in I1, I2, J1, J2. subst lo up lo' up'.
    assert (C : exists y y', x = Some y /\ x' = Some y').
    { unfold summary_max in H, H'. cbv zeta in H, H'. destruct (Qeq_bool _ 0); [discriminate H|]. destruct (max_loop _ a _ _ _ _ _); destruct (max_loop _ a' _ _ _ _ _); try discriminate H; try discriminate H'; injection H; injection H'; intros; subst; eexists _, _; split; reflexivity. }
    destruct C as [y [y' [-> ->]]]. destruct (summary_max_grows _ _ a a' m _ _ _ _ _ _ (us_pad _ _ U) OK A1 H H') as [W1 [W2 W3]]. split; [split; assumption|]. intros _. exists y. subst y'. split; reflexivity.
  - unfold summary_mean in H, H'. apply rbind_ok in H. destruct H as [lo [Q1 H]]. apply rbind_ok in H. destruct H as [x [Q2 H]]. apply rbind_ok in H. destruct H as [up [Q3 H]]. apply rbind_ok in H'. destruct H' as [lo' [R1 H']]. apply rbind_ok in H'. destruct H' as [x' [R2 H']]. apply rbind_ok in H'. destruct H' as [up' [R3 H']].
    injection H as <-. injection H' as <-. cbn in I1, I2, J1, J2. injection I1 as ->. injection I2 as ->. injection J1 as ->. injection J2 as ->.
    split; [|congruence]. eapply (quantiles_grow2 m a a'); eassumption.
  - unfold summary_cumulative in H, H'. apply rbind_ok in H. destruct H as [lo [Q1 H]]. apply rbind_ok in H. destruct H as [x [Q2 H]]. apply rbind_ok in H. destruct H as [up [Q3 H]]. apply rbind_ok in H'. destruct H' as [lo' [R1 H']]. apply rbind_ok in H'. destruct H' as [x' [R2 H']]. apply rbind_ok in H'. destruct H' as [up' [R3 H']].
    injection H as <-. injection H' as <-. cbn in I1, I2, J1, J2. injection I1 as ->. injection I2 as ->. injection J1 as ->. injection J2 as ->.
    split; [eapply (quantiles_grow2 m a a'); eassumption|]. intros _. exists x. rewrite Q2 in R2. injection R2 as <-. split; reflexivity.
  - unfold summary_max_central in H, H'. apply rbind_ok in H. destruct H as [lo [Q1 H]]. apply rbind_ok in H. destruct H as [up [Q3 H]]. apply rbind_ok in H'. destruct H' as [lo' [R1 H']]. apply rbind_ok in H'. destruct H' as [up' [R3 H']].
    injection H as <-. injection H' as <-. cbn in I1, I2, J1, J2. injection I1 as ->. injection I2 as ->. injection J1 as ->. injection J2 as ->.
    split; [eapply (quantiles_grow m a a'); eassumption|]. intros _. eexists. split; reflexivity.
Qed.
Print Assumptions C80_nested.
(** The separate modes grow too: with a larger area each of them lies within one of the bands. *)
Theorem C80_bands : forall rgb2hex num w l c c' p d mn mx ivs ivs', session rgb2hex true w -> chain_at (fst w) l = Some c ->
  let f := frame_at (fst w) (ch_samples c) in
  usable num c -> other_area c c' -> 0 < ch_cfg c Fsummary_area -> ch_cfg c Fsummary_area <= ch_cfg c' Fsummary_area -> ch_cfg c' Fsummary_area <= 1 ->
  sample c f p d -> is_min mn (map fst d) -> is_max mx (map fst d) -> mn < mx ->
  get_parameter_hdi_intervals num c f p = Ok ivs -> get_parameter_hdi_intervals num c' f p = Ok ivs' -> (2 <= length ivs)%nat ->
  forall iv, In iv ivs -> exists iv', In iv' ivs' /\ within iv iv'.
Proof.
  intros rgb num w l c c' p d mn mx ivs ivs' S HC f U OA A0 A1 A2 D Hmn Hmx L H H' N iv HI. destruct (session_chain _ _ _ _ S HC) as [G1 G2].
  pose proof (good_positive c f p d G1 G2 D) as HW. unfold get_parameter_hdi_intervals in H, H'. rewrite (other_marginal num c c' f p _ OA) in H'.
  apply rbind_ok in H. destruct H as [m [M H]]. rewrite M in H'. cbn [rbind] in H'. destruct (marginal_facts num c f p d mn mx U D HW Hmn Hmx L _ m M) as [OK [[h [Hh HU]] _]].
  exact (bands_grow m h _ _ ivs ivs' OK Hh HU A1 A2 H H' N iv HI).
Qed.
Print Assumptions C80_bands.
(** The highest density interval of a larger area is not narrower (up to the search's tolerance of 1e-12), provided that the
    points of the marginal are further apart than that and its first point holds less than the area. *)
Theorem C80_wider : forall rgb2hex num w l c c' p d mn mx m b b' i i', session rgb2hex true w -> chain_at (fst w) l = Some c ->
  let f := frame_at (fst w) (ch_samples c) in
  usable num c -> other_area c c' -> 0 < ch_cfg c Fsummary_area -> ch_cfg c Fsummary_area <= ch_cfg c' Fsummary_area -> ch_cfg c' Fsummary_area <= 1 ->
  sample c f p d -> is_min mn (map fst d) -> is_max mx (map fst d) -> mn < mx ->
  chain_marginal num c f p true = Ok m -> at_ (mg_cs m) 0 < ch_cfg c Fsummary_area ->
  (forall k, (S k < length (mg_xs m))%nat -> 1 # 1000000000000 < at_ (mg_xs m) (S k) - at_ (mg_xs m) k) ->
  ch_cfg c Fstatistics = Some SHdi ->
  get_parameter_summary num c f p = Ok b -> get_parameter_summary num c' f p = Ok b' -> interval_of b i -> interval_of b' i' ->
  snd i - fst i <= snd i' - fst i' + (1 # 1000000000000).
Proof.
  intros rgb num w l c c' p d mn mx m b b' i i' S HC f U OA A0 A1 A2 D Hmn Hmx L M C0 SP ES H H' [I1 I2] [J1 J2]. destruct (session_chain _ _ _ _ S HC) as [G1 G2].
  pose proof (good_positive c f p d G1 G2 D) as HW. pose proof (other_sample c c' f p d OA D) as D'.
  assert (ES' : ch_cfg c' Fstatistics = Some SHdi) by (rewrite (proj2 OA) by discriminate; exact ES).
  rewrite (summary_marginal num c f p d D _ ES) in H. rewrite (summary_marginal num c' f p d D' _ ES') in H'. rewrite !(other_marginal num c c' f p _ OA) in H'. rewrite M in H, H'. cbn [rbind] in H, H'. injection H as H. injection H' as H'.
  destruct (marginal_facts num c f p d mn mx U D HW Hmn Hmx L _ m M) as [OK _].
  destruct (C28_hdi_mass m (ch_cfg c Fsummary_area) OK ltac:(lra)) as [l1 [x1 [u1 [k1 [j1 (E1&_)]]]]]. destruct (C28_hdi_mass m (ch_cfg c' Fsummary_area) OK ltac:(lra)) as [l2 [x2 [u2 [k2 [j2 (E2&_)]]]]].
  pose proof (hdi_grows m (ch_cfg c Fsummary_area) (ch_cfg c' Fsummary_area) l1 x1 u1 l2 x2 u2 OK A0 A1 A2 SP C0 E1 E2) as K.
  rewrite E1 in H. rewrite E2 in H'. subst b b'. cbn in I1, I2, J1, J2. injection I1 as <-. injection I2 as <-. injection J1 as <-. injection J2 as <-. exact K.
Qed.
Print Assumptions C80_wider.

(** ** Examples *)
Definition ex79_num (bins points : nat) : numerics := {| n_bins := bins; n_points := points; n_kde := 2; n_pad := 2; n_tries := 3; n_power := fun p h => h; n_kernel := fun _ => [1]; n_megkde := fun _ _ _ _ => 1 |}.
Definition ex79_args (grid : bool) (bins : Z) (s : stat) (area : Q) : cargs :=
  {| a_cfg := kset (kset (kset (kset no_kw Fsummary_area area) Fstatistics (Some s)) Fsmooth (Some 0%Z)) Fbins (Some bins); a_samples := 0; a_name := "A"; a_weight := None; a_post := None; a_walkers := None; a_grid := Some grid;
     a_nfree := None; a_ndata := None; a_power := None; a_showlabel := None; a_relheight := None |}.
(** Add one chain with columns x and weight. *)
Definition ex79 (x w : list Q) (grid : bool) (bins : Z) (s : stat) (area : Q) : world :=
  fst (run ex_rgb ({| h_frames := [ex75_frame x w]; h_chains := [] |}, new_consumer) [OpNewChain (ex79_args grid bins s area); OpAdd 0]).
Definition ex79_chain (w : world) : chain := match chain_at (fst w) 0 with Some c => c | None => build None (ex_args "" no_kw) 0 end.
Definition ex79_area (c : chain) (a : Q) : chain := with_cfg c (fun g => match g return ctype g -> ctype g with Fsummary_area => fun _ => a | _ => fun v => v end (ch_cfg c g)).
Lemma ex79_other c a : other_area c (ex79_area c a).
Proof. split; [reflexivity|]. intros g N. destruct g; try reflexivity. congruence. Qed.
Lemma ex79_session x w grid bins s area : length x = length w -> session ex_rgb true (ex79 x w grid bins s area).
Proof.
  intros L. exists {| h_frames := [ex75_frame x w]; h_chains := [] |}, [OpNewChain (ex79_args grid bins s area); OpAdd 0]. split; [reflexivity|]. split; [|split; [intros o [<-|[<-|[]]]; [intros P; discriminate|exact I]|reflexivity]].
  intros f [<-|[]]. split; [repeat (constructor; [cbn; intuition congruence|]); constructor|]. intros c l [E|[E|[]]]; injection E as <- <-; unfold ex75_frame, f_rows; cbn [f_index]; rewrite !map_length, seq_length; [reflexivity|symmetry; exact L].
Qed.
Lemma ex79_at w : match chain_at (fst w) 0 with Some _ => true | None => false end = true -> chain_at (fst w) 0 = Some (ex79_chain w).
Proof. unfold ex79_chain. destruct (chain_at (fst w) 0); [reflexivity|discriminate]. Qed.
Lemma ex79_usable nb np c : (2 <= nb)%nat -> (2 <= np)%nat -> (forall b, ch_cfg c Fbins = Some b -> (3 <= b)%Z) -> usable (ex79_num nb np) c.
Proof. intros B P H. constructor; cbn; try lia; try assumption; [auto|intros _ t [<-|[]]; lra|intros; lra]. Qed.
Ltac ends := unfold is_min, is_max; split; [cbn; tauto|]; intros y Hy; cbn in Hy; repeat (destruct Hy as [<-|Hy]; [lra|]); destruct Hy.

Definition ex79_w : list Q := [1; 50; 1; 1; 1; 30; 30; 30; 1].
Definition ex79_x : list Q := [0; 1; 2; 3; 4; 5; 6; 7; 8].
(** The premises hold of a session with one chain on a grid; the interval of each statistic but [max] is given. *)
Example C79_nonvacuous : forall s, In s [SMean; SCumulative; SMaxCentral; SHdi] -> let w := ex79 ex79_x ex79_w true 3 s (3#10) in let c := ex79_chain w in let f := frame_at (fst w) (ch_samples c) in
  session ex_rgb true w /\ chain_at (fst w) 0 = Some c /\ usable (ex79_num 4 9) c /\ 0 < ch_cfg c Fsummary_area <= 1 /\ sample c f "x" (combine ex79_x ex79_w) /\ is_min 0 (map fst (combine ex79_x ex79_w)) /\ is_max 8 (map fst (combine ex79_x ex79_w)) /\
  values (get_parameter_summary (ex79_num 4 9) c f "x") = match s with
    | SMean => Some (Some (199 # 200), Some (1901 # 600), Some (641 # 120)) | SCumulative => Some (Some (199 # 200), Some (277 # 60), Some (641 # 120))
    | SMaxCentral => Some (Some (199 # 200), Some 1, Some (641 # 120)) | _ => Some (Some 0, Some (49 # 100), Some 1) end.
Proof.
  intros s HS w c f. assert (SE : session ex_rgb true w) by (apply ex79_session; reflexivity). split; [exact SE|].
  split; [apply ex79_at; repeat (destruct HS as [<-|HS]; [vm_compute; reflexivity|]); destruct HS|].
  split; [apply ex79_usable; [lia|lia|]; repeat (destruct HS as [<-|HS]; [vm_compute; intros b E; injection E as <-; discriminate|]); destruct HS|].
  split; [repeat (destruct HS as [<-|HS]; [vm_compute; split; [reflexivity|discriminate]|]); destruct HS|].
  split; [repeat (destruct HS as [<-|HS]; [eexists _, _; split; [vm_compute; reflexivity|split; [vm_compute; reflexivity|vm_compute; reflexivity]]|]); destruct HS|].
  split; [ends|]. split; [ends|]. repeat (destruct HS as [<-|HS]; [vm_compute; reflexivity|]). destruct HS.
Qed.
Lemma shown r lo x up : values r = Some (Some lo, Some x, Some up) -> exists b l u, r = Ok b /\ interval_of b (l, u) /\ l == lo /\ u == up.
Proof.
  destruct r as [[[l|] [y|] [u|]]|]; cbn; intros H; try discriminate. injection H as H1 H2 H3. eexists _, l, u. split; [reflexivity|]. split; [split; reflexivity|]. rewrite <- H1, <- H3. split; symmetry; apply Qred_correct.
Qed.
(** The highest density interval of a chain that is not a grid can reach beyond all samples, on both sides. *)
Definition ex79_out : world := ex79 [0; 1 # 2; 4; 15 # 2; 8] [1; 1; 1; 1; 1] false 9 SHdi (99#100).
Lemma ex79_out_values : values (get_parameter_summary (ex79_num 16 2) (ex79_chain ex79_out) (frame_at (fst ex79_out) (ch_samples (ex79_chain ex79_out))) "x") = Some (Some (- (3 # 80)), Some (- (3 # 80)), Some (683 # 80)).
Proof. vm_compute. reflexivity. Qed.
Theorem C79_range_refuted : exists num w l c d mn mx b i, session ex_rgb true w /\ chain_at (fst w) l = Some c /\
  let f := frame_at (fst w) (ch_samples c) in
  usable num c /\ 0 < ch_cfg c Fsummary_area <= 1 /\ sample c f "x" d /\ is_min mn (map fst d) /\ is_max mx (map fst d) /\ mn < mx /\
  get_parameter_summary num c f "x" = Ok b /\ interval_of b i /\ fst i < mn /\ mx < snd i.
Proof.
  destruct (shown _ _ _ _ ex79_out_values) as [b [lo [up (E&I&L&U)]]].
  exists (ex79_num 16 2), ex79_out, 0%nat, (ex79_chain ex79_out), (combine [0; 1 # 2; 4; 15 # 2; 8] [1; 1; 1; 1; 1]), 0, 8, b, (lo, up).
  split; [apply ex79_session; reflexivity|]. split; [apply ex79_at; vm_compute; reflexivity|]. cbv zeta.
  split; [apply ex79_usable; [lia|lia|vm_compute; intros k K; injection K as <-; discriminate]|]. split; [vm_compute; split; [reflexivity|discriminate]|].
  split; [eexists _, _; split; [vm_compute; reflexivity|split; vm_compute; reflexivity]|]. split; [ends|]. split; [ends|]. split; [reflexivity|]. split; [exact E|]. split; [exact I|]. cbn [fst snd]. rewrite L, U. split; reflexivity.
Qed.
Print Assumptions C79_range_refuted.

Definition marginal_check (a : Q) (r : res marginal) : bool :=
  match r with Ok m => qltb (at_ (mg_cs m) 0) a && forallb (fun k => qltb (1 # 1000000000000) (at_ (mg_xs m) (S k) - at_ (mg_xs m) k)) (seq 0 (length (mg_xs m) - 1)) | Err _ => false end.
Lemma marginal_checked a r : marginal_check a r = true -> exists m, r = Ok m /\ at_ (mg_cs m) 0 < a /\ forall k, (S k < length (mg_xs m))%nat -> 1 # 1000000000000 < at_ (mg_xs m) (S k) - at_ (mg_xs m) k.
Proof.
  destruct r as [m|]; [|discriminate]. unfold marginal_check. intros H. apply andb_true_iff in H. destruct H as [H1 H2]. exists m. split; [reflexivity|]. split; [apply qlt_true; exact H1|]. intros k K. rewrite forallb_forall in H2. apply qlt_true. apply H2, in_seq. lia.
Qed.
(** The premises of [C80_nested] and [C80_wider] hold of the chain of [C79_nonvacuous] with areas 3/10 and 6/10. *)
Example C80_nonvacuous : forall s, In s [SMean; SCumulative; SMaxCentral; SHdi] -> let w := ex79 ex79_x ex79_w true 3 s (3#10) in let c := ex79_chain w in let f := frame_at (fst w) (ch_samples c) in
  other_area c (ex79_area c (6#10)) /\ ch_cfg c Fsummary_area == 3#10 /\ ch_cfg (ex79_area c (6#10)) Fsummary_area == 6#10 /\ ch_cfg c Fstatistics = Some s /\
  (exists m, chain_marginal (ex79_num 4 9) c f "x" true = Ok m /\ at_ (mg_cs m) 0 < 3 # 10 /\ forall k, (S k < length (mg_xs m))%nat -> 1 # 1000000000000 < at_ (mg_xs m) (S k) - at_ (mg_xs m) k) /\
  values (get_parameter_summary (ex79_num 4 9) (ex79_area c (6#10)) f "x") = match s with
    | SMean => Some (Some (14 # 25), Some (497 # 150), Some (91 # 15)) | SCumulative => Some (Some (14 # 25), Some (277 # 60), Some (91 # 15))
    | SMaxCentral => Some (Some (14 # 25), Some 1, Some (91 # 15)) | _ => Some (Some 4, Some (11 # 2), Some 7) end.
Proof.
  intros s HS w c f. split; [apply ex79_other|]. assert (EA : ch_cfg c Fsummary_area = 3#10) by (repeat (destruct HS as [<-|HS]; [vm_compute; reflexivity|]); destruct HS).
  split; [rewrite EA; reflexivity|]. split; [reflexivity|]. split; [repeat (destruct HS as [<-|HS]; [vm_compute; reflexivity|]); destruct HS|].
  split; [|repeat (destruct HS as [<-|HS]; [vm_compute; reflexivity|]); destruct HS].
  apply marginal_checked. repeat (destruct HS as [<-|HS]; [vm_compute; reflexivity|]). destruct HS.
Qed.
(** Two separate modes at area 31/32, one band around both at area 1. *)
Definition ex80_bands : world := ex79 [0; 1; 2; 3; 4] [8; 8; 1; 4; 4] true 3 SHdi (31#32).
Example C80_bands_nonvacuous : let c := ex79_chain ex80_bands in let f := frame_at (fst ex80_bands) (ch_samples c) in
  session ex_rgb true ex80_bands /\ chain_at (fst ex80_bands) 0 = Some c /\ usable (ex79_num 4 5) c /\ ch_cfg c Fsummary_area = 31#32 /\
  count (get_parameter_hdi_intervals (ex79_num 4 5) c f "x") = Some 2%nat /\ count (get_parameter_hdi_intervals (ex79_num 4 5) (ex79_area c 1) f "x") = Some 1%nat.
Proof.
  intros c f. split; [apply ex79_session; reflexivity|]. split; [apply ex79_at; vm_compute; reflexivity|]. split; [apply ex79_usable; [lia|lia|vm_compute; intros k K; injection K as <-; discriminate]|].
  split; [vm_compute; reflexivity|]. split; vm_compute; reflexivity.
Qed.
(** The highest density intervals are not nested: those of areas 3/10 and 6/10 of the same sample do not even touch. *)
Theorem C80_hdi_nested_refuted : exists num w l c c' d mn mx b b' i i', session ex_rgb true w /\ chain_at (fst w) l = Some c /\
  let f := frame_at (fst w) (ch_samples c) in
  usable num c /\ other_area c c' /\ 0 < ch_cfg c Fsummary_area /\ ch_cfg c Fsummary_area <= ch_cfg c' Fsummary_area /\ ch_cfg c' Fsummary_area <= 1 /\
  sample c f "x" d /\ is_min mn (map fst d) /\ is_max mx (map fst d) /\ mn < mx /\ ch_cfg c Fstatistics = Some SHdi /\
  get_parameter_summary num c f "x" = Ok b /\ get_parameter_summary num c' f "x" = Ok b' /\ interval_of b i /\ interval_of b' i' /\ snd i < fst i'.
Proof.
  assert (HS : In SHdi [SMean; SCumulative; SMaxCentral; SHdi]) by (cbn; tauto).
  destruct (C79_nonvacuous SHdi HS) as (S1&S2&S3&S4&S5&S6&S7&S8). destruct (C80_nonvacuous SHdi HS) as (T1&T2&T3&T4&_&T5).
  set (w := ex79 ex79_x ex79_w true 3 SHdi (3#10)) in *. set (c := ex79_chain w) in *. set (f := frame_at (fst w) (ch_samples c)) in *.
  destruct (shown _ _ _ _ S8) as [b [lo [up (E&I&L&U)]]]. destruct (shown _ _ _ _ T5) as [b' [lo' [up' (E'&I'&L'&U')]]].
  exists (ex79_num 4 9), w, 0%nat, c, (ex79_area c (6#10)), (combine ex79_x ex79_w), 0, 8, b, b', (lo, up), (lo', up').
  split; [exact S1|]. split; [exact S2|]. cbv zeta. split; [exact S3|]. split; [exact T1|]. rewrite T2, T3. split; [reflexivity|]. split; [discriminate|]. split; [discriminate|]. split; [exact S5|]. split; [exact S6|]. split; [exact S7|]. split; [reflexivity|]. split; [exact T4|].
  split; [exact E|]. split; [exact E'|]. split; [exact I|]. split; [exact I'|]. cbn [fst snd]. rewrite U, L'. reflexivity.
Qed.
Print Assumptions C80_hdi_nested_refuted.
(** A chain with a single value. *)
Example C79_single_value_nonvacuous : let w := ex79 [2; 2; 2] [1; 1; 1] false 3 SMean (3#10) in let c := ex79_chain w in
  session ex_rgb true w /\ chain_at (fst w) 0 = Some c /\ usable (ex79_num 4 5) c /\ sample c (frame_at (fst w) (ch_samples c)) "x" [(2, 1); (2, 1); (2, 1)].
Proof.
  intros w c. split; [apply ex79_session; reflexivity|]. split; [apply ex79_at; vm_compute; reflexivity|]. split; [apply ex79_usable; [lia|lia|vm_compute; intros k K; injection K as <-; discriminate]|].
  eexists _, _. split; [vm_compute; reflexivity|]. split; vm_compute; reflexivity.
Qed.
