(** C96: what a summary reports of a parameter is what the chosen statistic means. *)
From Coq Require Import String QArith Qabs Qround List Arith ZArith Bool Lia.
From Verif Require Import Py NumSpec NumModel HelpersSpec HelpersModel MarginalModel SummarySpec FrameModel FrameFacts ConfigModel ChainModel RegistryModel RegistrySpec ChainSpec TextModel AnalysisModel AnalysisSpec
  ChainProps RegistryProps AnalysisProofs AnalysisProps EquivSpec EquivApi EquivProps SessionProofs ReportSpec ReportProofs ReportProps MeaningSpec MeaningProofs.
From Coq Require Import Lqa.
Import ListNotations.
Open Scope string_scope.
Open Scope list_scope.
Open Scope Q_scope.

(** * C96 *)
(** Any chain of a session without shift_params and any column with at least two different values: the entry of the column is
    one bound, with the numbers of the chain's statistic read off the density curve of the weighted samples, or, if the chain
    is multimodal and the curve has two or more separate parts above the level of the wanted area, one bound for each part. *)
Theorem C96_chain : forall rgb2hex num w l c p d mn mx e, session rgb2hex true w -> chain_at (fst w) l = Some c ->
  let f := frame_at (fst w) (ch_samples c) in
  usable num c -> 0 < ch_cfg c Fsummary_area <= 1 -> sample c f p d -> is_min mn (map fst d) -> is_max mx (map fst d) -> mn < mx ->
  column_summary num c f p = Ok e -> entry_means num c f d e.
Proof.
  intros rgb num w l c p d mn mx e S HC f U A D Hmn Hmx L E. destruct (session_chain _ _ _ _ S HC) as [G1 G2].
  apply (entry_meaning num c f p d mn mx); try assumption; [apply (so_wf _ _ G1)|eapply good_positive; eassumption|].
  unfold column_summary in E. apply rbind_ok in E. destruct E as [b [B E]]. exists b. split; [exact B|]. destruct (ch_cfg c Fmultimodal); [right|left; injection E as <-; auto]. split; [reflexivity|].
  apply rbind_ok in E. destruct E as [ivs [IV E]]. exists ivs. split; [exact IV|]. destruct (2 <=? length ivs)%nat eqn:LE; [apply Nat.leb_le in LE; right|apply Nat.leb_gt in LE; left; injection E as <-; auto]. split; [exact LE|].
  destruct (get_parameter_multimodal_bounds num c f p ivs) as [bs|]; [|discriminate]. injection E as <-. eauto.
Qed.
Print Assumptions C96_chain.
(** The same for what get_summary() returns, chain by chain and column by column. *)
Theorem C96_summary : forall rgb2hex num w columns w' s n es p e, session rgb2hex true w -> get_summary num w ReqAll columns = (w', Ok s) -> dget n s = Some es -> dget p es = Some e ->
  exists l c d, chain_at (fst w') l = Some c /\ ch_name c = n /\
    let f := frame_at (fst w') (ch_samples c) in
    sample c f p d /\
    forall mn mx, usable num c -> 0 < ch_cfg c Fsummary_area <= 1 -> is_min mn (map fst d) -> is_max mx (map fst d) -> mn < mx -> entry_means num c f d e.
Proof.
  intros rgb num w columns w' s n es p e S H N P.
  destruct (get_final_chains w) as [w1 [finals|ex]] eqn:F; [|unfold get_summary, sanitise_chains in H; rewrite F in H; discriminate].
  destruct (C32_all _ _ _ _ _ _ _ _ (session_reachable _ _ _ S) F H) as [-> [K [locs [chains [cols (S1&O&NM&A&B)]]]]].
  assert (G : world_good true w1) by (change w1 with (fst (w1, Ok finals)); rewrite <- F; apply final_good; exact (session_good _ _ _ S)).
  assert (NS : In (n, es) s) by (apply dget_In; exact N).
  assert (X : exists l cf, chain_at (fst w1) l = Some (fst cf) /\ snd cf = frame_at (fst w1) (ch_samples (fst cf)) /\ ch_name (fst cf) = n /\ summary_of num cols cf es).
  { assert (KN : map fst s = map name_of chains) by (unfold dkeys in K; rewrite K, NM; reflexivity). clear -O B NS KN. unfold dvalues in B. revert locs chains O B KN. induction s as [|[k v] s IH]; intros locs chains O B KN; [destruct NS|].
    destruct chains as [|cf chains]; [discriminate|]. cbn [map] in B, KN. inversion B as [|? ? ? ? B1 B2]; subst. inversion O as [|l ? ls ? O1 O2]; subst. injection KN as K1 K2. cbn [fst snd] in *.
    destruct NS as [E|NS]; [injection E as <- <-; exists l, cf; destruct O1; repeat split; try assumption; [symmetry; exact K1|apply B1|apply B1]|]. exact (IH NS ls chains O2 B2 K2). }
  destruct X as [l [[c f] (X1&X2&X3&[_ X4])]]. cbn [fst snd] in *. subst f. destruct G as [[_ G] _]. destruct (G l c X1) as [_ [G1 G2]]. specialize (G2 eq_refl). set (f := frame_at (fst w1) (ch_samples c)) in *.
  pose proof (X4 p e P) as E. assert (D : exists d, sample c f p d).
  { pose proof (so_weight _ _ G1) as HW. unfold f_has in HW. destruct E as [b [E _]]. unfold get_parameter_summary in E. destruct (ch_cfg c Fstatistics); [|discriminate]. unfold get_data in E. destruct (f_get f p) as [x|] eqn:EX; [|discriminate]. unfold weights in E. destruct (f_get f (ch_weight c)) as [v|] eqn:EW; [|discriminate].
    exists (combine (qs x) (qs v)), x, v. auto. }
  destruct D as [d D]. exists l, c, d. split; [exact X1|]. split; [exact X3|]. split; [exact D|]. intros mn mx U A0 Hmn Hmx L. apply (entry_meaning num c f p d mn mx); try assumption; [apply (so_wf _ _ G1)|eapply good_positive; eassumption].
Qed.
Print Assumptions C96_summary.

(** ** Examples *)
(** A chain with two separate modes, as grid of weights, with or without a kernel density estimate. *)
Definition ex96_args (k : kde_opt) (multi : bool) (s : stat) (area : Q) : cargs :=
  {| a_cfg := kset (kset (kset (kset (kset (kset no_kw Fsummary_area area) Fstatistics (Some s)) Fsmooth (Some 0%Z)) Fbins (Some 3%Z)) Fmultimodal multi) Fkde k; a_samples := 0; a_name := "A"; a_weight := None; a_post := None; a_walkers := None; a_grid := Some true;
     a_nfree := None; a_ndata := None; a_power := None; a_showlabel := None; a_relheight := None |}.
Definition ex96 (x w : list Q) (k : kde_opt) (multi : bool) (s : stat) (area : Q) : world :=
  fst (run ex_rgb ({| h_frames := [ex75_frame x w]; h_chains := [] |}, new_consumer) [OpNewChain (ex96_args k multi s area); OpAdd 0]).
Definition ex96_num : numerics := {| n_bins := 4; n_points := 5; n_kde := 3; n_pad := 2; n_tries := 3; n_power := fun p h => h; n_kernel := fun _ => [1];
  n_megkde := fun _ _ k x => if Qle_bool x 1 then 1 else k * k |}.
Definition entry_values (r : res bounds_in) : option (list (option (option Q * option Q * option Q))) :=
  match r with Ok (BOne b) => Some [values (Ok b)] | Ok (BMany bs) => Some (map (fun b => values (Ok b)) bs) | _ => None end.
(** The premises hold of the chain; its entry has one bound or one for each mode, and follows the statistic and the density
    estimate. *)
Example C96_nonvacuous : forall x ww mx k multi s a v, In (x, ww, mx, k, multi, s, a, v)
    [([0; 1; 2], [9; 1; 9], 2, KBool false, true, SHdi, 1 # 2, [Some (Some 0, Some 0, Some (1 # 2)); Some (Some (3 # 2), Some 2, Some 2)]);
     ([0; 1; 2; 3; 4; 5; 6; 7; 8], [10; 46; 50; 1; 1; 1; 40; 42; 12], 8, KBool false, false, SMean, 1 # 2, [Some (Some (73 # 100), Some (2367 # 800), Some (83 # 16))]);
     ([0; 1; 2; 3; 4; 5; 6; 7; 8], [10; 46; 50; 1; 1; 1; 40; 42; 12], 8, KBool false, false, SMaxCentral, 1 # 2, [Some (Some (73 # 100), Some 2, Some (83 # 16))]);
     ([0; 1; 2], [9; 1; 9], 2, KNum 2, false, SMean, 1 # 2, [Some (Some (11 # 16), Some (153 # 128), Some (109 # 64))])] ->
  let w := ex96 x ww k multi s a in let c := ex79_chain w in let f := frame_at (fst w) (ch_samples c) in let d := combine x ww in
  session ex_rgb true w /\ chain_at (fst w) 0 = Some c /\ usable ex96_num c /\ 0 < ch_cfg c Fsummary_area <= 1 /\ sample c f "x" d /\ is_min 0 (map fst d) /\ is_max mx (map fst d) /\
  entry_values (column_summary ex96_num c f "x") = Some v.
Proof.
  intros x ww mx k multi s a v HV w c f d. assert (LT : match chain_at (fst w) 0 with Some _ => true | None => false end = true) by (repeat (destruct HV as [E|HV]; [injection E as <- <- <- <- <- <- <- <-; vm_compute; reflexivity|]); destruct HV).
  split.
  { assert (L : length x = length ww) by (repeat (destruct HV as [E|HV]; [injection E as <- <- <- <- <- <- <- <-; reflexivity|]); destruct HV).
    exists {| h_frames := [ex75_frame x ww]; h_chains := [] |}, [OpNewChain (ex96_args k multi s a); OpAdd 0]. split; [reflexivity|]. split; [|split; [intros o [<-|[<-|[]]]; [intros P; discriminate|exact I]|reflexivity]].
    intros g [<-|[]]. split; [repeat (constructor; [cbn; intuition congruence|]); constructor|]. intros cl l [E|[E|[]]]; injection E as <- <-; cbn [ex75_frame f_index]; rewrite ?map_length, ?seq_length; congruence. }
  split; [apply ex79_at; exact LT|].
  split; [constructor; cbn [ex96_num n_bins n_points n_kde n_pad n_power n_kernel n_megkde]; try lia; [auto|intros _ t [<-|[]]; lra|intros _ _ q y; destruct (Qle_bool y 1); nra|repeat (destruct HV as [E|HV]; [injection E as <- <- <- <- <- <- <- <-; vm_compute; intros b B; injection B as <-; discriminate|]); destruct HV]|].
  split; [repeat (destruct HV as [E|HV]; [injection E as <- <- <- <- <- <- <- <-; vm_compute; split; [reflexivity|discriminate]|]); destruct HV|].
  split; [repeat (destruct HV as [E|HV]; [injection E as <- <- <- <- <- <- <- <-; eexists _, _; split; [vm_compute; reflexivity|split; vm_compute; reflexivity]|]); destruct HV|].
  split; [repeat (destruct HV as [E|HV]; [injection E as <- <- <- <- <- <- <- <-; ends|]); destruct HV|]. split; [repeat (destruct HV as [E|HV]; [injection E as <- <- <- <- <- <- <- <-; ends|]); destruct HV|]. repeat (destruct HV as [E|HV]; [injection E as <- <- <- <- <- <- <- <-; vm_compute; reflexivity|]). destruct HV.
Qed.
