(** C119: a better fit improves the score of a model, more parameters worsen it. *)
From Coq Require Import String Ascii List Bool Arith ZArith QArith Lia Reals Qreals Lra.
From Verif Require Import Py NumSpec NumModel FrameModel FrameFacts ConfigModel ChainModel RegistryModel RegistrySpec ChainSpec RegistryProofs ChainProofs SessionProofs CompareModel CompareSpec CompareProofs OffsetProofs
  RegistryProps ChainProps CompareProps PenaltySpec PenaltyProofs.
Import ListNotations.
Open Scope string_scope.
Open Scope list_scope.

(** AIC, with more data points than parameters allow for: a model that fits as well or better, with no more parameters and no fewer
    data points, has no larger score; and a smaller one if it fits better or has fewer parameters. *)
Theorem C119_aic : forall rgb2hex w d n m k k' N N' P P' u v, session rgb2hex false w -> aic w = Ok d -> dget n d = Some u -> dget m d = Some v ->
  model w n k N P -> model w m k' N' P' -> (k <= k')%Z -> (N' <= N)%Q -> (P' <= P)%Q -> (inject_Z k' + 1 < N')%Q ->
  (u <= v)%R /\ ((k < k')%Z \/ (P' < P)%Q -> (u < v)%R).
Proof.
  intros rgb w d n m k k' N N' P P' u v S H U V M M' KK NN PP L. pose proof (aic_diff rgb w d n m k k' N N' P P' u v S H U V M M') as E. rewrite !AICc_split in E.
  destruct (model_counts rgb w n k N P S M) as [K0 _]. apply Qlt_Rlt in L. rewrite Q2R_plus, Q2R_1 in L. replace (Q2R (inject_Z k')) with (IZR k') in L by (unfold Q2R, inject_Z; cbn [Qnum Qden]; field).
  assert (PR : (Q2R P' <= Q2R P)%R) by (apply Qle_Rle; exact PP). apply Qle_Rle in NN. assert (KR : (IZR k <= IZR k')%R) by (apply IZR_le; exact KK). apply IZR_le in K0.
  pose proof (correction_le (IZR k) (IZR k') (Q2R N) (Q2R N') K0 KR NN L) as C. split; [lra|]. intros [Q|Q]; [apply IZR_lt in Q; lra|apply Qlt_Rlt in Q; lra].
Qed.
Print Assumptions C119_aic.
(** BIC, for the same data: likewise; parameters count as soon as there is more than one data point. *)
Theorem C119_bic : forall rgb2hex w d n m k k' N P P' u v, session rgb2hex false w -> bic w = Ok d -> dget n d = Some u -> dget m d = Some v ->
  model w n k N P -> model w m k' N P' -> (k <= k')%Z -> (P' <= P)%Q -> (1 <= N)%Q ->
  (u <= v)%R /\ ((k < k')%Z /\ (1 < N)%Q \/ (P' < P)%Q -> (u < v)%R).
Proof.
  intros rgb w d n m k k' N P P' u v S H U V M M' KK PP L. pose proof (bic_diff rgb w d n m k k' N N P P' u v S H U V M M') as E. unfold BIC in E.
  assert (PR : (Q2R P' <= Q2R P)%R) by (apply Qle_Rle; exact PP). assert (KR : (IZR k <= IZR k')%R) by (apply IZR_le; exact KK). pose proof (ln_ge1 N L) as LN.
  assert (C : (IZR k * ln (Q2R N) <= IZR k' * ln (Q2R N))%R) by (apply Rmult_le_compat_r; assumption). split; [lra|].
  intros [[Q1 Q2]|Q]; [|apply Qlt_Rlt in Q; lra]. apply IZR_lt in Q1. apply ln_gt1 in Q2.
  assert (D : (IZR k * ln (Q2R N) < IZR k' * ln (Q2R N))%R) by (apply Rmult_lt_compat_r; assumption). lra.
Qed.
Print Assumptions C119_bic.
(** The exchange rate of the BIC: each further parameter has to gain (ln N)/2 in the log posterior. *)
Theorem C119_rate : forall rgb2hex w d n m k k' N P P' u v, session rgb2hex false w -> bic w = Ok d -> dget n d = Some u -> dget m d = Some v ->
  model w n k N P -> model w m k' N P' -> ((u <= v)%R <-> (IZR (k - k') * (ln (Q2R N) / 2) <= Q2R P - Q2R P')%R).
Proof.
  intros rgb w d n m k k' N P P' u v S H U V M M'. pose proof (bic_diff rgb w d n m k k' N N P P' u v S H U V M M') as E. unfold BIC in E. rewrite minus_IZR.
  replace ((IZR k - IZR k') * (ln (Q2R N) / 2))%R with ((IZR k * ln (Q2R N) - IZR k' * ln (Q2R N)) / 2)%R by field. split; intros; lra.
Qed.
Print Assumptions C119_rate.

Definition ex119_ops : list op :=
  [OpNewChain (ex37_args "A" 0 (Some 1%Z) (Some (Fin 3))); OpNewChain (ex37_args "B" 0 (Some 3%Z) (Some (Fin 3))); OpNewChain (ex37_args "C" 0 (Some 1%Z) (Some (Fin 20))); OpNewChain (ex37_args "D" 0 (Some 3%Z) (Some (Fin 20)));
   OpAdd 0; OpAdd 1; OpAdd 2; OpAdd 3].
Definition ex119 : world := fst (run ex_rgb (ex37_heap, new_consumer) ex119_ops).
Lemma ex119_session : session ex_rgb false ex119.
Proof.
  exists ex37_heap, ex119_ops. split; [reflexivity|]. split; [intros f [<-|[<-|[]]]; frame_wf_tac|]. split; [|reflexivity].
  intros o HO. repeat (destruct HO as [<-|HO]; [try exact I; intros P; discriminate|]). destruct HO.
Qed.
Definition ex119_chain (l : nat) : chain := match chain_at (fst ex119) l with Some c => c | None => build None (ex_args "" no_kw) 0 end.
Lemma ex119_model n k N : In (n, (k, N)) [("A", (1%Z, 3%Q)); ("B", (3%Z, 3%Q)); ("C", (1%Z, 20%Q)); ("D", (3%Z, 20%Q))] -> model ex119 n k N (-1).
Proof.
  intros HI. assert (G : forall l c, In (n, l) (k_chains (snd ex119)) -> chain_at (fst ex119) l = Some c -> column (frame_at (fst ex119) (ch_samples c)) (ch_post c) [-3; -1; -2]%Q -> ch_nfree c = Some k -> ch_ndata c = Some (Fin N) -> model ex119 n k N (-1)).
  { intros l c H1 H2 H3 H4 H5. exists c, (frame_at (fst ex119) (ch_samples c)), [-3; -1; -2]%Q. split; [exists l; split; [exact H1|split; [exact H2|reflexivity]]|]. split; [exact H3|]. split; [|split; [exact H4|exact H5]]. split; [cbn; tauto|]. intros x [<-|[<-|[<-|[]]]]; discriminate. }
  destruct HI as [E|[E|[E|[E|[]]]]]; injection E as <- <- <-; [apply (G 0%nat (ex119_chain 0))|apply (G 1%nat (ex119_chain 1))|apply (G 2%nat (ex119_chain 2))|apply (G 3%nat (ex119_chain 3))]; vm_compute; try reflexivity; tauto.
Qed.
Lemma ex119_aic : exists d, aic ex119 = Ok d /\ map fst d = ["A"; "B"; "C"; "D"].
Proof.
  assert (K : match score_loop raw_aic (fst ex119) (k_chains (snd ex119)) with Ok s => map fst s = ["A"; "B"; "C"; "D"] | Err _ => False end) by (vm_compute; reflexivity).
  unfold aic, scores. destruct (score_loop raw_aic (fst ex119) (k_chains (snd ex119))) as [s|]; [|contradiction]. eexists. split; [reflexivity|]. rewrite relative_names. exact K.
Qed.
Lemma in_dget {A} n (d : dict A) : In n (map fst d) -> exists v, dget n d = Some v.
Proof. intros H. apply dget_Some_mem. exact H. Qed.
(** With fewer data points than that the correction of the AIC turns into a reward: three parameters beat one at the same fit. *)
Theorem C119_aic_few_refuted : exists rgb2hex w d n m k k' N P u v, session rgb2hex false w /\ aic w = Ok d /\ dget n d = Some u /\ dget m d = Some v /\
  model w n k N P /\ model w m k' N P /\ (k < k')%Z /\ (v < u)%R.
Proof.
  destruct ex119_aic as [d [H F]]. destruct (in_dget "A" d) as [u U]; [rewrite F; cbn; tauto|]. destruct (in_dget "B" d) as [v V]; [rewrite F; cbn; tauto|].
  assert (MA : model ex119 "A" 1 3 (-1)) by (apply ex119_model; cbn; tauto). assert (MB : model ex119 "B" 3 3 (-1)) by (apply ex119_model; cbn; tauto).
  exists ex_rgb, ex119, d, "A", "B", 1%Z, 3%Z, 3%Q, (-1)%Q, u, v. split; [exact ex119_session|]. do 3 (split; [assumption|]). do 2 (split; [assumption|]). split; [lia|].
  pose proof (aic_diff _ _ _ _ _ _ _ _ _ _ _ _ _ ex119_session H U V MA MB) as E. unfold AICc in E. replace (Q2R 3) with 3%R in E by (unfold Q2R; cbn; lra).
  replace (2 * 1 * (1 + 1) / (3 - 1 - 1))%R with 4%R in E by field. replace (2 * 3 * (3 + 1) / (3 - 3 - 1))%R with (-24)%R in E by field. lra.
Qed.
Print Assumptions C119_aic_few_refuted.
Example C119_nonvacuous : exists da db u v x y, session ex_rgb false ex119 /\ aic ex119 = Ok da /\ bic ex119 = Ok db /\ dget "C" da = Some u /\ dget "D" da = Some v /\ dget "C" db = Some x /\ dget "D" db = Some y /\
  model ex119 "C" 1 20 (-1) /\ model ex119 "D" 3 20 (-1) /\ (inject_Z 3 + 1 < 20)%Q /\ (u < v)%R /\ (x < y)%R.
Proof.
  destruct ex119_aic as [da [H F]]. destruct (in_dget "C" da) as [u U]; [rewrite F; cbn; tauto|]. destruct (in_dget "D" da) as [v V]; [rewrite F; cbn; tauto|].
  assert (B : exists d, bic ex119 = Ok d /\ map fst d = ["A"; "B"; "C"; "D"]).
  { assert (K : match score_loop raw_bic (fst ex119) (k_chains (snd ex119)) with Ok s => map fst s = ["A"; "B"; "C"; "D"] | Err _ => False end) by (vm_compute; reflexivity).
    unfold bic, scores. destruct (score_loop raw_bic (fst ex119) (k_chains (snd ex119))) as [s|]; [|contradiction]. eexists. split; [reflexivity|]. rewrite relative_names. exact K. }
  destruct B as [db [HB FB]]. destruct (in_dget "C" db) as [x X]; [rewrite FB; cbn; tauto|]. destruct (in_dget "D" db) as [y Y]; [rewrite FB; cbn; tauto|].
  assert (MC : model ex119 "C" 1 20 (-1)) by (apply ex119_model; cbn; tauto). assert (MD : model ex119 "D" 3 20 (-1)) by (apply ex119_model; cbn; tauto).
  exists da, db, u, v, x, y. split; [exact ex119_session|]. do 6 (split; [assumption|]). do 2 (split; [assumption|]). split; [reflexivity|]. split.
  - apply (C119_aic ex_rgb ex119 da "C" "D" 1 3 20 20 (-1) (-1) u v ex119_session H U V MC MD); try (apply Qle_refl); [lia|reflexivity|left; lia].
  - apply (C119_bic ex_rgb ex119 db "C" "D" 1 3 20 (-1) (-1) x y ex119_session HB X Y MC MD); try (apply Qle_refl); [lia|discriminate|left; split; [lia|reflexivity]].
Qed.
