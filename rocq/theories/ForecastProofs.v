(** Proofs about forecast chains. *)
From Coq Require Import String List Bool Arith ZArith QArith Lia.
From Verif Require Import Py FrameModel FrameFacts ConfigModel ChainModel RegistryModel RegistrySpec HeapFacts RegistryProofs ChainSpec ChainProofs ChainUseProofs
  ForecastModel ForecastSpec.
Import ListNotations.
Open Scope list_scope.

Lemma combine_snd {A B} : forall (a : list A) (b : list B), length a = length b -> map snd (combine a b) = b.
Proof. induction a as [|x a IH]; intros [|y b] L; try discriminate; [reflexivity|]. cbn. f_equal. apply IH. cbn in L. lia. Qed.
Lemma default_index_length n : length (default_index n) = n.
Proof. unfold default_index. rewrite map_length. apply seq_length. Qed.
Lemma default_index_labels n i r : nth_error (default_index n) i = Some r -> r = LInt (Z.of_nat i).
Proof.
  unfold default_index. rewrite nth_error_map. destruct (nth_error (seq 0 n) i) as [j|] eqn:EJ; [|discriminate]. cbn. intros E. injection E as <-.
  assert (HL : (i < n)%nat) by (rewrite <- (seq_length n 0); apply nth_error_Some; congruence).
  rewrite (nth_error_nth' (seq 0 n) 0%nat) in EJ by (rewrite seq_length; exact HL). rewrite seq_nth in EJ by exact HL. injection EJ as <-. reflexivity.
Qed.
Lemma table_of_ok columns dims rows f : NoDup columns -> (forall r, In r rows -> length r = dims) -> table_of columns dims rows = Ok f -> tabulates f columns rows.
Proof.
  intros ND LR. unfold table_of. destruct (Nat.eqb_spec (length columns) dims) as [L|L]; [|discriminate]. cbn [negb]. intros E. injection E as <-.
  assert (F : map fst (map (fun jn : nat * string => (CStr (snd jn), map (fun r => Fin (nth (fst jn) r 0%Q)) rows)) (combine (seq 0 dims) columns)) = map CStr columns).
  { rewrite map_map. cbn [fst]. rewrite <- (map_map snd CStr), combine_snd by (rewrite seq_length; lia). reflexivity. }
  split; [|split; [|split; [|split]]]; cbn [f_index f_cols].
  - split; cbn [f_index f_cols]; [rewrite F; apply FinFun.Injective_map_NoDup; [intros x y E; injection E; auto|exact ND]|].
    intros c l HI. apply in_map_iff in HI. destruct HI as [[j n] [E _]]. injection E as _ <-. rewrite map_length, default_index_length. reflexivity.
  - intros i r. cbn [f_index]. apply default_index_labels.
  - apply default_index_length.
  - exact F.
  - intros j n HN. assert (HJ : (j < dims)%nat) by (subst dims; apply nth_error_Some; congruence).
    assert (HS : nth_error (seq 0 dims) j = Some j).
    { rewrite (nth_error_nth' (seq 0 dims) 0%nat) by (rewrite seq_length; exact HJ). rewrite seq_nth by exact HJ. reflexivity. }
    exists (map (fun r => nth j r 0%Q) rows). split.
    + rewrite nth_error_map, (nth_combine _ _ _ _ _ HS HN). cbn. rewrite map_map. reflexivity.
    + split; [apply map_length|]. intros i r HR. exists (nth j r 0%Q). split; [|rewrite nth_error_map, HR; reflexivity].
      apply nth_error_nth'. rewrite (LR r (nth_error_In _ _ HR)). exact HJ.
Qed.
Lemma table_of_total columns dims rows : (exists f, table_of columns dims rows = Ok f) <-> length columns = dims.
Proof. unfold table_of. destruct (Nat.eqb_spec (length columns) dims) as [L|L]; cbn [negb]; split; try tauto; [intros _; eexists; reflexivity|intros [f E]; discriminate]. Qed.
Lemma from_covariance_new rgb2hex draw h mean cov columns a rows f : draw mean cov forecast_size = Ok rows -> table_of columns (length mean) rows = Ok f ->
  exists h1 b, from_covariance rgb2hex draw h mean cov columns a = new_chain rgb2hex h1 b /\ untouched h h1 /\ frame_at h1 (a_samples b) = f /\ arguments_with a b.
Proof.
  intros ED ET. unfold from_covariance. rewrite ED. cbn [rbind]. rewrite ET. cbn [alloc_frame]. do 2 eexists. split; [reflexivity|]. split; [exact (untouched_alloc_frame h _)|].
  split; [|repeat split]. cbn [a_samples]. unfold frame_at. cbn [h_frames]. rewrite app_nth2, Nat.sub_diag by lia. reflexivity.
Qed.
Lemma tabulated_column f columns rows n : tabulates f columns rows -> (is_column f n <-> In n columns).
Proof.
  intros (W & _ & _ & F & _). split.
  - intros [l HI]. apply (in_map fst) in HI. rewrite F in HI. cbn in HI. apply in_map_iff in HI. destruct HI as [m [E HI]]. injection E as ->. exact HI.
  - intros HI. apply (in_map CStr) in HI. rewrite <- F in HI. apply in_map_iff in HI. destruct HI as [[c l] [E HI]]. cbn in E. subst c. exists l. exact HI.
Qed.
Lemma tabulated_finite f columns rows c l : tabulates f columns rows -> In (c, l) (f_cols f) -> (exists s, c = CStr s) /\ forall x, In x l -> exists q, x = Fin q.
Proof.
  intros (W & _ & _ & F & V) HI. destruct (In_nth_error _ _ HI) as [j HJ].
  assert (HC : nth_error (map CStr columns) j = Some c) by (rewrite <- F, nth_error_map, HJ; reflexivity).
  rewrite nth_error_map in HC. destruct (nth_error columns j) as [n|] eqn:EN; [|discriminate]. injection HC as <-.
  destruct (V j n EN) as [v [E _]]. rewrite HJ in E. injection E as ->. split; [exists n; reflexivity|].
  intros x HX. apply in_map_iff in HX. destruct HX as [q [<- _]]. exists q. reflexivity.
Qed.
