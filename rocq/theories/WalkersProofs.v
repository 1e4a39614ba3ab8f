(** Lemmas: importing from samplers. *)
From Coq Require Import String List Bool Arith ZArith QArith Lia.
From Verif Require Import Py FrameModel FrameFacts ConfigModel ChainModel RegistrySpec HeapFacts ChainSpec ChainProofs ChainUseProofs ChainProps SurfaceModel SurfaceSpec SurfaceProofs WalkersModel WalkersSpec.
Import ListNotations.
Open Scope list_scope.

(** ** Lists of equally long lists *)
Lemma slice_concat {A} m : forall (xs : list (list A)) k, (forall x, In x xs -> length x = m) -> (k < length xs)%nat -> slice (k * m) (k * m + m) (concat xs) = nth k xs [].
Proof.
  unfold slice. intros xs. induction xs as [|x xs IH]; intros k L H; [cbn in H; lia|]. pose proof (L x (or_introl eq_refl)) as Lx.
  replace (k * m + m - k * m)%nat with m in * by lia. destruct k as [|k].
  - cbn [Nat.mul skipn concat nth]. rewrite <- Lx. rewrite firstn_app, Nat.sub_diag, firstn_all. cbn [firstn]. apply app_nil_r.
  - cbn [concat nth]. rewrite <- (IH k); [|intros y Hy; apply L; right; exact Hy|cbn in H; lia]. f_equal; [lia|].
    rewrite skipn_app, skipn_all2 by (cbn [Nat.mul]; lia). cbn [app]. f_equal. cbn [Nat.mul]. lia.
Qed.
Lemma concat_even {A} m (xs : list (list A)) : (forall x, In x xs -> length x = m) -> length (concat xs) = (length xs * m)%nat.
Proof. induction xs as [|x xs IH]; intros L; [reflexivity|]. cbn. rewrite app_length, IH by (intros y Hy; apply L; right; exact Hy). rewrite (L x (or_introl eq_refl)). reflexivity. Qed.
Lemma nth_concat {A} m : forall (xs : list (list A)) i j, (forall x, In x xs -> length x = m) -> (j < m)%nat ->
  nth_error (concat xs) (i * m + j) = match nth_error xs i with Some x => nth_error x j | None => None end.
Proof.
  intros xs. induction xs as [|x xs IH]; intros i j L H; [cbn; destruct (i * m + j)%nat, i; reflexivity|]. pose proof (L x (or_introl eq_refl)) as Lx. cbn [concat]. destruct i as [|i].
  - cbn [Nat.mul Nat.add nth_error]. apply nth_error_app1. lia.
  - cbn [nth_error]. rewrite nth_error_app2 by (cbn [Nat.mul]; lia). rewrite <- IH; [|intros y Hy; apply L; right; exact Hy|exact H]. f_equal. cbn [Nat.mul]. lia.
Qed.
Lemma slice_map {A B} (g : A -> B) a b l : slice a b (map g l) = map g (slice a b l).
Proof. unfold slice. rewrite skipn_map, firstn_map. reflexivity. Qed.
Lemma nth_slice {A} a n (l : list A) i : (i < n)%nat -> nth_error (slice a (a + n) l) i = nth_error l (a + i).
Proof.
  intros H. unfold slice. replace (a + n - a)%nat with n by lia. revert l. induction a as [|a IH]; intros l.
  - cbn [skipn Nat.add]. revert i H l. induction n as [|n IHn]; intros i H l; [lia|]. destruct l as [|x l]; [destruct i; reflexivity|]. destruct i as [|i]; [reflexivity|]. cbn. apply IHn. lia.
  - destruct l as [|x l]; [cbn; destruct n, i; reflexivity|]. cbn. apply IH.
Qed.

(** ** A chain made from a frame *)
Lemma chain_keeps rgb h a h1 l c : frame_wf (frame_at h (a_samples a)) -> new_chain rgb h a = (h1, Ok l) -> chain_at h1 l = Some c -> ch_cfg c Fshift_params = false ->
  f_index (frame_at h1 (ch_samples c)) = f_index (frame_at h (a_samples a)) /\
  forall n v, column (frame_at h (a_samples a)) n v -> column (frame_at h1 (ch_samples c)) n v.
Proof.
  intros W H HC HS. destruct (new_chain_result rgb h a h1 l W H) as [col [f2 [H1 [H2 [H3 [H4 [H5 [H6 _]]]]]]]]. cbv zeta in *.
  rewrite HC in H3. injection H3 as ->. rewrite H4. split; [exact H6|]. intros n v C. unfold shifted in H5.
  rewrite (with_stat_other _ Fshift_params ltac:(discriminate)) in HS. rewrite HS in H5. injection H5 as <-. unfold column. rewrite with_weight_cols. destruct (f_has _ _); [exact C|]. apply in_or_app. left. exact C.
Qed.
(** What divide gives, in terms of slices. *)
Lemma divide_slices rgb h a h1 l c h2 : frame_wf (frame_at h (a_samples a)) -> new_chain rgb h a = (h1, Ok l) -> chain_at h1 l = Some c -> untouched h1 h2 ->
  ch_cfg c Fshift_params = false -> (1 < ch_walkers c)%Z -> ch_grid c = false ->
  exists h3 cs size, divides rgb h2 c h3 cs /\ Z.of_nat (length cs) = ch_walkers c /\ length (f_index (frame_at h (a_samples a))) = (length cs * size)%nat /\
    forall k c' n v, nth_error cs k = Some c' -> column (frame_at h (a_samples a)) n v -> column (frame_at h3 (ch_samples c')) n (slice (k * size) (k * size + size) v).
Proof.
  intros W H HC U HS HW HG. destruct (built_at _ _ _ _ _ _ _ W H HC U) as [L [E B]]. destruct (chain_keeps _ _ _ _ _ _ W H HC HS) as [KI KC].
  destruct (divide_ok rgb h2 c _ eq_refl L B HS HW HG) as [h3 [ls [size [D [DL [DR DK]]]]]].
  assert (CS : exists cs, map (chain_at h3) ls = map Some cs).
  { assert (G : forall m, (forall x, In x m -> exists c', chain_at h3 x = Some c') -> exists cs, map (chain_at h3) m = map Some cs).
    { induction m as [|x m IH]; intros HX; [exists []; reflexivity|]. destruct IH as [cs IH]; [intros y Hy; apply HX; right; exact Hy|].
      destruct (HX x (or_introl eq_refl)) as [c' HC']. exists (c' :: cs). cbn. rewrite HC', IH. reflexivity. }
    apply G. intros x Hx. apply In_nth_error in Hx. destruct Hx as [k Hk]. destruct (DK k x Hk) as [c' [HC' _]]. exists c'. exact HC'. }
  destruct CS as [cs CS]. assert (LE : length cs = length ls) by (rewrite <- (map_length Some cs), <- CS, map_length; reflexivity).
  exists h3, cs, size. split; [exists ls; auto|]. split; [lia|]. split; [rewrite <- KI, LE, <- E; exact DR|].
  intros k c' n v Hk C. pose proof (map_nth_error Some k cs Hk) as HK. rewrite <- CS in HK.
  destruct (nth_error ls k) as [x|] eqn:EX; [|apply nth_error_None in EX; assert (Q : nth_error cs k <> None) by congruence; apply nth_error_Some in Q; lia].
  pose proof (map_nth_error (chain_at h3) k ls EX) as HK2. rewrite HK in HK2. injection HK2 as HK2. destruct (DK k x EX) as [c'' [K1 [_ [K2 _]]]]. rewrite K1 in HK2. injection HK2 as ->.
  apply KC in C. rewrite K2. unfold column in *. cbn [f_slice f_cols]. apply in_map_iff. exists (CStr n, map Fin v). split; [cbn; rewrite slice_map; reflexivity|]. rewrite E. exact C.
Qed.

(** ** numpyro and arviz *)
Lemma chain_from_new rgb h f a h1 l : chain_from rgb h f a = (h1, Ok l) ->
  exists f' h0, f = Ok f' /\ new_chain rgb h0 (with_frame a (length (h_frames h))) = (h1, Ok l) /\ frame_at h0 (length (h_frames h)) = f'.
Proof.
  unfold chain_from. destruct f as [f|e]; [|discriminate]. cbn [alloc_frame]. intros H. eexists f, _. split; [reflexivity|]. split; [exact H|].
  unfold frame_at. cbn [h_frames]. rewrite app_nth2, Nat.sub_diag by lia. reflexivity.
Qed.
Lemma concat_single {A} (l : list (list A)) : (forall x, In x l -> exists q, x = [q]) -> length (concat l) = length l.
Proof. intros H. rewrite (concat_even 1); [lia|]. intros x Hx. destruct (H x Hx) as [q ->]. reflexivity. Qed.
Lemma scalars_ravel n m s v chains : scalars_of n m s -> In (v, chains) s -> length (concat (concat chains)) = (n * m)%nat /\ forall k draws, nth_error chains k = Some draws -> slice (k * m) (k * m + m) (concat (concat chains)) = concat draws.
Proof.
  intros S H. destruct (S v chains H) as [L D]. clear S H.
  assert (E : concat (concat chains) = concat (map (@concat Q) chains)) by (clear; induction chains as [|x r IH]; [reflexivity|]; cbn; rewrite concat_app, IH; reflexivity).
  assert (LM : forall x, In x (map (@concat Q) chains) -> length x = m). { intros x Hx. apply in_map_iff in Hx as [d [<- Hd]]. destruct (D d Hd) as [D1 D2]. rewrite concat_single by exact D2. exact D1. }
  rewrite E. split; [rewrite (concat_even m) by exact LM; rewrite map_length, L; reflexivity|]. intros k draws Hk.
  assert (KL : (k < length chains)%nat) by (apply nth_error_Some; congruence). rewrite (slice_concat m) by (try exact LM; rewrite map_length; exact KL).
  apply nth_error_nth. apply map_nth_error. exact Hk.
Qed.
Lemma ravelled_names m : map fst (ravelled m) = map fst m.
Proof. unfold ravelled. rewrite map_map. reflexivity. Qed.
Lemma arviz_wf vn p kept : NoDup (map fst (p_vars p)) -> posterior_ok p -> filter_var_names vn (map fst (p_vars p)) = Ok kept ->
  exists f, arviz_frame vn p = Ok f /\ frame_wf f /\ length (f_index f) = (p_chains p * p_draws p)%nat /\ forall v chains, In (v, chains) (p_vars p) -> In v kept -> column f v (concat chains).
Proof.
  intros ND S K. unfold arviz_frame. rewrite K. cbn [rbind]. eexists. split; [reflexivity|].
  assert (LI : length (flat_map (fun i => repeat (LInt (Z.of_nat i)) (p_draws p)) (seq 0 (p_chains p))) = (p_chains p * p_draws p)%nat).
  { rewrite <- (seq_length (p_chains p) 0) at 2. generalize (seq 0 (p_chains p)). induction l as [|x l IH]; [reflexivity|]. cbn. rewrite app_length, repeat_length, IH. reflexivity. }
  split; [|split; [exact LI|]].
  - split; cbn [f_cols f_index].
    + rewrite map_map. cbn [fst]. rewrite <- (map_map fst CStr). apply FinFun.Injective_map_NoDup; [intros x y E; injection E; auto|]. rewrite (map_fst_filter (fun m => smem m kept)). apply NoDup_filter. exact ND.
    + intros c l HI. apply in_map_iff in HI as [[v chains] [E HI]]. injection E as _ <-. apply filter_In in HI as [HI _]. destruct (S v chains HI) as [S1 S2]. rewrite map_length. cbn [snd]. rewrite (concat_even _ _ S2), LI, S1. reflexivity.
  - intros v chains HI HK. unfold column. cbn [f_cols]. apply in_map_iff. exists (v, chains). split; [reflexivity|]. apply filter_In. split; [exact HI|]. apply smem_In. exact HK.
Qed.

(** ** emcee *)
Lemma kept_every {A} thin discard (s : list A) i : (1 <= thin)%nat -> nth_error (every thin (skipn (discard + thin - 1) s)) i = nth_error s (kept_step thin discard i).
Proof.
  intros H. rewrite (every_spec thin _ H i). unfold kept_step. rewrite <- (firstn_skipn (discard + thin - 1) s) at 2.
  destruct (Nat.le_gt_cases (discard + thin - 1) (length s)) as [L|L].
  - rewrite nth_error_app2 by (rewrite firstn_length; lia). f_equal. rewrite firstn_length. lia.
  - rewrite skipn_all2 by lia. rewrite app_nil_r, firstn_all2 by lia. transitivity (@None A); [destruct (i * thin)%nat; reflexivity|]. symmetry. apply nth_error_None. lia.
Qed.
Lemma kept_length {A} thin discard (s : list A) T : (1 <= thin)%nat -> kept_steps thin discard (length s) T -> length (every thin (skipn (discard + thin - 1) s)) = T.
Proof.
  intros H K. set (e := every thin _). assert (E : forall i, (i < length e)%nat <-> (i < T)%nat).
  { intros i. rewrite (K i), <- !nth_error_Some. unfold e. rewrite kept_every by exact H. reflexivity. }
  destruct (Nat.lt_trichotomy (length e) T) as [L|[L|L]]; [apply E in L; lia|exact L|apply E in L; lia].
Qed.
Lemma kept_in {A} thin discard (s : list A) x : (1 <= thin)%nat -> In x (every thin (skipn (discard + thin - 1) s)) -> In x s.
Proof. intros H I. apply In_nth_error in I as [i I]. rewrite kept_every in I by exact H. apply nth_error_In in I. exact I. Qed.
Lemma flat_at thin discard s W D T d i w : ensemble_of W D s -> (1 <= thin)%nat -> kept_steps thin discard (length s) T -> (d < D)%nat -> (i < T)%nat -> (w < W)%nat ->
  nth_error (map (fun r => nth d r 0%Q) (get_flat_chain thin discard s)) (i * W + w) = coordinate s (kept_step thin discard i) w d /\ coordinate s (kept_step thin discard i) w d <> None.
Proof.
  intros E HT K Hd Hi Hw. unfold get_flat_chain, coordinate. rewrite nth_error_map, (nth_concat W) by (try exact Hw; intros x Hx; apply (E x), (kept_in thin discard s x HT Hx)).
  rewrite kept_every by exact HT. apply K in Hi. destruct (nth_error s (kept_step thin discard i)) as [st|] eqn:ES; [|apply nth_error_None in ES; lia].
  destruct (E st (nth_error_In _ _ ES)) as [E1 E2]. destruct (nth_error st w) as [p|] eqn:EP; [|apply nth_error_None in EP; lia].
  cbn [option_map]. specialize (E2 p (nth_error_In _ _ EP)). rewrite (nth_error_nth' p 0%Q) by lia. split; [reflexivity|discriminate].
Qed.
Lemma flat_length thin discard s W D T : ensemble_of W D s -> (1 <= thin)%nat -> kept_steps thin discard (length s) T -> length (get_flat_chain thin discard s) = (T * W)%nat.
Proof.
  intros E HT K. unfold get_flat_chain. rewrite (concat_even W) by (intros x Hx; apply (E x), (kept_in thin discard s x HT Hx)). rewrite (kept_length thin discard s T HT K). reflexivity.
Qed.
Lemma dimensions_nth D rows d : (d < D)%nat -> nth_error (dimensions D rows) d = Some (map (fun r => nth d r 0%Q) rows).
Proof.
  intros H. unfold dimensions. apply (map_nth_error (fun d => map (fun r => nth d r 0%Q) rows)). rewrite (nth_error_nth' _ 0%nat) by (rewrite seq_length; exact H). rewrite seq_nth by exact H. reflexivity.
Qed.

(** ** What the arguments say about the chain *)
Lemma made_from rgb h a h1 l c : frame_wf (frame_at h (a_samples a)) -> new_chain rgb h a = (h1, Ok l) -> chain_at h1 l = Some c ->
  (forall z, a_walkers a = Some z -> ch_walkers c = z) /\ (a_cfg a Fshift_params <> Some true -> ch_cfg c Fshift_params = false) /\ (a_grid a <> Some true -> ch_grid c = false).
Proof.
  intros W H HC. destruct (new_chain_result rgb h a h1 l W H) as [col [f2 [_ [_ [H3 _]]]]]. cbv zeta in H3. rewrite HC in H3. injection H3 as ->.
  split; [intros z E; cbn; rewrite E; reflexivity|]. split.
  - intros N. rewrite with_stat_other by discriminate. cbn. destruct (a_cfg a Fshift_params) as [[]|]; [exfalso; apply N; reflexivity|reflexivity|reflexivity].
  - intros N. cbn. destruct (a_grid a) as [[]|]; [congruence|reflexivity|reflexivity].
Qed.
