(** C06-C14, C17, C18, C61: chains, their construction and their use. *)
From Coq Require Import String Ascii List Bool Arith ZArith QArith Lia Lqa Permutation.
From Verif Require Import Py NumSpec NumModel ColorModel MarginalModel FrameModel FrameFacts ConfigModel ChainModel RegistryModel RegistrySpec
  HeapFacts RegistryProofs ChainSpec ShiftProofs ChainProofs ChainUseProofs RegistryProps.
Import ListNotations.
Open Scope string_scope.
Open Scope list_scope.

(** ** Examples *)
(** Two parameters, weights in the middle, a posterior; three walkers of two rows. *)
Definition ex6 : frame :=
  {| f_index := map (fun i => LInt (Z.of_nat i)) (seq 0 6);
     f_cols := [(CStr "x", map Fin [1; 2; 3; 4; 5; 6]); (CStr "weight", map Fin [1; 1; 2; 1; 1; 1]);
                (CStr "y", map Fin [3; 1; 4; 1; 5; 9]); (CStr "log_posterior", map Fin [-3; -1; -2; -2; -5; -1])] |}.
Definition ex6_heap : heap := {| h_frames := [ex6]; h_chains := [] |}.
Definition ex6_args (k : kwargs) : cargs :=
  {| a_cfg := k; a_samples := 0; a_name := "A"; a_weight := None; a_post := None; a_walkers := Some 3%Z; a_grid := None;
     a_nfree := None; a_ndata := Some (Some (Fin 10)); a_power := None; a_showlabel := None; a_relheight := None |}.
Ltac frame_wf_tac := split; [repeat (constructor; [cbn; intuition congruence|]); constructor|intros c l H; repeat (destruct H as [H|H]; [injection H as <- <-; reflexivity|]); destruct H].
Example ex6_wf : frame_wf ex6. Proof. frame_wf_tac. Qed.
Definition ok_loc {A} (r : heap * res A) : bool := match snd r with Ok _ => true | Err _ => false end.

(** * C06 Chain construction accepts exactly the well-formed inputs *)
Theorem C06_accepts : forall rgb2hex h a, frame_wf (frame_at h (a_samples a)) ->
  ((exists h' l, new_chain rgb2hex h a = (h', Ok l)) <-> acceptable rgb2hex (frame_at h (a_samples a)) a).
Proof. exact new_chain_accept. Qed.
Print Assumptions C06_accepts.
Example C06_accepts_nonvacuous :
  ok_loc (new_chain ex_rgb ex6_heap (ex6_args no_kw)) = true /\
  ok_loc (new_chain ex_rgb ex6_heap (ex6_args (kset no_kw Fcolor_param (Some "y")))) = true /\
  ok_loc (new_chain ex_rgb ex6_heap (ex6_args (kset no_kw Fcolor_param (Some "z")))) = false /\
  ok_loc (new_chain ex_rgb ex6_heap (ex6_args (kset (kset no_kw Fmultimodal true) Fstatistics (Some SMean)))) = false.
Proof. vm_compute. auto. Qed.

(** A refused construction raises ValidationError, except for an unusable colour and for a shift whose
    weights sum to zero. *)
Theorem C06_refusal : forall rgb2hex h a h' e, frame_wf (frame_at h (a_samples a)) -> new_chain rgb2hex h a = (h', Err e) ->
  e = ValidationError \/
  ((e = IndexError \/ e = KeyError) /\ exists i, a_cfg a Fcolor = Some (Some i) /\ format rgb2hex (Some i) = Err e) \/
  (e = ZeroDivisionError /\ a_cfg a Fshift_params = Some true).
Proof. exact new_chain_err. Qed.
Print Assumptions C06_refusal.
Example C06_refusal_nonvacuous :
  snd (new_chain ex_rgb ex6_heap (ex6_args (kset no_kw Fsummary_area 2))) = Err ValidationError /\
  snd (new_chain ex_rgb ex6_heap (ex6_args (kset no_kw Fcolor (Some (CName "e"))))) = Err KeyError /\
  snd (new_chain ex_rgb {| h_frames := [{| f_index := [LInt 0]; f_cols := [(CStr "weight", [Fin 1]); (CStr "x", [Fin 1])] |}]; h_chains := [] |}
         (ex_args "A" (kset no_kw Fshift_params true))) = Err ZeroDivisionError.
Proof. vm_compute. auto. Qed.

(** The constructed chain is a new object with a statistic, a weight column, the caller's rows and the
    caller's columns (plus the weight column, last, when it was missing). *)
Theorem C06_result : forall rgb2hex h a h' l, frame_wf (frame_at h (a_samples a)) -> new_chain rgb2hex h a = (h', Ok l) ->
  exists c, let f := frame_at h (a_samples a) in let f' := frame_at h' (ch_samples c) in
    h_chains h' = h_chains h ++ [c] /\ l = length (h_chains h) /\ (length (h_frames h) <= ch_samples c < length (h_frames h'))%nat /\
    (exists s, ch_cfg c Fstatistics = Some s) /\ is_column f' (ch_weight c) /\ frame_wf f' /\ f_index f' = f_index f /\
    (is_column f (weight_name a) -> map fst (f_cols f') = map fst (f_cols f)) /\
    (~ is_column f (weight_name a) -> map fst (f_cols f') = map fst (f_cols f) ++ [CStr (weight_name a)]).
Proof.
  intros rgb h a h' l W H. destruct (new_chain_result rgb h a h' l W H) as [col [f2 [H1 [H2 [H3 [H4 [H5 [H6 [H7 [H8 [H9 H10]]]]]]]]]]]. cbv zeta in *.
  pose proof (new_chain_built rgb h a h' l _ W H H3) as B. rewrite H4 in B.
  exists (with_stat (build col a (length (h_frames h)))). split; [exact H9|]. split; [exact H2|].
  split; [cbn [ch_samples with_stat with_cfg build]; rewrite H10; lia|].
  split; [exact (wb_stat _ _ B)|]. rewrite H4. split; [apply is_column_has; exact (wb_weight _ _ B)|]. split; [exact (wb_wf _ _ B)|].
  split; [exact H6|]. rewrite H7, with_weight_cols. split; intros HC; rewrite is_column_has in HC.
  - rewrite HC. reflexivity.
  - destruct (f_has _ (weight_name a)); [congruence|]. rewrite map_app. reflexivity.
Qed.
Print Assumptions C06_result.
Example C06_result_nonvacuous : let '(h', r) := new_chain ex_rgb ex_heap (ex_args "A" no_kw) in
  r = Ok 0%nat /\ map (fun f => f_cols f) (h_frames h') = [f_cols ex_frame; f_cols ex_frame ++ [(CStr "weight", [Fin 1; Fin 1])]].
Proof. vm_compute. auto. Qed.

(** * C07 Constructing a chain never modifies the caller's DataFrame *)
Theorem C07_no_aliasing : forall rgb2hex h a h' r, new_chain rgb2hex h a = (h', r) -> untouched h h'.
Proof. intros rgb h a h' r H. pose proof (new_chain_untouched rgb h a) as U. rewrite H in U. exact U. Qed.
Print Assumptions C07_no_aliasing.
(** The chain works on its own copy: what is stored for it is not any DataFrame that existed before. *)
Theorem C07_own_copy : forall rgb2hex h a h' l c, frame_wf (frame_at h (a_samples a)) -> new_chain rgb2hex h a = (h', Ok l) -> chain_at h' l = Some c ->
  (length (h_frames h) <= ch_samples c)%nat /\ (length (h_chains h) <= l)%nat.
Proof.
  intros rgb h a h' l c W H HC. destruct (new_chain_result rgb h a h' l W H) as [col [f2 [_ [H2 [H3 _]]]]]. cbv zeta in *.
  rewrite HC in H3. injection H3 as ->. cbn [ch_samples with_stat with_cfg build]. lia.
Qed.
Print Assumptions C07_own_copy.
Example C07_nonvacuous : let '(h', r) := new_chain ex_rgb ex6_heap (ex6_args (kset no_kw Fshift_params true)) in
  r = Ok 0%nat /\ nth_error (h_frames h') 0 = Some ex6 /\ nth_error (h_frames h') 1 <> Some ex6.
Proof. vm_compute. split; [reflexivity|]. split; [reflexivity|discriminate]. Qed.

(** * C61 A constructed chain holds what the caller gave *)
Theorem C61_settings : forall rgb2hex h a h' l c, frame_wf (frame_at h (a_samples a)) -> new_chain rgb2hex h a = (h', Ok l) -> chain_at h' l = Some c ->
  (forall s i, a_cfg a s = Some i -> stored rgb2hex s i (ch_cfg c s)) /\
  (forall s, a_cfg a s = None -> s <> Fstatistics -> ch_cfg c s = default_config s) /\
  ((a_cfg a Fstatistics = None \/ a_cfg a Fstatistics = Some None) -> stored_statistic (ch_cfg c Fmultimodal) (ch_cfg c Fstatistics)) /\
  (forall s, ch_user c s = true <-> exists i, a_cfg a s = Some i).
Proof.
  intros rgb h a h' l c W H HC. destruct (new_chain_result rgb h a h' l W H) as [col [f2 [H1 [H2 [H3 _]]]]]. cbv zeta in *.
  rewrite HC in H3. injection H3 as ->.
  pose proof (fun s => build_stored rgb a (length (h_frames h)) col s H1) as B.
  split; [intros s i E; specialize (B s); rewrite E in B; exact B|].
  split; [intros s E N; specialize (B s); rewrite E in B; apply B; exact N|].
  split.
  - intros E. unfold stored_statistic. rewrite with_stat_multi, with_stat_stat. cbn [build ch_cfg fill]. destruct E as [E|E]; rewrite E; reflexivity.
  - intros s. cbn. unfold user_keys. destruct (a_cfg a s) as [i|]; split; intros E; try discriminate; try reflexivity; [exists i; reflexivity|destruct E; discriminate].
Qed.
Print Assumptions C61_settings.
Theorem C61_fields : forall rgb2hex h a h' l c, frame_wf (frame_at h (a_samples a)) -> new_chain rgb2hex h a = (h', Ok l) -> chain_at h' l = Some c ->
  ch_name c = a_name a /\ given (a_weight a) "weight" (ch_weight c) /\ given (a_post a) "log_posterior" (ch_post c) /\
  given (a_walkers a) 1%Z (ch_walkers c) /\ given (a_grid a) false (ch_grid c) /\ given (a_nfree a) None (ch_nfree c) /\
  given (a_ndata a) None (ch_ndata c) /\ given (a_power a) 1%Q (ch_power c) /\ given (a_showlabel a) true (ch_showlabel c) /\
  given (a_relheight a) 1%Q (ch_relheight c).
Proof.
  intros rgb h a h' l c W H HC. destruct (new_chain_result rgb h a h' l W H) as [col [f2 [H1 [H2 [H3 _]]]]]. cbv zeta in *.
  rewrite HC in H3. injection H3 as ->. cbn [with_stat with_cfg build ch_name ch_weight ch_post ch_walkers ch_grid ch_nfree ch_ndata ch_power ch_showlabel ch_relheight].
  unfold given, dflt. split; [reflexivity|].
  repeat match goal with |- _ /\ _ => split end; match goal with |- match ?x with _ => _ end => destruct x; reflexivity end.
Qed.
Print Assumptions C61_fields.
(** Without shift_params the samples are the caller's, plus a weight column of ones when it was missing. *)
Theorem C61_samples : forall rgb2hex h a h' l c, frame_wf (frame_at h (a_samples a)) -> new_chain rgb2hex h a = (h', Ok l) -> chain_at h' l = Some c ->
  a_cfg a Fshift_params <> Some true ->
  let f := frame_at h (a_samples a) in let f' := frame_at h' (ch_samples c) in
  f_index f' = f_index f /\
  (is_column f (weight_name a) -> f_cols f' = f_cols f) /\
  (~ is_column f (weight_name a) -> f_cols f' = f_cols f ++ [(CStr "weight", repeat (Fin 1) (length (f_index f)))]).
Proof.
  intros rgb h a h' l c W H HC HS. destruct (new_chain_result rgb h a h' l W H) as [col [f2 [H1 [H2 [H3 [H4 [H5 [H6 [H7 [H8 _]]]]]]]]]]. cbv zeta in *.
  rewrite HC in H3. injection H3 as ->. rewrite H4. split; [exact H6|].
  assert (E : f2 = with_weight (frame_at h (a_samples a)) (weight_name a)).
  { unfold shifted in H5. assert (ES : ch_cfg (build col a (length (h_frames h))) Fshift_params = false).
    { cbn [build ch_cfg fill]. destruct (a_cfg a Fshift_params) as [[|]|]; [contradiction HS; reflexivity|reflexivity|reflexivity]. }
    rewrite ES in H5. congruence. }
  rewrite E, with_weight_cols. split; intros HI.
  - rewrite is_column_has in HI. rewrite HI. reflexivity.
  - pose proof (ac_weight_name _ _ _ H8 HI) as EN. rewrite is_column_has in HI. destruct (f_has _ (weight_name a)); [congruence|]. rewrite EN. reflexivity.
Qed.
Print Assumptions C61_samples.
Example C61_nonvacuous : let '(h', r) := new_chain ex_rgb ex6_heap (ex6_args (kset (kset no_kw Fcolor (Some (CName "red"))) Fbins (Some 7%Z))) in
  r = Ok 0%nat /\ match chain_at h' 0 with
  | Some c => ch_cfg c Fbins = Some 7%Z /\ ch_cfg c Fstatistics = Some SMax /\ ch_walkers c = 3%Z /\ frame_at h' (ch_samples c) = ex6 /\
              exists s, ch_cfg c Fcolor = Some s /\ format ex_rgb (Some (CName "red")) = Ok s
  | None => False end.
Proof. vm_compute. repeat split; try reflexivity. eexists. split; reflexivity. Qed.

(** * C08 data_columns lists exactly the parameter columns, in frame order *)
Theorem C08_members : forall c f n, In n (data_columns c f) <-> is_column f n /\ n <> ch_weight c /\ n <> ch_post c /\ ~ reserved_name n.
Proof. exact data_columns_spec. Qed.
Print Assumptions C08_members.
Theorem C08_order : forall c f, frame_wf f -> sublist (map CStr (data_columns c f)) (map fst (f_cols f)) /\ NoDup (data_columns c f).
Proof.
  intros c f W. split.
  - apply (sublist_trans _ (map CStr (f_names f))); [apply sublist_map, sublist_filter|apply names_sublist].
  - apply NoDup_filter. apply nodup_str_labels. exact (proj1 W).
Qed.
Print Assumptions C08_order.
(** A constructed chain's weights and posterior are never among its parameters. *)
Theorem C08_chain : forall rgb2hex h a h' l c, frame_wf (frame_at h (a_samples a)) -> new_chain rgb2hex h a = (h', Ok l) -> chain_at h' l = Some c ->
  forall n, In n (data_columns c (frame_at h' (ch_samples c))) <->
    is_column (frame_at h (a_samples a)) n /\ n <> weight_name a /\ ~ reserved_name n /\ n <> match a_post a with Some p => p | None => "log_posterior" end.
Proof.
  intros rgb h a h' l c W H HC n. destruct (new_chain_result rgb h a h' l W H) as [col [f2 [H1 [H2 [H3 [H4 [H5 [H6 [H7 [H8 _]]]]]]]]]]. cbv zeta in *.
  rewrite HC in H3. injection H3 as ->. rewrite H4. rewrite data_columns_spec. cbn [ch_weight ch_post with_stat with_cfg build].
  fold (weight_name a). unfold dflt. rewrite is_column_has, (f_has_labels _ _ n H7), with_weight_has.
  change (match a_weight a with Some x => x | None => "weight" end) with (weight_name a). tauto.
Qed.
Print Assumptions C08_chain.
Example C08_nonvacuous : forall c, ch_weight c = "w" -> ch_post c = "lp" ->
  data_columns c {| f_index := [LInt 0]; f_cols := [(CStr "b", [Fin 1]); (CStr "w", [Fin 1]); (CStr "Weights", [Fin 1]); (CStr "a", [Fin 2]); (CStr "lp", [Fin 3])] |} = ["b"; "a"].
Proof. intros c H1 H2. unfold data_columns. rewrite H1, H2. reflexivity. Qed.

(** * C09 plotting_columns *)
Theorem C09_columns : forall c f,
  (ch_cfg c Fplot_cloud = false -> plotting_columns c f = data_columns c f) /\
  (forall n, In n (plotting_columns c f) <-> In n (data_columns c f) /\ ~ (ch_cfg c Fplot_cloud = true /\ ch_cfg c Fcolor_param = Some n)) /\
  sublist (plotting_columns c f) (data_columns c f).
Proof.
  intros c f. unfold plotting_columns. split; [intros ->; reflexivity|]. destruct (ch_cfg c Fplot_cloud) eqn:E; cbn [negb].
  - split; [|apply sublist_filter]. intros n. rewrite filter_In. destruct (ch_cfg c Fcolor_param) as [p|]; cbn [negb].
    + rewrite negb_true_iff, String.eqb_neq. split; intros [H1 H2]; split; auto.
      * intros [_ H3]. injection H3 as ->. contradiction.
      * intros ->. apply H2. auto.
    + split; [intros [H1 _]; split; [exact H1|intros [_ H]; discriminate]|]. intros [H1 _]. auto.
  - split.
    + intros n. split; [intros H; split; [exact H|intros [H1 _]; discriminate]|tauto].
    + clear. induction (data_columns c f); constructor; assumption.
Qed.
Print Assumptions C09_columns.
(** The columns of a figure when none are given: those of the chains, in the order they are first met; and
    exactly the given ones otherwise. *)
Theorem C09_union : forall chains,
  first_seen (concat (map (fun cf => plotting_columns (fst cf) (snd cf)) chains)) (sanitise_columns None chains) /\
  forall cols, sanitise_columns (Some cols) chains = cols.
Proof. intros chains. split; [apply sanitise_columns_spec|reflexivity]. Qed.
Print Assumptions C09_union.
(** ... so every column of every chain appears exactly once. *)
Lemma first_seen_spec l u : first_seen l u -> NoDup u /\ forall x, In x u <-> In x l.
Proof.
  induction 1 as [|x l u H [IH1 IH2]]; [split; [constructor|tauto]|]. split.
  - constructor; [|exact IH1]. rewrite IH2, filter_In. rewrite String.eqb_refl. intros [_ H1]. discriminate.
  - intros y. cbn [In]. rewrite IH2, filter_In, negb_true_iff, String.eqb_neq. destruct (string_dec x y); tauto.
Qed.
Theorem C09_union_members : forall chains n,
  NoDup (sanitise_columns None chains) /\
  (In n (sanitise_columns None chains) <-> exists c f, In (c, f) chains /\ In n (plotting_columns c f)).
Proof.
  intros chains n. destruct (first_seen_spec _ _ (sanitise_columns_spec chains)) as [H1 H2]. split; [exact H1|]. rewrite H2, in_concat. split.
  - intros [l [H3 H4]]. apply in_map_iff in H3. destruct H3 as [[c f] [<- H5]]. exists c, f. auto.
  - intros [c [f [H3 H4]]]. exists (plotting_columns c f). split; [|exact H4]. apply in_map_iff. exists (c, f). auto.
Qed.
Print Assumptions C09_union_members.
Example C09_nonvacuous : forall c, ch_weight c = "w" -> ch_post c = "lp" -> ch_cfg c Fplot_cloud = true -> ch_cfg c Fcolor_param = Some "a" ->
  let f1 := {| f_index := [LInt 0]; f_cols := [(CStr "b", [Fin 1]); (CStr "a", [Fin 1]); (CStr "c", [Fin 1])] |} in
  let f2 := {| f_index := [LInt 0]; f_cols := [(CStr "d", [Fin 1]); (CStr "c", [Fin 1])] |} in
  sanitise_columns None [(c, f1); (c, f2)] = ["b"; "c"; "d"].
Proof. intros c H1 H2 H3 H4. unfold sanitise_columns, plotting_columns. cbn [fold_left fst snd]. rewrite H3, H4. unfold data_columns. rewrite H1, H2. reflexivity. Qed.

(** * C10 shift_params *)
(** Proved part: every parameter is moved by a constant, so that differences between rows are unchanged,
    and a column in front of the weight column (every column, when the weights are automatic) gets mean
    zero under the weights the caller gave.  Missing: columns after the weight column get mean zero under
    the changed weights instead, and the weights do not stay as they were (see below). *)
Theorem C10_shift_partial : forall rgb2hex h a h' l c, frame_wf (frame_at h (a_samples a)) -> a_cfg a Fshift_params = Some true ->
  new_chain rgb2hex h a = (h', Ok l) -> chain_at h' l = Some c ->
  let f := frame_at h (a_samples a) in let wn := weight_name a in let f' := frame_at h' (ch_samples c) in
  exists w, (column f wn w \/ (~ is_column f wn /\ w = repeat 1%Q (length (f_index f)))) /\
    forall n v, column f n v -> n <> wn -> exists v', column f' n v' /\ same_differences v v' /\
      ((exists before between after lw, f_cols f = before ++ (CStr n, map Fin v) :: between ++ (CStr wn, lw) :: after) \/ ~ is_column f wn ->
       weighted_mean v' w 0) /\
      ((exists before between after lw, f_cols f = before ++ (CStr wn, lw) :: between ++ (CStr n, map Fin v) :: after) ->
       exists w', column f' wn w' /\ weighted_mean v' w' 0).
Proof.
  intros rgb h a h' l c W HS HN HC. cbv zeta.
  destruct (shifted_chain rgb h a h' l c W HS HN HC) as [w [pre [post [G1 [G2 [G3 [G4 [G5 [[G6 _] [G7 G8]]]]]]]]]].
  set (f := frame_at h (a_samples a)) in *. set (wn := weight_name a) in *. exists w. split; [exact G4|].
  assert (NDn : NoDup (f_names (with_weight f wn))) by (apply nodup_str_labels; exact (proj1 (with_weight_wf f wn W))).
  assert (QW : ~ (qsum w == 0)%Q) by (pose proof (qsum_pos w G1 G3); lra).
  intros n v HV NE. assert (LV : length v = length w) by (rewrite G2, <- (map_length Fin v); apply (proj2 W _ _ HV)).
  assert (HIn : In n (f_names (with_weight f wn))).
  { apply f_has_names, with_weight_has. left. exists (map Fin v). exact HV. }
  rewrite G5 in HIn, NDn. apply in_app_or in HIn.
  (* position of n relative to the weights *)
  assert (POS : forall cols cols' lw, f_cols f = cols ++ (CStr wn, lw) :: cols' -> pre = str_labels cols /\ post = str_labels cols').
  { intros cols cols' lw E. assert (EH : f_has f wn = true) by (apply is_column_has; exists lw; rewrite E; apply in_or_app; right; left; reflexivity).
    rewrite with_weight_names, EH in G5. unfold f_names in G5. rewrite E, str_labels_app in G5. change (str_labels ((CStr wn, lw) :: cols')) with (wn :: str_labels cols') in G5.
    assert (U : forall (a b a' b' : list string) x, a ++ x :: b = a' ++ x :: b' -> ~ In x a -> ~ In x a' -> a = a' /\ b = b').
    { clear. induction a as [|y a IH]; intros b [|y' a'] b' x E N1 N2; cbn in E.
      - injection E as ->. auto.
      - injection E as <- _. destruct N2. left. reflexivity.
      - injection E as -> _. destruct N1. left. reflexivity.
      - injection E as <- E. destruct (IH b a' b' x E) as [-> ->]; [intros H; apply N1; right; exact H|intros H; apply N2; right; exact H|auto]. }
    assert (N1 : ~ In wn pre) by (apply NoDup_remove_2 in NDn; intros H; apply NDn; apply in_or_app; left; exact H).
    assert (N2 : ~ In wn (str_labels cols)).
    { pose proof (nodup_str_labels (f_cols f) (proj1 W)) as ND2. rewrite E, str_labels_app in ND2. change (str_labels ((CStr wn, lw) :: cols')) with (wn :: str_labels cols') in ND2.
      apply NoDup_remove_2 in ND2. intros H. apply ND2. apply in_or_app. left. exact H. }
    destruct (U _ _ _ _ _ G5 N2 N1) as [-> ->]. auto. }
  assert (DISJ : In n pre -> ~ In n post).
  { intros H1 H2. clear -NDn H1 H2. induction pre as [|y pre IH]; [destruct H1|]. cbn in NDn. inversion NDn as [|? ? Hn ND']; subst.
    destruct H1 as [->|H1]; [apply Hn; apply in_or_app; right; right; exact H2|apply IH; assumption]. }
  destruct HIn as [HP|[HP|HP]]; [|congruence|].
  - exists (map (fun q => q - qdot v w / qsum w)%Q v). split; [apply G7; assumption|]. split; [apply shift_differences|]. split.
    + intros _. unfold weighted_mean. rewrite (sub_mean_zero v w LV QW). lra.
    + intros [b [m [af [lw E]]]]. exfalso. destruct (POS b _ lw E) as [_ ->]. apply (DISJ HP). rewrite str_labels_app. apply in_or_app. right. left. reflexivity.
  - destruct (G8 n v HV NE HP) as [K1 K2]. set (w' := map (fun q => q - qdot w w / qsum w)%Q w) in *.
    exists (map (fun q => q - qdot v w' / qsum w')%Q v). split; [exact K1|]. split; [apply shift_differences|].
    assert (LV' : length v = length w') by (unfold w'; rewrite map_length; exact LV). split.
    + intros [[b [m [af [lw E]]]]|HN2].
      * exfalso. change (b ++ (CStr n, map Fin v) :: m ++ (CStr wn, lw) :: af) with (b ++ ((CStr n, map Fin v) :: m) ++ (CStr wn, lw) :: af) in E. rewrite app_assoc in E.
        destruct (POS _ _ lw E) as [E2 _]. apply (DISJ); [|exact HP]. rewrite E2, str_labels_app. apply in_or_app. right. left. reflexivity.
      * exfalso. rewrite is_column_has in HN2. rewrite with_weight_names in G5. destruct (f_has f wn) eqn:EH; [congruence|].
        destruct post as [|q post _] using rev_ind; [destruct HP|].
        change (pre ++ wn :: post ++ [q]) with (pre ++ (wn :: post) ++ [q]) in G5. rewrite app_assoc in G5. apply app_inj_tail in G5. destruct G5 as [G5 <-].
        cut (f_has f wn = true); [congruence|]. apply f_has_names. rewrite G5. apply in_or_app. right. left. reflexivity.
    + intros _. exists w'. split; [exact G6|]. unfold weighted_mean. rewrite (sub_mean_zero v w' LV' K2). lra.
Qed.
Print Assumptions C10_shift_partial.
(** The weights are never left alone: all of them are lowered by the positive amount
    (sum of squared weights)/(sum of weights), and at least one becomes zero or negative. *)
Theorem C10_weights_refuted : forall rgb2hex h a h' l c, frame_wf (frame_at h (a_samples a)) -> a_cfg a Fshift_params = Some true ->
  new_chain rgb2hex h a = (h', Ok l) -> chain_at h' l = Some c ->
  let f := frame_at h (a_samples a) in let wn := weight_name a in let f' := frame_at h' (ch_samples c) in
  exists w w' s, (column f wn w \/ (~ is_column f wn /\ w = repeat 1%Q (length (f_index f)))) /\ column f' wn w' /\
    (0 < s)%Q /\ w' = map (fun q => q - s)%Q w /\ exists x, In x w' /\ (x <= 0)%Q.
Proof.
  intros rgb h a h' l c W HS HN HC. cbv zeta.
  destruct (shifted_chain rgb h a h' l c W HS HN HC) as [w [pre [post [G1 [G2 [G3 [G4 [G5 [[G6 G9] [G7 G8]]]]]]]]]].
  exists w, (map (fun q => q - qdot w w / qsum w)%Q w), (qdot w w / qsum w)%Q. split; [exact G4|]. split; [exact G6|]. split; [|split; [reflexivity|exact G9]].
  pose proof (qsum_pos w G1 G3) as QP. apply Qlt_shift_div_l; [exact QP|]. ring_simplify.
  clear -G1 G3. destruct w as [|x w]; [contradiction|].
  assert (HX : (0 < x)%Q) by (apply G3; left; reflexivity). unfold qdot. cbn [combine map qsum fst snd].
  assert (G : forall w, (forall x, In x w -> 0 < x)%Q -> (0 <= qsum (map (fun p => fst p * snd p) (combine w w)))%Q).
  { clear. induction w as [|y w IH]; intros H; cbn; [lra|]. pose proof (IH ltac:(intros z Hz; apply H; right; exact Hz)). pose proof (H y (or_introl eq_refl)). nra. }
  pose proof (G w ltac:(intros z Hz; apply G3; right; exact Hz)). nra.
Qed.
Print Assumptions C10_weights_refuted.
(** With automatic (or any equal) weights all weights of the chain become zero. *)
Theorem C10_equal_weights_refuted : exists rgb2hex h a h' l c, frame_wf (frame_at h (a_samples a)) /\ a_cfg a Fshift_params = Some true /\
  new_chain rgb2hex h a = (h', Ok l) /\ chain_at h' l = Some c /\ ~ is_column (frame_at h (a_samples a)) "weight" /\
  exists w, column (frame_at h' (ch_samples c)) "weight" w /\ forall x, In x w -> (x == 0)%Q.
Proof.
  exists ex_rgb, ex_heap, (ex_args "A" (kset no_kw Fshift_params true)). do 3 eexists.
  split; [frame_wf_tac|]. split; [reflexivity|]. split; [vm_compute; reflexivity|]. split; [vm_compute; reflexivity|].
  split; [intros [l H]; repeat (destruct H as [H|H]; [discriminate|]); destruct H|].
  exists [(0 # 2)%Q; (0 # 2)%Q]. split; [vm_compute; tauto|]. intros x [<-|[<-|[]]]; reflexivity.
Qed.
Print Assumptions C10_equal_weights_refuted.
Example C10_nonvacuous : ok_loc (new_chain ex_rgb ex6_heap (ex6_args (kset no_kw Fshift_params true))) = true.
Proof. vm_compute. reflexivity. Qed.

(** * C11 divide splits the rows evenly into one chain per walker *)
Lemma built_at rgb h0 a h1 l c h2 : frame_wf (frame_at h0 (a_samples a)) -> new_chain rgb h0 a = (h1, Ok l) -> chain_at h1 l = Some c -> untouched h1 h2 ->
  (ch_samples c < length (h_frames h2))%nat /\ frame_at h2 (ch_samples c) = frame_at h1 (ch_samples c) /\ well_built c (frame_at h2 (ch_samples c)).
Proof.
  intros W H HC U. pose proof (new_chain_built rgb h0 a h1 l c W H HC) as B.
  destruct (new_chain_result rgb h0 a h1 l W H) as [col [f2 [H1 [H2 [H3 [H4 [H5 [H6 [H7 [H8 [H9 H10]]]]]]]]]]]. cbv zeta in *.
  assert (L : (ch_samples c < length (h_frames h1))%nat). { rewrite HC in H3. injection H3 as ->. cbn [ch_samples with_stat with_cfg build]. rewrite H10. lia. }
  pose proof (untouched_frame_at _ _ _ U L) as E. destruct (untouched_len _ _ U) as [L2 _]. split; [lia|]. split; [exact E|]. rewrite E. exact B.
Qed.
(** The cells of the column named [n]. *)
Definition cells (f : frame) (n : string) : list cell := match f_get f n with Some l => l | None => [] end.
(** A chain made by Chain(...) without shift_params can be divided at any later time; its walkers in order
    hold its rows in order. *)
Theorem C11_divide : forall rgb2hex h0 a h1 l c h2, frame_wf (frame_at h0 (a_samples a)) -> new_chain rgb2hex h0 a = (h1, Ok l) -> chain_at h1 l = Some c ->
  untouched h1 h2 -> ch_cfg c Fshift_params = false -> (1 < ch_walkers c)%Z -> ch_grid c = false ->
  let f := frame_at h2 (ch_samples c) in
  exists h3 ls cs, divide rgb2hex h2 c = (h3, Ok ls) /\ untouched h2 h3 /\ map (chain_at h3) ls = map Some cs /\
    Z.of_nat (length cs) = ch_walkers c /\ NoDup (map ch_name cs) /\
    (forall k c', nth_error cs k = Some c' -> walker_of c c' k /\ (length (f_index (frame_at h3 (ch_samples c'))) * length cs = length (f_index f))%nat /\
       map fst (f_cols (frame_at h3 (ch_samples c'))) = map fst (f_cols f)) /\
    concat (map (fun c' => f_index (frame_at h3 (ch_samples c'))) cs) = f_index f /\
    forall n, is_column f n -> concat (map (fun c' => cells (frame_at h3 (ch_samples c')) n) cs) = cells f n.
Proof.
  intros rgb h0 a h1 l c h2 W H HC U HS HW HG. cbv zeta. destruct (built_at _ _ _ _ _ _ _ W H HC U) as [L [E B]].
  destruct (divide_ok rgb h2 c _ eq_refl L B HS HW HG) as [h3 [ls [size [D [DL [DR DK]]]]]].
  pose proof (divide_untouched rgb h2 c) as UD. rewrite D in UD. cbn [fst] in UD.
  set (f := frame_at h2 (ch_samples c)) in *.
  assert (CS : exists cs, map (chain_at h3) ls = map Some cs).
  { assert (G : forall m, (forall x, In x m -> exists c', chain_at h3 x = Some c') -> exists cs, map (chain_at h3) m = map Some cs).
    { induction m as [|x m IH]; intros HX; [exists []; reflexivity|]. destruct IH as [cs IH]; [intros y Hy; apply HX; right; exact Hy|].
      destruct (HX x (or_introl eq_refl)) as [c' HC']. exists (c' :: cs). cbn. rewrite HC', IH. reflexivity. }
    apply G. intros x Hx. apply In_nth_error in Hx. destruct Hx as [k Hk]. destruct (DK k x Hk) as [c' [HC' _]]. exists c'. exact HC'. }
  destruct CS as [cs CS]. assert (LE : length cs = length ls) by (rewrite <- (map_length Some cs), <- CS, map_length; reflexivity).
  assert (K : forall k c', nth_error cs k = Some c' -> walker_of c c' k /\ frame_at h3 (ch_samples c') = f_slice (k * size) (k * size + size) f /\ f_rows (frame_at h3 (ch_samples c')) = size).
  { intros k c' Hk. pose proof (map_nth_error Some k cs Hk) as HK. rewrite <- CS in HK.
    destruct (nth_error ls k) as [x|] eqn:EX.
    - pose proof (map_nth_error (chain_at h3) k ls EX) as HK2. rewrite HK in HK2. injection HK2 as HK2. destruct (DK k x EX) as [c'' [K1 K2]]. rewrite K1 in HK2. injection HK2 as ->. exact K2.
    - apply nth_error_None in EX. assert (nth_error cs k <> None) by congruence. apply nth_error_Some in H0. lia. }
  assert (FR : forall k, map (fun c' => frame_at h3 (ch_samples c')) (skipn k cs) = map (fun i => f_slice (i * size) (i * size + size) f) (seq k (length cs - k))).
  { clear - K. intros k. remember (length cs - k)%nat as m. revert k Heqm. induction m as [|m IH]; intros k Hm.
    - rewrite skipn_all2 by lia. reflexivity.
    - destruct (nth_error cs k) as [c'|] eqn:EK; [|apply nth_error_None in EK; lia].
      assert (ES : skipn k cs = c' :: skipn (S k) cs).
      { clear - EK. revert k EK. induction cs as [|y cs IH]; intros [|k] EK; try discriminate; cbn in EK; [injection EK as ->; reflexivity|]. cbn [skipn]. rewrite (IH k EK). reflexivity. }
      rewrite ES. cbn [map seq]. rewrite (proj1 (proj2 (K k c' EK))), (IH (S k)) by lia. reflexivity. }
  specialize (FR 0%nat). rewrite skipn_O, Nat.sub_0_r in FR.
  exists h3, ls, cs. split; [exact D|]. split; [exact UD|]. split; [exact CS|]. split; [lia|]. split.
  { assert (G : forall k m, (forall i c', nth_error m i = Some c' -> ch_name c' = (ch_name c ++ " Walker " ++ dec (Z.of_nat (k + i)))%string) -> NoDup (map ch_name m)).
    { clear. intros k m; revert k. induction m as [|x m IH]; intros k G; [constructor|]. cbn. constructor.
      - intros HI. apply in_map_iff in HI. destruct HI as [y [E HI]]. apply In_nth_error in HI. destruct HI as [i HI]. rewrite (G (S i) y HI), (G 0%nat x eq_refl) in E.
        apply string_app_inj in E. apply (string_app_inj " Walker ") in E. apply dec_inj in E; lia.
      - apply (IH (S k)). intros i c' Hi. rewrite (G (S i) c' Hi). do 4 f_equal. lia. }
    apply (G 0%nat). intros i c' Hi. apply (K i c' Hi). }
  split.
  { intros k c' Hk. destruct (K k c' Hk) as [K1 [K2 K3]]. split; [exact K1|]. split; [unfold f_rows in *; nia|]. rewrite K2. cbn. rewrite map_map. reflexivity. }
  split.
  - rewrite <- (map_map (fun c' => frame_at h3 (ch_samples c')) f_index), FR, map_map. cbn [f_slice f_index].
    rewrite slices_concat by (unfold f_rows in DR; lia). rewrite Nat.mul_0_l, skipn_O. reflexivity.
  - intros n [lc HN]. rewrite <- (map_map (fun c' => frame_at h3 (ch_samples c')) (fun g => cells g n)), FR, map_map.
    assert (GN : f_get f n = Some lc). { apply f_get_wf; [exact (wb_wf _ _ B)|exact HN]. }
    assert (E2 : forall i, cells (f_slice (i * size) (i * size + size) f) n = slice (i * size) (i * size + size) lc).
    { intros i. unfold cells. rewrite f_slice_get, GN. reflexivity. }
    rewrite (map_ext _ _ E2). rewrite slices_concat.
    + rewrite Nat.mul_0_l, skipn_O. unfold cells. rewrite GN. reflexivity.
    + pose proof (proj2 (wb_wf _ _ B) _ _ HN) as LL. unfold f_rows in DR. lia.
Qed.
Print Assumptions C11_divide.
(** One walker or a grid: an AssertionError, nothing done.  (For chains of any origin.) *)
Theorem C11_refused : forall rgb2hex h c, (ch_walkers c <= 1)%Z \/ ch_grid c = true -> divide rgb2hex h c = (h, Err AssertionError).
Proof.
  intros rgb h c [H|H]; unfold divide.
  - destruct (1 <? ch_walkers c)%Z eqn:E; [apply Z.ltb_lt in E; lia|reflexivity].
  - rewrite H. destruct (negb _); reflexivity.
Qed.
Print Assumptions C11_refused.
Example C11_nonvacuous : let '(h1, r) := new_chain ex_rgb ex6_heap (ex6_args no_kw) in
  match chain_at h1 0 with
  | Some c => (1 < ch_walkers c)%Z /\ ch_grid c = false /\ ch_cfg c Fshift_params = false /\
     match divide ex_rgb h1 c with
     | (h3, Ok ls) => map (fun i => option_map (fun c' => (ch_name c', cells (frame_at h3 (ch_samples c')) "y")) (chain_at h3 i)) ls =
                       [Some ("A Walker 0", [Fin 3; Fin 1]); Some ("A Walker 1", [Fin 4; Fin 1]); Some ("A Walker 2", [Fin 5; Fin 9])]
     | _ => False end
  | None => False end.
Proof. vm_compute. repeat split; reflexivity. Qed.
(** A chain made with shift_params cannot be divided at all (its shifted weights are not all positive). *)
Theorem C11_shifted_refuted : forall rgb2hex h0 a h1 l c h2, frame_wf (frame_at h0 (a_samples a)) -> new_chain rgb2hex h0 a = (h1, Ok l) -> chain_at h1 l = Some c ->
  untouched h1 h2 -> ch_cfg c Fshift_params = true -> exists h3 e, divide rgb2hex h2 c = (h3, Err e).
Proof.
  intros rgb h0 a h1 l c h2 W H HC U HS. destruct (built_at _ _ _ _ _ _ _ W H HC U) as [L [E B]]. apply (divide_shifted rgb h2 c _ eq_refl L B HS).
Qed.
Print Assumptions C11_shifted_refuted.
Example C11_shifted_nonvacuous : let '(h1, r) := new_chain ex_rgb ex6_heap (ex6_args (kset no_kw Fshift_params true)) in
  r = Ok 0%nat /\ match chain_at h1 0 with Some c => snd (divide ex_rgb h1 c) = Err ValidationError | None => False end.
Proof. vm_compute. auto. Qed.

(** * C12 Maximum posterior point *)
(** Proved for the default row labels 0, 1, 2, ...; other labels are refuted below. *)
Theorem C12_maximum_partial : forall rgb2hex h0 a h1 l c p, frame_wf (frame_at h0 (a_samples a)) -> new_chain rgb2hex h0 a = (h1, Ok l) -> chain_at h1 l = Some c ->
  default_labels (frame_at h0 (a_samples a)) -> let f := frame_at h1 (ch_samples c) in column f (ch_post c) p ->
  exists i coords, is_first_argmax p i /\ row_values f i (plotting_columns c f) coords /\ get_max_posterior_point c f = Ok (Some (at_ p i, coords)).
Proof.
  intros rgb h0 a h1 l c p W H HC HD. cbv zeta. intros HP. pose proof (new_chain_built rgb h0 a h1 l c W H HC) as B.
  apply max_point_default; [exact (wb_wf _ _ B)|exact (wb_clean _ _ B)|exact (wb_rows _ _ B)| |exact HP].
  destruct (new_chain_result rgb h0 a h1 l W H) as [col [f2 [H1 [H2 [H3 [H4 [H5 [H6 _]]]]]]]]. cbv zeta in *. rewrite HC in H3. injection H3 as ->. rewrite H4.
  unfold default_labels. rewrite H6. exact HD.
Qed.
Print Assumptions C12_maximum_partial.
Example C12_nonvacuous : let '(h1, r) := new_chain ex_rgb ex6_heap (ex6_args no_kw) in
  match chain_at h1 0 with
  | Some c => column (frame_at h1 (ch_samples c)) (ch_post c) [-3; -1; -2; -2; -5; -1] /\
              get_max_posterior_point c (frame_at h1 (ch_samples c)) = Ok (Some (-1, [("x", 2); ("y", 1)]))
  | None => False end.
Proof. vm_compute. tauto. Qed.
(** None exactly when there is no posterior column. *)
Theorem C12_none : forall c f, get_max_posterior_point c f = Ok None <-> ~ is_column f (ch_post c).
Proof. exact max_point_none. Qed.
Print Assumptions C12_none.
(** A DataFrame whose labels are 1, 0: the reported point is not the best sample, its log posterior is not the maximum. *)
Theorem C12_labels_refuted : exists rgb2hex h0 a h1 l c p q coords, frame_wf (frame_at h0 (a_samples a)) /\ new_chain rgb2hex h0 a = (h1, Ok l) /\ chain_at h1 l = Some c /\
  NoDup (f_index (frame_at h0 (a_samples a))) /\ column (frame_at h1 (ch_samples c)) (ch_post c) p /\
  get_max_posterior_point c (frame_at h1 (ch_samples c)) = Ok (Some (q, coords)) /\ exists x, In x p /\ (q < x)%Q.
Proof.
  exists ex_rgb, {| h_frames := [{| f_index := [LInt 1; LInt 0]; f_cols := [(CStr "x", [Fin 1; Fin 2]); (CStr "log_posterior", [Fin 5; Fin 3])] |}]; h_chains := [] |}, (ex_args "A" no_kw).
  do 3 eexists. exists [5; 3]%Q. do 2 eexists. split; [frame_wf_tac|]. split; [vm_compute; reflexivity|]. split; [vm_compute; reflexivity|].
  split; [repeat (constructor; [cbn; intuition congruence|]); constructor|].
  split; [vm_compute; tauto|]. split; [vm_compute; reflexivity|]. exists 5%Q. split; [left; reflexivity|]. reflexivity.
Qed.
Print Assumptions C12_labels_refuted.
(** In particular: for every walker but the first of a divided chain, asking for the point is a KeyError. *)
Theorem C12_walkers_refuted : forall rgb2hex h0 a h1 l c h2 h3 ls k lk c', frame_wf (frame_at h0 (a_samples a)) -> new_chain rgb2hex h0 a = (h1, Ok l) -> chain_at h1 l = Some c ->
  untouched h1 h2 -> default_labels (frame_at h0 (a_samples a)) -> is_column (frame_at h1 (ch_samples c)) (ch_post c) ->
  divide rgb2hex h2 c = (h3, Ok ls) -> nth_error ls k = Some lk -> chain_at h3 lk = Some c' -> (0 < k)%nat ->
  get_max_posterior_point c' (frame_at h3 (ch_samples c')) = Err KeyError.
Proof.
  intros rgb h0 a h1 l c h2 h3 ls k lk c' W H HC U HD HP D HK HC' K0. destruct (built_at _ _ _ _ _ _ _ W H HC U) as [L [E B]].
  destruct (ch_cfg c Fshift_params) eqn:HS; [destruct (divide_shifted rgb h2 c _ eq_refl L B HS) as [h4 [e D2]]; rewrite D in D2; discriminate|].
  destruct (Z.leb_spec (ch_walkers c) 1) as [HW|HW]; [rewrite C11_refused in D by (left; exact HW); discriminate|].
  destruct (ch_grid c) eqn:HG; [rewrite C11_refused in D by (right; exact HG); discriminate|].
  destruct (divide_ok rgb h2 c _ eq_refl L B HS HW HG) as [h4 [ls' [size [D' [DL [DR DK]]]]]]. rewrite D in D'. injection D' as <- <-.
  destruct (DK k lk HK) as [c'' [K1 [K2 [K3 K4]]]]. rewrite HC' in K1. injection K1 as <-. rewrite K3.
  assert (HKL : (k < length ls)%nat) by (apply nth_error_Some; congruence).
  destruct K2 as [_ [_ [_ [_ [_ [EP _]]]]]].
  assert (SZ : (0 < size)%nat). { pose proof (wb_rows _ _ B). destruct size; [rewrite Nat.mul_0_r in DR; lia|lia]. }
  apply max_point_block.
  - exact (wb_wf _ _ B).
  - rewrite E. destruct (new_chain_result rgb h0 a h1 l W H) as [col [f2 [H1 [H2 [H3 [H4 [H5 [H6 _]]]]]]]]. cbv zeta in *. rewrite HC in H3. injection H3 as ->. rewrite H4.
    unfold default_labels. rewrite H6. exact HD.
  - rewrite EP, E. apply is_column_has. exact HP.
  - nia.
  - rewrite DR. nia.
Qed.
Print Assumptions C12_walkers_refuted.
Example C12_walkers_nonvacuous : let '(h1, r) := new_chain ex_rgb ex6_heap (ex6_args no_kw) in
  match chain_at h1 0 with
  | Some c => match divide ex_rgb h1 c with
     | (h3, Ok ls) => map (fun i => option_map (fun c' => get_max_posterior_point c' (frame_at h3 (ch_samples c'))) (chain_at h3 i)) ls =
                       [Some (Ok (Some (-1, [("x", 2); ("y", 1)]))); Some (Err KeyError); Some (Err KeyError)]
     | _ => False end
  | None => False end.
Proof. vm_compute. reflexivity. Qed.

(** * C13 Maximum posterior points of several chains *)
Theorem C13_points : forall rgb2hex w req ps, reachable rgb2hex w -> get_max_posteriors w req = Ok ps ->
  (forall n, In n (asked w req) -> In n (get_names w)) /\
  (exists u, first_seen (asked w req) u /\ sublist (dkeys ps) u) /\
  forall n p, dget n ps = Some p <-> In n (asked w req) /\
    exists l c, get_chain w n = Ok l /\ chain_at (fst w) l = Some c /\ get_max_posterior_point c (frame_at (fst w) (ch_samples c)) = Ok (Some p).
Proof.
  intros rgb w req ps R H. destruct (max_posteriors_spec w req ps (proj1 (reachable_ok _ _ R)) H) as [S1 [S2 S3]]. split; [exact S1|]. split; [exact S2|].
  intros n p. rewrite S3. split; intros [K1 [l [c [K2 [K3 K4]]]]]; (split; [exact K1|]; exists l, c; split; [|split; assumption]).
  - unfold get_chain. rewrite K2. reflexivity.
  - unfold get_chain in K2. destruct (dget n _); congruence.
Qed.
Print Assumptions C13_points.
(** A requested chain is missing from the answer exactly when it has no posterior column. *)
Theorem C13_missing : forall rgb2hex w req ps n l c, reachable rgb2hex w -> get_max_posteriors w req = Ok ps -> In n (asked w req) ->
  get_chain w n = Ok l -> chain_at (fst w) l = Some c ->
  (dget n ps = None <-> ~ is_column (frame_at (fst w) (ch_samples c)) (ch_post c)).
Proof.
  intros rgb w req ps n l c R H HA HG HC. destruct (C13_points rgb w req ps R H) as [_ [_ S]]. rewrite <- max_point_none.
  split.
  - intros HN. assert (OK : exists r, get_max_posterior_point c (frame_at (fst w) (ch_samples c)) = Ok r).
    { unfold get_max_posteriors in H. destruct (max_posterior_request w req) as [d|] eqn:ER; [|discriminate]. cbn in H.
      assert (HI : In (n, l) d).
      { unfold max_posterior_request in ER. destruct req as [lr|]; cbn in HA.
        - destruct (rmapM _ lr) as [kvs|] eqn:EM; [|discriminate]. cbn in ER. injection ER as <-.
          destruct (rmapM_Ok_iff _ _ _ EM) as [_ EM2]. apply In_nth_error in HA. destruct HA as [i HA]. destruct (EM2 i n HA) as [b [_ Hb]].
          assert (Eb : b = (n, l)). { unfold get_chain in HG. destruct (dget n (k_chains (snd w))); congruence. }
          assert (HIk : In (n, l) kvs). { destruct (EM2 i n HA) as [b' [Hb1 Hb2]]. assert (b' = (n, l)) by congruence. subst b'. apply nth_error_In in Hb1. exact Hb1. }
          assert (HV : forall k v, In (k, v) kvs -> dget k (k_chains (snd w)) = Some v).
          { intros k v HI. apply In_nth_error in HI. destruct HI as [j HJ]. destruct (nth_error lr j) as [m|] eqn:EJ.
            - destruct (EM2 j m EJ) as [b2 [HB1 HB2]]. rewrite HJ in HB1. injection HB1 as <-. destruct (dget m (k_chains (snd w))) eqn:EG; [|discriminate]. injection HB2 as <- <-. exact EG.
            - apply nth_error_None in EJ. destruct (rmapM_Ok_iff _ _ _ EM) as [EL _]. assert (nth_error kvs j <> None) by congruence. apply nth_error_Some in H0. lia. }
          apply dget_In. apply (fold_dset_get kvs (fun k => dget k (k_chains (snd w))) HV [] n l). left. split; [|apply HV; exact HIk]. apply in_map_iff. exists (n, l). auto.
        - injection ER as <-. apply dget_In. unfold get_chain in HG. destruct (dget n (k_chains (snd w))); congruence. }
      clear - H HI HC. revert ps H. induction d as [|[m k] d IH]; intros ps H; [destruct HI|]. cbn in H. destruct (chain_at (fst w) k) as [ck|] eqn:EK; [|discriminate].
      destruct (get_max_posterior_point ck _) as [r|] eqn:EP; [|discriminate]. cbn in H. destruct (max_posteriors_loop (fst w) d) as [rest|] eqn:EL; [|discriminate].
      destruct HI as [HI|HI]; [injection HI as -> ->; rewrite HC in EK; injection EK as <-; exists r; exact EP|]. apply (IH HI rest eq_refl). }
    destruct OK as [[p|] OK]; [|exact OK]. exfalso. assert (dget n ps = Some p) by (apply S; split; [exact HA|]; exists l, c; auto). congruence.
  - intros HN. destruct (dget n ps) as [p|] eqn:EP; [|reflexivity]. apply S in EP. destruct EP as [_ [l' [c' [K1 [K2 K3]]]]]. congruence.
Qed.
Print Assumptions C13_missing.
Theorem C13_unknown : forall w l n, In n l -> ~ In n (get_names w) -> get_max_posteriors w (Some l) = Err KeyError.
Proof. intros w l n H1 H2. apply max_posteriors_unknown. exists n. auto. Qed.
Print Assumptions C13_unknown.
Definition ex13 : world := fst (run ex_rgb ({| h_frames := [ex6; ex_frame]; h_chains := [] |}, new_consumer)
  [OpNewChain (ex6_args no_kw);
   OpNewChain {| a_cfg := no_kw; a_samples := 1; a_name := "B"; a_weight := None; a_post := None; a_walkers := None; a_grid := None;
     a_nfree := None; a_ndata := None; a_power := None; a_showlabel := None; a_relheight := None |};
   OpAdd 1; OpAdd 0; OpMarker [("x", Fin 7)] "M" None 5 "*" 1 no_kw]).
Example C13_nonvacuous : reachable ex_rgb ex13 /\ get_names ex13 = ["B"; "A"; "M"] /\
  get_max_posteriors ex13 None = Ok [("A", (-1, [("x", 2); ("y", 1)])); ("M", (1, [("x", 7)]))] /\
  get_max_posteriors ex13 (Some ["M"; "A"; "M"]) = Ok [("M", (1, [("x", 7)])); ("A", (-1, [("x", 2); ("y", 1)]))].
Proof. split; [unfold ex13, reachable; do 3 eexists; apply surjective_pairing|]. vm_compute. auto. Qed.

(** * C14 A marker's point is the location it was given *)
Theorem C14_marker : forall rgb2hex w loc name color size style alpha (extra : kwargs) w', NoDup (map fst loc) -> extra Fshift_params <> Some true ->
  add_marker rgb2hex w loc name color size style alpha extra = (w', Ok tt) ->
  exists l c coords, k_chains (snd w') = k_chains (snd w) ++ [(name, l)] /\ chain_at (fst w') l = Some c /\ ch_name c = name /\
    ch_cfg c Fplot_contour = false /\ ch_cfg c Fplot_point = true /\ ch_cfg c Fmarker_size = size /\ ch_cfg c Fmarker_style = style /\ ch_cfg c Fmarker_alpha = alpha /\
    get_max_posterior_point c (frame_at (fst w') (ch_samples c)) = Ok (Some (1%Q, coords)) /\
    sublist (map fst coords) (map fst loc) /\
    (forall n q, In (n, q) coords -> In (n, Fin q) loc) /\
    (ch_cfg c Fplot_cloud = false -> forall n q, In (n, Fin q) loc -> ~ reserved_name n -> In (n, q) coords).
Proof.
  intros rgb w loc name color size style al extra w' H1 H2 H3.
  destruct (marker_spec rgb w loc name color size style al extra w' H1 H2 H3) as [l [c [coords [K1 [K2 [K3 [K4 [K5 [K6 [K7 [K8 [K9 [K10 [K11 [K12 K13]]]]]]]]]]]]]]].
  exists l, c, coords. repeat (split; [assumption|]). assumption.
Qed.
Print Assumptions C14_marker.
(** A marker leaves the number of contour-drawing chains, hence every automatic shading, as it was. *)
Theorem C14_shading : forall rgb2hex w loc name color size style alpha (extra : kwargs) w', reachable rgb2hex w -> NoDup (map fst loc) -> extra Fshift_params <> Some true ->
  add_marker rgb2hex w loc name color size style alpha extra = (w', Ok tt) ->
  num_contour_chains (fst w') (k_chains (snd w')) = num_contour_chains (fst w) (k_chains (snd w)).
Proof.
  intros rgb w loc name color size style al extra w' R H1 H2 H3.
  destruct (marker_spec rgb w loc name color size style al extra w' H1 H2 H3) as [l [c [coords [K1 [K2 [K3 [K4 _]]]]]]].
  pose proof (reachable_ok _ _ R) as W.
  assert (ST : step rgb w (OpMarker loc name color size style al extra) = (w', Ok [Added name (length (h_chains (fst w)))])) by (cbn; rewrite H3; reflexivity).
  destruct (step_effect _ _ _ _ _ ST W) as [_ [[_ U] _]]. rewrite K1. unfold num_contour_chains. rewrite filter_app, app_length. cbn [filter snd]. rewrite K2, K4. cbn [length]. rewrite Nat.add_0_r.
  f_equal. apply filter_ext_in. intros [n k] HI. cbn [snd]. destruct (proj2 W n k HI) as [ck [HC _]]. pose proof (U _ _ HC) as H5. change (chain_at (fst w') k = Some ck) in H5. rewrite HC, H5. reflexivity.
Qed.
Print Assumptions C14_shading.
Example C14_nonvacuous : let '(w', r) := add_marker ex_rgb ex13 [("b", Fin (1#2)); ("a", Fin (-3))] "P" None 20 "*" 1 no_kw in
  r = Ok tt /\ get_max_posteriors w' (Some ["P"]) = Ok [("P", (1, [("b", (1#2)%Q); ("a", (-3)%Q)]))].
Proof. vm_compute. auto. Qed.

(** * C17 Variable selection *)
(** [names] plain: exactly the named variables, in the sampler's order; [~names]: exactly the others. *)
Theorem C17_select : forall names all, names <> [] -> (forall v, In v names -> forall r, v <> String tilde r) ->
  exists kept rest, filter_var_names (Some names) all = Ok kept /\ filter_var_names (Some (map (String tilde) names)) all = Ok rest /\
    sublist kept all /\ sublist rest all /\ (forall v, In v kept <-> In v all /\ In v names) /\ (forall v, In v rest <-> In v all /\ ~ In v names) /\
    Permutation (kept ++ rest) all.
Proof.
  intros names all N P. exists (filter (fun v => smem v names) all), (filter (fun v => negb (smem v names)) all).
  split. { apply filter_plain; [exact N|]. intros v Hv. destruct (negated v) eqn:E; [|reflexivity]. apply negated_drop in E. destruct (P v Hv _ E). }
  split; [apply filter_tilde; exact N|]. split; [apply sublist_filter|]. split; [apply sublist_filter|].
  split; [intros v; rewrite filter_In, smem_In; tauto|].
  split. { intros v. rewrite filter_In, negb_true_iff. pose proof (smem_In v names) as HS. destruct (smem v names); intuition congruence. }
  clear. induction all as [|x all IH]; [constructor|]. cbn. destruct (smem x names); cbn; [constructor; exact IH|].
  apply Permutation_sym, Permutation_cons_app, Permutation_sym. exact IH.
Qed.
Print Assumptions C17_select.
Theorem C17_everything : forall all, filter_var_names None all = Ok all.
Proof. reflexivity. Qed.
Print Assumptions C17_everything.
Theorem C17_mixture : forall names all, (exists r, In (String tilde r) names) -> (exists v, In v names /\ forall r, v <> String tilde r) ->
  filter_var_names (Some names) all = Err ValueError.
Proof.
  intros names all [r Hr] [v [Hv P]]. apply filter_mixed; [exists (String tilde r); split; [exact Hr|reflexivity]|]. exists v. split; [exact Hv|].
  destruct (negated v) eqn:E; [|reflexivity]. apply negated_drop in E. destruct (P _ E).
Qed.
Print Assumptions C17_mixture.
(** The documentation promises everything for an empty list; the code raises. *)
Theorem C17_empty_refuted : forall all, filter_var_names (Some []) all = Err ValueError.
Proof. reflexivity. Qed.
Print Assumptions C17_empty_refuted.
(** A numpyro import holds the selected variables' values under their names, in the sampler's order. *)
Theorem C17_import : forall vn samples kept, NoDup (map fst samples) -> filter_var_names vn (map fst samples) = Ok kept ->
  (forall n f, numpyro_frame vn samples = Ok f -> sublist (map fst (f_cols f)) (map CStr (map fst samples)) /\
      default_labels f /\ frame_wf f /\ (is_column f n <-> In n kept /\ In n (map fst samples)) /\
      forall v, In (n, v) samples -> In n kept -> column f n v) /\
  ((exists f, numpyro_frame vn samples = Ok f) <-> forall n v m u, In (n, v) samples -> In (m, u) samples -> In n kept -> In m kept -> length v = length u).
Proof.
  intros vn samples kept ND HK. unfold numpyro_frame. rewrite HK. cbn [rbind].
  set (d := filter (fun kv : string * list Q => smem (fst kv) kept) samples). set (n0 := match d with [] => 0%nat | (_, v) :: _ => length v end).
  assert (HD : forall n v, In (n, v) d <-> In (n, v) samples /\ In n kept).
  { intros n v. unfold d. rewrite filter_In. cbn [fst]. rewrite smem_In. tauto. }
  split.
  - intros n f. destruct (forallb _ d) eqn:EF; [|discriminate]. intros E. injection E as <-. cbn [f_cols]. rewrite forallb_forall in EF.
    split. { rewrite map_map. cbn [fst]. rewrite <- (map_map fst CStr). apply sublist_map, sublist_map, sublist_filter. }
    split. { intros i r Hr. cbn [f_index] in Hr. unfold default_index in Hr. rewrite nth_error_map in Hr. destruct (nth_error (seq 0 n0) i) as [j|] eqn:EJ; [|discriminate]. cbn in Hr. injection Hr as <-.
      assert (HL : (i < n0)%nat) by (rewrite <- (seq_length n0 0); apply nth_error_Some; congruence). rewrite (nth_error_nth' (seq 0 n0) 0%nat) in EJ by (rewrite seq_length; exact HL).
      rewrite seq_nth in EJ by exact HL. injection EJ as <-. reflexivity. }
    split. { split.
      - cbn [f_cols]. rewrite map_map. cbn [fst]. rewrite <- (map_map fst CStr). apply FinFun.Injective_map_NoDup; [intros x y E; injection E; auto|].
        unfold d. rewrite (map_fst_filter (fun m => smem m kept)). apply NoDup_filter. exact ND.
      - intros c l HI. cbn [f_cols f_index] in *. apply in_map_iff in HI. destruct HI as [[m v] [E HI]]. injection E as _ <-. rewrite map_length. unfold default_index. rewrite map_length, seq_length.
        apply EF in HI. apply Nat.eqb_eq in HI. exact HI. }
    split.
    + split.
      * intros [l HI]. cbn [f_cols] in HI. apply in_map_iff in HI. destruct HI as [[m v] [E HI]]. injection E as -> _. apply HD in HI. split; [tauto|]. apply in_map_iff. exists (n, v). tauto.
      * intros [K1 K2]. apply in_map_iff in K2. destruct K2 as [[m v] [E K2]]. cbn in E. subst m. exists (map Fin v). cbn [f_cols]. apply in_map_iff. exists (n, v). split; [reflexivity|]. apply HD. auto.
    + intros v K1 K2. unfold column. cbn [f_cols]. apply in_map_iff. exists (n, v). split; [reflexivity|]. apply HD. auto.
  - destruct (forallb _ d) eqn:EF.
    + split; [|intros _; eexists; reflexivity]. intros _ n v m u K1 K2 K3 K4. rewrite forallb_forall in EF.
      pose proof (EF (n, v) ltac:(apply HD; auto)) as E1. pose proof (EF (m, u) ltac:(apply HD; auto)) as E2. apply Nat.eqb_eq in E1. apply Nat.eqb_eq in E2. cbn in E1, E2. congruence.
    + split; [intros [f E]; discriminate|]. intros G. exfalso. assert (EF2 : forallb (fun kv : string * list Q => (length (snd kv) =? n0)%nat) d = true); [|congruence].
      apply forallb_forall. intros [m u] HI. apply Nat.eqb_eq. cbn. unfold n0. destruct d as [|[n v] d'] eqn:Ed; [destruct HI|].
      apply HD in HI. assert (HI2 : In (n, v) ((n, v) :: d')) by (left; reflexivity). apply HD in HI2. apply (G m u n v); tauto.
Qed.
Print Assumptions C17_import.
Example C17_nonvacuous :
  filter_var_names (Some ["b"; "c"]) ["a"; "b"; "c"; "d"] = Ok ["b"; "c"] /\
  filter_var_names (Some ["~b"; "~c"]) ["a"; "b"; "c"; "d"] = Ok ["a"; "d"] /\
  filter_var_names (Some ["~b"; "c"]) ["a"; "b"; "c"; "d"] = Err ValueError /\
  rmap (fun f => f_cols f) (numpyro_frame (Some ["~b"]) [("a", [1; 2]); ("b", [3]); ("c", [4; 5])]) = Ok [(CStr "a", [Fin 1; Fin 2]); (CStr "c", [Fin 4; Fin 5])].
Proof. vm_compute. auto. Qed.

(** * C18 from_emcee *)
(** As many names as dimensions, all different: the i-th name holds the i-th dimension, nothing else is
    there and nothing is reordered; the chain is then built exactly as Chain(...) would. *)
Theorem C18_columns : forall rgb2hex h columns dims rows a, NoDup columns -> length columns = length dims -> columns <> [] -> (forall v, In v dims -> length v = rows) ->
  exists f, frame_wf f /\ default_labels f /\ length (f_index f) = rows /\ map fst (f_cols f) = map CStr columns /\
    (forall i n v, nth_error columns i = Some n -> nth_error dims i = Some v -> nth_error (f_cols f) i = Some (CStr n, map Fin v)) /\
    exists h1 l b, from_emcee rgb2hex h columns dims rows a = new_chain rgb2hex h1 b /\ untouched h h1 /\ frame_at h1 l = f /\ a_samples b = l /\
      a_cfg b = a_cfg a /\ a_name b = a_name a /\ a_weight b = a_weight a /\ a_post b = a_post a /\ a_walkers b = a_walkers a /\ a_grid b = a_grid a /\
      a_nfree b = a_nfree a /\ a_ndata b = a_ndata a /\ a_power b = a_power a /\ a_showlabel b = a_showlabel a /\ a_relheight b = a_relheight a.
Proof.
  intros rgb h columns dims rows a ND LE NE LR. exists (emcee_frame columns dims rows).
  assert (ND2 : dims <> []) by (intros ->; destruct columns; [contradiction|discriminate]).
  destruct (emcee_wf columns dims rows ND LR NE ND2) as [W EI]. split; [exact W|].
  split. { intros i r Hr. rewrite EI in Hr. unfold default_index in Hr. rewrite nth_error_map in Hr. destruct (nth_error (seq 0 rows) i) as [j|] eqn:EJ; [|discriminate]. cbn in Hr. injection Hr as <-.
      assert (HL : (i < rows)%nat) by (rewrite <- (seq_length rows 0); apply nth_error_Some; congruence). rewrite (nth_error_nth' (seq 0 rows) 0%nat) in EJ by (rewrite seq_length; exact HL).
      rewrite seq_nth in EJ by exact HL. injection EJ as <-. reflexivity. }
  split; [rewrite EI; unfold default_index; rewrite map_length, seq_length; reflexivity|].
  rewrite emcee_cols by exact ND. split.
  - rewrite map_map. cbn. rewrite <- (map_map fst CStr). f_equal. clear - LE. revert dims LE. induction columns as [|n r IH]; intros [|v dims] LE; try discriminate; [reflexivity|]. cbn. f_equal. apply IH. cbn in LE. lia.
  - split.
    + intros i n v H1 H2. apply (map_nth_error (fun kv => (CStr (fst kv), map Fin (snd kv))) i (combine columns dims) (nth_combine _ _ _ _ _ H1 H2)).
    + unfold from_emcee. cbn [alloc_frame]. do 3 eexists. split; [reflexivity|]. split; [exact (untouched_alloc_frame h _)|]. split; [|cbn; repeat (split; [reflexivity|]); reflexivity].
      unfold frame_at. cbn [h_frames]. rewrite app_nth2, Nat.sub_diag by lia. reflexivity.
Qed.
Print Assumptions C18_columns.
(** Fewer names than dimensions (or the reverse): the surplus is dropped without an error. *)
Theorem C18_truncates_refuted : forall columns dims extra rows, NoDup (columns ++ extra) -> columns <> [] -> dims <> [] -> length columns = length dims ->
  f_cols (emcee_frame (columns ++ extra) dims rows) = f_cols (emcee_frame columns dims rows) /\
  forall more, f_cols (emcee_frame columns (dims ++ more) rows) = f_cols (emcee_frame columns dims rows).
Proof.
  intros columns dims extra rows ND N1 N2 LE.
  assert (ND1 : NoDup columns). { clear - ND. induction columns as [|x r IH]; [constructor|]. cbn in ND. inversion ND as [|? ? Hn ND']; subst. constructor; [intros HI; apply Hn; apply in_or_app; left; exact HI|apply IH; exact ND']. }
  split.
  - rewrite !emcee_cols by assumption. f_equal. clear - LE. revert dims LE. induction columns as [|x r IH]; intros [|v dims] LE; try discriminate; cbn; [destruct extra; reflexivity|]. f_equal. apply IH. cbn in LE. lia.
  - intros more. rewrite !emcee_cols by assumption. f_equal. clear - LE. revert dims LE. induction columns as [|x r IH]; intros [|v dims] LE; try discriminate; cbn; [reflexivity|]. f_equal. apply IH. cbn in LE. lia.
Qed.
Print Assumptions C18_truncates_refuted.
Example C18_nonvacuous : let '(h', r) := from_emcee ex_rgb ex6_heap ["p"; "q"] [[1; 2; 3]; [4; 5; 6]] 3 (ex_args "E" no_kw) in
  r = Ok 0%nat /\ match chain_at h' 0 with Some c => f_cols (frame_at h' (ch_samples c)) =
     [(CStr "p", [Fin 1; Fin 2; Fin 3]); (CStr "q", [Fin 4; Fin 5; Fin 6]); (CStr "weight", [Fin 1; Fin 1; Fin 1])] | None => False end.
Proof. vm_compute. auto. Qed.
