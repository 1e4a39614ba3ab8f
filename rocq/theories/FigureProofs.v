(** Lemmas about the figures: what is plotted, ranges, grids of axes, ticks and truths. *)
From Coq Require Import String Ascii List Bool Arith ZArith QArith Reals Lia Lqa.
From Verif Require Import Py NumSpec NumModel NumFacts HelpersSpec ColorModel HelpersModel MarginalModel FrameModel ConfigModel ChainModel RegistryModel RegistrySpec RegistryProofs ChainSpec ChainProofs ChainUseProofs DiagProofs
  TextModel AnalysisModel AnalysisSpec AnalysisProofs SurfaceModel PanelSpec SurfaceProofs PanelProofs FigureModel FigureSpec.
Import ListNotations.
Open Scope string_scope.
Open Scope list_scope.

(** ** What is plotted *)
Lemma sanitise_ok num cfg w rc req columns wide w1 rc1 b names : sanitise num cfg w rc req columns wide = (w1, rc1, Ok b) ->
  world_ok w -> requested w req = map Some names ->
  (exists finals locs, get_final_chains w = (w1, Ok finals) /\ selected (fst w1) finals false names locs /\ objects (fst w1) locs (pb_chains b)) /\
  AnalysisSpec.asked columns (pb_chains b) (pb_columns b) /\
  get_custom_extents num wide (p_extents cfg) (pb_chains b) (pb_columns b) = Ok (pb_extents b) /\
  pb_blind b = sanitise_blinds (p_blind cfg) (pb_columns b) /\ pb_logs b = p_log_scales cfg /\ rc1 = set_rc_params cfg rc.
Proof.
  intros H W HR. unfold sanitise in H. destruct (get_final_chains w) as [w0 [finals|e]] eqn:EG.
  2:{ unfold sanitise_chains in H. rewrite EG in H. discriminate. }
  pose proof (selection_spec _ _ false _ _ _ W EG HR) as S. destruct (sanitise_chains w req false) as [w2 [locs|e]] eqn:ES; [|discriminate].
  destruct S as [-> [_ S]]. destruct (rmapM _ _) as [final|] eqn:EF; [|discriminate]. cbv zeta in H.
  destruct (get_custom_extents _ _ _ _ _) as [ext|] eqn:EE; [|discriminate]. injection H as <- <- <-. cbn [pb_chains pb_columns pb_extents pb_blind pb_logs].
  split; [exists finals, locs; split; [reflexivity|]; split; [exact S|apply resolve_objects; exact EF]|]. split; [apply asked_columns|]. split; [exact EE|]. repeat split.
Qed.
Lemma sanitise_err num cfg w rc req columns wide w1 rc1 e : sanitise num cfg w rc req columns wide = (w1, rc1, Err e) -> rc1 = rc.
Proof.
  unfold sanitise. destruct (sanitise_chains _ _ _) as [w2 [locs|e']]; [|congruence]. destruct (rmapM _ _) as [final|]; [|congruence]. cbv zeta.
  destruct (get_custom_extents _ _ _ _ _); congruence.
Qed.
Lemma config_in_use_ok s : config_of s (config_in_use (s_plotter s)).
Proof. unfold config_of, config_in_use, given. destruct (pl_config _); reflexivity. Qed.
Lemma with_base_ok num s req columns wide k s' fig names : with_base num s req columns wide k = (s', Ok fig) -> world_ok (s_world s) -> requested (s_world s) req = map Some names ->
  exists b, plots s req columns (pb_chains b) (pb_columns b) /\ k (config_in_use (s_plotter s)) (s_truths s) b = Ok fig /\
    get_custom_extents num wide (p_extents (config_in_use (s_plotter s))) (pb_chains b) (pb_columns b) = Ok (pb_extents b) /\
    pb_blind b = sanitise_blinds (p_blind (config_in_use (s_plotter s))) (pb_columns b) /\ pb_logs b = p_log_scales (config_in_use (s_plotter s)).
Proof.
  intros H W HR. unfold with_base in H. cbv zeta in H. destruct (sanitise _ _ _ _ _ _ _) as [[w1 rc1] rb] eqn:E. injection H as _ H.
  destruct rb as [b|]; [|discriminate]. cbn [rbind] in H. destruct (sanitise_ok _ _ _ _ _ _ _ _ _ _ _ E W HR) as [[finals [locs [H1 [H2 H3]]]] [H4 [H5 [H6 [H7 _]]]]].
  exists b. split; [exists w1, finals, names, locs; auto|]. auto.
Qed.

(** ** Ranges *)
Lemma qmin_cases a b : (qmin a b = a /\ a <= b)%Q \/ (qmin a b = b /\ b <= a)%Q.
Proof. unfold qmin. destruct (Qle_bool a b) eqn:E; [left; split; [reflexivity|apply Qle_bool_iff; exact E]|right; split; [reflexivity|]]. apply qle_false in E. lra. Qed.
Lemma qmax_cases a b : (qmax a b = a /\ b <= a)%Q \/ (qmax a b = b /\ a <= b)%Q.
Proof. unfold qmax. destruct (Qle_bool a b) eqn:E; [right; split; [reflexivity|apply Qle_bool_iff; exact E]|left; split; [reflexivity|]]. apply qle_false in E. lra. Qed.
Lemma chain_extent_ranged num wide p cf e : chain_extent num wide p cf = Ok (Some e) -> ranged num wide p cf e.
Proof.
  destruct cf as [c f]. unfold chain_extent. intros H. destruct (f_has f p) eqn:EH; cbn [negb] in H; [|discriminate].
  split; [apply is_column_has; exact EH|]. cbn [fst snd]. apply rbind_ok in H as [v [Hv H]].
  destruct (ch_cfg c Fplot_contour || ch_cfg c Fplot_cloud) eqn:EP.
  - apply orb_true_iff in EP. destruct (ch_grid c) eqn:EG.
    + destruct v as [|x r]; [discriminate|]. injection H as <-. destruct (qmin_list_spec x r), (qmax_list_spec x r). eapply or_grid; eauto; split; auto.
    + apply rbind_ok in H as [w [Hw H]]. destruct (get_extents _ _ _ _ _ _) as [[lo hi]|] eqn:EE; [|discriminate]. injection H as <-. eapply or_samples; eauto.
  - apply orb_false_iff in EP as [E1 E2]. apply rbind_ok in H as [pt [Hp H]]. destruct pt as [[lp coords]|]; [|discriminate].
    injection H as H. destruct (dget p coords) as [q|] eqn:EQ; [|discriminate]. injection H as <-. eapply or_point; eauto.
Qed.
Lemma is_min_unique a b l : is_min a l -> is_min b l -> (a == b)%Q.
Proof. intros [H1 H2] [H3 H4]. specialize (H2 _ H3). specialize (H4 _ H1). lra. Qed.
Lemma is_max_unique a b l : is_max a l -> is_max b l -> (a == b)%Q.
Proof. intros [H1 H2] [H3 H4]. specialize (H2 _ H3). specialize (H4 _ H1). lra. Qed.
Lemma ranged_chain_extent num wide p cf e r : ranged num wide p cf e -> chain_extent num wide p cf = Ok r ->
  exists e', r = Some e' /\ (fst e == fst e')%Q /\ (snd e == snd e')%Q.
Proof.
  intros [HC HO] H. destruct cf as [c f]. cbn [fst snd] in *. unfold chain_extent in H. apply is_column_has in HC. rewrite HC in H. cbn [negb] in H.
  inversion HO as [lo hi v H1 H2 H3 H4 H5|lo hi v w H1 H2 H3 H4 H5|lp coords v H1 H2 H3 H4]; subst.
  - rewrite H3 in H. cbn [rbind] in H. assert (E : ch_cfg c Fplot_contour || ch_cfg c Fplot_cloud = true) by (apply orb_true_iff; exact H1). rewrite E, H2 in H.
    destruct v as [|x r']; [destruct H4 as [[] _]|]. injection H as <-. eexists. split; [reflexivity|]. cbn [fst snd].
    destruct (qmin_list_spec x r'), (qmax_list_spec x r'). split; [eapply is_min_unique; [eassumption|split; assumption]|eapply is_max_unique; [eassumption|split; assumption]].
  - rewrite H3 in H. cbn [rbind] in H. assert (E : ch_cfg c Fplot_contour || ch_cfg c Fplot_cloud = true) by (apply orb_true_iff; exact H1). rewrite E, H2, H4 in H. cbn [rbind] in H.
    rewrite H5 in H. injection H as <-. eexists. split; [reflexivity|]. split; reflexivity.
  - rewrite H1, H2 in H. cbn [orb] in H. apply rbind_ok in H as [d [_ H]]. rewrite H3 in H. cbn [rbind] in H. rewrite H4 in H. injection H as <-. eexists. split; [reflexivity|]. split; reflexivity.
Qed.
Lemma hull_inside a b l u : hull a b = Some (l, u) ->
  (forall x y, a = Some (x, y) \/ b = Some (x, y) -> l <= x /\ y <= u)%Q /\
  (exists x y, (a = Some (x, y) \/ b = Some (x, y)) /\ l = x) /\ (exists x y, (a = Some (x, y) \/ b = Some (x, y)) /\ u = y).
Proof.
  unfold hull. destruct a as [[l1 u1]|], b as [[l2 u2]|]; intros H; try discriminate; injection H as <- <-.
  - destruct (qmin_cases l1 l2) as [[E1 L1]|[E1 L1]], (qmax_cases u1 u2) as [[E2 L2]|[E2 L2]]; rewrite E1, E2; (split; [intros x y [K|K]; injection K as <- <-; split; lra|]); split; eauto 6.
  - split; [intros x y [K|K]; [injection K as <- <-; split; lra|discriminate]|]. split; eauto 6.
  - split; [intros x y [K|K]; [discriminate|injection K as <- <-; split; lra]|]. split; eauto 6.
Qed.
Lemma hull_none a b : hull a b = None -> a = None /\ b = None.
Proof. destruct a as [[]|], b as [[]|]; cbn; intros H; try discriminate; split; reflexivity. Qed.
Lemma parameter_extents_ok num wide p : forall chains acc r, get_parameter_extents num wide p chains acc = Ok r ->
  match r with
  | None => acc = None
  | Some (l, u) =>
      (forall cf e, In cf chains -> chain_extent num wide p cf = Ok (Some e) -> l <= fst e /\ snd e <= u)%Q /\
      (forall x y, acc = Some (x, y) -> l <= x /\ y <= u)%Q /\
      ((exists cf e, In cf chains /\ chain_extent num wide p cf = Ok (Some e) /\ l = fst e) \/ exists y, acc = Some (l, y)) /\
      ((exists cf e, In cf chains /\ chain_extent num wide p cf = Ok (Some e) /\ u = snd e) \/ exists x, acc = Some (x, u))
  end /\ forall cf, In cf chains -> exists e, chain_extent num wide p cf = Ok e.
Proof.
  induction chains as [|cf chains IH]; intros acc r H; cbn [get_parameter_extents] in H.
  - injection H as <-. split; [|intros cf []]. destruct acc as [[l u]|]; [|reflexivity]. split; [intros cf e []|]. split; [intros x y K; injection K as <- <-; split; lra|]. split; right; eauto.
  - apply rbind_ok in H as [e [He H]]. destruct (IH _ _ H) as [I1 I2]. split; [|intros cf' [<-|HI]; [eexists; exact He|apply I2; exact HI]].
    destruct r as [[l u]|]; [|apply hull_none in I1; tauto]. destruct I1 as [I3 [I4 [I5 I6]]].
    destruct (hull e acc) as [[hl hu]|] eqn:EH.
    + destruct (hull_inside _ _ _ _ EH) as [G1 [G2 G3]]. destruct (I4 _ _ eq_refl) as [J1 J2]. split; [|split; [|split]].
      * intros cf' e' [<-|HI] HE; [|exact (I3 _ _ HI HE)]. rewrite He in HE. injection HE as ->. destruct e' as [x y]. destruct (G1 x y (or_introl eq_refl)). cbn [fst snd]. split; lra.
      * intros x y ->. destruct (G1 x y (or_intror eq_refl)). split; lra.
      * destruct I5 as [[cf' [e' [K1 [K2 K3]]]]|[y K]]; [left; exists cf', e'; split; [right; exact K1|auto]|]. injection K as <- <-.
        destruct G2 as [x [y [[K|K] ->]]]; [left; exists cf, (x, y); split; [left; reflexivity|]; rewrite He, K; split; reflexivity|right; exists y; exact K].
      * destruct I6 as [[cf' [e' [K1 [K2 K3]]]]|[y K]]; [left; exists cf', e'; split; [right; exact K1|auto]|]. injection K as <- <-.
        destruct G3 as [x [y [[K|K] ->]]]; [left; exists cf, (x, y); split; [left; reflexivity|]; rewrite He, K; split; reflexivity|right; exists x; exact K].
    + apply hull_none in EH as [-> ->]. split; [|split; [|split]].
      * intros cf' e' [<-|HI] HE; [rewrite He in HE; discriminate|exact (I3 _ _ HI HE)].
      * discriminate.
      * destruct I5 as [[cf' [e' [K1 K2]]]|[y K]]; [left; exists cf', e'; split; [right; exact K1|exact K2]|discriminate].
      * destruct I6 as [[cf' [e' [K1 K2]]]|[y K]]; [left; exists cf', e'; split; [right; exact K1|exact K2]|discriminate].
Qed.
Lemma custom_extents_ok num wide initial chains : forall cols acc ext, custom_extents_loop num wide initial chains cols acc = Ok ext ->
  (forall p, dmem p initial = true -> dget p ext = dget p acc) /\
  (forall p, ~ In p cols -> dget p ext = dget p acc) /\
  forall p, In p cols -> dmem p initial = false -> exists e, dget p ext = Some e /\ get_parameter_extents num wide p chains None = Ok e.
Proof.
  induction cols as [|q cols IH]; intros acc ext H; cbn [custom_extents_loop] in H.
  - injection H as <-. split; [reflexivity|]. split; [reflexivity|]. intros p [].
  - destruct (dmem q initial) eqn:EM.
    + destruct (IH _ _ H) as [I1 [I2 I3]]. split; [exact I1|]. split; [intros p HN; apply I2; intros HI; apply HN; right; exact HI|]. intros p [<-|HI] HM; [congruence|exact (I3 p HI HM)].
    + apply rbind_ok in H as [e [He H]]. destruct (IH _ _ H) as [I1 [I2 I3]]. split; [|split].
      * intros p HM. rewrite (I1 p HM). apply dget_dset_other. intros ->. congruence.
      * intros p HN. rewrite I2 by (intros HI; apply HN; right; exact HI). apply dget_dset_other. intros ->. apply HN. left. reflexivity.
      * intros p [<-|HI] HM; [|exact (I3 p HI HM)]. destruct (in_dec string_dec q cols) as [HI|HI]; [exact (I3 q HI HM)|]. exists e. rewrite (I2 q HI), dget_dset_same. split; [reflexivity|exact He].
Qed.
Lemma dget_map_some {A B} (g : A -> B) p (d : dict A) : dget p (map (fun kv => (fst kv, g (snd kv))) d) = option_map g (dget p d).
Proof. induction d as [|[k v] d IH]; [reflexivity|]. cbn [map dget fst snd]. destruct (String.eqb p k); [reflexivity|exact IH]. Qed.
(** The entry of a plotted column is the range the property speaks about. *)
Lemma extents_range num wide cfg chains cols ext p lo hi : get_custom_extents num wide (p_extents cfg) chains cols = Ok ext -> In p cols ->
  dget p ext = Some (Some (lo, hi)) -> range_of num cfg wide chains p (lo, hi).
Proof.
  intros H HI HE. destruct (custom_extents_ok _ _ _ _ _ _ _ H) as [H1 [_ H3]]. unfold range_of. destruct (dget p (p_extents cfg)) as [r|] eqn:ED.
  - rewrite H1, dget_map_some, ED in HE by (apply dmem_In; apply (in_map fst) with (x := (p, r)); apply dget_In; exact ED). injection HE as <-. reflexivity.
  - destruct (H3 p HI) as [e [K1 K2]]; [destruct (dmem p (p_extents cfg)) eqn:EM; [|reflexivity]; apply dmem_In in EM; apply dget_None in ED; contradiction|].
    rewrite HE in K1. injection K1 as <-. destruct (parameter_extents_ok _ _ _ _ _ _ K2) as [[G1 [_ [G2 G3]]] G4]. cbn [fst snd]. split; [|split].
    + intros cf e HC HR. destruct (G4 cf HC) as [e' He']. destruct (ranged_chain_extent _ _ _ _ _ _ HR He') as [e2 [-> [Q1 Q2]]]. destruct (G1 _ _ HC He'). split; lra.
    + destruct G2 as [[cf [e [C1 [C2 C3]]]]|[y C]]; [|discriminate]. exists cf, e. split; [exact C1|]. split; [apply chain_extent_ranged; exact C2|exact C3].
    + destruct G3 as [[cf [e [C1 [C2 C3]]]]|[y C]]; [|discriminate]. exists cf, e. split; [exact C1|]. split; [apply chain_extent_ranged; exact C2|exact C3].
Qed.
Lemma set_limits_ok d e l : set_limits d e = Ok l -> exists lo hi, e = Some (Some (lo, hi)) /\ l = [Limits d lo hi].
Proof. destruct e as [[[lo hi]|]|]; cbn; intros H; try discriminate. injection H as <-. eauto. Qed.

(** ** Grids of axes *)
Lemma nth_error_combine {A B} (l : list A) (m : list B) i a b : nth_error l i = Some a -> nth_error m i = Some b -> nth_error (combine l m) i = Some (a, b).
Proof. revert m i. induction l as [|x l IH]; intros [|y m] [|i] H1 H2; cbn in *; try discriminate; [congruence|apply IH; assumption]. Qed.
Lemma nth_error_combine_inv {A B} (l : list A) (m : list B) i a b : nth_error (combine l m) i = Some (a, b) -> nth_error l i = Some a /\ nth_error m i = Some b.
Proof. revert m i. induction l as [|x l IH]; intros [|y m] [|i] H; cbn in *; try discriminate; [injection H as <- <-; split; reflexivity|apply IH; assumption]. Qed.
Lemma nth_error_seq' s n i : (i < n)%nat -> nth_error (seq s n) i = Some (s + i)%nat.
Proof. intros H. rewrite (nth_error_nth' _ 0%nat) by (rewrite seq_length; exact H). rewrite seq_nth by exact H. reflexivity. Qed.
Lemma nth_error_enum {A} (l : list A) i x : nth_error l i = Some x -> nth_error (combine (seq 0 (length l)) l) i = Some (i, x).
Proof. intros H. apply nth_error_combine; [|exact H]. apply nth_error_seq'. apply nth_error_Some. congruence. Qed.
Lemma enum_length {A} (l : list A) : length (combine (seq 0 (length l)) l) = length l.
Proof. rewrite combine_length, seq_length. apply Nat.min_id. Qed.
Lemma grid_of_ok {A} rows cols (g : nat -> nat -> string -> string -> res A) m : grid_of rows cols g = Ok m ->
  length m = length rows /\ (forall r, In r m -> length r = length cols) /\
  forall i j p q, nth_error rows i = Some p -> nth_error cols j = Some q -> exists row x, nth_error m i = Some row /\ nth_error row j = Some x /\ g i j p q = Ok x.
Proof.
  unfold grid_of. intros H. pose proof H as H0. apply rmapM_Forall2 in H0. apply rmapM_Ok_iff in H as [L H]. rewrite enum_length in L. split; [exact L|]. split.
  - clear -H0. induction H0 as [|ip row l m H1 H2 IH]; [intros r []|]. intros r [<-|HI]; [|apply IH; exact HI]. apply rmapM_Ok_iff in H1 as [L _]. rewrite enum_length in L. exact L.
  - intros i j p q Hi Hj. destruct (H i _ (nth_error_enum _ _ _ Hi)) as [row [R1 R2]]. cbn [fst snd] in R2. apply rmapM_Ok_iff in R2 as [_ R2].
    destruct (R2 j _ (nth_error_enum _ _ _ Hj)) as [x [X1 X2]]. exists row, x. auto.
Qed.
Lemma mapij_nth {A B} (g : nat -> nat -> A -> B) m i j row x : nth_error m i = Some row -> nth_error row j = Some x ->
  exists row', nth_error (mapij g m) i = Some row' /\ nth_error row' j = Some (g i j x).
Proof.
  intros H1 H2. unfold mapij. rewrite nth_error_map, (nth_error_enum _ _ _ H1). cbn [option_map fst snd]. eexists. split; [reflexivity|].
  rewrite nth_error_map, (nth_error_enum _ _ _ H2). reflexivity.
Qed.
Lemma mapij_shape {A B} (g : nat -> nat -> A -> B) m n : (forall r, In r m -> length r = n) -> length (mapij g m) = length m /\ forall r, In r (mapij g m) -> length r = n.
Proof.
  intros H. unfold mapij. split; [rewrite map_length; apply enum_length|]. intros r HI. apply in_map_iff in HI as [[i row] [<- HI]]. cbn [fst snd]. rewrite map_length, enum_length. apply H. apply in_combine_r in HI. exact HI.
Qed.
Lemma zip_axes_nth {A B} (a : list (list (list A))) (b : list (list (list A * B))) i j ra rb x y : nth_error a i = Some ra -> nth_error b i = Some rb -> nth_error ra j = Some x -> nth_error rb j = Some y ->
  exists row, nth_error (zip_axes a b) i = Some row /\ nth_error row j = Some (x ++ fst y).
Proof.
  intros H1 H2 H3 H4. unfold zip_axes. rewrite nth_error_map, (nth_error_combine _ _ _ _ _ H1 H2). cbn [option_map fst snd]. eexists. split; [reflexivity|].
  rewrite nth_error_map, (nth_error_combine _ _ _ _ _ H3 H4). reflexivity.
Qed.
Lemma zip_axes_shape {A B} (a : list (list (list A))) (b : list (list (list A * B))) n : length a = length b -> (forall r, In r a -> length r = n) -> (forall r, In r b -> length r = n) ->
  length (zip_axes a b) = length a /\ forall r, In r (zip_axes a b) -> length r = n.
Proof.
  intros HL H1 H2. unfold zip_axes. split; [rewrite map_length, combine_length; lia|]. intros r HI. apply in_map_iff in HI as [[x y] [<- HI]]. cbn [fst snd].
  rewrite map_length, combine_length, (H1 x), (H2 y); [lia|apply in_combine_r in HI; exact HI|apply in_combine_l in HI; exact HI].
Qed.
Lemma removelast_length {A} (l : list A) : length (removelast l) = (length l - 1)%nat.
Proof. induction l as [|x [|y l] IH]; [reflexivity|reflexivity|]. cbn [removelast length] in *. rewrite IH. cbn. lia. Qed.
Lemma nth_error_removelast {A} (l : list A) i : (S i < length l)%nat -> nth_error (removelast l) i = nth_error l i.
Proof. revert i. induction l as [|x [|y l] IH]; intros i H; cbn in H; try lia. destruct i; [reflexivity|]. cbn [removelast nth_error]. apply (IH i). cbn. lia. Qed.
Lemma nth_error_tl {A} (l : list A) i : nth_error (tl l) i = nth_error l (S i).
Proof. destruct l; [destruct i; reflexivity|reflexivity]. Qed.
Lemma params_x_length cfg cols : length (params_x cfg cols) = triangle_size cfg cols.
Proof. unfold params_x, triangle_size. destruct (p_plot_hists cfg); [reflexivity|]. destruct cols; cbn; lia. Qed.
Lemma params_y_length cfg cols : length (params_y cfg cols) = triangle_size cfg cols.
Proof. unfold params_y, triangle_size. destruct (p_plot_hists cfg); [reflexivity|]. apply removelast_length. Qed.
Lemma triangle_ok cfg b size m : triangle_figure cfg b size = Ok m ->
  let n := triangle_size cfg (pb_columns b) in (0 < n)%nat /\ length m = n /\ (forall r, In r m -> length r = n) /\
  forall i j p q, nth_error (params_x cfg (pb_columns b)) i = Some p -> nth_error (params_y cfg (pb_columns b)) j = Some q ->
    exists row x, nth_error m i = Some row /\ nth_error row j = Some x /\ triangle_panel cfg b n i j p q = Ok x.
Proof.
  unfold triangle_figure. cbv zeta. intros H. apply rbind_ok in H as [[] [HS H]]. destruct (_ || _); [discriminate|]. apply grid_of_ok in H as [H1 [H2 H3]]. rewrite params_x_length in H1. rewrite params_y_length in H2.
  split; [|auto]. unfold subplots in HS. destruct (negb _); [discriminate|]. destruct (triangle_size _ _); [discriminate|lia].
Qed.

Section plot.
Variables (num : numerics) (kde2 : list Q -> list Q -> list Q -> Q -> Q * Q -> Q) (argsort : list Q -> list nat) (Phi : R -> R) (filled : string -> bool) (offset : dir -> nat -> nat -> string).
Notation plot_figure := (plot_figure num kde2 argsort Phi filled offset).
Notation plot_panel := (plot_panel num kde2 argsort Phi filled).
Lemma plot_figure_ok cfg truths b figsize file fig : plot_figure cfg truths b figsize file = Ok fig ->
  let n := triangle_size cfg (pb_columns b) in (0 < n)%nat /\ grid_shape fig n n /\
  forall i j p1 p2 calls, nth_error (params_x cfg (pb_columns b)) i = Some p1 -> nth_error (params_y cfg (pb_columns b)) j = Some p2 -> axis fig i j calls ->
    exists frame_calls panel, triangle_panel cfg b n i j p1 p2 = Ok frame_calls /\ plot_panel cfg truths b i j p1 p2 = Ok panel /\
      calls = relabel offset n i j (frame_calls ++ fst panel).
Proof.
  unfold FigureModel.plot_figure. cbv zeta. intros H. apply rbind_ok in H as [m [Hm H]]. apply rbind_ok in H as [panels [Hp H]]. apply rbind_ok in H as [leg [Hl H]]. injection H as <-.
  destruct (triangle_ok _ _ _ _ Hm) as [HN [M1 [M2 M3]]]. cbv zeta in M3. pose proof (grid_of_ok _ _ _ _ Hp) as [P1 [P2 P3]].
  rewrite params_x_length in P1. rewrite params_y_length in P2. split; [exact HN|].
  destruct (zip_axes_shape m panels (triangle_size cfg (pb_columns b))) as [Z1 Z2]; [congruence|exact M2|exact P2|].
  destruct (mapij_shape (relabel offset (triangle_size cfg (pb_columns b))) _ _ Z2) as [Y1 Y2]. split; [split; cbn [fg_axes]; [congruence|exact Y2]|].
  intros i j p1 p2 calls H1 H2 [row [R1 R2]]. cbn [fg_axes] in R1. destruct (M3 i j p1 p2 H1 H2) as [rm [fc [A1 [A2 A3]]]]. destruct (P3 i j p1 p2 H1 H2) as [rp [pan [B1 [B2 B3]]]].
  destruct (zip_axes_nth _ _ _ _ _ _ _ _ A1 B1 A2 B2) as [rz [C1 C2]]. destruct (mapij_nth (relabel offset (triangle_size cfg (pb_columns b))) _ _ _ _ _ C1 C2) as [ry [D1 D2]].
  rewrite R1 in D1. injection D1 as <-. rewrite R2 in D2. injection D2 as ->. exists fc, pan. auto.
Qed.
End plot.
(** A panel of the property is a panel of the loop. *)
Lemma panel_params cfg cols i j px py : panel_at cfg cols i j px py -> (j <= i)%nat ->
  nth_error (params_x cfg cols) i = Some py /\ nth_error (params_y cfg cols) j = Some px.
Proof.
  unfold panel_at, params_x, params_y. intros [H1 H2] HJ. destruct (p_plot_hists cfg); [split; assumption|]. split; [rewrite nth_error_tl; exact H2|].
  assert (HL : (S i < length cols)%nat) by (apply nth_error_Some; congruence). rewrite nth_error_removelast by lia. exact H1.
Qed.

(** ** Ticks, labels and limits *)
Definition quiet (c : call) : Prop := forall d t, tick_step d t c = t.
Lemma fold_quiet d l t : Forall quiet l -> fold_left (tick_step d) l t = t.
Proof. intros H. revert t. induction H as [|c l H _ IH]; intros t; [reflexivity|]. cbn [fold_left]. rewrite H. apply IH. Qed.
Lemma is_bar_quiet c : is_bar c = true -> quiet c.
Proof. destruct c; cbn; intros H; try discriminate; intros d t; reflexivity. Qed.
Lemma is_mark_quiet c : is_mark c = true -> quiet c.
Proof. destruct c; cbn; intros H; try discriminate; intros d t; reflexivity. Qed.
Lemma with_offset_ticks offset d i j calls d' : final_ticks d' (with_offset offset d i j calls) = final_ticks d' calls.
Proof. unfold with_offset, final_ticks. cbv zeta. rewrite fold_left_app. reflexivity. Qed.
Lemma relabel_ticks offset n i j calls d : final_ticks d (relabel offset n i j calls) = final_ticks d calls.
Proof. unfold relabel. cbv zeta. destruct (i =? n - 1)%nat, (j =? 0)%nat; rewrite ?with_offset_ticks; reflexivity. Qed.
Lemma relabel_filter {A} (g : call -> list A) offset n i j calls : (forall d s, g (AxisLabel d s) = []) -> flat_map g (relabel offset n i j calls) = flat_map g calls.
Proof.
  intros HG. assert (G : forall d c, flat_map g (with_offset offset d i j c) = flat_map g c).
  { intros d c. unfold with_offset. cbv zeta. rewrite flat_map_app. cbn [flat_map]. rewrite HG. rewrite !app_nil_r. reflexivity. }
  unfold relabel. cbv zeta. destruct (i =? n - 1)%nat, (j =? 0)%nat; rewrite ?G; reflexivity.
Qed.
Lemma filter_flat_map {A} (p : A -> bool) l : filter p l = flat_map (fun c => if p c then [c] else []) l.
Proof. induction l as [|x l IH]; [reflexivity|]. cbn [filter flat_map]. rewrite IH. destruct (p x); reflexivity. Qed.
Lemma relabel_keeps (p : call -> bool) offset n i j calls : (forall d s, p (AxisLabel d s) = false) -> filter p (relabel offset n i j calls) = filter p calls.
Proof. intros HP. rewrite !filter_flat_map. apply relabel_filter. intros d s. rewrite HP. reflexivity. Qed.

(** ** Truths *)
Lemma truth_value_cases t p : (exists v, truth_value t p = Some v /\ has_value t p v) \/ (truth_value t p = None /\ no_value t p).
Proof.
  destruct p as [q|]; cbn; [|right; split; [reflexivity|intros r Hr; discriminate]]. destruct (dget q (t_location t)) as [v|] eqn:E; [left; exists v; split; [reflexivity|exists q; auto]|right; split; [reflexivity|]]. intros r Hr. injection Hr as <-. exact E.
Qed.
Lemma truth_line_ok t : line_style_of t (truth_line t).
Proof. repeat split. Qed.
Lemma truth_marker_ok filled t m : marker_style_of filled t m (truth_marker filled t m).
Proof. do 5 (split; [reflexivity|]). unfold truth_marker. cbn [mk_fill]. destruct (filled m) eqn:E; [|constructor; exact E]. destruct (t_edge_color t) eqn:F; cbn [dflt]; constructor; assumption. Qed.
Lemma plot_truth_ok filled px py t : marks_of filled px py t (plot_truth filled px py t).
Proof.
  pose proof (truth_line_ok t) as TL. pose proof (truth_marker_ok filled t) as TM.
  unfold plot_truth. destruct (truth_value_cases t px) as [[x [Ex Hx]]|[Ex Hx]]; rewrite Ex; destruct (truth_value_cases t py) as [[y [Ey Hy]]|[Ey Hy]]; rewrite Ey; destruct (t_marker t) eqn:EM; cbn [app];
    try (econstructor; solve [eassumption|apply TM]).
Qed.
Lemma plot_truths_ok filled truths px py : exists l, Forall2 (marks_of filled px py) truths l /\ plot_truths filled truths px py = concat l /\ Forall (fun c => is_mark c = true) (plot_truths filled truths px py).
Proof.
  exists (map (plot_truth filled px py) truths). split; [induction truths; cbn [map]; constructor; [apply plot_truth_ok|assumption]|]. split; [unfold plot_truths; apply flat_map_concat_map|].
  unfold plot_truths. apply Forall_forall. intros c HI. apply in_flat_map in HI as [t [_ HI]]. pose proof (plot_truth_ok filled px py t) as M. inversion M as [A B C|x s A B L C|y s A B L C|x y s A B D L C|x y m s A B D L C]; rewrite <- C in HI; cbn in HI;
   repeat (destruct HI as [<-|HI]; [reflexivity|]); destruct HI.
Qed.
Lemma filter_all {A} (p : A -> bool) l : Forall (fun c => p c = true) l -> filter p l = l.
Proof. induction 1 as [|x l H _ IH]; [reflexivity|]. cbn [filter]. rewrite H, IH. reflexivity. Qed.
Lemma filter_none {A} (p : A -> bool) l : Forall (fun c => p c = false) l -> filter p l = [].
Proof. induction 1 as [|x l H _ IH]; [reflexivity|]. cbn [filter]. rewrite H. exact IH. Qed.
