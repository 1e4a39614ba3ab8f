(** Lemmas: the same chain in the company of different chains. *)
From Coq Require Import String List Bool Arith ZArith QArith Reals Lia FunctionalExtensionality.
From Verif Require Import Py NumModel ColorModel FrameModel ConfigModel ChainModel RegistryModel RegistrySpec HeapFacts RegistryProofs RegistryProps ChainSpec ChainUseProofs CovModel TextModel AnalysisModel AnalysisSpec AnalysisProofs CompareModel DiagModel DiagProofs SurfaceProofs SurfaceModel PanelProofs FigureModel FigureSpec FigureProofs TriangleProofs ConsumerSpec ConsumerProofs QuerySpec QueryProofs AloneSpec.
Import ListNotations.
Open Scope string_scope.
Open Scope list_scope.

(** ** Twins *)
Definition with_samples (c : chain) (l : nat) : chain :=
  {| ch_cfg := ch_cfg c; ch_user := ch_user c; ch_samples := l; ch_name := ch_name c; ch_weight := ch_weight c; ch_post := ch_post c; ch_walkers := ch_walkers c; ch_grid := ch_grid c;
     ch_nfree := ch_nfree c; ch_ndata := ch_ndata c; ch_power := ch_power c; ch_showlabel := ch_showlabel c; ch_relheight := ch_relheight c |}.
Lemma twins_eq c c' : twins c c' -> c' = with_samples c (ch_samples c').
Proof.
  intros [H1 H2 H3 H4 H5 H6 H7 H8 H9 H10 H11 H12]. destruct c, c'. cbn in *. subst. unfold with_samples. cbn. f_equal.
  - extensionality f. apply H1.
  - extensionality f. apply H2.
Qed.
(** The settings without those that depend on the company. *)
Definition neutral (cfg : config) : config := fun f =>
  match f return ctype f with
  | Fbar_shade => true | Fshade => true | Fshade_alpha => AQ 0 | Fcolor => None
  | g => cfg g
  end.
Definition bare (c : chain) : chain := with_cfg (with_samples c 0) (neutral (ch_cfg c)).

(** ** Resolution, chain by chain *)
Definition resolves (ov : option config_obj) (num : nat) (c c' : chain) : Prop :=
  exists cfg' pal, c' = with_cfg c cfg' /\ forall f, cfg' f = resolved ov num pal c f.
Lemma all_resolved_each num ov : forall cs colors cs', all_resolved num ov colors cs = Ok cs' -> Forall2 (resolves ov num) cs cs'.
Proof.
  induction cs as [|c cs IH]; intros colors cs' H; [injection H as <-; constructor|]. cbn [all_resolved] in H. apply rbind_ok in H as [[c1 co] [H1 H]]. cbn [fst snd] in H.
  destruct (all_resolved num ov co cs) as [rs|e] eqn:E; [|discriminate]. cbn [rmap] in H. assert (cs' = c1 :: rs) by congruence. subst cs'. constructor; [|eapply IH; exact E].
  unfold one_resolved in H1. cbv zeta in H1. apply rbind_ok in H1 as [[lo cl] [H0 H1]]. cbn [fst snd] in H1. injection H1 as <- _.
  destruct (ch_cfg c Fcolor) as [x|] eqn:EC.
  - injection H0 as <- _. eexists. exists (Some ""). split; [reflexivity|]. intros f. rewrite <- (resolve_cfg c num ov "" f). rewrite EC. reflexivity.
  - destruct colors as [|[x|] colors]; try discriminate. cbn [rbind] in H0. injection H0 as <- _. eexists. exists (Some x). split; [reflexivity|]. intros f. rewrite <- (resolve_cfg c num ov x f). rewrite EC. reflexivity.
Qed.
Lemma combine_get {A B} (R : A -> B -> Prop) : forall (keys : list string) cs cs' n c, Forall2 R cs cs' -> dget n (combine keys cs) = Some c -> exists c', dget n (combine keys cs') = Some c' /\ R c c'.
Proof.
  intros keys cs cs' n c F. revert keys. induction F as [|x y cs cs' H F IH]; intros [|k keys] E; cbn in E; try discriminate. cbn. destruct (String.eqb n k); [injection E as <-; eauto|]. apply IH. exact E.
Qed.
Lemma requested_names w names : requested w (ReqList (map ByName names)) = map Some names.
Proof. unfold requested. rewrite map_map. reflexivity. Qed.

(** What a chain looks like in this session. *)
Definition final_of (w : world) (n : string) (cf : chain * frame) : Prop :=
  exists c f, stored w n c f /\ snd cf = f /\ resolves (k_override (snd w)) (num_contour_chains (fst w) (k_chains (snd w))) c (fst cf).
Definition only (all : bool) (cf : chain * frame) : list (chain * frame) := if all || negb (skip (fst cf) (snd cf)) then [cf] else [].
Lemma contents_parts w all names final : world_ok w -> contents w (ReqList (map ByName names)) all = Ok final ->
  exists cfs, Forall2 (final_of w) names cfs /\ final = flat_map (only all) cfs /\ forall n cf, In (n, cf) (combine names cfs) -> contents w (ReqList [ByName n]) all = Ok (only all cf).
Proof.
  intros W H. destruct (registered w W) as [cs F]. rewrite (contents_spec w _ all names cs W F (requested_names w names)) in H. unfold contents_of in H. apply rbind_ok in H as [cs' [EA H]]. apply rbind_ok in H as [l [EN H]]. injection H as <-.
  pose proof (all_resolved_each _ _ _ _ _ EA) as R. rewrite <- (num_contours _ _ _ F) in R. apply rmapM_Forall2 in EN.
  exists (map (fun c => (c, frame_at (fst w) (ch_samples c))) l). split; [|split].
  - clear -EN R F W. induction EN as [|n c names l H EN IH]; [constructor|]. constructor; [|exact IH]. cbn beta in H. destruct (dget n (combine (get_names w) cs')) as [c'|] eqn:ED; [|discriminate]. injection H as ->.
    pose proof (dget_combine (fst w) (k_chains (snd w)) cs n F) as D.
    destruct (dget n (k_chains (snd w))) as [loc|] eqn:EL.
    + destruct D as [c0 [D1 D2]]. destruct (combine_get _ _ _ _ _ _ R D2) as [c1 [E1 RR]]. unfold get_names in ED. rewrite ED in E1. injection E1 as <-. exists c0, (frame_at (fst w) (ch_samples c0)). split; [exists loc; split; [apply dget_In; exact EL|auto]|].
      split; [|exact RR]. destruct RR as [cfg' [pal [-> _]]]. reflexivity.
    + exfalso. assert (NK : forall (keys : list string) (a : list chain) (b : list chain), length a = length b -> dget n (combine keys a) = None -> dget n (combine keys b) = None).
      { clear. induction keys as [|k keys IH]; intros [|x a] [|y b] L E; cbn in *; try reflexivity; try discriminate. destruct (String.eqb n k); [discriminate|]. apply (IH a b); [injection L; auto|exact E]. }
      unfold get_names in ED. rewrite (NK _ cs cs' (F2_len' _ _ _ R) D) in ED. discriminate.
  - clear. induction l as [|c l IH]; [reflexivity|]. cbn [map flat_map filter]. unfold only at 1. cbn [fst snd]. destruct (all || _); [cbn [map app]; f_equal; exact IH|exact IH].
  - intros n cf HI. change [ByName n] with (map ByName [n]). rewrite (contents_spec w _ all [n] cs W F (requested_names w [n])). unfold contents_of. rewrite EA. cbn [rbind rmapM].
    clear -EN HI. induction EN as [|m c names l H EN IH]; [destruct HI|]. cbn [map combine] in HI. destruct HI as [HI|HI]; [|exact (IH HI)]. injection HI as -> <-. cbn beta in H. rewrite H. cbn [rbind filter]. unfold only. cbn [fst snd]. destruct (all || _); reflexivity.
Qed.
Lemma contents_all w all : world_ok w -> contents w ReqAll all = contents w (ReqList (map ByName (get_names w))) all.
Proof. intros W. destruct (registered w W) as [cs F]. rewrite (contents_spec w _ all (get_names w) cs W F (requested_names w _)), (contents_spec w ReqAll all (get_names w) cs W F eq_refl). reflexivity. Qed.

Lemma stored_fun w n c f c' f' : world_ok w -> stored w n c f -> stored w n c' f' -> c = c' /\ f = f'.
Proof.
  intros [ND _] [l [A1 [A2 A3]]] [l' [B1 [B2 B3]]]. assert (l = l').
  { clear -ND A1 B1. unfold dkeys in ND. induction (k_chains (snd w)) as [|[m k] d IH]; [destruct A1|]. cbn in ND. apply NoDup_cons_iff in ND as [N1 N2]. destruct A1 as [A1|A1], B1 as [B1|B1].
    - congruence.
    - injection A1 as -> ->. exfalso. apply N1. apply (in_map fst) in B1. exact B1.
    - injection B1 as -> ->. exfalso. apply N1. apply (in_map fst) in A1. exact A1.
    - apply IH; assumption. }
  subst l'. assert (c = c') by congruence. subst. auto.
Qed.
(** The company does not matter. *)
Lemma final_bare w w' n c f cf cf' : world_ok w -> world_ok w' -> shared_chain w w' n c f -> final_of w n cf -> final_of w' n cf' -> bare (fst cf') = bare (fst cf) /\ snd cf' = snd cf /\ snd cf = f.
Proof.
  intros W W' [S1 [[c' [S2 T]] O]] [c1 [f1 [S3 [<- [cfg1 [pal1 [E1 R1]]]]]]] [c2 [f2 [S4 [<- [cfg2 [pal2 [E2 R2]]]]]]]. destruct (stored_fun _ _ _ _ _ _ W S1 S3) as [<- <-]. destruct (stored_fun _ _ _ _ _ _ W' S2 S4) as [<- E].
  destruct cf as [k1 g1], cf' as [k2 g2]. cbn [fst snd] in *. subst g2 k1 k2. split; [|split; reflexivity]. rewrite (twins_eq _ _ T) in *. unfold bare, with_cfg, with_samples. cbn. f_equal. extensionality g.
  destruct g; cbn [neutral]; try reflexivity; rewrite R1, R2, O; unfold resolved; destruct (k_override (snd w)); reflexivity.
Qed.
Lemma final_settled w w' n c f cf cf' : world_ok w -> world_ok w' -> shared_chain w w' n c f -> settled (k_override (snd w)) c -> final_of w n cf -> final_of w' n cf' -> with_samples (fst cf') 0 = with_samples (fst cf) 0.
Proof.
  intros W W' [S1 [[c' [S2 T]] O]] ST [c1 [f1 [S3 [<- [cfg1 [pal1 [E1 R1]]]]]]] [c2 [f2 [S4 [<- [cfg2 [pal2 [E2 R2]]]]]]]. destruct (stored_fun _ _ _ _ _ _ W S1 S3) as [<- E3]. destruct (stored_fun _ _ _ _ _ _ W' S2 S4) as [<- E4].
  destruct cf as [k1 g1], cf' as [k2 g2]. cbn [fst snd] in *. subst k1 k2. rewrite (twins_eq _ _ T) in *. unfold with_cfg, with_samples. cbn. f_equal. extensionality g. rewrite R1, R2, O. unfold resolved. cbn [ch_user ch_cfg with_samples].
  assert (D : In g [Fbar_shade; Fshade; Fshade_alpha; Fcolor] \/ automatic (num_contour_chains (fst w') (k_chains (snd w'))) pal2 (with_samples c (ch_samples c')) g = automatic (num_contour_chains (fst w) (k_chains (snd w))) pal1 c g).
  { destruct g; try (right; reflexivity); left; cbn; tauto. }
  destruct D as [D|D].
  - destruct (ST g D) as [U|[o [-> U]]]; [rewrite U; reflexivity|rewrite U; reflexivity].
  - rewrite D. reflexivity.
Qed.

(** ** What does not read the settings that depend on the company *)
Lemma summary_bare num c f p : column_summary num (bare c) f p = column_summary num c f p. Proof. reflexivity. Qed.
Lemma columns_bare c f : plotting_columns (bare c) f = plotting_columns c f. Proof. reflexivity. Qed.
Lemma skip_bare c f : skip (bare c) f = skip c f. Proof. reflexivity. Qed.

(** ** Summaries *)
Lemma summary_get num c f cols d : chain_summary num c f cols [] = Ok d -> forall p, In p cols -> is_column f p -> exists e, column_summary num c f p = Ok e /\ dget p d = Some e.
Proof.
  intros H p HI HC. destruct (chain_summary_ok _ _ _ _ _ H) as [[mine [K FS]] E]. cbn [fst snd] in *. assert (I1 : In p (dkeys d)) by (apply (first_seen_In _ _ FS), (kept_In _ _ _ K); auto).
  assert (X : exists e, dget p d = Some e). { clear -I1. unfold dkeys in I1. induction d as [|[k v] d IH]; [destruct I1|]. cbn. destruct (String.eqb_spec p k) as [->|N]; [eauto|]. apply IH. destruct I1 as [I1|I1]; [cbn in I1; congruence|exact I1]. }
  destruct X as [e X]. exists e. split; [|exact X]. apply column_summary_spec. exact (E p e X).
Qed.
Lemma flat_only cfs : flat_map (only true) cfs = cfs. Proof. induction cfs as [|x l IH]; [reflexivity|]. cbn. f_equal. exact IH. Qed.
Lemma final_name w n cf : world_ok w -> final_of w n cf -> ch_name (fst cf) = n.
Proof.
  intros [_ W] [c [f [[l [S1 [S2 S3]]] [_ [cfg' [pal [-> _]]]]]]]. destruct (W n l S1) as [c' [C1 C2]]. cbn. congruence.
Qed.
Lemma dget_combine_at {A} : forall (names : list string) (ds : list A) i n d, NoDup names -> nth_error names i = Some n -> nth_error ds i = Some d -> dget n (combine names ds) = Some d.
Proof.
  induction names as [|m names IH]; intros [|x ds] [|i] n d ND Hn Hd; cbn in *; try discriminate.
  - injection Hn as ->. injection Hd as ->. rewrite String.eqb_refl. reflexivity.
  - apply NoDup_cons_iff in ND as [N1 N2]. destruct (String.eqb_spec n m) as [->|_]; [exfalso; apply N1; eapply nth_error_In; exact Hn|]. eapply IH; eassumption.
Qed.
Lemma F2_at {A B} (R : A -> B -> Prop) : forall l l' i a b, Forall2 R l l' -> nth_error l i = Some a -> nth_error l' i = Some b -> R a b.
Proof. intros l l' i a b H. revert i. induction H as [|x y l l' H1 H2 IH]; intros [|i] E1 E2; try discriminate; [injection E1 as <-; injection E2 as <-; exact H1|exact (IH i E1 E2)]. Qed.
(** One chain in the summary of all. *)
Lemma summary_one num w columns d n c f : world_ok w -> snd (get_summary num w ReqAll columns) = Ok d -> stored w n c f ->
  exists cf e, final_of w n cf /\ snd cf = f /\ dget n d = Some e /\ (forall p, wanted columns (k_override (snd w)) c f p -> exists b, column_summary num (fst cf) f p = Ok b /\ dget p e = Some b).
Proof.
  intros W H S. rewrite (summary_all num w columns W), (contents_all w true W) in H. apply rbind_ok in H as [final [HC H]]. destruct (contents_parts w true _ final W HC) as [cfs [F [-> _]]]. rewrite flat_only in *.
  unfold summary_from in H. destruct (rmapM _ cfs) as [ds|x] eqn:E; cbn [rmap] in H; [|discriminate]. injection H as <-. apply rmapM_Forall2 in E.
  assert (NM : map name_of cfs = get_names w). { clear -F W. induction F as [|n cf names cfs H F IH]; [reflexivity|]. cbn. f_equal; [exact (final_name w n cf W H)|exact IH]. }
  assert (ND : NoDup (get_names w)) by exact (proj1 W).
  assert (L : length cfs = length ds) by (exact (F2_len' _ _ _ E)).
  rewrite NM. rewrite setall_nodup by (rewrite combine_fst; [exact ND|unfold get_names in *; rewrite <- NM, map_length; exact L]).
  destruct S as [l [S1 [S2 S3]]]. assert (I : In n (get_names w)) by (unfold get_names, dkeys; apply (in_map fst) in S1; exact S1). apply In_nth_error in I as [i Hi].
  destruct (nth_error cfs i) as [cf|] eqn:Ec; [|apply nth_error_None in Ec; rewrite <- (F2_len' _ _ _ F) in Ec; assert ((i < length (get_names w))%nat) by (apply nth_error_Some; congruence); lia].
  destruct (nth_error ds i) as [e|] eqn:Ed; [|apply nth_error_None in Ed; rewrite <- L in Ed; assert ((i < length cfs)%nat) by (apply nth_error_Some; congruence); lia].
  pose proof (F2_at _ _ _ _ _ _ F Hi Ec) as FO. pose proof (F2_at _ _ _ _ _ _ E Ec Ed) as CS. cbn beta in CS.
  assert (ES : snd cf = f /\ exists cfg' pal num', fst cf = with_cfg c cfg' /\ forall g, cfg' g = resolved (k_override (snd w)) num' pal c g).
  { destruct FO as [c1 [f1 [S4 [E2 [cfg' [pal [E3 R]]]]]]]. destruct (stored_fun w n c f c1 f1 W (ex_intro _ l (conj S1 (conj S2 S3))) S4) as [<- <-]. split; [exact E2|]. eauto. }
  destruct ES as [ES [cfg' [pal [num' [EC R]]]]]. exists cf, e. split; [exact FO|]. split; [exact ES|]. split; [eapply dget_combine_at; eassumption|].
  intros p [P1 P2]. rewrite <- ES. apply (summary_get _ _ _ _ _ CS); [|rewrite ES; exact P1]. destruct columns as [cols|]; [exact P2|]. pose proof (asked_columns None cfs) as A. cbn [asked] in A. apply (first_seen_In _ _ A). apply in_concat. exists (plotting_columns (fst cf) (snd cf)).
  split; [apply in_map_iff; exists cf; split; [reflexivity|eapply nth_error_In; exact Ec]|]. destruct P2 as [Q1 [Q2 [Q3 [Q4 Q5]]]]. rewrite ES, EC. assert (DC : In p (data_columns (with_cfg c cfg') f)) by (apply data_columns_spec; cbn; auto).
  unfold plotting_columns. destruct (ch_cfg (with_cfg c cfg') Fplot_cloud); cbn [negb]; [|exact DC]. apply filter_In. split; [exact DC|]. cbn [with_cfg ch_cfg]. rewrite R. unfold resolved. cbn [automatic].
  assert (Z : forall x : option string, x <> Some p -> negb match x with Some q => String.eqb p q | None => false end = true) by (intros [q|] N; [destruct (String.eqb_spec p q); [congruence|reflexivity]|reflexivity]).
  destruct (k_override (snd w)) as [o|]; [destruct (o_user o Fcolor_param); [apply Z, (Q5 o eq_refl)|]|]; destruct (ch_user c Fcolor_param); apply Z; exact Q4.
Qed.

(** ** Panels *)
Lemma panel_surfaces k s req cols file size s' fig cfg : plot k s req (Some cols) file size = (s', Ok fig) -> config_of s cfg ->
  exists final, contents (s_world s) req false = Ok final /\
    forall i j px py calls, panel_at cfg cols i j px py -> (j <= i)%nat -> ~ diagonal cfg i j -> axis fig i j calls ->
      exists bars, plot_surface (bk_num k) (bk_kde2 k) (bk_argsort k) (bk_Phi k) (p_sigma2d cfg) final px py = Ok (surfaces calls, bars).
Proof.
  intros H HC. unfold plot in H. assert (E : snd (with_base (bk_num k) s req (Some cols) true (fun cfg truths b => plot_figure (bk_num k) (bk_kde2 k) (bk_argsort k) (bk_Phi k) (bk_filled k) (bk_offset k) cfg truths b size file)) = Ok fig) by (rewrite H; reflexivity).
  rewrite with_base_contents in E. apply rbind_ok in E as [final [EC E]]. cbv zeta in E. apply rbind_ok in E as [ext [_ E]]. exists final. split; [exact EC|].
  assert (G : config_in_use (s_plotter s) = cfg) by (unfold config_of, given in HC; unfold config_in_use; destruct (pl_config (s_plotter s)); cbn; congruence). rewrite G in E. cbn [sanitise_columns] in E.
  destruct (plot_figure_ok _ _ _ _ _ _ _ _ _ _ _ _ E) as [_ [_ A]]. cbn [pb_columns] in A. intros i j px py calls HP HJ HD HA. destruct (panel_params _ _ _ _ _ _ HP HJ) as [E1 E2]. destruct (A i j py px calls E1 E2 HA) as [fc [[pc paths] [K1 [K2 ->]]]].
  destruct (surface_panel _ _ _ _ _ _ _ _ _ _ _ _ _ _ K2 HJ HD) as [ds [-> HS]]. cbn [pb_chains] in HS. exists paths. destruct (panel_frame _ _ _ _ _ _ _ _ K1 HJ) as [r [yr [_ [_ [_ [_ [_ [_ [_ [_ SS]]]]]]]]]].
  destruct (plot_truths_ok (bk_filled k) (s_truths s) (Some px) (Some py)) as [l [_ [_ L3]]]. cbn [fst]. rewrite relabel_surfaces, !surfaces_app, SS, surfaces_map, (is_mark_no_surface _ L3), app_nil_r. exact HS.
Qed.
Section surface.
Variables (num : numerics) (kde2 : list Q -> list Q -> list Q -> Q -> Q * Q -> Q) (argsort : list Q -> list nat) (Phi : R -> R) (s2 : bool) (px py : string).
Notation surface := (fun chains => plot_surface num kde2 argsort Phi s2 chains px py).
Lemma surface_app a b ds bars : surface (a ++ b) = Ok (ds, bars) -> exists d1 b1 d2 b2, surface a = Ok (d1, b1) /\ surface b = Ok (d2, b2) /\ ds = d1 ++ d2.
Proof.
  revert ds bars. induction a as [|[c f] a IH]; intros ds bars H; [exists [], [], ds, bars; auto|]. cbn [app plot_surface] in H. apply rbind_ok in H as [one [E1 H]]. apply rbind_ok in H as [[ds' bars'] [E2 H]]. injection H as <- <-. cbn [fst snd].
  destruct (IH _ _ E2) as [d1 [b1 [d2 [b2 [I1 [I2 ->]]]]]]. exists (fst one ++ d1), (dmerge (snd one) b1), d2, b2. cbn [plot_surface]. rewrite E1. cbn [rbind]. rewrite I1. cbn [rbind fst snd]. rewrite app_assoc. auto.
Qed.
Lemma surface_concat : forall (parts : list (list (chain * frame))) ds bars, surface (concat parts) = Ok (ds, bars) -> exists dss, Forall2 (fun p d => exists b, surface p = Ok (d, b)) parts dss /\ ds = concat dss.
Proof.
  induction parts as [|p parts IH]; intros ds bars H; [injection H as <- <-; exists []; split; [constructor|reflexivity]|]. cbn [concat] in H. destruct (surface_app _ _ _ _ H) as [d1 [b1 [d2 [b2 [E1 [E2 ->]]]]]].
  destruct (IH _ _ E2) as [dss [F ->]]. exists (d1 :: dss). split; [constructor; [eauto|exact F]|reflexivity].
Qed.
Lemma surface_samples c f l : plot_surface num kde2 argsort Phi s2 [(with_samples c l, f)] px py = plot_surface num kde2 argsort Phi s2 [(c, f)] px py.
Proof. reflexivity. Qed.

Definition settings_agree (c c' : chain) : Prop := bare c' = bare c.
Lemma agree_cfg c c' : settings_agree c c' -> forall f, neutral (ch_cfg c') f = neutral (ch_cfg c) f.
Proof. intros H f. unfold settings_agree in H. apply (f_equal (fun x => ch_cfg x f)) in H. exact H. Qed.
Lemma cloud_plain c c' f h h' : settings_agree c c' -> plot_cloud c f px py = Ok h -> plot_cloud c' f px py = Ok h' -> plain (fst h') = plain (fst h).
Proof.
  intros A H H'. pose proof (agree_cfg _ _ A) as G. unfold plot_cloud in *. apply rbind_ok in H as [x [X H]]. apply rbind_ok in H as [y [Y H]]. apply rbind_ok in H as [sk [K H]]. apply rbind_ok in H as [cd [D H]]. apply rbind_ok in H as [col [C H]]. injection H as <-.
  apply rbind_ok in H' as [x' [X' H']]. apply rbind_ok in H' as [y' [Y' H']]. apply rbind_ok in H' as [sk' [K' H']]. apply rbind_ok in H' as [cd' [D' H']]. apply rbind_ok in H' as [col' [C' H']]. injection H' as <-. cbn [fst].
  rewrite X in X'. rewrite Y in Y'. injection X' as <-. injection Y' as <-. pose proof (G Fnum_cloud) as G1. pose proof (G Fcolor_param) as G2. pose proof (G Fcmap) as G3. pose proof (G Fzorder) as G4. cbn [neutral] in *. rewrite G1, K in K'. injection K' as <-. unfold color_data in *. rewrite G2, D in D'. injection D' as <-.
  rewrite G4. destruct cd as [v|].
  - injection C as <-. injection C' as <-. rewrite G3. reflexivity.
  - destruct (chain_colour c) as [q|], (chain_colour c') as [q'|]; try discriminate. injection C as <-. injection C' as <-. reflexivity.
Qed.
Lemma contour_plain c c' f h h' : settings_agree c c' -> plot_contour num kde2 argsort Phi s2 c f px py = Ok h -> plot_contour num kde2 argsort Phi s2 c' f px py = Ok h' -> flat_map plain h' = flat_map plain h.
Proof.
  intros A H H'. pose proof (agree_cfg _ _ A) as G. unfold plot_contour in *. cbv zeta in *. apply rbind_ok in H as [x [_ H]]. apply rbind_ok in H as [y [_ H]]. apply rbind_ok in H as [[[hi xc] yc] [K H]]. cbv beta iota zeta in H. apply rbind_ok in H as [vals [D H]]. apply rbind_ok in H as [t1 [_ H]]. apply rbind_ok in H as [t2 [_ H]]. injection H as <-.
  apply rbind_ok in H' as [x' [_ H']]. apply rbind_ok in H' as [y' [_ H']]. apply rbind_ok in H' as [[[hi' xc'] yc'] [K' H']]. cbv beta iota zeta in H'. apply rbind_ok in H' as [vals' [D' H']]. apply rbind_ok in H' as [t1' [_ H']]. apply rbind_ok in H' as [t2' [_ H']]. injection H' as <-.
  assert (KK : get_smoothed_histogram2d num kde2 c' f px py = get_smoothed_histogram2d num kde2 c f px py).
  { transitivity (get_smoothed_histogram2d num kde2 (bare c') f px py); [reflexivity|]. rewrite A. reflexivity. }
  rewrite KK, K in K'. injection K' as <- <- <-. rewrite D in D'. injection D' as <-. pose proof (G Fsigmas) as G1. pose proof (G Flinestyle) as G2. pose proof (G Flinewidth) as G3. pose proof (G Fzorder) as G4. pose proof (G Fshow_contour_labels) as G5. cbn [neutral] in *. rewrite G1, G2, G3, G4, G5.
  rewrite !flat_map_app. destruct (_ && alpha_positive (ch_cfg c' Fshade_alpha)), (_ && alpha_positive (ch_cfg c Fshade_alpha)); reflexivity.
Qed.
Lemma point_plain c c' f h h' : settings_agree c c' -> plot_point c f px py = Ok h -> plot_point c' f px py = Ok h' -> flat_map plain h' = flat_map plain h.
Proof.
  intros A H H'. pose proof (agree_cfg _ _ A) as G. unfold plot_point in *. assert (KK : get_max_posterior_point c' f = get_max_posterior_point c f).
  { transitivity (get_max_posterior_point (bare c') f); [reflexivity|]. rewrite A. reflexivity. }
  rewrite KK in H'. apply rbind_ok in H as [p [P H]]. apply rbind_ok in H' as [p' [P' H']]. rewrite P in P'. injection P' as <-. destruct p as [[lp co]|]; [|injection H as <-; injection H' as <-; reflexivity].
  destruct (dget px co) as [x|]; [|injection H as <-; injection H' as <-; reflexivity]. destruct (dget py co) as [y|]; [|injection H as <-; injection H' as <-; reflexivity].
  apply rbind_ok in H as [u [_ H]]. apply rbind_ok in H as [u1 [_ H]]. destruct (opacity_ok _ _) in H; [|discriminate]. injection H as <-. apply rbind_ok in H' as [u' [_ H']]. apply rbind_ok in H' as [u1' [_ H']]. destruct (opacity_ok _ _) in H'; [|discriminate]. injection H' as <-.
  pose proof (G Fmarker_alpha) as G1. pose proof (G Fmarker_size) as G2. pose proof (G Fmarker_style) as G3. pose proof (G Fzorder) as G4. cbn [neutral] in *. rewrite G1, G2, G3, G4. reflexivity.
Qed.
Lemma one_plain c c' f ds bars ds' bars' : settings_agree c c' -> surface_one num kde2 argsort Phi s2 c f px py = Ok (ds, bars) -> surface_one num kde2 argsort Phi s2 c' f px py = Ok (ds', bars') -> flat_map plain ds' = flat_map plain ds.
Proof.
  intros A H H'. pose proof (agree_cfg _ _ A) as G. unfold surface_one in *. assert (KK : plotting_columns c' f = plotting_columns c f) by (transitivity (plotting_columns (bare c') f); [reflexivity|rewrite A; reflexivity]). rewrite KK in H'.
  destruct (negb _ || negb _); [injection H as <- _; injection H' as <- _; reflexivity|]. pose proof (G Fplot_cloud) as G1. pose proof (G Fplot_contour) as G2. pose proof (G Fplot_point) as G3. cbn [neutral] in *. rewrite G1, G2, G3 in H'.
  apply rbind_ok in H as [cl [C H]]. apply rbind_ok in H as [co [O H]]. apply rbind_ok in H as [po [P H]]. injection H as <- _. apply rbind_ok in H' as [cl' [C' H']]. apply rbind_ok in H' as [co' [O' H']]. apply rbind_ok in H' as [po' [P' H']]. injection H' as <- _.
  rewrite !flat_map_app. f_equal; [|f_equal].
  - destruct (ch_cfg c Fplot_cloud); [|injection C as <-; injection C' as <-; reflexivity]. destruct (plot_cloud c f px py) as [h|] eqn:E; [|discriminate]. destruct (plot_cloud c' f px py) as [h'|] eqn:E'; [|discriminate]. injection C as <-. injection C' as <-. cbn. rewrite !app_nil_r. eapply cloud_plain; eassumption.
  - destruct (ch_cfg c Fplot_contour); [|injection O as <-; injection O' as <-; reflexivity]. eapply contour_plain; eassumption.
  - destruct (ch_cfg c Fplot_point); [|injection P as <-; injection P' as <-; reflexivity]. eapply point_plain; eassumption.
Qed.
End surface.

(** ** Putting it together *)
Lemma stored_get w n c f : world_ok w -> stored w n c f -> exists l, dget n (k_chains (snd w)) = Some l /\ chain_at (fst w) l = Some c /\ frame_at (fst w) (ch_samples c) = f.
Proof. intros [ND _] [l [S1 [S2 S3]]]. exists l. split; [|auto]. apply dget_nodup; assumption. Qed.
Lemma contents_one w n final : world_ok w -> contents w (ReqList [ByName n]) false = Ok final -> exists cf, final_of w n cf /\ final = only false cf.
Proof.
  intros W H. change [ByName n] with (map ByName [n]) in H. destruct (contents_parts w false [n] final W H) as [cfs [F [E _]]]. inversion F as [|? cf ? l FO F2]; subst. inversion F2; subst. exists cf. split; [exact FO|]. cbn. apply app_nil_r.
Qed.
Lemma only_bare cf cf' : bare (fst cf') = bare (fst cf) -> snd cf' = snd cf -> (only false cf = [] /\ only false cf' = []) \/ (only false cf = [cf] /\ only false cf' = [cf']).
Proof. intros B E. unfold only. cbn [orb]. rewrite <- (skip_bare (fst cf')), B, skip_bare, E. destruct (skip _ _); [left|right]; split; reflexivity. Qed.
