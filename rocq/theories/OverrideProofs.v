(** Lemmas: an override, and the same settings given to every chain. *)
From Coq Require Import String List Bool Arith ZArith QArith Reals Lia FunctionalExtensionality.
From Verif Require Import Py NumModel ColorModel FrameModel ConfigModel ChainModel RegistryModel RegistrySpec HeapFacts RegistryProofs RegistryProps ChainSpec ChainUseProofs CovModel TextModel AnalysisModel AnalysisSpec AnalysisProofs DiagModel DiagProofs SurfaceProofs SurfaceModel FigureModel FigureSpec FigureProofs ConsumerSpec ConsumerProofs QueryProofs OverrideSpec.
Import ListNotations.
Open Scope string_scope.
Open Scope list_scope.

(** ** What figures see of a chain: everything but which settings were given and where the samples are *)
Definition blank (c : chain) : chain :=
  {| ch_cfg := ch_cfg c; ch_user := fun _ => false; ch_samples := 0; ch_name := ch_name c; ch_weight := ch_weight c; ch_post := ch_post c; ch_walkers := ch_walkers c; ch_grid := ch_grid c;
     ch_nfree := ch_nfree c; ch_ndata := ch_ndata c; ch_power := ch_power c; ch_showlabel := ch_showlabel c; ch_relheight := ch_relheight c |}.
Definition bl (cf : chain * frame) : chain * frame := (blank (fst cf), snd cf).

Lemma rmapM_map {A B C} (g : B -> res C) (h : A -> B) : forall l, rmapM g (map h l) = rmapM (fun x => g (h x)) l.
Proof. induction l as [|x l IH]; [reflexivity|]. cbn [map rmapM]. rewrite IH. reflexivity. Qed.
Lemma rmapM_ext {A B} (g h : A -> res B) : (forall x, g x = h x) -> forall l, rmapM g l = rmapM h l.
Proof. intros E. induction l as [|x l IH]; [reflexivity|]. cbn [rmapM]. rewrite E, IH. reflexivity. Qed.
Lemma filter_bl (p : chain * frame -> bool) : (forall cf, p (bl cf) = p cf) -> forall l, filter p (map bl l) = map bl (filter p l).
Proof. intros E. induction l as [|x l IH]; [reflexivity|]. cbn [map filter]. rewrite E, IH. destruct (p x); reflexivity. Qed.
Lemma existsb_bl (p : chain * frame -> bool) : (forall cf, p (bl cf) = p cf) -> forall l, existsb p (map bl l) = existsb p l.
Proof. intros E. induction l as [|x l IH]; [reflexivity|]. cbn [map existsb]. rewrite E, IH. reflexivity. Qed.
Lemma rmapM_bl {B} (g : chain * frame -> res B) : (forall cf, g (bl cf) = g cf) -> forall l, rmapM g (map bl l) = rmapM g l.
Proof. intros E l. rewrite rmapM_map. apply rmapM_ext. exact E. Qed.

Section blanks.
Variable num : numerics.
Lemma extents_bl wide column : forall l acc, get_parameter_extents num wide column (map bl l) acc = get_parameter_extents num wide column l acc.
Proof.
  induction l as [|cf l IH]; intros acc; [reflexivity|]. cbn [map get_parameter_extents]. replace (chain_extent num wide column (bl cf)) with (chain_extent num wide column cf) by (destruct cf; reflexivity).
  destruct (chain_extent num wide column cf); [apply IH|reflexivity].
Qed.
Lemma custom_bl wide initial l : forall cols acc, custom_extents_loop num wide initial (map bl l) cols acc = custom_extents_loop num wide initial l cols acc.
Proof.
  induction cols as [|p cols IH]; intros acc; [reflexivity|]. cbn [custom_extents_loop]. rewrite extents_bl. destruct (dmem p initial); [apply IH|]. destruct (get_parameter_extents num wide p l None); [apply IH|reflexivity].
Qed.
Lemma columns_bl cols l : sanitise_columns cols (map bl l) = sanitise_columns cols l.
Proof. destruct cols; [reflexivity|]. cbn [sanitise_columns]. generalize (@nil string). induction l as [|cf l IH]; intros acc; [reflexivity|]. cbn [map fold_left]. apply IH. Qed.
Definition blank_base (b : plot_base) : plot_base := {| pb_chains := map bl (pb_chains b); pb_columns := pb_columns b; pb_extents := pb_extents b; pb_blind := pb_blind b; pb_logs := pb_logs b |}.
Lemma bars_bl cfg p flip summary l : bars_panel num cfg p flip summary (map bl l) = bars_panel num cfg p flip summary l.
Proof. unfold bars_panel. rewrite rmapM_bl; [reflexivity|]. intros [c f]. reflexivity. Qed.
Lemma shown_bl l : filter ch_showlabel (map fst (map bl l)) = map blank (filter ch_showlabel (map fst l)).
Proof. induction l as [|[c f] l IH]; [reflexivity|]. cbn [map filter fst bl]. change (ch_showlabel (blank c)) with (ch_showlabel c). rewrite IH. destruct (ch_showlabel c); reflexivity. Qed.
Lemma legend_bl cfg b : make_legend cfg (blank_base b) = make_legend cfg b.
Proof.
  unfold make_legend. cbv zeta. change (pb_columns (blank_base b)) with (pb_columns b). change (flipped cfg (blank_base b)) with (flipped cfg b). change (pb_chains (blank_base b)) with (map bl (pb_chains b)). rewrite shown_bl.
  set (l := filter ch_showlabel (map fst (pb_chains b))).
  replace (get_artists_from_chains (map blank l)) with (get_artists_from_chains l).
  - replace (rmapM chain_colour (map blank l)) with (rmapM chain_colour l); [reflexivity|]. rewrite rmapM_map. apply rmapM_ext. reflexivity.
  - unfold get_artists_from_chains. clear. induction l as [|c l IH]; [reflexivity|]. cbn [map filter]. change (ch_showlabel (blank c)) with (ch_showlabel c). destruct (ch_showlabel c); [|exact IH]. cbn [rmapM]. rewrite IH. reflexivity.
Qed.

Variable kde2 : list Q -> list Q -> list Q -> Q -> Q * Q -> Q.
Variable argsort : list Q -> list nat.
Variable Phi : R -> R.
Variable filled : string -> bool.
Variable offset : dir -> nat -> nat -> string.
Lemma surface_bl s2 px py : forall l, plot_surface num kde2 argsort Phi s2 (map bl l) px py = plot_surface num kde2 argsort Phi s2 l px py.
Proof. induction l as [|[c f] l IH]; [reflexivity|]. cbn [map plot_surface bl fst snd]. rewrite IH. reflexivity. Qed.
Lemma panel_bl cfg ts b i j p1 p2 : plot_panel num kde2 argsort Phi filled cfg ts (blank_base b) i j p1 p2 = plot_panel num kde2 argsort Phi filled cfg ts b i j p1 p2.
Proof.
  unfold plot_panel. cbv zeta. change (pb_columns (blank_base b)) with (pb_columns b). change (flipped cfg (blank_base b)) with (flipped cfg b). change (pb_chains (blank_base b)) with (map bl (pb_chains b)). change (pb_blind (blank_base b)) with (pb_blind b).
  rewrite !filter_bl by (intros [c f]; reflexivity). rewrite map_length, bars_bl, surface_bl. reflexivity.
Qed.
Lemma grid_ext {A} rows cols (f g : nat -> nat -> string -> string -> res A) : (forall i j p q, f i j p q = g i j p q) -> grid_of rows cols f = grid_of rows cols g.
Proof. intros E. unfold grid_of. apply rmapM_ext. intros ip. apply rmapM_ext. intros jp. apply E. Qed.
Lemma plot_bl cfg ts b size file : plot_figure num kde2 argsort Phi filled offset cfg ts (blank_base b) size file = plot_figure num kde2 argsort Phi filled offset cfg ts b size file.
Proof.
  unfold plot_figure. cbv zeta. change (pb_columns (blank_base b)) with (pb_columns b). change (flipped cfg (blank_base b)) with (flipped cfg b).
  rewrite legend_bl. rewrite (grid_ext _ _ _ _ (panel_bl cfg ts b)). change (pb_chains (blank_base b)) with (map bl (pb_chains b)). rewrite map_length, existsb_bl by (intros [c f]; reflexivity). reflexivity.
Qed.

Variable log10 : Q -> Q.
Variable max_points : nat.
Lemma walk_rows_bl (g : chain * frame -> res (list call)) l : (forall cf, g (bl cf) = g cf) -> walk_rows g (map bl l) = walk_rows g l.
Proof. intros E. unfold walk_rows. rewrite rmapM_bl by exact E. reflexivity. Qed.
Lemma walks_bl cfg ts b size cv w p lw file : walks_figure log10 max_points cfg ts (blank_base b) size cv w p lw file = walks_figure log10 max_points cfg ts b size cv w p lw file.
Proof.
  unfold walks_figure. cbv zeta. change (pb_columns (blank_base b)) with (pb_columns b).
  assert (E : forall q, column_row max_points cfg ts (blank_base b) cv q = column_row max_points cfg ts b cv q).
  { intros q. unfold column_row. change (pb_chains (blank_base b)) with (map bl (pb_chains b)). rewrite walk_rows_bl by (intros [c f]; reflexivity). reflexivity. }
  rewrite (rmapM_ext _ _ (fun q => f_equal (rmap (fun r => [r])) (E q))). change (pb_chains (blank_base b)) with (map bl (pb_chains b)).
  unfold posterior_row, weight_row. rewrite existsb_bl by (intros [c f]; reflexivity). rewrite !walk_rows_bl by (intros [c f]; reflexivity). reflexivity.
Qed.
Lemma dist_bl cfg ts b wrap size file : distributions_figure num filled cfg ts (blank_base b) wrap size file = distributions_figure num filled cfg ts b wrap size file.
Proof.
  unfold distributions_figure. cbv zeta. change (pb_columns (blank_base b)) with (pb_columns b). change (pb_chains (blank_base b)) with (map bl (pb_chains b)). rewrite map_length.
  assert (E : forall s q, distribution_panel num filled cfg ts (blank_base b) s q = distribution_panel num filled cfg ts b s q).
  { intros s q. unfold distribution_panel. cbv zeta. change (pb_chains (blank_base b)) with (map bl (pb_chains b)). rewrite extents_bl, filter_bl by (intros [c f]; reflexivity). rewrite bars_bl. reflexivity. }
  rewrite (rmapM_ext _ _ (E _)). reflexivity.
Qed.

Variable text_width : string -> Q.
Lemma combine_bl : forall (l : list (chain * frame)) k, combine (seq k (length l)) (map bl l) = map (fun icf => (fst icf, bl (snd icf))) (combine (seq k (length l)) l).
Proof. induction l as [|cf l IH]; intros k; [reflexivity|]. cbn [length seq map combine fst snd]. rewrite IH. reflexivity. Qed.
Lemma summary_bl cfg ts b size eb sp vr file : summary_figure num text_width cfg ts (blank_base b) size eb sp vr file = summary_figure num text_width cfg ts b size eb sp vr file.
Proof.
  unfold summary_figure. cbv zeta. change (pb_columns (blank_base b)) with (pb_columns b). change (pb_chains (blank_base b)) with (map bl (pb_chains b)). rewrite map_length, map_map, combine_bl, rmapM_map.
  assert (E : forall icf, summary_row num cfg ts (blank_base b) eb (fst icf, bl (snd icf)) = summary_row num cfg ts b eb icf).
  { intros [i [c f]]. unfold summary_row. cbn [fst snd bl].
    change (chain_colour (blank c)) with (chain_colour c). destruct (chain_colour c) as [colour|e]; [|reflexivity]. cbn [rbind].
    rewrite (rmapM_ext (summary_panel num cfg ts (blank_base b) eb i (blank c, f) colour) (summary_panel num cfg ts b eb i (c, f) colour)); [reflexivity|].
    intros p. unfold summary_panel. cbv zeta. change (pb_chains (blank_base b)) with (map bl (pb_chains b)). rewrite map_length. reflexivity. }
  rewrite (rmapM_ext _ _ E). reflexivity.
Qed.
End blanks.

(** ** The final chains *)
Definition alike (fr fr' : nat -> frame) (c c' : chain) : Prop := blank c' = blank c /\ fr' (ch_samples c') = fr (ch_samples c).
Definition pair_ok (o : config_obj) (fr fr' : nat -> frame) (c c' : chain) : Prop := fr' (ch_samples c') = fr (ch_samples c) /\ carries o c c'.
Lemma ok_pair {A B} (a a' : A) (b b' : B) : Ok (a, b) = Ok (a', b') -> a = a' /\ b = b'. Proof. intros H. split; congruence. Qed.
Lemma one_carries o num fr fr' colors colors' c c' d rest : leaves_contours o -> (o_user o Fcolor = true -> o_cfg o Fcolor <> None) -> (o_user o Fcolor = false -> colors' = colors) ->
  pair_ok o fr fr' c c' -> one_resolved num (Some o) colors c = Ok (d, rest) -> exists d' rest', one_resolved num None colors' c' = Ok (d', rest') /\ alike fr fr' d d' /\ (o_user o Fcolor = false -> rest' = rest).
Proof.
  intros [LC LL] HC HS [FR CA] H. unfold one_resolved in *. cbv zeta in H. cbv zeta.
  assert (EL : ch_cfg c' Fshow_contour_labels = ch_cfg c Fshow_contour_labels) by (apply (ca_other _ _ _ CA); exact LL).
  assert (K : forall lo lo' pal, lo = match ch_cfg c Fcolor with Some _ => global_config num (if ch_cfg c Fshow_contour_labels then AHalf (AInvSqrt num) else AInvSqrt num) | None => global_config num (if ch_cfg c Fshow_contour_labels then AHalf (AInvSqrt num) else AInvSqrt num) ++ [mk Fcolor (Some pal)] end ->
    lo' = match ch_cfg c' Fcolor with Some _ => global_config num (if ch_cfg c' Fshow_contour_labels then AHalf (AInvSqrt num) else AInvSqrt num) | None => global_config num (if ch_cfg c' Fshow_contour_labels then AHalf (AInvSqrt num) else AInvSqrt num) ++ [mk Fcolor (Some pal)] end ->
    alike fr fr' (with_cfg c (apply_settings (user_specified_dump o) (apply_if_not_user_set (ch_user c) lo (ch_cfg c)))) (with_cfg c' (apply_if_not_user_set (ch_user c') lo' (ch_cfg c')))).
  { intros lo lo' pal -> ->. split; [|exact FR]. pose proof (resolve_cfg c num (Some o) pal) as R1. pose proof (resolve_cfg c' num None pal) as R2. cbv zeta in R1, R2.
    destruct CA as [C1 C2 H3 H4 H5 H6 H7 H8 H9 H10 H11 H12]. unfold blank. cbn [with_cfg ch_cfg ch_name ch_weight ch_post ch_walkers ch_grid ch_nfree ch_ndata ch_power ch_showlabel ch_relheight]. rewrite H3, H4, H5, H6, H7, H8, H9, H10, H11, H12. f_equal.
    extensionality f. rewrite R1, R2. unfold resolved. destruct (o_user o f) eqn:OU.
    - destruct (C1 f OU) as [E1 E2]. rewrite E2. exact E1.
    - destruct (C2 f OU) as [E1 E2]. rewrite E2, E1. destruct (ch_user c f); [reflexivity|]. destruct f; cbn [automatic]; try (exact E1); try reflexivity; [rewrite E1; reflexivity|rewrite EL; reflexivity]. }
  destruct (o_user o Fcolor) eqn:OC.
  - destruct (ca_given _ _ _ CA Fcolor OC) as [E1 E2]. specialize (HC eq_refl). destruct (o_cfg o Fcolor) as [x|] eqn:EO; [|congruence]. rewrite E1. cbn [rbind fst snd]. do 2 eexists. split; [reflexivity|]. split; [|discriminate].
    destruct (ch_cfg c Fcolor) as [y|] eqn:EC.
    + cbn [rbind fst snd] in H. apply ok_pair in H as [<- _]. apply (K _ _ ""); [reflexivity|rewrite E1; reflexivity].
    + destruct colors as [|[y|] colors]; try discriminate. cbn [rbind fst snd] in H. apply ok_pair in H as [<- _]. apply (K _ _ y); [reflexivity|rewrite E1; reflexivity].
  - rewrite (HS eq_refl) in *. destruct (ca_other _ _ _ CA Fcolor OC) as [E1 E2]. rewrite E1. destruct (ch_cfg c Fcolor) as [y|] eqn:EC.
    + cbn [rbind fst snd] in *. apply ok_pair in H as [<- <-]. do 2 eexists. split; [reflexivity|]. split; [|reflexivity]. apply (K _ _ ""); [reflexivity|rewrite E1; reflexivity].
    + destruct colors as [|[y|] colors0]; try discriminate. cbn [rbind fst snd] in *. apply ok_pair in H as [<- <-]. do 2 eexists. split; [reflexivity|]. split; [|reflexivity]. apply (K _ _ y); [reflexivity|rewrite E1; reflexivity].
Qed.
Lemma all_carries o num fr fr' : leaves_contours o -> (o_user o Fcolor = true -> o_cfg o Fcolor <> None) -> forall cs cs' colors colors' ds, (o_user o Fcolor = false -> colors' = colors) -> Forall2 (pair_ok o fr fr') cs cs' ->
  all_resolved num (Some o) colors cs = Ok ds -> exists ds', all_resolved num None colors' cs' = Ok ds' /\ Forall2 (alike fr fr') ds ds'.
Proof.
  intros HL HC. induction cs as [|c cs IH]; intros cs' colors colors' ds HS F H; inversion F as [|? c' ? cs1 P F1]; subst.
  - injection H as <-. exists []. split; [reflexivity|constructor].
  - cbn [all_resolved] in H. apply rbind_ok in H as [[d rest] [H1 H]]. cbn [fst snd] in H. destruct (all_resolved num (Some o) rest cs) as [ds0|] eqn:E; [|discriminate]. cbn [rmap] in H. injection H as <-.
    destruct (one_carries _ _ _ _ _ colors' _ _ _ _ HL HC HS P H1) as [d' [rest' [E1 [A1 HS']]]]. destruct (IH cs1 rest rest' ds0 HS' F1 E) as [ds' [E2 A2]].
    exists (d' :: ds'). split; [|constructor; assumption]. cbn [all_resolved]. rewrite E1. cbn [rbind fst snd]. rewrite E2. reflexivity.
Qed.

Lemma rel_get {A} (R : A -> A -> Prop) : forall (keys : list string) ds ds' n, Forall2 R ds ds' ->
  match dget n (combine keys ds) with Some d => exists d', dget n (combine keys ds') = Some d' /\ R d d' | None => dget n (combine keys ds') = None end.
Proof.
  intros keys ds ds' n F. revert keys. induction F as [|x y ds ds' H F IH]; intros [|k keys]; cbn; try reflexivity. destruct (String.eqb n k); [eauto|]. apply IH.
Qed.
Lemma skip_alike fr fr' c c' : alike fr fr' c c' -> skip c' (fr' (ch_samples c')) = skip c (fr (ch_samples c)).
Proof. intros [B E]. rewrite E. change (skip c' (fr (ch_samples c))) with (skip (blank c') (fr (ch_samples c))). rewrite B. reflexivity. Qed.
Lemma contents_of_carries o fr fr' keys cs cs' names all final : leaves_contours o -> (o_user o Fcolor = true -> o_cfg o Fcolor <> None) -> Forall2 (pair_ok o fr fr') cs cs' ->
  contents_of fr (Some o) keys cs names all = Ok final -> exists final', contents_of fr' None keys cs' names all = Ok final' /\ map bl final' = map bl final.
Proof.
  intros HL HC F H. unfold contents_of in *. replace (length (filter (fun c => ch_cfg c Fplot_contour) cs')) with (length (filter (fun c => ch_cfg c Fplot_contour) cs)).
  2:{ clear H. induction F as [|c c' cs cs' P F IH]; [reflexivity|]. cbn [filter]. destruct P as [_ CA]. rewrite (proj1 (ca_other _ _ _ CA Fplot_contour (proj1 HL))). destruct (ch_cfg c Fplot_contour); cbn [length]; rewrite IH; reflexivity. }
  apply rbind_ok in H as [ds [EA H]]. apply rbind_ok in H as [l [EN H]]. injection H as <-. destruct (all_carries o _ fr fr' HL HC cs cs' next_colour next_colour ds (fun _ => eq_refl) F EA) as [ds' [EA' A]]. rewrite EA'. cbn [rbind].
  assert (G : exists l', rmapM (fun n => match dget n (combine keys ds') with Some c => Ok c | None => Err KeyError end) names = Ok l' /\ Forall2 (alike fr fr') l l').
  { clear EA EA'. revert l EN. induction names as [|n names IH]; intros l EN; [injection EN as <-; exists []; split; [reflexivity|constructor]|]. cbn [rmapM] in *. pose proof (rel_get _ keys ds ds' n A) as D. destruct (dget n (combine keys ds)) as [d|]; [|discriminate]. destruct D as [d' [-> D]]. cbn [rbind] in *.
    destruct (rmapM _ names) as [l0|] eqn:E; [|discriminate]. cbn [rbind] in EN. injection EN as <-. destruct (IH l0 eq_refl) as [l' [-> A']]. exists (d' :: l'). split; [reflexivity|constructor; assumption]. }
  destruct G as [l' [-> A']]. cbn [rbind]. eexists. split; [reflexivity|]. clear -A'. induction A' as [|c c' l l' P A IH]; [reflexivity|]. cbn [filter]. rewrite (skip_alike _ _ _ _ P). destruct (all || _); [|exact IH]. cbn [map]. rewrite IH. f_equal. destruct P as [B E]. unfold bl. cbn [fst snd]. rewrite B, E. reflexivity.
Qed.
Lemma spelled_pairs o w w' : spelled_out o w w' -> exists cs cs', Forall2 (holds (fst w)) (k_chains (snd w)) cs /\ Forall2 (holds (fst w')) (k_chains (snd w')) cs' /\ Forall2 (pair_ok o (frame_at (fst w)) (frame_at (fst w'))) cs cs' /\ get_names w' = get_names w.
Proof.
  intros [_ [_ F]]. unfold get_names. induction F as [|[n l] [n' l'] d d' [N [c [c' [A [A' [FR CA]]]]]] F [cs [cs' [I1 [I2 [I3 I4]]]]]]; [exists [], []; repeat split; constructor|].
  exists (c :: cs), (c' :: cs'). cbn [fst snd] in *. subst n'. split; [constructor; assumption|]. split; [constructor; assumption|]. split; [constructor; [split; assumption|assumption]|]. cbn. f_equal. exact I4.
Qed.
Lemma by_name_requested w w' req : by_name req -> get_names w' = get_names w -> exists names, requested w req = map Some names /\ requested w' req = map Some names.
Proof.
  intros [->|[names ->]] E.
  - exists (get_names w). split; [reflexivity|]. cbn. rewrite E. reflexivity.
  - exists names. unfold requested. rewrite !map_map. split; reflexivity.
Qed.
Lemma contents_carries o w w' req all final : world_ok w -> world_ok w' -> spelled_out o w w' -> leaves_contours o -> (o_user o Fcolor = true -> o_cfg o Fcolor <> None) -> by_name req ->
  contents w req all = Ok final -> exists final', contents w' req all = Ok final' /\ map bl final' = map bl final.
Proof.
  intros W W' SP HL HC BN H. destruct (spelled_pairs _ _ _ SP) as [cs [cs' [F1 [F2 [P EN]]]]]. destruct (by_name_requested w w' req BN EN) as [names [R1 R2]].
  rewrite (contents_spec w req all names cs W F1 R1) in H. rewrite (contents_spec w' req all names cs' W' F2 R2). destruct SP as [O1 [O2 _]]. rewrite O1 in H. rewrite O2, EN. eapply contents_of_carries; eassumption.
Qed.

(** ** Figures *)
Lemma base_carries num s s' req columns wide (k : plot_config -> list truth -> plot_base -> res figure) o fig : world_ok (s_world s) -> world_ok (s_world s') -> spelled_out o (s_world s) (s_world s') -> leaves_contours o -> (o_user o Fcolor = true -> o_cfg o Fcolor <> None) -> same_plotting s s' -> by_name req ->
  (forall cfg ts b, k cfg ts (blank_base b) = k cfg ts b) -> snd (with_base num s req columns wide k) = Ok fig -> snd (with_base num s' req columns wide k) = Ok fig.
Proof.
  intros W W' SP HL HC [ET EC] BN K H. rewrite with_base_contents in H. rewrite with_base_contents. cbv zeta in *. rewrite ET, EC. apply rbind_ok in H as [final [E H]]. destruct (contents_carries _ _ _ _ _ _ W W' SP HL HC BN E) as [final' [-> B]]. cbn [rbind].
  unfold get_custom_extents in *. rewrite <- (columns_bl columns final'), B, columns_bl. rewrite <- (custom_bl num wide _ final'), B, custom_bl. apply rbind_ok in H as [ext [-> H]]. cbn [rbind]. rewrite <- K in H. rewrite <- K. unfold blank_base in *. cbn [pb_chains pb_columns pb_extents pb_blind pb_logs] in *. rewrite B. exact H.
Qed.
Lemma drawing_carries k s s' d o fig : world_ok (s_world s) -> world_ok (s_world s') -> spelled_out o (s_world s) (s_world s') -> leaves_contours o -> (o_user o Fcolor = true -> o_cfg o Fcolor <> None) -> same_plotting s s' -> by_name (asks_for d) ->
  snd (draw_figure k s d) = Ok fig -> snd (draw_figure k s' d) = Ok fig.
Proof.
  intros W W' SP HL HC SP' BN. destruct d; cbn [asks_for draw_figure] in *; eapply base_carries; try eassumption; intros cfg ts b; [apply plot_bl|apply walks_bl|apply dist_bl|apply summary_bl].
Qed.

(** ** Summaries *)
Lemma chain_summary_bl num c f cols : forall acc, chain_summary num (blank c) f cols acc = chain_summary num c f cols acc.
Proof.
  induction cols as [|p cols IH]; intros acc; [reflexivity|]. cbn [chain_summary]. rewrite IH. change (column_summary num (blank c) f p) with (column_summary num c f p).
  destruct (negb (f_has f p)); [reflexivity|]. destruct (column_summary num c f p) as [e|e]; [|reflexivity]. cbn [rbind]. apply IH.
Qed.
Lemma summary_from_bl num columns l : summary_from num columns (map bl l) = summary_from num columns l.
Proof.
  unfold summary_from. rewrite columns_bl, map_map, rmapM_bl; [reflexivity|]. intros [c f]. apply chain_summary_bl.
Qed.
Lemma summary_carries num o w w' columns d : world_ok w -> world_ok w' -> spelled_out o w w' -> leaves_contours o -> (o_user o Fcolor = true -> o_cfg o Fcolor <> None) ->
  snd (get_summary num w ReqAll columns) = Ok d -> snd (get_summary num w' ReqAll columns) = Ok d.
Proof.
  intros W W' SP HL HC H. rewrite summary_all in H by exact W. rewrite summary_all by exact W'. apply rbind_ok in H as [final [E H]]. destruct (contents_carries _ _ _ ReqAll true _ W W' SP HL HC (or_introl eq_refl) E) as [final' [-> B]]. cbn [rbind].
  rewrite <- summary_from_bl, B, summary_from_bl. exact H.
Qed.
Lemma latex_carries num repr ascii labels blind columns t c l h b o w w' req text : world_ok w -> world_ok w' -> spelled_out o w w' -> leaves_contours o -> (o_user o Fcolor = true -> o_cfg o Fcolor <> None) -> by_name req ->
  snd (get_latex_table num repr ascii w labels blind columns req t c l h b) = Ok text -> snd (get_latex_table num repr ascii w' labels blind columns req t c l h b) = Ok text.
Proof.
  intros W W' SP HL HC BN H. pose proof (contents_carries o w w' req false) as K. unfold get_latex_table, contents in *. destruct (sanitise_chains w req false) as [w1 r1], (sanitise_chains w' req false) as [w2 r2]. cbn [fst snd] in *.
  apply rbind_ok in H as [l1 [-> H]]. apply rbind_ok in H as [c1 [E1 H]]. cbn [rbind] in K. destruct (K c1 W W' SP HL HC BN E1) as [c2 [E2 B]]. apply rbind_ok in E2 as [l2 [-> E2]]. cbn [rbind]. rewrite E2. cbn [rbind]. cbv zeta in *.
  rewrite (summary_listed num w1 None l1 c1 (resolve_objects _ _ _ E1)) in H. rewrite (summary_listed num w2 None l2 c2 (resolve_objects _ _ _ E2)).
  rewrite <- (summary_from_bl _ _ c2), B, summary_from_bl. rewrite <- (columns_bl _ c2), B, columns_bl.
  replace (length c2) with (length c1) by (apply (f_equal (@length _)) in B; rewrite !map_length in B; congruence).
  replace (map (fun cf => ch_name (fst cf)) c2) with (map (fun cf => ch_name (fst cf)) c1); [exact H|]. apply (f_equal (map (fun cf : chain * frame => ch_name (fst cf)))) in B. rewrite !map_map in B. symmetry. exact B.
Qed.

(** ** Failing calls *)
Lemma one_fails o num fr fr' colors c c' e : o_user o Fcolor = false -> pair_ok o fr fr' c c' -> one_resolved num (Some o) colors c = Err e -> one_resolved num None colors c' = Err e.
Proof.
  intros OC [FR CA] H. unfold one_resolved in *. cbv zeta in *. rewrite (proj1 (ca_other _ _ _ CA Fcolor OC)). destruct (ch_cfg c Fcolor) as [y|]; [discriminate|]. destruct colors as [|[x|x] colors]; cbn [rbind] in *; congruence.
Qed.
Lemma all_fails o num fr fr' : leaves_contours o -> o_user o Fcolor = false -> forall cs cs' colors e, Forall2 (pair_ok o fr fr') cs cs' -> all_resolved num (Some o) colors cs = Err e -> all_resolved num None colors cs' = Err e.
Proof.
  intros HL OC. induction cs as [|c cs IH]; intros cs' colors e F H; inversion F as [|? c' ? cs1 P F1]; subst; [discriminate|]. cbn [all_resolved] in *. destruct (one_resolved num (Some o) colors c) as [[d rest]|e1] eqn:E1.
  - destruct (one_carries _ _ _ _ _ colors _ _ _ _ HL ltac:(congruence) (fun _ => eq_refl) P E1) as [d' [rest' [-> [_ R]]]]. rewrite (R OC). cbn [rbind fst snd] in *. destruct (all_resolved num (Some o) rest cs) as [ds|e2] eqn:E2; [discriminate|]. rewrite (IH cs1 rest e2 F1 E2). exact H.
  - rewrite (one_fails _ _ _ _ _ _ _ _ OC P E1). exact H.
Qed.
Lemma contents_fails o w w' req all e : world_ok w -> world_ok w' -> spelled_out o w w' -> leaves_contours o -> o_user o Fcolor = false -> by_name req -> contents w req all = Err e -> contents w' req all = Err e.
Proof.
  intros W W' SP HL OC BN H. destruct (spelled_pairs _ _ _ SP) as [cs [cs' [F1 [F2 [F EN]]]]]. destruct (by_name_requested w w' req BN EN) as [names [R1 R2]].
  rewrite (contents_spec w req all names cs W F1 R1) in H. rewrite (contents_spec w' req all names cs' W' F2 R2). destruct SP as [O1 [O2 _]]. rewrite O1 in H. rewrite O2, EN. unfold contents_of in *.
  replace (length (filter (fun c => ch_cfg c Fplot_contour) cs')) with (length (filter (fun c => ch_cfg c Fplot_contour) cs)).
  2:{ clear -F HL. induction F as [|c c' cs cs' P F IH]; [reflexivity|]. cbn [filter]. destruct P as [_ CA]. rewrite (proj1 (ca_other _ _ _ CA Fplot_contour (proj1 HL))). destruct (ch_cfg c Fplot_contour); cbn [length]; rewrite IH; reflexivity. }
  destruct (all_resolved _ (Some o) _ cs) as [ds|e1] eqn:EA; [|rewrite (all_fails _ _ _ _ HL OC _ _ _ _ F EA); exact H]. destruct (all_carries o _ _ _ HL ltac:(congruence) cs cs' next_colour next_colour ds (fun _ => eq_refl) F EA) as [ds' [-> A]]. cbn [rbind] in *.
  destruct (rmapM _ names) as [l|e1] eqn:EN1 in H; [discriminate|]. cbn [rbind] in H.
  replace (rmapM (fun n => match dget n (combine (get_names w) ds') with Some c => Ok c | None => Err KeyError end) names) with (@Err (list chain) e1); [exact H|]. clear -EN1 A. revert e1 EN1. induction names as [|n names IH]; intros e1 EN; [discriminate|]. cbn [rmapM] in *. pose proof (rel_get _ (get_names w) ds ds' n A) as D.
  destruct (dget n (combine (get_names w) ds)) as [d|]; [|rewrite D; symmetry; exact EN]. destruct D as [d' [-> D]]. cbn [rbind] in *. destruct (rmapM _ names) as [l0|e2] eqn:E in EN; [discriminate|]. rewrite <- (IH e2 E). symmetry. exact EN.
Qed.
Lemma base_fails num s s' req columns wide (k : plot_config -> list truth -> plot_base -> res figure) o e : world_ok (s_world s) -> world_ok (s_world s') -> spelled_out o (s_world s) (s_world s') -> leaves_contours o -> o_user o Fcolor = false -> same_plotting s s' -> by_name req ->
  (forall cfg ts b, k cfg ts (blank_base b) = k cfg ts b) -> snd (with_base num s req columns wide k) = Err e -> snd (with_base num s' req columns wide k) = Err e.
Proof.
  intros W W' SP HL OC [ET EC] BN K H. rewrite with_base_contents in H. rewrite with_base_contents. cbv zeta in *. rewrite ET, EC. destruct (contents (s_world s) req false) as [final|e1] eqn:E; [|rewrite (contents_fails _ _ _ _ _ _ W W' SP HL OC BN E); exact H].
  destruct (contents_carries _ _ _ _ _ _ W W' SP HL ltac:(congruence) BN E) as [final' [-> B]]. cbn [rbind] in *.
  unfold get_custom_extents in *. rewrite <- (columns_bl columns final'), B, columns_bl. rewrite <- (custom_bl num wide _ final'), B, custom_bl. destruct (custom_extents_loop _ _ _ _ _ _) as [ext|e1]; [|exact H]. cbn [rbind] in *. rewrite <- K in H. rewrite <- K. unfold blank_base in *. cbn [pb_chains pb_columns pb_extents pb_blind pb_logs] in *. rewrite B. exact H.
Qed.
Lemma drawing_fails k s s' d o e : world_ok (s_world s) -> world_ok (s_world s') -> spelled_out o (s_world s) (s_world s') -> leaves_contours o -> o_user o Fcolor = false -> same_plotting s s' -> by_name (asks_for d) ->
  snd (draw_figure k s d) = Err e -> snd (draw_figure k s' d) = Err e.
Proof.
  intros W W' SP HL HC SP' BN. destruct d; cbn [asks_for draw_figure] in *; eapply base_fails; try eassumption; intros cfg ts b; [apply plot_bl|apply walks_bl|apply dist_bl|apply summary_bl].
Qed.
