(** Lemmas about one-dimensional distributions in the figures. *)
From Coq Require Import String Ascii List Bool Arith ZArith QArith Reals Lia Lqa.
From Verif Require Import Py NumSpec NumModel NumFacts HelpersSpec ColorModel HelpersModel MarginalModel FrameModel ConfigModel ChainModel RegistryModel RegistrySpec ChainSpec ChainProofs ChainUseProofs DiagProofs
  TextModel AnalysisModel AnalysisSpec AnalysisProofs SurfaceModel PanelSpec SurfaceProofs FigureModel FigureSpec FigureProofs.
Import ListNotations.
Open Scope string_scope.
Open Scope list_scope.

(** ** str.strip *)
Lemma append_nil (s : string) : (s ++ "")%string = s.
Proof. induction s as [|a s IH]; [reflexivity|]. cbn. rewrite IH. reflexivity. Qed.
Lemma append_assoc' (a b c : string) : ((a ++ b) ++ c)%string = (a ++ b ++ c)%string.
Proof. induction a as [|x a IH]; [reflexivity|]. cbn. rewrite IH. reflexivity. Qed.
Lemma dollars_S n : String.concat "" (repeat "$" (S n)) = String dollar (String.concat "" (repeat "$" n)).
Proof. destruct n; reflexivity. Qed.
Lemma lstrip_ok s : (exists n, s = (String.concat "" (repeat "$" n) ++ lstrip s)%string) /\ forall r, lstrip s <> String dollar r.
Proof.
  induction s as [|a s [[n IH] IH']]; [split; [exists 0%nat; reflexivity|discriminate]|]. cbn [lstrip]. destruct (Ascii.eqb a dollar) eqn:E.
  - apply Ascii.eqb_eq in E. subst. split; [|exact IH']. exists (S n). rewrite dollars_S. cbn [append]. f_equal. exact IH.
  - split; [exists 0%nat; reflexivity|]. intros r H. injection H as -> _. rewrite Ascii.eqb_refl in E. discriminate.
Qed.
Lemma dollars_snoc n : (String.concat "" (repeat "$" n) ++ "$")%string = String.concat "" (repeat "$" (S n)).
Proof. induction n as [|n IH]; [reflexivity|]. rewrite dollars_S. cbn [append]. rewrite IH. rewrite (dollars_S (S n)). reflexivity. Qed.
Lemma rstrip_ok s : (exists m, s = (rstrip s ++ String.concat "" (repeat "$" m))%string) /\ (forall r, rstrip s <> (r ++ "$")%string) /\ (forall r, rstrip s = String dollar r -> exists r', s = String dollar r').
Proof.
  induction s as [|a s [[m IH1] [IH2 IH3]]]; [split; [exists 0%nat; reflexivity|]; split; [intros [|x r]; discriminate|discriminate]|]. cbn [rstrip].
  destruct (rstrip s) as [|x r0] eqn:ER.
  - destruct (Ascii.eqb a dollar) eqn:E.
    + apply Ascii.eqb_eq in E. subst. split; [exists (S m); rewrite dollars_S; cbn [append]; f_equal; exact IH1|]. split; [intros [|y r]; discriminate|discriminate].
    + split; [exists m; cbn [append]; f_equal; exact IH1|]. split.
      * intros [|y r] H; cbn in H; [injection H as ->; rewrite Ascii.eqb_refl in E; discriminate|]. injection H as _ H. destruct r; discriminate.
      * intros r H. injection H as -> _. rewrite Ascii.eqb_refl in E. discriminate.
  - split; [exists m; cbn [append]; f_equal; exact IH1|]. split.
    + intros [|y r] H; [discriminate|]. injection H as _ H. exact (IH2 _ H).
    + intros r H. injection H as -> _. eexists. reflexivity.
Qed.
Lemma strip_dollar_ok s : trimmed s (strip_dollar s).
Proof.
  unfold strip_dollar. destruct (lstrip_ok s) as [[n H1] H2], (rstrip_ok (lstrip s)) as [[m H3] [H4 H5]]. exists "$", n, m. split; [reflexivity|]. split; [rewrite <- H3; exact H1|]. split; [|exact H4].
  intros r H. destruct (H5 r H) as [r' K]. exact (H2 r' K).
Qed.

(** ** One chain *)
Lemma scaled_map c h : scaled_by c h (map (fun y => (y * ch_relheight c)%Q) h).
Proof. split; [apply map_length|]. intros i H. rewrite (nth_indep _ 0%Q (0 * ch_relheight c)%Q) by (rewrite map_length; exact H). exact (map_nth (fun y => (y * ch_relheight c)%Q) h 0%Q i). Qed.
Lemma bar_outline_ok num c f p flip out xs ys : bar_outline num c f p flip = Ok (out, xs, ys) -> outline_of num flip p c f out xs ys.
Proof.
  unfold bar_outline. cbv zeta. intros H. apply rbind_ok in H as [v [Hv H]]. destruct (negb _ || _) eqn:E.
  - apply rbind_ok in H as [m [Hm H]]. injection H as <- <- <-. apply oo_curve with (m := m).
    + apply orb_true_iff in E as [E|E]; [left|right; exact E]. apply negb_true_iff, Z.eqb_neq in E. exact E.
    + exact Hm.
    + apply scaled_map.
  - apply orb_false_iff in E as [E1 E2]. apply negb_false_iff, Z.eqb_eq in E1. apply rbind_ok in H as [w [Hw H]]. apply rbind_ok in H as [edges [He H]]. apply rbind_ok in H as [h [Hh H]]. injection H as <- <- <-.
    eapply oo_bars; eauto; [|apply scaled_map]. rewrite E1 in He. destruct (ch_grid c); [exact He|]. destruct (get_smoothed_bins _ _ _ _ _ _) as [[e s]|]; [|discriminate]. injection He as <-. exists s. reflexivity.
Qed.
Lemma in_range_ok xs lo hi x : in_range xs lo hi = true -> x = lo \/ x = hi -> exists mn mx, is_min mn xs /\ is_max mx xs /\ (mn <= x <= mx)%Q.
Proof.
  unfold in_range. destruct xs as [|y r]; [discriminate|]. cbv zeta. intros H HX. apply andb_true_iff in H as [H H4]. apply andb_true_iff in H as [H H3]. apply andb_true_iff in H as [H1 H2].
  apply Qle_bool_iff in H1, H2, H3, H4. destruct (qmin_list_spec y r), (qmax_list_spec y r). exists (qmin_list y r), (qmax_list y r). split; [split; assumption|]. split; [split; assumption|]. destruct HX as [-> | ->]; split; assumption.
Qed.
Lemma shaded_ok num c f p b lower upper xs ivs bs : shaded num c f p b lower upper xs = Ok (ivs, bs) -> shading num p c f xs b lower upper ivs bs.
Proof.
  unfold shaded. destruct (ch_cfg c Fmultimodal : bool) eqn:EM.
  - intros H. apply rbind_ok in H as [bands [H1 H]]. apply rbind_ok in H as [bounds [H2 H]]. injection H as <- <-. destruct (Nat.ltb_spec (length bands) 2); [eapply sh_single; eauto|eapply sh_bands; eauto].
  - destruct xs as [|x r]; [discriminate|]. intros H. injection H as <- <-. destruct (qmin_list_spec x r) as [M1 M2], (qmax_list_spec x r) as [N1 N2]. eapply sh_one with (mn := qmin_list x r) (mx := qmax_list x r); [exact EM|split; assumption|split; assumption| |].
    + destruct (qmax_cases lower (qmin_list x r)) as [[-> L]|[-> L]]; (split; [cbn; auto|intros z [<-|[<-|[]]]; lra]).
    + destruct (qmin_cases upper (qmax_list x r)) as [[-> L]|[-> L]]; (split; [cbn; auto|intros z [<-|[<-|[]]]; lra]).
Qed.
Lemma label_of_shown cfg p : shown_label (p_labels cfg) p (label_of cfg p).
Proof. unfold label_of, get_label, shown_label, dflt. destruct (dget p (p_labels cfg)); reflexivity. Qed.
Lemma outline_is_bar num flip p c f out xs ys : outline_of num flip p c f out xs ys -> is_bar out = true.
Proof. intros []; reflexivity. Qed.
Lemma plot_bars_ok num cfg p flip summary cf calls top : plot_bars num cfg p flip summary cf = Ok (calls, top) ->
  bar_group num cfg p flip summary cf calls top /\ Forall (fun c => is_bar c = true) calls.
Proof.
  destruct cf as [c f]. unfold plot_bars. intros H. apply rbind_ok in H as [[[out xs] ys] [HO H]]. cbv zeta in H. apply rbind_ok in H as [shade [HS H]].
  destruct ys as [|y r] eqn:EY; [discriminate|]. rewrite <- EY in HO, HS. injection H as <- <-. apply bar_outline_ok in HO.
  assert (TOP : is_max (qmax_list y r) ys) by (rewrite EY; destruct (qmax_list_spec y r); split; assumption).
  assert (UN : forall (P : Prop), P -> shade = [] -> (ch_cfg c Fbar_shade = false \/ (exists b, get_parameter_summary num c f p = Ok b /\ (b_lower b = None \/ b_upper b = None))) ->
     bar_group num cfg p flip summary (c, f) (out :: shade) (qmax_list y r) /\ Forall (fun c => is_bar c = true) (out :: shade)).
  { intros P _ -> U. split; [|constructor; [eapply outline_is_bar; exact HO|constructor]]. exists out, xs, ys, [], []. split; [reflexivity|]. split; [exact HO|]. split; [exact TOP|]. left. auto. }
  destruct (ch_cfg c Fbar_shade : bool) eqn:EB; [|injection HS as <-; apply (UN True); auto].
  apply rbind_ok in HS as [b [Hb HS]]. destruct (b_lower b) as [lower|] eqn:EL; [|injection HS as <-; apply (UN True); eauto 6]. destruct (b_upper b) as [upper|] eqn:EU; [|injection HS as <-; apply (UN True); eauto 6].
  clear UN. apply rbind_ok in HS as [[ivs bs] [H1 HS]]. apply shaded_ok in H1. apply rbind_ok in HS as [fills [H2 HS]]. apply rbind_ok in HS as [titles [H3 HS]]. injection HS as <-. cbn [fst snd] in *.
  apply rmapM_Forall2 in H2.
  assert (HF : fills = map (fun iv => Fill flip (fst iv) (snd iv) (negb (smooth_value (ch_cfg c Fsmooth) (ch_grid c) =? 0)%Z) xs ys (ch_cfg c Fcolor) (ch_cfg c Fzorder)) ivs /\ forall iv, In iv ivs -> in_range xs (fst iv) (snd iv) = true).
  { clear -H2. induction H2 as [|iv fl ivs fills H H2 [IH1 IH2]]; [split; [reflexivity|intros iv []]|]. destruct (in_range xs (fst iv) (snd iv)) eqn:E; [|discriminate]. injection H as <-. split; [cbn [map]; f_equal; exact IH1|]. intros iv' [<-|HI]; [exact E|apply IH2; exact HI]. }
  destruct HF as [-> HR]. split.
  - exists out, xs, ys, (map (fun iv => Fill flip (fst iv) (snd iv) (negb (smooth_value (ch_cfg c Fsmooth) (ch_grid c) =? 0)%Z) xs ys (ch_cfg c Fcolor) (ch_cfg c Fzorder)) ivs), titles.
    split; [reflexivity|]. split; [exact HO|]. split; [exact TOP|]. right. split; [exact EB|]. exists b, lower, upper, ivs, bs. split; [exact Hb|]. split; [exact EL|]. split; [exact EU|]. split; [exact H1|]. split; [reflexivity|].
    split; [intros iv x HI HX; eapply in_range_ok; [apply HR; exact HI|exact HX]|].
    destruct summary; [|injection H3 as <-; reflexivity]. destruct (get_parameter_text _ _ _) as [t|] eqn:ET; [|discriminate]. injection H3 as <-. exists (label_of cfg p), (strip_dollar (label_of cfg p)), t.
    split; [apply label_of_shown|]. split; [apply strip_dollar_ok|]. split; [exact ET|reflexivity].
  - constructor; [eapply outline_is_bar; exact HO|]. apply Forall_app. split; [apply Forall_forall; intros x HX; apply in_map_iff in HX as [iv [<- _]]; reflexivity|].
    destruct summary; [|injection H3 as <-; constructor]. destruct (get_parameter_text _ _ _) as [t|]; [|discriminate]. injection H3 as <-. destruct (String.eqb t ""); repeat constructor.
Qed.
(** ** All chains *)
Lemma those_filter {A} (P : A -> Prop) (p : A -> bool) l : (forall x, In x l -> p x = true <-> P x) -> those P l (filter p l).
Proof.
  induction l as [|x l IH]; intros H; [constructor|]. cbn [filter]. destruct (p x) eqn:E; constructor; try (apply IH; intros y Hy; apply H; right; exact Hy).
  - apply H; [left; reflexivity|exact E].
  - intros K. apply H in K; [congruence|left; reflexivity].
Qed.
Lemma tallest_ok l : match tallest l with None => l = [] | Some m => is_max m l end.
Proof. destruct l as [|x r]; [reflexivity|]. cbn. destruct (qmax_list_spec x r). split; assumption. Qed.
Lemma bars_panel_by (draws : chain * frame -> Prop) num cfg p flip summary chains (sel : chain * frame -> bool) calls top : (forall cf, In cf chains -> sel cf = true <-> draws cf) ->
  bars_panel num cfg p flip summary (filter sel chains) = Ok (calls, top) ->
  exists tops, (forall rest, bars_of rest = [] -> forall before, bars_of before = [] -> bars_shown_by draws num cfg p flip summary chains (before ++ calls ++ rest) tops) /\
    match top with None => tops = [] | Some m => is_max m tops end /\ Forall (fun c => is_bar c = true) calls.
Proof.
  intros HSel H. unfold bars_panel in H. destruct (rmapM _ _) as [outs|] eqn:E; [|discriminate]. injection H as <- <-. exists (map snd outs).
  assert (F : Forall (fun c => is_bar c = true) (concat (map fst outs))).
  { apply rmapM_Forall2 in E. clear -E. induction E as [|x [g t] l outs H E IH]; [constructor|]. cbn [map fst concat]. apply Forall_app. split; [apply plot_bars_ok in H as [_ H]; exact H|exact IH]. }
  split; [|split; [apply tallest_ok|exact F]]. intros rest HR before HB. exists (filter sel chains), (map fst outs). apply rmapM_Ok_iff in E as [L E]. split; [apply those_filter; exact HSel|].
  rewrite !map_length. split; [exact L|]. split; [exact L|]. split.
  - intros i cf g t H1 H2 H3. destruct (E i cf H1) as [[g' t'] [K1 K2]]. rewrite nth_error_map, K1 in H2, H3. injection H2 as <-. injection H3 as <-. apply plot_bars_ok in K2 as [K2 _]. exact K2.
  - unfold bars_of in *. rewrite !filter_app, HR, HB, app_nil_r. apply filter_all. exact F.
Qed.
Lemma bars_panel_ok num cfg p flip summary chains (sel : chain * frame -> bool) calls top : (forall cf, In cf chains -> sel cf = true <-> draws_bars p cf) ->
  bars_panel num cfg p flip summary (filter sel chains) = Ok (calls, top) ->
  exists tops, (forall rest, bars_of rest = [] -> forall before, bars_of before = [] -> bars_shown num cfg p flip summary chains (before ++ calls ++ rest) tops) /\
    match top with None => tops = [] | Some m => is_max m tops end /\ Forall (fun c => is_bar c = true) calls.
Proof. exact (bars_panel_by (draws_bars p) num cfg p flip summary chains sel calls top). Qed.
