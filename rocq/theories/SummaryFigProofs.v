(** Lemmas about the summary figure. *)
From Coq Require Import String List Bool Arith ZArith QArith Qabs Reals Lia Lqa.
From Verif Require Import Py NumSpec NumModel NumFacts HelpersSpec ColorModel HelpersModel MarginalModel FrameModel ConfigModel ChainModel RegistryModel RegistrySpec RegistryProofs ChainSpec ChainProofs ChainUseProofs DiagProofs
  MaxProofs TextModel AnalysisModel AnalysisSpec AnalysisProofs SurfaceModel PanelSpec SurfaceProofs PanelProofs FigureModel FigureSpec FigureProofs BarProofs TriangleProofs WalkProofs DistProofs.
Import ListNotations.
Open Scope string_scope.
Open Scope list_scope.

Lemma summary_parts k s req columns file size err sp vr s' fig chains cols cfg : plot_summary k s req columns file size err sp vr = (s', Ok fig) -> world_ok (s_world s) -> plots s req columns chains cols -> config_of s cfg ->
  exists b, pb_chains b = chains /\ pb_columns b = cols /\ get_custom_extents (bk_num k) (negb err) (p_extents cfg) chains cols = Ok (pb_extents b) /\ pb_blind b = sanitise_blinds (p_blind cfg) cols /\ pb_logs b = p_log_scales cfg /\
    summary_figure (bk_num k) (bk_text_width k) cfg (s_truths s) b size err sp vr file = Ok fig.
Proof. intros H W P HC. unfold plot_summary in H. destruct (with_base_plots _ _ _ _ _ _ _ _ _ _ H W P _ HC) as [b [B1 [B2 [B3 [B4 [B5 B6]]]]]]. exists b. auto 10. Qed.

Lemma pbars_app a b : panel_bars (a ++ b) = panel_bars a ++ panel_bars b.
Proof. apply filter_app. Qed.
Lemma errs_app a b : error_bars (a ++ b) = error_bars a ++ error_bars b.
Proof. apply flat_map_app. Qed.
Lemma titles_app a b : panel_titles (a ++ b) = panel_titles a ++ panel_titles b.
Proof. apply flat_map_app. Qed.
Definition truth_vlines (truths : list truth) (p : string) : list call := flat_map (fun t => match dget p (t_location t) with Some v => [VLine v (truth_line t)] | None => [] end) truths.
Lemma truth_vlines_truths filled truths p : truth_vlines truths p = plot_truths filled truths (Some p) None.
Proof. unfold truth_vlines, plot_truths. apply flat_map_ext. intros t. unfold plot_truth. cbn. destruct (dget p (t_location t)); reflexivity. Qed.
Lemma vlines_facts truths p : Forall (fun c => is_mark c = true) (truth_vlines truths p).
Proof. rewrite (truth_vlines_truths (fun _ => true)). destruct (plot_truths_ok (fun _ => true) truths (Some p) None) as [l [_ [_ H]]]. exact H. Qed.
Lemma marks_none l : Forall (fun c => is_mark c = true) l -> panel_bars l = [] /\ error_bars l = [] /\ panel_titles l = [].
Proof. induction 1 as [|c l H _ [I1 [I2 I3]]]; [repeat split|]. unfold panel_bars, error_bars, panel_titles in *. cbn [filter flat_map]. rewrite I1, I2, I3. destruct c; try discriminate; repeat split. Qed.

(** A group without a title consists of bars only. *)
Lemma untitled_group num cfg p flip cf g t : bar_group num cfg p flip false cf g t -> Forall (fun c => is_bar c = true) g -> panel_bars g = g /\ panel_titles g = [].
Proof.
  intros [out [xs [ys [fills [titles [-> [HO [_ H]]]]]]]] HB. assert (E : titles = [] /\ (fills = [] \/ exists ivs l2 xs ys c z, fills = map (fun iv : Q * Q => Fill flip (fst iv) (snd iv) l2 xs ys c z) ivs)).
  { cbv zeta in H. destruct H as [[_ [-> ->]]|[_ [b [lo [hi [ivs [bs [_ [_ [_ [_ [-> [_ ->]]]]]]]]]]]]]; [split; [reflexivity|left; reflexivity]|]. split; [reflexivity|]. right. do 6 eexists. reflexivity. }
  destruct E as [-> E]. rewrite app_nil_r. assert (F : panel_bars fills = fills /\ panel_titles fills = []).
  { destruct E as [->|[ivs [l2 [x [y [c [z ->]]]]]]]; [split; reflexivity|]. clear. induction ivs as [|iv ivs [I1 I2]]; [split; reflexivity|]. unfold panel_bars, panel_titles in *. cbn [map filter flat_map is_bar]. rewrite I1, I2. split; reflexivity. }
  destruct F as [F1 F2]. unfold panel_bars, panel_titles in *. cbn [filter flat_map]. rewrite F1, F2. destruct HO; split; reflexivity.
Qed.

Section cell.
Variable num : numerics.
Variable cfg : plot_config.
Variable truths : list truth.
Variable b : plot_base.
Variable err : bool.
Definition last_row (i : nat) : bool := negb (i <? length (pb_chains b) - 1)%nat.
(** The calls on the panel of chain [i] and column [p]; [lims] is the vertical range set afterwards, if any. *)
Definition cell_facts (i : nat) (cf : chain * frame) (colour p : string) (calls : list call) (top : option Q) (lims : option (Q * Q)) : Prop :=
  exists lo hi, dget p (pb_extents b) = Some (Some (lo, hi)) /\ marks calls = truth_vlines truths p /\
  panel_titles calls = (if (i =? 0)%nat then [label_of cfg p] else []) /\
  final_ticks AX calls = {| tk_off := false; tk_major := (last_row i && negb (smem p (pb_blind b))) || smem p (pb_logs b); tk_minor := smem p (pb_logs b); tk_range := Some (lo, hi) |} /\
  final_ticks AY calls = {| tk_off := false; tk_major := false; tk_minor := false; tk_range := lims |} /\
  if smem p (data_columns (fst cf) (snd cf))
  then if err then top = None /\ panel_bars calls = [] /\ summary_bar num p colour cf (error_bars calls)
       else error_bars calls = [] /\ exists t, top = Some t /\ bar_group num cfg p false false cf (panel_bars calls) t
  else top = None /\ panel_bars calls = [] /\ error_bars calls = [].
Lemma cell_ok i cf colour p calls top : summary_panel num cfg truths b err i cf colour p = Ok (calls, top) -> cell_facts i cf colour p calls top None.
Proof.
  unfold summary_panel. cbv zeta. intros H. apply rbind_ok in H as [xlim [HX H]]. apply set_limits_ok in HX as [lo [hi [EE ->]]]. fold (last_row i) in H. fold (truth_vlines truths p) in H.
  set (fr := (if (0 <? i)%nat then [SpineOff true] else []) ++ (if last_row i then [] else [SpineOff false]) ++ (if negb (last_row i) || smem p (pb_blind b) then [NoTicks AX] else []) ++ [NoTicks AY] ++ [Limits AX lo hi] ++
     (if smem p (pb_logs b) then [LogScale AX] else []) ++ (if (i =? 0)%nat then [Title (label_of cfg p)] else []) ++ truth_vlines truths p) in *.
  pose proof (vlines_facts truths p) as VL. destruct (marks_none _ VL) as [V1 [V2 V3]].
  set (h := (if (0 <? i)%nat then [SpineOff true] else []) ++ (if last_row i then [] else [SpineOff false]) ++ (if negb (last_row i) || smem p (pb_blind b) then [NoTicks AX] else []) ++ [NoTicks AY] ++ [Limits AX lo hi] ++
     (if smem p (pb_logs b) then [LogScale AX] else []) ++ (if (i =? 0)%nat then [Title (label_of cfg p)] else [])).
  assert (EF : fr = h ++ truth_vlines truths p) by (unfold fr, h; rewrite <- !app_assoc; reflexivity).
  assert (HM : marks h = [] /\ panel_bars h = [] /\ error_bars h = [] /\ panel_titles h = if (i =? 0)%nat then [label_of cfg p] else []).
  { unfold h. destruct (0 <? i)%nat, (last_row i), (smem p (pb_blind b)), (smem p (pb_logs b)), (i =? 0)%nat; repeat split. }
  assert (HT : final_ticks AX h = {| tk_off := false; tk_major := (last_row i && negb (smem p (pb_blind b))) || smem p (pb_logs b); tk_minor := smem p (pb_logs b); tk_range := Some (lo, hi) |} /\
               final_ticks AY h = {| tk_off := false; tk_major := false; tk_minor := false; tk_range := None |}).
  { unfold h. destruct (0 <? i)%nat, (last_row i), (smem p (pb_blind b)), (smem p (pb_logs b)), (i =? 0)%nat; split; reflexivity. }
  destruct HM as [M1 [M2 [M3 M4]]], HT as [T1 T2].
  assert (F : marks fr = truth_vlines truths p /\ panel_bars fr = [] /\ error_bars fr = [] /\ panel_titles fr = (if (i =? 0)%nat then [label_of cfg p] else []) /\ final_ticks AX fr = final_ticks AX h /\ final_ticks AY fr = final_ticks AY h).
  { rewrite EF, marks_app, pbars_app, errs_app, titles_app, M1, M2, M3, M4, V1, V2, V3. unfold final_ticks. rewrite !fold_left_app, !(fold_quiet _ (truth_vlines truths p)) by (eapply Forall_impl; [|exact VL]; exact is_mark_quiet).
    cbn [app]. rewrite app_nil_r. split; [unfold marks; apply (filter_all _ _ VL)|]. repeat (split; [reflexivity|]). reflexivity. }
  destruct F as [F1 [F2 [F3 [F4 [F5 F6]]]]]. rewrite T1 in F5. rewrite T2 in F6. clearbody fr. clear EF M1 M2 M3 M4 T1 T2 V1 V2 V3 VL h.
  assert (K : forall extra, marks extra = [] -> panel_titles extra = [] -> (forall d t, fold_left (tick_step d) extra t = t) -> calls = fr ++ extra ->
    (if smem p (data_columns (fst cf) (snd cf)) then if err then top = None /\ panel_bars extra = [] /\ summary_bar num p colour cf (error_bars extra) else error_bars extra = [] /\ exists t, top = Some t /\ bar_group num cfg p false false cf (panel_bars extra) t
     else top = None /\ panel_bars extra = [] /\ error_bars extra = []) -> cell_facts i cf colour p calls top None).
  { intros extra X1 X2 X3 -> X4. exists lo, hi. split; [exact EE|]. rewrite marks_app, titles_app, F1, F4, X1, X2, !app_nil_r. split; [reflexivity|]. split; [reflexivity|]. unfold final_ticks in *. rewrite !fold_left_app, !X3. split; [exact F5|]. split; [exact F6|].
    rewrite pbars_app, errs_app, F2, F3. exact X4. }
  destruct (smem p (data_columns (fst cf) (snd cf))) eqn:EP; cbn [negb] in H.
  - destruct err eqn:EE2.
    + apply rbind_ok in H as [fv [HS H]]. injection H as <- <-. apply (K (match b_lower fv, b_center fv, b_upper fv with Some l, Some c, Some u => [ErrorBar c (Qabs (c - l)) (Qabs (u - c)) colour] | _, _, _ => [] end)); try reflexivity;
        try (destruct (b_lower fv), (b_center fv), (b_upper fv); reflexivity).
      split; [reflexivity|]. split; [destruct (b_lower fv), (b_center fv), (b_upper fv); reflexivity|]. exists fv. split; [exact HS|]. destruct (b_lower fv), (b_center fv), (b_upper fv); try reflexivity. cbn. do 2 eexists. split; [reflexivity|]. split; reflexivity.
    + destruct (plot_bars num cfg p false false cf) as [[g t]|] eqn:EB; [|discriminate]. cbn [rmap fst snd] in H. injection H as <- <-. apply plot_bars_ok in EB as [BG BB]. destruct (untitled_group _ _ _ _ _ _ _ BG BB) as [U1 U2].
      apply (K g); [unfold marks; apply filter_none; eapply Forall_impl; [|exact BB]; intros c; destruct c; cbn; congruence|exact U2|intros d t2; apply fold_quiet; eapply Forall_impl; [|exact BB]; exact is_bar_quiet|reflexivity|].
      rewrite U1. split; [|eauto]. clear -BB. unfold error_bars. induction BB as [|c g H _ IH]; [reflexivity|]. cbn [flat_map]. rewrite IH. destruct c; try discriminate; reflexivity.
  - injection H as <- <-. apply (K []); try reflexivity; [symmetry; apply app_nil_r|]. repeat split.
Qed.
Lemma cell_limits i cf colour p calls top m : cell_facts i cf colour p calls top None -> cell_facts i cf colour p (calls ++ [Limits AY 0 m]) top (Some (0, m)%Q).
Proof.
  intros [lo [hi [E [M [T [X [Y R]]]]]]]. exists lo, hi. split; [exact E|]. rewrite marks_app, titles_app, pbars_app, errs_app. cbn [marks panel_titles panel_bars error_bars filter flat_map is_mark is_bar]. rewrite !app_nil_r.
  split; [exact M|]. split; [exact T|]. unfold final_ticks in *. rewrite !fold_left_app, X, Y. split; [reflexivity|]. split; [reflexivity|exact R].
Qed.
(** ** The rows *)
Lemma row_cells i cf row : summary_row num cfg truths b err (i, cf) = Ok row ->
  exists colour cells, chain_colour (fst cf) = Ok colour /\ row = ([AxisOff; NameText (ch_name (fst cf)) (if p_legend_color_text cfg then colour else "k")], None) :: cells /\
    length cells = length (pb_columns b) /\ forall j p, nth_error (pb_columns b) j = Some p -> exists calls top, nth_error cells j = Some (calls, top) /\ cell_facts i cf colour p calls top None.
Proof.
  unfold summary_row. intros H. apply rbind_ok in H as [colour [HC H]]. destruct (rmapM _ _) as [cells|] eqn:E; [|discriminate]. cbn [rmap] in H. injection H as <-. apply rmapM_Ok_iff in E as [L E].
  exists colour, cells. split; [exact HC|]. split; [reflexivity|]. split; [exact L|]. intros j p Hp. destruct (E j p Hp) as [[calls top] [K1 K2]]. exists calls, top. split; [exact K1|]. apply cell_ok. exact K2.
Qed.
(** ** The highest values *)
Lemma max_step_other acc pm p : p <> fst pm -> dget p (max_vals_step acc pm) = dget p acc.
Proof.
  intros N. unfold max_vals_step. destruct (snd pm) as [m|]; [|reflexivity]. destruct (dget (fst pm) acc) as [m0|]; [destruct (qltb m0 m); [|reflexivity]|]; apply dget_dset_other; congruence.
Qed.
Lemma max_fold entries : forall acc p,
  match dget p (fold_left max_vals_step entries acc) with
  | Some m => (forall t, In (p, Some t) entries \/ dget p acc = Some t -> t <= m)%Q /\ (In (p, Some m) entries \/ dget p acc = Some m)
  | None => dget p acc = None /\ forall t, ~ In (p, Some t) entries
  end.
Proof.
  induction entries as [|[q o] entries IH]; intros acc p; cbn [fold_left].
  - destruct (dget p acc) as [m|]; [|split; [reflexivity|intros t []]]. split; [intros t [[]|E]; injection E as ->; lra|right; reflexivity].
  - specialize (IH (max_vals_step acc (q, o)) p). destruct (String.eqb_spec p q) as [->|N].
    + unfold max_vals_step in IH at 2 3. cbn [fst snd] in IH. destruct o as [x|].
      * assert (ES : exists y, dget q (max_vals_step acc (q, Some x)) = Some y /\ (x <= y)%Q /\ (forall z, dget q acc = Some z -> z <= y)%Q /\ (y = x \/ dget q acc = Some y)).
        { unfold max_vals_step. cbn [fst snd]. destruct (dget q acc) as [z|] eqn:EZ.
          - destruct (qltb z x) eqn:EL; [apply qlt_true in EL|apply qlt_false in EL].
            + rewrite dget_dset_same. exists x. split; [reflexivity|]. split; [lra|]. split; [intros w K; injection K as ->; lra|left; reflexivity].
            + exists z. split; [exact EZ|]. split; [exact EL|]. split; [intros w K; injection K as ->; lra|right; reflexivity].
          - rewrite dget_dset_same. exists x. split; [reflexivity|]. split; [lra|]. split; [discriminate|left; reflexivity]. }
        destruct ES as [y [Y1 [Y2 [Y3 Y4]]]]. fold (max_vals_step acc (q, Some x)) in IH.
        replace (match dget q acc with Some m0 => if qltb m0 x then dset q x acc else acc | None => dset q x acc end) with (max_vals_step acc (q, Some x)) in IH by reflexivity. rewrite Y1 in IH.
        destruct (dget q (fold_left _ _ _)) as [m|]; [|destruct IH; discriminate]. destruct IH as [I1 I2]. split.
        -- intros t [[K|K]|K]; [injection K as <-; specialize (I1 y (or_intror eq_refl)); lra|apply I1; left; exact K|]. specialize (Y3 t K). specialize (I1 y (or_intror eq_refl)). lra.
        -- destruct I2 as [I2|I2]; [left; right; exact I2|]. injection I2 as <-. destruct Y4 as [->|Y4]; [left; left; reflexivity|right; exact Y4].
      * cbn [max_vals_step snd] in IH. replace (max_vals_step acc (q, None)) with acc in * by reflexivity. destruct (dget q (fold_left _ _ _)) as [m|].
        -- destruct IH as [I1 I2]. split; [intros t [[K|K]|K]; [discriminate|apply I1; left; exact K|apply I1; right; exact K]|]. destruct I2 as [I2|I2]; [left; right; exact I2|right; exact I2].
        -- destruct IH as [I1 I2]. split; [exact I1|]. intros t [K|K]; [discriminate|exact (I2 t K)].
    + rewrite (max_step_other acc (q, o) p N) in IH. destruct (dget p (fold_left _ _ _)) as [m|].
      * destruct IH as [I1 I2]. split; [intros t [[K|K]|K]; [injection K; congruence|apply I1; left; exact K|apply I1; right; exact K]|]. destruct I2 as [I2|I2]; [left; right; exact I2|right; exact I2].
      * destruct IH as [I1 I2]. split; [exact I1|]. intros t [K|K]; [injection K; congruence|exact (I2 t K)].
Qed.
Lemma max_vals_entries cols rows : max_vals cols rows = fold_left max_vals_step (flat_map (fun row => combine cols (map snd (tl row))) rows) [].
Proof.
  unfold max_vals. generalize (@nil (string * Q)) as acc. induction rows as [|row rows IH]; intros acc; [reflexivity|]. cbn [fold_left flat_map]. rewrite fold_left_app. apply IH.
Qed.
Lemma max_vals_ok cols rows p m : dget p (max_vals cols rows) = Some m ->
  (forall row j calls t, In row rows -> nth_error cols j = Some p -> nth_error (tl row) j = Some (calls, Some t) -> t <= m)%Q /\
  exists row j calls, In row rows /\ nth_error cols j = Some p /\ nth_error (tl row) j = Some (calls, Some m).
Proof.
  intros H. rewrite max_vals_entries in H. pose proof (max_fold (flat_map (fun row => combine cols (map snd (tl row))) rows) [] p) as K. rewrite H in K. destruct K as [K1 K2]. split.
  - intros row j calls t HR HJ HC. apply K1. left. apply in_flat_map. exists row. split; [exact HR|]. apply nth_error_In with (n := j). apply nth_error_combine; [exact HJ|]. rewrite nth_error_map, HC. reflexivity.
  - destruct K2 as [K2|K2]; [|discriminate]. apply in_flat_map in K2 as [row [HR K2]]. apply In_nth_error in K2 as [j K2]. apply nth_error_combine_inv in K2 as [J1 J2]. rewrite nth_error_map in J2.
    destruct (nth_error (tl row) j) as [[calls o]|] eqn:E; [|discriminate]. cbn in J2. injection J2 as ->. exists row, j, calls. auto.
Qed.
Lemma scale_row_ok cols mv (row row' : list (list call)) : scale_row cols mv row = Ok row' -> (length cols <= length row)%nat ->
  length row' = length row /\ forall k c, nth_error row k = Some c -> exists c', nth_error row' k = Some c' /\
    match nth_error cols k with Some p => exists m, dget p mv = Some m /\ c' = c ++ [Limits AY 0 ((11 # 10) * m)%Q] | None => c' = c end.
Proof.
  unfold scale_row. intros H HL. destruct (rmapM _ _) as [lims|] eqn:E; [|discriminate]. cbn [rmap] in H. injection H as <-. apply rmapM_Ok_iff in E as [L E]. rewrite combine_length, Nat.min_r in L by exact HL.
  assert (LL : length (lims ++ repeat [] (length row - length lims)) = length row) by (rewrite app_length, repeat_length; lia).
  split; [rewrite map_length, combine_length, LL; apply Nat.min_id|]. intros k c HK.
  assert (KL : (k < length row)%nat) by (apply nth_error_Some; congruence).
  destruct (nth_error (lims ++ repeat [] (length row - length lims)) k) as [x|] eqn:EX; [|apply nth_error_None in EX; lia].
  exists (c ++ x). split; [rewrite nth_error_map, (nth_error_combine _ _ _ _ _ HK EX); reflexivity|].
  destruct (nth_error cols k) as [p|] eqn:EC.
  - destruct (E k (c, p) (nth_error_combine _ _ _ _ _ HK EC)) as [y [Y1 Y2]]. cbn [snd] in Y2. rewrite nth_error_app1 in EX by (apply nth_error_Some; congruence). destruct (dget p mv) as [m|]; [|discriminate]. injection Y2 as <-. exists m. split; [reflexivity|]. congruence.
  - apply nth_error_None in EC. rewrite nth_error_app2 in EX by lia. apply nth_error_In, repeat_spec in EX. subst. apply app_nil_r.
Qed.
End cell.

(** ** The figure *)
Lemma summary_figure_ok num tw cfg truths b size err sp vr file fig : summary_figure num tw cfg truths b size err sp vr file = Ok fig ->
  let n := length (pb_chains b) in let m := length (pb_columns b) in
  (0 < n)%nat /\ (0 < m)%nat /\ grid_shape fig n (S m) /\
  (exists tops : list (list (option Q)), length tops = n /\
    forall i cf, nth_error (pb_chains b) i = Some cf -> exists colour trow, chain_colour (fst cf) = Ok colour /\ nth_error tops i = Some trow /\
      (exists name_lims, axis fig i 0 ([AxisOff; NameText (ch_name (fst cf)) (if p_legend_color_text cfg then colour else "k")] ++ name_lims) /\ Forall (fun c => exists lo hi, c = Limits AY lo hi) name_lims) /\
      (forall j p, nth_error (pb_columns b) j = Some p -> exists calls top, axis fig i (S j) calls /\ nth_error trow j = Some top /\
         ((err = true /\ cell_facts num cfg truths b err i cf colour p calls top None) \/
          (err = false /\ (match nth_error (pb_columns b) (S j) with
             | None => cell_facts num cfg truths b err i cf colour p calls top None
             | Some q => exists h, cell_facts num cfg truths b err i cf colour p calls top (Some (0, (11 # 10) * h)%Q) /\
                 (forall i' j' trow' t, nth_error tops i' = Some trow' -> nth_error (pb_columns b) j' = Some q -> nth_error trow' j' = Some (Some t) -> t <= h)%Q /\
                 exists i' j' trow', nth_error tops i' = Some trow' /\ nth_error (pb_columns b) j' = Some q /\ nth_error trow' j' = Some (Some h)
             end))))) /\
  (exists mp mn, is_max mp (map tw (pb_columns b)) /\ is_max mn (map tw (map (fun cf => ch_name (fst cf)) (pb_chains b))) /\
     fg_size fig = (((sp + qmax (1 # 2) (mp / 65)) * nq m + ((1 # 4) + mn / 65)) * size, ((1 # 2) + (if err then (1 # 2) else (4 # 5)) * vr * nq n) * size)%Q) /\
  saves cfg file (fg_saved fig) /\ fg_legend fig = None /\ fg_bars fig = [].
Proof.
  intros H n m. unfold summary_figure in H. apply rbind_ok in H as [mp [H1 H]]. apply rbind_ok in H as [mn [H2 H]]. cbv zeta in H. destruct (Qeq_bool _ 0); [discriminate|]. apply rbind_ok in H as [u [HS H]]. apply subplots_ok in HS as [R0 [C0 _]].
  apply rbind_ok in H as [rows [HR H]]. apply rbind_ok in H as [axes [HA H]]. injection H as <-. fold n in R0.
  assert (TX : forall l x, size_of_texts tw l = Ok x -> is_max x (map tw l) /\ l <> []). { intros l x K. unfold size_of_texts in K. destruct l as [|y l]; [discriminate|]. cbn [map] in *. injection K as <-. split; [|discriminate]. destruct (qmax_list_spec (tw y) (map tw l)). split; assumption. }
  destruct (TX _ _ H1) as [X1 X2], (TX _ _ H2) as [X3 _].
  split; [exact R0|]. split; [unfold m; destruct (pb_columns b); [contradiction|cbn; lia]|].
  apply rmapM_Ok_iff in HR as [LR HR]. rewrite enum_length in LR. fold n in LR.
  assert (ROW : forall i cf, nth_error (pb_chains b) i = Some cf -> exists row, nth_error rows i = Some row /\ summary_row num cfg truths b err (i, cf) = Ok row).
  { intros i cf Hi. destruct (HR i (i, cf) (nth_error_enum _ _ _ Hi)) as [row K]. eauto. }
  assert (RI : forall row, In row rows -> exists i cf, nth_error (pb_chains b) i = Some cf /\ nth_error rows i = Some row /\ summary_row num cfg truths b err (i, cf) = Ok row).
  { intros row HI. apply In_nth_error in HI as [i HI]. assert (L : (i < n)%nat) by (rewrite <- LR; apply nth_error_Some; congruence). destruct (nth_error (pb_chains b) i) as [cf|] eqn:EC; [|apply nth_error_None in EC; unfold n in L; lia].
    destruct (ROW i cf EC) as [row' [K1 K2]]. exists i, cf. split; [exact EC|]. split; [exact HI|]. congruence. }
  assert (RL : forall row, In row rows -> length row = S m). { intros row HI. destruct (RI row HI) as [i [cf [_ [_ K]]]]. destruct (row_cells _ _ _ _ _ _ _ _ K) as [colour [cells [_ [-> [L _]]]]]. cbn. unfold m. congruence. }
  unfold grid_shape, axis. cbn [fg_axes fg_size fg_saved fg_legend fg_bars].
  split; [|split; [|split; [exists mp, mn; split; [exact X1|]; split; [exact X3|reflexivity]|split; [apply saved_files_ok|split; reflexivity]]]].
  - destruct err.
    + injection HA as <-. rewrite map_length. split; [exact LR|]. intros row HI. apply in_map_iff in HI as [r [<- HI]]. rewrite map_length. apply RL. exact HI.
    + apply rmapM_Ok_iff in HA as [LA HA]. split; [congruence|]. intros row HI. apply In_nth_error in HI as [i HI]. assert (L : (i < length rows)%nat) by (rewrite <- LA; apply nth_error_Some; congruence).
      destruct (nth_error rows i) as [r|] eqn:ER; [|apply nth_error_None in ER; lia]. destruct (HA i r ER) as [row' [K1 K2]]. pose proof (RL r (nth_error_In _ _ ER)) as LL. apply scale_row_ok in K2 as [K2 _]; [|rewrite map_length, LL; unfold m; lia]. rewrite map_length in K2. congruence.
  - exists (map (fun row => map snd (tl row)) rows). split; [rewrite map_length; exact LR|]. intros i cf Hi. destruct (ROW i cf Hi) as [row [Q1 Q2]]. destruct (row_cells _ _ _ _ _ _ _ _ Q2) as [colour [cells [C1 [-> [C2 C3]]]]].
    exists colour, (map snd cells). split; [exact C1|]. split; [rewrite nth_error_map, Q1; reflexivity|]. set (name := [AxisOff; NameText _ _]) in *.
    destruct err eqn:EE.
    + injection HA as <-. split.
      * exists []. split; [|constructor]. exists (name :: map fst cells). split; [rewrite nth_error_map, Q1; reflexivity|rewrite app_nil_r; reflexivity].
      * intros j p Hp. destruct (C3 j p Hp) as [calls [top [K1 K2]]]. exists calls, top. split; [exists (name :: map fst cells); split; [rewrite nth_error_map, Q1; reflexivity|cbn [nth_error]; rewrite nth_error_map, K1; reflexivity]|].
        split; [rewrite nth_error_map, K1; reflexivity|]. left. split; [reflexivity|exact K2].
    + apply rmapM_Ok_iff in HA as [LA HA]. destruct (HA i _ Q1) as [row' [A1 A2]]. cbn [map fst] in A2. apply scale_row_ok in A2 as [_ A2]; [|cbn [length]; rewrite map_length, C2; lia].
      split.
      * destruct (A2 0%nat name eq_refl) as [c' [K1 K2]]. destruct (nth_error (pb_columns b) 0) as [p|]; [destruct K2 as [h [_ ->]]; exists [Limits AY 0 ((11 # 10) * h)%Q]|subst c'; exists []].
        -- split; [exists row'; auto|]. constructor; [eauto|constructor].
        -- split; [exists row'; rewrite app_nil_r; auto|constructor].
      * intros j p Hp. destruct (C3 j p Hp) as [calls [top [K1 K2]]]. destruct (A2 (S j) calls) as [c' [K3 K4]]; [cbn [nth_error]; rewrite nth_error_map, K1; reflexivity|].
        exists c', top. split; [exists row'; auto|]. split; [rewrite nth_error_map, K1; reflexivity|]. right. split; [reflexivity|].
        destruct (nth_error (pb_columns b) (S j)) as [q|]; [|subst c'; exact K2]. destruct K4 as [h [K4 ->]]. exists h. split; [apply cell_limits; exact K2|]. apply max_vals_ok in K4 as [V1 V2]. split.
        -- intros i' j' trow' t W1 W2 W3. rewrite nth_error_map in W1. destruct (nth_error rows i') as [r|] eqn:ER; [|discriminate]. cbn in W1. injection W1 as <-. rewrite nth_error_map in W3. destruct (nth_error (tl r) j') as [[cs o]|] eqn:ET; [|discriminate]. cbn in W3. injection W3 as ->.
           exact (V1 r j' cs t (nth_error_In _ _ ER) W2 ET).
        -- destruct V2 as [r [j' [cs [W1 [W2 W3]]]]]. apply In_nth_error in W1 as [i' W1]. exists i', j', (map snd (tl r)). split; [rewrite nth_error_map, W1; reflexivity|]. split; [exact W2|]. rewrite nth_error_map, W3. reflexivity.
Qed.
