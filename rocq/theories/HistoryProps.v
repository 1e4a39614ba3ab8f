(** C90: the latest override and the latest plotting configuration count. *)
From Coq Require Import String List Bool Arith ZArith QArith Reals Lia.
From Verif Require Import Py ColorModel MarginalModel FrameModel ConfigModel ChainModel ChainSpec RegistryModel RegistrySpec RegistryProofs RegistryProps AnalysisModel FigureModel FigureSpec ConsumerSpec ConsumerProofs HistorySpec.
Import ListNotations.
Open Scope string_scope.
Open Scope list_scope.

(** ** Following one setting through a session *)
Lemma latest_followed {A} (sets : action -> option A) (get : FigureModel.session -> option A) rgb k :
  (forall s a, get (act rgb k s a) = match sets a with Some v => Some v | None => get s end) ->
  forall past s x, get s = None -> latest sets past x -> get (acts rgb k s past) = x.
Proof.
  intros H. assert (K : forall l s, (forall a, In a l -> sets a = None) -> get (acts rgb k s l) = get s).
  { induction l as [|a l IH]; intros s N; [reflexivity|]. cbn [acts fold_left]. fold (acts rgb k (act rgb k s a) l). rewrite IH by (intros b Hb; apply N; right; exact Hb). rewrite H, (N a (or_introl eq_refl)). reflexivity. }
  intros past s [v|] G L; [|rewrite K by exact L; exact G]. destruct L as [before [a [after [-> [E N]]]]].
  unfold acts. rewrite fold_left_app. cbn [fold_left]. fold (acts rgb k s before). fold (acts rgb k (act rgb k (acts rgb k s before) a) after). rewrite K by exact N. rewrite H, E. reflexivity.
Qed.
Lemma add_chain_override w l : k_override (snd (fst (add_chain w l))) = k_override (snd w).
Proof. unfold add_chain. destruct w as [h q]. destruct (chain_at h l) as [c|]; [|reflexivity]. destruct (dmem _ _); reflexivity. Qed.
Lemma remove_name_override w n : k_override (snd (fst (remove_name w n))) = k_override (snd w).
Proof. unfold remove_name. destruct w as [h q]. destruct (dmem _ _); reflexivity. Qed.
Lemma step_override rgb w o : k_override (snd (fst (step rgb w o))) = match o with OpOverride ov => Some ov | _ => k_override (snd w) end.
Proof.
  destruct o as [a|l|l|loc name color size style alpha extra|n|l|ov|req b]; cbn [step].
  - destruct (new_chain rgb (fst w) a); reflexivity.
  - destruct (chain_at (fst w) l) as [c|]; [|reflexivity]. destruct (divide rgb (fst w) c); reflexivity.
  - pose proof (add_chain_override w l) as H. destruct (add_chain w l) as [w' r]. exact H.
  - destruct (add_marker rgb w loc name color size style alpha extra) as [w' r] eqn:E. unfold add_marker in E. destruct w as [h q]. destruct (match extra Fplot_contour with Some _ => true | None => _ end); [injection E as <- _; reflexivity|].
    destruct (alloc_frame h _) as [h1 lf]. destruct (new_chain rgb h1 _) as [h2 [l|e]]; [|injection E as <- _; reflexivity]. pose proof (add_chain_override (h2, q) l) as H. rewrite E in H. exact H.
  - pose proof (remove_name_override w n) as H. destruct (remove_name w n) as [w' r]. exact H.
  - unfold remove_chain. destruct (chain_at (fst w) l) as [c|] eqn:C; [|reflexivity]. pose proof (remove_name_override w (ch_name c)) as H. destruct (remove_name w (ch_name c)) as [w' r]. exact H.
  - reflexivity.
  - pose proof (proj2 (sanitise_world w req b)) as H. destruct (sanitise_chains w req b) as [w' r]. cbn [fst] in *. rewrite H. reflexivity.
Qed.
Lemma act_override rgb k s a : k_override (snd (s_world (act rgb k s a))) = match sets_override a with Some v => Some v | None => k_override (snd (s_world s)) end.
Proof.
  rewrite act_world. destruct a as [o|t|cfg|d| |rc]; cbn [ops_of run]; try reflexivity.
  - pose proof (step_override rgb (s_world s) o) as H. destruct (step rgb (s_world s) o) as [w1 e]. cbn [fst] in *. rewrite H. destruct o; reflexivity.
  - pose proof (step_override rgb (s_world s) (OpSelect (asks_for d) false)) as H. destruct (step rgb (s_world s) (OpSelect (asks_for d) false)) as [w1 e]. exact H.
Qed.
Lemma act_config rgb k s a : pl_config (s_plotter (act rgb k s a)) = match sets_config a with Some v => Some v | None => pl_config (s_plotter s) end.
Proof.
  destruct a as [o|t|cfg|d| |rc]; cbn [act sets_config]; try reflexivity; [destruct (new_truth _ _); reflexivity|].
  destruct (draw_form k d) as [num [columns [wide [f ->]]]]. destruct (with_base_rest num s (asks_for d) columns wide f) as [_ ->]. reflexivity.
Qed.

(** * C90 *)
(** The settings of the chains used for output follow the override that was set last, whatever was called before, between and
    after; earlier overrides are forgotten as a whole. *)
Theorem C90_override : forall rgb2hex k h rc past ov, latest sets_override past ov ->
  let w := s_world (acts rgb2hex k (fresh h rc) past) in
  forall w' finals, get_final_chains w = (w', Ok finals) ->
  length finals = length (get_names w) /\
  forall i n, nth_error (get_names w) i = Some n ->
  exists l c l' cfg', get_chain w n = Ok l /\ chain_at (fst w) l = Some c /\ nth_error finals i = Some (n, l') /\ chain_at (fst w') l' = Some (with_cfg c cfg') /\
    exists pal, precedence ov (num_contour_chains (fst w) (k_chains (snd w))) pal c cfg'.
Proof.
  intros rgb k h rc past ov L w w' finals H.
  assert (R : reachable rgb w) by (unfold w; rewrite acts_world; eexists h, _, _; apply surjective_pairing).
  assert (E : k_override (snd w) = ov) by (apply (latest_followed sets_override (fun s => k_override (snd (s_world s))) rgb k (act_override rgb k)); [reflexivity|exact L]).
  destruct (C03_precedence rgb w w' finals R H) as [A B]. split; [exact A|]. intros i n Hi. destruct (B i n Hi) as [l [c [l' [cfg' (B1&B2&B3&B4&_&pal&_&B5)]]]].
  exists l, c, l', cfg'. repeat (split; [assumption|]). exists pal. rewrite <- E. exact B5.
Qed.
Print Assumptions C90_override.
(** Figures use the plotting configuration that was set last, the default one if none was. *)
Theorem C90_config : forall rgb2hex k h rc past oc cfg, latest sets_config past oc ->
  (config_of (acts rgb2hex k (fresh h rc) past) cfg <-> cfg = match oc with Some c => c | None => default_plot_config end).
Proof.
  intros rgb k h rc past oc cfg L. unfold config_of, given.
  rewrite (latest_followed sets_config (fun s => pl_config (s_plotter s)) rgb k (act_config rgb k) past (fresh h rc) oc eq_refl L). destruct oc; split; congruence.
Qed.
Print Assumptions C90_config.

(** Chains and an override of the line width; then another override (of the line style) and two configurations. *)
Definition ex90_override : config_obj := {| o_cfg := cset default_config Flinestyle "--"; o_user := fun f => match f with Flinestyle => true | _ => false end |}.
Definition ex90_config : plot_config := {|
  p_labels := [("a", "$A$")]; p_max_ticks := 3; p_plot_hists := false; p_flip := true; p_serif := None; p_usetex := None; p_label_font_size := 9; p_spacing := None; p_show_legend := None; p_legend_kwargs := [];
  p_legend_location := None; p_legend_artists := None; p_legend_color_text := true; p_watermark := None; p_watermark_text_kwargs := []; p_summarise := false; p_sigma2d := true; p_blind := BlindBool false;
  p_log_scales := []; p_extents := []; p_dpi := 100 |}.
Definition ex90_past : list action := map ARegistry ex_ops ++ [AConfig default_plot_config; ARegistry (OpOverride ex90_override); AConfig ex90_config; ARestore; ARegistry (OpRemove "B")].
Definition ex90_settings (k : backend) : list (string * (Q * string)) :=
  match get_final_chains (s_world (acts ex_rgb k (fresh ex_heap {| rc_usetex := false; rc_family := []; rc_other := [] |}) ex90_past)) with
  | (w', Ok finals) => flat_map (fun nl => match chain_at (fst w') (snd nl) with Some c => [(fst nl, (ch_cfg c Flinewidth, ch_cfg c Flinestyle))] | None => [] end) finals
  | _ => []
  end.
Example C90_nonvacuous : latest sets_override ex90_past (Some ex90_override) /\ latest sets_config ex90_past (Some ex90_config) /\
  latest sets_override [ARestore] None /\ forall k, ex90_settings k = [("C", (1, "--")); ("A", (1, "--")); ("M", (1, "--"))].
Proof.
  split; [|split; [|split]].
  - exists (map ARegistry ex_ops ++ [AConfig default_plot_config]), (ARegistry (OpOverride ex90_override)), [AConfig ex90_config; ARestore; ARegistry (OpRemove "B")]. repeat split.
    intros b [<-|[<-|[<-|[]]]]; reflexivity.
  - exists (map ARegistry ex_ops ++ [AConfig default_plot_config; ARegistry (OpOverride ex90_override)]), (AConfig ex90_config), [ARestore; ARegistry (OpRemove "B")]. repeat split. intros b [<-|[<-|[]]]; reflexivity.
  - intros a [<-|[]]. reflexivity.
  - intros k. vm_compute. reflexivity.
Qed.
