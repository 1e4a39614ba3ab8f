(** C109: chains and figures for which nothing is set. *)
From Coq Require Import String List Bool Arith ZArith QArith Lia.
From Verif Require Import Py NumModel ColorModel MarginalModel FrameModel ConfigModel ChainModel RegistryModel RegistrySpec RegistryProps ChainSpec ChainProps TextModel AnalysisModel AnalysisProps SurfaceModel FigureModel FigureSpec FigureCases SurfaceProofs FigureProofs TriangleProofs ConsumerSpec ConsumerProofs ConsumerProps DefaultsSpec.
Import ListNotations.
Open Scope string_scope.
Open Scope list_scope.

(** Every setting the caller does not give has its documented value; the statistic is the maximum, or the narrowest
    interval for a chain that the caller marks as multimodal. *)
Theorem C109_chain : forall rgb2hex h a h' l c, frame_wf (frame_at h (a_samples a)) -> new_chain rgb2hex h a = (h', Ok l) -> chain_at h' l = Some c ->
  (forall s, a_cfg a s = None -> s <> Fstatistics -> documented s (ch_cfg c s)) /\
  (a_cfg a Fstatistics = None -> a_cfg a Fmultimodal = None \/ a_cfg a Fmultimodal = Some false -> ch_cfg c Fstatistics = Some SMax) /\
  (a_cfg a Fstatistics = None -> a_cfg a Fmultimodal = Some true -> ch_cfg c Fstatistics = Some SHdi).
Proof.
  intros rgb h a h' l c W H HC. destruct (C61_settings rgb h a h' l c W H HC) as [A [B [D _]]]. split; [|split].
  - intros s E N. rewrite (B s E N). destruct s; try constructor. exfalso. apply N. reflexivity.
  - intros E M. specialize (D (or_introl E)). unfold stored_statistic in D. rewrite D. destruct M as [M|M].
    + rewrite (B _ M) by discriminate. reflexivity.
    + pose proof (A _ _ M) as S. cbn [stored] in S. rewrite S. reflexivity.
  - intros E M. specialize (D (or_introl E)). unfold stored_statistic in D. rewrite D. pose proof (A _ _ M) as S. cbn [stored] in S. rewrite S. reflexivity.
Qed.
Print Assumptions C109_chain.

(** A figure drawn by a consumer without a configuration is the figure drawn by one that was given all documented
    values explicitly, and leaves the matplotlib parameters the same. *)
Theorem C109_config : forall k s d, pl_config (s_plotter s) = None ->
  let plain := draw_figure k s d in let told := draw_figure k (set_plot_config s documented_config) d in
  snd plain = snd told /\ s_rc (fst plain) = s_rc (fst told) /\ s_world (fst plain) = s_world (fst told).
Proof.
  intros k s d E plain told. unfold plain, told. destruct (draw_form k d) as [num [columns [wide [f F]]]]. rewrite !F. unfold with_base, set_plot_config, set_config, config_in_use.
  cbn [s_plotter s_world s_rc s_truths pl_config dflt]. rewrite E. cbn [dflt]. change documented_config with default_plot_config.
  destruct (sanitise num default_plot_config (s_world s) (s_rc s) (asks_for d) columns wide) as [[w1 rc1] rb]. repeat split.
Qed.
Print Assumptions C109_config.

(** What this means for a figure: sans-serif fonts without LaTeX, no watermark, files of 300 dots per inch. *)
Theorem C109_figure : forall k s d s' fig, pl_config (s_plotter s) = None -> draw_figure k s d = (s', Ok fig) ->
  rc_usetex (s_rc s') = false /\ rc_family (s_rc s') = ["sans-serif"] /\ rc_other (s_rc s') = rc_other (s_rc s) /\
  fg_watermark fig = None /\ (forall file dpi, In (file, dpi) (fg_saved fig) -> dpi = 300%Z).
Proof.
  intros k s d s' fig E H. assert (HC : config_of s documented_config) by (unfold config_of, given; rewrite E; reflexivity).
  destruct (C57_draw k s d s' (Ok fig) _ HC H) as [_ D]. specialize (D fig eq_refl). destruct D as [D1 [D2 D3]]. split; [exact D1|]. split; [exact D2|]. split; [exact D3|].
  split; [exact (C58_watermark k s d s' fig _ HC H (NoDup_nil _))|].
  assert (SV : exists file, saves documented_config file (fg_saved fig)).
  { destruct (drawn_parts k s d s' fig _ HC H) as [b P]. destruct d.
    - apply plot_figure_parts in P. destruct P as [_ [P _]]. eexists. exact P.
    - unfold walks_figure in P. cbv zeta in P. repeat match type of P with rbind _ _ = Ok _ => apply rbind_ok in P as [? [_ P]] end. injection P as <-. cbn [fg_saved]. eexists. apply saved_files_ok.
    - unfold distributions_figure in P. cbv zeta in P. repeat match type of P with rbind _ _ = Ok _ => apply rbind_ok in P as [? [_ P]] | (if ?c then Err _ else _) = Ok _ => destruct c; [discriminate|] end. injection P as <-. cbn [fg_saved]. eexists. apply saved_files_ok.
    - unfold summary_figure in P. cbv zeta in P. repeat match type of P with rbind _ _ = Ok _ => apply rbind_ok in P as [? [_ P]] | (if ?c then Err _ else _) = Ok _ => destruct c; [discriminate|] end. injection P as <-. cbn [fg_saved]. eexists. apply saved_files_ok. }
  destruct SV as [file [_ SV]]. exact SV.
Qed.
Print Assumptions C109_figure.

(** Two chains without settings, then a figure of them without a configuration, saved to a file. *)
Definition ex109_session : FigureModel.session := {| s_world := ex34; s_truths := fig_truths; s_plotter := new_plotter fig_rc; s_rc := fig_rc |}.
Definition ex109_draw : drawing := DDistributions ReqAll (Some ["x"]) (FileOne "a.png") 1 SizeNone.
Definition ex109_view (r : FigureModel.session * res figure) : list (string * Z) := match snd r with Ok g => fg_saved g | Err _ => [] end.
Example C109_nonvacuous : frame_wf (frame_at fig_heap 0) /\
  (let '(h', r) := new_chain ex_rgb fig_heap (ex_args "A" no_kw) in r = Ok 0%nat /\ match chain_at h' 0 with Some c => ch_cfg c Fcmap = "viridis" /\ ch_cfg c Fstatistics = Some SMax | None => False end) /\
  a_cfg (ex_args "A" no_kw) Fcmap = None /\ pl_config (s_plotter ex109_session) = None /\ ex109_view (draw_figure ex_backend ex109_session ex109_draw) = [("a.png", 300%Z)].
Proof.
  split. { split; [repeat constructor; cbn; intuition discriminate|intros c l Hc; repeat (destruct Hc as [Hc|Hc]; [injection Hc as <- <-; reflexivity|]); destruct Hc]. }
  split; [vm_compute; auto|]. split; [reflexivity|]. split; [reflexivity|]. vm_compute. reflexivity.
Qed.
