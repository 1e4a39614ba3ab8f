(** C78: the shades of the contour bands and lines. *)
From Coq Require Import String QArith List Arith ZArith Bool Reals Qreals Lia Lra.
From Verif Require Import Py NumSpec NumModel NumFacts HelpersModel MarginalModel FrameModel ConfigModel ChainModel ColorModel ColorSpec ColorProofs RegistryModel
  AnalysisModel RegistryProofs RegistryProps AnalysisProps ShadeModel ShadeSpec ShadeProofs SurfaceSpec SurfaceModel SurfaceProofs SurfaceProps.
Import ListNotations.
Open Scope R_scope.

(** One colour per level, for the bands and for the lines: band i is the chain's colour with its channels multiplied
    by the factor of that band, line i the shade of the band inside it (the first line: of the first band). *)
Theorem C78_shades : forall num kde2 argsort Phi sigma2d c f px py ds base,
  plot_contour num kde2 argsort Phi sigma2d c f px py = Ok ds -> chain_colour c = Ok base -> valid_colour base ->
  -2 < Q2R (ch_cfg c Fshade_gradient) < 10 ->
  let n := length (ch_cfg c Fsigmas) in let g := Q2R (ch_cfg c Fshade_gradient) in
  exists bands lines, length bands = n /\ length lines = n /\
    (forall xc yc z lv cols a zo, In (Filled xc yc z lv cols a zo) ds -> cols = bands) /\
    (forall xc yc z lv cols st lw zo, In (Lines xc yc z lv cols st lw zo) ds -> cols = lines) /\
    (exists xc yc z lv st lw zo, In (Lines xc yc z lv lines st lw zo) ds) /\
    (forall i, (i < n)%nat -> shade_of (band_factor g n i) base (nth i bands EmptyString)) /\
    (forall i, (i < n)%nat -> shade_of (line_factor g (ch_cfg c Fshade)) (nth (i - 1) bands EmptyString) (nth i lines EmptyString)).
Proof.
  intros num kde2 argsort Phi s2 c f px py ds base H Eb V G. cbv zeta. apply contour_inv in H as [base' [cols [hist [xc [yc [vals [Eb' [Ec [_ [_ H]]]]]]]]]].
  rewrite Eb in Eb'. injection Eb' as <-. cbv zeta in H. destruct H as [N [_ [_ [_ [_ [_ [_ ->]]]]]]].
  assert (N1 : (1 <= length (ch_cfg c Fsigmas))%nat). { destruct (ch_cfg c Fsigmas); [exfalso; apply N; reflexivity|cbn; lia]. }
  destruct (contour_colours_spec base _ _ (ch_cfg c Fshade) V G N1) as [bands [lines [E [L1 [L2 [B [F R]]]]]]]. rewrite Ec in E. injection E as ->. cbn [fst snd].
  exists bands, lines. split; [exact L1|]. split; [exact L2|]. split; [|split; [|split; [|split; [exact B|]]]].
  - intros xc' yc' z' lv' cols' a' zo' HI. apply in_app_or in HI as [HI|[HI|HI]]; [|discriminate|].
    + destruct (_ && _) in HI; [|destruct HI]. destruct HI as [HI|[]]. injection HI as _ _ _ _ <- _ _. reflexivity.
    + destruct (ch_cfg c Fshow_contour_labels : bool); [|destruct HI]. destruct HI as [HI|[]]. discriminate.
  - intros xc' yc' z' lv' cols' st' lw' zo' HI. apply in_app_or in HI as [HI|[HI|HI]].
    + destruct (_ && _) in HI; [|destruct HI]. destruct HI as [HI|[]]. discriminate.
    + injection HI as _ _ _ _ <- _ _ _. reflexivity.
    + destruct (ch_cfg c Fshow_contour_labels : bool); [|destruct HI]. destruct HI as [HI|[]]. discriminate.
  - eexists _, _, _, _, _, _, _. apply in_or_app. right. left. reflexivity.
  - intros [|i] Hi; [exact F|]. replace (S i - 1)%nat with i by lia. apply R, Hi.
Qed.
Print Assumptions C78_shades.
Lemma shades_outward : forall g n (shade : bool) base bands lines, 0 <= g < 10 -> (1 <= n)%nat -> valid_colour base ->
  (forall i, (i < n)%nat -> shade_of (band_factor g n i) base (nth i bands EmptyString)) ->
  (forall i, (i < n)%nat -> shade_of (line_factor g shade) (nth (i - 1) bands EmptyString) (nth i lines EmptyString)) ->
  (forall i j, (i <= j < n)%nat -> no_lighter (nth i bands EmptyString) (nth j bands EmptyString)) /\
  no_lighter (nth 0 bands EmptyString) base /\ ((2 <= n)%nat -> no_lighter base (nth (n - 1) bands EmptyString)) /\
  (forall i, (i < n)%nat -> no_lighter (nth i lines EmptyString) (nth (i - 1) bands EmptyString)) /\
  (g = 0 -> forall i, (i < n)%nat -> same_channels base (nth i bands EmptyString)).
Proof.
  intros g n shade base bands lines G N V B L. split; [|split; [|split; [|split]]].
  - intros i j [A C]. apply (no_lighter_of (band_factor g n i) (band_factor g n j) base); [apply Rlt_le, band_factor_pos|apply band_factor_mono; assumption|apply B; lia|apply B; lia].
  - apply (no_lighter_of (band_factor g n 0) 1 base); [apply Rlt_le, band_factor_pos|apply band_factor_first, G|apply B; lia|apply shade_self, V].
  - intros H2. apply (no_lighter_of 1 (band_factor g n (n - 1)) base); [lra|apply band_factor_last; assumption|apply shade_self, V|apply B; lia].
  - intros i Hi. pose proof (line_factor_le g shade ltac:(lra)) as [P Q].
    apply (no_lighter_of (line_factor g shade) 1 (nth (i - 1) bands EmptyString)); [exact P|exact Q|apply L, Hi|apply shade_self, (shade_valid _ _ _ (B (i - 1)%nat ltac:(lia)))].
  - intros -> i Hi. apply same_of. rewrite <- (band_factor_flat n i). apply B, Hi.
Qed.
(** With a gradient from 0 to below 10 the bands get lighter from the inside out: the innermost is no lighter than the
    chain's colour, the outermost of two or more no darker, and a line is no lighter than the band inside it.  Without
    a gradient every band has the chain's colour. *)
Theorem C78_outward : forall num kde2 argsort Phi sigma2d c f px py ds base,
  plot_contour num kde2 argsort Phi sigma2d c f px py = Ok ds -> chain_colour c = Ok base -> valid_colour base ->
  let g := Q2R (ch_cfg c Fshade_gradient) in 0 <= g < 10 -> let n := length (ch_cfg c Fsigmas) in
  exists bands lines, length bands = n /\ length lines = n /\
    (forall xc yc z lv cols a zo, In (Filled xc yc z lv cols a zo) ds -> cols = bands) /\
    (forall xc yc z lv cols st lw zo, In (Lines xc yc z lv cols st lw zo) ds -> cols = lines) /\
    (forall i j, (i <= j < n)%nat -> no_lighter (nth i bands EmptyString) (nth j bands EmptyString)) /\
    no_lighter (nth 0 bands EmptyString) base /\ ((2 <= n)%nat -> no_lighter base (nth (n - 1) bands EmptyString)) /\
    (forall i, (i < n)%nat -> no_lighter (nth i lines EmptyString) (nth (i - 1) bands EmptyString)) /\
    (g = 0 -> forall i, (i < n)%nat -> same_channels base (nth i bands EmptyString)).
Proof.
  intros num kde2 argsort Phi s2 c f px py ds base H Eb V g G n. assert (G' : -2 < Q2R (ch_cfg c Fshade_gradient) < 10) by (unfold g in G; lra).
  assert (N1 : (1 <= n)%nat).
  { pose proof (contour_inv _ _ _ _ _ _ _ _ _ _ H) as [b [cols [hist [xc [yc [vals [_ [_ [_ [_ N]]]]]]]]]]. cbv zeta in N. destruct N as [N _].
    unfold n. destruct (ch_cfg c Fsigmas); [exfalso; apply N; reflexivity|cbn; lia]. }
  destruct (C78_shades _ _ _ _ _ _ _ _ _ _ _ H Eb V G') as [bands [lines [L1 [L2 [F1 [F2 [_ [B L]]]]]]]]. exists bands, lines.
  split; [exact L1|]. split; [exact L2|]. split; [exact F1|]. split; [exact F2|]. exact (shades_outward g n _ base bands lines G N1 V B L).
Qed.
Print Assumptions C78_outward.
(** A chain whose gradient is 10 or more, or -2 or less, cannot be drawn with contours. *)
Theorem C78_gradient_refuted : forall num kde2 argsort Phi sigma2d c f px py base, chain_colour c = Ok base -> valid_colour base ->
  ch_cfg c Fsigmas <> [] -> Q2R (ch_cfg c Fshade_gradient) <= -2 \/ 10 <= Q2R (ch_cfg c Fshade_gradient) ->
  plot_contour num kde2 argsort Phi sigma2d c f px py = Err ValueError.
Proof.
  intros num kde2 argsort Phi s2 c f px py base Eb V N G. unfold plot_contour. cbv zeta. rewrite Eb. cbn [rbind]. rewrite get_levels_length, steep_fails; [reflexivity|exact V| |exact G].
  destruct (ch_cfg c Fsigmas); [congruence|cbn; lia].
Qed.
Print Assumptions C78_gradient_refuted.
(** Nor can a chain that was accepted with a colour written with three hexadecimal digits. *)
Definition ex78_args (col : string) (g : Q) : cargs :=
  {| a_cfg := kset (kset no_kw Fcolor (Some (CName col))) Fshade_gradient g;
     a_samples := 0; a_name := "A"%string; a_weight := None; a_post := None; a_walkers := None; a_grid := Some true;
     a_nfree := None; a_ndata := None; a_power := None; a_showlabel := None; a_relheight := None |}.
Definition ex78_run (col : string) (g : Q) := new_chain ex_rgb {| h_frames := [ex43_frame]; h_chains := [] |} (ex78_args col g).
Theorem C78_short_refuted : exists h l c, ex78_run "#f00" 1 = (h, Ok l) /\ chain_at h l = Some c /\ ch_cfg c Fplot_contour = true /\
  forall num kde2 argsort Phi sigma2d px py, plot_contour num kde2 argsort Phi sigma2d c (frame_at h (ch_samples c)) px py = Err ValueError.
Proof.
  eexists _, _, _. split; [vm_compute; reflexivity|]. split; [reflexivity|]. split; [reflexivity|].
  intros num kde2 argsort Phi s2 px py. match goal with |- plot_contour _ _ _ _ _ ?cc _ _ _ = _ => set (c := cc) end. unfold plot_contour. cbv zeta.
  assert (E : chain_colour c = Ok "#f00"%string) by (vm_compute; reflexivity). rewrite E. cbn [rbind]. rewrite get_levels_length.
  rewrite (short_fails "f00" _ _ _ ValueError); [reflexivity|vm_compute; discriminate|vm_compute; reflexivity|vm_compute; lia].
Qed.
Print Assumptions C78_short_refuted.

Lemma shade_by f s r g b r' g' b' s' : shade_of f s s' -> is_colour s r g b -> r' = scaledR r f -> g' = scaledR g f -> b' = scaledR b f -> is_colour s' r' g' b'.
Proof.
  intros [r0 [g0 [b0 [r1 [g1 [b1 [C [C1 [X1 [X2 X3]]]]]]]]]] D -> -> ->. destruct (is_colour_fun _ _ _ _ _ _ _ C D) as [<- [<- <-]].
  apply channel_scaledR in X1, X2, X3. subst. exact C1.
Qed.
(** A chain meeting the hypotheses is drawn; with three levels its lines and bands have three colours each. *)
Example C78_nonvacuous : exists h l c, ex78_run "blue" 1 = (h, Ok l) /\ chain_at h l = Some c /\ let f := frame_at h (ch_samples c) in
  chain_colour c = Ok "#3b82f6"%string /\ valid_colour "#3b82f6" /\ ch_cfg c Fsigmas = [0%Q; 1%Q; 2%Q] /\ 0 <= Q2R (ch_cfg c Fshade_gradient) < 10 /\
  (forall s2, exists ds, plot_contour ex34_num ex43_kde2 sorted_argsort logistic s2 c f x_ y_ = Ok ds) /\
  (exists h' l' c', ex78_run "blue" 12 = (h', Ok l') /\ chain_at h' l' = Some c' /\ chain_colour c' = Ok "#3b82f6"%string /\ ch_cfg c' Fsigmas <> [] /\ 10 <= Q2R (ch_cfg c' Fshade_gradient)).
Proof.
  destruct ex43_num_ok as [N1 [N2 [N3 _]]].
  eexists _, _, _. split; [vm_compute; reflexivity|]. split; [reflexivity|]. cbv zeta.
  match goal with |- chain_colour ?cc = _ /\ _ => set (c := cc) end.
  assert (HB : chain_colour c = Ok "#3b82f6"%string) by (vm_compute; reflexivity). split; [exact HB|].
  assert (VB : valid_colour "#3b82f6"%string) by (apply validb_ok; vm_compute; reflexivity). split; [exact VB|].
  assert (HS : ch_cfg c Fsigmas = [0%Q; 1%Q; 2%Q]) by (vm_compute; reflexivity). split; [exact HS|].
  assert (HGr : 0 <= Q2R (ch_cfg c Fshade_gradient) < 10) by (assert (E : ch_cfg c Fshade_gradient = 1%Q) by (vm_compute; reflexivity); rewrite E; unfold Q2R; cbn; lra).
  split; [exact HGr|]. split.
  - intros s2. match goal with |- exists ds, plot_contour _ _ _ _ _ _ ?ff _ _ = _ => let f' := eval vm_compute in ff in change ff with f'; set (f := f') end.
    assert (HG : exists hist xc yc, get_smoothed_histogram2d ex34_num ex43_kde2 c f x_ y_ = Ok (hist, xc, yc) /\ length xc = 3%nat /\ length yc = 3%nat).
    { eexists _, _, _. split; [vm_compute; reflexivity|]. split; reflexivity. }
    destruct HG as [hist [xc [yc [HG [Lx Ly]]]]].
    assert (HW : weights c f = Ok [1%Q; 1%Q; 1%Q; 1%Q]) by (vm_compute; reflexivity).
    refine (contour_total _ _ _ _ _ c f _ _ _ _ _ _ sorted_argsort_ok logistic_ok N1 N2 N3 _ HB VB _ HG _ _ _ _ _ _); [|lra|lia|lia|rewrite HS; apply ex43_levels|rewrite HS; apply ex43_levels|rewrite HS; cbn [length]; lia|intros _; apply opaque_enough; vm_compute; reflexivity].
    intros w Ew. rewrite HW in Ew. injection Ew as <-. intros v [<-|[<-|[<-|[<-|[]]]]]; discriminate.
  - eexists _, _, _. split; [vm_compute; reflexivity|]. split; [reflexivity|]. split; [vm_compute; reflexivity|]. split; [vm_compute; discriminate|].
    match goal with |- 10 <= Q2R ?q => let v := eval vm_compute in q in change q with v end. unfold Q2R. cbn. lra.
Qed.
