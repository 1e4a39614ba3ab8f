(** C32, C34-C36: summaries and tables. *)
From Coq Require Import String Ascii List Bool Arith ZArith QArith Reals Qreals Lia.
From Verif Require Import Py ColorModel NumSpec NumModel MarginalModel FrameModel ConfigModel ChainModel RegistryModel CovModel FormatModel TextModel AnalysisModel
  ChainSpec RegistrySpec CovSpec FormatSpec CompareSpec TextSpec CompareModel AnalysisSpec
  GewekeProofs ChainProofs ChainProps ChainUseProofs RegistryProofs RegistryProps CovProps FormatProofs CompareProofs DiagProofs AnalysisProofs.
Import ListNotations.
Open Scope string_scope.
Open Scope list_scope.

(** * C32 *)
(** The given chain objects: the world is unchanged, every chain has its entry, and with different names
    the keys are the names in order. *)
Theorem C32_summary : forall num w locs columns w' d,
  get_summary num w (ReqList (map ByChain locs)) columns = (w', Ok d) ->
  w' = w /\ exists chains cols, objects (fst w) locs chains /\ asked columns chains cols /\ summaries_of num cols chains d /\
    (NoDup (map name_of chains) -> dkeys d = map name_of chains /\ Forall2 (summary_of num cols) chains (dvalues d)).
Proof.
  intros num w locs columns w' d H. assert (HO : exists chains, objects (fst w) locs chains).
  { unfold get_summary in H. cbn [rbind] in H. destruct columns as [l|]; cbn [rbind] in H.
    - injection H as _ H. exact (loop_objects _ _ _ _ _ _ H).
    - destruct (rmapM (ref_object (fst w)) (map ByChain locs)) as [chains|] eqn:E; [|discriminate]. exists chains. apply resolve_objects. exact E. }
  destruct HO as [chains HO]. rewrite (summary_list num w locs chains columns HO) in H. injection H as <- H. split; [reflexivity|].
  exists chains, (sanitise_columns columns chains). split; [exact HO|]. split; [apply asked_columns|]. exact (loop_ok _ _ _ _ _ _ HO H).
Qed.
Print Assumptions C32_summary.
(** Nothing requested: every stored chain, with its resolved settings, in insertion order, whether it draws
    anything or not. *)
Theorem C32_all : forall rgb2hex num w columns w1 finals w' d, reachable rgb2hex w -> get_final_chains w = (w1, Ok finals) ->
  get_summary num w ReqAll columns = (w', Ok d) ->
  w' = w1 /\ dkeys d = get_names w /\
  exists locs chains cols, selected (fst w1) finals true (get_names w) locs /\ objects (fst w1) locs chains /\ map name_of chains = get_names w /\
    asked columns chains cols /\ Forall2 (summary_of num cols) chains (dvalues d).
Proof.
  intros rgb num w columns w1 finals w' d R HG H. destruct (C51_default rgb w true w1 finals R HG) as [locs [E S]]. destruct (selected_objects _ _ _ _ _ S) as [chains [O [_ N]]]. specialize (N eq_refl).
  assert (G : get_summary num w ReqAll columns = get_summary num w1 (ReqList (map ByChain locs)) columns) by (unfold get_summary; rewrite E; reflexivity).
  rewrite G in H. destruct (C32_summary _ _ _ _ _ _ H) as [-> [chains' [cols [O' [A [_ K]]]]]]. rewrite (objects_fun _ _ _ _ O' O) in *.
  assert (ND : NoDup (map name_of chains)). { rewrite N. destruct (final_names _ _ _ (reachable_ok _ _ R) HG) as [<- [ND _]]. exact ND. }
  destruct (K ND) as [K1 K2]. split; [reflexivity|]. split; [congruence|]. exists locs, chains, cols. repeat (split; [assumption|]). exact K2.
Qed.
Print Assumptions C32_all.
(** It succeeds as soon as every chain can say something about each of its columns. *)
Theorem C32_total : forall num w locs columns chains cols, objects (fst w) locs chains -> asked columns chains cols ->
  (forall cf p, In cf chains -> In p cols -> is_column (snd cf) p -> exists e, entry_of num (fst cf) (snd cf) p e) ->
  exists d, get_summary num w (ReqList (map ByChain locs)) columns = (w, Ok d).
Proof.
  intros num w locs columns chains cols O A H. rewrite (summary_list num w locs chains columns O).
  assert (EC : forall p, In p (sanitise_columns columns chains) -> In p cols). { pose proof (asked_columns columns chains) as A'. destruct columns as [l|]; cbn [asked] in *; [congruence|]. intros p. rewrite (first_seen_In _ _ A'), (first_seen_In _ _ A). auto. }
  rewrite (summary_loop_fold _ _ _ _ _ _ O). destruct (rmapM_total (fun cf => chain_summary num (fst cf) (snd cf) (sanitise_columns columns chains) []) chains) as [ds E].
  - intros cf HC. apply chain_summary_total. intros p Hp. apply H; [exact HC|exact (EC p Hp)].
  - rewrite E. eexists. reflexivity.
Qed.
Print Assumptions C32_total.
(** The documented forms "list of names" and "dict of chains" do not work. *)
Theorem C32_by_name_refuted : forall num w columns,
  (forall n r, get_summary num w (ReqList (ByName n :: r)) columns = (w, Err AttributeError)) /\
  (forall kv r, get_summary num w (ReqDict (kv :: r)) columns = (w, Err AttributeError)).
Proof. intros num w columns. split; [intros n r|intros [k v] r]; destruct columns; reflexivity. Qed.
Print Assumptions C32_by_name_refuted.

(** * C34 *)
Definition latex_shape num repr arepr w labels blind columns req transpose caption label hlines blank finals (w1 : world) names : Prop :=
  forall w' text, get_latex_table num repr arepr w labels blind columns req transpose caption label hlines blank = (w', Ok text) ->
  w' = w1 /\ exists locs chains cols shown header rows,
    selected (fst w1) finals false names locs /\ objects (fst w1) locs chains /\ asked columns chains cols /\ kept (fun p => ~ hidden blind p) cols shown /\
    text = latex_table (dflt "" caption) (dflt "" label) (centred (length header)) (table_body hlines header rows) /\
    Forall (fun r => length r = length header) rows /\ latex_rows num labels chains blank transpose shown header rows.
Theorem C34_table : forall rgb2hex num repr arepr w labels blind columns req transpose caption label hlines blank w1 finals names,
  reachable rgb2hex w -> get_final_chains w = (w1, Ok finals) -> requested w req = map Some names -> NoDup names ->
  (forall s, caption = Some s \/ label = Some s -> ~ contains "%" s) ->
  latex_shape num repr arepr w labels blind columns req transpose caption label hlines blank finals w1 names.
Proof.
  intros rgb num repr arepr w labels blind columns req transpose caption label hlines blank w1 finals names R HG HR ND HP w' text H.
  destruct (latex_parts num repr arepr w labels blind columns req transpose hlines blank) as [w2 [r0 L]]. destruct (L caption label) as [L1 L2]. rewrite L1 in H. injection H as <- H.
  pose proof (selection_spec _ _ false _ _ _ (reachable_ok _ _ R) HG HR) as S. destruct (sanitise_chains w req false) as [w3 [locs|e]] eqn:ES.
  2:{ exfalso. unfold get_latex_table in L1. rewrite ES in L1. injection L1 as _ K. rewrite <- K in H. discriminate. }
  destruct S as [-> [_ S]]. assert (E2 : w1 = w2) by (unfold get_latex_table in L1; rewrite ES in L1; injection L1 as K _; exact K). subst w2.
  rewrite (L2 locs eq_refl) in H. destruct (table_parts_of _ _ _ _ _ _ _ _ _) as [[ct body]|] eqn:EP; [|discriminate]. cbn [rbind fst snd] in H. split; [reflexivity|].
  destruct (parts_ok _ _ _ _ _ _ _ _ _ _ _ EP) as [chains [cols [shown [header [rows [P1 [P2 [P3 P4]]]]]]]]. destruct (selected_objects _ _ _ _ _ S) as [chains' [O [[mine [O1 O2]] _]]]. rewrite (objects_fun _ _ _ _ O P1) in *.
  destruct P4 as [-> [-> [P5 P6]]]; [rewrite O2; exact (sublist_NoDup _ _ O1 ND)|]. rewrite table_verbatim in H.
  - injection H as <-. exists locs, chains, cols, shown, header, rows. repeat (split; [assumption|]). split; [reflexivity|]. split; assumption.
  - destruct caption; [apply HP; auto|apply contains_nil].
  - destruct label; [apply HP; auto|apply contains_nil].
Qed.
Print Assumptions C34_table.
(** By default all stored chains, which always have different names. *)
Theorem C34_all : forall rgb2hex num repr arepr w labels blind columns transpose caption label hlines blank w1 finals,
  reachable rgb2hex w -> get_final_chains w = (w1, Ok finals) -> (forall s, caption = Some s \/ label = Some s -> ~ contains "%" s) ->
  latex_shape num repr arepr w labels blind columns ReqAll transpose caption label hlines blank finals w1 (get_names w).
Proof.
  intros rgb num repr arepr w labels blind columns transpose caption label hlines blank w1 finals R HG HP. apply (C34_table rgb); try assumption; [reflexivity|].
  destruct (final_names _ _ _ (reachable_ok _ _ R) HG) as [<- [ND _]]. exact ND.
Qed.
Print Assumptions C34_all.
(** It succeeds if every selected chain has a text for each of its columns. *)
Theorem C34_total : forall rgb2hex num repr arepr w labels blind columns req transpose caption label hlines blank w1 finals names locs chains,
  reachable rgb2hex w -> get_final_chains w = (w1, Ok finals) -> requested w req = map Some names -> (forall n, In n names -> In n (get_names w)) ->
  (forall s, caption = Some s \/ label = Some s -> ~ contains "%" s) ->
  selected (fst w1) finals false names locs -> objects (fst w1) locs chains ->
  (forall cf p, In cf chains -> is_column (snd cf) p -> exists e, entry_of num (fst cf) (snd cf) p e) ->
  (forall cf p e, In cf chains -> entry_of num (fst cf) (snd cf) p e -> exists s, get_parameter_text e true None = Ok s) ->
  exists text, get_latex_table num repr arepr w labels blind columns req transpose caption label hlines blank = (w1, Ok text).
Proof.
  intros rgb num repr arepr w labels blind columns req transpose caption label hlines blank w1 finals names locs chains R HG HR HN HP S O HE HT.
  destruct (proj1 (C51_selection rgb w req false names w1 finals R HG HR) HN) as [locs' [ES S']].
  assert (EL : locs' = locs).
  { clear -S S'. revert locs' S'. induction S as [|n ns l ls c H1 H2 H3 H4 H IH|n ns l ls c H1 H2 H3 H4 H5 H IH]; intros locs' S'; inversion S'; subst; try reflexivity.
    - rewrite H1 in *. match goal with H : Some _ = Some _ |- _ => injection H as <- end. f_equal. apply IH. assumption.
    - exfalso. rewrite H1 in *. match goal with H : Some l = Some ?x |- _ => injection H as <- end. rewrite H2 in *. match goal with H : Some c = Some _ |- _ => injection H as <- end. destruct H4; congruence.
    - exfalso. rewrite H1 in *. match goal with H : Some l = Some ?x |- _ => injection H as <- end. rewrite H2 in *. match goal with H : Some c = Some _ |- _ => injection H as <- end. match goal with H : _ \/ _ |- _ => destruct H; congruence end.
    - apply IH. assumption. }
  subst locs'. destruct (latex_parts num repr arepr w labels blind columns req transpose hlines blank) as [w2 [r0 L]]. destruct (L caption label) as [L1 L2].
  assert (E2 : w1 = w2) by (unfold get_latex_table in L1; rewrite ES in L1; injection L1 as K _; exact K). subst w2. specialize (L2 locs ES). rewrite L1, L2.
  enough (G : exists ct body, table_parts_of num w1 labels blind columns locs transpose hlines blank = Ok (ct, body)).
  { destruct G as [ct [body ->]]. cbn [rbind fst snd]. eexists. rewrite table_verbatim; [reflexivity| |]; [destruct caption; [apply HP; auto|apply contains_nil]|destruct label; [apply HP; auto|apply contains_nil]]. }
  unfold table_parts_of. rewrite (objects_resolve _ _ _ O). cbn [rbind]. cbv zeta.
  destruct (C32_total num w1 locs None chains (sanitise_columns None chains) O (asked_columns None chains)) as [d ED]; [intros cf p HI _ HC; exact (HE cf p HI HC)|]. rewrite ED. cbn [snd rbind].
  destruct (C32_summary _ _ _ _ _ _ ED) as [_ [chains' [cols [O' [_ [[K1 K2] _]]]]]]. rewrite (objects_fun _ _ _ _ O' O) in *.
  assert (G : forall n s, In (n, s) d -> forall p, exists t, cell_text blank s p = Ok t).
  { intros n s HI p. unfold cell_text. destruct (dget p s) as [e|] eqn:EP; [|eexists; reflexivity].
    assert (NDd : NoDup (dkeys d)) by exact (proj1 (first_seen_spec _ _ K1)).
    assert (HD : dget n d = Some s) by (apply dget_nodup; assumption).
    assert (HN2 : In n (map (fun cf : chain * frame => ch_name (fst cf)) chains)). { apply (first_seen_In _ _ K1). apply (in_map fst) in HI. exact HI. }
    assert (LAST : forall l : list (chain * frame), In n (map (fun cf : chain * frame => ch_name (fst cf)) l) -> exists b cf a, l = b ++ cf :: a /\ ch_name (fst cf) = n /\ ~ In n (map (fun cf : chain * frame => ch_name (fst cf)) a)).
    { clear. induction l as [|x l IH]; [intros []|]. intros H. destruct (in_dec string_dec n (map (fun cf : chain * frame => ch_name (fst cf)) l)) as [I|I].
      - destruct (IH I) as [b [cf [a [-> H']]]]. exists (x :: b), cf, a. split; [reflexivity|exact H'].
      - destruct H as [H|H]; [|contradiction]. exists [], x, l. split; [reflexivity|]. split; assumption. }
    destruct (LAST _ HN2) as [b [cf [a [EC [EN NA]]]]]. subst n. destruct (K2 b cf a EC NA) as [s' [HS1 [_ HS2]]]. rewrite HD in HS1. injection HS1 as <-. apply (HT cf p e); [rewrite EC; apply in_or_app; right; left; reflexivity|]. exact (HS2 p e EP). }
  clear - G. set (shown := filter _ _). destruct transpose.
  - destruct (rmapM_total (fun p => rmap (fun cells => (tab ++ tab ++ get_label labels p)%string :: cells) (rmapM (fun kv => cell_text blank (snd kv) p) d)) shown) as [rows ER].
    + intros p _. destruct (rmapM_total (fun kv => cell_text blank (snd kv) p) d) as [ys E]; [intros [n s] HI; exact (G n s HI p)|]. rewrite E. eexists. reflexivity.
    + rewrite ER. eexists _, _. reflexivity.
  - destruct (rmapM_total (fun kv => rmap (fun cells => (tab ++ tab ++ fst kv)%string :: cells) (rmapM (cell_text blank (snd kv)) shown)) d) as [rows ER].
    + intros [n s] HI. destruct (rmapM_total (cell_text blank s) shown) as [ys E]; [intros p _; exact (G n s HI p)|]. cbn [snd]. rewrite E. eexists. reflexivity.
    + rewrite ER. eexists _, _. reflexivity.
Qed.
Print Assumptions C34_total.
(** ** Examples and failures *)
Definition ex34_num : numerics := {| n_bins := 10; n_points := 3; n_kde := 4; n_pad := 4; n_tries := 5; n_power := fun p h => h; n_kernel := fun _ => [1]; n_megkde := fun _ _ _ _ => 1 |}.
Definition ex34_f1 : frame := {| f_index := [LInt 0; LInt 1; LInt 2]; f_cols := [(CStr "x", [Fin 0; Fin 1; Fin 2]); (CStr "y", [Fin 4; Fin 2; Fin 6])] |}.
Definition ex34_f2 : frame := {| f_index := [LInt 0; LInt 1; LInt 2]; f_cols := [(CStr "x", [Fin 3; Fin 4; Fin 5]); (CStr "z", [Fin 4; Fin 2; Fin 6])] |}.
Definition ex34_heap : heap := {| h_frames := [ex34_f1; ex34_f2]; h_chains := [] |}.
Definition ex34_args (n : string) (samples : nat) (k : kwargs) : cargs :=
  {| a_cfg := kset (kset (kset (kset k Fsummary_area (3#5)) Fstatistics (Some SHdi)) Fbins (Some 4%Z)) Fsmooth (Some 0%Z); a_samples := samples; a_name := n; a_weight := None; a_post := None; a_walkers := None; a_grid := Some true;
     a_nfree := None; a_ndata := None; a_power := None; a_showlabel := None; a_relheight := None |}.
Definition ex34_ops : list op := [OpNewChain (ex34_args "A" 0 no_kw); OpNewChain (ex34_args "B" 1 (kset (kset no_kw Fplot_cloud true) Fcolor_param (Some "z"))); OpAdd 0; OpAdd 1].
Definition ex34 : world := fst (run ex_rgb (ex34_heap, new_consumer) ex34_ops).
Lemma ex34_reachable : reachable ex_rgb ex34.
Proof. exists ex34_heap, ex34_ops. eexists. apply surjective_pairing. Qed.
Definition ex_quote (s : string) : string := s.
Example C34_nonvacuous : get_names ex34 = ["A"; "B"] /\ NoDup ["A"; "B"] /\ (exists w1 finals, get_final_chains ex34 = (w1, Ok finals)) /\
  snd (get_latex_table ex34_num ex_quote ex_quote ex34 [("x", "$x$")] (BlindList ["y"]) None ReqAll false (Some "cap") None true "--") =
    Ok (latex_table "cap" "" "cc" (table_body true ["Model"; "$x$"] [["A"; "$0.0^{+1.0}_{-0.0}$"]; ["B"; "$3.0^{+1.0}_{-0.0}$"]])) /\
  snd (get_latex_table ex34_num ex_quote ex_quote ex34 [] BlindNone None ReqAll true None None false "--") =
    Ok (latex_table "" "" "ccc" (table_body false ["Parameter"; "A"; "B"] [["x"; "$0.0^{+1.0}_{-0.0}$"; "$3.0^{+1.0}_{-0.0}$"]; ["y"; "$2.0^{+2.0}_{-0.0}$"; "--"]])).
Proof.
  split; [reflexivity|]. split; [repeat constructor; cbn; intuition discriminate|]. split; [eexists _, _; vm_compute; reflexivity|]. split; vm_compute; reflexivity.
Qed.
Example C32_nonvacuous : (exists d, get_summary ex34_num ex34 (ReqList (map ByChain [0; 1]%nat)) (Some ["z"; "x"; "q"]) = (ex34, Ok d) /\ map (fun kv => (fst kv, dkeys (snd kv))) d = [("A", ["x"]); ("B", ["z"; "x"])]) /\
  (exists w' d, get_summary ex34_num ex34 ReqAll None = (w', Ok d)).
Proof. split; [eexists|eexists _, _]; [split|]; vm_compute; reflexivity. Qed.
(** The same chain twice: the header and the column specification have a place for both, the rows do not. *)
Theorem C34_repeated_refuted : exists rgb2hex num repr arepr w req w1 header rows, reachable rgb2hex w /\ requested w req = map Some ["A"; "A"] /\
  get_latex_table num repr arepr w [] BlindNone None req true None None true "--" = (w1, Ok (latex_table "" "" (centred (length header)) (table_body true header rows))) /\
  header = ["Parameter"; "A"; "A"] /\ rows <> [] /\ forall r, In r rows -> length r = 2%nat.
Proof.
  exists ex_rgb, ex34_num, ex_quote, ex_quote, ex34, (ReqList [ByName "A"; ByName "A"]). eexists _, ["Parameter"; "A"; "A"], [["x"; "$0.0^{+1.0}_{-0.0}$"]; ["y"; "$2.0^{+2.0}_{-0.0}$"]].
  split; [exact ex34_reachable|]. split; [reflexivity|]. split; [vm_compute; reflexivity|]. split; [reflexivity|]. split; [discriminate|]. intros r [<-|[<-|[]]]; reflexivity.
Qed.
Print Assumptions C34_repeated_refuted.
(** A column that only serves as colour of a cloud is left blank even if it is asked for and the chain has
    a value for it. *)
Theorem C34_colour_column_refuted : exists rgb2hex num repr arepr w w1 c f e s, reachable rgb2hex w /\
  get_latex_table num repr arepr w [] BlindNone (Some ["z"]) (ReqList [ByName "B"]) false None None true "--" =
    (w1, Ok (latex_table "" "" (centred 2) (table_body true ["Model"; "z"] [["B"; "--"]]))) /\
  about_chain w (Some (ByName "B")) c f /\ is_column f "z" /\ entry_of num c f "z" e /\ get_parameter_text e true None = Ok s.
Proof.
  exists ex_rgb, ex34_num, ex_quote, ex_quote, ex34. eexists _, _, _, _, _. split; [exact ex34_reachable|]. split; [vm_compute; reflexivity|].
  split; [exists 1%nat; split; [reflexivity|split; [reflexivity|reflexivity]]|]. split; [apply is_column_has; vm_compute; reflexivity|]. split; [eexists; split; [vm_compute; reflexivity|left; split; reflexivity]|]. vm_compute. reflexivity.
Qed.
Print Assumptions C34_colour_column_refuted.

(** * C35 *)
Lemma no_percent_opt o : (forall s, o = Some s -> ~ contains "%" s) -> ~ contains percent (dflt "" o).
Proof. intros H. destruct o as [s|]; [exact (H s eq_refl)|apply contains_nil]. Qed.
Lemma reachable_names rgb w : reachable rgb w -> NoDup (get_names w).
Proof. intros R. exact (proj1 (reachable_ok _ _ R)). Qed.
Lemma entry_nth m i j r q : nth_error m i = Some r -> nth_error r j = Some q -> q = entry m i j.
Proof. intros H1 H2. unfold entry. rewrite (nth_error_nth _ _ _ H1). symmetry. exact (nth_error_nth _ _ _ H2). Qed.
Lemma centry_nth m i j r q : nth_error m i = Some r -> nth_error r j = Some q -> q = centry m i j.
Proof. intros H1 H2. unfold centry. rewrite (nth_error_nth _ _ _ H1). symmetry. exact (nth_error_nth _ _ _ H2). Qed.
Theorem C35_covariance : forall rgb2hex repr arepr w labels which columns caption label c f cols xs ws, reachable rgb2hex w -> about_chain w which c f ->
  match columns with Some l => cols = l | None => cols = data_columns c f end -> weighted_data c f cols xs ws -> (2 <= length cols)%nat -> ~ contains "%" caption -> ~ contains "%" label ->
  exists ls text, Forall2 (shown_label labels) cols ls /\ get_covariance_table repr arepr w labels which columns caption label = Ok text /\
    square_table ls (fun i j s => shows_covariance (nth i xs []) (nth j xs []) ws s) caption label text.
Proof.
  intros rgb repr arepr w labels which columns caption label c f cols xs ws R A HC D L NC NL. apply (about_chain_spec w which c f (reachable_names _ _ R)) in A.
  assert (EC : get_covariance c f columns = get_covariance c f (Some cols)) by (destruct columns as [l|]; subst cols; reflexivity).
  destruct (C15_covariance c f cols xs ws D) as [m [M1 [[S1 S2] [M2 M3]]]]; [destruct cols; [cbn in L; lia|discriminate]|].
  destruct m as [q|m]; [exfalso; assert (length cols = 1%nat) by (apply M3; eexists; reflexivity); lia|]. cbn [rows] in *.
  destruct (table_2d_ok show_Q repr arepr labels {| nm_columns := cols; nm_matrix := Mat m |} m (fun i j s => shows_covariance (nth i xs []) (nth j xs []) ws s) caption label) as [ls [text [T1 [T2 T3]]]]; cbn [nm_columns nm_matrix]; try assumption; try reflexivity.
  - destruct cols; [cbn in L; lia|discriminate].
  - intros i j r q Hi Hj. assert (Li : (i < length cols)%nat) by (rewrite <- S1; apply nth_error_Some; congruence). assert (Lj : (j < length cols)%nat) by (rewrite <- (S2 r (nth_error_In _ _ Hi)); apply nth_error_Some; congruence).
    rewrite (entry_nth _ _ _ _ _ Hi Hj). exists (entry m i j), (fixed 2 (entry m i j)). split; [apply M2; assumption|]. split; [apply fixed_shows|apply rjust_padded].
  - exists ls, text. split; [exact T1|]. split; [|exact T3]. unfold get_covariance_table. rewrite A. cbn [rbind fst snd]. rewrite EC, M1. exact T2.
Qed.
Print Assumptions C35_covariance.
Theorem C35_correlation : forall rgb2hex repr arepr w labels which columns caption label c f cols xs ws, reachable rgb2hex w -> about_chain w which c f ->
  match columns with Some l => cols = l | None => cols = data_columns c f end -> weighted_data c f cols xs ws -> (2 <= length cols)%nat -> ~ contains "%" caption -> ~ contains "%" label ->
  exists ls text, Forall2 (shown_label labels) cols ls /\ get_correlation_table repr arepr w labels which columns caption label = Ok text /\
    square_table ls (fun i j s => shows_correlation (nth i xs []) (nth j xs []) ws s) caption label text.
Proof.
  intros rgb repr arepr w labels which columns caption label c f cols xs ws R A HC D L NC NL. apply (about_chain_spec w which c f (reachable_names _ _ R)) in A.
  assert (EC : get_correlation c f columns = get_correlation c f (Some cols)) by (destruct columns as [l|]; subst cols; reflexivity).
  destruct (CovProofs.correlation_ok c f cols xs ws D L) as [m [M1 [[S1 S2] M2]]]. destruct (CovProofs.wd_len _ _ _ _ _ D) as [LX LW]. pose proof (wd_positive _ _ _ _ _ D) as P. pose proof (wd_rows _ _ _ _ _ D) as L2.
  destruct (table_2d_ok show_R repr arepr labels {| nm_columns := cols; nm_matrix := Mat m |} m (fun i j s => shows_correlation (nth i xs []) (nth j xs []) ws s) caption label) as [ls [text [T1 [T2 T3]]]]; cbn [nm_columns nm_matrix]; try assumption; try reflexivity.
  - destruct cols; [cbn in L; lia|discriminate].
  - intros i j r o Hi Hj. assert (Li : (i < length cols)%nat) by (rewrite <- S1; apply nth_error_Some; congruence). assert (Lj : (j < length cols)%nat) by (rewrite <- (S2 r (nth_error_In _ _ Hi)); apply nth_error_Some; congruence).
    rewrite (centry_nth _ _ _ _ _ Hi Hj), M2 by assumption. unfold shows_correlation.
    assert (LI : (i < length xs)%nat) by lia. assert (LJ : (j < length xs)%nat) by lia.
    assert (CS : forall a b, (a < length xs)%nat -> (b < length xs)%nat -> is_covariance (nth a xs []) (nth b xs []) ws (CovProofs.covf (nth a xs []) (nth b xs []) ws)) by (intros a b Ha Hb; apply CovProofs.covf_spec; try assumption; apply LW, nth_In; assumption).
    exists (CovProofs.covf (nth i xs []) (nth i xs []) ws), (CovProofs.covf (nth j xs []) (nth j xs []) ws), (CovProofs.covf (nth i xs []) (nth j xs []) ws).
    split; [apply CS; assumption|]. split; [apply CS; assumption|]. split; [apply CS; assumption|].
    pose proof (CovProofs.corr_none xs ws LW P L2 i j LI LJ) as CN. destruct (CovProofs.corr_of xs ws i j) as [x|] eqn:EX.
    + right. assert (Vi : (0 <= CovProofs.covf (nth i xs []) (nth i xs []) ws)%Q) by (apply CovProofs.var_nonneg; [apply LW, nth_In; assumption|exact P|exact L2]). assert (Vj : (0 <= CovProofs.covf (nth j xs []) (nth j xs []) ws)%Q) by (apply CovProofs.var_nonneg; [apply LW, nth_In; assumption|exact P|exact L2]).
      assert (Ni : ~ (CovProofs.covf (nth i xs []) (nth i xs []) ws == 0)%Q) by (intros K; destruct CN as [_ CN]; discriminate (CN (or_introl K))). assert (Nj : ~ (CovProofs.covf (nth j xs []) (nth j xs []) ws == 0)%Q) by (intros K; destruct CN as [_ CN]; discriminate (CN (or_intror K))).
      assert (Pi : (0 < CovProofs.covf (nth i xs []) (nth i xs []) ws)%Q) by (apply Qle_lteq in Vi; destruct Vi as [Vi|Vi]; [exact Vi|exfalso; apply Ni; symmetry; exact Vi]). assert (Pj : (0 < CovProofs.covf (nth j xs []) (nth j xs []) ws)%Q) by (apply Qle_lteq in Vj; destruct Vj as [Vj|Vj]; [exact Vj|exfalso; apply Nj; symmetry; exact Vj]).
      split; [exact Pi|]. split; [exact Pj|]. exists x, (fixed_R 2 x). split; [|split; [apply fixed_R_shows|apply rjust_padded]].
      destruct (CovProofs.corr_pos xs ws i j LI LJ Pi Pj) as [E S]. rewrite EX in E. injection E as ->. rewrite (Rmult_comm (sqrt (Q2R (CovProofs.covf (nth i xs []) (nth i xs []) ws)))). unfold Rdiv. rewrite Rmult_assoc, Rinv_l by (apply Rgt_not_eq; exact S). apply Rmult_1_r.
    + left. split; [apply CN; reflexivity|]. apply rjust_padded.
  - exists ls, text. split; [exact T1|]. split; [|exact T3]. unfold get_correlation_table. rewrite A. cbn [rbind fst snd]. rewrite EC, M1. exact T2.
Qed.
Print Assumptions C35_correlation.
(** Otherwise: an unknown name, or none given and not exactly one chain; too few columns. *)
Theorem C35_raises : forall rgb2hex repr arepr w labels caption label, reachable rgb2hex w ->
  (forall n columns, ~ In n (get_names w) -> get_covariance_table repr arepr w labels (Some (ByName n)) columns caption label = Err AssertionError /\ get_correlation_table repr arepr w labels (Some (ByName n)) columns caption label = Err AssertionError) /\
  (forall columns, length (get_names w) <> 1%nat -> get_covariance_table repr arepr w labels None columns caption label = Err AssertionError /\ get_correlation_table repr arepr w labels None columns caption label = Err AssertionError) /\
  (forall which c f col xs ws, about_chain w which c f -> weighted_data c f [col] xs ws ->
     get_covariance_table repr arepr w labels which (Some [col]) caption label = Err TypeError /\ get_correlation_table repr arepr w labels which (Some [col]) caption label = Err ValueError) /\
  (forall which c f n l, about_chain w which c f -> frame_wf f -> In n l -> ~ is_column f n ->
     get_covariance_table repr arepr w labels which (Some l) caption label = Err KeyError /\ get_correlation_table repr arepr w labels which (Some l) caption label = Err KeyError).
Proof.
  intros rgb repr arepr w labels caption label R. assert (ND := reachable_names _ _ R). split; [|split; [|split]].
  - intros n columns H. unfold get_covariance_table, get_correlation_table, table_chain. apply dget_None in H. rewrite H. split; reflexivity.
  - intros columns H. unfold get_covariance_table, get_correlation_table, table_chain, get_names, dkeys in *. rewrite map_length in H. destruct (k_chains (snd w)) as [|[n l] [|kv r]]; [split; reflexivity|contradiction H; reflexivity|split; reflexivity].
  - intros which c f col xs ws A D. apply (about_chain_spec w which c f ND) in A. destruct (C15_covariance c f [col] xs ws D) as [m [M1 [_ [_ M3]]]]; [discriminate|]. destruct (proj1 M3 eq_refl) as [q ->].
    unfold get_covariance_table, get_correlation_table, get_correlation. rewrite A. cbn [rbind fst snd]. rewrite M1. split; reflexivity.
  - intros which c f n l A W HI HC. apply (about_chain_spec w which c f ND) in A. pose proof (C15_missing_column c f l n W HI HC) as E. unfold get_covariance_table, get_correlation_table, get_correlation. rewrite A. cbn [rbind fst snd]. rewrite E. split; reflexivity.
Qed.
Print Assumptions C35_raises.
Lemma ex34_data : exists c f, about_chain ex34 (Some (ByName "A")) c f /\ weighted_data c f ["x"; "y"] [[0; 1; 2]; [4; 2; 6]]%Q [1; 1; 1]%Q.
Proof.
  eexists _, _. split; [exists 0%nat; split; [reflexivity|split; reflexivity]|]. constructor.
  - vm_compute. frame_wf_tac.
  - repeat constructor; vm_compute; tauto.
  - vm_compute. tauto.
  - intros x [<-|[<-|[<-|[]]]]; reflexivity.
  - cbn. lia.
Qed.
Example C35_nonvacuous : reachable ex_rgb ex34 /\ (exists c f, about_chain ex34 (Some (ByName "A")) c f /\ weighted_data c f ["x"; "y"] [[0; 1; 2]; [4; 2; 6]]%Q [1; 1; 1]%Q) /\
  get_covariance_table ex_quote ex_quote ex34 [("x", "$x$")] (Some (ByName "A")) (Some ["x"; "y"]) "c" "l" =
    Ok (latex_table "c" "l" "c|cc" (" & $x$ & y\\ " ++ newline ++ "        " ++ rule ++ "        $x$ &  1.00 &  1.00 \\ " ++ newline ++ "          y &  1.00 &  4.00 \\ " ++ newline ++ "        " ++ rule)%string).
Proof. split; [exact ex34_reachable|]. split; [exact ex34_data|]. vm_compute. reflexivity. Qed.

(** * C36 *)
(** What a table shows apart from caption and label does not depend on them; without percent signs caption
    and label appear exactly as given, and with percent signs they do so if these are written twice. *)
Inductive percents_doubled : string -> string -> Prop :=
| pd_nil : percents_doubled "" ""
| pd_percent s t : percents_doubled s t -> percents_doubled ("%" ++ s) ("%%" ++ t)
| pd_other c s t : c <> "%"%char -> percents_doubled s t -> percents_doubled (String c s) (String c t).
Definition captioned (table_of : string -> string -> res string) : Prop :=
  (exists e, forall caption label, table_of caption label = Err e) \/
  (exists spec body, (forall caption label, ~ contains "%" caption -> ~ contains "%" label -> table_of caption label = Ok (latex_table caption label spec body)) /\
                     (forall caption label, contains "%" caption \/ contains "%" label -> table_of caption label <> Ok (latex_table caption label spec body)) /\
                     (forall caption label caption' label', percents_doubled caption caption' -> percents_doubled label label' -> table_of caption' label' = Ok (latex_table caption label spec body))).
Lemma pct_doubled repr arepr s s' t args : percents_doubled s s' -> pct repr arepr (s' ++ t)%string None args = rmap (fun o => (s ++ o)%string) (pct repr arepr t None args).
Proof.
  intros H. induction H as [|s s' H IH|c s s' N H IH]; cbn [String.append]; [destruct (pct _ _ t None args); reflexivity| |].
  - change (pct repr arepr (String "%" (String "%" (s' ++ t))) None args) with (rmap (String "%") (pct repr arepr (s' ++ t)%string None args)). rewrite IH. destruct (pct _ _ t None args); reflexivity.
  - cbn [pct]. destruct (Ascii.eqb_spec c percent) as [->|_]; [exfalso; apply N; reflexivity|]. rewrite IH. destruct (pct _ _ t None args); reflexivity.
Qed.
Lemma table_doubled repr arepr caption label caption' label' cols body : percents_doubled caption caption' -> percents_doubled label label' ->
  table repr arepr caption' label' cols body = Ok (latex_table caption label cols body).
Proof.
  intros HC HL. unfold table, pct_format. rewrite frame_parts, table_parts. rewrite (pct_lit repr arepr head1) by exact np1. rewrite (pct_doubled _ _ _ _ _ _ HC).
  rewrite (pct_lit repr arepr head2) by exact np2. rewrite (pct_doubled _ _ _ _ _ _ HL). rewrite tail_pct. reflexivity.
Qed.
Lemma captioned_bind repr arepr (r0 : res (string * string)) : captioned (fun caption label => rbind r0 (fun cb => table repr arepr caption label (fst cb) (snd cb))).
Proof.
  destruct r0 as [[ct body]|e]; [right|left; exists e; reflexivity]. exists ct, body. cbn [rbind fst snd]. split; [|split]; intros; [apply table_verbatim|apply table_not_verbatim|apply table_doubled]; assumption.
Qed.
Theorem C36_captions_partial :
  (forall num repr arepr w labels blind columns req transpose hlines blank,
     captioned (fun caption label => snd (get_latex_table num repr arepr w labels blind columns req transpose (Some caption) (Some label) hlines blank))) /\
  (forall repr arepr w labels which columns, captioned (get_covariance_table repr arepr w labels which columns) /\ captioned (get_correlation_table repr arepr w labels which columns)) /\
  (forall repr arepr nearest argsort w hlines use_aic use_bic use_dic sort descending,
     captioned (fun caption label => comparison_table repr arepr nearest argsort w (Some caption) (Some label) hlines use_aic use_bic use_dic sort descending)).
Proof.
  assert (EXT : forall t t' : string -> string -> res string, (forall a b, t a b = t' a b) -> captioned t' -> captioned t).
  { intros t t' E [[e H]|[s [b [H1 [H2 H3]]]]]; [left; exists e|right; exists s, b; split; [|split]]; intros; rewrite E; auto. }
  split; [|split].
  - intros num repr arepr w labels blind columns req transpose hlines blank. destruct (latex_parts num repr arepr w labels blind columns req transpose hlines blank) as [w1 [r0 H]].
    apply (EXT _ (fun caption label => rbind r0 (fun cb => table repr arepr caption label (fst cb) (snd cb)))); [|apply captioned_bind]. intros a b. rewrite (proj1 (H (Some a) (Some b))). reflexivity.
  - intros repr arepr w labels which columns. unfold get_covariance_table, get_correlation_table. destruct (table_chain w which) as [cf|e]; cbn [rbind]; [|split; left; exists e; reflexivity]. split.
    + destruct (get_covariance (fst cf) (snd cf) columns) as [nm|e]; cbn [rbind]; [|left; exists e; reflexivity]. destruct (table_2d_parts show_Q repr arepr labels nm) as [r0 H]. exact (EXT _ _ H (captioned_bind repr arepr r0)).
    + destruct (get_correlation (fst cf) (snd cf) columns) as [nm|e]; cbn [rbind]; [|left; exists e; reflexivity]. destruct (table_2d_parts show_R repr arepr labels nm) as [r0 H]. exact (EXT _ _ H (captioned_bind repr arepr r0)).
  - intros repr arepr nearest argsort w hlines use_aic use_bic use_dic sort descending. unfold comparison_table. cbn [dflt]. cbv zeta.
    repeat match goal with |- captioned (fun a b => if ?x then Err ?e else _) => destruct x; [left; exists e; reflexivity|] end.
    destruct (col use_aic "aic" _) as [sa|e]; cbn [rbind]; [|left; exists e; reflexivity]. destruct (col use_bic "bic" _) as [sb|e]; cbn [rbind]; [|left; exists e; reflexivity]. destruct (col use_dic "dic" _) as [sd|e]; cbn [rbind]; [|left; exists e; reflexivity].
    destruct (dget sort (sa ++ sb ++ sd)) as [by_|]; [|left; exists KeyError; reflexivity]. match goal with |- captioned (fun a b => table _ _ a b ?x ?y) => exact (captioned_bind repr arepr (Ok (x, y))) end.
Qed.
Print Assumptions C36_captions_partial.
Example C36_doubled_nonvacuous : percents_doubled "68% limits" "68%% limits" /\ exists spec body,
  snd (get_latex_table ex34_num ex_quote ex_quote ex34 [] BlindNone None ReqAll false (Some "68%% limits") (Some "tab") true "--") = Ok (latex_table "68% limits" "tab" spec body).
Proof.
  split; [repeat first [apply pd_nil|apply (pd_percent " limits")|apply pd_other; [discriminate|]]|].
  destruct (proj1 C36_captions_partial ex34_num ex_quote ex_quote ex34 [] BlindNone None ReqAll false true "--") as [[e H]|[spec [body [_ [_ H]]]]].
  - exfalso. specialize (H "68 percent" "tab"). revert H. vm_compute. discriminate.
  - exists spec, body. apply H; repeat first [apply pd_nil|apply (pd_percent " limits")|apply pd_other; [discriminate|]].
Qed.
(** Not given: empty. *)
Theorem C36_default : forall num repr arepr nearest argsort w labels blind columns req transpose hlines blank use_aic use_bic use_dic sort descending,
  get_latex_table num repr arepr w labels blind columns req transpose None None hlines blank = get_latex_table num repr arepr w labels blind columns req transpose (Some "") (Some "") hlines blank /\
  comparison_table repr arepr nearest argsort w None None hlines use_aic use_bic use_dic sort descending = comparison_table repr arepr nearest argsort w (Some "") (Some "") hlines use_aic use_bic use_dic sort descending.
Proof. intros. split; reflexivity. Qed.
Print Assumptions C36_default.
(** A percent sign in the caption makes the call fail, although the same table can be made without. *)
Theorem C36_percent_refuted : exists rgb2hex num repr arepr w text, reachable rgb2hex w /\
  snd (get_latex_table num repr arepr w [] BlindNone None ReqAll false (Some "68 percent") (Some "tab") true "--") = Ok text /\
  snd (get_latex_table num repr arepr w [] BlindNone None ReqAll false (Some "68% limits") (Some "tab") true "--") = Err TypeError.
Proof. exists ex_rgb, ex34_num, ex_quote, ex_quote, ex34. eexists. split; [exact ex34_reachable|]. split; vm_compute; reflexivity. Qed.
Print Assumptions C36_percent_refuted.
