(** C104: parameters without an interval are announced. *)
From Coq Require Import String Ascii List Bool Arith ZArith QArith Reals Lia.
From Verif Require Import Py ColorModel NumSpec NumModel MarginalModel FrameModel ConfigModel ChainModel RegistryModel CovModel FormatModel TextModel AnalysisModel WarnModel
  ChainSpec RegistrySpec CovSpec FormatSpec CompareSpec TextSpec AnalysisSpec ReportSpec DiagProofs HeapFacts RegistryProofs ChainProofs CompareProofs AnalysisProofs ChainUseProofs ChainProps RegistryProps AnalysisProps NoteModel NoteSpec NoteProofs.
Import ListNotations.
Open Scope string_scope.
Open Scope list_scope.

(** The functions that log are the functions of the other theorems. *)
Theorem C104_results : forall num w req columns c f p, fst (noted_summary num w req columns) = fst (get_summary num w req columns) /\ snd (snd (noted_summary num w req columns)) = snd (get_summary num w req columns) /\
  snd (noted_parameter_summary num c f p) = get_parameter_summary num c f p.
Proof. intros num w req columns c f p. destruct (noted_summary_result num w req columns) as [A B]. split; [exact A|]. split; [exact B|]. apply noted_parameter_result. Qed.
Print Assumptions C104_results.
(** get_parameter_summary() warns exactly when it gives a centre without an interval. *)
Theorem C104_parameter : forall num c f p ws b, noted_parameter_summary num c f p = (ws, Ok b) -> due (centre_only b) (not_constrained p (ch_name c)) ws.
Proof. intros num c f p ws b H. exact (proj2 (noted_parameter_ok _ _ _ _ _ _ H)). Qed.
Print Assumptions C104_parameter.
(** get_summary() of given chains: chain by chain and column by column, in order, whatever their settings. *)
Theorem C104_given : forall num w locs columns w' ws d, noted_summary num w (ReqList (map ByChain locs)) columns = (w', (ws, Ok d)) ->
  exists chains cols parts, objects (fst w) locs chains /\ asked columns chains cols /\ ws = concat parts /\ Forall2 (warned_of num cols) chains parts.
Proof.
  intros num w locs columns w' ws d H. destruct (noted_summary_result num w (ReqList (map ByChain locs)) columns) as [RW RD]. rewrite H in RW, RD. cbn [fst snd] in RW, RD.
  assert (G : get_summary num w (ReqList (map ByChain locs)) columns = (w', Ok d)) by (rewrite (surjective_pairing (get_summary num w _ columns)); congruence).
  destruct (C32_summary _ _ _ _ _ _ G) as [-> [chains [cols [O [A _]]]]]. rewrite (noted_list num w locs chains columns O) in H.
  assert (N : noted_loop num (fst w) (map ByChain locs) (sanitise_columns columns chains) [] = (ws, Ok d)) by congruence. destruct (noted_loop_ok _ _ _ _ _ _ _ _ O N) as [parts [E F]].
  exists chains, (sanitise_columns columns chains), parts. split; [exact O|]. split; [apply asked_columns|]. split; [exact E|exact F].
Qed.
Print Assumptions C104_given.
(** Of all the chains: one warning for every entry of the summary without an interval, and no other. *)
Theorem C104_summary : forall rgb2hex num w columns w' ws d, unforced rgb2hex w -> (forall l, columns = Some l -> NoDup l) -> noted_summary num w ReqAll columns = (w', (ws, Ok d)) -> announced d ws.
Proof.
  intros rgb num w columns w' ws d U ND H. pose proof (unforced_split _ _ U) as SP. assert (R : reachable rgb w) by (destruct U as [h0 [ops [_ [_ ->]]]]; exists h0, ops; eexists; apply surjective_pairing).
  destruct (noted_summary_result num w ReqAll columns) as [RW RD]. rewrite H in RW, RD. cbn [fst snd] in RW, RD. assert (G : get_summary num w ReqAll columns = (w', Ok d)) by (rewrite (surjective_pairing (get_summary num w _ columns)); congruence).
  destruct (get_final_chains w) as [w1 [finals|ex]] eqn:F; [|unfold get_summary, sanitise_chains in G; rewrite F in G; discriminate].
  destruct (C32_all rgb num w columns w1 finals w' d R F G) as [-> [K [locs [chains [cols [S [O [N [A B]]]]]]]]].
  pose proof (final_split w SP) as SP1. rewrite F in SP1. cbn [fst] in SP1.
  destruct (C51_default rgb w true w1 finals R F) as [locs' [E S']]. 
  assert (EN : noted_summary num w ReqAll columns = noted_summary num w1 (ReqList (map ByChain locs')) columns) by (unfold noted_summary; rewrite E; reflexivity).
  rewrite EN in H. destruct (C104_given _ _ _ _ _ _ _ H) as [chains' [cols' [parts [O' [A' [-> W]]]]]]. exists parts. split; [reflexivity|].
  assert (EG : get_summary num w ReqAll columns = get_summary num w1 (ReqList (map ByChain locs')) columns) by (unfold get_summary; rewrite E; reflexivity).
  rewrite EG in G. destruct (C32_summary _ _ _ _ _ _ G) as [_ [chains2 [cols2 [O2 [A2 [_ K2]]]]]]. rewrite (objects_fun _ _ _ _ O2 O') in *.
  destruct (selected_objects _ _ _ _ _ S') as [chains3 [O3 [_ N3]]]. rewrite (objects_fun _ _ _ _ O3 O') in *. specialize (N3 eq_refl).
  assert (NN : NoDup (map name_of chains')). { rewrite N3. destruct (final_names _ _ _ (reachable_ok _ _ R) F) as [<- [NN _]]. exact NN. }
  destruct (K2 NN) as [K3 K4].
  assert (EC : cols2 = cols' /\ NoDup cols'). { destruct columns as [l|]; cbn [asked] in A', A2; [subst; split; [reflexivity|apply ND; reflexivity]|]. split; [exact (first_seen_fun _ _ A2 _ A')|exact (proj1 (first_seen_spec _ _ A'))]. }
  destruct EC as [-> NC]. apply (rows_due num cols' NC chains' d parts); [|exact K3|exact K4|exact W].
  intros cf HI. destruct SP1 as [SP1 _]. clear -O' HI SP1. induction O' as [|l cf' locs chains [Q1 _] Q IH]; [destruct HI|]. destruct HI as [<-|HI]; [exact (SP1 _ _ Q1)|exact (IH HI)].
Qed.
Print Assumptions C104_summary.
(** get_latex_table() warns about every column some chosen chain plots, whatever the columns asked for and hidden. *)
Theorem C104_table : forall num repr arepr w labels blind columns req transpose caption label hlines blank w' text locs,
  get_latex_table num repr arepr w labels blind columns req transpose caption label hlines blank = (w', Ok text) -> sanitise_chains w req false = (w', Ok locs) ->
  exists chains cols parts, objects (fst w') locs chains /\ asked None chains cols /\ latex_log num w req = concat parts /\ Forall2 (warned_of num cols) chains parts.
Proof.
  intros num repr arepr w labels blind columns req transpose caption label hlines blank w' text locs H E. unfold get_latex_table in H. rewrite E in H. cbn [rbind] in H.
  destruct (rmapM (ref_object (fst w')) (map ByChain locs)) as [chains|] eqn:EO; [|discriminate]. cbn [rbind] in H. cbv zeta in H. destruct (snd (get_summary num w' (ReqList (map ByChain locs)) None)) as [d|] eqn:ES; [|discriminate].
  unfold latex_log. rewrite E, EO. destruct (noted_summary_result num w' (ReqList (map ByChain locs)) None) as [RW RD]. rewrite ES in RD. destruct (noted_summary num w' (ReqList (map ByChain locs)) None) as [w2 [ws r]] eqn:EN. cbn [fst snd] in *. subst r.
  exact (C104_given _ _ _ _ _ _ _ EN).
Qed.
Print Assumptions C104_table.

(** ** Examples and failures *)
(** The summaries of chain A are maxima, those of chain B narrowest intervals; x has two peaks. *)
Definition ex104_frame : frame := {| f_index := map (fun i => LInt (Z.of_nat i)) (seq 0 3);
  f_cols := [(CStr "x", map Fin [0; 1; 2]%Q); (CStr "y", map Fin [2; 0; 1]%Q); (CStr "weight", map Fin [9; 1; 10]%Q)] |}.
Definition ex104_single : frame := {| f_index := map (fun i => LInt (Z.of_nat i)) (seq 0 3); f_cols := [(CStr "x", map Fin [0; 1; 2]%Q); (CStr "weight", map Fin [9; 1; 9]%Q)] |}.
Definition ex104_args (n : string) (s : stat) (area : Q) : cargs :=
  {| a_cfg := kset (kset (kset (kset no_kw Fsummary_area area) Fstatistics (Some s)) Fsmooth (Some 0%Z)) Fbins (Some 3%Z); a_samples := 0; a_name := n; a_weight := None; a_post := None; a_walkers := None; a_grid := Some true;
     a_nfree := None; a_ndata := None; a_power := None; a_showlabel := None; a_relheight := None |}.
Definition ex104_num : numerics := {| n_bins := 4; n_points := 5; n_kde := 3; n_pad := 2; n_tries := 4; n_power := fun p h => h; n_kernel := fun _ => [1%Q]; n_megkde := fun _ _ k x => 1%Q |}.
Definition ex104_heap (f : frame) : heap := {| h_frames := [f]; h_chains := [] |}.
Definition ex104_ops : list op := [OpNewChain (ex104_args "A" SMax (5 # 6)); OpNewChain (ex104_args "B" SHdi (5 # 6)); OpAdd 0; OpAdd 1].
Definition ex104 : world := fst (run ex_rgb (ex104_heap ex104_frame, new_consumer) ex104_ops).
Lemma ex104_reachable : reachable ex_rgb ex104.
Proof. exists (ex104_heap ex104_frame), ex104_ops. eexists. apply surjective_pairing. Qed.
Definition has_interval (e : bounds_in) : bool := match e with BOne b => match b_lower b with Some _ => true | None => false end | BMany _ => true | BNone => false end.
Lemma ex104_unforced : unforced ex_rgb ex104.
Proof. exists (ex104_heap ex104_frame), ex104_ops. split; [reflexivity|]. split; [|reflexivity]. intros o [E|[E|[E|[E|[]]]]]; discriminate. Qed.
Example C104_nonvacuous : unforced ex_rgb ex104 /\
  match snd (noted_summary ex104_num ex104 ReqAll None) with
  | (ws, Ok d) => ws = ["Parameter x in chain A is not constrained"] /\
      map (fun nd => (fst nd, map (fun pe => (fst pe, has_interval (snd pe))) (snd nd))) d = [("A", [("x", false); ("y", true)]); ("B", [("x", true); ("y", true)])]
  | _ => False end /\
  match get_latex_table ex104_num ex_quote ex_quote ex104 [] BlindNone None ReqAll false None None false "--" with (_, Ok _) => True | _ => False end.
Proof. split; [exact ex104_unforced|]. split; vm_compute; [split; reflexivity|exact I]. Qed.
(** An override makes a chain multimodal that shows maxima: the warning is given, and the intervals too. *)
Definition ex104_multi : config_obj := {| o_cfg := fun f => match f return ctype f with Fmultimodal => true | g => default_config g end; o_user := fun f => match f with Fmultimodal => true | _ => false end |}.
Definition ex104_calls : list op := [OpNewChain (ex104_args "A" SMax (1 # 2)); OpAdd 0; OpOverride ex104_multi].
Definition ex104_forced : world := fst (run ex_rgb (ex104_heap ex104_single, new_consumer) ex104_calls).
Lemma ex104_forced_reachable : reachable ex_rgb ex104_forced.
Proof. exists (ex104_heap ex104_single), ex104_calls. eexists. apply surjective_pairing. Qed.
Definition both_ends (b : bound) : bool := match b_lower b, b_upper b with Some _, Some _ => true | _, _ => false end.
Definition ex104_modes (d : dict (dict bounds_in)) : option (list bool) := match dget "A" d with Some es => match dget "x" es with Some (BMany bs) => Some (map both_ends bs) | _ => None end | None => None end.
Theorem C104_forced_refuted : exists rgb2hex num w w' d es bs, reachable rgb2hex w /\ noted_summary num w ReqAll None = (w', ([not_constrained "x" "A"], Ok d)) /\ dget "A" d = Some es /\ dget "x" es = Some (BMany bs) /\ length bs = 2%nat /\
  forall b, In b bs -> b_lower b <> None /\ b_upper b <> None.
Proof.
  assert (C : (let r := snd (noted_summary ex104_num ex104_forced ReqAll None) in (fst r, match snd r with Ok d => ex104_modes d | Err _ => None end)) = ([not_constrained "x" "A"], Some [true; true])) by (vm_compute; reflexivity).
  destruct (noted_summary ex104_num ex104_forced ReqAll None) as [w' [ws r]] eqn:E. cbn [fst snd] in C. assert (C1 : ws = [not_constrained "x" "A"]) by exact (f_equal fst C). assert (C2 : match r with Ok d => ex104_modes d | Err _ => None end = Some [true; true]) by exact (f_equal snd C). clear C.
  destruct r as [d|]; [|discriminate C2]. unfold ex104_modes in C2. destruct (dget "A" d) as [es|] eqn:E1; [|discriminate C2]. destruct (dget "x" es) as [[|b|bs]|] eqn:E2; try discriminate C2. injection C2 as C3.
  exists ex_rgb, ex104_num, ex104_forced, w', d, es, bs. split; [exact ex104_forced_reachable|]. split; [rewrite E, C1; reflexivity|]. split; [exact E1|]. split; [exact E2|]. split; [apply (f_equal (@length bool)) in C3; rewrite map_length in C3; exact C3|].
  intros b HI. apply (in_map both_ends) in HI. rewrite C3 in HI. assert (HB : both_ends b = true) by (destruct HI as [<-|[<-|[]]]; reflexivity). clear -HB. unfold both_ends in HB. destruct (b_lower b); [|discriminate]. destruct (b_upper b); [|discriminate]. split; discriminate.
Qed.
Print Assumptions C104_forced_refuted.
(** The table warns of a parameter it hides. *)
Theorem C104_hidden_refuted : exists rgb2hex num repr arepr w w' text, reachable rgb2hex w /\ get_latex_table num repr arepr w [] (BlindList ["x"]) (Some ["y"]) ReqAll false None None false "--" = (w', Ok text) /\
  latex_log num w ReqAll = [not_constrained "x" "A"].
Proof.
  exists ex_rgb, ex104_num, ex_quote, ex_quote, ex104. assert (C : match snd (get_latex_table ex104_num ex_quote ex_quote ex104 [] (BlindList ["x"]) (Some ["y"]) ReqAll false None None false "--") with Ok _ => true | _ => false end = true) by (vm_compute; reflexivity).
  destruct (get_latex_table ex104_num ex_quote ex_quote ex104 [] (BlindList ["x"]) (Some ["y"]) ReqAll false None None false "--") as [w' [text|]]; [|discriminate]. exists w', text. split; [exact ex104_reachable|]. split; [reflexivity|]. vm_compute. reflexivity.
Qed.
Print Assumptions C104_hidden_refuted.
