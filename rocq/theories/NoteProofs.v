(** Proofs for NoteProps. *)
From Coq Require Import String Ascii List Bool Arith ZArith QArith Reals Lia.
From Verif Require Import Py ColorModel NumSpec NumModel MarginalModel FrameModel ConfigModel ChainModel RegistryModel CovModel FormatModel TextModel AnalysisModel WarnModel
  ChainSpec RegistrySpec CovSpec FormatSpec CompareSpec TextSpec AnalysisSpec ReportSpec DiagProofs HeapFacts RegistryProofs ChainProofs CompareProofs AnalysisProofs NoteModel NoteSpec.
Import ListNotations.
Open Scope string_scope.
Open Scope list_scope.

Lemma lbind_result {A B} (m : logged A) (g : A -> logged B) : snd (lbind m g) = rbind (snd m) (fun x => snd (g x)).
Proof. unfold lbind. destruct m as [ws [x|e]]; reflexivity. Qed.
Lemma lbind_ok {A B} (m : logged A) (g : A -> logged B) ws y : lbind m g = (ws, Ok y) -> exists ws1 x ws2, m = (ws1, Ok x) /\ g x = (ws2, Ok y) /\ ws = ws1 ++ ws2.
Proof.
  unfold lbind. destruct m as [ws1 [x|e]]; cbn [fst snd]; [|discriminate]. destruct (g x) as [ws2 r] eqn:E. cbn [fst snd]. intros H. injection H as <- ->. exists ws1, x, ws2. auto.
Qed.
Lemma silent_ok {A} (r : res A) ws x : silent r = (ws, Ok x) -> ws = [] /\ r = Ok x.
Proof. unfold silent. intros H. injection H as <- ->. auto. Qed.
Lemma noted_max_result p n npad tries area m : snd (noted_max p n npad tries area m) = summary_max npad tries area m.
Proof. unfold noted_max, summary_max. cbv zeta. destruct (Qeq_bool _ 0); [reflexivity|]. destruct (max_loop _ _ _ _ _ _ _); reflexivity. Qed.
Lemma noted_max_ok p n npad tries area m ws b : noted_max p n npad tries area m = (ws, Ok b) -> due (centre_only b) (not_constrained p n) ws.
Proof.
  unfold noted_max. cbv zeta. destruct (Qeq_bool _ 0); [discriminate|]. destruct (max_loop _ _ _ _ _ _ _); intros H; [|injection H as <- <-|discriminate].
  - injection H as <- <-. split; [|reflexivity]. intros [K _]. discriminate.
  - split; [reflexivity|]. intros K. exfalso. apply K. split; [reflexivity|]. split; [reflexivity|]. eexists. reflexivity.
Qed.
Lemma rbind_rbind {A B C} (r : res A) (g : A -> res B) (k : B -> res C) : rbind (rbind r g) k = rbind r (fun x => rbind (g x) k).
Proof. destruct r; reflexivity. Qed.
Lemma max_of_marginal num c f p : ch_cfg c Fstatistics = Some SMax -> get_parameter_summary num c f p = rbind (chain_marginal num c f p false) (summary_max (n_pad num) (n_tries num) (ch_cfg c Fsummary_area)).
Proof.
  intros E. unfold get_parameter_summary, chain_marginal. rewrite E. rewrite rbind_rbind. destruct (get_data f p); cbn [rbind]; [|reflexivity]. rewrite rbind_rbind. destruct (weights c f); reflexivity.
Qed.
Lemma noted_parameter_result num c f p : snd (noted_parameter_summary num c f p) = get_parameter_summary num c f p.
Proof.
  unfold noted_parameter_summary. destruct (ch_cfg c Fstatistics) as [[]|] eqn:E; try reflexivity. rewrite lbind_result, (max_of_marginal num c f p E). cbn [silent snd]. destruct (chain_marginal num c f p false); cbn [rbind]; [apply noted_max_result|reflexivity].
Qed.
Lemma other_given num c f p b : ch_cfg c Fstatistics <> Some SMax -> get_parameter_summary num c f p = Ok b -> b_lower b <> None.
Proof.
  unfold get_parameter_summary. intros N. destruct (ch_cfg c Fstatistics) as [s|]; [|discriminate]. destruct (get_data f p); cbn [rbind]; [|discriminate]. destruct (weights c f); cbn [rbind]; [|discriminate].
  unfold parameter_summary. destruct s; [congruence| | | |]; (match goal with |- rbind ?X _ = _ -> _ => destruct X as [m|]; cbn [rbind]; [|discriminate] end).
  - unfold summary_mean. repeat (match goal with |- rbind ?X _ = _ -> _ => destruct X; cbn [rbind]; [|discriminate] end). intros H. injection H as <-. discriminate.
  - unfold summary_cumulative. repeat (match goal with |- rbind ?X _ = _ -> _ => destruct X; cbn [rbind]; [|discriminate] end). intros H. injection H as <-. discriminate.
  - unfold summary_max_central. cbv zeta. repeat (match goal with |- rbind ?X _ = _ -> _ => destruct X; cbn [rbind]; [|discriminate] end). intros H. injection H as <-. discriminate.
  - intros H. injection H as <-. discriminate.
Qed.
Lemma noted_parameter_ok num c f p ws b : noted_parameter_summary num c f p = (ws, Ok b) -> get_parameter_summary num c f p = Ok b /\ due (centre_only b) (not_constrained p (ch_name c)) ws.
Proof.
  intros H. pose proof (noted_parameter_result num c f p) as R. rewrite H in R. cbn [snd] in R. split; [congruence|]. symmetry in R. unfold noted_parameter_summary in H.
  destruct (ch_cfg c Fstatistics) as [s|] eqn:E; [|unfold get_parameter_summary in R; rewrite E in R; discriminate].
  assert (D : s = SMax \/ (s <> SMax /\ silent (get_parameter_summary num c f p) = (ws, Ok b))) by (destruct s; [left; reflexivity|right; split; [discriminate|exact H]..]).
  destruct D as [->|[NS D]].
  - apply lbind_ok in H as [w1 [m [w2 [H1 [H2 ->]]]]]. apply silent_ok in H1 as [-> _]. exact (noted_max_ok _ _ _ _ _ _ _ _ H2).
  - apply silent_ok in D as [-> D]. split; [|reflexivity]. intros [K _]. exfalso. revert K. apply (other_given num c f p b); [congruence|exact D].
Qed.
Lemma noted_column_result num c f p : snd (noted_column num c f p) = column_summary num c f p.
Proof. unfold noted_column, column_summary. rewrite lbind_result, noted_parameter_result. reflexivity. Qed.
Lemma noted_column_ok num c f p ws e : noted_column num c f p = (ws, Ok e) -> column_summary num c f p = Ok e /\ exists b, get_parameter_summary num c f p = Ok b /\ due (centre_only b) (not_constrained p (ch_name c)) ws.
Proof.
  intros H. pose proof (noted_column_result num c f p) as R. rewrite H in R. split; [symmetry; exact R|]. unfold noted_column in H. apply lbind_ok in H as [w1 [b [w2 [H1 [H2 ->]]]]]. apply silent_ok in H2 as [-> _]. rewrite app_nil_r.
  exists b. exact (noted_parameter_ok _ _ _ _ _ _ H1).
Qed.
Lemma noted_chain_result num c f : forall cols acc, snd (noted_chain num c f cols acc) = chain_summary num c f cols acc.
Proof.
  induction cols as [|p r IH]; intros acc; [reflexivity|]. cbn [noted_chain chain_summary]. destruct (negb (f_has f p)); [apply IH|]. rewrite lbind_result, noted_column_result. destruct (column_summary num c f p); cbn [rbind]; [apply IH|reflexivity].
Qed.
Lemma noted_chain_ok num c f : forall cols acc ws d, noted_chain num c f cols acc = (ws, Ok d) ->
  exists parts, ws = concat parts /\ Forall2 (fun p t => exists b, get_parameter_summary num c f p = Ok b /\ due (centre_only b) (not_constrained p (ch_name c)) t) (filter (f_has f) cols) parts.
Proof.
  induction cols as [|p r IH]; intros acc ws d H; cbn [noted_chain] in H.
  - apply silent_ok in H as [-> _]. exists []. split; [reflexivity|constructor].
  - cbn [filter]. destruct (f_has f p); cbn [negb] in H; [|exact (IH _ _ _ H)]. apply lbind_ok in H as [w1 [e [w2 [H1 [H2 ->]]]]]. destruct (noted_column_ok _ _ _ _ _ _ H1) as [_ B]. destruct (IH _ _ _ H2) as [parts [-> F]].
    exists (w1 :: parts). split; [reflexivity|]. constructor; assumption.
Qed.
Lemma noted_loop_result num h cols : forall refs acc, snd (noted_loop num h refs cols acc) = summary_loop num h refs cols acc.
Proof.
  induction refs as [|[n|l] r IH]; intros acc; try reflexivity. cbn [noted_loop summary_loop]. destruct (chain_at h l) as [c|]; [|reflexivity]. rewrite lbind_result, noted_chain_result. destruct (chain_summary num c _ cols []); cbn [rbind]; [apply IH|reflexivity].
Qed.
Lemma noted_loop_ok num h cols : forall locs chains acc ws d, objects h locs chains -> noted_loop num h (map ByChain locs) cols acc = (ws, Ok d) ->
  exists parts, ws = concat parts /\ Forall2 (warned_of num cols) chains parts.
Proof.
  intros locs chains acc ws d O. revert acc ws d. induction O as [|l [c f] locs chains [H1 H2] O IH]; intros acc ws d H; cbn [map noted_loop] in H.
  - apply silent_ok in H as [-> _]. exists []. split; [reflexivity|constructor].
  - cbn [fst snd] in *. rewrite H1 in H. apply lbind_ok in H as [w1 [s [w2 [K1 [K2 ->]]]]]. rewrite <- H2 in K1. destruct (noted_chain_ok _ _ _ _ _ _ _ K1) as [ts [-> F]]. destruct (IH _ _ _ K2) as [parts [-> G]].
    exists (concat ts :: parts). split; [reflexivity|]. constructor; [|exact G]. exists (filter (f_has f) cols), ts. cbn [fst snd]. split; [apply kept_filter|]. split; [reflexivity|exact F].
Qed.
Lemma noted_summary_result num w req columns : fst (noted_summary num w req columns) = fst (get_summary num w req columns) /\ snd (snd (noted_summary num w req columns)) = snd (get_summary num w req columns).
Proof.
  unfold noted_summary, get_summary. destruct (match req with ReqAll => _ | ReqList l => _ | ReqDict d => _ end) as [w1 chosen]. cbn [fst snd]. split; [reflexivity|]. rewrite lbind_result. cbn [silent snd]. destruct chosen as [refs|]; cbn [rbind]; [|reflexivity].
  rewrite lbind_result. cbn [silent snd]. destruct columns as [l|]; cbn [rbind]; [apply noted_loop_result|]. destruct (rmapM _ refs); cbn [rmap rbind]; [apply noted_loop_result|reflexivity].
Qed.
Lemma noted_list num w locs chains columns : objects (fst w) locs chains ->
  noted_summary num w (ReqList (map ByChain locs)) columns = (w, noted_loop num (fst w) (map ByChain locs) (sanitise_columns columns chains) []).
Proof.
  intros H. unfold noted_summary. destruct columns as [l|]; unfold lbind, silent; cbn [rmap snd fst app].
  - destruct (noted_loop _ _ _ _ _). reflexivity.
  - rewrite (objects_resolve _ _ _ H). cbn [rmap snd fst app]. destruct (noted_loop _ _ _ _ _). reflexivity.
Qed.

(** ** Chains that are split into modes use the HDI *)
Definition split_hdi (c : chain) : Prop := ch_cfg c Fmultimodal = true -> ch_cfg c Fstatistics = Some SHdi.
Definition all_split (h : heap) : Prop := forall l c, chain_at h l = Some c -> split_hdi c.
Lemma validate_split h c : h_chains (fst (validate_model h c)) = h_chains h /\ forall h' c', validate_model h c = (h', Ok c') -> split_hdi c'.
Proof.
  unfold validate_model. set (f := frame_at h _). destruct (f_empty f); [split; [reflexivity|intros h' c' H; discriminate]|]. cbv zeta. destruct (negb (f_has f _) && _); [split; [reflexivity|intros h' c' H; discriminate]|].
  destruct (f_has f _ && _); [split; [reflexivity|intros h' c' H; discriminate]|]. set (f1 := if f_has f _ then f else _) in *. destruct (negb (forallb _ (f_cols f1))); [split; [reflexivity|intros h' c' H; discriminate]|].
  destruct (if ch_cfg c Fshift_params then _ else _) as [f2|e]; [|split; [reflexivity|intros h' c' H; discriminate]].
  do 3 (match goal with |- context [fst (if ?b then _ else _)] => destruct b; [split; [reflexivity|intros h' c' H; discriminate]|] end).
  match goal with |- context [(_, Ok ?x)] => set (c1 := x) end. destruct (ch_cfg c1 Fmultimodal && negb _) eqn:E; [split; [reflexivity|intros h' c' H; discriminate]|].
  split; [reflexivity|]. intros h' c' H. injection H as _ <-. intros M. rewrite M in E. cbn [andb] in E. destruct (ch_cfg c1 Fstatistics) as [[]|]; try discriminate. reflexivity.
Qed.
Lemma new_chain_split rgb h a : all_split h -> all_split (fst (new_chain rgb h a)).
Proof.
  intros A. unfold new_chain. destruct (match a_cfg a Fcolor with Some _ => _ | None => _ end) as [color|e]; [|exact A]. destruct (alloc_frame h (frame_at h (a_samples a))) as [h1 l] eqn:EA.
  assert (A1 : all_split h1) by (injection EA as <- _; exact A). destruct (negb (field_ranges _)); [exact A1|]. destruct (validate_split h1 (build color a l)) as [V1 V2]. destruct (validate_model h1 (build color a l)) as [h2 [c1|e]]; cbn [fst] in V1.
  - intros l' c' H. unfold chain_at in H. cbn in H. rewrite V1 in H. destruct (Nat.lt_ge_cases l' (length (h_chains h1))) as [K|K].
    + rewrite nth_error_app1 in H by exact K. exact (A1 l' c' H).
    + rewrite nth_error_app2 in H by exact K. destruct (l' - length (h_chains h1))%nat as [|[|m]]; [|discriminate|discriminate]. injection H as <-. exact (V2 _ _ eq_refl).
  - intros l' c' H. unfold chain_at in H. cbn [fst] in H. rewrite V1 in H. exact (A1 l' c' H).
Qed.
Lemma divide_loop_split rgb c size : forall n h i, all_split h -> all_split (fst (divide_loop rgb h c size i n)).
Proof.
  induction n as [|n IH]; intros h i A; [exact A|]. cbn [divide_loop]. destruct (alloc_frame h _) as [h1 lf] eqn:EA. assert (A1 : all_split h1) by (injection EA as <- _; exact A).
  match goal with |- context [new_chain rgb h1 ?a] => pose proof (new_chain_split rgb h1 a A1) as A2 end. destruct (new_chain rgb h1 _) as [h2 [l|e]]; cbn [fst] in A2; [|exact A2].
  specialize (IH h2 (S i) A2). destruct (divide_loop rgb h2 c size (S i) n) as [h3 [ls|e]]; exact IH.
Qed.
Lemma copy_split : forall d h, all_split h -> all_split (fst (copy_chains h d)).
Proof.
  induction d as [|[n l] d IH]; intros h A; [exact A|]. cbn [copy_chains]. destruct (chain_at h l) as [c|] eqn:E; [|apply IH; exact A]. destruct (alloc_chain h c) as [h1 l1] eqn:EA.
  assert (A1 : all_split h1). { injection EA as <- _. intros l' c' H. unfold chain_at in H. cbn in H. destruct (Nat.lt_ge_cases l' (length (h_chains h))) as [K|K].
    - rewrite nth_error_app1 in H by exact K. exact (A l' c' H).
    - rewrite nth_error_app2 in H by exact K. destruct (l' - length (h_chains h))%nat as [|[|m]]; [|discriminate|discriminate]. injection H as <-. exact (A l c E). }
  specialize (IH h1 A1). destruct (copy_chains h1 d) as [h2 r2]. exact IH.
Qed.
Definition ov_leaves (ov : option config_obj) : Prop := forall o, ov = Some o -> leaves_statistics o.
Lemma resolve_split num ov : ov_leaves ov -> forall d h colors, all_split h -> all_split (fst (resolve_loop h num ov colors d)).
Proof.
  intros O. induction d as [|[n l] d IH]; intros h colors A; [exact A|]. cbn [resolve_loop]. destruct (chain_at h l) as [c|] eqn:E; [|exact A]. cbv zeta.
  match goal with |- context [match ch_cfg c Fcolor with Some _ => Ok (?b, colors) | None => _ end] => set (base := b) end.
  destruct (match ch_cfg c Fcolor with Some _ => Ok (base, colors) | None => _ end) as [[local colors']|e] eqn:EL; [|exact A].
  assert (LN : forall t, In t local -> projT1 t <> Fmultimodal /\ projT1 t <> Fstatistics).
  { assert (BN : forall t, In t base -> projT1 t <> Fmultimodal /\ projT1 t <> Fstatistics) by (unfold base, global_config; cbn; intros t Ht; repeat (destruct Ht as [<-|Ht]; [split; discriminate|]); contradiction).
    intros t Ht. destruct (ch_cfg c Fcolor); [injection EL as <- _; auto|]. destruct colors as [|x cs]; [discriminate|]. destruct x as [col|]; [|discriminate].
    assert (EL' : local = base ++ [mk Fcolor (Some col)]) by (symmetry; exact (f_equal (fun r => match r with Ok p => fst p | Err _ => [] end) EL)). rewrite EL' in Ht. apply in_app_or in Ht as [Ht|[<-|[]]]; [auto|split; discriminate]. }
  apply IH. intros l' c' HC. assert (K : (l < length (h_chains h))%nat) by (apply nth_error_Some; unfold chain_at in E; congruence). rewrite write_chain_at in HC by exact K. destruct (Nat.eqb l l'); [|exact (A l' c' HC)]. injection HC as <-.
  assert (B : forall g, g = Fmultimodal \/ g = Fstatistics -> (match ov with Some o => apply_settings (user_specified_dump o) (apply_if_not_user_set (ch_user c) local (ch_cfg c)) | None => apply_if_not_user_set (ch_user c) local (ch_cfg c) end) g = ch_cfg c g).
  { intros g HG. assert (B0 : apply_if_not_user_set (ch_user c) local (ch_cfg c) g = ch_cfg c g) by (apply apply_user_notin; intros t Ht; destruct (LN t Ht); destruct HG as [->| ->]; assumption).
    destruct ov as [o|]; [|exact B0]. rewrite dump_spec. destruct (O o eq_refl) as [O1 O2]. assert (O3 : o_user o g = false) by (destruct HG as [->| ->]; assumption). rewrite O3. exact B0. }
  unfold split_hdi. cbn [ch_cfg with_cfg]. rewrite (B Fmultimodal), (B Fstatistics) by auto. exact (A l c E).
Qed.
Definition split_world (w : world) : Prop := all_split (fst w) /\ ov_leaves (k_override (snd w)).
Lemma final_split w : split_world w -> split_world (fst (get_final_chains w)).
Proof.
  destruct w as [h k]. intros [A O]. unfold get_final_chains. pose proof (copy_split (k_chains k) h A) as A1. destruct (copy_chains h (k_chains k)) as [h1 finals]. cbn [fst snd] in *.
  pose proof (resolve_split (num_contour_chains h (k_chains k)) (k_override k) O finals h1 next_colour A1) as A2. destruct (resolve_loop _ _ _ _ _) as [h2 [u|e]]; split; cbn in *; assumption.
Qed.
Lemma step_split rgb w o : split_world w -> (forall ov, o = OpOverride ov -> leaves_statistics ov) -> split_world (fst (step rgb w o)).
Proof.
  intros [A O] HO. destruct o as [a|l|l|loc name color size style al extra|n|l|ov|req b]; cbn [step].
  - pose proof (new_chain_split rgb (fst w) a A) as A1. destruct (new_chain rgb (fst w) a) as [h r]. split; assumption.
  - destruct (chain_at (fst w) l) as [c|]; [|split; assumption]. assert (A1 : all_split (fst (divide rgb (fst w) c))) by (unfold divide; destruct (negb _); [exact A|]; destruct (ch_grid c); [exact A|]; destruct (negb _); [exact A|]; apply divide_loop_split; exact A). destruct (divide rgb (fst w) c) as [h r]. split; assumption.
  - unfold add_chain. destruct w as [h k]. cbn [fst snd] in *. destruct (chain_at h l) as [c|]; [|split; assumption]. destruct (dmem _ _); split; assumption.
  - unfold add_marker. destruct w as [h k]. cbn [fst snd] in *. destruct (match extra Fplot_contour with Some _ => _ | None => _ end); [split; assumption|].
    destruct (alloc_frame h (marker_frame loc)) as [h1 lf] eqn:EA. assert (A1 : all_split h1) by (injection EA as <- _; exact A).
    match goal with |- context [new_chain rgb h1 ?a] => pose proof (new_chain_split rgb h1 a A1) as A2 end. destruct (new_chain rgb h1 _) as [h2 [l|e]]; cbn [fst] in *; [|split; assumption].
    unfold add_chain. destruct (chain_at h2 l) as [c|]; [|split; assumption]. destruct (dmem _ _); split; assumption.
  - unfold remove_name. destruct w as [h k]. cbn [fst snd] in *. destruct (dmem _ _); split; assumption.
  - unfold remove_chain. destruct (chain_at (fst w) l) as [c|]; [|split; assumption]. unfold remove_name. destruct w as [h k]. cbn [fst snd] in *. destruct (dmem _ _); split; assumption.
  - split; [exact A|]. intros o E. cbn in E. apply HO. congruence.
  - unfold sanitise_chains. pose proof (final_split w (conj A O)) as H1. destruct (get_final_chains w) as [w1 [finals|e]]; exact H1.
Qed.
Lemma run_split rgb : forall ops w, split_world w -> (forall o, In (OpOverride o) ops -> leaves_statistics o) -> split_world (fst (run rgb w ops)).
Proof.
  induction ops as [|o ops IH]; intros w H A; [exact H|]. cbn [run]. pose proof (step_split rgb w o H (fun ov E => A ov (or_introl E))) as H1. destruct (step rgb w o) as [w1 e]. cbn [fst] in H1.
  specialize (IH w1 H1 (fun o' Ho => A o' (or_intror Ho))). destruct (run rgb w1 ops) as [w2 log]. exact IH.
Qed.
Lemma unforced_split rgb w : unforced rgb w -> split_world w.
Proof. intros [h0 [ops [E [A ->]]]]. apply run_split; [|exact A]. split; [intros l c H; unfold chain_at in H; cbn in H; rewrite E in H; destruct l; discriminate|intros o K; discriminate]. Qed.

(** ** The entries *)
Lemma entry_due num c f p e b t : split_hdi c -> entry_of num c f p e -> get_parameter_summary num c f p = Ok b -> due (centre_only b) (not_constrained p (ch_name c)) t -> due (no_interval e) (not_constrained p (ch_name c)) t.
Proof.
  intros M [b' [E [[_ ->]|[K [bands [_ [[_ ->]|[_ [bs [_ ->]]]]]]]]]] H [D1 D2]; assert (b' = b) by congruence; subst b'.
  1-2: split; [intros [b' [K' C]]; injection K' as <-; exact (D1 C)|intros N; apply D2; intros C; apply N; exists b; auto].
  split; [intros [b' [K' _]]; discriminate|]. intros _. apply D2. intros [C _]. revert C. apply (other_given num c f p b); [|exact H]. rewrite (M K). discriminate.
Qed.
Lemma first_seen_fun l u : first_seen l u -> forall v, first_seen l v -> u = v.
Proof. induction 1 as [|x l u H IH]; intros v K; inversion K; subst; [reflexivity|]. f_equal. auto. Qed.
Lemma nodup_filter {A} (g : A -> bool) l : NoDup l -> NoDup (filter g l).
Proof. induction 1 as [|x l N D IH]; [constructor|]. cbn [filter]. destruct (g x); [|exact IH]. constructor; [|exact IH]. rewrite filter_In. tauto. Qed.
Lemma kept_nodup P l l' : kept P l l' -> NoDup l -> NoDup l'.
Proof. induction 1 as [|x l l' H K IH|x l l' H K IH]; intros N; [constructor| |]; inversion N; subst; [|auto]. constructor; [|auto]. intros I. apply (kept_In _ _ _ K) in I. tauto. Qed.
Lemma row_due num cols c f (s : dict bounds_in) part : NoDup cols -> split_hdi c -> summary_of num cols (c, f) s -> warned_of num cols (c, f) part ->
  exists ts, part = concat ts /\ Forall2 (fun pe t => due (no_interval (snd pe)) (not_constrained (fst pe) (ch_name c)) t) s ts.
Proof.
  intros ND M [[mine [K1 K2]] K3] [mine' [ts [L1 [L2 L3]]]]. cbn [fst snd] in *. pose proof (kept_functional _ _ _ _ L1 K1) as E. subst mine'. exists ts. split; [exact L2|].
  pose proof (kept_nodup _ _ _ K1 ND) as NM. pose proof (first_seen_nodup _ _ NM K2) as EK. rewrite <- EK in L3, NM. clear -L3 NM K3 M. unfold dkeys in *.
  assert (G : forall k v, In (k, v) s -> entry_of num c f k v). { intros k v HI. apply K3. apply dget_nodup; [exact NM|exact HI]. }
  clear K3 NM. remember (map fst s) as ks eqn:E. revert s E G. induction L3 as [|p t ks ts [b [B1 B2]] L IH]; intros s E G; destruct s as [|[k v] s]; try discriminate; [constructor|]. cbn [map fst] in E. injection E as -> ->.
  constructor; [|apply IH; [reflexivity|intros k' v' HI; apply G; right; exact HI]]. cbn [fst snd]. apply (entry_due num c f k v b); auto. apply G. left. reflexivity.
Qed.
Lemma rows_due num cols : NoDup cols -> forall chains (d : dict (dict bounds_in)) parts, (forall cf, In cf chains -> split_hdi (fst cf)) -> dkeys d = map name_of chains -> Forall2 (summary_of num cols) chains (dvalues d) ->
  Forall2 (warned_of num cols) chains parts -> Forall2 (fun nes part => exists ts, part = concat ts /\ Forall2 (fun pe t => due (no_interval (snd pe)) (not_constrained (fst pe) (fst nes)) t) (snd nes) ts) d parts.
Proof.
  intros ND chains d parts M K S W. unfold dkeys, dvalues in *. revert d K S. induction W as [|[c f] part chains parts W1 W IH]; intros d K S; destruct d as [|[n s] d]; try discriminate; [constructor|]. cbn [map fst snd] in *. injection K as -> K. inversion S as [|? ? ? ? S1 S2]; subst.
  constructor; [|apply IH; [intros cf HI; apply M; right; exact HI|exact K|exact S2]]. cbn [fst snd]. apply (row_due num cols c f s part ND); [exact (M (c, f) (or_introl eq_refl))|exact S1|exact W1].
Qed.
