(** Proofs about summaries and tables. *)
From Coq Require Import String Ascii List Bool Arith ZArith QArith Reals Lia.
From Verif Require Import Py NumModel MarginalModel FrameModel ConfigModel ChainModel RegistryModel CovModel FormatModel TextModel AnalysisModel.
From Verif Require Import ChainSpec FormatSpec CompareSpec TextSpec AnalysisSpec FrameFacts ChainProofs ChainUseProofs ChainProps DiagProofs GewekeProofs FormatProofs CompareProofs RegistrySpec RegistryProofs.
Import ListNotations.
Open Scope string_scope.
Open Scope list_scope.

(** ** Dictionaries built by a loop *)
Notation setall := (fold_left (fun a kv => dset (fst kv) (snd kv) a)).
Lemma setall_last {A} (kvs : list (string * A)) : forall acc b k v a, kvs = b ++ (k, v) :: a -> ~ In k (map fst a) -> dget k (setall kvs acc) = Some v.
Proof.
  assert (G : forall a acc k (v : A), ~ In k (map fst a) -> dget k acc = Some v -> dget k (setall a acc) = Some v).
  { induction a as [|[k' v'] a IH]; intros acc k v N H; [exact H|]. cbn [fold_left fst snd]. apply IH; [intros K; apply N; right; exact K|]. rewrite dget_dset_other; [exact H|]. intros ->. apply N. left. reflexivity. }
  intros acc b k v a -> N. rewrite fold_left_app. cbn [fold_left fst snd]. apply G; [exact N|apply dget_dset_same].
Qed.
Lemma setall_in {A} (kvs : list (string * A)) : forall acc k v, dget k (setall kvs acc) = Some v -> In (k, v) kvs \/ dget k acc = Some v.
Proof.
  induction kvs as [|[k' v'] r IH]; intros acc k v H; [right; exact H|]. cbn [fold_left fst snd] in H. destruct (IH _ _ _ H) as [K|K]; [left; right; exact K|].
  destruct (string_dec k' k) as [->|N]; [rewrite dget_dset_same in K; injection K as ->; left; left; reflexivity|]. rewrite dget_dset_other in K by exact N. right. exact K.
Qed.
Lemma setall_keys {A} (kvs : list (string * A)) : first_seen (map fst kvs) (dkeys (setall kvs [])).
Proof.
  destruct (dset_fold_first kvs []) as [u [E H]]. rewrite E. cbn [dkeys map app]. replace (filter _ _) with (map fst kvs) in H; [exact H|]. symmetry. clear. induction (map fst kvs) as [|x l IH]; [reflexivity|]. change (x :: filter (fun y : string => negb (smem y [])) l = x :: l). f_equal. exact IH.
Qed.
Lemma first_seen_nodup l u : NoDup l -> first_seen l u -> u = l.
Proof.
  intros ND H. induction H as [|x l u H IH]; [reflexivity|]. inversion ND as [|? ? N1 N2]; subst. f_equal.
  assert (E : filter (fun y => negb (String.eqb x y)) l = l).
  { clear -N1. induction l as [|y l IH]; [reflexivity|]. cbn [filter]. destruct (String.eqb_spec x y) as [->|N]; [exfalso; apply N1; left; reflexivity|]. cbn [negb]. f_equal. apply IH. intros K. apply N1. right. exact K. }
  rewrite E in IH. apply IH. exact N2.
Qed.
Lemma setall_nodup {A} (kvs : list (string * A)) : NoDup (map fst kvs) -> setall kvs [] = kvs.
Proof.
  assert (G : forall (kvs acc : list (string * A)), NoDup (map fst (acc ++ kvs)) -> setall kvs acc = acc ++ kvs).
  { induction kvs0 as [|[k v] r IH]; intros acc ND; [rewrite app_nil_r; reflexivity|]. cbn [fold_left fst snd]. rewrite map_app in ND. cbn [map fst] in ND.
    rewrite dset_new; [rewrite IH; [rewrite <- app_assoc; reflexivity|]|].
    - rewrite <- app_assoc. rewrite map_app. exact ND.
    - apply NoDup_remove_2 in ND. intros K. apply ND. apply in_or_app. left. exact K. }
  intros ND. apply (G kvs []). exact ND.
Qed.
Lemma combine_fst {A B} (l : list A) : forall l' : list B, length l = length l' -> map fst (combine l l') = l.
Proof. induction l as [|a l IH]; intros [|b l'] H; cbn in *; try discriminate; [reflexivity|]. f_equal. apply IH. lia. Qed.

(** ** Summaries *)
Lemma column_summary_spec num c f p e : column_summary num c f p = Ok e <-> entry_of num c f p e.
Proof.
  unfold column_summary, entry_of. destruct (get_parameter_summary num c f p) as [b|x]; cbn [rbind].
  2:{ split; [discriminate|]. intros [b [K _]]. discriminate. }
  destruct (ch_cfg c Fmultimodal).
  - destruct (get_parameter_hdi_intervals num c f p) as [ivs|x]; cbn [rbind].
    2:{ split; [discriminate|]. intros [b' [_ [[K _]|[_ [bands [K _]]]]]]; discriminate. }
    destruct (Nat.leb_spec 2 (length ivs)) as [L|L].
    + destruct (get_parameter_multimodal_bounds num c f p ivs) as [bs|x] eqn:EB; cbn [rmap].
      * split.
        -- intros H. injection H as <-. exists b. split; [reflexivity|]. right. split; [reflexivity|]. exists ivs. split; [reflexivity|]. right. split; [exact L|]. exists bs. split; [exact EB|reflexivity].
        -- intros [b' [H1 [[K _]|[_ [bands [K [[K2 _]|[_ [bs' [K2 ->]]]]]]]]]]; [discriminate| |]; injection K as <-; [lia|]. rewrite EB in K2. injection K2 as <-. reflexivity.
      * split; [discriminate|]. intros [b' [H1 [[K _]|[_ [bands [K [[K2 _]|[_ [bs' [K2 _]]]]]]]]]]; [discriminate| |]; injection K as <-; [lia|congruence].
    + split.
      * intros H. injection H as <-. exists b. split; [reflexivity|]. right. split; [reflexivity|]. exists ivs. split; [reflexivity|]. left. split; [exact L|reflexivity].
      * intros [b' [H1 [[K _]|[_ [bands [K [[_ ->]|[K2 _]]]]]]]]; [discriminate| |]; injection K as <-; [congruence|lia].
  - split.
    + intros H. injection H as <-. exists b. split; [reflexivity|]. left. split; reflexivity.
    + intros [b' [H1 [[_ ->]|[K _]]]]; [congruence|discriminate].
Qed.
Lemma chain_summary_fold num c f : forall cols acc, chain_summary num c f cols acc =
  rmap (fun es => setall (combine (filter (f_has f) cols) es) acc) (rmapM (column_summary num c f) (filter (f_has f) cols)).
Proof.
  induction cols as [|p r IH]; intros acc; [reflexivity|]. cbn [chain_summary filter]. destruct (f_has f p); cbn [negb]; [|apply IH]. cbn [rmapM]. destruct (column_summary num c f p) as [e|x]; cbn [rbind rmap]; [|reflexivity].
  rewrite IH. destruct (rmapM (column_summary num c f) (filter (f_has f) r)) as [es|x]; reflexivity.
Qed.
Lemma kept_filter f cols : kept (is_column f) cols (filter (f_has f) cols).
Proof.
  induction cols as [|p r IH]; [constructor|]. cbn [filter]. destruct (f_has f p) eqn:E; constructor; try exact IH; rewrite is_column_has; congruence.
Qed.
Lemma kept_functional P l : forall a b, kept P l a -> kept P l b -> a = b.
Proof. induction l as [|x l IH]; intros a b H1 H2; inversion H1; inversion H2; subst; try contradiction; [reflexivity|f_equal; auto|auto]. Qed.
Lemma kept_In P l l' : kept P l l' -> forall x, In x l' <-> In x l /\ P x.
Proof.
  induction 1 as [|x l l' H K IH|x l l' H K IH]; intros y; cbn [In]; [tauto| |]; rewrite IH; split; try tauto.
  - intros [->|H1]; tauto.
  - intros [[->|H1] H2]; tauto.
Qed.
Lemma chain_summary_ok num c f cols d : chain_summary num c f cols [] = Ok d -> summary_of num cols (c, f) d.
Proof.
  rewrite chain_summary_fold. destruct (rmapM _ _) as [es|x] eqn:E; cbn [rmap]; [|discriminate]. intros H. injection H as <-. apply rmapM_Forall2 in E. pose proof (Forall2_len _ _ _ E) as L. split.
  - exists (filter (f_has f) cols). split; [apply kept_filter|]. pose proof (setall_keys (combine (filter (f_has f) cols) es)) as K. rewrite combine_fst in K by exact L. exact K.
  - intros p e H. apply setall_in in H. destruct H as [H|H]; [|discriminate]. cbn [fst snd]. apply column_summary_spec. clear -E H. induction E as [|x y l l' Q Q' IH]; [destruct H|]. destruct H as [H|H]; [injection H as <- <-; exact Q|exact (IH H)].
Qed.
Lemma chain_summary_total num c f cols : (forall p, In p cols -> is_column f p -> exists e, entry_of num c f p e) -> exists d, chain_summary num c f cols [] = Ok d.
Proof.
  intros H. rewrite chain_summary_fold. assert (G : exists es, rmapM (column_summary num c f) (filter (f_has f) cols) = Ok es).
  { induction cols as [|p r IH]; [exists []; reflexivity|]. destruct IH as [es E]; [intros q Hq; apply H; right; exact Hq|]. cbn [filter]. destruct (f_has f p) eqn:EP; [|exists es; exact E]. cbn [rmapM].
    destruct (H p (or_introl eq_refl)) as [e He]; [apply is_column_has; exact EP|]. apply column_summary_spec in He. rewrite He. cbn [rbind]. rewrite E. exists (e :: es). reflexivity. }
  destruct G as [es E]. rewrite E. eexists. reflexivity.
Qed.

Lemma objects_resolve h locs chains : objects h locs chains -> rmapM (ref_object h) (map ByChain locs) = Ok chains.
Proof.
  induction 1 as [|l [c f] locs chains [H1 H2] H IH]; [reflexivity|]. cbn [map rmapM ref_object]. cbn [fst snd] in *. rewrite H1. cbn [rbind]. rewrite IH, H2. reflexivity.
Qed.
Lemma resolve_objects h locs chains : rmapM (ref_object h) (map ByChain locs) = Ok chains -> objects h locs chains.
Proof.
  revert chains. induction locs as [|l locs IH]; intros chains H; [cbn in H; injection H as <-; constructor|]. cbn [map rmapM ref_object] in H. destruct (chain_at h l) as [c|] eqn:E; [|discriminate]. cbn [rbind] in H.
  destruct (rmapM _ _) as [r|]; [|discriminate]. cbn [rbind] in H. injection H as <-. constructor; [split; [exact E|reflexivity]|]. apply IH. reflexivity.
Qed.
Lemma objects_fun h locs a b : objects h locs a -> objects h locs b -> a = b.
Proof. intros H1 H2. apply objects_resolve in H1. apply objects_resolve in H2. congruence. Qed.
Lemma summary_loop_fold num h cols : forall locs chains acc, objects h locs chains -> summary_loop num h (map ByChain locs) cols acc =
  rmap (fun ds => setall (combine (map name_of chains) ds) acc) (rmapM (fun cf => chain_summary num (fst cf) (snd cf) cols []) chains).
Proof.
  intros locs chains acc H. revert acc. induction H as [|l [c f] locs chains [H1 H2] H IH]; intros acc; [reflexivity|]. cbn [fst snd] in *. cbn [map summary_loop rmapM]. rewrite H1. cbn [fst snd]. rewrite <- H2.
  destruct (chain_summary num c f cols []) as [d|x]; cbn [rbind rmap]; [|reflexivity]. rewrite IH. destruct (rmapM _ chains); reflexivity.
Qed.
Lemma loop_objects num h cols : forall locs acc d, summary_loop num h (map ByChain locs) cols acc = Ok d -> exists chains, objects h locs chains.
Proof.
  induction locs as [|l locs IH]; intros acc d H; [exists []; constructor|]. cbn [map summary_loop] in H. destruct (chain_at h l) as [c|] eqn:E; [|discriminate]. destruct (chain_summary _ _ _ _ _) as [s|]; [|discriminate]. cbn [rbind] in H.
  destruct (IH _ _ H) as [chains HC]. exists ((c, frame_at h (ch_samples c)) :: chains). constructor; [split; [exact E|reflexivity]|exact HC].
Qed.
Lemma loop_ok num h cols locs chains d : objects h locs chains -> summary_loop num h (map ByChain locs) cols [] = Ok d ->
  summaries_of num cols chains d /\ (NoDup (map name_of chains) -> dkeys d = map name_of chains /\ Forall2 (summary_of num cols) chains (dvalues d)).
Proof.
  intros HO H. rewrite (summary_loop_fold num h cols locs chains [] HO) in H. destruct (rmapM _ chains) as [ds|x] eqn:E; cbn [rmap] in H; [|discriminate]. injection H as <-. apply rmapM_Forall2 in E. pose proof (Forall2_len _ _ _ E) as L.
  assert (EK : map fst (combine (map name_of chains) ds) = map name_of chains) by (apply combine_fst; rewrite map_length; exact L). split; [split|].
  - pose proof (setall_keys (combine (map name_of chains) ds)) as K. rewrite EK in K. exact K.
  - intros before cf after -> N. apply Forall2_app_inv_l in E. destruct E as [d1 [d2 [E1 [E2 ->]]]]. inversion E2 as [|? s ? d3 Q1 Q2]; subst. exists s. split; [|destruct cf as [c f]; apply chain_summary_ok; exact Q1].
    assert (L1 : length (map name_of before) = length d1) by (rewrite map_length; exact (Forall2_len _ _ _ E1)).
    apply (setall_last _ [] (combine (map name_of before) d1) _ _ (combine (map name_of after) d3)).
    + rewrite map_app. cbn [map]. clear -L1. revert d1 L1. induction (map name_of before) as [|x b IH]; intros [|y d1] L; cbn in *; try discriminate; [reflexivity|]. f_equal. apply IH. lia.
    + rewrite combine_fst; [exact N|]. rewrite map_length. exact (Forall2_len _ _ _ Q2).
  - intros ND. rewrite setall_nodup by (rewrite EK; exact ND). split; [exact EK|]. unfold dvalues.
    assert (EV : map snd (combine (map name_of chains) ds) = ds). { clear -L. revert ds L. induction chains as [|x c IH]; intros [|y ds] L; cbn in *; try discriminate; [reflexivity|]. f_equal. apply IH. lia. }
    rewrite EV. clear -E. induction E as [|[c f] s l l' Q Q' IH]; constructor; [apply chain_summary_ok; exact Q|exact IH].
Qed.

(** ** The parameter table *)
Lemma first_seen_In l u : first_seen l u -> forall x, In x u <-> In x l.
Proof. intros H. exact (proj2 (first_seen_spec l u H)). Qed.
Definition plotted (chains : list (chain * frame)) (cols : list string) : Prop := first_seen (concat (map (fun cf => plotting_columns (fst cf) (snd cf)) chains)) cols.
Lemma cell_ok num chains cols blank cf d p s : plotted chains cols -> summary_of num cols cf d -> cell_text blank d p = Ok s -> cell_for num chains blank cf p s.
Proof.
  intros HP [[mine [M1 M2]] HE] H. unfold cell_for. cbv zeta.
  assert (HH : In p (dkeys d) <-> is_column (snd cf) p /\ exists cf', In cf' chains /\ In p (plotting_columns (fst cf') (snd cf'))).
  { rewrite (first_seen_In _ _ M2), (kept_In _ _ _ M1), (first_seen_In _ _ HP), in_concat. split.
    - intros [[l [H1 H2]] H3]. split; [exact H3|]. apply in_map_iff in H1. destruct H1 as [cf' [<- H1]]. exists cf'. auto.
    - intros [H3 [cf' [H1 H2]]]. split; [|exact H3]. exists (plotting_columns (fst cf') (snd cf')). split; [apply in_map_iff; exists cf'; auto|exact H2]. }
  unfold cell_text in H. destruct (dget p d) as [e|] eqn:E.
  - left. split; [apply HH; apply dget_Some_mem; exists e; exact E|]. exists e. split; [apply HE; exact E|exact H].
  - right. split; [rewrite <- HH; apply dget_None; exact E|congruence].
Qed.
Lemma concat_indent sep n cells : String.concat sep ((tab ++ tab ++ n)%string :: cells) = (indent ++ String.concat sep (n :: cells))%string.
Proof. destruct cells; [reflexivity|]. cbn [String.concat]. unfold indent, tab. cbn [String.append]. reflexivity. Qed.
Lemma row_line n cells : row_text ((tab ++ tab ++ n)%string :: cells) = (indent ++ line (n :: cells))%string.
Proof. unfold row_text, line, join, end_text. rewrite concat_indent, sapp_assoc. reflexivity. Qed.
Definition indented (r : list string) : list string := match r with [] => [] | n :: cells => (tab ++ tab ++ n)%string :: cells end.
Lemma body_text hlines header rows rows' : Forall2 (fun r r' => exists n cells, r' = n :: cells /\ r = (tab ++ tab ++ n)%string :: cells) rows rows' ->
  (opt_line hlines (hline_text ++ tab ++ tab) ++ row_text header ++ opt_line hlines (tab ++ tab ++ hline_text) ++ String.concat "" (map row_text rows) ++ opt_line hlines (tab ++ tab ++ hline_text))%string = table_body hlines header rows'.
Proof.
  intros H. unfold table_body, opt_line. assert (E : map row_text rows = map (fun r => (indent ++ line r)%string) rows').
  { induction H as [|r r' l l' [n [cells [-> ->]]] H IH]; [reflexivity|]. cbn [map]. rewrite row_line, IH. reflexivity. }
  rewrite E. destruct hlines; reflexivity.
Qed.
Lemma label_shown labels p : shown_label labels p (get_label labels p).
Proof. unfold shown_label, get_label. destruct (dget p labels); reflexivity. Qed.
Lemma hidden_filter blind cols : kept (fun p => ~ hidden blind p) cols (filter (fun c => negb (smem c (sanitise_blinds blind cols))) cols).
Proof.
  assert (G : forall l, (forall x, In x l -> In x cols) -> kept (fun p => ~ hidden blind p) l (filter (fun c => negb (smem c (sanitise_blinds blind cols))) l)).
  { induction l as [|x l IH]; intros HI; [constructor|]. cbn [filter]. assert (E : smem x (sanitise_blinds blind cols) = true <-> hidden blind x).
    { rewrite smem_In. destruct blind as [|[|]|b]; cbn; try tauto; [|split; [intros []|discriminate]]. split; [reflexivity|]. intros _. apply HI. left. reflexivity. }
    destruct (smem x (sanitise_blinds blind cols)); cbn [negb].
    - apply kept_drop; [intros N; apply N; apply E; reflexivity|]. apply IH. intros y Hy. apply HI. right. exact Hy.
    - apply kept_keep; [intros N; apply E in N; discriminate|]. apply IH. intros y Hy. apply HI. right. exact Hy. }
  apply G. auto.
Qed.
Lemma asked_columns columns chains : asked columns chains (sanitise_columns columns chains).
Proof. destruct columns; [reflexivity|]. apply sanitise_columns_spec. Qed.

(** What get_latex_table puts into the frame does not depend on caption and label. *)
Definition table_parts_of (num : numerics) (w1 : world) (labels : dict string) (blind : blind_opt) (columns : option (list string)) (locs : list nat) (transpose hlines : bool) (blank_fill : string) : res (string * string) :=
  rbind (rmapM (ref_object (fst w1)) (map ByChain locs)) (fun final_chains =>
  let all_columns := sanitise_columns columns final_chains in
  let final_columns := filter (fun c => negb (smem c (sanitise_blinds blind all_columns))) all_columns in
  rbind (snd (get_summary num w1 (ReqList (map ByChain locs)) None)) (fun fit_values =>
  let column_text := String.concat "" (repeat "c" (if transpose then length final_chains + 1 else length final_columns + 1)) in
  let header := if transpose then "Parameter" :: map (fun cf => ch_name (fst cf)) final_chains else "Model" :: map (get_label labels) final_columns in
  rbind (if transpose
         then rmapM (fun p => rmap (fun cells => (tab ++ tab ++ get_label labels p)%string :: cells) (rmapM (fun kv => cell_text blank_fill (snd kv) p) fit_values)) final_columns
         else rmapM (fun kv => rmap (fun cells => (tab ++ tab ++ fst kv)%string :: cells) (rmapM (cell_text blank_fill (snd kv)) final_columns)) fit_values) (fun rows =>
  Ok (column_text, (opt_line hlines (hline_text ++ tab ++ tab) ++ row_text header ++ opt_line hlines (tab ++ tab ++ hline_text) ++
                    String.concat "" (map row_text rows) ++ opt_line hlines (tab ++ tab ++ hline_text))%string)))).
Lemma latex_parts num repr arepr w labels blind columns req transpose hlines blank : exists w1 r0, forall caption label,
  get_latex_table num repr arepr w labels blind columns req transpose caption label hlines blank =
  (w1, rbind r0 (fun cb => table repr arepr (dflt "" caption) (dflt "" label) (fst cb) (snd cb))) /\
  (forall locs, sanitise_chains w req false = (w1, Ok locs) -> r0 = table_parts_of num w1 labels blind columns locs transpose hlines blank).
Proof.
  unfold get_latex_table. destruct (sanitise_chains w req false) as [w1 [locs|e]].
  2:{ exists w1, (Err e). intros caption label. split; [reflexivity|]. intros locs H. discriminate. }
  exists w1, (table_parts_of num w1 labels blind columns locs transpose hlines blank). intros caption label. split; [|intros l H; injection H as <-; reflexivity].
  cbn [rbind]. unfold table_parts_of. destruct (rmapM (ref_object (fst w1)) (map ByChain locs)) as [chains|e]; cbn [rbind]; [|reflexivity]. cbv zeta.
  destruct (snd (get_summary num w1 (ReqList (map ByChain locs)) None)) as [d|e]; cbn [rbind]; [|reflexivity].
  match goal with |- (_, rbind ?x _) = _ => destruct x as [rows|e] end; cbn [rbind fst snd]; reflexivity.
Qed.
Lemma label_map labels shown : Forall2 (shown_label labels) shown (map (get_label labels) shown).
Proof. induction shown; constructor; [apply label_shown|assumption]. Qed.
Lemma summary_list num w locs chains columns : objects (fst w) locs chains ->
  get_summary num w (ReqList (map ByChain locs)) columns = (w, summary_loop num (fst w) (map ByChain locs) (sanitise_columns columns chains) []).
Proof. intros H. unfold get_summary. cbn [rbind]. destruct columns as [l|]; cbn [rbind rmap]; [reflexivity|]. rewrite (objects_resolve _ _ _ H). reflexivity. Qed.
Lemma parts_ok num w1 labels blind columns locs transpose hlines blank ct body : 
  table_parts_of num w1 labels blind columns locs transpose hlines blank = Ok (ct, body) ->
  exists chains cols shown header rows, objects (fst w1) locs chains /\ asked columns chains cols /\ kept (fun p => ~ hidden blind p) cols shown /\
    (NoDup (map name_of chains) -> ct = centred (length header) /\ body = table_body hlines header rows /\ Forall (fun r => length r = length header) rows /\ latex_rows num labels chains blank transpose shown header rows).
Proof.
  unfold table_parts_of. destruct (rmapM (ref_object (fst w1)) (map ByChain locs)) as [chains|] eqn:EC; cbn [rbind]; [|discriminate]. cbv zeta. apply resolve_objects in EC. rewrite (summary_list num w1 locs chains None EC). cbn [snd].
  set (cols := sanitise_columns columns chains). set (shown := filter _ cols). destruct (summary_loop _ _ _ _ _) as [d|] eqn:ED; cbn [rbind]; [|discriminate]. intros H.
  destruct (loop_ok num _ _ _ _ _ EC ED) as [_ ND]. assert (PL : plotted chains (sanitise_columns None chains)) by apply sanitise_columns_spec.
  exists chains, cols, shown. destruct transpose.
  - destruct (rmapM _ shown) as [rows|] eqn:ER; cbn [rbind] in H; [|discriminate]. injection H as <- <-. apply rmapM_Forall2 in ER.
    assert (HR : exists rows', Forall2 (fun r r' => exists n cells, r' = n :: cells /\ r = (tab ++ tab ++ n)%string :: cells) rows rows' /\
              Forall2 (fun p row => exists l cells, shown_label labels p l /\ row = l :: cells /\ Forall2 (fun kv s => cell_text blank (snd kv) p = Ok s) d cells) shown rows').
    { clear -ER. induction ER as [|p r sh rs H1 H2 [rows' [I1 I2]]]; [exists []; split; constructor|]. destruct (rmapM _ d) as [cells|] eqn:E; cbn [rmap] in H1; [|discriminate]. injection H1 as <-. apply rmapM_Forall2 in E.
      exists ((get_label labels p :: cells) :: rows'). split; constructor; try assumption; [exists (get_label labels p), cells; split; reflexivity|]. exists (get_label labels p), cells. split; [apply label_shown|split; [reflexivity|exact E]]. }
    destruct HR as [rows' [R1 R2]]. exists ("Parameter" :: map name_of chains), rows'. split; [exact EC|]. split; [apply asked_columns|]. split; [apply hidden_filter|]. intros N. destruct (ND N) as [N1 N2].
    assert (R3 : Forall2 (fun p row => exists l cells, shown_label labels p l /\ row = l :: cells /\ Forall2 (fun cf s => cell_for num chains blank cf p s) chains cells) shown rows').
    { clear -R2 N2 PL. induction R2 as [|p r sh rs [l [cells [H1 [H2 H3]]]] H4 IH]; constructor; [|exact IH]. exists l, cells. split; [exact H1|]. split; [exact H2|]. clear -H3 N2 PL. unfold dvalues in N2.
      revert H3 N2. generalize chains at 2 4 as cs. intros cs H3 N2. revert cells H3. remember (map snd d) as vs eqn:EV. revert d EV. induction N2 as [|cf s cs vs S1 S2 IH]; intros d EV cells H3.
      - destruct d; [|discriminate]. inversion H3. constructor.
      - destruct d as [|[n s'] d]; [discriminate|]. cbn in EV. injection EV as <- EV. inversion H3 as [|? c ? cells' C1 C2]; subst. constructor; [apply (cell_ok num chains _ blank cf s p c PL S1 C1)|]. exact (IH d eq_refl cells' C2). }
    split; [unfold centred; cbn [length]; rewrite map_length, Nat.add_1_r; reflexivity|]. split; [apply body_text; exact R1|]. split; [|split; [reflexivity|exact R3]].
    rewrite Forall_forall. intros r Hr. clear -R3 Hr. induction R3 as [|p r' sh rs [l [cells [_ [-> H3]]]] H4 IH]; [destruct Hr|]. destruct Hr as [<-|Hr]; [|exact (IH Hr)]. cbn [length]. rewrite map_length. f_equal. symmetry. exact (Forall2_len _ _ _ H3).
  - destruct (rmapM _ d) as [rows|] eqn:ER; cbn [rbind] in H; [|discriminate]. injection H as <- <-. apply rmapM_Forall2 in ER.
    assert (HR : exists rows', Forall2 (fun r r' => exists n cells, r' = n :: cells /\ r = (tab ++ tab ++ n)%string :: cells) rows rows' /\
              Forall2 (fun kv row => exists cells, row = fst kv :: cells /\ Forall2 (fun p s => cell_text blank (snd kv) p = Ok s) shown cells) d rows').
    { clear -ER. induction ER as [|kv r sh rs H1 H2 [rows' [I1 I2]]]; [exists []; split; constructor|]. destruct (rmapM _ shown) as [cells|] eqn:E; cbn [rmap] in H1; [|discriminate]. injection H1 as <-. apply rmapM_Forall2 in E.
      exists ((fst kv :: cells) :: rows'). split; constructor; try assumption; [exists (fst kv), cells; split; reflexivity|]. exists cells. split; [reflexivity|exact E]. }
    destruct HR as [rows' [R1 R2]]. exists ("Model" :: map (get_label labels) shown), rows'. split; [exact EC|]. split; [apply asked_columns|]. split; [apply hidden_filter|]. intros N. destruct (ND N) as [N1 N2].
    assert (R3 : Forall2 (fun cf row => exists cells, row = name_of cf :: cells /\ Forall2 (cell_for num chains blank cf) shown cells) chains rows').
    { clear -R2 N1 N2 PL. unfold dvalues, dkeys in *. enough (G : forall cs, map fst d = map name_of cs -> Forall2 (summary_of num (sanitise_columns None chains)) cs (map snd d) -> Forall2 (fun cf row => exists cells, row = name_of cf :: cells /\ Forall2 (cell_for num chains blank cf) shown cells) cs rows') by (apply G; assumption). clear N1 N2. induction R2 as [|[n s] r d rs [cells [H1 H2]] H4 IH]; intros cs N1 N2; cbn [map fst snd] in *.
      - inversion N2. constructor.
      - inversion N2 as [|cf ? cs' ? C1 C2]; subst. cbn [map] in N1. injection N1 as -> N1. constructor; [|apply IH; assumption]. exists cells. split; [reflexivity|]. clear -H2 C1 PL. induction H2 as [|p s' sh cells K1 K2 IH]; constructor; [|exact IH]. exact (cell_ok num chains _ blank cf s p s' PL C1 K1). }
    split; [unfold centred; cbn [length]; rewrite map_length, Nat.add_1_r; reflexivity|]. split; [apply body_text; exact R1|]. split; [|split; [exists (map (get_label labels) shown); split; [apply label_map|reflexivity]|exact R3]].
    rewrite Forall_forall. intros r Hr. clear -R3 Hr. induction R3 as [|p r' sh rs [cells [-> H3]] H4 IH]; [destruct Hr|]. destruct Hr as [<-|Hr]; [|exact (IH Hr)]. cbn [length]. rewrite map_length. f_equal. symmetry. exact (Forall2_len _ _ _ H3).
Qed.

(** ** Covariance and correlation tables *)
Lemma rmapM_total {A B} (g : A -> res B) l : (forall x, In x l -> exists y, g x = Ok y) -> exists ys, rmapM g l = Ok ys.
Proof.
  induction l as [|x l IH]; intros H; [exists []; reflexivity|]. destruct (H x (or_introl eq_refl)) as [y Hy]. destruct IH as [ys E]; [intros z Hz; apply H; right; exact Hz|]. cbn [rmapM]. rewrite Hy. cbn [rbind]. rewrite E. exists (y :: ys). reflexivity.
Qed.
Lemma max_len_ge (ls : list string) l : In l ls -> (String.length l <= fold_right Nat.max 0 (map String.length ls))%nat.
Proof. induction ls as [|x ls IH]; [intros []|]. cbn [map fold_right]. intros [->|H]; [lia|]. specialize (IH H). lia. Qed.
Lemma table_2d_parts {A} (show : A -> string) repr arepr labels nm : exists r0, forall caption label,
  table_2d show repr arepr labels nm caption label = rbind r0 (fun cb => table repr arepr caption label (fst cb) (snd cb)).
Proof.
  unfold table_2d. cbv zeta. destruct (map (get_label labels) (nm_columns nm)) as [|p ps] eqn:EP; [exists (Err ValueError); reflexivity|]. destruct (nm_matrix nm) as [q|m]; [exists (Err TypeError); reflexivity|]. eexists (Ok (_, _)). intros caption label. reflexivity.
Qed.
Lemma table_2d_ok {A} (show : A -> string) repr arepr labels nm (m : list (list A)) (cell : nat -> nat -> string -> Prop) caption label :
  ~ contains percent caption -> ~ contains percent label -> nm_columns nm <> [] -> nm_matrix nm = Mat m -> length m = length (nm_columns nm) -> (forall r, In r m -> length r = length (nm_columns nm)) ->
  (forall i j r a, nth_error m i = Some r -> nth_error r j = Some a -> cell i j (show a)) ->
  exists ls text, Forall2 (shown_label labels) (nm_columns nm) ls /\ table_2d show repr arepr labels nm caption label = Ok text /\ square_table ls cell caption label text.
Proof.
  intros HC HL NE EM LM LR HS. exists (map (get_label labels) (nm_columns nm)). set (ls := map (get_label labels) (nm_columns nm)). assert (LL : length ls = length (nm_columns nm)) by (unfold ls; apply map_length).
  unfold table_2d. fold ls. cbv zeta. destruct ls as [|p ps] eqn:EL; [destruct (nm_columns nm); [contradiction|discriminate]|]. rewrite <- EL in *. rewrite EM. rewrite table_verbatim by assumption.
  eexists. split; [unfold ls; apply label_map|]. split; [reflexivity|]. set (w := fold_right Nat.max 0%nat (map String.length ls)).
  exists w, (map (fun pr => (rjust w (fst pr), map show (snd pr))) (combine ls m)). split; [intros l Hl; apply max_len_ge; exact Hl|]. split; [rewrite map_length, combine_length; lia|]. split.
  - intros i l Hi. assert (Hlt : (i < length m)%nat) by (rewrite LM, <- LL; apply nth_error_Some; congruence). destruct (nth_error m i) as [r|] eqn:Er; [|apply nth_error_None in Er; lia].
    exists (rjust w l), (map show r). split.
    + assert (G : forall (a : list string) (b : list (list A)) i x y, nth_error a i = Some x -> nth_error b i = Some y -> nth_error (combine a b) i = Some (x, y)).
      { clear. induction a as [|x a IH]; intros [|y b] [|i] u v H1 H2; cbn in *; try discriminate; [congruence|]. apply IH; assumption. }
      rewrite (map_nth_error _ i _ (G ls m i l r Hi Er)). reflexivity.
    + split; [apply rjust_padded|]. split; [rewrite map_length, LL; apply LR; exact (nth_error_In _ _ Er)|]. intros j s Hj. rewrite nth_error_map in Hj. destruct (nth_error r j) as [a|] eqn:Ea; [|discriminate]. injection Hj as <-. exact (HS i j r a Er Ea).
  - unfold join, hline8, centred, rule, newline, nl. f_equal. rewrite map_map. cbn [fst snd].
    replace (map (fun pr : string * list A => ("        " ++ rjust w (fst pr) ++ String.concat "" (map (fun s => " & " ++ s) (map show (snd pr))) ++ " \\ " ++ String (ascii_of_nat 10) "")%string) (combine ls m))
      with (map (fun pr : string * list A => ("        " ++ rjust w (fst pr) ++ String.concat "" (map (fun r => " & " ++ show r) (snd pr)) ++ " \\ " ++ String (ascii_of_nat 10) "")%string) (combine ls m)); [reflexivity|].
    apply map_ext. intros [a b]. cbn [fst snd]. rewrite map_map. reflexivity.
Qed.
Lemma np_cov_shape xs w m : np_cov xs w = Ok (Mat m) -> length m = length xs /\ forall r, In r m -> length r = length xs.
Proof.
  unfold np_cov. destruct xs as [|x xs]; [intros H; injection H as <-; split; [reflexivity|intros r []]|]. destruct (existsb _ w); [discriminate|]. destruct (rmapM _ (x :: xs)) as [cs|] eqn:E; cbn [rbind]; [|discriminate]. cbv zeta. destruct (Qle_bool _ 0); [discriminate|].
  apply rmapM_Forall2 in E. apply Forall2_len in E. set (M := map _ cs). assert (S : length M = length (x :: xs) /\ forall r, In r M -> length r = length (x :: xs)). { unfold M. rewrite map_length. split; [lia|]. intros r Hr. apply in_map_iff in Hr. destruct Hr as [y [<- _]]. rewrite map_length. lia. }
  clearbody M. destruct M as [|[|q [|q' r']] [|r2 M]]; intros H; try discriminate H; injection H as <-; exact S.
Qed.
Lemma select_len f cols xs : select f cols = Ok xs -> length xs = length cols.
Proof. unfold select. intros H. apply rmapM_Forall2 in H. symmetry. exact (Forall2_len _ _ _ H). Qed.
Lemma covariance_shape c f columns nm : get_covariance c f columns = Ok nm -> nm_columns nm = match columns with None => data_columns c f | Some l => l end /\
  forall m, nm_matrix nm = Mat m -> length m = length (nm_columns nm) /\ forall r, In r m -> length r = length (nm_columns nm).
Proof.
  unfold get_covariance. cbv zeta. set (cols := match columns with None => _ | Some l => l end). destruct (select f cols) as [xs|] eqn:E1; cbn [rbind]; [|discriminate]. destruct (weights c f) as [w|]; cbn [rbind]; [|discriminate].
  destruct (np_cov xs w) as [M|] eqn:E2; cbn [rmap]; [|discriminate]. intros H. injection H as <-. cbn [nm_columns nm_matrix]. split; [reflexivity|]. intros m ->. apply select_len in E1. rewrite <- E1. exact (np_cov_shape _ _ _ E2).
Qed.
Lemma correlation_shape c f columns nm : get_correlation c f columns = Ok nm -> nm_columns nm = match columns with None => data_columns c f | Some l => l end /\
  exists m, nm_matrix nm = Mat m /\ length m = length (nm_columns nm) /\ forall r, In r m -> length r = length (nm_columns nm).
Proof.
  unfold get_correlation. destruct (get_covariance c f columns) as [cv|] eqn:E; cbn [rbind]; [|discriminate]. destruct (covariance_shape _ _ _ _ E) as [S1 S2]. destruct (nm_matrix cv) as [q|m] eqn:EM; [discriminate|]. cbv zeta. intros H. injection H as <-. cbn [nm_columns nm_matrix]. split; [exact S1|].
  destruct (S2 m eq_refl) as [S3 S4]. eexists. split; [reflexivity|]. rewrite map_length, seq_length. split; [exact S3|]. intros r Hr. apply in_map_iff in Hr. destruct Hr as [i [<- _]]. rewrite map_length, seq_length. exact S3.
Qed.
Lemma about_chain_spec w which c f : NoDup (get_names w) -> (table_chain w which = Ok (c, f) <-> about_chain w which c f).
Proof.
  intros ND. unfold table_chain, about_chain. cbv zeta.
  assert (G : forall l, match chain_at (fst w) l with Some c0 => Ok (c0, frame_at (fst w) (ch_samples c0)) | None => Err TypeError end = Ok (c, f) <-> chain_at (fst w) l = Some c /\ f = frame_at (fst w) (ch_samples c)).
  { intros l. destruct (chain_at (fst w) l) as [c0|]; [|split; [discriminate|intros [K _]; discriminate]]. split; [intros H; injection H as <- <-; split; reflexivity|intros [H ->]; injection H as <-; reflexivity]. }
  destruct which as [[n|l]|].
  - unfold get_chain. destruct (dget n (k_chains (snd w))) as [l|]; [|split; [discriminate|intros [l [K _]]; discriminate]]. rewrite G. split; [intros H; exists l; split; [reflexivity|exact H]|]. intros [l' [K H]]. injection K as <-. exact H.
  - rewrite G. split; [intros H; exists l; split; [reflexivity|exact H]|]. intros [l' [-> H]]. exact H.
  - unfold get_names, dkeys, get_chain. destruct (k_chains (snd w)) as [|[n l] [|kv r]] eqn:EK.
    + split; [discriminate|]. intros [l [[n [K _]] _]]. discriminate.
    + rewrite G. cbn [dget]. split.
      * intros H. exists l. split; [|exact H]. exists n. split; [reflexivity|]. rewrite String.eqb_refl. reflexivity.
      * intros [l' [[n' [K1 K2]] H]]. cbn in K1. injection K1 as <-. rewrite String.eqb_refl in K2. injection K2 as <-. exact H.
    + split; [discriminate|]. intros [l' [[n' [K _]] _]]. discriminate.
Qed.

(** ** Whole calls *)
Lemma selected_objects h finals b names locs : selected h finals b names locs -> exists chains, objects h locs chains /\
  (exists mine, sublist mine names /\ map name_of chains = mine) /\ (b = true -> map name_of chains = names).
Proof.
  induction 1 as [|n ns l ls c H1 H2 H3 H4 H [chains [O [[mine [S1 S2]] S3]]]|n ns l ls c H1 H2 H3 H4 H5 H [chains [O [[mine [S1 S2]] S3]]]].
  - exists []. split; [constructor|]. split; [exists []; split; [constructor|reflexivity]|reflexivity].
  - exists ((c, frame_at h (ch_samples c)) :: chains). split; [constructor; [split; [exact H2|reflexivity]|exact O]|]. unfold name_of in *. cbn [map fst]. split; [exists (n :: mine); split; [constructor; exact S1|congruence]|]. intros E. rewrite (S3 E). congruence.
  - exists chains. split; [exact O|]. split; [exists mine; split; [constructor; exact S1|exact S2]|]. intros E. congruence.
Qed.
