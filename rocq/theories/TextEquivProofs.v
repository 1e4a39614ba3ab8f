(** Lemmas for C91: texts and tables do not depend on how rational numbers are written down. *)
From Coq Require Import String List Bool Arith ZArith QArith Qround Qabs Permutation Lia.
From Verif Require Import Py NumModel MarginalModel FrameModel ConfigModel ChainModel RegistryModel RegistrySpec HeapFacts RegistryProofs FormatModel TextModel AnalysisModel AnalysisSpec AnalysisProofs DiagProofs ConsumerProofs QueryProofs EquivSpec EquivFacts EquivApi KeywordSpec TextEquivSpec SessionProofs.
From Verif Require RegistryProps KeywordProps.
Import ListNotations.
Open Scope string_scope.
Open Scope list_scope.
Open Scope Q_scope.

(** ** Numbers *)
Lemma round_even_eq x y : x == y -> round_even x = round_even y.
Proof. intros E. unfold round_even. rewrite (Qfloor_comp _ _ E). assert (C : (x - inject_Z (Qfloor y) ?= 1 # 2) = (y - inject_Z (Qfloor y) ?= 1 # 2)) by (apply Qcompare_comp; [rewrite E|]; reflexivity). rewrite C. reflexivity. Qed.
Lemma Qle_bool_eq a x y : x == y -> Qle_bool a x = Qle_bool a y.
Proof. intros E. apply eq_true_iff_eq. rewrite !Qle_bool_iff, E. reflexivity. Qed.
Lemma Qeq_bool_eq a x y : x == y -> Qeq_bool x a = Qeq_bool y a.
Proof. intros E. apply eq_true_iff_eq. rewrite !Qeq_bool_iff, E. reflexivity. Qed.
Lemma Qabs_eq x y : x == y -> Qabs x == Qabs y.
Proof. intros E. rewrite E. reflexivity. Qed.
Lemma fixed_eq d x y : x == y -> fixed d x = fixed d y.
Proof.
  intros E. unfold fixed. rewrite (Qle_bool_eq 0 x y E). f_equal. apply round_even_eq. rewrite (Qabs_eq _ _ E). reflexivity.
Qed.
Lemma lg10_eq x y : x == y -> lg10 x = lg10 y.
Proof.
  intros E. unfold lg10. rewrite (Qle_bool_eq 1 x y E), (Qfloor_comp _ _ E), (Qceiling_comp _ _ (Qinv_comp _ _ E)). reflexivity.
Qed.
Lemma round_to_eq r x y : x == y -> round_to r x = round_to r y.
Proof. intros E. unfold round_to. rewrite (round_even_eq _ _ (Qmult_comp _ _ E _ _ (Qeq_refl (inject_Z (pow10 r))))). reflexivity. Qed.
Lemma resolution_eq u u' l l' c c' : u == u' -> l == l' -> c == c' -> resolution u l c = resolution u' l' c'.
Proof.
  intros U L C. unfold resolution. rewrite (Qeq_bool_eq 0 _ _ U), (Qeq_bool_eq 0 _ _ L), (Qeq_bool_eq 0 _ _ C), (lg10_eq _ _ (Qabs_eq _ _ U)), (lg10_eq _ _ (Qabs_eq _ _ L)), (lg10_eq _ _ (Qabs_eq _ _ C)). reflexivity.
Qed.
(** ** Bounds *)
Lemma units_id x y : in_units 1 0 x y -> y == x.
Proof. unfold in_units. intros ->. ring. Qed.
Lemma ends_present (o o' : option Q) : opt_agree (in_units 1 0) o o' -> match o, o' with Some x, Some y => y == x | None, None => True | _, _ => False end.
Proof. destruct o, o'; cbn; auto. apply units_id. Qed.
Lemma single_eq u u' pm : bound_in_units 1 0 u u' -> format_single_bound u' pm = format_single_bound u pm.
Proof.
  intros [L [C U]]. apply ends_present in L, C, U. unfold format_single_bound.
  destruct (b_upper u) as [a|], (b_upper u') as [a'|]; try contradiction; [|reflexivity]. destruct (b_center u) as [c|], (b_center u') as [c'|]; try contradiction; [|reflexivity]. destruct (b_lower u) as [l|], (b_lower u') as [l'|]; try contradiction; [|reflexivity].
  assert (EU : a' - c' == a - c) by (rewrite U, C; reflexivity). assert (EL : c' - l' == c - l) by (rewrite L, C; reflexivity). cbv zeta. rewrite (resolution_eq _ _ _ _ _ _ EU EL C).
  destruct (resolution (a - c) (c - l) c) as [r|]; [|reflexivity].
  assert (K : forall n x x' f, x' == x -> round_to n (x' * f) = round_to n (x * f)) by (intros n x x' f E; apply round_to_eq; rewrite E; reflexivity).
  rewrite !(K _ _ _ _ EU), !(K _ _ _ _ EL), !(K _ _ _ _ C). reflexivity.
Qed.
Lemma one_text_eq u u' wrap label : bound_in_units 1 0 u u' -> one_bound_text u' wrap label = one_bound_text u wrap label.
Proof.
  intros B. unfold one_bound_text. rewrite (single_eq _ _ _ B). destruct B as [L [C U]]. apply ends_present in L, C, U.
  destruct (b_lower u), (b_lower u'); try contradiction; [|reflexivity]. destruct (b_upper u), (b_upper u'); try contradiction; [|reflexivity]. destruct (b_center u), (b_center u'); try contradiction; reflexivity.
Qed.
Lemma all_none_eq u u' : bound_in_units 1 0 u u' -> all_none u' = all_none u.
Proof.
  intros [L [C U]]. unfold all_none, is_none. destruct (b_lower u), (b_lower u'), (b_center u), (b_center u'), (b_upper u), (b_upper u'); cbn in *; try contradiction; reflexivity.
Qed.
Lemma entries_eq wrap l l' : Forall2 (bound_in_units 1 0) l l' -> forall i, entry_lines wrap i l' = entry_lines wrap i l.
Proof. intros F. induction F as [|u u' l l' B F IH]; intros i; [reflexivity|]. cbn [entry_lines]. rewrite (single_eq _ _ _ B), IH. reflexivity. Qed.
Lemma filter_eq l l' : Forall2 (bound_in_units 1 0) l l' -> Forall2 (bound_in_units 1 0) (filter (fun b => negb (all_none b)) l) (filter (fun b => negb (all_none b)) l').
Proof. intros F. induction F as [|u u' l l' B F IH]; [constructor|]. cbn [filter]. rewrite (all_none_eq _ _ B). destruct (negb (all_none u)); [constructor; assumption|exact IH]. Qed.
Lemma text_eq e e' wrap label : entry_in_units 1 0 e e' -> get_parameter_text e' wrap label = get_parameter_text e wrap label.
Proof.
  destruct e as [|u|l], e' as [|u'|l']; cbn [entry_in_units]; try contradiction; [apply one_text_eq|]. intros F. unfold get_parameter_text.
  destruct F as [|u u' l l' B F]; [reflexivity|]. destruct F as [|v v' l l' C F]; [apply one_text_eq; exact B|].
  pose proof (filter_eq _ _ (Forall2_cons _ _ B (Forall2_cons _ _ C F))) as G. destruct G as [|w w' m m' D G]; [reflexivity|]. rewrite (entries_eq wrap _ _ (Forall2_cons _ _ D G)). reflexivity.
Qed.
(** ** Tables *)
Lemma dget_rel {X} (R : X -> X -> Prop) k (l l' : dict X) : Forall2 (fun e e' => fst e' = fst e /\ R (snd e) (snd e')) l l' ->
  match dget k l, dget k l' with Some x, Some x' => R x x' | None, None => True | _, _ => False end.
Proof. intros F. induction F as [|[n x] [n' x'] l l' [N H] F IH]; cbn [dget fst snd] in *; [exact I|]. subst n'. destruct (String.eqb k n); [exact H|exact IH]. Qed.
Lemma cell_eq fill s s' p : summary_in_units 1 0 s s' -> cell_text fill s' p = cell_text fill s p.
Proof. intros S. pose proof (dget_rel _ p s s' S) as G. unfold cell_text. destruct (dget p s), (dget p s'); try contradiction; [apply text_eq; exact G|reflexivity]. Qed.
Lemma rmapM_eq {A B C} (f : A -> res C) (g : B -> res C) l l' : Forall2 (fun x y => g y = f x) l l' -> rmapM g l' = rmapM f l.
Proof. intros F. induction F as [|x y l l' E F IH]; [reflexivity|]. cbn [rmapM]. rewrite E, IH. reflexivity. Qed.
Lemma rmapM_same {A C} (f g : A -> res C) l : (forall x, g x = f x) -> rmapM g l = rmapM f l.
Proof. intros E. induction l as [|x l IH]; [reflexivity|]. cbn [rmapM]. rewrite E, IH. reflexivity. Qed.
Definition alike (num : numerics) (cols : list string) (cf cf' : chain * frame) : Prop :=
  fst cf' = fst cf /\ power_law (n_power num (ch_power (fst cf))) /\ same_table num (fst cf) (snd cf) (snd cf') cols.
Lemma alike_columns num cols columns l l' : Forall2 (alike num cols) l l' -> sanitise_columns columns l' = sanitise_columns columns l.
Proof.
  intros T. destruct columns as [c|]; [reflexivity|]. unfold sanitise_columns. generalize (@nil string). induction T as [|[c f] [c' f'] m m' [E [_ [T _]]] F IH]; intros acc; [reflexivity|]. cbn [fold_left fst snd] in *. subst c'. rewrite (table_columns c f f' T). apply IH.
Qed.
Lemma alike_names num cols l l' : Forall2 (alike num cols) l l' -> map (fun cf : chain * frame => ch_name (fst cf)) l' = map (fun cf : chain * frame => ch_name (fst cf)) l.
Proof. intros T. induction T as [|[c f] [c' f'] m m' [E _] F IH]; [reflexivity|]. cbn [map fst] in *. rewrite E, IH. reflexivity. Qed.
Lemma setall_rel {X} (R : X -> X -> Prop) ks : forall ds ds' acc acc', Forall2 R ds ds' -> Forall2 (fun e e' => fst e' = fst e /\ R (snd e) (snd e')) acc acc' ->
  Forall2 (fun e e' => fst e' = fst e /\ R (snd e) (snd e')) (setall (combine ks ds) acc) (setall (combine ks ds') acc').
Proof.
  induction ks as [|k ks IH]; intros ds ds' acc acc' F A; [exact A|]. destruct F as [|d d' ds ds' D F]; [exact A|]. cbn [combine]. unfold setall in *. cbn [fold_left fst snd]. apply IH; [exact F|]. apply dset_rel; assumption.
Qed.
Lemma summary_from_rel num l l' : Forall2 (alike num (sanitise_columns None l)) l l' -> rrel same_summaries (summary_from num None l) (summary_from num None l').
Proof.
  intros T. unfold summary_from. rewrite (alike_columns _ _ None _ _ T). unfold name_of. rewrite (alike_names _ _ _ _ T). generalize (map (fun cf : chain * frame => ch_name (fst cf)) l). intros names. revert T. generalize (sanitise_columns None l). intros cols T.
  assert (K : rrel (Forall2 (summary_in_units 1 0)) (rmapM (fun cf => chain_summary num (fst cf) (snd cf) cols []) l) (rmapM (fun cf => chain_summary num (fst cf) (snd cf) cols []) l')).
  { clear names. induction T as [|[c f] [c' f'] l l' [E [P T]] F IH]; [constructor|]. cbn [fst snd rmapM] in *. subst c'. pose proof (table_entries num c f f' cols P T) as R. destruct (chain_summary num c f cols []) as [s|e], (chain_summary num c f' cols []) as [s'|e']; cbn in R; try contradiction; [|exact R].
    cbn [rbind]. destruct (rmapM (fun cf => chain_summary num (fst cf) (snd cf) cols []) l) as [r|e], (rmapM (fun cf => chain_summary num (fst cf) (snd cf) cols []) l') as [r'|e']; cbn in IH; try contradiction; [|exact IH]. cbn. constructor; assumption. }
  destruct (rmapM (fun cf => chain_summary num (fst cf) (snd cf) cols []) l) as [r|e], (rmapM (fun cf => chain_summary num (fst cf) (snd cf) cols []) l') as [r'|e']; cbn in K; try contradiction; [|exact K].
  cbn [rmap rbind rrel]. apply (setall_rel (summary_in_units 1 0)); [exact K|constructor].
Qed.
(** The table of given chains. *)
Definition table_from (num : numerics) (repr ascii_repr : string -> string) (labels : dict string) (blind : blind_opt) (columns : option (list string)) (transpose : bool) (caption label : option string) (hlines : bool) (fill : string)
  (final_chains : list (chain * frame)) : res string :=
  let all_columns := sanitise_columns columns final_chains in
  let final_columns := filter (fun c => negb (smem c (sanitise_blinds blind all_columns))) all_columns in
  rbind (summary_from num None final_chains) (fun fit_values =>
  rbind (if transpose
         then rmapM (fun p => rmap (fun cells => (tab ++ tab ++ get_label labels p)%string :: cells) (rmapM (fun kv => cell_text fill (snd kv) p) fit_values)) final_columns
         else rmapM (fun kv => rmap (fun cells => (tab ++ tab ++ fst kv)%string :: cells) (rmapM (cell_text fill (snd kv)) final_columns)) fit_values) (fun rows =>
  table repr ascii_repr (dflt "" caption) (dflt "" label) (String.concat "" (repeat "c" (if transpose then length final_chains + 1 else length final_columns + 1)%nat))
    (opt_line hlines (hline_text ++ tab ++ tab) ++ row_text (if transpose then "Parameter" :: map (fun cf => ch_name (fst cf)) final_chains else "Model" :: map (get_label labels) final_columns) ++
     opt_line hlines (tab ++ tab ++ hline_text) ++ String.concat "" (map row_text rows) ++ opt_line hlines (tab ++ tab ++ hline_text))%string)).
Lemma table_contents num repr ascii w labels blind columns req t c l h b : snd (get_latex_table num repr ascii w labels blind columns req t c l h b) =
  rbind (contents w req false) (table_from num repr ascii labels blind columns t c l h b).
Proof.
  unfold get_latex_table, contents. destruct (sanitise_chains w req false) as [w1 [locs|e]]; [|reflexivity]. cbn [fst snd rbind]. destruct (rmapM (ref_object (fst w1)) (map ByChain locs)) as [cs|e] eqn:E; [|reflexivity]. cbn [rbind]. cbv zeta.
  rewrite (summary_listed num w1 None locs cs (resolve_objects _ _ _ E)). reflexivity.
Qed.
Lemma table_from_eq num repr ascii labels blind columns t cap lab h b l l' : Forall2 (alike num (sanitise_columns None l)) l l' ->
  table_from num repr ascii labels blind columns t cap lab h b l' = table_from num repr ascii labels blind columns t cap lab h b l.
Proof.
  intros T. unfold table_from. rewrite (alike_columns _ _ columns _ _ T), (alike_names _ _ _ _ T). assert (LE : length l' = length l) by (rewrite <- (map_length (fun cf : chain * frame => ch_name (fst cf)) l'), (alike_names _ _ _ _ T), map_length; reflexivity). rewrite LE.
  pose proof (summary_from_rel num l l' T) as S. destruct (summary_from num None l) as [s|e], (summary_from num None l') as [s'|e']; cbn in S; try contradiction; [|rewrite S; reflexivity]. cbn [rbind]. cbv zeta.
  set (cols := filter _ (sanitise_columns columns l)). clearbody cols.
  assert (R : (if t then rmapM (fun p => rmap (fun cells => (tab ++ tab ++ get_label labels p)%string :: cells) (rmapM (fun kv => cell_text b (snd kv) p) s')) cols
     else rmapM (fun kv => rmap (fun cells => (tab ++ tab ++ fst kv)%string :: cells) (rmapM (cell_text b (snd kv)) cols)) s') =
     (if t then rmapM (fun p => rmap (fun cells => (tab ++ tab ++ get_label labels p)%string :: cells) (rmapM (fun kv => cell_text b (snd kv) p) s)) cols
     else rmapM (fun kv => rmap (fun cells => (tab ++ tab ++ fst kv)%string :: cells) (rmapM (cell_text b (snd kv)) cols)) s)).
  { destruct t.
    - apply rmapM_same. intros p. f_equal. apply rmapM_eq. unfold same_summaries in S. clear -S. induction S as [|x y s s' [_ E] S IH]; constructor; [apply cell_eq; exact E|exact IH].
    - apply rmapM_eq. unfold same_summaries in S. clear -S. induction S as [|x y s s' [N E] S IH]; constructor; [|exact IH]. rewrite N. f_equal. apply rmapM_same. intros p. apply cell_eq. exact E. }
  rewrite R. reflexivity.
Qed.
(** ** Rows in another order *)
Lemma shuffled_at h h' i : rows_shuffled h h' -> reordered (frame_at h i) (frame_at h' i).
Proof.
  intros [_ F]. unfold frame_at. revert i. induction F as [|f f' l l' R F IH]; intros [|i]; cbn [nth]; try (exists []; split; [constructor|reflexivity]); [exact R|apply IH].
Qed.
Lemma reordered_kde num c f f' p : order_free num -> frame_wf f -> reordered f f' -> same_kde num c f f' p.
Proof.
  intros OF [_ WF] [q [Q0 E]]. right. exists 1. split; [reflexivity|]. intros x w x' w' u u' X W X' W' U. pose proof (WF _ _ (FrameFacts.f_get_In _ _ _ X)) as LX. pose proof (WF _ _ (FrameFacts.f_get_In _ _ _ W)) as LW.
  assert (EX : x' = picked NaN q x /\ w' = picked NaN q w). { subst f'. unfold f_get in *. cbn [f_cols] in *. rewrite !(col_get_map (g := picked NaN q)), X in X'. rewrite !(col_get_map (g := picked NaN q)), W in W'. cbn in X', W'. split; congruence. }
  destruct EX as [-> ->]. rewrite (OF (qs x) (qs w) (qs (picked NaN q x)) (qs (picked NaN q w)) _ u u'); [ring| | | |exact U].
  - unfold qs. rewrite !map_length. congruence.
  - unfold qs, picked. rewrite !map_length. reflexivity.
  - rewrite !qs_picked, combine_picked by (unfold qs; rewrite !map_length; congruence). symmetry. apply picked_perm. rewrite combine_length. unfold qs. rewrite !map_length, LX, LW, Nat.min_id. exact Q0.
Qed.
Lemma reordered_empty f f' : reordered f f' -> f_empty f' = f_empty f.
Proof.
  intros R. destruct (reordered_shape _ _ R) as [E1 E2]. assert (E3 : length (f_cols f') = length (f_cols f)) by (rewrite <- (map_length fst (f_cols f')), E2, map_length; reflexivity). unfold f_empty. unfold f_rows in E1. destruct (f_index f), (f_index f'), (f_cols f), (f_cols f'); try discriminate; reflexivity.
Qed.
Lemma shuffled_contents w h' req all names : world_ok w -> rows_shuffled (fst w) h' -> requested w req = map Some names ->
  rrel (Forall2 (fun cf cf' => fst cf' = fst cf /\ reordered (snd cf) (snd cf'))) (contents w req all) (contents (h', snd w) req all).
Proof.
  intros W S HR. destruct (registered w W) as [cs F].
  assert (CA : forall l, chain_at h' l = chain_at (fst w) l) by (intros l; unfold chain_at; rewrite (proj1 S); reflexivity).
  assert (W' : world_ok (h', snd w)). { destruct W as [A B]. split; [exact A|]. intros n l H. cbn [fst]. rewrite CA. exact (B n l H). }
  assert (F' : Forall2 (holds (fst (h', snd w))) (k_chains (snd (h', snd w))) cs). { cbn [fst snd]. clear -F CA. induction F as [|x y l l' H F IH]; constructor; [|exact IH]. unfold holds in *. rewrite CA. exact H. }
  assert (HR' : requested (h', snd w) req = map Some names). { rewrite <- HR. destruct req as [l|d|]; cbn [requested fst]; [| |reflexivity]; apply map_ext; [intros [n|p]|intros [n p]]; cbn [snd]; rewrite ?CA; reflexivity. }
  rewrite (contents_spec w req all names cs W F HR), (contents_spec _ req all names cs W' F' HR'). unfold contents_of. cbn [fst snd]. change (get_names (h', snd w)) with (get_names w).
  destruct (all_resolved _ _ _ cs) as [cs'|e]; [|reflexivity]. cbn [rbind]. destruct (rmapM _ names) as [cl|e]; [|reflexivity]. cbn [rbind rrel].
  induction cl as [|c cl IH]; [constructor|]. cbn [filter]. unfold skip. rewrite (reordered_empty _ _ (shuffled_at _ _ (ch_samples c) S)). destruct (all || _); [|exact IH]. cbn [map]. constructor; [split; [reflexivity|apply shuffled_at; exact S]|exact IH].
Qed.
Lemma contents_sound rgb plain w req all l : session rgb plain w -> contents w req all = Ok l -> Forall (fun cf => sound (fst cf) (snd cf)) l.
Proof.
  intros S E. pose proof (final_good plain w (session_good _ _ _ S)) as [[_ G] _]. apply KeywordProps.shown_contents in E. destruct E as [w1 [locs [E F]]].
  unfold sanitise_chains in E. destruct (get_final_chains w) as [w2 [finals|e]]; [|discriminate]. cbn [fst snd] in *. injection E as <- _. clear -F G. induction F as [|x [c f] xs l [H K] F IH]; constructor; [|exact IH]. cbn [fst snd] in *. subst f. destruct (G x c H) as [_ [G1 _]]. exact G1.
Qed.
Lemma shuffled_table rgb plain w h' num repr ascii labels blind columns req t cap lab hl b names : session rgb plain w -> rows_shuffled (fst w) h' -> order_free num -> (forall p, power_law (n_power num p)) ->
  requested w req = map Some names ->
  snd (get_latex_table num repr ascii (h', snd w) labels blind columns req t cap lab hl b) = snd (get_latex_table num repr ascii w labels blind columns req t cap lab hl b).
Proof.
  intros S R OF P HR. rewrite !table_contents. pose proof (shuffled_contents w h' req false names (RegistryProps.reachable_ok _ _ (session_reachable _ _ _ S)) R HR) as K.
  destruct (contents w req false) as [l|e] eqn:E, (contents (h', snd w) req false) as [l'|e']; cbn in K; try contradiction; [|rewrite K; reflexivity]. cbn [rbind]. apply table_from_eq. pose proof (contents_sound _ _ _ _ _ _ S E) as G. clear E.
  generalize (sanitise_columns None l). intros cols. induction K as [|[c f] [c' f'] l l' [K1 K2] K IH]; constructor; [|apply IH; inversion G; assumption]. inversion G as [|? ? G1 _]; subst. cbn [fst snd] in *. split; [exact K1|]. split; [apply P|]. cbn [fst snd].
  apply table_reordered; [exact (so_wf _ _ G1)|exact (so_rows _ _ G1)|exact (so_weight _ _ G1)|exact K2|]. intros p _ _. apply reordered_kde; [exact OF|exact (so_wf _ _ G1)|exact K2].
Qed.
