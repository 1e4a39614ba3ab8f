(** Proofs for C116. *)
From Coq Require Import String List Bool Arith ZArith QArith Reals Lia.
From Verif Require Import Py NumModel FrameModel ConfigModel ChainModel RegistryModel TextModel FormatSpec FormatProofs FormatModel AnalysisModel AnalysisSpec AnalysisProofs CovModel CovSpec QueryProofs TextEquivProofs MarginalModel ConsumerSpec AmongSpec.
Import ListNotations.
Open Scope string_scope.
Open Scope list_scope.

Lemma F2_len {A B} (P : A -> B -> Prop) l l' : Forall2 P l l' -> length l = length l'.
Proof. induction 1; cbn; congruence. Qed.
Lemma setall_distinct {A} (kvs : list (string * A)) : forall acc, NoDup (dkeys acc) -> NoDup (dkeys (setall kvs acc)).
Proof. induction kvs as [|[k v] kvs IH]; intros acc N; [exact N|]. apply (IH (dset k v acc)). apply nodup_dset. exact N. Qed.

(** ** Summaries *)
Lemma chain_get num c f p : forall cols acc r, chain_summary num c f cols acc = Ok r ->
  dget p r = if existsb (String.eqb p) cols && f_has f p then match column_summary num c f p with Ok e => Some e | Err _ => None end else dget p acc.
Proof.
  induction cols as [|q cols IH]; intros acc r H; cbn [chain_summary existsb] in *; [injection H as <-; reflexivity|].
  destruct (f_has f q) eqn:E; cbn [negb] in H.
  - destruct (column_summary num c f q) as [e|] eqn:EE; [|discriminate]. cbn [rbind] in H. rewrite (IH _ _ H). destruct (String.eqb_spec p q) as [->|N]; cbn [orb].
    + rewrite E. cbn [andb]. rewrite EE. destruct (existsb (String.eqb q) cols); cbn [andb]; [reflexivity|]. apply dget_dset_same.
    + destruct (existsb _ cols && f_has f p); [reflexivity|]. apply dget_dset_other. congruence.
  - rewrite (IH _ _ H). destruct (String.eqb_spec p q) as [->|N]; cbn [orb]; [|reflexivity]. rewrite E, !andb_false_r. reflexivity.
Qed.
Lemma exists_in p cols : In p cols -> existsb (String.eqb p) cols = true.
Proof. intros H. apply existsb_exists. exists p. split; [exact H|apply String.eqb_refl]. Qed.
Lemma not_exists p cols : ~ In p cols -> existsb (String.eqb p) cols = false.
Proof. intros H. destruct (existsb _ cols) eqn:E; [|reflexivity]. apply existsb_exists in E. destruct E as [q [I E]]. apply String.eqb_eq in E. subst q. contradiction. Qed.
Lemma loop_same num h cols cols' p : In p cols -> In p cols' -> forall refs acc acc' d d', (forall n, reported acc' n p = reported acc n p) ->
  summary_loop num h refs cols acc = Ok d -> summary_loop num h refs cols' acc' = Ok d' -> forall n, reported d' n p = reported d n p.
Proof.
  intros I I'. induction refs as [|[x|l] refs IH]; intros acc acc' d d' A H H' n; cbn [summary_loop] in *; [congruence|discriminate|].
  destruct (chain_at h l) as [c|]; [|discriminate]. destruct (chain_summary num c _ cols []) as [r|] eqn:E; [|discriminate]. destruct (chain_summary num c _ cols' []) as [r'|] eqn:E'; [|discriminate]. cbn [rbind] in *.
  eapply IH; [|exact H|exact H']. intros m. unfold reported. destruct (String.eqb_spec m (ch_name c)) as [->|N].
  - rewrite !dget_dset_same. rewrite (chain_get _ _ _ p _ _ _ E), (chain_get _ _ _ p _ _ _ E'), (exists_in _ _ I), (exists_in _ _ I'). reflexivity.
  - rewrite !dget_dset_other by congruence. apply A.
Qed.
Lemma loop_in num h cols p e : forall refs acc d n, (forall m, reported acc m p = None) -> summary_loop num h refs cols acc = Ok d -> reported d n p = Some e -> In p cols.
Proof.
  induction refs as [|[x|l] refs IH]; intros acc d n A H R; cbn [summary_loop] in *; [injection H as <-; rewrite A in R; discriminate|discriminate|].
  destruct (chain_at h l) as [c|]; [|discriminate]. destruct (chain_summary num c _ cols []) as [r|] eqn:E; [|discriminate]. cbn [rbind] in *. destruct (in_dec string_dec p cols) as [I|I]; [exact I|].
  refine (IH _ _ n _ H R). intros m. unfold reported. destruct (String.eqb_spec m (ch_name c)) as [->|N].
  - rewrite dget_dset_same, (chain_get _ _ _ p _ _ _ E), (not_exists _ _ I). reflexivity.
  - rewrite dget_dset_other by congruence. apply A.
Qed.
Lemma summary_same num w req cols cols' d d' n p : In p cols -> In p cols' ->
  snd (get_summary num w req (Some cols)) = Ok d -> snd (get_summary num w req (Some cols')) = Ok d' -> reported d' n p = reported d n p.
Proof.
  intros I I'. unfold get_summary. destruct (match req with ReqAll => _ | ReqList l => _ | ReqDict x => _ end) as [w1 [refs|e]]; cbn [snd rbind]; [|discriminate]. intros H H'. exact (loop_same _ _ _ _ _ I I' _ _ _ _ _ (fun _ => eq_refl) H H' n).
Qed.
Lemma summary_default num w req cols d d' n p e : In p cols ->
  snd (get_summary num w req None) = Ok d -> snd (get_summary num w req (Some cols)) = Ok d' -> reported d n p = Some e -> reported d' n p = Some e.
Proof.
  intros I. unfold get_summary. destruct (match req with ReqAll => _ | ReqList l => _ | ReqDict x => _ end) as [w1 [refs|x]]; cbn [snd rbind]; [|discriminate]. destruct (rmapM _ refs) as [cs|]; [|discriminate]. cbn [rmap rbind]. intros H H' R.
  assert (I' : In p (sanitise_columns None cs)) by (eapply loop_in; [|exact H|exact R]; reflexivity). rewrite <- R. exact (loop_same _ _ _ _ _ I' I _ _ _ _ _ (fun _ => eq_refl) H H' n).
Qed.

(** ** Matrices *)
Definition centre (w x : list Q) : res (list Q) := rmap (fun mu => map (fun q => q - mu)%Q x) (average x w).
Definition factor (w : list Q) : Q := (1 / (qsum w - qsum (map (fun q => q * q) w) / qsum w))%Q.
Lemma cov_rows xs w m : np_cov xs w = Ok m -> exists cs, Forall2 (fun x c => centre w x = Ok c) xs cs /\ rows m = map (fun x => map (fun y => dot3 x y w * factor w)%Q cs) cs.
Proof.
  unfold np_cov. destruct xs as [|x0 xs0]; [intros H; injection H as <-; exists []; split; [constructor|reflexivity]|]. destruct (existsb _ w); [discriminate|].
  match goal with |- rbind (rmapM ?g ?l) _ = _ -> _ => change (rmapM g l) with (rmapM (centre w) l) end. destruct (rmapM (centre w) (x0 :: xs0)) as [cs|] eqn:E; [|discriminate]. cbn [rbind]. destruct (Qle_bool _ 0); [discriminate|]. intros H. exists cs. split; [apply rmapM_ok; exact E|].
  fold (factor w) in H. revert H. destruct (map _ cs) as [|[|a [|b r]] [|s t]]; intros H; injection H as <-; reflexivity.
Qed.
Lemma Forall2_at {A B} (P : A -> B -> Prop) l l' i x : Forall2 P l l' -> nth_error l i = Some x -> exists y, nth_error l' i = Some y /\ P x y.
Proof. intros F. revert i. induction F as [|a b l l' H F IH]; intros [|i] N; cbn in *; try discriminate; [injection N as <-; eauto|apply IH; exact N]. Qed.
(** The covariance of two columns, whichever matrix it is part of *)
Definition pair_cov (c : chain) (f : frame) (p q : string) (v : Q) : Prop :=
  exists lp lq w a b, f_get f p = Some lp /\ f_get f q = Some lq /\ weights c f = Ok w /\ centre w (qs lp) = Ok a /\ centre w (qs lq) = Ok b /\ v = (dot3 a b w * factor w)%Q.
Lemma pair_cov_fun c f p q v v' : pair_cov c f p q v -> pair_cov c f p q v' -> v' = v.
Proof. intros [lp [lq [w [a [b [H1 [H2 [H3 [H4 [H5 ->]]]]]]]]]] [lp' [lq' [w' [a' [b' [K1 [K2 [K3 [K4 [K5 ->]]]]]]]]]]. congruence. Qed.
Lemma cov_indexed c f columns m i j p q row v : get_covariance c f columns = Ok m -> nth_error (nm_columns m) i = Some p -> nth_error (nm_columns m) j = Some q ->
  nth_error (rows (nm_matrix m)) i = Some row -> nth_error row j = Some v -> pair_cov c f p q v.
Proof.
  unfold get_covariance. set (cols := match columns with Some l => l | None => _ end). clearbody cols. destruct (select f cols) as [xs|] eqn:S; [|discriminate]. cbn [rbind]. destruct (weights c f) as [w|] eqn:W; [|discriminate]. cbn [rbind]. destruct (np_cov xs w) as [mm|] eqn:C; [|discriminate]. cbn [rmap]. intros H. injection H as <-. cbn [nm_columns nm_matrix].
  intros P Q R V. destruct (cov_rows _ _ _ C) as [cs [F E]]. rewrite E in R. unfold select in S. apply rmapM_ok in S.
  destruct (Forall2_at _ _ _ _ _ S P) as [x [X1 X2]]. destruct (Forall2_at _ _ _ _ _ S Q) as [y [Y1 Y2]]. destruct (Forall2_at _ _ _ _ _ F X1) as [a [A1 A2]]. destruct (Forall2_at _ _ _ _ _ F Y1) as [b [B1 B2]].
  rewrite nth_error_map, A1 in R. cbn in R. injection R as <-. rewrite nth_error_map, B1 in V. cbn in V. injection V as <-.
  destruct (f_get f p) as [lp|] eqn:FP; [|discriminate]. destruct (f_get f q) as [lq|] eqn:FQ; [|discriminate]. injection X2 as <-. injection Y2 as <-. exists lp, lq, w, a, b. repeat split; assumption.
Qed.
Lemma cov_square c f columns m i p : get_covariance c f columns = Ok m -> nth_error (nm_columns m) i = Some p -> exists row, nth_error (rows (nm_matrix m)) i = Some row /\ length row = length (nm_columns m).
Proof.
  unfold get_covariance. set (cols := match columns with Some l => l | None => _ end). clearbody cols. destruct (select f cols) as [xs|] eqn:S; [|discriminate]. cbn [rbind]. destruct (weights c f) as [w|] eqn:W; [|discriminate]. cbn [rbind]. destruct (np_cov xs w) as [mm|] eqn:C; [|discriminate]. cbn [rmap]. intros H. injection H as <-. cbn [nm_columns nm_matrix].
  intros P. destruct (cov_rows _ _ _ C) as [cs [F E]]. rewrite E. unfold select in S. apply rmapM_ok in S. destruct (Forall2_at _ _ _ _ _ S P) as [x [X1 X2]]. destruct (Forall2_at _ _ _ _ _ F X1) as [a [A1 A2]].
  eexists. rewrite nth_error_map, A1. split; [reflexivity|]. rewrite map_length. pose proof (F2_len _ _ _ F). pose proof (F2_len _ _ _ S). congruence.
Qed.
Lemma cov_same c f columns columns' m m' p q v v' : get_covariance c f columns = Ok m -> get_covariance c f columns' = Ok m' -> at_names m p q v -> at_names m' p q v' -> v' = v.
Proof.
  intros H H' [i [j [row [A1 [A2 [A3 A4]]]]]] [i' [j' [row' [B1 [B2 [B3 B4]]]]]]. exact (pair_cov_fun _ _ _ _ _ _ (cov_indexed _ _ _ _ _ _ _ _ _ _ H A1 A2 A3 A4) (cov_indexed _ _ _ _ _ _ _ _ _ _ H' B1 B2 B3 B4)).
Qed.
Lemma mat_pair c f columns nm m i j p q : get_covariance c f columns = Ok nm -> nm_matrix nm = Mat m -> nth_error (nm_columns nm) i = Some p -> nth_error (nm_columns nm) j = Some q -> pair_cov c f p q (mat_at m i j).
Proof.
  intros H M P Q. destruct (cov_square _ _ _ _ _ _ H P) as [row [R L]]. assert (J : (j < length row)%nat) by (rewrite L; apply nth_error_Some; congruence). destruct (nth_error row j) as [v|] eqn:V; [|apply nth_error_None in V; lia].
  replace (mat_at m i j) with v; [exact (cov_indexed _ _ _ _ _ _ _ _ _ _ H P Q R V)|]. rewrite M in R. cbn [rows] in R. unfold mat_at. rewrite (nth_error_nth _ _ [] R). symmetry. apply nth_error_nth. exact V.
Qed.
Lemma corr_indexed c f columns nm i j p q row v : get_correlation c f columns = Ok nm -> nth_error (nm_columns nm) i = Some p -> nth_error (nm_columns nm) j = Some q ->
  nth_error (rows (nm_matrix nm)) i = Some row -> nth_error row j = Some v ->
  exists m, v = correlation_entry m i j /\ pair_cov c f p p (mat_at m i i) /\ pair_cov c f q q (mat_at m j j) /\ pair_cov c f p q (mat_at m i j).
Proof.
  unfold get_correlation. destruct (get_covariance c f columns) as [k|] eqn:K; [|discriminate]. cbn [rbind]. destruct (nm_matrix k) as [s|m] eqn:M; [discriminate|]. intros H. injection H as <-. cbn [nm_columns nm_matrix rows]. intros P Q R V.
  exists m. split; [|split; [|split]; eapply mat_pair; eassumption].
  assert (G : forall (B : Type) (g : nat -> B) n t x, nth_error (map g (seq 0 n)) t = Some x -> x = g t).
  { intros B g n t x N. rewrite nth_error_map in N. destruct (nth_error (seq 0 n) t) as [u|] eqn:U; [|discriminate]. cbn in N. injection N as <-. f_equal. assert (L : (t < n)%nat) by (rewrite <- (seq_length n 0); apply nth_error_Some; congruence). apply (nth_error_nth _ _ 0%nat) in U. rewrite seq_nth in U by exact L. lia. }
  apply G in R. subst row. apply G in V. exact V.
Qed.
Lemma corr_same c f columns columns' m m' p q v v' : get_correlation c f columns = Ok m -> get_correlation c f columns' = Ok m' -> at_names m p q v -> at_names m' p q v' -> v' = v.
Proof.
  intros H H' [i [j [row [A1 [A2 [A3 A4]]]]]] [i' [j' [row' [B1 [B2 [B3 B4]]]]]]. destruct (corr_indexed _ _ _ _ _ _ _ _ _ _ H A1 A2 A3 A4) as [k [-> [X1 [X2 X3]]]]. destruct (corr_indexed _ _ _ _ _ _ _ _ _ _ H' B1 B2 B3 B4) as [k' [-> [Y1 [Y2 Y3]]]].
  unfold correlation_entry. rewrite (pair_cov_fun _ _ _ _ _ _ X1 Y1), (pair_cov_fun _ _ _ _ _ _ X2 Y2), (pair_cov_fun _ _ _ _ _ _ X3 Y3). reflexivity.
Qed.

(** ** Tables *)
Lemma rmapM_map {A B} (g : A -> res B) (dummy : B) l ys : rmapM g l = Ok ys -> ys = map (fun x => match g x with Ok y => y | Err _ => dummy end) l.
Proof. intros H. apply rmapM_ok in H. induction H as [|x y l ys E H IH]; [reflexivity|]. cbn [map]. rewrite E, <- IH. reflexivity. Qed.
Definition text_or (r : res string) : string := match r with Ok s => s | Err _ => "" end.
Lemma cells_map {A} (g : A -> res string) l ys : rmapM g l = Ok ys -> ys = map (fun x => text_or (g x)) l.
Proof. apply rmapM_map. Qed.
Lemma rows_pure {A B} (name : A -> string) (g : A -> B -> res string) (l : list A) (k : list B) ys :
  rmapM (fun x => rmap (fun cells => (tab ++ tab ++ name x)%string :: cells) (rmapM (g x) k)) l = Ok ys -> ys = map (fun x => (tab ++ tab ++ name x)%string :: map (fun z => text_or (g x z)) k) l.
Proof.
  intros H. apply rmapM_ok in H. induction H as [|x y l ys E H IH]; [reflexivity|]. cbn [map]. rewrite <- IH. destruct (rmapM (g x) k) as [cs|] eqn:C; [|discriminate]. cbn [rmap] in E. injection E as <-. rewrite <- (cells_map _ _ _ C). reflexivity.
Qed.
Lemma rows_prefixed {A} (name : A -> string) (cells : A -> list string) l : Forall2 (fun r r' => exists n cs, r' = n :: cs /\ r = (tab ++ tab ++ n)%string :: cs) (map (fun x => (tab ++ tab ++ name x)%string :: cells x) l) (map (fun x => name x :: cells x) l).
Proof. induction l; constructor; [|assumption]. eexists _, _. split; reflexivity. Qed.
(** What the table of [cols] says, written with cells that do not know [cols] *)
Lemma table_uniform num repr arepr labels blind caption label hlines blank chains : ~ contains percent (dflt "" caption) -> ~ contains percent (dflt "" label) ->
  exists names (cell : string -> string -> string), forall cols text shown, shown = filter (fun c => negb (smem c (sanitise_blinds blind cols))) cols ->
  (table_from num repr arepr labels blind (Some cols) true caption label hlines blank chains = Ok text ->
   text = latex_table (dflt "" caption) (dflt "" label) (centred (S (length chains)))
     (table_body hlines ("Parameter" :: map name_of chains) (map (fun p => get_label labels p :: map (fun n => cell n p) names) shown))) /\
  (table_from num repr arepr labels blind (Some cols) false caption label hlines blank chains = Ok text ->
   text = latex_table (dflt "" caption) (dflt "" label) (centred (S (length shown)))
     (table_body hlines ("Model" :: map (get_label labels) shown) (map (fun n => n :: map (cell n) shown) names))).
Proof.
  intros HC HL. unfold table_from. destruct (summary_from num None chains) as [d|e] eqn:D; [|exists [], (fun _ _ => ""); intros; split; discriminate]. cbn [rbind]. cbv zeta.
  assert (ND : NoDup (dkeys d)) by (unfold summary_from in D; destruct (rmapM _ chains); [|discriminate]; injection D as <-; apply setall_distinct; constructor).
  set (cell := fun n p => match dget n d with Some r => text_or (cell_text blank r p) | None => "" end). exists (dkeys d), cell. intros cols text shown ->. cbn [sanitise_columns]. set (shown := filter _ cols).
  assert (EC : forall kv, In kv d -> forall p, text_or (cell_text blank (snd kv) p) = cell (fst kv) p) by (intros [n r] I p; unfold cell; cbn [fst snd]; rewrite (dget_nodup n r d ND I); reflexivity).
  split; intros H.
  - destruct (rmapM _ shown) as [rows|] eqn:R; [|discriminate]. cbn [rbind] in H. apply rows_pure in R. subst rows. rewrite table_verbatim in H by assumption. injection H as <-. f_equal; [rewrite Nat.add_1_r; reflexivity|].
    etransitivity; [exact (body_text hlines _ _ _ (rows_prefixed (get_label labels) (fun p => map (fun kv => text_or (cell_text blank (snd kv) p)) d) shown))|]. f_equal. apply map_ext. intros p. f_equal. unfold dkeys. rewrite map_map. apply map_ext_in. intros kv I. apply EC. exact I.
  - destruct (rmapM _ d) as [rows|] eqn:R; [|discriminate]. cbn [rbind] in H. apply rows_pure in R. subst rows. rewrite table_verbatim in H by assumption. injection H as <-. f_equal; [rewrite Nat.add_1_r; reflexivity|].
    etransitivity; [exact (body_text hlines _ _ _ (rows_prefixed fst (fun kv => map (fun p => text_or (cell_text blank (snd kv) p)) shown) d))|]. f_equal. unfold dkeys. rewrite map_map. apply map_ext_in. intros kv I. f_equal. apply map_ext. intros p. apply EC. exact I.
Qed.
Lemma kept_same (P : string -> Prop) l a b : kept P l a -> kept P l b -> a = b.
Proof. intros H. revert b. induction H as [|x l l' H K IH|x l l' H K IH]; intros b B; inversion B; subst; try contradiction; try reflexivity; [f_equal|]; apply IH; assumption. Qed.
