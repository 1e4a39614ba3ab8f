(** C86: chains drawn from a mean and a covariance; C12: the best point as a vector. *)
From Coq Require Import String List Bool Arith ZArith QArith Lia Lqa.
From Verif Require Import Py NumSpec NumModel ColorModel FrameModel FrameFacts ConfigModel ChainModel RegistryModel RegistrySpec HeapFacts RegistryProofs ChainSpec ChainProofs
  ChainUseProofs RegistryProps ChainProps ForecastModel ForecastSpec ForecastProofs.
Import ListNotations.
Open Scope string_scope.
Open Scope list_scope.

(** * C86 from_covariance *)
(** A name for every entry of the mean: a table of a million drawn points, the j-th name holding the j-th coordinate, from which
    the chain is built exactly as Chain(...) would with the same arguments. *)
Theorem C86_columns : forall rgb2hex draw h mean cov columns a, draws_rows draw -> covariance_of mean cov -> NoDup columns -> length columns = length mean ->
  exists rows f h1 b, draw mean cov 1000000%Z = Ok rows /\ Z.of_nat (length (f_index f)) = 1000000%Z /\ tabulates f columns rows /\
    from_covariance rgb2hex draw h mean cov columns a = new_chain rgb2hex h1 b /\ untouched h h1 /\ frame_at h1 (a_samples b) = f /\ arguments_with a b.
Proof.
  intros rgb draw h mean cov columns a D C ND L. destruct (dr_rows _ D mean cov forecast_size C ltac:(discriminate)) as [rows [ED [LN LR]]].
  destruct (proj2 (table_of_total columns (length mean) rows) L) as [f EF]. destruct (from_covariance_new rgb draw h mean cov columns a rows f ED EF) as [h1 [b [E1 [U [E2 AW]]]]].
  pose proof (table_of_ok _ _ _ _ ND LR EF) as T. exists rows, f, h1, b. split; [exact ED|]. split; [|auto]. destruct T as (_ & _ & -> & _). exact LN.
Qed.
Print Assumptions C86_columns.
(** Shapes that disagree, or another number of names: ValueError, and nothing has changed. *)
Theorem C86_refused : forall rgb2hex draw h mean cov columns a, draws_rows draw -> ~ covariance_of mean cov \/ length columns <> length mean ->
  from_covariance rgb2hex draw h mean cov columns a = (h, Err ValueError).
Proof.
  intros rgb draw h mean cov columns a D N. unfold from_covariance.
  assert (DC : {covariance_of mean cov} + {~ covariance_of mean cov}).
  { unfold covariance_of. destruct (Nat.eq_dec (length cov) (length mean)) as [E|E]; [|right; tauto]. destruct (forallb (fun r => (length r =? length mean)%nat) cov) eqn:F.
    - left. split; [exact E|]. rewrite forallb_forall in F. intros r HI. apply Nat.eqb_eq, F, HI.
    - right. intros [_ G]. assert (T : forallb (fun r => (length r =? length mean)%nat) cov = true) by (apply forallb_forall; intros r HI; apply Nat.eqb_eq, G, HI). congruence. }
  destruct DC as [C|C]; [|rewrite (dr_shape _ D _ _ _ C); reflexivity].
  destruct (dr_rows _ D mean cov forecast_size C ltac:(discriminate)) as [rows [ED _]]. rewrite ED. cbn [rbind]. unfold table_of.
  destruct (Nat.eqb_spec (length columns) (length mean)) as [E|E]; [tauto|reflexivity].
Qed.
Print Assumptions C86_refused.
(** With only a name given, and no parameter called weight, the call returns: a new chain holding the drawn points and a weight
    of one for each. *)
Theorem C86_returns : forall rgb2hex draw h mean cov columns name, draws_rows draw -> covariance_of mean cov -> NoDup columns -> length columns = length mean ->
  columns <> [] -> ~ In "weight" columns ->
  exists h' l c rows f, from_covariance rgb2hex draw h mean cov columns (ex_args name no_kw) = (h', Ok l) /\ chain_at h' l = Some c /\ untouched h h' /\
    draw mean cov 1000000%Z = Ok rows /\ tabulates f columns rows /\ ch_name c = name /\
    f_index (frame_at h' (ch_samples c)) = f_index f /\ f_cols (frame_at h' (ch_samples c)) = f_cols f ++ [(CStr "weight", repeat (Fin 1) (length rows))].
Proof.
  intros rgb draw h mean cov columns name D C ND L NE NW.
  destruct (C86_columns rgb draw h mean cov columns (ex_args name no_kw) D C ND L) as (rows & f & h1 & b & ED & LN & T & E & U & EF & AW).
  pose proof T as (W & _ & LI & F & _). destruct AW as (A1 & A2 & A3 & A4 & A5 & A6 & A7 & A8 & A9 & A10 & A11). cbn [ex_args a_cfg a_name a_weight a_post a_walkers a_grid a_nfree a_ndata a_power a_showlabel a_relheight] in *.
  assert (WN : weight_name b = "weight") by (unfold weight_name; rewrite A3; reflexivity).
  assert (NC : ~ is_column f (weight_name b)) by (rewrite WN, (tabulated_column _ _ _ _ T); exact NW).
  assert (AC : acceptable rgb f b).
  { constructor; rewrite ?A1, ?A5, ?A7, ?A8, ?A11; try discriminate.
    - apply Nat2Z.inj_lt. rewrite LN. reflexivity.
    - intros K. rewrite K in F. destruct columns; [contradiction|discriminate].
    - intros c l HI. exact (proj1 (tabulated_finite _ _ _ _ _ T HI)).
    - intros c l x HI. exact (proj2 (tabulated_finite _ _ _ _ _ T HI) x).
    - intros l q HI. destruct NC. exists l. exact HI.
    - intros _. exact WN. }
  rewrite <- EF in AC, W. destruct (proj2 (C06_accepts rgb h1 b W) AC) as [h' [l EN]].
  destruct (C06_result rgb h1 b h' l W EN) as [c [E1 [E2 _]]].
  assert (HC : chain_at h' l = Some c). { unfold chain_at. rewrite E1, E2, nth_error_app2, Nat.sub_diag by lia. reflexivity. }
  destruct (C61_fields rgb h1 b h' l c W EN HC) as [K1 _]. destruct (C61_samples rgb h1 b h' l c W EN HC) as [S1 [_ S2]]; [rewrite A1; discriminate|]. cbv zeta in *. rewrite EF in *.
  exists h', l, c, rows, f. split; [congruence|]. split; [exact HC|].
  split. { apply (untouched_trans h h1 h'); [exact U|]. pose proof (new_chain_untouched rgb h1 b) as UN. rewrite EN in UN. exact UN. }
  split; [exact ED|]. split; [exact T|]. split; [congruence|]. split; [exact S1|]. rewrite <- LI. exact (S2 NC).
Qed.
Print Assumptions C86_returns.
(** A sampler with numpy's shapes (it returns the mean every time), a matrix and names meeting the hypotheses. *)
Definition ex86_draw : sampler := fun mean cov n =>
  if ((length cov =? length mean) && forallb (fun r => length r =? length mean) cov)%nat then Ok (repeat mean (Z.to_nat n)) else Err ValueError.
Lemma ex86_draws : draws_rows ex86_draw.
Proof.
  assert (K : forall mean cov, ((length cov =? length mean) && forallb (fun r => length r =? length mean) cov)%nat = true <-> covariance_of mean cov).
  { intros mean cov. unfold covariance_of. rewrite andb_true_iff, Nat.eqb_eq, forallb_forall. split; intros [A B]; (split; [exact A|]); intros r HI; apply Nat.eqb_eq, B, HI. }
  split; intros mean cov n C; unfold ex86_draw; specialize (K mean cov).
  - intros N. rewrite (proj2 K C). eexists. split; [reflexivity|]. rewrite repeat_length, Z2Nat.id by exact N. split; [reflexivity|]. intros r HI. apply repeat_spec in HI. congruence.
  - destruct (_ && _)%bool; [destruct C; apply K; reflexivity|reflexivity].
Qed.
Example C86_nonvacuous : draws_rows ex86_draw /\ covariance_of [1; 2] [[1; 1#2]; [1#2; 1]] /\ NoDup ["a"; "b"] /\ ~ In "weight" ["a"; "b"] /\
  table_of ["a"; "b"] 2 [[1; 2]; [3; 4]; [5; 6]] = Ok {| f_index := [LInt 0; LInt 1; LInt 2]; f_cols := [(CStr "a", [Fin 1; Fin 3; Fin 5]); (CStr "b", [Fin 2; Fin 4; Fin 6])] |} /\
  table_of ["a"] 2 [[1; 2]] = Err ValueError.
Proof.
  split; [exact ex86_draws|]. split; [split; [reflexivity|intros r [<-|[<-|[]]]; reflexivity]|]. split; [repeat (constructor; [cbn; intuition congruence|]); constructor|].
  split; [cbn; intuition congruence|]. split; reflexivity.
Qed.

(** * C12: the coordinate as a vector *)
(** vec_coordinate lists, in the order of the plotted columns, the values of the first row with the greatest log posterior. *)
Theorem C12_vector : forall rgb2hex h0 a h1 l c p, frame_wf (frame_at h0 (a_samples a)) -> new_chain rgb2hex h0 a = (h1, Ok l) -> chain_at h1 l = Some c ->
  default_labels (frame_at h0 (a_samples a)) -> let f := frame_at h1 (ch_samples c) in column f (ch_post c) p ->
  exists i m, get_max_posterior_point c f = Ok (Some m) /\ is_first_argmax p i /\ length (vec_coordinate m) = length (plotting_columns c f) /\
    forall j n, nth_error (plotting_columns c f) j = Some n -> exists v x, column f n v /\ nth_error v i = Some x /\ nth_error (vec_coordinate m) j = Some x.
Proof.
  intros rgb h0 a h1 l c p W H HC HD. cbv zeta. intros HP. destruct (C12_maximum_partial rgb h0 a h1 l c p W H HC HD HP) as [i [coords [M1 [[R1 R2] M3]]]].
  exists i, (at_ p i, coords). split; [exact M3|]. split; [exact M1|]. unfold vec_coordinate. cbn [snd]. split; [rewrite <- R1, !map_length; reflexivity|].
  intros j n HN. rewrite <- R1, nth_error_map in HN. destruct (nth_error coords j) as [[m x]|] eqn:EJ; [|discriminate]. cbn in HN. injection HN as ->.
  destruct (R2 n x (nth_error_In _ _ EJ)) as [v [V1 V2]]. exists v, x. rewrite nth_error_map, EJ. auto.
Qed.
Print Assumptions C12_vector.
Example C12_vector_nonvacuous : let '(h1, r) := new_chain ex_rgb ex6_heap (ex6_args no_kw) in
  match chain_at h1 0 with
  | Some c => exists m, get_max_posterior_point c (frame_at h1 (ch_samples c)) = Ok (Some m) /\ vec_coordinate m = [2; 1]
  | None => False end.
Proof. vm_compute. eexists. split; reflexivity. Qed.
