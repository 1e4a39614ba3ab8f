(** Shifted chains, columns, walkers, maximum posterior points, imports. *)
From Coq Require Import String Ascii List Bool Arith ZArith QArith Lia Lqa Setoid Znumtheory Eqdep_dec FinFun.
From Verif Require Import Py NumSpec NumModel NumFacts ColorModel MarginalModel FrameModel FrameFacts ConfigModel
  ChainModel RegistryModel RegistrySpec HeapFacts ChainSpec ShiftProofs ChainProofs RegistryProofs.
Import ListNotations.
Open Scope list_scope.

(** * Shifting *)
Lemma map_fin_qs l : forallb cell_finite l = true -> l = map Fin (qs l).
Proof.
  intros H. rewrite forallb_forall in H. unfold qs. rewrite map_map. rewrite <- map_id at 1. apply map_ext_in. intros x Hx.
  specialize (H x Hx). destruct x; try discriminate. reflexivity.
Qed.
Lemma qs_fin l : qs (map Fin l) = l.
Proof. unfold qs. rewrite map_map. cbn. apply map_id. Qed.
Lemma fin_finite l : forallb cell_finite (map Fin l) = true.
Proof. apply forallb_forall. intros x Hx. apply in_map_iff in Hx. destruct Hx as [q [<- _]]. reflexivity. Qed.
Lemma shift_fin v mu : shift_col (map Fin v) mu = map Fin (map (fun q => q - mu)%Q v).
Proof. unfold shift_col. rewrite !map_map. reflexivity. Qed.
Lemma at_sub v mu i : (i < length v)%nat -> at_ (map (fun q => q - mu)%Q v) i = (at_ v i - mu)%Q.
Proof.
  revert i. induction v as [|x v IH]; intros i H; [cbn in H; lia|]. destruct i; cbn [map].
  - rewrite !at_cons_0. reflexivity.
  - rewrite !at_cons_S. apply IH. cbn in H. lia.
Qed.
Lemma shift_differences v mu : same_differences v (map (fun q => q - mu)%Q v).
Proof.
  split; [rewrite map_length; reflexivity|]. intros i j Hi Hj. rewrite !at_sub by assumption. lra.
Qed.
Lemma sub_mean_zero v w : length v = length w -> ~ qsum w == 0 -> wsum (map (fun q => q - qdot v w / qsum w)%Q v) w == 0.
Proof.
  intros L N. rewrite <- qdot_wsum by (rewrite map_length; exact L). rewrite qdot_sub by exact L. field. exact N.
Qed.

(** The weights the caller asked for. *)
Lemma given_weights rgb f a : frame_wf f -> acceptable rgb f a -> exists w,
  f_get (with_weight f (weight_name a)) (weight_name a) = Some (map Fin w) /\ w <> [] /\ length w = f_rows f /\ (forall x, In x w -> (0 < x)%Q) /\
  (column f (weight_name a) w \/ (~ is_column f (weight_name a) /\ w = repeat 1%Q (f_rows f))).
Proof.
  intros W A. destruct A as [A1 A2 A3 A4 A5 A6 A7 A8 A9 A10 A11 A12 A13 A14 A15 A16].
  destruct (weights_ok_intro f (weight_name a) W A1 (conj A3 A4) A5) as [w [Hw [Nw [Fw Pw]]]].
  destruct (finite_qs w Fw) as [E _]. exists (qs w). rewrite <- E. split; [exact Hw|]. split; [unfold qs; destruct w; [contradiction|discriminate]|].
  pose proof (with_weight_wf f (weight_name a) W) as W1.
  split. { unfold qs. rewrite map_length. rewrite <- (with_weight_rows f (weight_name a)). apply (proj2 W1 (CStr (weight_name a))). apply f_get_In. exact Hw. }
  split; [exact Pw|]. unfold with_weight in Hw. destruct (f_has f (weight_name a)) eqn:EH.
  - left. unfold column. rewrite <- E. apply f_get_In. exact Hw.
  - right. split; [rewrite is_column_has; congruence|]. rewrite f_get_set_same in Hw. injection Hw as <-. clear. unfold qs.
    induction (f_rows f) as [|n IH]; cbn; [reflexivity|]. f_equal. exact IH.
Qed.
Lemma shifted_chain rgb h a h' l c : frame_wf (frame_at h (a_samples a)) -> a_cfg a Fshift_params = Some true ->
  new_chain rgb h a = (h', Ok l) -> chain_at h' l = Some c ->
  let f := frame_at h (a_samples a) in let wn := weight_name a in let f' := frame_at h' (ch_samples c) in
  exists w pre post, w <> [] /\ length w = f_rows f /\ (forall x, In x w -> (0 < x)%Q) /\
   (column f wn w \/ (~ is_column f wn /\ w = repeat 1%Q (f_rows f))) /\
   f_names (with_weight f wn) = pre ++ wn :: post /\
   (let s := (qdot w w / qsum w)%Q in column f' wn (map (fun q => q - s)%Q w) /\
    (exists x, In x (map (fun q => q - s)%Q w) /\ (x <= 0)%Q)) /\
   (forall n v, column f n v -> n <> wn -> In n pre -> column f' n (map (fun q => q - qdot v w / qsum w)%Q v)) /\
   (forall n v, column f n v -> n <> wn -> In n post ->
      let w' := map (fun q => q - qdot w w / qsum w)%Q w in
      column f' n (map (fun q => q - qdot v w' / qsum w')%Q v) /\ ~ qsum w' == 0).
Proof.
  intros W HS HN HC. cbv zeta. destruct (new_chain_result rgb h a h' l W HN) as [col [f2 [H1 [H2 [H3 [H4 [H5 [H6 [H7 [H8 _]]]]]]]]]].
  cbv zeta in *. rewrite HC in H3. injection H3 as ->. rewrite H4. set (f := frame_at h (a_samples a)) in *. set (wn := weight_name a) in *.
  destruct (given_weights rgb f a W H8) as [w [G1 [G2 [G3 [G4 G5]]]]].
  assert (A1 : (0 < f_rows f)%nat) by (apply (ac_rows _ _ _ H8)).
  assert (CL : clean f) by (split; [exact (ac_labels _ _ _ H8)|exact (ac_finite _ _ _ H8)]).
  assert (WO : weights_ok f wn) by (apply weights_ok_intro; try assumption; exact (ac_weights _ _ _ H8)).
  destruct (shift_spec f wn W A1 CL WO) as [SP _]. destruct (SP (ac_shift _ _ _ H8 HS)) as [pre [post [w0 [f3 [B1 [B2 [B3 [B4 [B5 [B6 [B7 B8]]]]]]]]]]].
  fold wn in G1. rewrite G1 in B2. injection B2 as <-.
  assert (E : f3 = f2). { unfold shifted in H5. cbn [build ch_cfg fill] in H5. rewrite HS in H5.
    change (ch_weight (build col a (length (h_frames h)))) with wn in H5. rewrite B3 in H5. injection H5 as ->. reflexivity. }
  subst f3. exists w, pre, post. split; [exact G2|]. split; [exact G3|]. split; [exact G4|]. split; [exact G5|]. split; [exact B1|].
  assert (ND : ~ qsum w == 0) by (pose proof (qsum_pos w G2 G4); lra).
  assert (NW : new_w (map Fin w) = map Fin (map (fun q => q - qdot w w / qsum w)%Q w)).
  { unfold new_w, mean_of. rewrite qs_fin. apply shift_fin. }
  split.
  { split; [unfold column; rewrite <- NW; apply f_get_In; exact B6|].
    destruct (new_w_nonpos (map Fin w)) as [x [Hx Lx]]; [destruct w; [contradiction|discriminate]|apply fin_finite|rewrite qs_fin; exact G4|].
    rewrite NW, qs_fin in Hx. exists x. auto. }
  assert (GV : forall n v, column f n v -> n <> wn -> f_get (with_weight f wn) n = Some (map Fin v)).
  { intros n v HV NE. assert (HG : f_get f n = Some (map Fin v)) by (apply f_get_wf; [exact W|exact HV]). unfold with_weight.
    destruct (f_has f wn); [exact HG|]. rewrite f_get_set_other; [exact HG|congruence]. }
  split.
  - intros n v HV NE HP. specialize (B7 n _ HP (GV n v HV NE)). unfold mean_of in B7. rewrite !qs_fin, shift_fin in B7. apply f_get_In. exact B7.
  - intros n v HV NE HP. specialize (B8 n _ HP (GV n v HV NE)). unfold mean_of in B8. rewrite NW, !qs_fin, shift_fin in B8. split; [apply f_get_In; exact B8|].
    (* the shift succeeded with a column after the weights, so they are not all equal *)
    assert (NU : exists x y, In x w /\ In y w /\ ~ (x == y)%Q).
    { destruct (ac_shift _ _ _ H8 HS) as [K|[[cols [lw K]]|[lw [x [y [K1 [K2 [K3 K4]]]]]]]].
      - exfalso. fold wn in K. rewrite with_weight_names in B1. rewrite is_column_has in K. destruct (f_has f wn) eqn:EH; [congruence|].
        destruct post as [|q post _] using rev_ind; [destruct HP|].
        change (pre ++ wn :: post ++ [q]) with (pre ++ (wn :: post) ++ [q]) in B1. rewrite app_assoc in B1. apply app_inj_tail in B1. destruct B1 as [B1 <-].
        exfalso. cut (f_has f wn = true); [congruence|]. apply f_has_names. rewrite B1. apply in_or_app. right. left. reflexivity.
      - exfalso. fold wn in K. assert (E : f_has f wn = true) by (apply is_column_has; exists lw; rewrite K; apply in_or_app; right; left; reflexivity).
        rewrite with_weight_names, E in B1. assert (NDn : NoDup (f_names f)) by (apply nodup_str_labels; exact (proj1 W)).
        unfold f_names in B1, NDn. rewrite K, str_labels_app in B1, NDn. cbn in B1, NDn.
        destruct post as [|q post _] using rev_ind; [destruct HP|].
        change (pre ++ wn :: post ++ [q]) with (pre ++ (wn :: post) ++ [q]) in B1. rewrite app_assoc in B1. apply app_inj_tail in B1. destruct B1 as [B1 <-].
        apply NoDup_remove_2 in NDn. rewrite app_nil_r in NDn. apply NDn. rewrite B1. apply in_or_app. right. left. reflexivity.
      - fold wn in K1. destruct G5 as [G5|[G5 _]]; [|exfalso; apply G5; exists lw; exact K1].
        assert (HG : f_get f wn = Some lw) by (apply f_get_wf; [exact W|exact K1]). assert (HG2 : f_get f wn = Some (map Fin w)) by (apply f_get_wf; [exact W|exact G5]).
        rewrite HG in HG2. injection HG2 as ->. exists x, y.
        apply in_map_iff in K2. destruct K2 as [x' [E1 K2]]. injection E1 as ->. apply in_map_iff in K3. destruct K3 as [y' [E2 K3]]. injection E2 as ->. auto. }
    destruct NU as [x [y [N1 [N2 N3]]]]. intros EZ. rewrite qsum_sub in EZ.
    destruct (cauchy w G2) as [_ CE].
    assert (EE : qsum w * qsum w == nq (length w) * qdot w w).
    { assert (HM : (qsum w - qdot w w / qsum w * nq (length w)) * qsum w == 0) by (rewrite EZ; ring).
      assert (HF : (qsum w - qdot w w / qsum w * nq (length w)) * qsum w == qsum w * qsum w - nq (length w) * qdot w w) by (field; exact ND).
      rewrite HF in HM. lra. }
    apply N3. apply CE; assumption.
Qed.

(** * Decimal names *)
Fixpoint parse (s : string) (acc : Z) : Z :=
  match s with EmptyString => acc | String c r => parse r (acc * 10 + (Z.of_nat (nat_of_ascii c) - 48))%Z end.
Lemma parse_app s t acc : parse (s ++ t)%string acc = parse t (parse s acc).
Proof. revert acc. induction s as [|c s IH]; intros acc; cbn; [reflexivity|apply IH]. Qed.
Lemma parse_digit d acc : (0 <= d < 10)%Z -> parse (digit d) acc = (acc * 10 + d)%Z.
Proof.
  intros H. unfold digit. cbn [parse]. rewrite nat_ascii_embedding by lia. rewrite Z2Nat.id by lia. lia.
Qed.
Lemma parse_dec_fuel : forall k z, (0 <= z < 2 ^ Z.of_nat k)%Z -> parse (dec_fuel (S k) z) 0 = z.
Proof.
  induction k as [|k IH]; intros z H; cbn [dec_fuel].
  - cbn in H. replace z with 0%Z by lia. reflexivity.
  - destruct (z <? 10)%Z eqn:E; [apply Z.ltb_lt in E; rewrite parse_digit by lia; lia|]. apply Z.ltb_ge in E.
    rewrite parse_app. rewrite parse_digit by (apply Z.mod_pos_bound; lia).
    change (if (z / 10 <? 10)%Z then digit (z / 10) else (dec_fuel k (z / 10 / 10) ++ digit ((z / 10) mod 10))%string) with (dec_fuel (S k) (z / 10)).
    rewrite IH; [pose proof (Z.div_mod z 10); lia|]. rewrite Nat2Z.inj_succ, Z.pow_succ_r in H by lia.
    split; [apply Z.div_pos; lia|]. apply Z.div_lt_upper_bound; lia.
Qed.
Lemma parse_dec z : (0 <= z)%Z -> parse (dec z) 0 = z.
Proof.
  intros H. unfold dec. apply parse_dec_fuel. split; [exact H|]. rewrite Z2Nat.id by apply Z.log2_up_nonneg.
  pose proof (Z.log2_up_spec (z + 2)). lia.
Qed.
Lemma dec_inj x y : (0 <= x)%Z -> (0 <= y)%Z -> dec x = dec y -> x = y.
Proof. intros Hx Hy E. rewrite <- (parse_dec x Hx), <- (parse_dec y Hy), E. reflexivity. Qed.
Lemma string_app_inj a b c : (a ++ b)%string = (a ++ c)%string -> b = c.
Proof. induction a as [|x a IH]; cbn; intros H; [exact H|]. injection H as H. apply IH. exact H. Qed.

(** * Walkers *)
Definition sub_args (c : chain) (i lf : nat) : cargs :=
  {| a_cfg := dumped (ch_cfg c); a_samples := lf;
     a_name := (ch_name c ++ " Walker " ++ dec (Z.of_nat i))%string;
     a_weight := Some (ch_weight c); a_post := Some (ch_post c); a_walkers := None;
     a_grid := Some (ch_grid c); a_nfree := Some (ch_nfree c); a_ndata := Some (ch_ndata c);
     a_power := Some (ch_power c); a_showlabel := Some (ch_showlabel c);
     a_relheight := Some (ch_relheight c) |}.

(** Facts about a chain that came out of the constructor. *)
Record well_built (c : chain) (f : frame) : Prop := {
  wb_wf : frame_wf f;
  wb_rows : (0 < f_rows f)%nat;
  wb_clean : clean f;
  wb_weight : f_has f (ch_weight c) = true;
  wb_stat : exists s, ch_cfg c Fstatistics = Some s;
  wb_multi : ch_cfg c Fmultimodal = true -> ch_cfg c Fstatistics = Some SHdi;
  wb_param : forall p, ch_cfg c Fcolor_param = Some p -> f_has f p = true;
  wb_area : (0 <= ch_cfg c Fsummary_area <= 1)%Q;
  wb_marker : (1 <= ch_cfg c Fmarker_size)%Q;
  wb_walkers : (1 <= ch_walkers c)%Z /\ (ch_walkers c | Z.of_nat (f_rows f))%Z;
  wb_nfree : forall z, ch_nfree c = Some z -> (0 <= z)%Z;
  wb_ndata : forall x, ch_ndata c = Some x -> exists q, x = Fin q /\ (0 <= q)%Q;
  wb_relheight : (0 <= ch_relheight c)%Q;
  wb_positive : ch_cfg c Fshift_params = false -> forall l q, In (CStr (ch_weight c), l) (f_cols f) -> In (Fin q) l -> (0 < q)%Q;
  wb_shift : ch_cfg c Fshift_params = true -> exists l q, In (CStr (ch_weight c), l) (f_cols f) /\ In (Fin q) l /\ (q <= 0)%Q }.

Lemma shift_col_finite_all vals mu : (forall x, In x vals -> exists q, x = Fin q) -> forall x, In x (shift_col vals mu) -> exists q, x = Fin q.
Proof.
  intros H x Hx. unfold shift_col in Hx. apply in_map_iff in Hx. destruct Hx as [y [<- Hy]]. destruct (H y Hy) as [q ->]. eauto.
Qed.
Lemma shift_loop_keeps wn : forall ps f f', shift_loop wn ps f = Ok f' -> clean f -> frame_wf f -> (forall p, In p ps -> In p (f_names f)) ->
  clean f' /\ frame_wf f'.
Proof.
  induction ps as [|p ps IH]; intros f f' H C W HP; cbn in H; [injection H as <-; auto|].
  destruct (f_get f p) as [v|] eqn:EV; [|discriminate]. destruct (f_get f wn) as [w|]; [|discriminate].
  destruct (average (qs v) (qs w)) as [mu|]; [|discriminate]. cbn in H. fold (shift_col v mu) in H.
  assert (HN : In p (f_names f)) by (apply HP; left; reflexivity).
  assert (CC : forall c l, In (c, l) (f_cols (f_set f p (shift_col v mu))) -> In (c, l) (f_cols f) \/ (c = CStr p /\ l = shift_col v mu)).
  { intros c l HI. unfold f_set in HI. cbn [f_cols] in HI. clear -HI. induction (f_cols f) as [|[d m] r IHr]; cbn [col_set] in HI.
    - destruct HI as [HI|[]]. injection HI as <- <-. right. auto.
    - destruct (clabel_eqb (CStr p) d) eqn:E.
      + destruct HI as [HI|HI]; [|left; right; exact HI]. injection HI as <- <-. right. split; [|reflexivity].
        destruct d; cbn in E; [|discriminate]. apply String.eqb_eq in E. congruence.
      + destruct HI as [HI|HI]; [left; left; exact HI|]. destruct (IHr HI) as [K|K]; [left; right; exact K|right; exact K]. }
  apply (IH _ _ H).
  - destruct C as [C1 C2]. split.
    + intros c l HI. destruct (CC c l HI) as [K|[-> _]]; [apply (C1 c l K)|exists p; reflexivity].
    + intros c l x HI. destruct (CC c l HI) as [K|[_ ->]]; [apply (C2 c l x K)|]. apply shift_col_finite_all. intros y. apply (C2 (CStr p) v y). apply f_get_In. exact EV.
  - destruct W as [W1 W2]. split; [rewrite f_set_labels by exact HN; exact W1|]. intros c l HI.
    destruct (CC c l HI) as [K|[_ ->]]; [apply (W2 c l K)|]. rewrite shift_col_len. apply (W2 (CStr p)). apply f_get_In. exact EV.
  - intros q Hq. unfold f_names. erewrite str_labels_ext; [apply HP; right; exact Hq|]. apply f_set_labels. exact HN.
Qed.
Lemma new_chain_built rgb h a h' l c : frame_wf (frame_at h (a_samples a)) -> new_chain rgb h a = (h', Ok l) -> chain_at h' l = Some c ->
  well_built c (frame_at h' (ch_samples c)).
Proof.
  intros W HN HC. destruct (new_chain_result rgb h a h' l W HN) as [col [f2 [H1 [H2 [H3 [H4 [H5 [H6 [H7 [H8 _]]]]]]]]]].
  cbv zeta in *. rewrite HC in H3. injection H3 as ->. rewrite H4. set (f := frame_at h (a_samples a)) in *.
  assert (CL : clean f) by (split; [exact (ac_labels _ _ _ H8)|exact (ac_finite _ _ _ H8)]).
  assert (CW : clean f2 /\ frame_wf f2).
  { unfold shifted in H5. destruct (ch_cfg (build col a (length (h_frames h))) Fshift_params).
    - apply (shift_loop_keeps _ _ _ _ H5); [apply clean_with_weight; exact CL|apply with_weight_wf; exact W|auto].
    - injection H5 as <-. split; [apply clean_with_weight; exact CL|apply with_weight_wf; exact W]. }
  assert (HR : f_rows f2 = f_rows f) by (unfold f_rows; rewrite H6; reflexivity).
  assert (HH : forall p, f_has f2 p = true <-> is_column f p \/ p = weight_name a) by (intros p; rewrite (f_has_labels _ _ p H7); apply with_weight_has).
  pose proof (accept_req rgb f a (length (h_frames h)) W) as [AR _]. destruct (AR H8) as [col' [K1 [K2 K3]]]. rewrite H1 in K1. injection K1 as <-.
  unfold field_ranges, config_ranges in K2. cbn in K2. rewrite !andb_true_iff in K2. destruct K2 as [[[[[[B1 B2] B3] B4] B5] B6] B7].
  constructor.
  - tauto.
  - rewrite HR. exact (ac_rows _ _ _ H8).
  - tauto.
  - apply HH. right. reflexivity.
  - rewrite with_stat_stat. eexists. reflexivity.
  - rewrite with_stat_multi, with_stat_stat. intros HM. rewrite HM. destruct (ch_cfg (build col a _) Fstatistics) as [s|] eqn:E; [|reflexivity].
    f_equal. exact (v_multi _ _ K3 HM s E).
  - intros p. rewrite with_stat_other by discriminate. intros HP. apply HH. exact (v_param _ _ K3 p HP).
  - rewrite with_stat_other by discriminate. split; apply Qle_bool_iff; assumption.
  - rewrite with_stat_other by discriminate. apply Qle_bool_iff. assumption.
  - rewrite HR. cbn. apply Z.leb_le in B4. split; [exact B4|]. apply Zmod_divide; [cbn in B4; lia|exact (v_walkers _ _ K3)].
  - cbn. intros z Hz. rewrite Hz in B5. apply Z.leb_le. exact B5.
  - cbn. intros x Hx. destruct (v_ndata _ _ K3 x Hx) as [q ->]. exists q. split; [reflexivity|]. rewrite Hx in B6. apply Qle_bool_iff. exact B6.
  - cbn. apply Qle_bool_iff. exact B7.
  - rewrite with_stat_other by discriminate. intros HS. cbn [ch_weight with_stat with_cfg build]. fold (weight_name a). intros lw q HI Hq.
    unfold shifted in H5. rewrite HS in H5. injection H5 as <-. rewrite with_weight_cols in HI. destruct (f_has f (weight_name a)).
    + apply (ac_weights _ _ _ H8 lw q HI Hq).
    + apply in_app_or in HI. destruct HI as [HI|[HI|[]]]; [apply (ac_weights _ _ _ H8 lw q HI Hq)|]. injection HI as <-. apply repeat_spec in Hq. injection Hq as ->. reflexivity.
  - rewrite with_stat_other by discriminate. intros HS. cbn [build ch_cfg fill] in HS.
    assert (HSa : a_cfg a Fshift_params = Some true) by (destruct (a_cfg a Fshift_params); [rewrite HS; reflexivity|discriminate]).
    destruct (shifted_chain rgb h a h' l _ W HSa HN HC) as [w [pre [post [_ [_ [_ [_ [_ [[S1 [x [S2 S3]]] _]]]]]]]]]. rewrite H4 in S1.
    cbn [ch_weight with_stat with_cfg build]. fold (weight_name a).
    eexists. exists x. split; [exact S1|]. split; [apply in_map; exact S2|exact S3].
Qed.

(** One block. *)
Lemma f_slice_wf st en f : (st <= en)%nat -> (en <= f_rows f)%nat -> frame_wf f -> frame_wf (f_slice st en f) /\ f_rows (f_slice st en f) = (en - st)%nat.
Proof.
  intros H1 H2 [W1 W2]. split; [split|].
  - rewrite f_slice_labels. exact W1.
  - intros c l HI. cbn in HI. apply in_map_iff in HI. destruct HI as [[d m] [E HI]]. cbn in E. injection E as <- <-.
    cbn. rewrite !slice_length; auto. rewrite (W2 d m HI). exact H2.
  - unfold f_rows, f_slice. cbn. apply slice_length; assumption.
Qed.
Lemma f_slice_col st en f c l : In (c, l) (f_cols (f_slice st en f)) -> exists m, In (c, m) (f_cols f) /\ l = slice st en m.
Proof. cbn. intros HI. apply in_map_iff in HI. destruct HI as [[d m] [E HI]]. cbn in E. injection E as <- <-. exists m. auto. Qed.
Lemma block_accept rgb c f st en i lf : well_built c f -> ch_cfg c Fshift_params = false -> (st < en)%nat -> (en <= f_rows f)%nat ->
  acceptable rgb (f_slice st en f) (sub_args c i lf).
Proof.
  intros B HS L1 L2. destruct (f_slice_wf st en f ltac:(lia) L2 (wb_wf _ _ B)) as [W HR]. destruct B.
  constructor; cbn [sub_args a_cfg dumped a_walkers a_nfree a_ndata a_relheight weight_name a_weight].
  - change (0 < f_rows (f_slice st en f))%nat. lia.
  - intros E. apply (f_equal (map fst)) in E. rewrite f_slice_labels in E. apply f_has_names in wb_weight0. unfold f_names in wb_weight0.
    destruct (f_cols f); [destruct wb_weight0|discriminate].
  - intros d l HI. apply f_slice_col in HI. destruct HI as [m [HI _]]. apply (proj1 wb_clean0 d m HI).
  - intros d l x HI Hx. apply f_slice_col in HI. destruct HI as [m [HI ->]]. apply slice_In in Hx. apply (proj2 wb_clean0 d m x HI Hx).
  - intros l q HI Hq. apply f_slice_col in HI. destruct HI as [m [HI ->]]. apply slice_In in Hq. apply (wb_positive0 HS m q HI Hq).
  - intros N. exfalso. apply N. apply is_column_has. rewrite (f_has_labels _ f) by apply f_slice_labels. exact wb_weight0.
  - intros q E. injection E as <-. exact wb_area0.
  - intros q E. injection E as <-. exact wb_marker0.
  - intros z E. discriminate.
  - intros z E. injection E as E. apply wb_nfree0. exact E.
  - intros x E. injection E as E. apply wb_ndata0. exact E.
  - intros q E. injection E as <-. exact wb_relheight0.
  - intros p E. injection E as E. left. apply is_column_has. rewrite (f_has_labels _ f) by apply f_slice_labels. apply wb_param0. exact E.
  - intros E s E2. injection E as E. injection E2 as E2. rewrite (wb_multi0 E) in E2. congruence.
  - intros j E. discriminate.
  - intros E. injection E as E. congruence.
Qed.
Lemma dumped_stored rgb (c : chain) i lf col s : (exists t, ch_cfg c Fstatistics = Some t) -> s <> Fcolor ->
  color_step rgb (sub_args c i lf) = Ok col -> ch_cfg (with_stat (build col (sub_args c i lf) lf)) s = ch_cfg c s.
Proof.
  intros [t HT] N HC. destruct (cfield_eq_dec s Fstatistics) as [->|N2].
  - rewrite with_stat_stat. cbn. rewrite HT. reflexivity.
  - rewrite with_stat_other by exact N2. destruct s; try contradiction; reflexivity.
Qed.
Lemma block_chain rgb h c st en i : let f := frame_at h (ch_samples c) in
  well_built c f -> ch_cfg c Fshift_params = false -> (st < en)%nat -> (en <= f_rows f)%nat ->
  let h1 := fst (alloc_frame h (f_slice st en f)) in
  exists h2 l c', new_chain rgb h1 (sub_args c i (length (h_frames h))) = (h2, Ok l) /\ chain_at h2 l = Some c' /\
    walker_of c c' i /\ (ch_samples c' < length (h_frames h2))%nat /\ frame_at h2 (ch_samples c') = f_slice st en f.
Proof.
  cbv zeta. intros B HS L1 L2. set (f := frame_at h (ch_samples c)) in *.
  set (h1 := fst (alloc_frame h (f_slice st en f))). set (a := sub_args c i (length (h_frames h))).
  assert (EF : frame_at h1 (a_samples a) = f_slice st en f) by apply frame_at_alloc.
  destruct (f_slice_wf st en f ltac:(lia) L2 (wb_wf _ _ B)) as [W HR].
  assert (AC : acceptable rgb (frame_at h1 (a_samples a)) a) by (rewrite EF; apply block_accept; assumption).
  assert (W1 : frame_wf (frame_at h1 (a_samples a))) by (rewrite EF; exact W).
  destruct (proj2 (new_chain_accept rgb h1 a W1) AC) as [h2 [l HN]].
  destruct (new_chain_result rgb h1 a h2 l W1 HN) as [col [f2 [H1 [H2 [H3 [H4 [H5 [H6 [H7 [H8 [H9 H10]]]]]]]]]]]. cbv zeta in *.
  exists h2, l, (with_stat (build col a (length (h_frames h1)))). split; [exact HN|]. split; [exact H3|]. split; [|split].
  - unfold walker_of. do 2 (split; [reflexivity|]). split.
    + intros s N. destruct (cfield_eq_dec s Fstatistics) as [->|N2].
      * rewrite with_stat_stat. cbn. destruct (wb_stat _ _ B) as [t HT]. rewrite HT. reflexivity.
      * rewrite with_stat_other by exact N2. destruct s; try contradiction; reflexivity.
    + split; [|repeat split]. rewrite with_stat_other by discriminate. cbn [build ch_cfg fill]. pose proof (color_step_val _ _ _ H1) as V.
      change (a_cfg a Fcolor) with (@None (option colour_input)) in V. cbn in V. rewrite V. reflexivity.
  - cbn [ch_samples with_stat with_cfg build]. rewrite H10. lia.
  - rewrite H4. unfold shifted in H5. change (ch_cfg (build col a (length (h_frames h1))) Fshift_params) with (ch_cfg c Fshift_params) in H5. rewrite HS, EF in H5. injection H5 as <-.
     unfold with_weight. change (weight_name a) with (ch_weight c). rewrite (f_has_labels _ f) by apply f_slice_labels.
    rewrite (wb_weight _ _ B). reflexivity.
Qed.
Lemma divide_loop_spec rgb c size : (0 < size)%nat -> ch_cfg c Fshift_params = false -> forall n i h f, frame_at h (ch_samples c) = f -> (ch_samples c < length (h_frames h))%nat ->
  well_built c f -> ((i + n) * size <= f_rows f)%nat ->
  exists h' ls, divide_loop rgb h c size i n = (h', Ok ls) /\ length ls = n /\
    forall k l, nth_error ls k = Some l -> exists c', chain_at h' l = Some c' /\ walker_of c c' (i + k) /\ (ch_samples c' < length (h_frames h'))%nat /\
      frame_at h' (ch_samples c') = f_slice ((i + k) * size) ((i + k) * size + size) f.
Proof.
  intros HZ HS. induction n as [|n IH]; intros i h f EF HL B HR.
  - exists h, []. split; [reflexivity|]. split; [reflexivity|]. intros k l H. destruct k; discriminate.
  - cbn [divide_loop]. rewrite EF.
    destruct (alloc_frame h (f_slice (i * size) (i * size + size) f)) as [h1 lf] eqn:EA.
    assert (E1 : h1 = fst (alloc_frame h (f_slice (i * size) (i * size + size) f))) by (rewrite EA; reflexivity).
    assert (El : lf = length (h_frames h)) by (injection EA as <- <-; reflexivity). subst lf.
    assert (LE : (i * size + size <= f_rows f)%nat) by (cbn in HR; nia).
    destruct (block_chain rgb h c (i * size) (i * size + size) i) as [h2 [l [c' [K1 [K2 [K3 [K4 K5]]]]]]]; try (rewrite EF; assumption); try assumption; [lia|].
    rewrite EF in K1, K5. rewrite <- E1 in K1. fold (sub_args c i (length (h_frames h))). rewrite K1.
    assert (U : untouched h h2).
    { apply (untouched_trans h h1 h2); [rewrite E1; apply untouched_alloc_frame|]. pose proof (new_chain_untouched rgb h1 (sub_args c i (length (h_frames h)))) as U. rewrite K1 in U. exact U. }
    assert (EF2 : frame_at h2 (ch_samples c) = f) by (rewrite (untouched_frame_at h h2 _ U HL); exact EF).
    assert (HL2 : (ch_samples c < length (h_frames h2))%nat) by (pose proof (untouched_len _ _ U); lia).
    destruct (IH (S i) h2 f EF2 HL2 B) as [h3 [ls [J1 [J2 J3]]]]; [cbn in *; nia|]. rewrite J1. exists h3, (l :: ls).
    split; [reflexivity|]. split; [cbn; rewrite J2; reflexivity|]. intros k l0 Hk. destruct k as [|k].
    + cbn in Hk. injection Hk as <-. rewrite Nat.add_0_r.
      pose proof (divide_loop_untouched rgb c size n h2 (S i)) as U2. rewrite J1 in U2. cbn in U2.
      exists c'. split; [apply (proj2 U2); exact K2|]. split; [exact K3|]. split; [pose proof (untouched_len _ _ U2); lia|].
      rewrite (untouched_frame_at h2 h3 _ U2 K4). exact K5.
    + cbn in Hk. destruct (J3 k l0 Hk) as [c2 Hc2]. replace (i + S k)%nat with (S i + k)%nat by lia. exists c2. exact Hc2.
Qed.

(** A chain built with shift_params cannot be divided. *)
Lemma divide_loop_accepts rgb c size : forall n i h h' ls f, frame_at h (ch_samples c) = f -> (ch_samples c < length (h_frames h))%nat ->
  frame_wf f -> ((i + n) * size <= f_rows f)%nat ->
  divide_loop rgb h c size i n = (h', Ok ls) -> forall k, (k < n)%nat -> exists lf, acceptable rgb (f_slice ((i + k) * size) ((i + k) * size + size) f) (sub_args c (i + k) lf).
Proof.
  induction n as [|n IH]; intros i h h' ls f EF HL W HR H k Hk; [lia|].
  cbn [divide_loop] in H. rewrite EF in H.
  destruct (alloc_frame h (f_slice (i * size) (i * size + size) f)) as [h1 lf] eqn:EA.
  assert (E1 : h1 = fst (alloc_frame h (f_slice (i * size) (i * size + size) f))) by (rewrite EA; reflexivity).
  assert (El : lf = length (h_frames h)) by (injection EA as <- <-; reflexivity). subst lf.
  fold (sub_args c i (length (h_frames h))) in H. destruct (new_chain rgb h1 (sub_args c i (length (h_frames h)))) as [h2 [l|e]] eqn:EN; [|discriminate].
  destruct (divide_loop rgb h2 c size (S i) n) as [h3 [ls'|e]] eqn:ED; [|discriminate].
  assert (U : untouched h h2).
  { apply (untouched_trans h h1 h2); [rewrite E1; apply untouched_alloc_frame|]. pose proof (new_chain_untouched rgb h1 (sub_args c i (length (h_frames h)))) as U. rewrite EN in U. exact U. }
  assert (ES : frame_at h1 (length (h_frames h)) = f_slice (i * size) (i * size + size) f) by (rewrite E1; apply frame_at_alloc).
  destruct k as [|k].
  - rewrite Nat.add_0_r. exists (length (h_frames h)). rewrite <- ES. apply (new_chain_accept rgb h1 (sub_args c i (length (h_frames h)))); [|exists h2, l; exact EN].
    cbn [sub_args a_samples]. rewrite ES. apply f_slice_wf; [lia|cbn in HR; nia|exact W].
  - replace (i + S k)%nat with (S i + k)%nat by lia. apply (IH (S i) h2 h3 ls' f); auto; [|pose proof (untouched_len _ _ U); lia|cbn in *; nia|lia].
    rewrite (untouched_frame_at h h2 _ U HL). exact EF.
Qed.
Lemma divides_nat c f : well_built c f -> exists size, f_rows f = (Z.to_nat (ch_walkers c) * size)%nat /\ (0 < size)%nat /\ (f_rows f / Z.to_nat (ch_walkers c))%nat = size /\
  (Z.of_nat (f_rows f) mod ch_walkers c = 0)%Z.
Proof.
  intros B. destruct (wb_walkers _ _ B) as [P [q Hq]]. pose proof (wb_rows _ _ B) as HR.
  assert (Q0 : (0 < q)%Z) by nia. exists (Z.to_nat q).
  assert (E : f_rows f = (Z.to_nat (ch_walkers c) * Z.to_nat q)%nat) by (rewrite <- Z2Nat.inj_mul by lia; apply Nat2Z.inj; rewrite Z2Nat.id by nia; lia).
  split; [exact E|]. split; [lia|]. split; [rewrite E, Nat.mul_comm; apply Nat.div_mul; lia|]. rewrite Hq. apply Z_mod_mult.
Qed.
Lemma divide_ok rgb h c f : frame_at h (ch_samples c) = f -> (ch_samples c < length (h_frames h))%nat -> well_built c f ->
  ch_cfg c Fshift_params = false -> (1 < ch_walkers c)%Z -> ch_grid c = false ->
  exists h' ls size, divide rgb h c = (h', Ok ls) /\ Z.of_nat (length ls) = ch_walkers c /\ f_rows f = (length ls * size)%nat /\
    (forall k l, nth_error ls k = Some l -> exists c', chain_at h' l = Some c' /\ walker_of c c' k /\
      frame_at h' (ch_samples c') = f_slice (k * size) (k * size + size) f /\ f_rows (frame_at h' (ch_samples c')) = size).
Proof.
  intros EF HL B HS HW HG. unfold divide. destruct (1 <? ch_walkers c)%Z eqn:E1; [|apply Z.ltb_ge in E1; lia]. cbn [negb]. rewrite HG, EF.
  destruct (divides_nat c f B) as [size [D1 [D2 [D3 D4]]]]. rewrite D4. cbn [Z.eqb negb]. rewrite D3.
  destruct (divide_loop_spec rgb c size D2 HS (Z.to_nat (ch_walkers c)) 0 h f EF HL B) as [h' [ls [K1 [K2 K3]]]]; [cbn; lia|].
  rewrite K1. exists h', ls, size. split; [reflexivity|]. split; [rewrite K2; lia|]. split; [rewrite K2; exact D1|].
  intros k l Hk. destruct (K3 k l Hk) as [c' [J1 [J2 [J3 J4]]]]. exists c'. split; [exact J1|]. split; [exact J2|]. split; [exact J4|].
  rewrite J4. assert (Lk : (k < length ls)%nat) by (apply nth_error_Some; congruence).
  assert (LE : (k * size + size <= f_rows f)%nat) by (rewrite D1; rewrite K2 in Lk; nia).
  destruct (f_slice_wf (k * size) (k * size + size) f ltac:(lia) LE (wb_wf _ _ B)) as [_ FS]. cbn [Nat.add] in FS |- *. rewrite FS. lia.
Qed.
Lemma divide_shifted rgb h c f : frame_at h (ch_samples c) = f -> (ch_samples c < length (h_frames h))%nat -> well_built c f ->
  ch_cfg c Fshift_params = true -> exists h' e, divide rgb h c = (h', Err e).
Proof.
  intros EF HL B HS. destruct (divide rgb h c) as [h' [ls|e]] eqn:ED; [|exists h', e; reflexivity]. exfalso.
  unfold divide in ED. destruct (negb _); [discriminate|]. destruct (ch_grid c); [discriminate|]. rewrite EF in ED.
  destruct (divides_nat c f B) as [size [D1 [D2 [D3 D4]]]]. rewrite D4 in ED. cbn [Z.eqb negb] in ED. rewrite D3 in ED.
  pose proof (divide_loop_accepts rgb c size (Z.to_nat (ch_walkers c)) 0 h h' ls f EF HL (wb_wf _ _ B) ltac:(cbn; lia) ED) as AC.
  destruct (wb_shift _ _ B HS) as [lw [q [H1 [H2 H3]]]].
  assert (LW : length lw = (Z.to_nat (ch_walkers c) * size)%nat) by (rewrite (proj2 (wb_wf _ _ B) _ _ H1); exact D1).
  pose proof (slices_concat size (Z.to_nat (ch_walkers c)) 0 lw LW) as SC. cbn [Nat.mul skipn] in SC. rewrite <- SC in H2.
  apply in_concat in H2. destruct H2 as [s [H4 H5]]. apply in_map_iff in H4. destruct H4 as [k [<- H6]]. apply in_seq in H6.
  destruct (AC k ltac:(lia)) as [lf A]. cbn [Nat.add] in A.
  assert (HP := ac_weights _ _ _ A (slice (k * size) (k * size + size) lw) q). cbn [sub_args weight_name a_weight] in HP.
  assert (HI : In (CStr (ch_weight c), slice (k * size) (k * size + size) lw) (f_cols (f_slice (k * size) (k * size + size) f))).
  { cbn. apply in_map_iff. exists (CStr (ch_weight c), lw). auto. }
  specialize (HP HI H5). lra.
Qed.

(** * Column lists *)
Lemma sublist_filter {A} (p : A -> bool) l : sublist (filter p l) l.
Proof. induction l as [|x l IH]; cbn; [constructor|]. destruct (p x); constructor; exact IH. Qed.
Lemma sublist_map {A B} (g : A -> B) s l : sublist s l -> sublist (map g s) (map g l).
Proof. induction 1; cbn; constructor; assumption. Qed.
Lemma sublist_trans {A} (a b c : list A) : sublist a b -> sublist b c -> sublist a c.
Proof.
  intros H1 H2. revert a H1. induction H2 as [|x s b H IH|x s b H IH]; intros a H1.
  - exact H1.
  - inversion H1; subst; constructor; apply IH; assumption.
  - constructor. apply IH. exact H1.
Qed.
Lemma sublist_In {A} (s l : list A) x : sublist s l -> In x s -> In x l.
Proof. induction 1; cbn; intros H1; [exact H1| |right; auto]. destruct H1; auto. Qed.
Lemma labels_of_names f : (forall c l, In (c, l) (f_cols f) -> exists s, c = CStr s) -> map CStr (f_names f) = map fst (f_cols f).
Proof.
  intros H. unfold f_names, str_labels. induction (f_cols f) as [|[c l] r IH]; [reflexivity|].
  cbn [flat_map map fst]. rewrite map_app, IH by (intros d m HI; apply (H d m); right; exact HI).
  destruct (H c l (or_introl eq_refl)) as [s ->]. reflexivity.
Qed.
Lemma names_sublist cols : sublist (map CStr (str_labels cols)) (map fst cols).
Proof.
  unfold str_labels. induction cols as [|[c l] r IH]; cbn [flat_map map fst]; [constructor|]. destruct c; cbn [app map]; constructor; exact IH.
Qed.
Lemma data_columns_spec c f n : In n (data_columns c f) <-> is_column f n /\ n <> ch_weight c /\ n <> ch_post c /\ ~ reserved_name n.
Proof.
  unfold data_columns. rewrite filter_In, is_column_has, f_has_names.
  rewrite !andb_true_iff, !negb_true_iff, !String.eqb_neq. unfold reserved_name. cbv zeta.
  assert (E : smem (lower n) reserved = false <-> ~ (lower n = "weight" \/ lower n = "weights" \/ lower n = "posterior" \/ lower n = "posteriors" \/
    lower n = "log_weights" \/ lower n = "log_posterior" \/ lower n = "log_posteriors")%string).
  { destruct (smem (lower n) reserved) eqn:E.
    - split; [discriminate|]. intros H. exfalso. apply H. apply smem_In in E. unfold reserved in E. cbn [In] in E.
      destruct E as [E|[E|[E|[E|[E|[E|[E|[]]]]]]]]; symmetry in E; tauto.
    - split; [|reflexivity]. intros _ H. assert (HI : In (lower n) reserved) by (unfold reserved; cbn [In]; destruct H as [H|[H|[H|[H|[H|[H|H]]]]]]; symmetry in H; tauto).
      apply smem_In in HI. congruence. }
  rewrite E. tauto.
Qed.
Lemma add_new_fold l : forall acc, exists u, fold_left add_new l acc = acc ++ u /\ first_seen (filter (fun y => negb (smem y acc)) l) u.
Proof.
  induction l as [|x l IH]; intros acc; cbn [fold_left filter].
  - exists []. rewrite app_nil_r. split; [reflexivity|constructor].
  - unfold add_new at 2. destruct (smem x acc) eqn:E; cbn [negb].
    + apply IH.
    + destruct (IH (acc ++ [x])) as [u [H1 H2]]. exists (x :: u). split; [rewrite H1, <- app_assoc; reflexivity|]. constructor.
      assert (EF : filter (fun y => negb (x =? y)%string) (filter (fun y => negb (smem y acc)) l) = filter (fun y => negb (smem y (acc ++ [x]))) l).
      { clear. induction l as [|y l IH]; [reflexivity|]. cbn [filter].
        assert (ES : smem y (acc ++ [x]) = smem y acc || (x =? y)%string).
        { destruct (smem y (acc ++ [x])) eqn:E.
          - apply smem_In in E. apply in_app_or in E. symmetry. apply orb_true_iff. destruct E as [E|[->|[]]]; [left; apply smem_In; exact E|right; apply String.eqb_refl].
          - symmetry. apply orb_false_iff. split.
            + destruct (smem y acc) eqn:E2; [|reflexivity]. apply smem_In in E2. assert (H : smem y (acc ++ [x]) = true) by (apply smem_In; apply in_or_app; left; exact E2). congruence.
            + destruct (String.eqb_spec x y) as [->|]; [|reflexivity]. assert (H : smem y (acc ++ [y]) = true) by (apply smem_In; apply in_or_app; right; left; reflexivity). congruence. }
        rewrite ES. destruct (smem y acc); cbn [negb orb].
        - exact IH.
        - cbn [filter]. destruct (x =? y)%string; cbn [negb]; [exact IH|f_equal; exact IH]. }
      rewrite EF. exact H2.
Qed.
Lemma fold_add_concat (ls : list (list string)) : forall acc, fold_left (fun r l => fold_left add_new l r) ls acc = fold_left add_new (concat ls) acc.
Proof. induction ls as [|l ls IH]; intros acc; cbn; [reflexivity|]. rewrite IH, fold_left_app. reflexivity. Qed.
Lemma filter_true {A} (l : list A) p : (forall x, In x l -> p x = true) -> filter p l = l.
Proof. induction l as [|x l IH]; intros H; cbn; [reflexivity|]. rewrite (H x (or_introl eq_refl)). f_equal. apply IH. intros y Hy. apply H. right. exact Hy. Qed.
Lemma sanitise_columns_spec chains : first_seen (concat (map (fun cf => plotting_columns (fst cf) (snd cf)) chains)) (sanitise_columns None chains).
Proof.
  unfold sanitise_columns.
  assert (E : fold_left (fun res cf => fold_left add_new (plotting_columns (fst cf) (snd cf)) res) chains [] =
              fold_left add_new (concat (map (fun cf => plotting_columns (fst cf) (snd cf)) chains)) []).
  { rewrite <- fold_add_concat. generalize (@nil string). induction chains as [|x l IH]; intros acc; cbn; [reflexivity|apply IH]. }
  rewrite E. destruct (add_new_fold (concat (map (fun cf : chain * frame => plotting_columns (fst cf) (snd cf)) chains)) []) as [u [H1 H2]].
  rewrite H1. rewrite filter_true in H2 by reflexivity. exact H2.
Qed.

(** * Maximum posterior points *)
Lemma default_loc f i : default_labels f -> (i < f_rows f)%nat -> loc_positions f (LInt (Z.of_nat i)) = [i].
Proof.
  intros HD HL. unfold loc_positions.
  assert (HI : forall k, In k (positions (rlabel_eqb (LInt (Z.of_nat i))) 0 (f_index f)) <-> k = i).
  { intros k. rewrite positions_In. rewrite Nat.sub_0_r. split.
    - intros [x [H1 [_ H2]]]. rewrite (HD k x H1) in H2. cbn in H2. apply Z.eqb_eq in H2. lia.
    - intros ->. destruct (nth_error (f_index f) i) as [x|] eqn:E; [|apply nth_error_None in E; unfold f_rows in HL; lia].
      exists x. split; [reflexivity|]. split; [lia|]. rewrite (HD i x E). cbn. apply Z.eqb_refl. }
  assert (ND : NoDup (positions (rlabel_eqb (LInt (Z.of_nat i))) 0 (f_index f))).
  { clear. generalize (rlabel_eqb (LInt (Z.of_nat i))). intros p. generalize 0%nat. induction (f_index f) as [|x l IH]; intros k; cbn; [constructor|].
    destruct (p x); [|apply IH]. constructor; [|apply IH]. intros H. apply positions_In in H. destruct H as [_ [_ [H _]]]. lia. }
  destruct (positions (rlabel_eqb (LInt (Z.of_nat i))) 0 (f_index f)) as [|x [|y r]].
  - destruct (proj2 (HI i) eq_refl).
  - f_equal. apply HI. left. reflexivity.
  - exfalso. assert (x = i) by (apply HI; left; reflexivity). assert (y = i) by (apply HI; right; left; reflexivity). subst.
    inversion ND as [|? ? Hn _]. apply Hn. left. reflexivity.
Qed.
Lemma filter_filter_sub {A} (dec : forall x y : A, {x = y} + {x <> y}) (mem : A -> list A -> bool) (Hm : forall x l, mem x l = true <-> In x l)
  (q r : A -> bool) l : (forall x, In x l -> q x = true -> r x = true) -> filter (fun x => mem x (filter q l)) (filter r l) = filter q l.
Proof.
  intros H. assert (G : forall m, (forall x, In x m -> In x l) -> filter (fun x => mem x (filter q l)) (filter r m) = filter q m).
  { induction m as [|x m IH]; intros HS; [reflexivity|]. cbn [filter]. destruct (r x) eqn:ER.
    - cbn [filter]. destruct (q x) eqn:EQ.
      + rewrite (proj2 (Hm x _)) by (apply filter_In; split; [apply HS; left; reflexivity|exact EQ]). f_equal. apply IH. intros y Hy. apply HS. right. exact Hy.
      + destruct (mem x (filter q l)) eqn:EM; [apply Hm in EM; apply filter_In in EM; destruct EM; congruence|]. apply IH. intros y Hy. apply HS. right. exact Hy.
    - destruct (q x) eqn:EQ; [rewrite (H x (HS x (or_introl eq_refl)) EQ) in ER; discriminate|]. apply IH. intros y Hy. apply HS. right. exact Hy. }
  apply G. auto.
Qed.
Lemma dpop_filter {A} k (d : dict A) : NoDup (dkeys d) -> dpop k d = filter (fun kv => negb (String.eqb k (fst kv))) d.
Proof.
  induction d as [|[k' v] d IH]; intros ND; [reflexivity|]. cbn [dpop filter fst]. inversion ND as [|? ? Hn ND']; subst.
  destruct (String.eqb_spec k k') as [->|N]; cbn [negb].
  - symmetry. apply filter_true. intros [k2 v2] HI. cbn. apply negb_true_iff. apply String.eqb_neq. intros ->. apply Hn. apply (in_map fst) in HI. exact HI.
  - f_equal. apply IH. exact ND'.
Qed.
Lemma map_fst_filter {A B} (p : A -> bool) (d : list (A * B)) : map fst (filter (fun kv => p (fst kv)) d) = filter p (map fst d).
Proof. induction d as [|[k v] d IH]; [reflexivity|]. cbn. destruct (p k); cbn; [f_equal|]; exact IH. Qed.
Lemma plotting_filter c f : exists q, plotting_columns c f = filter q (f_names f) /\ forall n, q n = true -> n <> ch_post c.
Proof.
  unfold plotting_columns, data_columns. destruct (negb (ch_cfg c Fplot_cloud)).
  - eexists. split; [reflexivity|]. cbn beta. intros n H. rewrite !andb_true_iff, !negb_true_iff, !String.eqb_neq in H. tauto.
  - exists (fun n => (negb (String.eqb n (ch_weight c)) && negb (String.eqb n (ch_post c)) && negb (smem (lower n) reserved)) &&
                     negb match ch_cfg c Fcolor_param with Some p => String.eqb n p | None => false end). split.
    + induction (f_names f) as [|x l IH]; [reflexivity|]. cbn [filter].
      destruct (negb (x =? ch_weight c)%string && negb (x =? ch_post c)%string && negb (smem (lower x) reserved)); cbn [andb filter].
      * destruct (negb _); [f_equal|]; exact IH.
      * exact IH.
    + intros n H. rewrite !andb_true_iff, !negb_true_iff, !String.eqb_neq in H. tauto.
Qed.
Definition coords_at (c : chain) (f : frame) (i : nat) : list (string * Q) :=
  map (fun kv => (fst kv, cell_q (snd kv))) (filter (fun kv => smem (fst kv) (plotting_columns c f)) (dpop (ch_post c) (f_row f i))).
Lemma coords_at_values c f i : frame_wf f -> clean f -> (i < f_rows f)%nat -> row_values f i (plotting_columns c f) (coords_at c f i).
Proof.
  intros W CL HL. unfold coords_at.
  assert (ND : NoDup (dkeys (f_row f i))) by (unfold dkeys; rewrite f_row_keys; apply nodup_str_labels; exact (proj1 W)).
  split.
  - rewrite map_map. cbn [fst]. rewrite dpop_filter by exact ND.
    rewrite (map_fst_filter (fun n => smem n (plotting_columns c f))), (map_fst_filter (fun n => negb (String.eqb (ch_post c) n))), f_row_keys.
    destruct (plotting_filter c f) as [q [-> Hq]]. apply (filter_filter_sub string_dec smem smem_In).
    intros x _ Hx. apply negb_true_iff. apply String.eqb_neq. intros E. apply (Hq x Hx). congruence.
  - intros n q HI. apply in_map_iff in HI. destruct HI as [[n' x] [E HI]]. cbn in E. injection E as -> <-. apply filter_In in HI. destruct HI as [HI HP].
    rewrite dpop_filter in HI by exact ND. apply filter_In in HI. destruct HI as [HI _].
    unfold f_row in HI. apply in_flat_map in HI. destruct HI as [[cl l] [H1 H2]]. cbn in H2. destruct cl as [s|z]; [|destruct H2].
    destruct H2 as [H2|[]]. injection H2 as -> <-.
    assert (HF : forall y, In y l -> exists q, y = Fin q) by (intros y; apply (proj2 CL _ _ y H1)).
    destruct (finite_qs l HF) as [E _]. exists (qs l). split; [unfold column; rewrite <- E; exact H1|].
    assert (LL : length l = f_rows f) by apply (proj2 W _ _ H1).
    unfold qs. rewrite nth_error_map. rewrite (nth_error_nth' l NaN) by lia. reflexivity.
Qed.
Lemma max_point_default c f p : frame_wf f -> clean f -> (0 < f_rows f)%nat -> default_labels f -> column f (ch_post c) p ->
  exists i coords, is_first_argmax p i /\ row_values f i (plotting_columns c f) coords /\ get_max_posterior_point c f = Ok (Some (at_ p i, coords)).
Proof.
  intros W CL HR HD HP. assert (HG : f_get f (ch_post c) = Some (map Fin p)) by (apply f_get_wf; assumption).
  assert (LP : length p = f_rows f) by (rewrite <- (map_length Fin p); apply (proj2 W _ _ HP)).
  assert (NP : p <> []) by (intros ->; cbn in LP; lia). pose proof (argmax_spec p NP) as AM.
  exists (argmax p), (coords_at c f (argmax p)). split; [exact AM|]. destruct AM as [[AM _] _].
  split; [apply coords_at_values; try assumption; lia|].
  unfold get_max_posterior_point, max_posterior_row. rewrite HG, qs_fin. cbv zeta. rewrite default_loc by (assumption || lia). cbn [rbind].
  assert (HG2 : dget (ch_post c) (f_row f (argmax p)) = Some (Fin (at_ p (argmax p)))).
  { rewrite (f_row_get f (argmax p)) by exact (proj1 W). rewrite HG. cbn. f_equal. unfold at_. rewrite (nth_indep _ NaN (Fin 0)) by (rewrite map_length; lia). apply (map_nth Fin). }
  rewrite HG2. reflexivity.
Qed.
Lemma max_point_none c f : get_max_posterior_point c f = Ok None <-> ~ is_column f (ch_post c).
Proof.
  rewrite is_column_has. unfold f_has, get_max_posterior_point, max_posterior_row. destruct (f_get f (ch_post c)) as [p|] eqn:E.
  - cbv zeta. split; [|intros H; contradiction H; reflexivity]. intros H. exfalso. revert H.
    destruct (loc_positions f _) as [|i [|j r]]; cbn [rbind]; try discriminate. destruct (dget (ch_post c) (f_row f i)); discriminate.
  - split; [intros _; discriminate|reflexivity].
Qed.
Lemma argmax_lt p : p <> [] -> (argmax p < length p)%nat.
Proof. intros H. destruct (argmax_spec p H) as [[A _] _]. exact A. Qed.
(** A block of a frame with default labels, other than the first: the label looked up is not there. *)
Lemma max_point_block c f st en : frame_wf f -> default_labels f -> f_has f (ch_post c) = true -> (0 < en - st <= st)%nat -> (en <= f_rows f)%nat ->
  get_max_posterior_point c (f_slice st en f) = Err KeyError.
Proof.
  intros W HD HP L1 L2. destruct (f_has_get _ _ HP) as [p Hp]. unfold get_max_posterior_point, max_posterior_row. rewrite f_slice_get, Hp. cbn [option_map]. cbv zeta.
  assert (LP : length p = f_rows f) by (apply (proj2 W (CStr (ch_post c))); apply f_get_In; exact Hp).
  assert (LS : length (qs (slice st en p)) = (en - st)%nat) by (unfold qs; rewrite map_length; apply slice_length; lia).
  assert (NE : qs (slice st en p) <> []) by (intros E; rewrite E in LS; cbn in LS; lia).
  pose proof (argmax_lt _ NE) as AL. rewrite LS in AL.
  destruct (loc_positions (f_slice st en f) (LInt (Z.of_nat (argmax (qs (slice st en p)))))) as [|k r] eqn:E; [reflexivity|]. exfalso.
  assert (HI : In k (loc_positions (f_slice st en f) (LInt (Z.of_nat (argmax (qs (slice st en p))))))) by (rewrite E; left; reflexivity).
  unfold loc_positions in HI. apply positions_In in HI. destruct HI as [x [H1 [_ H2]]]. rewrite Nat.sub_0_r in H1. cbn in H1. unfold slice in H1.
  assert (H3 : nth_error (f_index f) (st + k) = Some x).
  { rewrite <- (firstn_skipn st (f_index f)). rewrite nth_error_app2; rewrite firstn_length; unfold f_rows in L2; [|lia].
    replace (st + k - Nat.min st (length (f_index f)))%nat with k by lia.
    rewrite <- (firstn_skipn (en - st) (skipn st (f_index f))). rewrite nth_error_app1; [exact H1|]. apply nth_error_Some. congruence. }
  rewrite (HD _ _ H3) in H2. cbn in H2. apply Z.eqb_eq in H2. lia.
Qed.

(** * Maximum posterior points of several chains *)
Lemma dset_fold_first {A} (kvs : list (string * A)) : forall acc, exists u, dkeys (fold_left (fun a kv => dset (fst kv) (snd kv) a) kvs acc) = dkeys acc ++ u /\
  first_seen (filter (fun y => negb (smem y (dkeys acc))) (map fst kvs)) u.
Proof.
  assert (G : forall kvs acc, dkeys (fold_left (fun a (kv : string * A) => dset (fst kv) (snd kv) a) kvs acc) = fold_left add_new (map fst kvs) (dkeys acc)).
  { clear. induction kvs as [|[k v] r IH]; intros acc; [reflexivity|]. cbn [fold_left map fst snd]. rewrite IH. f_equal. unfold add_new.
    destruct (smem k (dkeys acc)) eqn:E.
    - apply dkeys_dset_in. apply smem_In. exact E.
    - rewrite dkeys_dset_new; [reflexivity|]. intros H. apply smem_In in H. congruence. }
  intros acc. rewrite G. apply add_new_fold.
Qed.
Lemma max_loop_spec h : forall d ps, max_posteriors_loop h d = Ok ps -> NoDup (dkeys d) ->
  sublist (dkeys ps) (dkeys d) /\
  forall n p, dget n ps = Some p <-> exists l c, dget n d = Some l /\ chain_at h l = Some c /\ get_max_posterior_point c (frame_at h (ch_samples c)) = Ok (Some p).
Proof.
  induction d as [|[k l] d IH]; intros ps H ND; cbn in H.
  - injection H as <-. split; [constructor|]. intros n p. split; [discriminate|]. intros [l [c [E _]]]. discriminate.
  - destruct (chain_at h l) as [c|] eqn:EC; [|discriminate]. destruct (get_max_posterior_point c _) as [mp|] eqn:EM; [|discriminate]. cbn [rbind] in H.
    destruct (max_posteriors_loop h d) as [rest|] eqn:ER; [|discriminate]. cbn [rbind] in H. injection H as <-.
    inversion ND as [|? ? Hn ND']; subst. destruct (IH rest eq_refl ND') as [S1 S2].
    assert (NK : dget k rest = None). { apply dget_None. intros HI. apply Hn. apply (sublist_In _ _ _ S1 HI). }
    split; [destruct mp; cbn; constructor; exact S1|]. intros n p. cbn [dget]. destruct (String.eqb_spec n k) as [->|N].
    + destruct mp as [p0|]; [cbn [dget]; rewrite String.eqb_refl|rewrite NK].
      * split.
        -- intros E. injection E as <-. exists l, c. auto.
        -- intros [l' [c' [E1 [E2 E3]]]]. injection E1 as <-. rewrite EC in E2. injection E2 as <-. congruence.
      * split; [discriminate|]. intros [l' [c' [E1 [E2 E3]]]]. injection E1 as <-. rewrite EC in E2. injection E2 as <-. congruence.
    + destruct mp as [p0|]; [cbn [dget]; rewrite (proj2 (String.eqb_neq n k) N)|]; apply S2.
Qed.
Lemma fold_dset_get {A} (kvs : list (string * A)) (g : string -> option A) : (forall k v, In (k, v) kvs -> g k = Some v) -> forall acc n v,
  (dget n (fold_left (fun a kv => dset (fst kv) (snd kv) a) kvs acc) = Some v <->
   (In n (map fst kvs) /\ g n = Some v) \/ (~ In n (map fst kvs) /\ dget n acc = Some v)).
Proof.
  induction kvs as [|[k w] r IH]; intros HG acc n v; cbn [fold_left map fst snd In].
  - tauto.
  - rewrite IH by (intros k0 v0 HI; apply HG; right; exact HI).
    destruct (in_dec string_dec n (map fst r)) as [I|I].
    + tauto.
    + destruct (string_dec k n) as [->|N].
      * rewrite dget_dset_same. rewrite (HG n w (or_introl eq_refl)). tauto.
      * rewrite dget_dset_other by congruence. tauto.
Qed.
Lemma rmapM_Ok_iff {A B} (g : A -> res B) l r : rmapM g l = Ok r -> length r = length l /\ forall i a, nth_error l i = Some a -> exists b, nth_error r i = Some b /\ g a = Ok b.
Proof.
  revert r. induction l as [|x l IH]; intros r H; cbn in H; [injection H as <-; split; [reflexivity|]; intros i a Hi; destruct i; discriminate|].
  destruct (g x) as [y|] eqn:E; [|discriminate]. cbn in H. destruct (rmapM g l) as [ys|] eqn:E2; [|discriminate]. injection H as <-.
  destruct (IH ys eq_refl) as [L H]. split; [cbn; congruence|]. intros [|i] a Hi; cbn in *; [injection Hi as <-; exists y; auto|apply H; exact Hi].
Qed.
Lemma max_posteriors_spec w req ps : NoDup (dkeys (k_chains (snd w))) -> get_max_posteriors w req = Ok ps ->
  (forall n, In n (asked w req) -> In n (dkeys (k_chains (snd w)))) /\
  (exists u, first_seen (asked w req) u /\ sublist (dkeys ps) u) /\
  forall n p, dget n ps = Some p <-> In n (asked w req) /\
    exists l c, dget n (k_chains (snd w)) = Some l /\ chain_at (fst w) l = Some c /\ get_max_posterior_point c (frame_at (fst w) (ch_samples c)) = Ok (Some p).
Proof.
  intros ND H. unfold get_max_posteriors in H. destruct (max_posterior_request w req) as [d|] eqn:ER; [|discriminate]. cbn [rbind] in H.
  destruct req as [names|]; cbn [asked max_posterior_request] in *.
  - destruct (rmapM _ names) as [kvs|] eqn:EM; [|discriminate]. cbn [rbind] in ER. injection ER as <-.
    destruct (rmapM_Ok_iff _ _ _ EM) as [L1 L2].
    assert (EK : map fst kvs = names).
    { apply list_ext_nth; [rewrite map_length; exact L1|]. intros i x Hx. rewrite nth_error_map in Hx.
      destruct (nth_error kvs i) as [[k v]|] eqn:E; [|discriminate]. cbn in Hx. injection Hx as <-.
      destruct (nth_error names i) as [n|] eqn:En; [|apply nth_error_None in En; assert (i < length kvs)%nat by (apply nth_error_Some; congruence); lia].
      destruct (L2 i n En) as [b [H1 H2]]. rewrite E in H1. injection H1 as <-. destruct (dget n (k_chains (snd w))); [|discriminate]. congruence. }
    assert (EG : forall k v, In (k, v) kvs -> dget k (k_chains (snd w)) = Some v).
    { intros k v HI. destruct (In_nth_error _ _ HI) as [i Hi]. assert (HN : nth_error names i = Some k) by (rewrite <- EK, nth_error_map, Hi; reflexivity).
      destruct (L2 i k HN) as [b [H1 H2]]. rewrite Hi in H1. injection H1 as <-. destruct (dget k (k_chains (snd w))); [|discriminate]. congruence. }
    assert (NDd : forall acc, NoDup (dkeys acc) -> NoDup (dkeys (fold_left (fun a (kv : string * nat) => dset (fst kv) (snd kv) a) kvs acc))).
    { clear. induction kvs as [|[k v] r IH]; intros acc Hn; [exact Hn|]. cbn. apply IH. apply nodup_dset. exact Hn. }
    destruct (max_loop_spec _ _ _ H (NDd [] (NoDup_nil _))) as [S1 S2].
    split; [|split].
    + intros n HI. rewrite <- EK in HI. apply in_map_iff in HI. destruct HI as [[k v] [<- HI]]. cbn. apply dget_Some_mem. exists v. apply EG. exact HI.
    + destruct (dset_fold_first kvs []) as [u [U1 U2]]. cbn [dkeys map app] in U1. rewrite filter_true in U2 by reflexivity. rewrite EK in U2.
      exists u. split; [exact U2|]. unfold dkeys in *. rewrite U1 in S1. exact S1.
    + intros n p. rewrite S2. split.
      * intros [l [c [E1 E2]]]. apply (fold_dset_get kvs _ EG) in E1. rewrite EK in E1. destruct E1 as [[E1 E3]|[_ E1]]; [|discriminate]. split; [exact E1|]. exists l, c. auto.
      * intros [HI [l [c [E1 E2]]]]. exists l, c. split; [|exact E2]. apply (fold_dset_get kvs _ EG). left. rewrite EK. auto.
  - injection ER as <-. destruct (max_loop_spec _ _ _ H ND) as [S1 S2]. split; [auto|]. split.
    + exists (dkeys (k_chains (snd w))). split; [|exact S1]. fold (dkeys (k_chains (snd w))). clear -ND. revert ND. generalize (dkeys (k_chains (snd w))).
      induction l as [|x l IH]; intros ND; constructor. inversion ND as [|? ? Hn ND']; subst. rewrite filter_true; [apply IH; exact ND'|].
      intros y Hy. apply negb_true_iff. apply String.eqb_neq. intros ->. contradiction.
    + intros n p. rewrite S2. split; [|tauto]. intros [l [c [E1 E2]]]. split; [apply dget_Some_mem; exists l; exact E1|exists l, c; auto].
Qed.
Lemma rmapM_err {A B} (g : A -> res B) l e : rmapM g l = Err e -> exists x, In x l /\ g x = Err e.
Proof.
  induction l as [|x l IH]; cbn; [discriminate|]. destruct (g x) as [y|e'] eqn:E; cbn; [|intros H; injection H as <-; exists x; auto].
  destruct (rmapM g l) as [ys|e']; cbn; [discriminate|]. intros H. injection H as <-. destruct (IH eq_refl) as [z [H1 H2]]. exists z. auto.
Qed.
Lemma max_posteriors_unknown w l : (exists n, In n l /\ ~ In n (dkeys (k_chains (snd w)))) -> get_max_posteriors w (Some l) = Err KeyError.
Proof.
  intros [n [H1 H2]]. unfold get_max_posteriors. cbn [max_posterior_request].
  destruct (rmapM _ l) as [kvs|e] eqn:EM.
  - exfalso. destruct (rmapM_Ok_iff _ _ _ EM) as [_ L]. destruct (In_nth_error _ _ H1) as [i Hi]. destruct (L i n Hi) as [b [_ Hb]].
    destruct (dget n (k_chains (snd w))) eqn:E; [|discriminate]. apply H2. apply dget_Some_mem. eauto.
  - cbn [rbind]. apply rmapM_err in EM. destruct EM as [x [_ Hx]]. destruct (dget x (k_chains (snd w))); [discriminate|]. injection Hx as <-. reflexivity.
Qed.
(** It fails only when a name is unknown or some chain's own point fails. *)
Lemma max_loop_total h : forall d, (forall n l, In (n, l) d -> exists c r, chain_at h l = Some c /\ get_max_posterior_point c (frame_at h (ch_samples c)) = Ok r) ->
  exists ps, max_posteriors_loop h d = Ok ps.
Proof.
  induction d as [|[k l] d IH]; intros H; cbn; [eauto|]. destruct (H k l (or_introl eq_refl)) as [c [r [E1 E2]]]. rewrite E1, E2. cbn [rbind].
  destruct IH as [ps Hp]; [intros n m HI; apply (H n m); right; exact HI|]. rewrite Hp. cbn [rbind]. eauto.
Qed.

(** * Markers *)
Lemma col_set_map_names n l cols : str_labels (col_set (CStr n) l cols) = if smem n (str_labels cols) then str_labels cols else str_labels cols ++ [n].
Proof.
  destruct (smem n (str_labels cols)) eqn:E.
  - apply smem_In in E. apply str_labels_ext. apply col_set_labels_in. apply in_str_labels. exact E.
  - pose proof (col_set_new (CStr n) l cols) as H. rewrite H; [rewrite str_labels_app; reflexivity|]. intros HI. apply in_str_labels in HI. apply smem_In in HI. congruence.
Qed.
Definition loc_cols (loc : list (string * cell)) := map (fun kv => (CStr (fst kv), [snd kv])) loc.
Lemma loc_names loc : str_labels (loc_cols loc) = map fst loc.
Proof. induction loc as [|[k v] r IH]; [reflexivity|]. cbn. f_equal. exact IH. Qed.
Lemma marker_get loc n : n <> "weight"%string -> n <> "log_posterior"%string -> f_get (marker_frame loc) n = option_map (fun x => [x]) (dget n loc).
Proof.
  intros N1 N2. unfold marker_frame. rewrite f_get_set_other by congruence. rewrite f_get_set_other by congruence.
  unfold f_get. cbn [f_cols]. induction loc as [|[k v] r IH]; [reflexivity|]. cbn [map fst snd col_get clabel_eqb dget].
  destruct (String.eqb n k); [reflexivity|exact IH].
Qed.
Lemma marker_wf loc : NoDup (map fst loc) -> frame_wf (marker_frame loc) /\ f_index (marker_frame loc) = [LInt 0].
Proof.
  intros ND. split; [|reflexivity]. unfold marker_frame. set (f0 := {| f_index := [LInt 0]; f_cols := map (fun kv => (CStr (fst kv), [snd kv])) loc |}).
  assert (W0 : frame_wf f0).
  { split; cbn.
    - rewrite map_map. cbn. rewrite <- (map_map fst CStr). apply FinFun.Injective_map_NoDup; [intros x y E; injection E; auto|exact ND].
    - intros c l HI. apply in_map_iff in HI. destruct HI as [[k v] [E _]]. injection E as _ <-. reflexivity. }
  assert (G : forall f n, frame_wf f -> f_index f = [LInt 0] -> frame_wf (f_set f n [Fin 1])).
  { intros f n [W1 W2] HI. split.
    - destruct (in_dec string_dec n (f_names f)) as [I|I]; [rewrite f_set_labels by exact I; exact W1|].
      rewrite f_set_cols_new by exact I. rewrite map_app. cbn. apply NoDup_app_snoc; [exact W1|]. intros H. apply I. apply in_str_labels. exact H.
    - intros c l HIn. change (f_index (f_set f n [Fin 1])) with (f_index f). rewrite HI.
      destruct (in_dec string_dec n (f_names f)) as [I|I].
      + unfold f_set in HIn. cbn [f_cols] in HIn. rewrite HI in W2. clear -HIn W2. induction (f_cols f) as [|[d m] r IHr]; cbn [col_set] in HIn.
        * destruct HIn as [E|[]]. injection E as _ <-. reflexivity.
        * destruct (clabel_eqb (CStr n) d).
          -- destruct HIn as [E|E]; [injection E as _ <-; reflexivity|apply (W2 c); right; exact E].
          -- destruct HIn as [E|E]; [apply (W2 c); left; exact E|]. apply IHr; [intros c' l' H'; apply (W2 c'); right; exact H'|exact E].
      + rewrite f_set_cols_new in HIn by exact I. apply in_app_or in HIn. destruct HIn as [E|[E|[]]]; [rewrite HI in W2; apply (W2 c); exact E|]. injection E as _ <-. reflexivity. }
  apply G; [apply G; [exact W0|reflexivity]|reflexivity].
Qed.
Lemma kset_same k f v : kset k f v f = Some v.
Proof. unfold kset. destruct (cfield_eq_dec f f) as [e|N]; [|contradiction]. rewrite (UIP_dec cfield_eq_dec e eq_refl). reflexivity. Qed.
Lemma kset_other k f v g : f <> g -> kset k f v g = k g.
Proof. intros N. unfold kset. destruct (cfield_eq_dec f g); [contradiction|reflexivity]. Qed.
Lemma marker_spec rgb w loc name color size style al (extra : kwargs) w' : NoDup (map fst loc) -> extra Fshift_params <> Some true ->
  add_marker rgb w loc name color size style al extra = (w', Ok tt) ->
  exists l c coords, k_chains (snd w') = k_chains (snd w) ++ [(name, l)] /\ chain_at (fst w') l = Some c /\ ch_name c = name /\
    ch_cfg c Fplot_contour = false /\ ch_cfg c Fplot_point = true /\ ch_cfg c Fmarker_size = size /\ ch_cfg c Fmarker_style = style /\ ch_cfg c Fmarker_alpha = al /\
    frame_at (fst w') (ch_samples c) = marker_frame loc /\
    get_max_posterior_point c (frame_at (fst w') (ch_samples c)) = Ok (Some (1%Q, coords)) /\
    sublist (map fst coords) (map fst loc) /\
    (forall n q, In (n, q) coords -> In (n, Fin q) loc) /\
    (ch_cfg c Fplot_cloud = false -> forall n q, In (n, Fin q) loc -> ~ reserved_name n -> In (n, q) coords).
Proof.
  intros ND HS H. unfold add_marker in H. destruct w as [h k]. destruct (match extra Fplot_contour with Some _ => _ | None => _ end); [discriminate|].
  destruct (alloc_frame h (marker_frame loc)) as [h1 lf] eqn:EA.
  assert (E1 : h1 = fst (alloc_frame h (marker_frame loc))) by (rewrite EA; reflexivity).
  assert (El : lf = length (h_frames h)) by (injection EA as <- <-; reflexivity). subst lf.
  match type of H with context [new_chain rgb h1 ?x] => set (a := x) in * end.
  destruct (new_chain rgb h1 a) as [h2 [l|e]] eqn:EN; [|discriminate].
  destruct (marker_wf loc ND) as [MW MI].
  assert (EF : frame_at h1 (a_samples a) = marker_frame loc) by (rewrite E1; apply frame_at_alloc).
  assert (W : frame_wf (frame_at h1 (a_samples a))) by (rewrite EF; exact MW).
  destruct (new_chain_result rgb h1 a h2 l W EN) as [col [f2 [H1 [H2 [H3 [H4 [H5 [H6 [H7 [H8 [H9 H10]]]]]]]]]]]. cbv zeta in *.
  set (c := with_stat (build col a (length (h_frames h1)))) in *.
  assert (EW : weight_name a = "weight"%string) by reflexivity.
  assert (HasW : f_has (marker_frame loc) "weight" = true).
  { unfold f_has, marker_frame. rewrite f_get_set_other by discriminate. rewrite f_get_set_same. reflexivity. }
  assert (Ef2 : f2 = marker_frame loc).
  { unfold shifted in H5. assert (EC : ch_cfg (build col a (length (h_frames h1))) Fshift_params = false).
    { cbn [build ch_cfg fill]. assert (EK : a_cfg a Fshift_params = extra Fshift_params).
      { unfold a. cbn [a_cfg]. unfold marker_kwargs. rewrite !kset_other by discriminate. destruct color; [rewrite kset_other by discriminate|]; reflexivity. }
      rewrite EK. destruct (extra Fshift_params) as [[|]|]; try reflexivity. contradiction HS. reflexivity. }
    rewrite EC, EF, EW in H5. unfold with_weight in H5. rewrite HasW in H5. congruence. }
  assert (CL : clean (marker_frame loc)) by (rewrite <- EF; split; [exact (ac_labels _ _ _ H8)|exact (ac_finite _ _ _ H8)]).
  unfold add_chain in H. rewrite H3 in H. destruct (dmem (ch_name c) (k_chains k)) eqn:DM; [discriminate|]. injection H as <-.
  assert (ENm : ch_name c = name) by reflexivity. rewrite ENm in DM.
  assert (HD : default_labels (marker_frame loc)).
  { intros i r Hi. rewrite MI in Hi. destruct i as [|[|i]]; cbn in Hi; [injection Hi as <-; reflexivity|discriminate|discriminate]. }
  assert (HP : column (marker_frame loc) (ch_post c) [1%Q]).
  { change (ch_post c) with "log_posterior"%string. unfold column. apply f_get_In. unfold marker_frame. apply f_get_set_same. }
  destruct (max_point_default c (marker_frame loc) [1%Q] MW CL) as [i [coords [M1 [M2 M3]]]]; [unfold f_rows; rewrite MI; cbn; lia|exact HD|exact HP|].
  assert (Ei : i = 0%nat) by (destruct M1 as [[M1 _] _]; cbn in M1; lia). subst i.
  exists l, c, coords. cbn [fst snd k_chains]. split.
  { apply (dset_new name). intros HI. apply dmem_In in HI. congruence. }
  split; [exact H3|]. split; [reflexivity|].
  assert (CF : forall s v, s <> Fstatistics -> s <> Fcolor -> a_cfg a s = Some v -> stored rgb s v (ch_cfg c s)).
  { intros s v N1 N2 E. pose proof (build_stored rgb a (length (h_frames h1)) col s H1) as B. rewrite E in B. exact B. }
  split. { specialize (CF Fplot_contour false ltac:(discriminate) ltac:(discriminate)). cbn [stored] in CF. apply CF. unfold a. cbn [a_cfg]. unfold marker_kwargs.
    rewrite kset_other by discriminate. exact (kset_same _ Fplot_contour false). }
  split. { specialize (CF Fplot_point true ltac:(discriminate) ltac:(discriminate)). cbn [stored] in CF. apply CF. unfold a. cbn [a_cfg]. unfold marker_kwargs.
    exact (kset_same _ Fplot_point true). }
  split. { specialize (CF Fmarker_size size ltac:(discriminate) ltac:(discriminate)). cbn [stored] in CF. apply CF. unfold a. cbn [a_cfg]. unfold marker_kwargs.
    rewrite !kset_other by discriminate. exact (kset_same _ Fmarker_size size). }
  split. { specialize (CF Fmarker_style style ltac:(discriminate) ltac:(discriminate)). cbn [stored] in CF. apply CF. unfold a. cbn [a_cfg]. unfold marker_kwargs.
    rewrite !kset_other by discriminate. exact (kset_same _ Fmarker_style style). }
  split. { specialize (CF Fmarker_alpha al ltac:(discriminate) ltac:(discriminate)). cbn [stored] in CF. apply CF. unfold a. cbn [a_cfg]. unfold marker_kwargs.
    rewrite !kset_other by discriminate. exact (kset_same _ Fmarker_alpha al). }
  rewrite H4, Ef2. split; [reflexivity|]. split; [rewrite M3; reflexivity|].
  assert (NR : forall n, In n (plotting_columns c (marker_frame loc)) -> n <> "weight"%string /\ n <> "log_posterior"%string).
  { intros n HI. assert (HDt : In n (data_columns c (marker_frame loc))) by (unfold plotting_columns in HI; destruct (negb (ch_cfg c Fplot_cloud)); [exact HI|apply filter_In in HI; tauto]).
    apply data_columns_spec in HDt. destruct HDt as [_ [D1 [D2 _]]]. split; [exact D1|exact D2]. }
  destruct M2 as [M2a M2b].
  split; [|split].
  - rewrite M2a. destruct (plotting_filter c (marker_frame loc)) as [q [PQ _]].
    assert (NR' : forall n, In n (f_names (marker_frame loc)) -> q n = true -> n <> "weight"%string /\ n <> "log_posterior"%string) by (intros n HI Hq; apply NR; rewrite PQ; apply filter_In; auto).
    rewrite PQ. unfold f_names, marker_frame, f_set in *. cbn [f_cols] in *. rewrite !col_set_map_names in *. fold (loc_cols loc) in *. rewrite loc_names in *.
    assert (G : forall L x, (forall n, In n (if smem x L then L else L ++ [x]) -> q n = true -> n <> x) -> filter q (if smem x L then L else L ++ [x]) = filter q L).
    { intros L x HN. destruct (smem x L); [reflexivity|]. rewrite filter_app. cbn [filter]. destruct (q x) eqn:E; [|apply app_nil_r].
      exfalso. apply (HN x); [apply in_or_app; right; left; reflexivity|exact E|reflexivity]. }
    rewrite G by (intros n HI Hq; apply (NR' n HI Hq)). rewrite G; [apply sublist_filter|].
    intros n HI Hq. assert (HI' : In n (if smem "log_posterior" (if smem "weight" (map fst loc) then map fst loc else map fst loc ++ ["weight"%string]) then (if smem "weight" (map fst loc) then map fst loc else map fst loc ++ ["weight"%string]) else (if smem "weight" (map fst loc) then map fst loc else map fst loc ++ ["weight"%string]) ++ ["log_posterior"%string])).
    { destruct (smem "log_posterior" _); [exact HI|apply in_or_app; left; exact HI]. }
    apply (NR' n HI' Hq).
  - intros n q HI. assert (HN : In n (plotting_columns c (marker_frame loc))) by (rewrite <- M2a; apply (in_map fst) in HI; exact HI).
    destruct (NR n HN) as [N1 N2]. destruct (M2b n q HI) as [v [V1 V2]].
    assert (HG : f_get (marker_frame loc) n = Some (map Fin v)) by (apply f_get_wf; assumption). rewrite marker_get in HG by assumption.
    destruct (dget n loc) as [x|] eqn:E; [|discriminate]. cbn in HG. injection HG as HG. destruct v as [|y [|]]; try discriminate. cbn in HG, V2. injection HG as ->. injection V2 as ->.
    apply dget_In. exact E.
  - intros HC n q HI HR. assert (HP2 : In n (plotting_columns c (marker_frame loc))).
    { unfold plotting_columns. rewrite HC. cbn [negb]. apply data_columns_spec. split.
      - apply is_column_has. unfold f_has. rewrite marker_get; [|intros ->; apply HR; left; reflexivity|intros ->; apply HR; do 5 right; left; reflexivity].
        rewrite (dget_nodup n (Fin q) loc ND HI). reflexivity.
      - change (ch_weight c) with "weight"%string. change (ch_post c) with "log_posterior"%string.
        split; [intros ->; apply HR; left; reflexivity|]. split; [intros ->; apply HR; do 5 right; left; reflexivity|exact HR]. }
    destruct (NR n HP2) as [N1 N2]. rewrite <- M2a in HP2. apply in_map_iff in HP2. destruct HP2 as [[n' q'] [E HI2]]. cbn in E. subst n'.
    destruct (M2b n q' HI2) as [v [V1 V2]]. assert (HG : f_get (marker_frame loc) n = Some (map Fin v)) by (apply f_get_wf; assumption). rewrite marker_get in HG by assumption.
    rewrite (dget_nodup n (Fin q) loc ND HI) in HG. cbn in HG. destruct v as [|y [|]]; try discriminate. cbn in HG, V2. injection HG as ->. injection V2 as ->. exact HI2.
Qed.

(** * Imports *)
Lemma filter_none all : filter_var_names None all = Ok all. Proof. reflexivity. Qed.
Lemma negated_tilde v : negated (String tilde v) = true. Proof. reflexivity. Qed.
Lemma negated_drop v : negated v = true -> v = String tilde (drop1 v).
Proof. destruct v as [|c r]; cbn; [discriminate|]. intros H. apply Ascii.eqb_eq in H. congruence. Qed.
Lemma existsb_false {A} (p : A -> bool) l : existsb p l = false <-> forall x, In x l -> p x = false.
Proof.
  split.
  - intros H x Hx. destruct (p x) eqn:E; [|reflexivity]. assert (existsb p l = true) by (apply existsb_exists; eauto). congruence.
  - intros H. destruct (existsb p l) eqn:E; [|reflexivity]. apply existsb_exists in E. destruct E as [x [H1 H2]]. rewrite (H x H1) in H2. discriminate.
Qed.
Lemma existsb_all {A} (p : A -> bool) l : l <> [] -> (forall x, In x l -> p x = true) -> existsb p l = true.
Proof. destruct l as [|x l]; [contradiction|]. intros _ H. cbn. rewrite (H x (or_introl eq_refl)). reflexivity. Qed.
Lemma filter_plain names all : names <> [] -> (forall v, In v names -> negated v = false) -> filter_var_names (Some names) all = Ok (filter (fun v => smem v names) all).
Proof.
  intros N H. cbn [filter_var_names]. rewrite (proj2 (existsb_false negated names)) by exact H.
  rewrite (existsb_all (fun v => negb (negated v)) names N) by (intros x Hx; rewrite (H x Hx); reflexivity). reflexivity.
Qed.
Lemma filter_tilde names all : names <> [] -> filter_var_names (Some (map (String tilde) names)) all = Ok (filter (fun v => negb (smem v names)) all).
Proof.
  intros N. cbn [filter_var_names]. rewrite (existsb_all negated); [|destruct names; [contradiction|discriminate]|intros x Hx; apply in_map_iff in Hx; destruct Hx as [y [<- _]]; reflexivity].
  rewrite (proj2 (existsb_false (fun v => negb (negated v)) _)) by (intros x Hx; apply in_map_iff in Hx; destruct Hx as [y [<- _]]; reflexivity).
  rewrite map_map. cbn [drop1]. rewrite map_id. reflexivity.
Qed.
Lemma filter_mixed names all : (exists v, In v names /\ negated v = true) -> (exists v, In v names /\ negated v = false) -> filter_var_names (Some names) all = Err ValueError.
Proof.
  intros [v [H1 H2]] [w [H3 H4]]. cbn [filter_var_names]. rewrite (proj2 (existsb_exists negated names)) by eauto.
  rewrite (proj2 (existsb_exists (fun v => negb (negated v)) names)) by (exists w; rewrite H4; auto). reflexivity.
Qed.
Lemma combine_dset (columns : list string) (dims : list (list Q)) : NoDup columns -> forall acc : dict (list Q), (forall n, In n columns -> ~ In n (dkeys acc)) ->
  fold_left (fun a cv => dset (fst cv) (snd cv) a) (combine columns dims) acc = acc ++ combine columns dims.
Proof.
  intros ND. revert dims. induction columns as [|n r IH]; intros dims acc HA; [cbn; rewrite app_nil_r; reflexivity|].
  destruct dims as [|v dims]; [cbn; rewrite app_nil_r; reflexivity|]. inversion ND as [|? ? Hn ND']; subst. cbn [combine fold_left fst snd].
  rewrite dset_new by (apply HA; left; reflexivity). rewrite IH; [rewrite <- app_assoc; reflexivity|exact ND'|].
  intros m Hm HI. unfold dkeys in HI. rewrite map_app in HI. apply in_app_or in HI. destruct HI as [HI|[E|[]]]; [apply (HA m); [right; exact Hm|exact HI]|]. cbn in E. subst m. contradiction.
Qed.
Lemma emcee_cols columns dims rows : NoDup columns -> f_cols (emcee_frame columns dims rows) = map (fun kv => (CStr (fst kv), map Fin (snd kv))) (combine columns dims).
Proof. intros ND. unfold emcee_frame. cbn [f_cols]. rewrite combine_dset by (try exact ND; intros; intros []). reflexivity. Qed.
Lemma emcee_wf columns dims rows : NoDup columns -> (forall v, In v dims -> length v = rows) -> columns <> [] -> dims <> [] ->
  frame_wf (emcee_frame columns dims rows) /\ f_index (emcee_frame columns dims rows) = default_index rows.
Proof.
  intros ND HL N1 N2.
  assert (EI : f_index (emcee_frame columns dims rows) = default_index rows).
  { unfold emcee_frame. cbn [f_index]. rewrite combine_dset by (try exact ND; intros; intros []). destruct columns; [contradiction|]. destruct dims; [contradiction|]. reflexivity. }
  split; [|exact EI]. split.
  - rewrite emcee_cols by exact ND. rewrite map_map. cbn. rewrite <- (map_map fst CStr). apply Injective_map_NoDup; [intros x y E; injection E; auto|].
    clear -ND. revert dims. induction columns as [|n r IH]; intros dims; [constructor|]. destruct dims as [|v dims]; [constructor|]. inversion ND as [|? ? Hn ND']; subst. cbn. constructor; [|apply IH; exact ND'].
    intros HI. apply Hn. apply in_map_iff in HI. destruct HI as [[a b] [<- HI]]. apply in_combine_l in HI. exact HI.
  - intros c l HI. rewrite EI. rewrite emcee_cols in HI by exact ND. apply in_map_iff in HI. destruct HI as [[n v] [E HI]]. cbn in E. injection E as _ <-.
    rewrite map_length. unfold default_index. rewrite map_length, seq_length. apply HL. apply in_combine_r in HI. exact HI.
Qed.
Lemma nth_combine {A B} : forall (a : list A) (b : list B) i x y, nth_error a i = Some x -> nth_error b i = Some y -> nth_error (combine a b) i = Some (x, y).
Proof. induction a as [|u a IH]; intros [|v b] [|i] x y; cbn; try discriminate; intros H1 H2; [congruence|]. apply IH; assumption. Qed.
