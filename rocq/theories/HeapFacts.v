(** Facts about the heap and about settings. *)
From Coq Require Import String List Bool Arith ZArith QArith Eqdep_dec Lia.
From Verif Require Import Py ColorModel MarginalModel FrameModel ConfigModel ChainModel RegistryModel RegistrySpec.
Import ListNotations.
Open Scope list_scope.

Lemma list_update_length {A} (l : list A) i x : length (list_update l i x) = length l.
Proof. revert i. induction l as [|y l IH]; intros [|i]; cbn; auto. Qed.
Lemma list_update_same {A} (l : list A) i x : (i < length l)%nat -> nth_error (list_update l i x) i = Some x.
Proof. revert i. induction l as [|y l IH]; intros [|i] H; cbn in *; try lia; [reflexivity|]. apply IH; lia. Qed.
Lemma list_update_other {A} (l : list A) i j x : i <> j -> nth_error (list_update l i x) j = nth_error l j.
Proof. revert i j. induction l as [|y l IH]; intros [|i] [|j] H; cbn; try reflexivity; try congruence. apply IH; congruence. Qed.
Lemma nth_error_app_l {A} (l r : list A) i x : nth_error l i = Some x -> nth_error (l ++ r) i = Some x.
Proof. intros H. rewrite nth_error_app1; [exact H|]. apply nth_error_Some. congruence. Qed.

Lemma untouched_refl h : untouched h h.
Proof. split; intros; assumption. Qed.
Lemma untouched_trans h1 h2 h3 : untouched h1 h2 -> untouched h2 h3 -> untouched h1 h3.
Proof. intros [A B] [C D]. split; intros; [apply C, A|apply D, B]; assumption. Qed.

Lemma untouched_alloc_frame h f : untouched h (fst (alloc_frame h f)).
Proof. split; cbn; intros l x H; [apply nth_error_app_l; exact H|exact H]. Qed.
Lemma untouched_alloc_chain h c : untouched h (fst (alloc_chain h c)).
Proof. split; cbn; intros l x H; [exact H|apply nth_error_app_l; exact H]. Qed.

(** Writing at a location that did not exist in [h]. *)
Lemma untouched_write_frame h h' l f : untouched h h' -> (length (h_frames h) <= l)%nat -> untouched h (write_frame h' l f).
Proof.
  intros [A B] Hl. split; cbn; intros k x H; [|apply B; exact H].
  rewrite list_update_other; [apply A; exact H|].
  assert (k < length (h_frames h))%nat by (apply nth_error_Some; congruence). lia.
Qed.
Lemma untouched_write_chain h h' l c : untouched h h' -> (length (h_chains h) <= l)%nat -> untouched h (write_chain h' l c).
Proof.
  intros [A B] Hl. split; cbn; intros k x H; [apply A; exact H|].
  rewrite list_update_other; [apply B; exact H|].
  assert (k < length (h_chains h))%nat by (apply nth_error_Some; congruence). lia.
Qed.
Lemma untouched_len h h' : untouched h h' -> (length (h_frames h) <= length (h_frames h'))%nat /\ (length (h_chains h) <= length (h_chains h'))%nat.
Proof.
  intros [A B]. split.
  - destruct (length (h_frames h)) as [|n] eqn:E; [lia|].
    destruct (nth_error (h_frames h) n) as [f|] eqn:F.
    + apply A in F. assert (n < length (h_frames h'))%nat by (apply nth_error_Some; congruence). lia.
    + apply nth_error_None in F. lia.
  - destruct (length (h_chains h)) as [|n] eqn:E; [lia|].
    destruct (nth_error (h_chains h) n) as [f|] eqn:F.
    + apply B in F. assert (n < length (h_chains h'))%nat by (apply nth_error_Some; congruence). lia.
    + apply nth_error_None in F. lia.
Qed.
Lemma untouched_frame_at h h' l : untouched h h' -> (l < length (h_frames h))%nat -> frame_at h' l = frame_at h l.
Proof.
  intros [A _] Hl. unfold frame_at. destruct (nth_error (h_frames h) l) as [f|] eqn:E.
  - rewrite (nth_error_nth _ _ no_frame E). apply A in E. apply (nth_error_nth _ _ no_frame E).
  - apply nth_error_None in E. lia.
Qed.

(** Settings. *)
Lemma cset_same c f v : cset c f v f = v.
Proof.
  unfold cset. destruct (cfield_eq_dec f f) as [e|n]; [|congruence].
  rewrite (UIP_dec cfield_eq_dec e eq_refl). reflexivity.
Qed.
Lemma cset_other c f v g : f <> g -> cset c f v g = c g.
Proof. unfold cset. intros H. destruct (cfield_eq_dec f g); [congruence|reflexivity]. Qed.

Lemma apply_settings_notin l : forall c g, (forall s, In s l -> projT1 s <> g) -> apply_settings l c g = c g.
Proof.
  induction l as [|s l IH]; intros c g H; [reflexivity|]. cbn. unfold apply_settings in *.
  rewrite IH by (intros t Ht; apply H; right; exact Ht).
  unfold set_one. apply cset_other. apply H. left. reflexivity.
Qed.
Lemma apply_settings_in l : forall c f v, NoDup (map (@projT1 _ _) l) -> In (existT ctype f v) l -> apply_settings l c f = v.
Proof.
  induction l as [|s l IH]; intros c f v ND H; [destruct H|]. cbn. inversion ND as [|? ? Hn ND']; subst.
  destruct H as [->|H].
  - fold (apply_settings l (set_one c (existT ctype f v))). rewrite apply_settings_notin.
    + unfold set_one. cbn. apply cset_same.
    + intros t Ht E. apply Hn. cbn. rewrite <- E. apply in_map. exact Ht.
  - apply (IH (set_one c s)); assumption.
Qed.
Lemma apply_user_in user l : forall c f v, NoDup (map (@projT1 _ _) l) -> In (existT ctype f v) l ->
  apply_if_not_user_set user l c f = if user f then c f else v.
Proof.
  induction l as [|s l IH]; intros c f v ND H; [destruct H|]. inversion ND as [|? ? Hn ND']; subst.
  assert (G : forall c', (forall t, In t l -> projT1 t <> f) -> apply_if_not_user_set user l c' f = c' f).
  { clear. induction l as [|t l IH]; intros c' H; [reflexivity|]. cbn.
    unfold apply_if_not_user_set in *. rewrite IH by (intros; apply H; right; assumption).
    destruct (user (projT1 t)); [reflexivity|]. unfold set_one. apply cset_other, H. left; reflexivity. }
  destruct H as [->|H].
  - unfold apply_if_not_user_set in *. cbn. rewrite G.
    + destruct (user f); [reflexivity|]. unfold set_one. cbn. apply cset_same.
    + intros t Ht E. apply Hn. cbn. rewrite <- E. apply in_map. exact Ht.
  - unfold apply_if_not_user_set in *. cbn [fold_left]. rewrite (IH _ f v ND' H).
    destruct (user f) eqn:U; [|reflexivity].
    destruct (user (projT1 s)) eqn:U2; [reflexivity|]. unfold set_one. apply cset_other. intros E. assert (user (projT1 s) = user f) by (f_equal; exact E). congruence.
Qed.
Lemma apply_user_notin user l : forall c f, (forall t, In t l -> projT1 t <> f) -> apply_if_not_user_set user l c f = c f.
Proof.
  induction l as [|t l IH]; intros c' f H; [reflexivity|]. cbn.
  unfold apply_if_not_user_set in *. rewrite IH by (intros; apply H; right; assumption).
  destruct (user (projT1 t)); [reflexivity|]. unfold set_one. apply cset_other, H. left; reflexivity.
Qed.

Lemma all_fields_all f : In f all_fields.
Proof. destruct f; cbn; tauto. Qed.
Lemma all_fields_nodup : NoDup all_fields.
Proof. unfold all_fields. repeat (constructor; [cbn; intuition discriminate|]). constructor. Qed.

Lemma dump_spec o c f : apply_settings (user_specified_dump o) c f = if o_user o f then o_cfg o f else c f.
Proof.
  unfold user_specified_dump. destruct (o_user o f) eqn:U.
  - apply apply_settings_in.
    + assert (E : forall L, map (@projT1 _ _) (map (fun f => existT ctype f (o_cfg o f)) L) = L)
        by (induction L as [|x L IH]; [reflexivity|cbn [map projT1]; f_equal; exact IH]).
      rewrite E. apply NoDup_filter, all_fields_nodup.
    + apply in_map_iff. exists f. split; [reflexivity|]. apply filter_In. split; [apply all_fields_all|exact U].
  - apply apply_settings_notin. intros s Hs. apply in_map_iff in Hs. destruct Hs as [g [<- Hg]]. cbn [projT1].
    apply filter_In in Hg. destruct Hg as [_ Hg]. congruence.
Qed.

(** Constructing a chain. *)
Lemma validate_untouched h0 h c : untouched h0 h -> (length (h_frames h0) <= ch_samples c)%nat ->
  untouched h0 (fst (validate_model h c)).
Proof.
  intros U L. unfold validate_model.
  set (f := frame_at h (ch_samples c)).
  destruct (f_empty f); [exact U|]. cbv zeta.
  destruct (negb (f_has f (ch_weight c)) && _); [exact U|].
  destruct (f_has f (ch_weight c) && _); [exact U|].
  set (f1 := if f_has f (ch_weight c) then f else _).
  assert (U1 : untouched h0 (write_frame h (ch_samples c) f1)) by (apply untouched_write_frame; assumption).
  destruct (negb (forallb _ (f_cols f1))); [exact U1|].
  destruct (if ch_cfg c Fshift_params then _ else _) as [f2|e]; [|exact U1].
  assert (U2 : untouched h0 (write_frame (write_frame h (ch_samples c) f1) (ch_samples c) f2)) by (apply untouched_write_frame; assumption).
  repeat match goal with |- untouched _ (fst (if ?b then _ else _)) => destruct b; [exact U2|] end.
  exact U2.
Qed.

Lemma new_chain_untouched rgb h a : untouched h (fst (new_chain rgb h a)).
Proof.
  unfold new_chain. destruct (match a_cfg a Fcolor with Some _ => _ | None => _ end) as [color|e]; [|apply untouched_refl].
  destruct (alloc_frame h (frame_at h (a_samples a))) as [h1 l] eqn:EA.
  assert (U1 : untouched h h1) by (change h1 with (fst (h1, l)); rewrite <- EA; apply untouched_alloc_frame).
  assert (El : l = length (h_frames h)) by (injection EA as <- <-; reflexivity).
  set (c := build color a l). destruct (negb (field_ranges c)); [exact U1|].
  pose proof (validate_untouched h h1 c U1 ltac:(cbn; lia)) as U2.
  destruct (validate_model h1 c) as [h2 [c1|e]]; [|exact U2].
  destruct (alloc_chain h2 c1) as [h3 lc] eqn:EC. cbn in U2.
  apply (untouched_trans _ h2); [exact U2|]. change (fst (h3, Ok lc)) with (fst (h3, lc)). rewrite <- EC. apply untouched_alloc_chain.
Qed.

Lemma new_chain_loc rgb h a h' l : new_chain rgb h a = (h', Ok l) ->
  exists c, l = length (h_chains h) /\ h_chains h' = h_chains h ++ [c] /\ ch_name c = a_name a.
Proof.
  unfold new_chain. destruct (match a_cfg a Fcolor with Some _ => _ | None => _ end) as [color|e]; [|discriminate].
  destruct (alloc_frame h (frame_at h (a_samples a))) as [h1 l1] eqn:EA. injection EA as <- <-.
  set (c := build color a (length (h_frames h))). destruct (negb (field_ranges c)); [discriminate|].
  set (h1 := {| h_frames := h_frames h ++ [frame_at h (a_samples a)]; h_chains := h_chains h |}).
  assert (G : forall h2 c1, validate_model h1 c = (h2, Ok c1) -> h_chains h2 = h_chains h /\ ch_name c1 = a_name a).
  { intros h2 c1. unfold validate_model.
    set (f := frame_at h1 (ch_samples c)).
    destruct (f_empty f); [discriminate|]. cbv zeta.
    destruct (negb (f_has f (ch_weight c)) && _); [discriminate|].
    destruct (f_has f (ch_weight c) && _); [discriminate|].
    set (f1 := if f_has f (ch_weight c) then f else _).
    destruct (negb (forallb _ (f_cols f1))); [discriminate|].
    destruct (if ch_cfg c Fshift_params then _ else _) as [f2|e]; [|discriminate].
    destruct (negb _) eqn:E1; [discriminate|]. clear E1.
    destruct (match ch_cfg c Fcolor_param with Some _ => _ | None => _ end); [discriminate|].
    destruct (match ch_ndata c with Some _ => _ | None => _ end); [discriminate|].
    destruct (_ && _) eqn:E2; [discriminate|]. clear E2.
    intros H. injection H as <- <-. split; reflexivity. }
  destruct (validate_model h1 c) as [h2 [c1|e]] eqn:EV; [|discriminate].
  destruct (G _ _ eq_refl) as [G1 G2]. cbn. intros H. injection H as <- <-. cbn.
  exists c1. rewrite G1. repeat split. exact G2.
Qed.

Lemma divide_loop_untouched rgb c size : forall n h i, untouched h (fst (divide_loop rgb h c size i n)).
Proof.
  induction n as [|n IH]; intros h i; cbn [divide_loop]; [apply untouched_refl|].
  set (fr := f_slice _ _ _).
  destruct (alloc_frame h fr) as [h1 lf] eqn:EA.
  assert (U1 : untouched h h1) by (change h1 with (fst (h1, lf)); rewrite <- EA; apply untouched_alloc_frame).
  match goal with |- context [new_chain rgb h1 ?a] => set (args := a) end.
  pose proof (new_chain_untouched rgb h1 args) as U2.
  destruct (new_chain rgb h1 args) as [h2 [l|e]]; cbn in U2; [|apply (untouched_trans _ h1); assumption].
  pose proof (IH h2 (S i)) as U3. destruct (divide_loop rgb h2 c size (S i) n) as [h3 [ls|e]]; cbn in *;
    apply (untouched_trans _ h1); try assumption; apply (untouched_trans _ h2); assumption.
Qed.
Lemma divide_untouched rgb h c : untouched h (fst (divide rgb h c)).
Proof.
  unfold divide. destruct (negb _); [apply untouched_refl|]. destruct (ch_grid c); [apply untouched_refl|].
  destruct (negb _); [apply untouched_refl|]. apply divide_loop_untouched.
Qed.

(** Resolution. *)
Lemma copy_chains_spec : forall d h h' d', copy_chains h d = (h', d') ->
  (forall n l, In (n, l) d -> exists c, chain_at h l = Some c) ->
  exists cs, h_chains h' = h_chains h ++ cs /\ h_frames h' = h_frames h /\ length cs = length d /\ length d' = length d /\
  forall i n l, nth_error d i = Some (n, l) ->
    nth_error d' i = Some (n, (length (h_chains h) + i)%nat) /\ nth_error cs i = chain_at h l.
Proof.
  induction d as [|[n l] d IH]; intros h h' d' H Hl; cbn [copy_chains] in H.
  - injection H as <- <-. exists []. rewrite app_nil_r. do 4 (split; [reflexivity|]). intros [|i] n l Hi; discriminate.
  - destruct (Hl n l (or_introl eq_refl)) as [c Hc]. rewrite Hc in H.
    destruct (alloc_chain h c) as [h1 l1] eqn:EA. injection EA as <- <-.
    destruct (copy_chains {| h_frames := h_frames h; h_chains := h_chains h ++ [c] |} d) as [h2 r2] eqn:ER.
    injection H as <- <-.
    destruct (IH _ _ _ ER) as [cs [I1 [I2 [I3 [I5 I4]]]]].
    { intros m k Hm. destruct (Hl m k (or_intror Hm)) as [x Hx]. exists x. unfold chain_at in *. cbn.
      apply nth_error_app_l. exact Hx. }
    cbn in I1, I2, I4. exists (c :: cs). split; [rewrite I1, <- app_assoc; reflexivity|]. split; [exact I2|].
    split; [cbn; congruence|]. split; [cbn; congruence|]. intros [|i] m k Hi; cbn in Hi.
    + injection Hi as <- <-. cbn. rewrite Nat.add_0_r. split; [reflexivity|symmetry; exact Hc].
    + destruct (I4 i m k Hi) as [J1 J2]. cbn [nth_error]. rewrite J1, J2. split.
      * f_equal. f_equal. rewrite app_length. cbn. lia.
      * unfold chain_at. cbn. destruct (Hl m k) as [x Hx]; [right; apply (nth_error_In _ _ Hi)|].
        unfold chain_at in Hx. rewrite Hx. apply nth_error_app_l. exact Hx.
Qed.

Lemma resolve_untouched h0 num ov : forall d h colors, untouched h0 h ->
  (forall n l, In (n, l) d -> (length (h_chains h0) <= l)%nat) ->
  untouched h0 (fst (resolve_loop h num ov colors d)).
Proof.
  induction d as [|[n l] d IH]; intros h colors U Hl; cbn [resolve_loop]; [exact U|].
  destruct (chain_at h l) as [c|]; [|exact U]. cbv zeta.
  destruct (match ch_cfg c Fcolor with Some _ => _ | None => _ end) as [[local colors']|e]; [|exact U].
  apply IH.
  - apply untouched_write_chain; [exact U|]. apply (Hl n). left. reflexivity.
  - intros m k H. apply (Hl m). right. exact H.
Qed.
Lemma copy_untouched : forall d h, untouched h (fst (copy_chains h d)) /\
  forall n l, In (n, l) (snd (copy_chains h d)) -> (length (h_chains h) <= l)%nat.
Proof.
  induction d as [|[n l] d IH]; intros h; cbn [copy_chains].
  - split; [apply untouched_refl|]. intros n l [].
  - destruct (chain_at h l) as [c|]; [|apply IH].
    destruct (alloc_chain h c) as [h1 l1] eqn:EA.
    assert (U1 : untouched h h1) by (change h1 with (fst (h1, l1)); rewrite <- EA; apply untouched_alloc_chain).
    injection EA as <- <-.
    destruct (IH {| h_frames := h_frames h; h_chains := h_chains h ++ [c] |}) as [U2 L2].
    destruct (copy_chains _ d) as [h2 r2]. cbn [fst snd] in *. split.
    + apply (untouched_trans _ _ _ U1 U2).
    + intros m k [H|H]; [injection H as <- <-; lia|]. apply L2 in H. cbn in H. rewrite app_length in H. lia.
Qed.
Lemma final_untouched w : untouched (fst w) (fst (fst (get_final_chains w))) /\ snd (fst (get_final_chains w)) = snd w.
Proof.
  destruct w as [h k]. unfold get_final_chains.
  destruct (copy_untouched (k_chains k) h) as [U1 L1].
  destruct (copy_chains h (k_chains k)) as [h1 finals]. cbn [fst snd] in *.
  pose proof (resolve_untouched h (num_contour_chains h (k_chains k)) (k_override k) finals h1 next_colour U1 L1) as U2.
  destruct (resolve_loop _ _ _ _ _) as [h2 [u|e]]; cbn in *; split; auto.
Qed.
