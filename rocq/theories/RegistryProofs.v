(** Proofs about the registry and the resolution of final chains. *)
From Coq Require Import String List Bool Arith ZArith QArith Lia.
From Verif Require Import Py ColorModel MarginalModel FrameModel ConfigModel ChainModel RegistryModel RegistrySpec HeapFacts.
Import ListNotations.
Open Scope list_scope.

(** * The log of registry events *)
Lemma last_about_nil n i e : ~ last_about [] n i e.
Proof. intros [H _]. destruct i; discriminate. Qed.
Definition about_dec n e : {about n e} + {~ about n e}.
Proof. destruct e as [m l|m]; cbn; apply string_dec. Defined.
Lemma last_about_snoc log e n i e' :
  last_about (log ++ [e]) n i e' <->
  (about n e /\ i = length log /\ e' = e) \/ (~ about n e /\ last_about log n i e').
Proof.
  assert (HE : nth_error (log ++ [e]) (length log) = Some e).
  { rewrite nth_error_app2 by lia. rewrite Nat.sub_diag. reflexivity. }
  split.
  - intros [H1 [H2 H3]].
    assert (Hi : (i < length (log ++ [e]))%nat) by (apply nth_error_Some; congruence).
    rewrite app_length in Hi. cbn in Hi.
    destruct (Nat.eq_dec i (length log)) as [->|N].
    + left. rewrite HE in H1. injection H1 as <-. auto.
    + right. split.
      * apply (H3 (length log)); [lia|exact HE].
      * rewrite nth_error_app1 in H1 by lia. split; [exact H1|]. split; [exact H2|].
        intros j x Hj Hx. apply (H3 j); [exact Hj|]. apply nth_error_app_l. exact Hx.
  - intros [[H1 [-> ->]]|[H1 [H2 [H3 H4]]]].
    + split; [exact HE|]. split; [exact H1|]. intros j x Hj Hx.
      assert (j < length (log ++ [e]))%nat by (apply nth_error_Some; congruence). rewrite app_length in *. cbn in *. lia.
    + split; [apply nth_error_app_l; exact H2|]. split; [exact H3|]. intros j x Hj Hx.
      destruct (Nat.lt_ge_cases j (length log)) as [L|L].
      * rewrite nth_error_app1 in Hx by exact L. apply (H4 j); assumption.
      * assert (j < length (log ++ [e]))%nat by (apply nth_error_Some; congruence). rewrite app_length in *. cbn in *.
        assert (j = length log) by lia. subst j. rewrite HE in Hx. injection Hx as <-. exact H1.
Qed.
Lemma last_about_lt log n i e : last_about log n i e -> (i < length log)%nat.
Proof. intros [H _]. apply nth_error_Some. congruence. Qed.

Record reg_ok (d : dict nat) (log : list event) : Prop := {
  rk_nodup : NoDup (dkeys d);
  rk_get : forall n l, dget n d = Some l <-> exists i, last_about log n i (Added n l);
  rk_order : forall p q n m i j l l', (p < q)%nat -> nth_error (dkeys d) p = Some n -> nth_error (dkeys d) q = Some m ->
     last_about log n i (Added n l) -> last_about log m j (Added m l') -> (i < j)%nat }.

Lemma reg_ok_empty : reg_ok [] [].
Proof.
  split; [constructor| |].
  - intros n l. cbn. split; [discriminate|]. intros [i H]. destruct (last_about_nil _ _ _ H).
  - intros p q n m i j l l' _ H. destruct p; discriminate.
Qed.
Lemma reg_ok_add d log n l : reg_ok d log -> ~ In n (dkeys d) -> reg_ok (dset n l d) (log ++ [Added n l]).
Proof.
  intros [R1 R2 R3] Hn. split.
  - apply nodup_dset; exact R1.
  - intros m k. destruct (string_dec n m) as [<-|N].
    + rewrite dget_dset_same. split.
      * intros H. injection H as <-. exists (length log). apply last_about_snoc. left. cbn. auto.
      * intros [i H]. apply last_about_snoc in H. destruct H as [[_ [_ H]]|[H _]]; [injection H as ->; reflexivity|].
        destruct H. reflexivity.
    + rewrite dget_dset_other by exact N. rewrite R2. split; intros [i H]; exists i.
      * apply last_about_snoc. right. split; [cbn; congruence|exact H].
      * apply last_about_snoc in H. destruct H as [[H _]|[_ H]]; [cbn in H; congruence|exact H].
  - intros p q a b i j la lb Hpq Ha Hb H1 H2. rewrite dkeys_dset_new in Ha, Hb by exact Hn.
    assert (Lq : (q < length (dkeys d ++ [n]))%nat) by (apply nth_error_Some; congruence).
    rewrite app_length in Lq. cbn in Lq.
    rewrite nth_error_app1 in Ha by lia.
    assert (Na : a <> n) by (intros ->; apply Hn; apply (nth_error_In _ _ Ha)).
    apply last_about_snoc in H1. destruct H1 as [[H1 _]|[_ H1]]; [cbn in H1; congruence|].
    apply last_about_snoc in H2. destruct H2 as [[H2 [-> _]]|[Hx H2]].
    + apply (last_about_lt _ _ _ _ H1).
    + destruct (Nat.eq_dec q (length (dkeys d))) as [->|Nq].
      * rewrite nth_error_app2 in Hb by lia. rewrite Nat.sub_diag in Hb. cbn in Hb. injection Hb as <-. cbn in Hx. congruence.
      * rewrite nth_error_app1 in Hb by lia. apply (R3 p q a b i j la lb); assumption.
Qed.
Lemma dpop_order {A} k (d : dict A) : forall p q n m, (p < q)%nat ->
  nth_error (dkeys (dpop k d)) p = Some n -> nth_error (dkeys (dpop k d)) q = Some m ->
  exists p' q', (p' < q')%nat /\ nth_error (dkeys d) p' = Some n /\ nth_error (dkeys d) q' = Some m.
Proof.
  induction d as [|[k' v] d IH]; intros p q n m Hpq Hp Hq; cbn in *; [destruct p; discriminate|].
  destruct (String.eqb k k').
  - exists (S p), (S q). cbn. repeat split; [lia|exact Hp|exact Hq].
  - destruct q as [|q]; [lia|]. cbn in Hq. destruct p as [|p]; cbn in Hp.
    + injection Hp as <-. assert (HI : In m (dkeys d)).
      { apply nth_error_In in Hq. revert Hq. clear. induction d as [|[a v] d IH]; cbn; [tauto|].
        destruct (String.eqb k a); cbn; [tauto|]. intros [->|H]; [left; reflexivity|right; apply IH; exact H]. }
      apply In_nth_error in HI. destruct HI as [q' Hq']. exists 0%nat, (S q'). cbn. repeat split; [lia|exact Hq'].
    + destruct (IH p q n m ltac:(lia) Hp Hq) as [p' [q' [A1 [A2 A3]]]]. exists (S p'), (S q'). cbn. repeat split; [lia|exact A2|exact A3].
Qed.
Lemma reg_ok_remove d log n : reg_ok d log -> reg_ok (dpop n d) (log ++ [Removed n]).
Proof.
  intros [R1 R2 R3]. split.
  - apply nodup_dpop; exact R1.
  - intros m k. destruct (string_dec n m) as [<-|N].
    + rewrite dget_dpop_same by exact R1. split; [discriminate|]. intros [i H].
      apply last_about_snoc in H. destruct H as [[_ [_ H]]|[H _]]; [discriminate|]. destruct H. reflexivity.
    + rewrite dget_dpop_other by exact N. rewrite R2. split; intros [i H]; exists i.
      * apply last_about_snoc. right. split; [cbn; congruence|exact H].
      * apply last_about_snoc in H. destruct H as [[H _]|[_ H]]; [cbn in H; congruence|exact H].
  - intros p q a b i j la lb Hpq Ha Hb H1 H2.
    apply last_about_snoc in H1, H2. destruct H1 as [[_ [_ H1]]|[_ H1]]; [discriminate|].
    destruct H2 as [[_ [_ H2]]|[_ H2]]; [discriminate|].
    destruct (dpop_order n d p q a b Hpq Ha Hb) as [p' [q' [A1 [A2 A3]]]].
    apply (R3 p' q' a b i j la lb); assumption.
Qed.

(** * Worlds *)
Definition world_ok (w : world) : Prop :=
  NoDup (dkeys (k_chains (snd w))) /\
  forall n l, In (n, l) (k_chains (snd w)) -> exists c, chain_at (fst w) l = Some c /\ ch_name c = n.

Lemma world_ok_heap h h' k : untouched h h' -> world_ok (h, k) -> world_ok (h', k).
Proof.
  intros [_ U] [A B]. split; [exact A|]. intros n l H. destruct (B n l H) as [c [C1 C2]]. exists c. split; [apply U; exact C1|exact C2].
Qed.

Lemma sanitise_world w req b : untouched (fst w) (fst (fst (sanitise_chains w req b))) /\ snd (fst (sanitise_chains w req b)) = snd w.
Proof.
  unfold sanitise_chains. pose proof (final_untouched w) as U. destruct (get_final_chains w) as [w1 [finals|e]]; exact U.
Qed.

Lemma add_chain_spec w l w' : add_chain w l = (w', Ok tt) -> exists c, chain_at (fst w) l = Some c /\
  ~ In (ch_name c) (dkeys (k_chains (snd w))) /\ fst w' = fst w /\ k_override (snd w') = k_override (snd w) /\
  k_chains (snd w') = dset (ch_name c) l (k_chains (snd w)).
Proof.
  destruct w as [h k]. unfold add_chain. cbn. destruct (chain_at h l) as [c|] eqn:E; [|discriminate].
  destruct (dmem (ch_name c) (k_chains k)) eqn:D; [discriminate|]. intros H. injection H as <-. exists c. cbn.
  split; [reflexivity|]. split; [|auto]. intros HI. apply dmem_In in HI. congruence.
Qed.
Lemma add_chain_err w l w' e : add_chain w l = (w', Err e) -> w' = w.
Proof.
  destruct w as [h k]. unfold add_chain. destruct (chain_at h l); [|intros H; injection H; auto].
  destruct (dmem _ _); [intros H; injection H; auto|discriminate].
Qed.
Lemma in_dset {A} k v (d : dict A) n l : In (n, l) (dset k v d) -> (n = k /\ l = v) \/ In (n, l) d.
Proof.
  induction d as [|[k' v'] d IH]; cbn.
  - intros [H|[]]. injection H as -> ->. left. auto.
  - destruct (String.eqb_spec k k') as [->|N]; cbn.
    + intros [H|H]; [injection H as -> ->; left; auto|right; right; exact H].
    + intros [H|H]; [right; left; exact H|]. destruct (IH H) as [H'|H']; [left; exact H'|right; right; exact H'].
Qed.
Lemma in_dpop {A} k (d : dict A) n l : In (n, l) (dpop k d) -> In (n, l) d.
Proof.
  induction d as [|[k' v'] d IH]; cbn; [tauto|]. destruct (String.eqb k k'); cbn; [tauto|].
  intros [H|H]; [left; exact H|right; apply IH; exact H].
Qed.

(** The effect of one call on the registry and the heap. *)
Lemma step_effect rgb w o w' r : step rgb w o = (w', r) -> world_ok w ->
  world_ok w' /\ untouched (fst w) (fst w') /\
  match r with
  | Err _ => snd w' = snd w
  | Ok [] => k_chains (snd w') = k_chains (snd w)
  | Ok [Added n l] => ~ In n (get_names w) /\ k_chains (snd w') = dset n l (k_chains (snd w)) /\
                      (exists c, chain_at (fst w') l = Some c /\ ch_name c = n)
  | Ok [Removed n] => In n (get_names w) /\ k_chains (snd w') = dpop n (k_chains (snd w))
  | Ok _ => False
  end.
Proof.
  intros H W. destruct o as [a|l|l|loc name color size style al extra|n|l|ov|req b]; cbn [step] in H.
  - pose proof (new_chain_untouched rgb (fst w) a) as U. destruct (new_chain rgb (fst w) a) as [h [x|e]]; cbn in *;
      injection H as <- <-; cbn; (split; [destruct w as [h0 k]; cbn in *; apply (world_ok_heap h0); assumption|split; [exact U|reflexivity]]).
  - destruct (chain_at (fst w) l) as [c|]; [|injection H as <- <-; split; [exact W|split; [apply untouched_refl|reflexivity]]].
    pose proof (divide_untouched rgb (fst w) c) as U. destruct (divide rgb (fst w) c) as [h [x|e]]; cbn in *;
      injection H as <- <-; cbn; (split; [destruct w as [h0 k]; cbn in *; apply (world_ok_heap h0); assumption|split; [exact U|reflexivity]]).
  - destruct (add_chain w l) as [w1 [[]|e]] eqn:E; cbn in H; injection H as <- <-.
    + destruct (add_chain_spec _ _ _ E) as [c [C1 [C2 [C3 [C4 C5]]]]]. rewrite C1. cbn.
      assert (HC : exists c0, chain_at (fst w1) l = Some c0 /\ ch_name c0 = ch_name c) by (exists c; rewrite C3; auto).
      split; [|split; [rewrite C3; apply untouched_refl|auto]].
      destruct W as [W1 W2]. split; [rewrite C5; apply nodup_dset; exact W1|].
      intros m k Hm. rewrite C5 in Hm. apply in_dset in Hm. destruct Hm as [[-> ->]|Hm]; [exact HC|]. rewrite C3. apply W2; exact Hm.
    + rewrite (add_chain_err _ _ _ _ E). split; [exact W|split; [apply untouched_refl|reflexivity]].
  - destruct w as [h k]. unfold add_marker in H.
    destruct (match extra Fplot_contour with Some _ => _ | None => _ end).
    { cbn in H. injection H as <- <-. split; [exact W|split; [apply untouched_refl|reflexivity]]. }
    destruct (alloc_frame h (marker_frame loc)) as [h1 lf] eqn:EA.
    assert (U1 : untouched h h1) by (change h1 with (fst (h1, lf)); rewrite <- EA; apply untouched_alloc_frame).
    match goal with H : context [new_chain rgb h1 ?a] |- _ => set (args := a) in H end.
    pose proof (new_chain_untouched rgb h1 args) as U2.
    destruct (new_chain rgb h1 args) as [h2 [l|e]] eqn:EN; cbn [fst] in U2.
    + destruct (new_chain_loc _ _ _ _ _ EN) as [c [L1 [L2 L3]]].
      assert (El : l = length (h_chains h)) by (rewrite L1; injection EA as <- <-; reflexivity).
      assert (W2 : world_ok (h2, k)) by (apply (world_ok_heap h); [apply (untouched_trans _ h1); assumption|exact W]).
      destruct (add_chain (h2, k) l) as [w1 [[]|e]] eqn:E; cbn in H; injection H as <- <-.
      * destruct (add_chain_spec _ _ _ E) as [c0 [C1 [C2 [C3 [C4 C5]]]]]. cbn in C1, C2, C3, C5.
        assert (c0 = c).
        { unfold chain_at in C1. rewrite L2, L1, nth_error_app2, Nat.sub_diag in C1 by lia. cbn in C1. congruence. }
        subst c0. cbn in L3. rewrite L3 in *. rewrite <- El.
        assert (HC : exists c0, chain_at (fst w1) l = Some c0 /\ ch_name c0 = name) by (exists c; rewrite C3; auto).
        split; [|split; [cbn; rewrite C3; apply (untouched_trans _ h1); assumption|split; [exact C2|split; [exact C5|exact HC]]]].
        destruct W2 as [V1 V2]. split; [rewrite C5; apply nodup_dset; exact V1|].
        intros m q Hm. rewrite C5 in Hm. apply in_dset in Hm. destruct Hm as [[-> ->]|Hm]; [exact HC|]. rewrite C3. apply V2; exact Hm.
      * rewrite (add_chain_err _ _ _ _ E). split; [exact W2|split; [apply (untouched_trans _ h1); assumption|reflexivity]].
    + cbn in H. injection H as <- <-. split; [|split; [apply (untouched_trans _ h1); assumption|reflexivity]].
      apply (world_ok_heap h); [apply (untouched_trans _ h1); assumption|exact W].
  - destruct w as [h k]. cbn in H. destruct (dmem n (k_chains k)) eqn:D; cbn in H; injection H as <- <-.
    + split; [|split; [apply untouched_refl|split; [apply dmem_In; exact D|reflexivity]]].
      destruct W as [W1 W2]. cbn in *. split; [apply nodup_dpop; exact W1|]. intros m q Hm. apply W2, (in_dpop n); exact Hm.
    + split; [exact W|split; [apply untouched_refl|reflexivity]].
  - unfold remove_chain in H. destruct (chain_at (fst w) l) as [c|] eqn:EC;
      [|cbn in H; injection H as <- <-; split; [exact W|split; [apply untouched_refl|reflexivity]]].
    destruct w as [h k]. cbn in H. destruct (dmem (ch_name c) (k_chains k)) eqn:D; cbn in H; injection H as <- <-.
    + split; [|split; [apply untouched_refl|split; [apply dmem_In; exact D|reflexivity]]].
      destruct W as [W1 W2]. cbn in *. split; [apply nodup_dpop; exact W1|]. intros m q Hm. apply W2, (in_dpop (ch_name c)); exact Hm.
    + split; [exact W|split; [apply untouched_refl|reflexivity]].
  - injection H as <- <-. destruct w as [h k]. split; [exact W|split; [apply untouched_refl|reflexivity]].
  - destruct (sanitise_world w req b) as [U S]. destruct (sanitise_chains w req b) as [w1 [x|e]]; cbn in *;
      injection H as <- <-; destruct w as [h k]; destruct w1 as [h1 k1]; cbn in *; subst k1;
      (split; [apply (world_ok_heap h); assumption|split; [exact U|reflexivity]]).
Qed.

Lemma run_inv rgb : forall ops w w' log past, run rgb w ops = (w', log) -> world_ok w -> reg_ok (k_chains (snd w)) past ->
  world_ok w' /\ untouched (fst w) (fst w') /\ reg_ok (k_chains (snd w')) (past ++ log).
Proof.
  induction ops as [|o ops IH]; intros w w' log past H W R; cbn [run] in H.
  - injection H as <- <-. rewrite app_nil_r. split; [exact W|split; [apply untouched_refl|exact R]].
  - destruct (step rgb w o) as [w1 r] eqn:ES. destruct (run rgb w1 ops) as [w2 lg] eqn:ER.
    injection H as <- <-. destruct (step_effect _ _ _ _ _ ES W) as [W1 [U1 EF]].
    assert (G : forall es, r = Ok es -> reg_ok (k_chains (snd w1)) (past ++ es)).
    { intros es ->. destruct es as [|e [|e2 es]]; [rewrite EF, app_nil_r; exact R| |destruct e; destruct EF].
      destruct e as [n l|n]; destruct EF as [E1 E2].
      - destruct E2 as [E2 _]. rewrite E2. apply reg_ok_add; assumption.
      - rewrite E2. apply reg_ok_remove; exact R. }
    destruct r as [es|e].
    + destruct (IH _ _ _ (past ++ es) ER W1 (G es eq_refl)) as [I1 [I2 I3]].
      rewrite app_assoc. split; [exact I1|split; [apply (untouched_trans _ _ _ U1 I2)|exact I3]].
    + destruct (IH _ _ _ past ER W1) as [I1 [I2 I3]]; [rewrite EF; exact R|].
      split; [exact I1|split; [apply (untouched_trans _ _ _ U1 I2)|exact I3]].
Qed.
Lemma world_ok_new h : world_ok (h, new_consumer).
Proof. split; [constructor|intros n l []]. Qed.

(** * Resolution *)
Definition palette : list string :=
  flat_map (fun r => match r with Ok s => [s] | Err _ => [] end) next_colour.
Lemma next_colour_ok : next_colour = map Ok palette.
Proof. vm_compute. reflexivity. Qed.

Definition has_no_colour (h : heap) (nl : string * nat) : bool :=
  match chain_at h (snd nl) with
  | Some c => match ch_cfg c Fcolor with None => true | Some _ => false end
  | None => false
  end.
Lemma uncoloured_eq h d : uncoloured h d = length (filter (has_no_colour h) d).
Proof. reflexivity. Qed.

Lemma global_nodup num sa : NoDup (map (@projT1 _ _) (global_config num sa)).
Proof. cbn. repeat (constructor; [cbn; intuition discriminate|]). constructor. Qed.
Lemma global_nodup_color num sa x : NoDup (map (@projT1 _ _) (global_config num sa ++ [mk Fcolor x])).
Proof. cbn. repeat (constructor; [cbn; intuition discriminate|]). constructor. Qed.

(** The automatic value of each setting. *)
Definition automatic (num : nat) (pal : option string) (c : chain) (f : cfield) : ctype f :=
  match f return ctype f with
  | Fbar_shade => (num <? 5)%nat
  | Fsigmas => [0; 1; 2]
  | Fshade => (num <? 5)%nat
  | Fshade_alpha => if ch_cfg c Fshow_contour_labels then AHalf (AInvSqrt num) else AInvSqrt num
  | Fcolor => match ch_cfg c Fcolor with Some x => Some x | None => pal end
  | g => ch_cfg c g
  end.
Definition resolved (ov : option config_obj) (num : nat) (pal : option string) (c : chain) (f : cfield) : ctype f :=
  let own := if ch_user c f then ch_cfg c f else automatic num pal c f in
  match ov with Some o => if o_user o f then o_cfg o f else own | None => own end.

Ltac in_global := cbn; first [left; reflexivity | right; in_global].
Lemma resolve_cfg c num ov pal f :
  let sa := if ch_cfg c Fshow_contour_labels then AHalf (AInvSqrt num) else AInvSqrt num in
  let local := match ch_cfg c Fcolor with
               | Some _ => global_config num sa
               | None => global_config num sa ++ [mk Fcolor (Some pal)] end in
  let cfg1 := apply_if_not_user_set (ch_user c) local (ch_cfg c) in
  (match ov with Some o => apply_settings (user_specified_dump o) cfg1 | None => cfg1 end) f =
  resolved ov num (Some pal) c f.
Proof.
  cbv zeta. set (sa := if ch_cfg c Fshow_contour_labels then _ else _).
  set (local := match ch_cfg c Fcolor with Some _ => _ | None => _ end).
  assert (G : apply_if_not_user_set (ch_user c) local (ch_cfg c) f = if ch_user c f then ch_cfg c f else automatic num (Some pal) c f).
  { assert (ND : NoDup (map (@projT1 _ _) local)).
    { unfold local. destruct (ch_cfg c Fcolor); [apply global_nodup|apply global_nodup_color]. }
    assert (HG : forall s, In s (global_config num sa) -> In s local).
    { intros s Hs. unfold local. destruct (ch_cfg c Fcolor); [exact Hs|apply in_or_app; left; exact Hs]. }
    assert (HN : forall t, In t local -> projT1 t = Fbar_shade \/ projT1 t = Fsigmas \/ projT1 t = Fshade \/ projT1 t = Fshade_alpha \/ (projT1 t = Fcolor /\ ch_cfg c Fcolor = None)).
    { intros t Ht. unfold local in Ht. destruct (ch_cfg c Fcolor) as [x|].
      - cbn in Ht. repeat (destruct Ht as [<-|Ht]; [cbn; tauto|]). destruct Ht.
      - cbn in Ht. repeat (destruct Ht as [<-|Ht]; [cbn; tauto|]). destruct Ht. }
    destruct f;
      try (rewrite apply_user_notin; [cbn; destruct (ch_user c _); reflexivity|];
           intros t Ht E; specialize (HN t Ht); rewrite E in HN; intuition congruence);
      try (apply apply_user_in; [exact ND|apply HG; in_global]).
    destruct (ch_cfg c Fcolor) as [x|] eqn:EC.
    - rewrite apply_user_notin.
      + cbn. rewrite EC. destruct (ch_user c Fcolor); reflexivity.
      + intros t Ht E. specialize (HN t Ht). rewrite E in HN. intuition congruence.
    - rewrite (apply_user_in _ _ _ Fcolor (Some pal)); [cbn; rewrite EC; reflexivity|exact ND|].
      unfold local. apply in_or_app. right. left. reflexivity. }
  unfold resolved. destruct ov as [o|]; [rewrite dump_spec, G; reflexivity|exact G].
Qed.
Lemma resolve_cfg_set c num ov pal f x : ch_cfg c Fcolor = Some x ->
  resolved ov num (Some pal) c f = resolved ov num None c f.
Proof. intros E. unfold resolved. destruct f; try reflexivity. cbn. rewrite E. reflexivity. Qed.

Lemma write_chain_at h l c l' : (l < length (h_chains h))%nat ->
  chain_at (write_chain h l c) l' = if Nat.eqb l l' then Some c else chain_at h l'.
Proof.
  intros H. unfold chain_at, write_chain. cbn. destruct (Nat.eqb_spec l l') as [<-|N].
  - apply list_update_same; exact H.
  - apply list_update_other; exact N.
Qed.
Lemma filter_ext_in' {A} (p q : A -> bool) l : (forall x, In x l -> p x = q x) -> filter p l = filter q l.
Proof. intros H. apply filter_ext_in. exact H. Qed.

(** The loop either finishes, resolving every chain, or runs out of colours. *)
Lemma resolve_spec num ov : forall d h colors,
  NoDup (map snd d) -> (forall n l, In (n, l) d -> exists c, chain_at h l = Some c) ->
  (uncoloured h d <= length colors)%nat ->
  exists h', resolve_loop h num ov (map Ok colors) d = (h', Ok tt) /\ h_frames h' = h_frames h /\
    (forall l, ~ In l (map snd d) -> chain_at h' l = chain_at h l) /\
    forall i n l c, nth_error d i = Some (n, l) -> chain_at h l = Some c ->
      exists cfg', chain_at h' l = Some (with_cfg c cfg') /\
        forall f, cfg' f = resolved ov num (nth_error colors (uncoloured h (firstn i d))) c f.
Proof.
  induction d as [|[n l] d IH]; intros h colors ND HL HU.
  - exists h. cbn. repeat split; intros; destruct i; discriminate.
  - inversion ND as [|? ? Hn ND']; subst. destruct (HL n l (or_introl eq_refl)) as [c Hc].
    assert (Hlt : (l < length (h_chains h))%nat) by (apply nth_error_Some; unfold chain_at in Hc; congruence).
    cbn [resolve_loop]. rewrite Hc. cbv zeta.
    set (sa := if ch_cfg c Fshow_contour_labels then _ else _).
    rewrite uncoloured_eq in HU. cbn [filter] in HU. unfold has_no_colour in HU at 1. cbn [snd] in HU. rewrite Hc in HU.
    (* the colour handed to this chain and what remains *)
    assert (HX : exists colors' pal, 
      (match ch_cfg c Fcolor with Some _ => Ok (global_config num sa, map Ok colors) | None =>
         match map Ok colors with [] => Err StopIteration | x :: cs => rbind x (fun col => Ok (global_config num sa ++ [mk Fcolor (Some col)], cs)) end end)
      = Ok (match ch_cfg c Fcolor with Some _ => global_config num sa | None => global_config num sa ++ [mk Fcolor (Some pal)] end, map Ok colors')
      /\ (length (filter (has_no_colour h) d) <= length colors')%nat
      /\ (ch_cfg c Fcolor = None -> colors = pal :: colors') /\ (ch_cfg c Fcolor <> None -> colors' = colors)).
    { destruct (ch_cfg c Fcolor) as [x|] eqn:EC.
      - exists colors, "x"%string. repeat split; [exact HU|discriminate].
      - cbn in HU. destruct colors as [|x colors]; [cbn in HU; lia|]. exists colors, x. cbn. repeat split; [cbn in HU; lia|congruence]. }
    destruct HX as [colors' [pal [EX [LX [CX1 CX2]]]]]. rewrite EX.
    set (cfg2 := match ov with Some o => _ | None => _ end).
    assert (Hcfg : forall f, cfg2 f = resolved ov num (Some pal) c f) by (intros f; apply resolve_cfg).
    set (h1 := write_chain h l (with_cfg c cfg2)).
    assert (At1 : forall l', chain_at h1 l' = if Nat.eqb l l' then Some (with_cfg c cfg2) else chain_at h l') by (intros; apply write_chain_at; exact Hlt).
    assert (At2 : forall m k, In (m, k) d -> chain_at h1 k = chain_at h k).
    { intros m k Hk. rewrite At1. destruct (Nat.eqb_spec l k) as [<-|]; [|reflexivity].
      exfalso. apply Hn. apply in_map_iff. exists (m, l). auto. }
    assert (Un : forall d', incl d' d -> uncoloured h1 d' = uncoloured h d').
    { intros d' Hd'. rewrite !uncoloured_eq. f_equal. apply filter_ext_in. intros [m k] Hk. unfold has_no_colour. cbn [snd].
      rewrite (At2 m k (Hd' _ Hk)). reflexivity. }
    destruct (IH h1 colors' ND') as [h' [E1 [E2 [E3 E4]]]].
    { intros m k Hk. rewrite (At2 m k Hk). apply (HL m). right. exact Hk. }
    { rewrite (Un d (incl_refl d)). exact LX. }
    exists h'. split; [exact E1|]. split; [exact E2|]. split.
    + intros k Hk. rewrite E3 by (intros HI; apply Hk; right; exact HI). rewrite At1.
      destruct (Nat.eqb_spec l k) as [<-|]; [|reflexivity]. exfalso. apply Hk. left. reflexivity.
    + intros [|i] m k cc Hi Hcc; cbn in Hi.
      * injection Hi as <- <-. rewrite Hc in Hcc. injection Hcc as <-. exists cfg2. split.
        -- rewrite E3 by exact Hn. rewrite At1, Nat.eqb_refl. reflexivity.
        -- intros f. rewrite Hcfg. cbn [firstn]. change (uncoloured h []) with 0%nat.
           destruct (ch_cfg c Fcolor) as [x|] eqn:EC.
           ++ rewrite (resolve_cfg_set c num ov pal f x EC). destruct colors; [reflexivity|cbn [nth_error]; symmetry; apply (resolve_cfg_set c num ov _ f x EC)].
           ++ rewrite (CX1 eq_refl). reflexivity.
      * assert (HI : In (m, k) d) by (apply (nth_error_In _ _ Hi)).
        destruct (E4 i m k cc Hi) as [cfg' [F1 F2]]; [rewrite (At2 m k HI); exact Hcc|].
        exists cfg'. split; [exact F1|]. intros f. rewrite F2.
        assert (HIn : incl (firstn i d) d) by (intros x Hx; rewrite <- (firstn_skipn i d); apply in_or_app; left; exact Hx).
        rewrite (Un _ HIn). cbn [firstn]. rewrite !uncoloured_eq. cbn [filter]. assert (HH : has_no_colour h (n, l) = match ch_cfg c Fcolor with None => true | Some _ => false end) by (unfold has_no_colour; cbn [snd]; rewrite Hc; reflexivity). rewrite HH.
        destruct (ch_cfg c Fcolor) as [x|] eqn:EC.
        -- rewrite (CX2 ltac:(discriminate)). reflexivity.
        -- rewrite (CX1 eq_refl). reflexivity.
Qed.
Lemma resolve_fails num ov : forall d h colors,
  NoDup (map snd d) -> (forall n l, In (n, l) d -> exists c, chain_at h l = Some c) ->
  (length colors < uncoloured h d)%nat ->
  exists h', resolve_loop h num ov (map Ok colors) d = (h', Err StopIteration).
Proof.
  induction d as [|[n l] d IH]; intros h colors ND HL HU; [cbn in HU; lia|].
  inversion ND as [|? ? Hn ND']; subst. destruct (HL n l (or_introl eq_refl)) as [c Hc].
  assert (Hlt : (l < length (h_chains h))%nat) by (apply nth_error_Some; unfold chain_at in Hc; congruence).
  cbn [resolve_loop]. rewrite Hc. cbv zeta.
  rewrite uncoloured_eq in HU. cbn [filter] in HU. unfold has_no_colour in HU at 1. cbn [snd] in HU. rewrite Hc in HU.
  assert (HA : forall cfg m k, In (m, k) d -> chain_at (write_chain h l (with_cfg c cfg)) k = chain_at h k).
  { intros cfg m k Hk. rewrite write_chain_at by exact Hlt. destruct (Nat.eqb_spec l k) as [<-|]; [|reflexivity].
    exfalso. apply Hn. apply in_map_iff. exists (m, l). auto. }
  assert (HUn : forall cfg, uncoloured (write_chain h l (with_cfg c cfg)) d = uncoloured h d).
  { intros cfg. rewrite !uncoloured_eq. f_equal. apply filter_ext_in. intros [m k] Hk. unfold has_no_colour. cbn [snd].
    rewrite (HA cfg m k Hk). reflexivity. }
  destruct (ch_cfg c Fcolor) as [x|].
  - apply IH; [exact ND'| |rewrite HUn; exact HU].
    intros m k Hk. rewrite (HA _ m k Hk). apply (HL m). right. exact Hk.
  - destruct colors as [|x colors]; cbn [map rbind].
    + exists h. reflexivity.
    + apply IH; [exact ND'| |rewrite HUn; cbn in HU; rewrite uncoloured_eq; lia].
      intros m k Hk. rewrite (HA _ m k Hk). apply (HL m). right. exact Hk.
Qed.

(** Copies keep colours and contour flags, so counts on the copies are counts on the originals. *)
Lemma nodup_seq_snd (d' : dict nat) b : (forall i n l, nth_error d' i = Some (n, l) -> l = (b + i)%nat) -> NoDup (map snd d').
Proof.
  intros H. apply NoDup_nth_error. intros i j Hi E. rewrite map_length in Hi.
  destruct (nth_error d' i) as [[n l]|] eqn:E1; [|apply nth_error_None in E1; lia].
  rewrite (map_nth_error snd _ _ E1) in E. cbn in E.
  destruct (nth_error d' j) as [[m k]|] eqn:E2; [|rewrite (proj2 (nth_error_None (map snd d') j)) in E; [discriminate|rewrite map_length; apply nth_error_None; exact E2]].
  rewrite (map_nth_error snd _ _ E2) in E. cbn in E. injection E as ->.
  rewrite (H _ _ _ E1) in *. pose proof (H _ _ _ E2). lia.
Qed.

Lemma final_spec w : world_ok w ->
  exists w' finals, get_final_chains w = (w', if (uncoloured (fst w) (k_chains (snd w)) <=? length palette)%nat then Ok finals else Err StopIteration) /\
   snd w' = snd w /\ length finals = length (k_chains (snd w)) /\
   ((uncoloured (fst w) (k_chains (snd w)) <= length palette)%nat ->
    forall i n l c, nth_error (k_chains (snd w)) i = Some (n, l) -> chain_at (fst w) l = Some c ->
      exists l' cfg', nth_error finals i = Some (n, l') /\ (length (h_chains (fst w)) <= l')%nat /\
        chain_at (fst w') l' = Some (with_cfg c cfg') /\
        forall f, cfg' f = resolved (k_override (snd w)) (num_contour_chains (fst w) (k_chains (snd w)))
                             (nth_error palette (uncoloured (fst w) (firstn i (k_chains (snd w))))) c f).
Proof.
  destruct w as [h k]. intros [W1 W2]. cbn [fst snd] in *. unfold get_final_chains.
  destruct (copy_chains h (k_chains k)) as [h1 finals] eqn:EC.
  destruct (copy_chains_spec _ _ _ _ EC) as [cs [C1 [C2 [C3 [C4 C5]]]]].
  { intros n l H. destruct (W2 n l H) as [c [Hc _]]. exists c. exact Hc. }
  set (d := k_chains k) in *. set (num := num_contour_chains h d).
  assert (HS : forall i n l, nth_error finals i = Some (n, l) -> l = (length (h_chains h) + i)%nat).
  { intros i n l Hi. assert (Hlt : (i < length finals)%nat) by (apply nth_error_Some; congruence).
    destruct (nth_error d i) as [[m k0]|] eqn:E; [|apply nth_error_None in E; lia].
    destruct (C5 _ _ _ E) as [J1 J2]. rewrite J1 in Hi. injection Hi as <- <-. reflexivity. }
  pose proof (nodup_seq_snd finals _ HS) as ND.
  assert (HA : forall i n l, nth_error d i = Some (n, l) -> nth_error finals i = Some (n, (length (h_chains h) + i)%nat) /\ chain_at h1 (length (h_chains h) + i)%nat = chain_at h l).
  { intros i n l Hi. destruct (C5 i n l Hi) as [J1 J2]. split; [exact J1|]. unfold chain_at at 1. rewrite C1, nth_error_app2 by lia.
    replace (length (h_chains h) + i - length (h_chains h))%nat with i by lia. exact J2. }
  assert (HL : forall n l, In (n, l) finals -> exists c, chain_at h1 l = Some c).
  { intros n l Hin. destruct (In_nth_error _ _ Hin) as [i Hi]. assert (Hlt : (i < length finals)%nat) by (apply nth_error_Some; congruence).
    destruct (nth_error d i) as [[m k0]|] eqn:E; [|apply nth_error_None in E; lia].
    destruct (HA _ _ _ E) as [J1 J2]. rewrite J1 in Hi. injection Hi as <- <-. rewrite J2.
    destruct (W2 m k0 (nth_error_In _ _ E)) as [c [Hc _]]. exists c. exact Hc. }
  assert (HUn : forall i, uncoloured h1 (firstn i finals) = uncoloured h (firstn i d)).
  { induction i as [|i IHi]; [reflexivity|].
    destruct (nth_error d i) as [[m k0]|] eqn:E.
    - destruct (HA _ _ _ E) as [J1 J2].
      assert (F1 : firstn (S i) d = firstn i d ++ [(m, k0)]).
      { clear -E. revert i E. induction d as [|x d IH]; intros [|i] E; cbn in *; try discriminate; [congruence|]. f_equal. apply IH; exact E. }
      assert (F2 : firstn (S i) finals = firstn i finals ++ [(m, (length (h_chains h) + i)%nat)]).
      { clear -J1. revert i J1. generalize (length (h_chains h)). intros b i. 
        assert (G : forall x, nth_error finals i = Some x -> firstn (S i) finals = firstn i finals ++ [x]).
        { revert i. induction finals as [|y l IH]; intros [|i] x E; cbn in *; try discriminate; [congruence|]. f_equal. apply IH; exact E. }
        intros E. apply G. exact E. }
      rewrite F1, F2, !uncoloured_eq, !filter_app, !app_length. rewrite !uncoloured_eq in IHi. rewrite IHi. f_equal.
      cbn [filter]. unfold has_no_colour. cbn [snd]. rewrite J2. destruct (match chain_at h k0 with Some _ => _ | None => _ end); reflexivity.
    - apply nth_error_None in E. rewrite !firstn_all2 in IHi |- * by lia. exact IHi. }
  assert (HUt : uncoloured h1 finals = uncoloured h d).
  { pose proof (HUn (length d)) as H. rewrite !firstn_all2 in H by lia. exact H. }
  rewrite next_colour_ok.
  destruct (Nat.leb_spec (uncoloured h d) (length palette)) as [L|L].
  - destruct (resolve_spec num (k_override k) finals h1 palette ND HL ltac:(lia)) as [h' [E1 [E2 [E3 E4]]]].
    rewrite E1. exists (h', k), finals. split; [reflexivity|]. split; [reflexivity|]. split; [exact C4|].
    intros _ i n l c Hi Hc. destruct (HA _ _ _ Hi) as [J1 J2].
    destruct (E4 i n _ c J1) as [cfg' [F1 F2]]; [rewrite J2; exact Hc|].
    exists (length (h_chains h) + i)%nat, cfg'. split; [exact J1|]. split; [lia|]. split; [exact F1|].
    intros f. rewrite F2, HUn. reflexivity.
  - destruct (resolve_fails num (k_override k) finals h1 palette ND HL ltac:(lia)) as [h' E]. rewrite E.
    exists (h', k), finals. split; [reflexivity|]. split; [reflexivity|]. split; [exact C4|]. intros HH. lia.
Qed.

(** * Precedence *)
From Coq Require Import Reals.
Lemma resolved_precedence ov num pal c cfg' : (forall f, cfg' f = resolved ov num pal c f) -> precedence ov num pal c cfg'.
Proof.
  intros H.
  assert (HS : forall f, silent ov f -> cfg' f = if ch_user c f then ch_cfg c f else automatic num pal c f).
  { intros f Hs. rewrite H. unfold resolved. destruct ov as [o|]; [cbn in Hs; rewrite Hs|]; reflexivity. }
  split.
  - intros o f -> Ho. rewrite H. unfold resolved. rewrite Ho. reflexivity.
  - intros f Hs Hu. rewrite (HS f Hs), Hu. reflexivity.
  - intros Hs Hu. rewrite (HS _ Hs), Hu. cbn [automatic]. apply Nat.ltb_lt.
  - intros Hs Hu. rewrite (HS _ Hs), Hu. cbn [automatic]. apply Nat.ltb_lt.
  - intros Hs Hu. rewrite (HS _ Hs), Hu. reflexivity.
  - intros Hs Hu Hn. rewrite (HS _ Hs), Hu. cbn [automatic]. destruct num as [|num]; [lia|].
    destruct (ch_cfg c Fshow_contour_labels); cbn [alpha_value option_map]; f_equal.
    unfold Rdiv. ring.
  - intros col Hs Hc. rewrite (HS _ Hs). cbn [automatic]. rewrite Hc. destruct (ch_user c Fcolor); reflexivity.
  - intros Hs Hu Hc. rewrite (HS _ Hs), Hu. cbn [automatic]. rewrite Hc. reflexivity.
  - intros f Hs Hu Hn. rewrite (HS _ Hs), Hu. destruct f; try reflexivity; exfalso; apply Hn; cbn; tauto.
Qed.

(** * Selection *)
Lemma skip_draws h l c : chain_at h l = Some c -> (skip_at h l = false <-> draws h c).
Proof.
  intros H. unfold skip_at, skip, draws. rewrite H. destruct (f_empty _); cbn; [intuition discriminate|].
  destruct (ch_cfg c Fplot_contour), (ch_cfg c Fplot_cloud), (ch_cfg c Fplot_point); cbn; intuition discriminate.
Qed.
Lemma select_names h finals all : (forall n l, dget n finals = Some l -> exists c, chain_at h l = Some c /\ ch_name c = n) ->
  forall names, 
  match rmapM (fun n => pick h finals (Ok n)) names with
  | Ok ls => (forall n, In n names -> In n (dkeys finals)) /\ selected h finals all names (filter (fun l => all || negb (skip_at h l)) ls)
  | Err e => e = KeyError /\ exists n, In n names /\ ~ In n (dkeys finals)
  end.
Proof.
  intros HF. induction names as [|n names IH]; cbn [rmapM]; [split; [intros n []|constructor]|].
  unfold pick at 1. cbn [rbind]. destruct (dget n finals) as [l|] eqn:E.
  - cbn [rbind]. destruct (rmapM _ names) as [ls|e]; cbn [rbind].
    + destruct IH as [I1 I2]. destruct (HF _ _ E) as [c [C1 C2]]. split.
      * intros m [<-|Hm]; [apply dget_Some_mem; exists l; exact E|apply I1; exact Hm].
      * cbn [filter]. destruct all; cbn [orb] in *.
        -- apply (sel_take _ _ _ _ _ _ _ c); auto.
        -- destruct (skip_at h l) eqn:S; cbn [negb].
           ++ apply (sel_drop _ _ _ _ _ l _ c); auto. intros D. apply (skip_draws _ _ _ C1) in D. congruence.
           ++ apply (sel_take _ _ _ _ _ _ _ c); auto. right. apply (skip_draws _ _ _ C1). exact S.
    + destruct IH as [-> [m [M1 M2]]]. split; [reflexivity|]. exists m. split; [right; exact M1|exact M2].
  - cbn. split; [reflexivity|]. exists n. split; [left; reflexivity|]. apply dget_None. exact E.
Qed.
Lemma rmapM_map {A B C} (f : B -> res C) (g : A -> B) l : rmapM (fun x => f (g x)) l = rmapM f (map g l).
Proof. induction l as [|x l IH]; [reflexivity|]. cbn [rmapM map]. destruct (f (g x)); [|reflexivity]. cbn [rbind]. rewrite IH. reflexivity. Qed.
Lemma rmapM_ext {A B} (f g : A -> res B) l : (forall x, In x l -> f x = g x) -> rmapM f l = rmapM g l.
Proof.
  induction l as [|x l IH]; intros H; [reflexivity|]. cbn [rmapM]. rewrite (H x (or_introl eq_refl)).
  destruct (g x); [|reflexivity]. cbn [rbind]. rewrite IH; [reflexivity|]. intros y Hy. apply H. right. exact Hy.
Qed.
Lemma rmapM_dvalues h (finals : dict nat) : NoDup (dkeys finals) -> rmapM (fun n => pick h finals (Ok n)) (dkeys finals) = Ok (dvalues finals).
Proof.
  intros ND. 
  assert (G : forall d, (forall n l, In (n, l) d -> dget n finals = Some l) -> rmapM (fun n => pick h finals (Ok n)) (dkeys d) = Ok (dvalues d)).
  { induction d as [|[n l] d IH]; intros H; [reflexivity|]. cbn [dkeys dvalues map rmapM fst snd].
    unfold pick at 1. cbn [rbind]. rewrite (H n l (or_introl eq_refl)). cbn [rbind].
    change (map fst d) with (dkeys d). rewrite IH by (intros m k Hm; apply H; right; exact Hm). reflexivity. }
  apply G. intros n l H. apply dget_nodup; assumption.
Qed.

Lemma list_ext_nth {A} : forall a b : list A, length a = length b ->
  (forall i x, nth_error a i = Some x -> nth_error b i = Some x) -> a = b.
Proof.
  induction a as [|x a IH]; intros [|y b] L H; cbn in L; try discriminate; [reflexivity|].
  pose proof (H 0%nat x eq_refl) as E. cbn in E. injection E as ->. f_equal.
  apply IH; [lia|]. intros i z Hi. apply (H (S i)). exact Hi.
Qed.

(** The keys of the resolved chains are the registered names, and each resolved chain bears its key. *)
Lemma final_names w w1 finals : world_ok w -> get_final_chains w = (w1, Ok finals) ->
  dkeys finals = get_names w /\ NoDup (dkeys finals) /\
  (forall n l, dget n finals = Some l -> exists c, chain_at (fst w1) l = Some c /\ ch_name c = n).
Proof.
  intros W HG. destruct (final_spec w W) as [w' [fs [E [_ [L HS]]]]]. rewrite HG in E.
  destruct (Nat.leb_spec (uncoloured (fst w) (k_chains (snd w))) (length palette)) as [Hle|]; [|discriminate].
  injection E as <- <-. specialize (HS Hle). destruct w as [h k]. cbn [fst snd] in *. destruct W as [W1 W2]. cbn [fst snd] in *.
  assert (HK : get_names (h, k) = dkeys finals).
  { unfold get_names, dkeys. cbn [snd]. apply list_ext_nth; [rewrite !map_length; auto|].
    intros i n Hi. destruct (nth_error (k_chains k) i) as [[m l]|] eqn:E.
    - rewrite (map_nth_error fst _ _ E) in Hi. injection Hi as <-. destruct (W2 m l (nth_error_In _ _ E)) as [c [C1 C2]].
      destruct (HS i m l c E C1) as [l' [cfg' [F1 _]]]. cbn [fst]. apply (map_nth_error fst _ _ F1).
    - exfalso. rewrite (proj2 (nth_error_None _ _)) in Hi; [discriminate|]. rewrite map_length. apply nth_error_None. exact E. }
  split; [symmetry; exact HK|]. rewrite <- HK. split; [exact W1|].
  intros n l' Hn. apply dget_In in Hn. destruct (In_nth_error _ _ Hn) as [i Hi].
  assert (i < length finals)%nat by (apply nth_error_Some; congruence).
  destruct (nth_error (k_chains k) i) as [[m l]|] eqn:E; [|apply nth_error_None in E; lia].
  destruct (W2 m l (nth_error_In _ _ E)) as [c [C1 C2]].
  destruct (HS i m l c E C1) as [l2 [cfg' [F1 [_ [F2 _]]]]]. rewrite Hi in F1. injection F1 as <- <-.
  exists (with_cfg c cfg'). split; [exact F2|exact C2].
Qed.

Lemma selection_spec w req all names w1 finals : world_ok w -> get_final_chains w = (w1, Ok finals) ->
  requested w req = map Some names ->
  match sanitise_chains w req all with
  | (w', Ok ls) => w' = w1 /\ (forall n, In n names -> In n (get_names w)) /\ selected (fst w1) finals all names ls
  | (w', Err e) => w' = w1 /\ e = KeyError /\ exists n, In n names /\ ~ In n (get_names w)
  end.
Proof.
  intros W HG HR. destruct (final_names _ _ _ W HG) as [K1 [K2 K3]]. unfold sanitise_chains. rewrite HG.
  assert (U : untouched (fst w) (fst w1)) by (pose proof (final_untouched w) as [U _]; rewrite HG in U; exact U).
  set (chosen := match req with ReqList _ => _ | ReqDict _ => _ | ReqAll => _ end).
  assert (HC : chosen = rmapM (fun n => pick (fst w1) finals (Ok n)) names).
  { assert (HM : forall (rs : list (res string)), rs = map Ok names -> rmapM (pick (fst w1) finals) rs = rmapM (fun n => pick (fst w1) finals (Ok n)) names).
    { intros rs ->. rewrite <- rmapM_map. reflexivity. }
    destruct req as [l|d|]; unfold chosen, requested in *.
    - rewrite (rmapM_map (pick (fst w1) finals)). apply HM. clear -HR U.
      revert names HR. induction l as [|r l IH]; intros [|n names] HR; cbn in HR; try discriminate; [reflexivity|].
      injection HR as H1 H2. cbn [map]. rewrite (IH names H2). f_equal. destruct r as [m|p]; cbn in *; [congruence|].
      destruct (chain_at (fst w) p) as [c|] eqn:E; [|discriminate]. cbn in H1. injection H1 as <-.
      destruct U as [_ U]. unfold chain_at in *. rewrite (U _ _ E). reflexivity.
    - rewrite (rmapM_map (pick (fst w1) finals) (fun kv => ref_name (fst w1) (ByChain (snd kv)))). apply HM. clear -HR U.
      revert names HR. induction d as [|r d IH]; intros [|n names] HR; cbn in HR; try discriminate; [reflexivity|].
      injection HR as H1 H2. cbn [map]. rewrite (IH names H2). f_equal. cbn.
      destruct (chain_at (fst w) (snd r)) as [c|] eqn:E; [|discriminate]. cbn in H1. injection H1 as <-.
      destruct U as [_ U]. unfold chain_at in *. rewrite (U _ _ E). reflexivity.
    - assert (names = dkeys finals).
      { rewrite K1. clear -HR. revert HR. generalize (get_names w). intros l. revert names.
        induction l as [|x l IH]; intros [|n names] HR; cbn in HR; try discriminate; [reflexivity|]. injection HR as -> HR. f_equal. apply IH; exact HR. }
      subst names. symmetry. apply rmapM_dvalues. exact K2. }
  rewrite HC. pose proof (select_names (fst w1) finals all K3 names) as S.
  destruct (rmapM _ names) as [ls|e]; cbn [rmap]; rewrite K1 in S.
  - split; [reflexivity|exact S].
  - split; [reflexivity|exact S].
Qed.
