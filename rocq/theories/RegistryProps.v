(** C01-C05, C51: the registry, the resolution of settings and the selection of chains. *)
From Coq Require Import String List Bool Arith ZArith QArith Reals Lia FinFun.
From Verif Require Import Py ColorModel MarginalModel FrameModel ConfigModel ChainModel RegistryModel RegistrySpec HeapFacts RegistryProofs.
Import ListNotations.
Open Scope list_scope.
Open Scope string_scope.

(** A world some session on a fresh consumer leads to, whatever objects existed before. *)
Definition reachable (rgb2hex : list Q -> string) (w : world) : Prop :=
  exists h0 ops log, run rgb2hex (h0, new_consumer) ops = (w, log).

Lemma reachable_ok rgb w : reachable rgb w -> world_ok w.
Proof.
  intros [h0 [ops [log H]]]. destruct (run_inv _ _ _ _ _ [] H (world_ok_new h0) reg_ok_empty) as [W _]. exact W.
Qed.

Lemma has_no_colour_true h n l c : chain_at h l = Some c -> ch_cfg c Fcolor = None -> has_no_colour h (n, l) = true.
Proof. intros H1 H2. unfold has_no_colour. cbn [snd]. rewrite H1, H2. reflexivity. Qed.

(** ** Examples: one frame, three chains (two uncoloured), a marker, an override *)
Definition ex_rgb : list Q -> string := fun _ => "#000000".
Definition no_kw : kwargs := fun _ => None.
Definition ex_frame : frame :=
  {| f_index := [LInt 0; LInt 1]; f_cols := [(CStr "a", [Fin 1; Fin 2]); (CStr "b", [Fin 3; Fin 5])] |}.
Definition ex_heap : heap := {| h_frames := [ex_frame]; h_chains := [] |}.
Definition ex_args (n : string) (k : kwargs) : cargs :=
  {| a_cfg := k; a_samples := 0; a_name := n; a_weight := None; a_post := None; a_walkers := None; a_grid := None;
     a_nfree := None; a_ndata := None; a_power := None; a_showlabel := None; a_relheight := None |}.
Definition ex_override : config_obj :=
  {| o_cfg := cset default_config Flinewidth 7; o_user := fun f => match f with Flinewidth => true | _ => false end |}.
Definition ex_ops : list op :=
  [OpNewChain (ex_args "A" no_kw); OpNewChain (ex_args "B" (kset no_kw Fcolor (Some (CName "red"))));
   OpNewChain (ex_args "C" (kset no_kw Fshade false)); OpAdd 0; OpAdd 1; OpRemove "A"; OpAdd 2; OpAdd 0;
   OpAdd 1; OpRemove "zzz"; OpMarker [("a", Fin 9)] "M" None 20 "." 1 no_kw; OpOverride ex_override; OpSelect ReqAll false].
Definition ex_world : world := fst (run ex_rgb (ex_heap, new_consumer) ex_ops).
Lemma ex_reachable : reachable ex_rgb ex_world.
Proof. exists ex_heap, ex_ops, (snd (run ex_rgb (ex_heap, new_consumer) ex_ops)). apply surjective_pairing. Qed.

(** * C01 *)
Theorem C01_registry : forall rgb2hex h0 ops w log,
  run rgb2hex (h0, new_consumer) ops = (w, log) ->
  NoDup (get_names w) /\
  (forall n l, get_chain w n = Ok l <-> exists i, last_about log n i (Added n l)) /\
  (forall n, In n (get_names w) <-> exists i l, last_about log n i (Added n l)) /\
  (forall n, ~ In n (get_names w) -> get_chain w n = Err AssertionError) /\
  (forall p q n m i j l l', (p < q)%nat ->
     nth_error (get_names w) p = Some n -> nth_error (get_names w) q = Some m ->
     last_about log n i (Added n l) -> last_about log m j (Added m l') -> (i < j)%nat).
Proof.
  intros rgb h0 ops w log H.
  destruct (run_inv _ _ _ _ _ [] H (world_ok_new h0) reg_ok_empty) as [_ [_ [R1 R2 R3]]]. cbn [app] in *.
  split; [exact R1|]. split; [|split; [|split; [|exact R3]]].
  - intros n l. rewrite <- R2. unfold get_chain. destruct (dget n (k_chains (snd w))); split; congruence.
  - intros n. unfold get_names. rewrite <- dget_Some_mem. split.
    + intros [l Hl]. apply R2 in Hl. destruct Hl as [i Hi]. exists i, l. exact Hi.
    + intros [i [l Hi]]. exists l. apply R2. exists i. exact Hi.
  - intros n Hn. unfold get_chain. apply dget_None in Hn. rewrite Hn. reflexivity.
Qed.
Print Assumptions C01_registry.

(** A failing call changes neither the registry nor the override, whatever the call. *)
Theorem C01_failing_call : forall rgb2hex w o w' e,
  reachable rgb2hex w -> step rgb2hex w o = (w', Err e) -> snd w' = snd w.
Proof.
  intros rgb w o w' e R H. destruct (step_effect _ _ _ _ _ H (reachable_ok _ _ R)) as [_ [_ E]]. exact E.
Qed.
Print Assumptions C01_failing_call.

(** Which calls fail. *)
Theorem C01_when_it_fails : forall w l c n,
  chain_at (fst w) l = Some c ->
  ((exists w', add_chain w l = (w', Ok tt)) <-> ~ In (ch_name c) (get_names w)) /\
  (In (ch_name c) (get_names w) -> add_chain w l = (w, Err AssertionError)) /\
  ((exists w', remove_name w n = (w', Ok tt)) <-> In n (get_names w)) /\
  (~ In n (get_names w) -> remove_name w n = (w, Err AssertionError)).
Proof.
  intros [h k] l c n Hc. cbn [fst] in Hc. unfold add_chain, remove_name, get_names. rewrite Hc. cbn [snd].
  assert (D : forall m, dmem m (k_chains k) = false <-> ~ In m (dkeys (k_chains k))).
  { intros m. rewrite <- dmem_In. destruct (dmem m (k_chains k)); intuition congruence. }
  split; [|split; [|split]].
  - rewrite <- D. destruct (dmem (ch_name c) (k_chains k)); split.
    + intros [w' H]. discriminate.
    + discriminate.
    + reflexivity.
    + intros _. eexists. reflexivity.
  - intros H. apply dmem_In in H. rewrite H. reflexivity.
  - rewrite <- dmem_In. destruct (dmem n (k_chains k)); split.
    + reflexivity.
    + intros _. eexists. reflexivity.
    + intros [w' H]. discriminate.
    + discriminate.
  - intros H. apply D in H. rewrite H. reflexivity.
Qed.
Print Assumptions C01_when_it_fails.
Example C01_example : snd (run ex_rgb (ex_heap, new_consumer) ex_ops) =
    [Added "A" 0; Added "B" 1; Removed "A"; Added "C" 2; Added "A" 0; Added "M" 3] /\
  get_names ex_world = ["B"; "C"; "A"; "M"] /\ get_chain ex_world "C" = Ok 2%nat.
Proof. vm_compute. repeat split. Qed.

(** * C02 *)
(** Every DataFrame and chain object that exists at some moment is unchanged by any later sequence of calls. *)
Theorem C02_untouched : forall rgb2hex w ops w' log,
  reachable rgb2hex w -> run rgb2hex w ops = (w', log) -> untouched (fst w) (fst w').
Proof.
  intros rgb w ops w' log [h0 [ops0 [log0 H0]]] H.
  destruct (run_inv _ _ _ _ _ [] H0 (world_ok_new h0) reg_ok_empty) as [W [_ R]].
  destruct (run_inv _ _ _ _ _ _ H W R) as [_ [U _]]. exact U.
Qed.
Print Assumptions C02_untouched.
(** Resolution changes nothing in the consumer, and hands out chain objects that did not exist before. *)
Theorem C02_fresh : forall rgb2hex w w' finals,
  reachable rgb2hex w -> get_final_chains w = (w', Ok finals) ->
  snd w' = snd w /\ forall n l, In (n, l) finals -> chain_at (fst w) l = None /\ exists c, chain_at (fst w') l = Some c.
Proof.
  intros rgb w w' finals R H. pose proof (reachable_ok _ _ R) as W.
  destruct (final_names _ _ _ W H) as [K1 [K2 K3]].
  destruct (final_spec w W) as [w1 [fs [E [S [L HS]]]]]. rewrite H in E.
  destruct (Nat.leb_spec (uncoloured (fst w) (k_chains (snd w))) (length palette)) as [Hle|]; [|discriminate].
  injection E as <- <-. split; [exact S|]. intros n l Hin.
  destruct (K3 n l) as [c [C1 _]]; [apply dget_nodup; assumption|]. split; [|exists c; exact C1].
  destruct (In_nth_error _ _ Hin) as [i Hi]. assert (Hlt : (i < length finals)%nat) by (apply nth_error_Some; congruence).
  destruct (nth_error (k_chains (snd w)) i) as [[m l0]|] eqn:E; [|apply nth_error_None in E; lia].
  destruct (proj2 W m l0 (nth_error_In _ _ E)) as [c0 [D1 D2]].
  destruct (HS Hle i m l0 c0 E D1) as [l2 [cfg' [F1 [F2 _]]]]. rewrite Hi in F1. injection F1 as <- <-.
  apply nth_error_None. exact F2.
Qed.
Print Assumptions C02_fresh.
Example C02_example : reachable ex_rgb ex_world /\ length (h_chains (fst ex_world)) = 8%nat /\
  match get_final_chains ex_world with (w', Ok f) => f = [("B", 8%nat); ("C", 9%nat); ("A", 10%nat); ("M", 11%nat)] | _ => False end.
Proof. split; [apply ex_reachable|]. vm_compute. split; reflexivity. Qed.

(** * C03, C05 *)
(** The i-th resolved chain has the name, samples and all non-setting fields of the i-th stored chain, and
    its settings follow the precedence; [num] is the number of stored chains drawing contours, the palette
    colour is the one after those taken by the earlier uncoloured chains. *)
Theorem C03_precedence : forall rgb2hex w w' finals,
  reachable rgb2hex w -> get_final_chains w = (w', Ok finals) ->
  length finals = length (get_names w) /\
  forall i n, nth_error (get_names w) i = Some n ->
  exists l c l' cfg',
    get_chain w n = Ok l /\ chain_at (fst w) l = Some c /\
    nth_error finals i = Some (n, l') /\ chain_at (fst w') l' = Some (with_cfg c cfg') /\
    frame_at (fst w') (ch_samples c) = frame_at (fst w) (ch_samples c) /\
    exists pal,
      option_map Ok pal = nth_error next_colour (uncoloured (fst w) (firstn i (k_chains (snd w)))) /\
      precedence (k_override (snd w)) (num_contour_chains (fst w) (k_chains (snd w))) pal c cfg'.
Proof.
  intros rgb w w' finals R H. pose proof (reachable_ok _ _ R) as W.
  destruct (final_names _ _ _ W H) as [K1 [K2 K3]].
  destruct (final_spec w W) as [w1 [fs [E [S [L HS]]]]]. rewrite H in E.
  destruct (Nat.leb_spec (uncoloured (fst w) (k_chains (snd w))) (length palette)) as [Hle|]; [|discriminate].
  injection E as <- <-. split; [unfold get_names, dkeys; rewrite map_length; exact L|].
  intros i n Hi. unfold get_names, dkeys in Hi.
  destruct (nth_error (k_chains (snd w)) i) as [[m l]|] eqn:E;
    [|rewrite (proj2 (nth_error_None _ _)) in Hi; [discriminate|rewrite map_length; apply nth_error_None; exact E]].
  rewrite (map_nth_error fst _ _ E) in Hi. cbn in Hi. injection Hi as ->.
  destruct (proj2 W n l (nth_error_In _ _ E)) as [c [C1 C2]].
  destruct (HS Hle i n l c E C1) as [l' [cfg' [F1 [F2 [F3 F4]]]]].
  exists l, c, l', cfg'. split.
  { unfold get_chain. rewrite (dget_nodup n l (k_chains (snd w)) (proj1 W) (nth_error_In _ _ E)). reflexivity. }
  split; [exact C1|]. split; [exact F1|]. split; [exact F3|]. split.
  { pose proof (final_untouched w) as [U _]. rewrite H in U. cbn [fst] in U.
    pose proof (final_spec w W). clear - H. unfold get_final_chains in H. destruct w as [h k].
    destruct (copy_chains h (k_chains k)) as [h1 d] eqn:EC.
    assert (A : h_frames h1 = h_frames h).
    { clear -EC. revert h h1 d EC. induction (k_chains k) as [|[n l] r IH]; intros h h1 d EC; cbn in EC; [injection EC as <- <-; reflexivity|].
      destruct (chain_at h l) as [c|]; [|apply (IH _ _ _ EC)].
      destruct (copy_chains _ r) as [h2 r2] eqn:E2 in EC. injection EC as <- <-. apply IH in E2. exact E2. }
    assert (B : forall d h1 num ov cols h2 r, resolve_loop h1 num ov cols d = (h2, r) -> h_frames h2 = h_frames h1).
    { clear. induction d as [|[n l] d IH]; intros h1 num ov cols h2 r E; cbn [resolve_loop] in E; [injection E as <- _; reflexivity|].
      destruct (chain_at h1 l) as [c|]; [|injection E as <- _; reflexivity].
      destruct (match ch_cfg c Fcolor with Some _ => _ | None => _ end) as [[loc cs]|e]; [|injection E as <- _; reflexivity].
      apply IH in E. exact E. }
    destruct (resolve_loop h1 _ _ _ d) as [h2 [u|e]] eqn:ER; [|discriminate]. injection H as <- <-. cbn [fst].
    unfold frame_at. rewrite (B _ _ _ _ _ _ _ ER), A. reflexivity. }
  exists (nth_error palette (uncoloured (fst w) (firstn i (k_chains (snd w))))). split; [rewrite next_colour_ok|apply resolved_precedence; exact F4].
  clear. generalize (uncoloured (fst w) (firstn i (k_chains (snd w)))). generalize palette.
  induction l as [|x l IH]; intros [|k]; try reflexivity. cbn. apply IH.
Qed.
Print Assumptions C03_precedence.
Definition ex_finals : world * res (dict nat) := get_final_chains ex_world.
Definition ex_final (l : nat) : option chain := chain_at (fst (fst ex_finals)) l.
Example C03_example : reachable ex_rgb ex_world /\
  (exists d, snd ex_finals = Ok d) /\
  option_map (fun c => (ch_cfg c Flinewidth, ch_cfg c Fcolor, ch_cfg c Fshade, ch_cfg c Fshade_alpha)) (ex_final 9)
    = Some (7, Some "#3b82f6", false, AInvSqrt 3) /\
  option_map (fun c => (ch_cfg c Fcolor, ch_cfg c Fshade)) (ex_final 8) = Some (Some "#ef4444", true) /\
  option_map (fun c => ch_cfg c Fcolor) (ex_final 10) = Some (Some "#10b981").
Proof. split; [apply ex_reachable|]. vm_compute. repeat split. eexists. reflexivity. Qed.

(** * C04 *)
Theorem C04_palette : exists pal, next_colour = map Ok pal /\ length pal = 88%nat /\ NoDup pal.
Proof.
  exists palette. split; [exact next_colour_ok|]. split; [vm_compute; reflexivity|].
  assert (G : forall l : list string, (fix nd l := match l with [] => true | x :: r => negb (smem x r) && nd r end) l = true -> NoDup l).
  { induction l as [|x l IH]; intros H; [constructor|]. apply andb_true_iff in H. destruct H as [H1 H2]. constructor; [|apply IH; exact H2].
    intros HI. apply smem_In in HI. rewrite HI in H1. discriminate. }
  apply G. vm_compute. reflexivity.
Qed.
Print Assumptions C04_palette.
Theorem C04_assignment : forall rgb2hex w w' finals i n l c,
  reachable rgb2hex w -> get_final_chains w = (w', Ok finals) ->
  nth_error (get_names w) i = Some n -> get_chain w n = Ok l -> chain_at (fst w) l = Some c ->
  ch_cfg c Fcolor = None -> ch_user c Fcolor = false -> silent (k_override (snd w)) Fcolor ->
  exists l' c' col,
    nth_error finals i = Some (n, l') /\ chain_at (fst w') l' = Some c' /\ ch_cfg c' Fcolor = Some col /\
    nth_error next_colour (uncoloured (fst w) (firstn i (k_chains (snd w)))) = Some (Ok col).
Proof.
  intros rgb w w' finals i n l c R H Hi Hg Hc Hn Hu Hs.
  pose proof (reachable_ok _ _ R) as W.
  destruct (C03_precedence _ _ _ _ R H) as [_ P]. destruct (P i n Hi) as [l0 [c0 [l' [cfg' [G1 [G2 [G3 [G4 [_ [pal [G5 G6]]]]]]]]]]].
  rewrite Hg in G1. injection G1 as <-. rewrite Hc in G2. injection G2 as <-.
  pose proof (pr_color_auto _ _ _ _ _ G6 Hs Hu Hn) as HC.
  assert (HLt : (uncoloured (fst w) (firstn i (k_chains (snd w))) < length palette)%nat).
  { destruct (final_spec w W) as [w1 [fs [E _]]]. rewrite H in E.
    destruct (Nat.leb_spec (uncoloured (fst w) (k_chains (snd w))) (length palette)) as [Hle|]; [|discriminate].
    assert (HE : nth_error (k_chains (snd w)) i = Some (n, l)).
    { unfold get_names, dkeys in Hi. destruct (nth_error (k_chains (snd w)) i) as [[m k]|] eqn:E1;
        [|rewrite (proj2 (nth_error_None _ _)) in Hi; [discriminate|rewrite map_length; apply nth_error_None; exact E1]].
      rewrite (map_nth_error fst _ _ E1) in Hi. cbn in Hi. injection Hi as ->.
      unfold get_chain in Hg. rewrite (dget_nodup _ _ _ (proj1 W) (nth_error_In _ _ E1)) in Hg. congruence. }
    assert (HX : forall d i0, nth_error d i0 = Some (n, l) -> (uncoloured (fst w) (firstn i0 d) < uncoloured (fst w) d)%nat).
    { clear -Hc Hn. induction d as [|x d IH]; intros [|i0] HE; cbn in HE; try discriminate.
      - injection HE as ->. rewrite !uncoloured_eq. cbn [firstn filter]. rewrite (has_no_colour_true _ _ _ _ Hc Hn). cbn. lia.
      - specialize (IH i0 HE). rewrite !uncoloured_eq in *. cbn [firstn filter]. destruct (has_no_colour (fst w) x); cbn [length]; lia. }
    specialize (HX _ _ HE). lia. }
  destruct pal as [col|].
  - exists l', (with_cfg c cfg'), col. split; [exact G3|]. split; [exact G4|]. split; [exact HC|]. rewrite <- G5. reflexivity.
  - exfalso. rewrite next_colour_ok in G5. symmetry in G5. apply nth_error_None in G5. rewrite map_length in G5. lia.
Qed.
Print Assumptions C04_assignment.
(** Two different automatically coloured chains have different colours. *)
Theorem C04_distinct : forall rgb2hex w w' finals,
  reachable rgb2hex w -> get_final_chains w = (w', Ok finals) -> silent (k_override (snd w)) Fcolor ->
  forall n m l k c d ln lm cn cm,
  get_chain w n = Ok l -> chain_at (fst w) l = Some c -> ch_cfg c Fcolor = None -> ch_user c Fcolor = false ->
  get_chain w m = Ok k -> chain_at (fst w) k = Some d -> ch_cfg d Fcolor = None -> ch_user d Fcolor = false ->
  dget n finals = Some ln -> chain_at (fst w') ln = Some cn ->
  dget m finals = Some lm -> chain_at (fst w') lm = Some cm ->
  ch_cfg cn Fcolor = ch_cfg cm Fcolor -> n = m.
Proof.
  intros rgb w w' finals R H Hs n m l k c d ln lm cn cm A1 A2 A3 A4 B1 B2 B3 B4 N1 N2 M1 M2 HE.
  pose proof (reachable_ok _ _ R) as W. destruct (final_names _ _ _ W H) as [K1 [K2 K3]].
  assert (Pos : forall x lx, get_chain w x = Ok lx -> exists i, nth_error (get_names w) i = Some x /\ nth_error (k_chains (snd w)) i = Some (x, lx)).
  { intros x lx Hx. unfold get_chain in Hx. destruct (dget x (k_chains (snd w))) as [y|] eqn:E; [|discriminate]. injection Hx as ->.
    apply dget_In in E. destruct (In_nth_error _ _ E) as [i Hi]. exists i. split; [|exact Hi]. unfold get_names, dkeys. apply (map_nth_error fst _ _ Hi). }
  destruct (Pos n l A1) as [i [I1 I2]]. destruct (Pos m k B1) as [j [J1 J2]].
  destruct (C04_assignment _ _ _ _ _ _ _ _ R H I1 A1 A2 A3 A4 Hs) as [l1 [c1 [col1 [P1 [P2 [P3 P4]]]]]].
  destruct (C04_assignment _ _ _ _ _ _ _ _ R H J1 B1 B2 B3 B4 Hs) as [l2 [c2 [col2 [Q1 [Q2 [Q3 Q4]]]]]].
  rewrite (dget_nodup _ _ _ K2 (nth_error_In _ _ P1)) in N1. injection N1 as <-. rewrite P2 in N2. injection N2 as <-.
  rewrite (dget_nodup _ _ _ K2 (nth_error_In _ _ Q1)) in M1. injection M1 as <-. rewrite Q2 in M2. injection M2 as <-.
  rewrite P3, Q3 in HE. injection HE as <-.
  destruct C04_palette as [pal [E1 [_ ND]]]. rewrite E1 in P4, Q4.
  set (ui := uncoloured (fst w) (firstn i (k_chains (snd w)))) in *. set (uj := uncoloured (fst w) (firstn j (k_chains (snd w)))) in *.
  assert (HU : ui = uj).
  { assert (HN : NoDup (map (@Ok string) pal)) by (apply FinFun.Injective_map_NoDup; [intros a b Hab; congruence|exact ND]).
    apply (proj1 (NoDup_nth_error _) HN); [apply nth_error_Some; congruence|congruence]. }
  assert (HX : forall d i0 j0 x lx cx, (i0 < j0)%nat -> nth_error d i0 = Some (x, lx) -> chain_at (fst w) lx = Some cx -> ch_cfg cx Fcolor = None ->
     (uncoloured (fst w) (firstn i0 d) < uncoloured (fst w) (firstn j0 d))%nat).
  { clear. induction d as [|y d IH]; intros [|i0] [|j0] x lx cx L E1 E2 E3; cbn in E1; try discriminate; try lia.
    - injection E1 as ->. rewrite !uncoloured_eq. cbn [firstn filter]. rewrite (has_no_colour_true _ _ _ _ E2 E3). cbn. lia.
    - specialize (IH i0 j0 x lx cx ltac:(lia) E1 E2 E3). rewrite !uncoloured_eq in *. cbn [firstn filter]. destruct (has_no_colour (fst w) y); cbn [length]; lia. }
  destruct (Nat.lt_trichotomy i j) as [L|[->|L]].
  - pose proof (HX _ _ _ _ _ _ L I2 A2 A3). unfold ui, uj in HU. lia.
  - congruence.
  - pose proof (HX _ _ _ _ _ _ L J2 B2 B3). unfold ui, uj in HU. lia.
Qed.
Print Assumptions C04_distinct.
Theorem C04_exhaustion : forall rgb2hex w, reachable rgb2hex w ->
  ((exists w' finals, get_final_chains w = (w', Ok finals)) <-> (uncoloured (fst w) (k_chains (snd w)) <= 88)%nat) /\
  ((88 < uncoloured (fst w) (k_chains (snd w)))%nat -> exists w', get_final_chains w = (w', Err StopIteration)).
Proof.
  intros rgb w R. pose proof (reachable_ok _ _ R) as W.
  destruct (final_spec w W) as [w1 [fs [E _]]]. change (length palette) with 88%nat in E.
  destruct (Nat.leb_spec (uncoloured (fst w) (k_chains (snd w))) 88) as [L|L].
  - split; [split; [intros _; exact L|intros _; exists w1, fs; exact E]|lia].
  - split; [split; [intros [w' [f H]]; rewrite H in E; discriminate|lia]|]. intros _. exists w1. exact E.
Qed.
Print Assumptions C04_exhaustion.
Example C04_example : reachable ex_rgb ex_world /\ uncoloured (fst ex_world) (k_chains (snd ex_world)) = 3%nat /\
  silent (k_override (snd ex_world)) Fcolor.
Proof. split; [apply ex_reachable|]. vm_compute. split; reflexivity. Qed.
(** 89 uncoloured chains can be registered. *)
Definition many (n : nat) : list op :=
  flat_map (fun i => [OpNewChain (ex_args (dec (Z.of_nat i)) no_kw); OpAdd i]) (seq 0 n).
Example C04_exhausted_example : exists w, reachable ex_rgb w /\ (88 < uncoloured (fst w) (k_chains (snd w)))%nat.
Proof.
  exists (fst (run ex_rgb (ex_heap, new_consumer) (many 89))). split.
  - exists ex_heap, (many 89), (snd (run ex_rgb (ex_heap, new_consumer) (many 89))). apply surjective_pairing.
  - vm_compute. lia.
Qed.

(** * C05 *)
Theorem C05_shading : forall rgb2hex w w' finals i n l c,
  reachable rgb2hex w -> get_final_chains w = (w', Ok finals) -> k_override (snd w) = None ->
  nth_error (get_names w) i = Some n -> get_chain w n = Ok l -> chain_at (fst w) l = Some c ->
  let num := length (filter (fun m => match get_chain w m with
                                      | Ok p => match chain_at (fst w) p with Some d => ch_cfg d Fplot_contour | None => false end
                                      | Err _ => false end) (get_names w)) in
  exists l' c', nth_error finals i = Some (n, l') /\ chain_at (fst w') l' = Some c' /\
    (ch_user c Fshade = false -> (ch_cfg c' Fshade = true <-> (num < 5)%nat)) /\
    (ch_user c Fbar_shade = false -> (ch_cfg c' Fbar_shade = true <-> (num < 5)%nat)) /\
    (ch_user c Fsigmas = false -> ch_cfg c' Fsigmas = [0; 1; 2]%Q) /\
    (ch_user c Fshade_alpha = false -> (0 < num)%nat -> ch_cfg c Fshow_contour_labels = false ->
       alpha_value (ch_cfg c' Fshade_alpha) = Some (1 / sqrt (INR num))%R) /\
    (ch_user c Fshade_alpha = false -> (0 < num)%nat -> ch_cfg c Fshow_contour_labels = true ->
       alpha_value (ch_cfg c' Fshade_alpha) = Some (1 / sqrt (INR num) / 2)%R) /\
    (forall f, ch_user c f = true -> ch_cfg c' f = ch_cfg c f).
Proof.
  intros rgb w w' finals i n l c R H Ho Hi Hg Hc num.
  pose proof (reachable_ok _ _ R) as W.
  destruct (C03_precedence _ _ _ _ R H) as [_ P]. destruct (P i n Hi) as [l0 [c0 [l' [cfg' [G1 [G2 [G3 [G4 [_ [pal [G5 G6]]]]]]]]]]].
  rewrite Hg in G1. injection G1 as <-. rewrite Hc in G2. injection G2 as <-. rewrite Ho in G6.
  assert (HN : num_contour_chains (fst w) (k_chains (snd w)) = num).
  { unfold num, num_contour_chains, get_names, get_chain.
    assert (G : forall d, (forall x lx, In (x, lx) d -> dget x (k_chains (snd w)) = Some lx) ->
      length (filter (fun nl => match chain_at (fst w) (snd nl) with Some c => ch_cfg c Fplot_contour | None => false end) d) =
      length (filter (fun m => match match dget m (k_chains (snd w)) with Some l => Ok l | None => Err AssertionError end with
                                      | Ok p => match chain_at (fst w) p with Some d => ch_cfg d Fplot_contour | None => false end
                                      | Err _ => false end) (dkeys d))).
    { induction d as [|[x lx] d IH]; intros HD; [reflexivity|]. cbn [dkeys map fst filter snd].
      rewrite (HD x lx (or_introl eq_refl)). specialize (IH (fun y ly Hy => HD y ly (or_intror Hy))).
      destruct (match chain_at (fst w) lx with Some _ => _ | None => _ end); cbn [length]; rewrite IH; reflexivity. }
    apply G. intros x lx Hx. apply dget_nodup; [apply (proj1 W)|exact Hx]. }
  rewrite HN in G6. destruct G6 as [X1 X2 X3 X4 X5 X6 X7 X8 X9].
  exists l', (with_cfg c cfg'). split; [exact G3|]. split; [exact G4|]. cbn [with_cfg ch_cfg].
  split; [intros; apply X3; [exact I|assumption]|]. split; [intros; apply X4; [exact I|assumption]|].
  split; [intros; apply X5; [exact I|assumption]|]. split.
  - intros U Hp HS. rewrite (X6 I U Hp), HS. reflexivity.
  - split; [intros U Hp HS; rewrite (X6 I U Hp), HS; reflexivity|]. intros f U. apply X2; [exact I|exact U].
Qed.
Print Assumptions C05_shading.
Example C05_example : let w := fst (run ex_rgb (ex_heap, new_consumer) (firstn 11 ex_ops)) in
  reachable ex_rgb w /\ k_override (snd w) = None /\ (exists f w', get_final_chains w = (w', Ok f)) /\ get_names w = ["B"; "C"; "A"; "M"].
Proof.
  cbv zeta. split; [|split; [vm_compute; reflexivity|split; [|vm_compute; reflexivity]]].
  - exists ex_heap, (firstn 11 ex_ops), (snd (run ex_rgb (ex_heap, new_consumer) (firstn 11 ex_ops))). apply surjective_pairing.
  - set (w := fst _). exists [("B", 4%nat); ("C", 5%nat); ("A", 6%nat); ("M", 7%nat)], (fst (get_final_chains w)).
    rewrite (surjective_pairing (get_final_chains w)) at 1. f_equal.
Qed.

(** * C51 *)
Theorem C51_selection : forall rgb2hex w req all names w1 finals,
  reachable rgb2hex w -> get_final_chains w = (w1, Ok finals) -> requested w req = map Some names ->
  ((forall n, In n names -> In n (get_names w)) ->
     exists ls, sanitise_chains w req all = (w1, Ok ls) /\ selected (fst w1) finals all names ls) /\
  ((exists n, In n names /\ ~ In n (get_names w)) -> sanitise_chains w req all = (w1, Err KeyError)).
Proof.
  intros rgb w req all names w1 finals R HG HR. pose proof (selection_spec _ _ all _ _ _ (reachable_ok _ _ R) HG HR) as S.
  destruct (sanitise_chains w req all) as [w' [ls|e]].
  - destruct S as [-> [S1 S2]]. split.
    + intros _. exists ls. split; [reflexivity|exact S2].
    + intros [n [N1 N2]]. destruct (N2 (S1 n N1)).
  - destruct S as [-> [-> [n [N1 N2]]]]. split; [|reflexivity]. intros HA. destruct (N2 (HA n N1)).
Qed.
Print Assumptions C51_selection.
(** Without a request: every stored chain, in insertion order. *)
Theorem C51_default : forall rgb2hex w all w1 finals,
  reachable rgb2hex w -> get_final_chains w = (w1, Ok finals) ->
  exists ls, sanitise_chains w ReqAll all = (w1, Ok ls) /\ selected (fst w1) finals all (get_names w) ls.
Proof.
  intros rgb w all w1 finals R HG. apply (proj1 (C51_selection rgb w ReqAll all (get_names w) w1 finals R HG eq_refl)). auto.
Qed.
Print Assumptions C51_default.
Example C51_example : requested ex_world (ReqList [ByName "M"; ByChain 0; ByName "M"]) = map Some ["M"; "A"; "M"] /\
  snd (sanitise_chains ex_world (ReqList [ByName "M"; ByChain 0; ByName "M"]) false) = Ok [11; 10; 11]%nat.
Proof. vm_compute. split; reflexivity. Qed.
