(** Lemmas about whole sessions: the final chains are a function of the registered ones. *)
From Coq Require Import String List Bool Arith ZArith QArith Lia.
From Verif Require Import Py NumModel ColorModel MarginalModel FrameModel ConfigModel ChainModel RegistryModel RegistrySpec HeapFacts RegistryProofs RegistryProps ChainUseProofs DiagProofs TextModel AnalysisModel AnalysisSpec SurfaceProofs SurfaceModel FigureModel FigureSpec FigureProofs ConsumerSpec.
From Verif Require SessionProofs.
Import ListNotations.
Open Scope string_scope.
Open Scope list_scope.

Lemma F2_len' {A B} (R : A -> B -> Prop) l m : Forall2 R l m -> length l = length m.
Proof. induction 1; cbn; congruence. Qed.
Lemma F2_impl {A B} (R S : A -> B -> Prop) l m : (forall x y, R x y -> S x y) -> Forall2 R l m -> Forall2 S l m.
Proof. intros H. induction 1; constructor; auto. Qed.
Lemma F2_at {A B} (R : A -> B -> Prop) l m i x y : Forall2 R l m -> nth_error l i = Some x -> nth_error m i = Some y -> R x y.
Proof. intros H. revert i. induction H; intros [|i] Hx Hy; cbn in *; try discriminate; [congruence|eauto]. Qed.
Lemma F2_of_nth {A B} (R : A -> B -> Prop) : forall l m, length l = length m -> (forall i x y, nth_error l i = Some x -> nth_error m i = Some y -> R x y) -> Forall2 R l m.
Proof. induction l as [|x l IH]; intros [|y m] L H; try discriminate; constructor; [apply (H 0%nat); reflexivity|]. apply IH; [injection L; auto|]. intros i. apply (H (S i)). Qed.

(** ** The final chains *)
Definition one_resolved (num : nat) (ov : option config_obj) (colors : list (res string)) (c : chain) : res (chain * list (res string)) :=
  let sa := if ch_cfg c Fshow_contour_labels then AHalf (AInvSqrt num) else AInvSqrt num in
  let base := global_config num sa in
  rbind (match ch_cfg c Fcolor with
         | Some _ => Ok (base, colors)
         | None => match colors with [] => Err StopIteration | x :: cs => rbind x (fun col => Ok (base ++ [mk Fcolor (Some col)], cs)) end
         end) (fun lc =>
  let cfg1 := apply_if_not_user_set (ch_user c) (fst lc) (ch_cfg c) in
  Ok (with_cfg c match ov with Some o => apply_settings (user_specified_dump o) cfg1 | None => cfg1 end, snd lc)).
Fixpoint all_resolved (num : nat) (ov : option config_obj) (colors : list (res string)) (cs : list chain) : res (list chain) :=
  match cs with
  | [] => Ok []
  | c :: r => rbind (one_resolved num ov colors c) (fun cc => rmap (cons (fst cc)) (all_resolved num ov (snd cc) r))
  end.
Definition holds (h : heap) (nl : string * nat) (c : chain) : Prop := chain_at h (snd nl) = Some c.

Lemma resolve_loop_frames num ov : forall d h colors, h_frames (fst (resolve_loop h num ov colors d)) = h_frames h.
Proof.
  induction d as [|[n l] d IH]; intros h colors; [reflexivity|]. cbn [resolve_loop]. destruct (chain_at h l) as [c|]; [|reflexivity]. cbv zeta.
  destruct (match ch_cfg c Fcolor with Some _ => _ | None => _ end) as [[local cs]|e]; [|reflexivity]. rewrite IH. reflexivity.
Qed.
Lemma holds_write h l c' : (l < length (h_chains h))%nat -> forall d cs, ~ In l (map snd d) -> Forall2 (holds h) d cs -> Forall2 (holds (write_chain h l c')) d cs.
Proof.
  intros L. induction d as [|[n k] d IH]; intros cs NI F; inversion F; subst; constructor.
  - unfold holds in *. cbn [snd] in *. unfold chain_at, write_chain in *. cbn [h_chains]. rewrite list_update_other; [assumption|]. intros ->. apply NI. left. reflexivity.
  - apply IH; [|assumption]. intros K. apply NI. right. exact K.
Qed.
Lemma resolve_other num ov : forall d h colors l, ~ In l (map snd d) -> chain_at (fst (resolve_loop h num ov colors d)) l = chain_at h l.
Proof.
  induction d as [|[n k] d IH]; intros h colors l NI; [reflexivity|]. cbn [resolve_loop]. destruct (chain_at h k) as [c|]; [|reflexivity]. cbv zeta.
  destruct (match ch_cfg c Fcolor with Some _ => _ | None => _ end) as [[local cs]|e]; [|reflexivity]. rewrite IH by (intros K; apply NI; right; exact K).
  unfold chain_at, write_chain. cbn [h_chains]. apply list_update_other. intros ->. apply NI. left. reflexivity.
Qed.
Lemma resolve_pure num ov : forall d h colors cs, NoDup (map snd d) -> Forall2 (holds h) d cs ->
  match all_resolved num ov colors cs with
  | Ok cs' => snd (resolve_loop h num ov colors d) = Ok tt /\ Forall2 (holds (fst (resolve_loop h num ov colors d))) d cs'
  | Err e => snd (resolve_loop h num ov colors d) = Err e
  end.
Proof.
  induction d as [|[n l] d IH]; intros h colors cs ND F; inversion F as [|x c y r H1 H2]; subst; [cbn; split; [reflexivity|constructor]|].
  cbn [all_resolved resolve_loop]. unfold holds in H1. cbn [snd] in H1. rewrite H1. unfold one_resolved. cbv zeta.
  destruct (match ch_cfg c Fcolor with Some _ => _ | None => _ end) as [[local cs']|e]; [|reflexivity]. cbn [rbind fst snd].
  cbn [map snd] in ND. apply NoDup_cons_iff in ND as [N1 N2]. assert (L : (l < length (h_chains h))%nat) by (apply nth_error_Some; unfold chain_at in H1; congruence).
  set (cfg2 := match ov with Some _ => _ | None => _ end). specialize (IH (write_chain h l (with_cfg c cfg2)) cs' r N2 (holds_write h l _ L d r N1 H2)).
  destruct (all_resolved num ov cs' r) as [rs|e]; cbn [rmap]; [|exact IH]. destruct IH as [I1 I2]. split; [exact I1|]. constructor; [|exact I2].
  unfold holds. cbn [snd]. rewrite resolve_other by exact N1. unfold chain_at, write_chain. cbn [h_chains]. apply list_update_same. exact L.
Qed.
Lemma all_resolved_samples num ov : forall cs colors cs', all_resolved num ov colors cs = Ok cs' -> map ch_samples cs' = map ch_samples cs.
Proof.
  induction cs as [|c cs IH]; intros colors cs' H; [injection H as <-; reflexivity|]. cbn [all_resolved] in H. apply rbind_ok in H as [[c1 co] [H1 H]]. cbn [fst snd] in H.
  destruct (all_resolved num ov co cs) as [rs|e] eqn:E; [|discriminate]. cbn [rmap] in H. assert (cs' = c1 :: rs) by congruence. subst cs'. cbn [map]. f_equal; [|eapply IH; exact E].
  unfold one_resolved in H1. cbv zeta in H1. apply rbind_ok in H1 as [[lo cl] [_ H1]]. cbn [fst snd] in H1. assert (E1 : c1 = with_cfg c match ov with Some o => apply_settings (user_specified_dump o) (apply_if_not_user_set (ch_user c) lo (ch_cfg c)) | None => apply_if_not_user_set (ch_user c) lo (ch_cfg c) end) by congruence.
  subst c1. reflexivity.
Qed.

(** The registered chains, in order. *)
Lemma registered w : world_ok w -> exists cs, Forall2 (holds (fst w)) (k_chains (snd w)) cs.
Proof.
  intros [_ W]. revert W. generalize (k_chains (snd w)). induction d as [|[n l] d IH]; intros W; [exists []; constructor|]. destruct (W n l (or_introl eq_refl)) as [c [C1 _]].
  destruct IH as [cs I]; [intros n' l' H; apply W; right; exact H|]. exists (c :: cs). constructor; assumption.
Qed.
Lemma num_contours h d cs : Forall2 (holds h) d cs -> num_contour_chains h d = length (filter (fun c => ch_cfg c Fplot_contour) cs).
Proof.
  unfold num_contour_chains. induction 1 as [|[n l] c d cs H _ IH]; [reflexivity|]. cbn [filter snd]. unfold holds in H. cbn [snd] in H. rewrite H. destruct (ch_cfg c Fplot_contour : bool); cbn [length]; congruence.
Qed.
Lemma final_pure w cs : world_ok w -> Forall2 (holds (fst w)) (k_chains (snd w)) cs ->
  h_frames (fst (fst (get_final_chains w))) = h_frames (fst w) /\
  match all_resolved (length (filter (fun c => ch_cfg c Fplot_contour) cs)) (k_override (snd w)) next_colour cs with
  | Ok cs' => exists finals, snd (get_final_chains w) = Ok finals /\ dkeys finals = get_names w /\ Forall2 (holds (fst (fst (get_final_chains w)))) finals cs'
  | Err e => snd (get_final_chains w) = Err e
  end.
Proof.
  destruct w as [h k]. intros W F. cbn [fst snd] in *. unfold get_final_chains. destruct (copy_chains h (k_chains k)) as [h1 finals] eqn:EC.
  destruct (copy_chains_spec _ _ _ _ EC) as [news [C1 [C2 [C3 [C4 C5]]]]]. { intros n l H. destruct W as [_ W]. destruct (W n l H) as [c [Hc _]]. eauto. }
  assert (HS : forall i n l, nth_error finals i = Some (n, l) -> l = (length (h_chains h) + i)%nat).
  { intros i n l Hi. assert (Hlt : (i < length finals)%nat) by (apply nth_error_Some; congruence). destruct (nth_error (k_chains k) i) as [[m k0]|] eqn:E; [|apply nth_error_None in E; lia].
    destruct (C5 _ _ _ E) as [J1 J2]. rewrite J1 in Hi. injection Hi as <- <-. reflexivity. }
  pose proof (nodup_seq_snd finals _ HS) as ND.
  assert (F1 : Forall2 (holds h1) finals cs).
  { apply F2_of_nth; [rewrite C4; apply (F2_len' _ _ _ F)|]. intros i nl c Hn Hc. destruct (nth_error (k_chains k) i) as [[m k0]|] eqn:E; [|apply nth_error_None in E; assert ((i < length finals)%nat) by (apply nth_error_Some; congruence); lia].
    destruct (C5 _ _ _ E) as [J1 J2]. rewrite J1 in Hn. injection Hn as <-. unfold holds. cbn [snd]. unfold chain_at. rewrite C1, nth_error_app2 by lia. replace (length (h_chains h) + i - length (h_chains h))%nat with i by lia.
    rewrite J2. exact (F2_at _ _ _ _ _ _ F E Hc). }
  assert (HK : dkeys finals = dkeys (k_chains k)).
  { unfold dkeys. apply list_ext_nth; [rewrite !map_length; exact C4|]. intros i n Hi. destruct (nth_error (k_chains k) i) as [[m k0]|] eqn:E.
    - destruct (C5 _ _ _ E) as [J1 _]. rewrite (map_nth_error fst _ _ J1) in Hi. rewrite (map_nth_error fst _ _ E). exact Hi.
    - exfalso. apply nth_error_None in E. rewrite (proj2 (nth_error_None _ _)) in Hi; [discriminate|]. rewrite map_length. lia. }
  rewrite (num_contours h (k_chains k) cs F). set (num := length _). pose proof (resolve_pure num (k_override k) finals h1 next_colour cs ND F1) as R. pose proof (resolve_loop_frames num (k_override k) finals h1 next_colour) as RF.
  destruct (resolve_loop h1 num (k_override k) next_colour finals) as [h2 [u|e]]; cbn [fst snd] in *.
  - split; [congruence|]. destruct (all_resolved num (k_override k) next_colour cs) as [cs'|e]; [|discriminate]. destruct R as [_ R]. exists finals. split; [reflexivity|]. split; [exact HK|exact R].
  - split; [congruence|]. destruct (all_resolved num (k_override k) next_colour cs) as [cs'|e']; [destruct R; discriminate|congruence].
Qed.

(** ** The chains a call works on *)
Definition contents (w : world) (req : chain_request) (all : bool) : res (list (chain * frame)) :=
  rbind (snd (sanitise_chains w req all)) (fun locs => rmapM (ref_object (fst (fst (sanitise_chains w req all)))) (map ByChain locs)).
(** The same, from the registered chains and the names asked for. *)
Definition contents_of (fr : nat -> frame) (ov : option config_obj) (keys : list string) (cs : list chain) (names : list string) (all : bool) : res (list (chain * frame)) :=
  rbind (all_resolved (length (filter (fun c => ch_cfg c Fplot_contour) cs)) ov next_colour cs) (fun cs' =>
  rbind (rmapM (fun n => match dget n (combine keys cs') with Some c => Ok c | None => Err KeyError end) names) (fun l =>
  Ok (map (fun c => (c, fr (ch_samples c))) (filter (fun c => all || negb (skip c (fr (ch_samples c)))) l)))).

Lemma dget_combine h : forall (finals : dict nat) cs n, Forall2 (holds h) finals cs ->
  match dget n finals with
  | Some l => exists c, chain_at h l = Some c /\ dget n (combine (dkeys finals) cs) = Some c
  | None => dget n (combine (dkeys finals) cs) = None
  end.
Proof.
  intros finals cs n F. induction F as [|[m l] c d cs H F IH]; [reflexivity|]. cbn [dkeys map combine dget fst]. destruct (String.eqb n m); [exists c; split; [exact H|reflexivity]|exact IH].
Qed.
Lemma chosen_names w req names w1 finals : world_ok w -> get_final_chains w = (w1, Ok finals) -> requested w req = map Some names ->
  match req with
  | ReqList l => rmapM (fun r => pick (fst w1) finals (ref_name (fst w1) r)) l
  | ReqDict d => rmapM (fun kv => pick (fst w1) finals (ref_name (fst w1) (ByChain (snd kv)))) d
  | ReqAll => Ok (dvalues finals)
  end = rmapM (fun n => pick (fst w1) finals (Ok n)) names.
Proof.
  intros W HG HR. destruct (final_names _ _ _ W HG) as [K1 [K2 _]].
  assert (U : untouched (fst w) (fst w1)) by (pose proof (final_untouched w) as [U _]; rewrite HG in U; exact U).
  assert (HM : forall (rs : list (res string)), rs = map Ok names -> rmapM (pick (fst w1) finals) rs = rmapM (fun n => pick (fst w1) finals (Ok n)) names) by (intros rs ->; rewrite <- rmapM_map; reflexivity).
  destruct req as [l|d|]; unfold requested in HR.
  - rewrite (rmapM_map (pick (fst w1) finals)). apply HM. clear -HR U. revert names HR. induction l as [|r l IH]; intros [|n names] HR; cbn in HR; try discriminate; [reflexivity|].
    injection HR as H1 H2. cbn [map]. rewrite (IH names H2). f_equal. destruct r as [m|p]; cbn in *; [congruence|]. destruct (chain_at (fst w) p) as [c|] eqn:E; [|discriminate]. cbn in H1. injection H1 as <-.
    destruct U as [_ U]. unfold chain_at in *. rewrite (U _ _ E). reflexivity.
  - rewrite (rmapM_map (pick (fst w1) finals) (fun kv => ref_name (fst w1) (ByChain (snd kv)))). apply HM. clear -HR U. revert names HR. induction d as [|r d IH]; intros [|n names] HR; cbn in HR; try discriminate; [reflexivity|].
    injection HR as H1 H2. cbn [map]. rewrite (IH names H2). f_equal. cbn. destruct (chain_at (fst w) (snd r)) as [c|] eqn:E; [|discriminate]. cbn in H1. injection H1 as <-. destruct U as [_ U]. unfold chain_at in *. rewrite (U _ _ E). reflexivity.
  - assert (names = dkeys finals).
    { rewrite K1. clear -HR. revert HR. generalize (get_names w). intros l. revert names. induction l as [|x l IH]; intros [|n names] HR; cbn in HR; try discriminate; [reflexivity|]. injection HR as -> HR. f_equal. apply IH; exact HR. }
    subst names. symmetry. apply rmapM_dvalues. exact K2.
Qed.
Lemma contents_spec w req all names cs : world_ok w -> Forall2 (holds (fst w)) (k_chains (snd w)) cs -> requested w req = map Some names ->
  contents w req all = contents_of (frame_at (fst w)) (k_override (snd w)) (get_names w) cs names all.
Proof.
  intros W F HR. unfold contents, contents_of, sanitise_chains. destruct (final_pure w cs W F) as [FR P]. destruct (get_final_chains w) as [w1 r] eqn:EG. cbn [fst snd] in *.
  destruct (all_resolved _ _ _ _) as [cs'|e]; [|rewrite P; reflexivity]. destruct P as [finals [-> [K P]]]. cbn [rbind]. cbn [fst snd]. rewrite (chosen_names w req names w1 finals W EG HR). rewrite <- K. clear HR EG.
  assert (FA : forall l, frame_at (fst w1) l = frame_at (fst w) l) by (intros l; unfold frame_at; rewrite FR; reflexivity).
  assert (G : match rmapM (fun n => pick (fst w1) finals (Ok n)) names with
              | Ok ls => exists cl, rmapM (fun n => match dget n (combine (dkeys finals) cs') with Some c => Ok c | None => Err KeyError end) names = Ok cl /\ Forall2 (fun l c => chain_at (fst w1) l = Some c) ls cl
              | Err e => rmapM (fun n => match dget n (combine (dkeys finals) cs') with Some c => Ok c | None => Err KeyError end) names = Err e end).
  { induction names as [|n names IH]; [exists []; split; [reflexivity|constructor]|]. cbn [rmapM]. unfold pick at 1. cbn [rbind]. pose proof (dget_combine (fst w1) finals cs' n P) as D. destruct (dget n finals) as [l|]; [|rewrite D; reflexivity].
    destruct D as [c [D1 ->]]. cbn [rbind]. destruct (rmapM (fun n0 => pick (fst w1) finals (Ok n0)) names) as [ls|e].
    - destruct IH as [cl [-> I]]. exists (c :: cl). split; [reflexivity|constructor; assumption].
    - rewrite IH. reflexivity. }
  destruct (rmapM (fun n => pick (fst w1) finals (Ok n)) names) as [ls|e]; [|rewrite G; reflexivity]. destruct G as [cl [-> G]]. cbn [rmap rbind].
  clear -G FA. induction G as [|l c ls cl H G IH]; [reflexivity|]. cbn [filter]. unfold skip_at at 1. rewrite H, FA. destruct (all || negb (skip c (frame_at (fst w) (ch_samples c)))); [|exact IH].
  cbn [map rmapM]. unfold ref_object at 1. rewrite H, FA. cbn [rbind]. destruct (rmapM _ _) as [x|]; [|discriminate]. cbn [rbind] in *. congruence.
Qed.
(** The same chains in a world where everything registered is still there. *)
Lemma contents_same w w' req all names : world_ok w -> untouched (fst w) (fst w') -> snd w' = snd w -> requested w req = map Some names ->
  (forall n l c, In (n, l) (k_chains (snd w)) -> chain_at (fst w) l = Some c -> (ch_samples c < length (h_frames (fst w)))%nat) -> contents w' req all = contents w req all.
Proof.
  intros W U E HR HS. destruct (registered w W) as [cs F].
  assert (W' : world_ok w') by (destruct w as [h k], w' as [h' k']; cbn [fst snd] in *; subst k'; eapply world_ok_heap; eassumption).
  assert (F' : Forall2 (holds (fst w')) (k_chains (snd w')) cs) by (rewrite E; eapply F2_impl; [|exact F]; intros nl c H; apply (proj2 U); exact H).
  assert (HR' : requested w' req = map Some names).
  { rewrite <- HR. destruct U as [_ U]. unfold requested, get_names in *. rewrite E. destruct req as [l|d|]; [| |reflexivity].
    - clear -HR U. revert names HR. induction l as [|r l IH]; intros [|n names] HR; cbn in *; try discriminate; [reflexivity|]. injection HR as H1 H2. rewrite (IH names H2). f_equal. destruct r as [m|p]; [reflexivity|].
      unfold chain_at in *. destruct (nth_error (h_chains (fst w)) p) as [c|] eqn:EP; [|discriminate]. rewrite (U _ _ EP). reflexivity.
    - clear -HR U. revert names HR. induction d as [|r d IH]; intros [|n names] HR; cbn in *; try discriminate; [reflexivity|]. injection HR as H1 H2. rewrite (IH names H2). f_equal.
      unfold chain_at in *. destruct (nth_error (h_chains (fst w)) (snd r)) as [c|] eqn:EP; [|discriminate]. rewrite (U _ _ EP). reflexivity. }
  rewrite (contents_spec w req all names cs W F HR), (contents_spec w' req all names cs W' F' HR'). unfold get_names. rewrite E. fold (get_names w). unfold contents_of.
  destruct (all_resolved _ _ _ _) as [cs'|e] eqn:EA; [|reflexivity]. cbn [rbind]. destruct (rmapM _ names) as [cl|e] eqn:EN; [|reflexivity]. cbn [rbind]. f_equal.
  assert (LS : forall c, In c cl -> frame_at (fst w') (ch_samples c) = frame_at (fst w) (ch_samples c)).
  { intros c HI. apply untouched_frame_at; [exact U|]. pose proof (all_resolved_samples _ _ _ _ _ EA) as SA.
    assert (I1 : In c cs'). { apply rmapM_Forall2 in EN. apply In_nth_error in HI as [i HI]. destruct (nth_error names i) as [n|] eqn:E1; [|apply nth_error_None in E1; rewrite (F2_len' _ _ _ EN) in E1; assert ((i < length cl)%nat) by (apply nth_error_Some; congruence); lia].
      pose proof (F2_at _ _ _ _ _ _ EN E1 HI) as K. cbn beta in K. destruct (dget n (combine (get_names w) cs')) as [c'|] eqn:ED; [|discriminate]. injection K as ->. apply dget_In in ED. eapply in_combine_r. exact ED. }
    assert (I2 : In (ch_samples c) (map ch_samples cs)) by (rewrite <- SA; apply in_map; exact I1). apply in_map_iff in I2 as [c0 [<- I2]].
    apply In_nth_error in I2 as [i I2]. destruct (nth_error (k_chains (snd w)) i) as [[n l]|] eqn:E1; [|apply nth_error_None in E1; rewrite (F2_len' _ _ _ F) in E1; assert ((i < length cs)%nat) by (apply nth_error_Some; congruence); lia].
    apply (HS n l); [apply nth_error_In in E1; exact E1|]. exact (F2_at _ _ _ _ _ _ F E1 I2). }
  clear -LS. induction cl as [|c cl IH]; [reflexivity|]. cbn [filter]. rewrite (LS c (or_introl eq_refl)). assert (IH' := IH (fun c' H => LS c' (or_intror H))). destruct (all || _); [|exact IH']. cbn [map]. rewrite (LS c (or_introl eq_refl)). f_equal. exact IH'.
Qed.

(** ** Drawing *)
Lemma with_base_contents num s req columns wide k : snd (with_base num s req columns wide k) =
  rbind (contents (s_world s) req false) (fun final => let cfg := config_in_use (s_plotter s) in let cols := sanitise_columns columns final in
    rbind (get_custom_extents num wide (p_extents cfg) final cols) (fun ext =>
    k cfg (s_truths s) {| pb_chains := final; pb_columns := cols; pb_extents := ext; pb_blind := sanitise_blinds (p_blind cfg) cols; pb_logs := p_log_scales cfg |})).
Proof.
  unfold with_base, contents, sanitise. cbv zeta. destruct (sanitise_chains (s_world s) req false) as [w1 [locs|e]]; [|reflexivity]. cbn [fst snd rbind]. destruct (rmapM _ _) as [final|e]; [|reflexivity]. cbn [rbind].
  destruct (get_custom_extents _ _ _ _ _); reflexivity.
Qed.
Lemma with_base_world num s req columns wide k : s_world (fst (with_base num s req columns wide k)) = fst (sanitise_chains (s_world s) req false).
Proof.
  unfold with_base, sanitise. cbv zeta. destruct (sanitise_chains (s_world s) req false) as [w1 [locs|e]]; [|reflexivity]. destruct (rmapM _ _) as [final|e]; [|reflexivity]. destruct (get_custom_extents _ _ _ _ _); reflexivity.
Qed.
Lemma with_base_rest num s req columns wide k : s_truths (fst (with_base num s req columns wide k)) = s_truths s /\ s_plotter (fst (with_base num s req columns wide k)) = s_plotter s.
Proof. unfold with_base. cbv zeta. destruct (sanitise _ _ _ _ _ _ _) as [[w1 rc1] rb]. split; reflexivity. Qed.
Lemma with_base_rc num s req columns wide k : let cfg := config_in_use (s_plotter s) in let r := with_base num s req columns wide k in
  (s_rc (fst r) = s_rc s \/ s_rc (fst r) = set_rc_params cfg (s_rc s)) /\ (forall fig, snd r = Ok fig -> s_rc (fst r) = set_rc_params cfg (s_rc s)).
Proof.
  cbv zeta. unfold with_base, sanitise. cbv zeta. destruct (sanitise_chains (s_world s) req false) as [w1 [locs|e]]; [|split; [left; reflexivity|discriminate]]. destruct (rmapM _ _) as [final|e]; [|split; [left; reflexivity|discriminate]].
  destruct (get_custom_extents _ _ _ _ _); [split; [right; reflexivity|reflexivity]|split; [left; reflexivity|discriminate]].
Qed.
Lemma draw_form k d : exists num columns wide f, forall s, draw_figure k s d = with_base num s (asks_for d) columns wide f.
Proof. destruct d; do 4 eexists; intros s; reflexivity. Qed.

(** ** Sessions *)
Definition ops_of (a : action) : list op := match a with ARegistry o => [o] | ADraw d => [OpSelect (asks_for d) false] | _ => [] end.
Lemma act_world rgb k s a : s_world (act rgb k s a) = fst (run rgb (s_world s) (ops_of a)).
Proof.
  destruct a as [o|t|cfg|d| |rc]; cbn [act ops_of run].
  - destruct (step rgb (s_world s) o) as [w1 e]. destruct s. reflexivity.
  - destruct (new_truth _ _); reflexivity.
  - reflexivity.
  - destruct (draw_form k d) as [num [columns [wide [f ->]]]]. rewrite with_base_world. cbn [step]. destruct (sanitise_chains _ _ _) as [w1 e]. reflexivity.
  - reflexivity.
  - reflexivity.
Qed.
Lemma run_app rgb : forall a b w, fst (run rgb w (a ++ b)) = fst (run rgb (fst (run rgb w a)) b).
Proof. induction a as [|o a IH]; intros b w; [reflexivity|]. cbn [app run]. destruct (step rgb w o) as [w1 e]. specialize (IH b w1). destruct (run rgb w1 (a ++ b)) as [w2 l2], (run rgb w1 a) as [w3 l3]. exact IH. Qed.
Lemma acts_world rgb k : forall l s, s_world (acts rgb k s l) = fst (run rgb (s_world s) (flat_map ops_of l)).
Proof. induction l as [|a l IH]; intros s; [reflexivity|]. cbn [acts fold_left flat_map]. fold (acts rgb k (act rgb k s a) l). rewrite IH, act_world, run_app. reflexivity. Qed.
Lemma fresh_good rgb k h rc l : h_chains h = [] -> (forall f, In f (h_frames h) -> frame_wf f) -> (forall a, In a l -> takes_dicts a) -> SessionProofs.session rgb false (s_world (acts rgb k (fresh h rc) l)).
Proof.
  intros H1 H2 H3. exists h, (flat_map ops_of l). split; [exact H1|]. split; [exact H2|]. split; [|apply acts_world]. intros o Ho. apply in_flat_map in Ho as [a [Ha Ho]]. specialize (H3 a Ha).
  destruct a as [o'|t|cfg|d| |rc']; cbn in Ho; try contradiction; destruct Ho as [<-|[]]; [|exact I]. destruct o'; cbn in *; try exact I; try (intros K; discriminate). split; [exact H3|intros K; discriminate].
Qed.
Lemma act_plotter rgb k s a : pl_usetex_old (s_plotter (act rgb k s a)) = pl_usetex_old (s_plotter s) /\ pl_serif_old (s_plotter (act rgb k s a)) = pl_serif_old (s_plotter s).
Proof.
  destruct a as [o|t|cfg|d| |rc]; cbn [act]; try (split; reflexivity).
  - destruct (new_truth _ _); split; reflexivity.
  - destruct (draw_form k d) as [num [columns [wide [f ->]]]]. destruct (with_base_rest num s (asks_for d) columns wide f) as [_ ->]. split; reflexivity.
Qed.
Lemma acts_plotter rgb k : forall l s, pl_usetex_old (s_plotter (acts rgb k s l)) = pl_usetex_old (s_plotter s) /\ pl_serif_old (s_plotter (acts rgb k s l)) = pl_serif_old (s_plotter s).
Proof. induction l as [|a l IH]; intros s; [split; reflexivity|]. cbn [acts fold_left]. fold (acts rgb k (act rgb k s a) l). destruct (IH (act rgb k s a)) as [-> ->]. apply act_plotter. Qed.
Lemma looks_keeps rgb k s a : looks a -> s_truths (act rgb k s a) = s_truths s /\ s_plotter (act rgb k s a) = s_plotter s /\ snd (s_world (act rgb k s a)) = snd (s_world s).
Proof.
  intros L. destruct a as [o|t|cfg|d| |rc]; try contradiction; cbn [act].
  - destruct o; try contradiction; cbn [step with_world s_truths s_plotter s_world].
    + destruct (new_chain rgb (fst (s_world s)) a). repeat split.
    + destruct (chain_at (fst (s_world s)) l) as [c|]; [destruct (divide rgb (fst (s_world s)) c); repeat split|repeat split].
    + pose proof (sanitise_world (s_world s) req include_skip) as [_ U]. destruct (sanitise_chains _ _ _) as [w1 e]. repeat split. exact U.
  - destruct (draw_form k d) as [num [columns [wide [f ->]]]]. destruct (with_base_rest num s (asks_for d) columns wide f) as [-> ->]. split; [reflexivity|]. split; [reflexivity|]. rewrite with_base_world. apply sanitise_world.
  - repeat split.
  - repeat split.
Qed.
Lemma looking_keeps rgb k : forall l s, (forall a, In a l -> looks a) -> s_truths (acts rgb k s l) = s_truths s /\ s_plotter (acts rgb k s l) = s_plotter s /\ snd (s_world (acts rgb k s l)) = snd (s_world s).
Proof.
  induction l as [|a l IH]; intros s H; [repeat split|]. cbn [acts fold_left]. fold (acts rgb k (act rgb k s a) l). destruct (looks_keeps rgb k s a (H a (or_introl eq_refl))) as [K1 [K2 K3]].
  destruct (IH (act rgb k s a) (fun b Hb => H b (or_intror Hb))) as [-> [-> ->]]. auto.
Qed.
