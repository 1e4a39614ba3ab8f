(** Construction of chains. *)
From Coq Require Import String List Bool Arith ZArith QArith Lia Lqa Setoid Znumtheory.
From Verif Require Import Py NumSpec NumModel NumFacts ColorModel ColorSpec ColorProofs MarginalModel FrameModel FrameFacts ConfigModel
  ChainModel RegistryModel RegistrySpec HeapFacts ChainSpec ShiftProofs.
Import ListNotations.
Open Scope list_scope.

(** The model validator as a function of the frame alone. *)
Definition with_weight (f : frame) (wn : string) : frame :=
  if f_has f wn then f else f_set f wn (repeat (Fin 1) (f_rows f)).
Definition shifted (c : chain) (f1 : frame) : res frame :=
  if ch_cfg c Fshift_params then shift_loop (ch_weight c) (f_names f1) f1 else Ok f1.
Definition with_stat (c : chain) : chain :=
  with_cfg c match ch_cfg c Fstatistics with
             | Some _ => ch_cfg c
             | None => cset (ch_cfg c) Fstatistics (Some (if ch_cfg c Fmultimodal then SHdi else SMax))
             end.
Definition vpure (f : frame) (c : chain) : res (frame * chain) :=
  if f_empty f then Err AssertionError
  else if negb (f_has f (ch_weight c)) && negb (String.eqb (ch_weight c) "weight") then Err AssertionError
  else if f_has f (ch_weight c) && negb (forallb (fun x => cell_gt x 0) (dflt [] (f_get f (ch_weight c)))) then Err AssertionError
  else
    let f1 := with_weight f (ch_weight c) in
    if negb (forallb (fun cl => match fst cl with CStr _ => true | CInt _ => false end && forallb cell_finite (snd cl)) (f_cols f1))
    then Err AssertionError
    else match shifted c f1 with
         | Err e => Err e
         | Ok f2 =>
             if negb (Z.of_nat (f_rows f2) mod ch_walkers c =? 0)%Z then Err AssertionError
             else if match ch_cfg c Fcolor_param with Some p => negb (f_has f2 p) | None => false end then Err AssertionError
             else if match ch_ndata c with Some v => negb (cell_finite v) | None => false end then Err AssertionError
             else if ch_cfg (with_stat c) Fmultimodal && negb match ch_cfg (with_stat c) Fstatistics with Some SHdi => true | _ => false end
             then Err ValueError
             else Ok (f2, with_stat c)
         end.
Lemma frame_at_write h l f : (l < length (h_frames h))%nat -> frame_at (write_frame h l f) l = f.
Proof.
  intros H. unfold frame_at, write_frame. cbn. apply nth_error_nth. apply list_update_same. exact H.
Qed.
Lemma frame_at_write_other h l k f : l <> k -> frame_at (write_frame h l f) k = frame_at h k.
Proof.
  intros H. unfold frame_at, write_frame. cbn.
  pose proof (list_update_other (h_frames h) l k f H) as E.
  destruct (nth_error (h_frames h) k) as [x|] eqn:EX.
  - rewrite (nth_error_nth _ _ no_frame EX). apply (nth_error_nth _ _ no_frame E).
  - apply nth_error_None in EX. rewrite !nth_overflow; auto. rewrite list_update_length. exact EX.
Qed.
Lemma validate_pure h c : (ch_samples c < length (h_frames h))%nat ->
  let '(h', r) := validate_model h c in
  match vpure (frame_at h (ch_samples c)) c with
  | Err e => r = Err e
  | Ok (f2, c1) => r = Ok c1 /\ frame_at h' (ch_samples c) = f2 /\ length (h_frames h') = length (h_frames h) /\ h_chains h' = h_chains h
  end.
Proof.
  intros HL. unfold validate_model, vpure. set (f := frame_at h (ch_samples c)).
  destruct (f_empty f); [reflexivity|]. cbv zeta.
  destruct (negb (f_has f (ch_weight c)) && _); [reflexivity|].
  destruct (f_has f (ch_weight c) && _); [reflexivity|].
  change (if f_has f (ch_weight c) then f else f_set f (ch_weight c) (repeat (Fin 1) (f_rows f))) with (with_weight f (ch_weight c)).
  destruct (negb (forallb _ _)); [reflexivity|].
  change (if ch_cfg c Fshift_params then shift_loop (ch_weight c) (f_names (with_weight f (ch_weight c))) (with_weight f (ch_weight c)) else Ok (with_weight f (ch_weight c)))
    with (shifted c (with_weight f (ch_weight c))).
  destruct (shifted c (with_weight f (ch_weight c))) as [f2|e]; [|reflexivity].
  destruct (negb (_ =? 0)%Z); [reflexivity|].
  destruct (match ch_cfg c Fcolor_param with Some p => _ | None => _ end); [reflexivity|].
  destruct (match ch_ndata c with Some p => _ | None => _ end); [reflexivity|].
  change (with_cfg c match ch_cfg c Fstatistics with Some _ => ch_cfg c | None => cset (ch_cfg c) Fstatistics (Some (if ch_cfg c Fmultimodal then SHdi else SMax)) end) with (with_stat c).
  destruct (_ && _); [reflexivity|]. split; [reflexivity|]. split.
  - apply frame_at_write. cbn. rewrite list_update_length. exact HL.
  - cbn. rewrite !list_update_length. auto.
Qed.

(** new_chain in terms of the pure validator. *)
Definition color_step (rgb : list Q -> string) (a : cargs) : res (option (option string)) :=
  match a_cfg a Fcolor with
  | Some v => rmap Some (wrap (rbind (convert_color rgb v) (revalidate_color rgb)))
  | None => Ok None
  end.
Definition cpure (rgb : list Q -> string) (f : frame) (a : cargs) (lf : nat) : res (frame * chain) :=
  rbind (color_step rgb a) (fun color =>
  let c := build color a lf in
  if negb (field_ranges c) then Err ValidationError else wrap (vpure f c)).
Lemma frame_at_alloc h f : frame_at (fst (alloc_frame h f)) (length (h_frames h)) = f.
Proof. unfold frame_at. cbn. rewrite app_nth2 by lia. rewrite Nat.sub_diag. reflexivity. Qed.
Lemma new_chain_pure rgb h a :
  let '(h', r) := new_chain rgb h a in
  match cpure rgb (frame_at h (a_samples a)) a (length (h_frames h)) with
  | Err e => r = Err e
  | Ok (f2, c1) => r = Ok (length (h_chains h)) /\ chain_at h' (length (h_chains h)) = Some c1 /\
                   ch_samples c1 = length (h_frames h) /\ frame_at h' (length (h_frames h)) = f2 /\
                   length (h_frames h') = S (length (h_frames h)) /\ h_chains h' = h_chains h ++ [c1]
  end.
Proof.
  unfold new_chain, cpure. fold (color_step rgb a). destruct (color_step rgb a) as [color|e]; cbn [rbind]; [|reflexivity].
  destruct (alloc_frame h (frame_at h (a_samples a))) as [h1 l] eqn:EA.
  assert (E1 : h1 = fst (alloc_frame h (frame_at h (a_samples a)))) by (rewrite EA; reflexivity).
  assert (El : l = length (h_frames h)) by (injection EA as <- <-; reflexivity). subst l.
  set (c := build color a (length (h_frames h))). destruct (negb (field_ranges c)); [reflexivity|].
  assert (HL : (ch_samples c < length (h_frames h1))%nat) by (rewrite E1; cbn; rewrite app_length; cbn; lia).
  pose proof (validate_pure h1 c HL) as V.
  assert (EF : frame_at h1 (ch_samples c) = frame_at h (a_samples a)) by (rewrite E1; apply frame_at_alloc).
  rewrite EF in V. destruct (validate_model h1 c) as [h2 r2].
  destruct (vpure (frame_at h (a_samples a)) c) as [[f2 c1]|e] eqn:EV; cbn [wrap]; [|rewrite V; reflexivity].
  destruct V as [-> [V2 [V3 V4]]]. cbn.
  assert (EC : h_chains h2 = h_chains h) by (rewrite V4, E1; reflexivity).
  assert (S1 : ch_samples c1 = length (h_frames h)).
  { clear -EV. unfold vpure in EV. destruct (f_empty _); [discriminate|]. destruct (negb (f_has _ _) && _); [discriminate|].
    destruct (f_has _ _ && _); [discriminate|]. destruct (negb (forallb _ _)); [discriminate|].
    destruct (shifted _ _); [|discriminate]. destruct (negb _) in EV; [discriminate|].
    destruct (match ch_cfg c Fcolor_param with Some p => _ | None => _ end); [discriminate|].
    destruct (match ch_ndata c with Some p => _ | None => _ end); [discriminate|]. destruct (_ && _); [discriminate|].
    injection EV as _ <-. reflexivity. }
  rewrite EC. split; [reflexivity|]. split; [unfold chain_at; cbn; rewrite nth_error_app2, Nat.sub_diag by lia; reflexivity|].
  split; [exact S1|]. split; [exact V2|]. split; [|reflexivity].
  rewrite V3, E1. cbn. rewrite app_length. cbn. lia.
Qed.

(** * Which inputs are accepted *)
Lemma cell_gt_pos q : cell_gt (Fin q) 0 = true <-> (0 < q)%Q.
Proof.
  cbn. destruct (Qle_bool q 0) eqn:E; cbn.
  - apply Qle_bool_iff in E. split; [discriminate|]. intros H. lra.
  - split; [intros _|reflexivity]. destruct (Qlt_le_dec 0 q) as [|L]; [assumption|]. apply Qle_bool_iff in L. congruence.
Qed.
Lemma names_split (L : list string) w : In w L -> exists pre post, L = pre ++ w :: post.
Proof. apply in_split. Qed.
Lemma with_weight_names f wn : f_names (with_weight f wn) = if f_has f wn then f_names f else f_names f ++ [wn].
Proof.
  unfold with_weight. destruct (f_has f wn) eqn:E; [reflexivity|]. apply f_set_names_new. intros H. apply f_has_names in H. congruence.
Qed.
Lemma with_weight_cols f wn : f_cols (with_weight f wn) = if f_has f wn then f_cols f else f_cols f ++ [(CStr wn, repeat (Fin 1) (f_rows f))].
Proof.
  unfold with_weight. destruct (f_has f wn) eqn:E; [reflexivity|]. apply f_set_cols_new. intros H. apply f_has_names in H. congruence.
Qed.
Lemma with_weight_rows f wn : f_rows (with_weight f wn) = f_rows f.
Proof. unfold with_weight. destruct (f_has f wn); reflexivity. Qed.
Lemma NoDup_app_snoc {A} (l : list A) x : NoDup l -> ~ In x l -> NoDup (l ++ [x]).
Proof.
  induction l as [|y l IH]; intros ND H; cbn; [constructor; [intros []|constructor]|]. inversion ND as [|? ? Hn ND']; subst.
  constructor; [|apply IH; [exact ND'|intros HI; apply H; right; exact HI]].
  intros HI. apply in_app_or in HI. destruct HI as [HI|[->|[]]]; [contradiction|]. apply H. left. reflexivity.
Qed.
Lemma with_weight_wf f wn : frame_wf f -> frame_wf (with_weight f wn).
Proof.
  intros [W1 W2]. split.
  - rewrite with_weight_cols. destruct (f_has f wn) eqn:E; [exact W1|]. rewrite map_app. cbn.
    apply NoDup_app_snoc; [exact W1|]. intros H. apply in_str_labels in H. apply f_has_names in H. congruence.
  - intros c l H. change (length l = f_rows (with_weight f wn)). rewrite with_weight_rows. rewrite with_weight_cols in H.
    destruct (f_has f wn); [apply (W2 c); exact H|]. apply in_app_or in H. destruct H as [H|[H|[]]]; [apply (W2 c); exact H|].
    injection H as <- <-. apply repeat_length.
Qed.

(** Clean frame: string labels and finite cells. *)
Definition clean (f : frame) : Prop :=
  (forall c l, In (c, l) (f_cols f) -> exists s, c = CStr s) /\ (forall c l x, In (c, l) (f_cols f) -> In x l -> exists q, x = Fin q).
Definition cleanb (f : frame) : bool :=
  forallb (fun cl => match fst cl with CStr _ => true | CInt _ => false end && forallb cell_finite (snd cl)) (f_cols f).
Lemma cleanb_spec f : cleanb f = true <-> clean f.
Proof.
  unfold cleanb, clean. rewrite forallb_forall. split.
  - intros H. split.
    + intros c l HI. specialize (H _ HI). cbn in H. destruct c as [s|z]; [exists s; reflexivity|discriminate].
    + intros c l x HI Hx. specialize (H _ HI). cbn in H. apply andb_true_iff in H. destruct H as [_ H]. rewrite forallb_forall in H.
      specialize (H x Hx). destruct x; try discriminate. exists q. reflexivity.
  - intros [H1 H2] [c l] HI. cbn. destruct (H1 c l HI) as [s ->]. cbn. apply forallb_forall. intros x Hx.
    destruct (H2 _ _ x HI Hx) as [q ->]. reflexivity.
Qed.
Lemma clean_with_weight f wn : clean (with_weight f wn) <-> clean f.
Proof.
  unfold clean. rewrite with_weight_cols. destruct (f_has f wn); [reflexivity|]. split; intros [H1 H2]; split.
  - intros c l HI. apply (H1 c l). apply in_or_app. left. exact HI.
  - intros c l x HI. apply (H2 c l x). apply in_or_app. left. exact HI.
  - intros c l HI. apply in_app_or in HI. destruct HI as [HI|[HI|[]]]; [apply (H1 c l HI)|]. injection HI as <- _. exists wn. reflexivity.
  - intros c l x HI Hx. apply in_app_or in HI. destruct HI as [HI|[HI|[]]]; [apply (H2 c l x HI Hx)|]. injection HI as _ <-.
    apply repeat_spec in Hx. exists 1%Q. exact Hx.
Qed.
Lemma finite_qs l : (forall x, In x l -> exists q, x = Fin q) -> l = map Fin (qs l) /\ forallb cell_finite l = true.
Proof.
  intros H. unfold qs. split.
  - rewrite map_map. rewrite <- map_id at 1. apply map_ext_in. intros x Hx. destruct (H x Hx) as [q ->]. reflexivity.
  - apply forallb_forall. intros x Hx. destruct (H x Hx) as [q ->]. reflexivity.
Qed.
Lemma in_qs l q : (forall x, In x l -> exists q, x = Fin q) -> (In q (qs l) <-> In (Fin q) l).
Proof.
  intros H. destruct (finite_qs l H) as [E _]. rewrite E at 2. split; [apply in_map|].
  intros HI. apply in_map_iff in HI. destruct HI as [y [Hy HI]]. injection Hy as ->. exact HI.
Qed.

(** The weights of the frame with the weight column added. *)
Definition weights_ok (f : frame) (wn : string) : Prop :=
  exists w, f_get (with_weight f wn) wn = Some w /\ w <> [] /\ (forall x, In x w -> exists q, x = Fin q) /\ (forall x, In x (qs w) -> (0 < x)%Q).
Lemma weights_ok_intro f wn : frame_wf f -> (0 < f_rows f)%nat -> clean f ->
  (forall l q, In (CStr wn, l) (f_cols f) -> In (Fin q) l -> (0 < q)%Q) -> weights_ok f wn.
Proof.
  intros W HR [C1 C2] HP. unfold weights_ok, with_weight. destruct (f_has f wn) eqn:E.
  - destruct (f_has_get _ _ E) as [w Hw]. exists w. pose proof (f_get_In _ _ _ Hw) as HI.
    assert (HF : forall x, In x w -> exists q, x = Fin q) by (intros x; apply (C2 _ _ x HI)).
    split; [exact Hw|]. split; [|split; [exact HF|]].
    + intros ->. destruct W as [_ W2]. specialize (W2 _ _ HI). cbn in W2. unfold f_rows in HR. lia.
    + intros x Hx. apply (HP w x HI). apply in_qs; assumption.
  - exists (repeat (Fin 1) (f_rows f)). split; [apply f_get_set_same|].
    assert (HF : forall x, In x (repeat (Fin 1) (f_rows f)) -> exists q, x = Fin q) by (intros x Hx; apply repeat_spec in Hx; exists 1%Q; exact Hx).
    split; [|split; [exact HF|]].
    + intros H0. apply (f_equal (@length cell)) in H0. rewrite repeat_length in H0. cbn in H0. lia.
    + intros x Hx. apply in_qs in Hx; [|exact HF]. apply repeat_spec in Hx. injection Hx as ->. reflexivity.
Qed.

(** The shift condition. *)
Definition shift_fine (f : frame) (wn : string) : Prop :=
  ~ is_column f wn \/ (exists cols l, f_cols f = cols ++ [(CStr wn, l)]) \/
  (exists l x y, In (CStr wn, l) (f_cols f) /\ In (Fin x) l /\ In (Fin y) l /\ ~ (x == y)%Q).
Lemma is_column_has f n : is_column f n <-> f_has f n = true.
Proof.
  rewrite f_has_names. unfold f_names. rewrite in_str_labels, in_map_iff. split.
  - intros [l H]. exists (CStr n, l). auto.
  - intros [[c l] [H1 H2]]. cbn in H1. subst c. exists l. exact H2.
Qed.
Lemma str_labels_last cols pre wn : (forall c l, In (c, l) cols -> exists s, c = CStr s) -> str_labels cols = pre ++ [wn] ->
  exists cols' l, cols = cols' ++ [(CStr wn, l)].
Proof.
  intros H E. destruct cols as [|x r] using rev_ind; [cbn in E; destruct pre; discriminate|]. clear IHr.
  destruct x as [c l]. destruct (H c l) as [s ->]; [apply in_or_app; right; left; reflexivity|].
  rewrite str_labels_app in E. cbn in E. apply app_inj_tail in E. destruct E as [_ ->]. exists r, l. reflexivity.
Qed.
Lemma shift_spec f wn : frame_wf f -> (0 < f_rows f)%nat -> clean f -> weights_ok f wn ->
  (shift_fine f wn -> exists pre post w f2, let f1 := with_weight f wn in
     f_names f1 = pre ++ wn :: post /\ f_get f1 wn = Some w /\
     shift_loop wn (f_names f1) f1 = Ok f2 /\ f_index f2 = f_index f /\ map fst (f_cols f2) = map fst (f_cols f1) /\
     f_get f2 wn = Some (new_w w) /\
     (forall p vals, In p pre -> f_get f1 p = Some vals -> f_get f2 p = Some (shift_col vals (mean_of vals w))) /\
     (forall p vals, In p post -> f_get f1 p = Some vals -> f_get f2 p = Some (shift_col vals (mean_of vals (new_w w))))) /\
  (~ shift_fine f wn -> shift_loop wn (f_names (with_weight f wn)) (with_weight f wn) = Err ZeroDivisionError).
Proof.
  intros W HR HC [w [Hw [Nw [Fw Pw]]]]. set (f1 := with_weight f wn) in *.
  assert (W1 : frame_wf f1) by (apply with_weight_wf; exact W).
  assert (ND : NoDup (f_names f1)) by (apply nodup_str_labels; exact (proj1 W1)).
  assert (HIn : In wn (f_names f1)) by (apply f_has_names; unfold f_has; rewrite Hw; reflexivity).
  destruct (in_split _ _ HIn) as [pre [post EN]].
  destruct (finite_qs w Fw) as [_ FB].
  assert (HI1 : f_index f1 = f_index f) by (unfold f1, with_weight; destruct (f_has f wn); reflexivity).
  assert (Cl1 : clean f1) by (apply clean_with_weight; exact HC).
  split.
  - intros HS. assert (Cond : post = [] \/ exists x y, In x (qs w) /\ In y (qs w) /\ ~ x == y).
    { destruct HS as [HN|[[cols [l HE]]|[l [x [y [H1 [H2 [H3 H4]]]]]]]].
      - left. rewrite is_column_has in HN. unfold f1 in EN. rewrite with_weight_names in EN. destruct (f_has f wn) eqn:E; [congruence|].
        unfold f1 in ND. rewrite with_weight_names, E in ND.
        destruct post as [|q post] using rev_ind; [reflexivity|]. exfalso. clear IHpost.
        change (pre ++ wn :: post ++ [q]) with (pre ++ (wn :: post) ++ [q]) in EN. rewrite app_assoc in EN.
        apply app_inj_tail in EN. destruct EN as [EN <-]. apply NoDup_remove_2 in ND. rewrite app_nil_r in ND. apply ND. rewrite EN.
        apply in_or_app. right. left. reflexivity.
      - left. assert (E : f_has f wn = true) by (apply is_column_has; exists l; rewrite HE; apply in_or_app; right; left; reflexivity).
        unfold f1 in EN, ND. rewrite with_weight_names, E in EN, ND. unfold f_names in EN, ND. rewrite HE, str_labels_app in EN, ND. cbn in EN, ND.
        destruct post as [|q post] using rev_ind; [reflexivity|]. exfalso. clear IHpost.
        change (pre ++ wn :: post ++ [q]) with (pre ++ (wn :: post) ++ [q]) in EN. rewrite app_assoc in EN.
        apply app_inj_tail in EN. destruct EN as [EN <-]. apply NoDup_remove_2 in ND. rewrite app_nil_r in ND. apply ND. rewrite EN.
        apply in_or_app. right. left. reflexivity.
      - right. assert (Hl : f_get f1 wn = Some l).
        { assert (E : f_has f wn = true) by (apply is_column_has; exists l; exact H1). unfold f1, with_weight. rewrite E. apply f_get_wf; assumption. }
        rewrite Hw in Hl. injection Hl as <-. exists x, y. split; [apply in_qs; assumption|]. split; [apply in_qs; assumption|exact H4]. }
    destruct (shift_all wn pre post f1 w EN ND Hw FB Pw Nw Cond) as [f2 [A1 [A2 [A3 [A4 [A5 A6]]]]]].
    exists pre, post, w, f2. cbv zeta. split; [exact EN|]. split; [exact Hw|]. split; [exact A1|]. split; [congruence|]. split; [exact A3|]. split; [exact A4|]. split; assumption.
  - intros HS. assert (E : f_has f wn = true).
    { destruct (f_has f wn) eqn:E; [reflexivity|]. exfalso. apply HS. left. rewrite is_column_has. congruence. }
    assert (Ef : f1 = f) by (unfold f1, with_weight; rewrite E; reflexivity).
    apply (shift_all_fail wn pre post f1 w EN ND Hw FB Pw Nw).
    + intros ->. apply HS. right. left. rewrite Ef in EN. unfold f_names in EN.
      destruct (str_labels_last (f_cols f) pre wn (proj1 HC) EN) as [cols [l Hl]]. exists cols, l. exact Hl.
    + intros x y Hx Hy. destruct (Qeq_dec x y) as [|N]; [assumption|]. exfalso. apply HS. right. right.
      exists w, x, y. split; [rewrite Ef in Hw; apply f_get_In; exact Hw|]. split; [apply in_qs; assumption|]. split; [apply in_qs; assumption|exact N].
Qed.

(** What the model validator requires. *)
Record vreq (f : frame) (c : chain) : Prop := {
  v_rows : (0 < f_rows f)%nat;
  v_cols : f_cols f <> [];
  v_name : ~ is_column f (ch_weight c) -> ch_weight c = "weight"%string;
  v_clean : clean f;
  v_weights : forall l q, In (CStr (ch_weight c), l) (f_cols f) -> In (Fin q) l -> (0 < q)%Q;
  v_shift : ch_cfg c Fshift_params = true -> shift_fine f (ch_weight c);
  v_walkers : (Z.of_nat (f_rows f) mod ch_walkers c = 0)%Z;
  v_param : forall p, ch_cfg c Fcolor_param = Some p -> is_column f p \/ p = ch_weight c;
  v_ndata : forall x, ch_ndata c = Some x -> exists q, x = Fin q;
  v_multi : ch_cfg c Fmultimodal = true -> forall s, ch_cfg c Fstatistics = Some s -> s = SHdi }.

(** Everything but the shift. *)
Lemma f_has_labels f g n : map fst (f_cols f) = map fst (f_cols g) -> f_has f n = f_has g n.
Proof.
  intros E. assert (HN : f_names f = f_names g) by (unfold f_names; apply str_labels_ext; exact E).
  destruct (f_has f n) eqn:E1, (f_has g n) eqn:E2; try reflexivity.
  - apply f_has_names in E1. rewrite HN in E1. apply f_has_names in E1. congruence.
  - apply f_has_names in E2. rewrite <- HN in E2. apply f_has_names in E2. congruence.
Qed.
Lemma with_weight_has f wn p : f_has (with_weight f wn) p = true <-> is_column f p \/ p = wn.
Proof.
  rewrite f_has_names, with_weight_names, is_column_has. destruct (f_has f wn) eqn:E.
  - rewrite f_has_names. split; [tauto|]. intros [H| ->]; [exact H|]. apply f_has_names. exact E.
  - rewrite in_app_iff, <- f_has_names. cbn. split; [intros [H|[H|[]]]; auto|]. intros [H|H]; auto.
Qed.
Lemma with_stat_multi c : ch_cfg (with_stat c) Fmultimodal = ch_cfg c Fmultimodal.
Proof. unfold with_stat. cbn. destruct (ch_cfg c Fstatistics); [reflexivity|]. apply (cset_other (ch_cfg c) Fstatistics _ Fmultimodal). discriminate. Qed.
Lemma with_stat_stat c : ch_cfg (with_stat c) Fstatistics = Some match ch_cfg c Fstatistics with Some s => s | None => if ch_cfg c Fmultimodal then SHdi else SMax end.
Proof. unfold with_stat. cbn. destruct (ch_cfg c Fstatistics) eqn:E; [exact E|]. exact (cset_same (ch_cfg c) Fstatistics _). Qed.
Lemma vpure_ok f c : frame_wf f -> vreq f c -> exists f2, vpure f c = Ok (f2, with_stat c) /\
  shifted c (with_weight f (ch_weight c)) = Ok f2 /\ f_index f2 = f_index f /\
  map fst (f_cols f2) = map fst (f_cols (with_weight f (ch_weight c))).
Proof.
  intros W [R1 R2 R3 R4 R5 R6 R7 R8 R9 R10].
  set (wn := ch_weight c) in *. set (f1 := with_weight f wn).
  assert (WO : weights_ok f wn) by (apply weights_ok_intro; assumption).
  assert (HS : exists f2, shifted c f1 = Ok f2 /\ f_index f2 = f_index f /\ map fst (f_cols f2) = map fst (f_cols f1)).
  { unfold shifted. destruct (ch_cfg c Fshift_params).
    - destruct (shift_spec f wn W R1 R4 WO) as [S1 _]. destruct (S1 (R6 eq_refl)) as [pre [post [w [f2 [_ [_ [A1 [A2 [A3 _]]]]]]]]].
      exists f2. auto.
    - exists f1. split; [reflexivity|]. split; [|reflexivity]. unfold f1, with_weight. destruct (f_has f wn); reflexivity. }
  destruct HS as [f2 [HS [HI HL]]]. exists f2. split; [|auto]. unfold vpure. fold wn.
  assert (E0 : f_empty f = false).
  { unfold f_empty. unfold f_rows in R1. destruct (f_index f); [cbn in R1; lia|]. destruct (f_cols f); [contradiction|reflexivity]. }
  rewrite E0.
  assert (E1 : negb (f_has f wn) && negb (String.eqb wn "weight") = false).
  { destruct (f_has f wn) eqn:E; [reflexivity|]. cbn. apply negb_false_iff. apply String.eqb_eq. apply R3. rewrite is_column_has. congruence. }
  rewrite E1.
  assert (E2 : f_has f wn && negb (forallb (fun x => cell_gt x 0) (dflt [] (f_get f wn))) = false).
  { destruct (f_has f wn) eqn:E; [|reflexivity]. cbn [andb]. destruct (f_has_get _ _ E) as [w Hw]. rewrite Hw. cbn [dflt].
    apply negb_false_iff. apply forallb_forall. intros x Hx. apply f_get_In in Hw. destruct (proj2 R4 _ _ x Hw Hx) as [q ->].
    apply cell_gt_pos. apply (R5 w q); assumption. }
  rewrite E2. fold f1. fold (cleanb f1). cbv zeta.
  assert (E3 : cleanb f1 = true) by (apply cleanb_spec; apply clean_with_weight; exact R4). rewrite E3. cbn [negb].
  rewrite HS.
  assert (E4 : f_rows f2 = f_rows f) by (unfold f_rows; rewrite HI; reflexivity). rewrite E4, R7. cbn [Z.eqb negb].
  assert (E5 : match ch_cfg c Fcolor_param with Some p => negb (f_has f2 p) | None => false end = false).
  { destruct (ch_cfg c Fcolor_param) as [p|] eqn:E; [|reflexivity]. apply negb_false_iff. rewrite (f_has_labels f2 f1 p HL).
    apply with_weight_has. apply R8. reflexivity. }
  rewrite E5.
  assert (E6 : match ch_ndata c with Some v => negb (cell_finite v) | None => false end = false).
  { destruct (ch_ndata c) as [x|] eqn:E; [|reflexivity]. destruct (R9 x eq_refl) as [q ->]. reflexivity. }
  rewrite E6.
  rewrite with_stat_multi, with_stat_stat. destruct (ch_cfg c Fmultimodal) eqn:EM; [|reflexivity]. cbn [andb].
  destruct (ch_cfg c Fstatistics) as [s|] eqn:E; [|reflexivity]. rewrite (R10 eq_refl s eq_refl). reflexivity.
Qed.
Lemma vpure_req f c r : frame_wf f -> vpure f c = Ok r -> vreq f c.
Proof.
  intros W H. unfold vpure in H. set (wn := ch_weight c) in *.
  destruct (f_empty f) eqn:E0; [discriminate|].
  assert (R1 : (0 < f_rows f)%nat) by (unfold f_empty in E0; unfold f_rows; destruct (f_index f); [discriminate|cbn; lia]).
  assert (R2 : f_cols f <> []) by (unfold f_empty in E0; destruct (f_index f); [discriminate|]; destruct (f_cols f); discriminate).
  destruct (negb (f_has f wn) && negb (String.eqb wn "weight")) eqn:E1; [discriminate|].
  destruct (f_has f wn && _) eqn:E2; [discriminate|]. fold (cleanb (with_weight f wn)) in H. cbv zeta in H.
  destruct (cleanb (with_weight f wn)) eqn:E3; [|discriminate]. cbn [negb] in H.
  apply cleanb_spec in E3. apply clean_with_weight in E3.
  assert (R5 : forall l q, In (CStr wn, l) (f_cols f) -> In (Fin q) l -> (0 < q)%Q).
  { intros l q HI Hq. assert (HG : f_get f wn = Some l) by (apply f_get_wf; assumption). unfold f_has in E2. rewrite HG in E2. cbn [andb dflt] in E2.
    apply negb_false_iff in E2. rewrite forallb_forall in E2. apply cell_gt_pos. apply E2. exact Hq. }
  assert (WO : weights_ok f wn) by (apply weights_ok_intro; assumption).
  destruct (shift_spec f wn W R1 E3 WO) as [S1 S2].
  assert (R6 : ch_cfg c Fshift_params = true -> shift_fine f wn).
  { intros HT. destruct (shifted c (with_weight f wn)) as [f2|] eqn:ES; [|discriminate]. unfold shifted in ES. fold wn in ES. rewrite HT in ES.
    assert (HD : shift_fine f wn \/ ~ shift_fine f wn).
    { destruct WO as [w [Hw [Nw [Fw Pw]]]].
      destruct (f_has f wn) eqn:EH; [|left; left; rewrite is_column_has; congruence].
      assert (Ef : with_weight f wn = f) by (unfold with_weight; rewrite EH; reflexivity). rewrite Ef in Hw.
      destruct w as [|a w]; [contradiction|]. destruct (Fw a (or_introl eq_refl)) as [qa ->].
      destruct (forallb (fun x => Qeq_bool x qa) (qs (Fin qa :: w))) eqn:EF.
      - destruct (exists_last R2) as [cols [[cl l] EC]].
        destruct (clabel_eqb cl (CStr wn)) eqn:EL.
        + destruct (clabel_eqb_spec cl (CStr wn)) as [->|]; [|discriminate]. left. right. left. exists cols, l. rewrite EC. reflexivity.
        + right. intros [HN|[[cols' [l' HE]]|[l' [x [y [H1 [H2 [H3 H4]]]]]]]].
          * apply HN. apply is_column_has. exact EH.
          * rewrite EC in HE. apply app_inj_tail in HE. destruct HE as [_ HE]. injection HE as -> _. cbn in EL. rewrite String.eqb_refl in EL. discriminate.
          * assert (HG : f_get f wn = Some l') by (apply f_get_wf; assumption). rewrite Hw in HG. injection HG as <-.
            rewrite forallb_forall in EF. apply H4.
            assert (Ex : In x (qs (Fin qa :: w))) by (apply in_qs; assumption). assert (Ey : In y (qs (Fin qa :: w))) by (apply in_qs; assumption).
            apply EF in Ex. apply EF in Ey. apply Qeq_bool_iff in Ex. apply Qeq_bool_iff in Ey. rewrite Ex, Ey. reflexivity.
      - left. right. right. assert (HX : exists x, In x (qs (Fin qa :: w)) /\ ~ (x == qa)%Q).
        { clear -EF. induction (qs (Fin qa :: w)) as [|x r IH]; [discriminate|]. cbn in EF. destruct (Qeq_bool x qa) eqn:E.
          - destruct (IH EF) as [y [Hy Ny]]. exists y. split; [right; exact Hy|exact Ny].
          - exists x. split; [left; reflexivity|]. intros HE. apply Qeq_bool_iff in HE. congruence. }
        destruct HX as [x [Hx Nx]]. exists (Fin qa :: w), x, qa. split; [apply f_get_In; exact Hw|]. split; [apply in_qs; assumption|].
        split; [left; reflexivity|exact Nx]. }
    destruct HD as [HD|HD]; [exact HD|]. rewrite (S2 HD) in ES. discriminate. }
  destruct (shifted c (with_weight f wn)) as [f2|] eqn:ES; [|discriminate].
  assert (HL : f_index f2 = f_index f /\ map fst (f_cols f2) = map fst (f_cols (with_weight f wn))).
  { unfold shifted in ES. fold wn in ES. destruct (ch_cfg c Fshift_params) eqn:EP.
    - destruct (S1 (R6 eq_refl)) as [pre [post [w [f3 [_ [_ [A1 [A2 [A3 _]]]]]]]]]. rewrite A1 in ES. injection ES as <-. auto.
    - injection ES as <-. split; [|reflexivity]. unfold with_weight. destruct (f_has f wn); reflexivity. }
  destruct HL as [HL1 HL2].
  assert (E4 : f_rows f2 = f_rows f) by (unfold f_rows; rewrite HL1; reflexivity). rewrite E4 in H.
  destruct (Z.of_nat (f_rows f) mod ch_walkers c =? 0)%Z eqn:E5; [|discriminate]. cbn [negb] in H. apply Z.eqb_eq in E5.
  destruct (match ch_cfg c Fcolor_param with Some p => negb (f_has f2 p) | None => false end) eqn:E6; [discriminate|].
  destruct (match ch_ndata c with Some v => negb (cell_finite v) | None => false end) eqn:E7; [discriminate|].
  destruct (_ && _) eqn:E8 in H; [discriminate|].
  constructor; try assumption; fold wn.
  - intros HN. rewrite is_column_has in HN. destruct (f_has f wn); [contradiction|]. cbn in E1. apply negb_false_iff in E1. apply String.eqb_eq. exact E1.
  - intros p HP. rewrite HP in E6. apply negb_false_iff in E6. rewrite (f_has_labels f2 _ p HL2) in E6. apply with_weight_has. exact E6.
  - intros x HX. rewrite HX in E7. destruct x; try discriminate. exists q. reflexivity.
  - intros HM s HS. rewrite with_stat_multi, HM, with_stat_stat, HS in E8. destruct s; try discriminate. reflexivity.
Qed.

(** * The constructed chain *)
Lemma color_step_ok rgb a : (exists col, color_step rgb a = Ok col) <->
  (forall i, a_cfg a Fcolor = Some (Some i) -> exists s, format rgb (Some i) = Ok s).
Proof.
  unfold color_step. destruct (a_cfg a Fcolor) as [[i|]|] eqn:E.
  - unfold convert_color, revalidate_color. destruct (format rgb (Some i)) as [s|e] eqn:EF; cbn [rmap rbind wrap].
    + rewrite (format_idem _ _ _ EF). cbn [rmap rbind wrap]. split; [|intros _; eexists; reflexivity].
      intros _ j Hj. injection Hj as <-. exists s. exact EF.
    + split; [intros [c H]; discriminate|]. intros H. destruct (H i eq_refl) as [s Hs]. congruence.
  - cbn. split; [intros _ i Hi; discriminate|]. intros _. eexists. reflexivity.
  - split; [intros _ i Hi; discriminate|]. intros _. eexists. reflexivity.
Qed.
Lemma color_step_val rgb a col : color_step rgb a = Ok col ->
  match a_cfg a Fcolor with
  | None => col = None
  | Some None => col = Some None
  | Some (Some i) => exists s, format rgb (Some i) = Ok s /\ col = Some (Some s)
  end.
Proof.
  unfold color_step. destruct (a_cfg a Fcolor) as [[i|]|] eqn:E.
  - unfold convert_color, revalidate_color. destruct (format rgb (Some i)) as [s|e] eqn:EF; cbn [rmap rbind wrap]; [|discriminate].
    rewrite (format_idem _ _ _ EF). cbn [rmap rbind wrap]. intros H. injection H as <-. exists s. auto.
  - cbn. congruence.
  - congruence.
Qed.
Lemma qle_iff x y : Qle_bool x y = true <-> (x <= y)%Q. Proof. apply Qle_bool_iff. Qed.
Lemma accept_req rgb f a lf : frame_wf f ->
  (acceptable rgb f a <-> exists col, color_step rgb a = Ok col /\ field_ranges (build col a lf) = true /\ vreq f (build col a lf)).
Proof.
  intros W. split.
  - intros [A1 A2 A3 A4 A5 A6 A7 A8 A9 A10 A11 A12 A13 A14 A15 A16].
    destruct (proj2 (color_step_ok rgb a) A15) as [col HC]. exists col. split; [exact HC|]. split.
    + unfold field_ranges, config_ranges. cbn. rewrite !andb_true_iff. repeat split.
      * apply Qle_bool_iff. destruct (a_cfg a Fsummary_area) as [q|] eqn:E; [exact (proj1 (A7 q eq_refl))|discriminate].
      * apply Qle_bool_iff. destruct (a_cfg a Fsummary_area) as [q|] eqn:E; [exact (proj2 (A7 q eq_refl))|discriminate].
      * apply Qle_bool_iff. destruct (a_cfg a Fmarker_size) as [q|] eqn:E; [exact (A8 q eq_refl)|discriminate].
      * apply Z.leb_le. destruct (a_walkers a) as [z|] eqn:E; cbn; [exact (proj1 (A9 z eq_refl))|lia].
      * destruct (a_nfree a) as [[z|]|] eqn:E; cbn; try reflexivity. apply Z.leb_le. apply A10. reflexivity.
      * destruct (a_ndata a) as [[x|]|] eqn:E; cbn; try reflexivity. destruct (A11 x eq_refl) as [q [-> Hq]]. apply Qle_bool_iff. exact Hq.
      * apply Qle_bool_iff. destruct (a_relheight a) as [q|] eqn:E; cbn; [apply A12; reflexivity|discriminate].
    + constructor; cbn; try assumption.
      * split; assumption.
      * destruct (a_cfg a Fshift_params) as [b|] eqn:E; [|discriminate]. intros ->. apply A16. reflexivity.
      * destruct (a_walkers a) as [z|] eqn:E; cbn; [|apply Z.mod_1_r]. destruct (A9 z eq_refl) as [P D]. apply Zdivide_mod. exact D.
      * destruct (a_cfg a Fcolor_param) as [p|] eqn:E; [|discriminate]. intros q ->. apply A13. reflexivity.
      * intros x HX. destruct (a_ndata a) as [[y|]|] eqn:E; cbn in HX; try discriminate. injection HX as ->. destruct (A11 x eq_refl) as [q [-> _]]. exists q. reflexivity.
      * destruct (a_cfg a Fmultimodal) as [b|] eqn:E; [|discriminate]. intros ->. intros s.
        destruct (a_cfg a Fstatistics) as [t|] eqn:E2; [|discriminate]. intros ->. apply A14; reflexivity.
  - intros [col [HC [HR [R1 R2 R3 R4 R5 R6 R7 R8 R9 R10]]]].
    unfold field_ranges, config_ranges in HR. cbn in HR, R3, R4, R5, R6, R7, R8, R9, R10. rewrite !andb_true_iff in HR.
    destruct HR as [[[[[[B1 B2] B3] B4] B5] B6] B7].
    constructor; try assumption; try (exact (proj1 R4)); try exact (proj2 R4).
    + intros q E. rewrite E in B1, B2. split; apply Qle_bool_iff; assumption.
    + intros q E. rewrite E in B3. apply Qle_bool_iff. exact B3.
    + intros z E. rewrite E in B4, R7. cbn in B4, R7. apply Z.leb_le in B4. split; [exact B4|]. apply Zmod_divide; [lia|exact R7].
    + intros z E. rewrite E in B5. cbn in B5. apply Z.leb_le. exact B5.
    + intros x E. rewrite E in B6, R9. cbn in B6, R9. destruct (R9 x eq_refl) as [q ->]. exists q. split; [reflexivity|]. apply Qle_bool_iff. exact B6.
    + intros q E. rewrite E in B7. cbn in B7. apply Qle_bool_iff. exact B7.
    + intros p E. rewrite E in R8. apply R8. reflexivity.
    + intros E s E2. rewrite E, E2 in R10. apply R10; reflexivity.
    + apply color_step_ok. exists col. exact HC.
    + intros E. rewrite E in R6. apply R6. reflexivity.
Qed.
Lemma cpure_accept rgb f a lf : frame_wf f -> acceptable rgb f a ->
  exists col f2, color_step rgb a = Ok col /\ cpure rgb f a lf = Ok (f2, with_stat (build col a lf)) /\
    shifted (build col a lf) (with_weight f (weight_name a)) = Ok f2 /\ f_index f2 = f_index f /\
    map fst (f_cols f2) = map fst (f_cols (with_weight f (weight_name a))).
Proof.
  intros W H. destruct (proj1 (accept_req rgb f a lf W) H) as [col [H1 [H2 H3]]].
  destruct (vpure_ok f (build col a lf) W H3) as [f2 [V1 [V2 [V3 V4]]]]. exists col, f2.
  split; [exact H1|]. split; [|auto]. unfold cpure. rewrite H1. cbn [rbind]. rewrite H2. cbn [negb]. rewrite V1. reflexivity.
Qed.
Lemma cpure_only rgb f a lf r : frame_wf f -> cpure rgb f a lf = Ok r -> acceptable rgb f a.
Proof.
  intros W H. unfold cpure in H. destruct (color_step rgb a) as [col|] eqn:E; [|discriminate]. cbn [rbind] in H.
  destruct (field_ranges (build col a lf)) eqn:E2; [|discriminate]. cbn [negb] in H.
  destruct (vpure f (build col a lf)) as [r'|] eqn:E3; [|discriminate].
  apply (accept_req rgb f a lf W). exists col. split; [exact E|]. split; [exact E2|]. apply (vpure_req _ _ r' W E3).
Qed.
Lemma new_chain_accept rgb h a : frame_wf (frame_at h (a_samples a)) ->
  ((exists h' l, new_chain rgb h a = (h', Ok l)) <-> acceptable rgb (frame_at h (a_samples a)) a).
Proof.
  intros W. pose proof (new_chain_pure rgb h a) as P. destruct (new_chain rgb h a) as [h' r]. split.
  - intros [h1 [l H]]. injection H as -> ->. destruct (cpure rgb _ a _) as [r|e] eqn:E; [|congruence].
    apply (cpure_only _ _ _ _ _ W E).
  - intros H. destruct (cpure_accept rgb _ a (length (h_frames h)) W H) as [col [f2 [_ [E _]]]]. rewrite E in P.
    destruct P as [-> _]. exists h', (length (h_chains h)). reflexivity.
Qed.

(** What can go wrong and how it is reported. *)
Lemma format_name_err s e : format_name s = Err e -> e = IndexError \/ e = ValueError \/ e = KeyError.
Proof.
  unfold format_name. destruct s as [|x r]; [intros H; injection H as <-; auto|]. destruct (Ascii.eqb x hash); [discriminate|].
  assert (C : forall n i, colour_at n i = Err e -> e = IndexError \/ e = ValueError \/ e = KeyError).
  { intros n i. unfold colour_at. destruct (dget n all_colours); [|intros H; injection H as <-; auto].
    repeat match goal with |- context [match ?x with _ => _ end] => destruct x end; intros H; try discriminate; injection H as <-; auto. }
  destruct (dmem (String x r) all_colours); [apply C|]. destruct (dget (String x r) aliases); [cbv zeta; apply C|].
  intros H. injection H as <-. auto.
Qed.
Lemma color_step_err rgb a e : color_step rgb a = Err e -> e = ValidationError \/
  exists i e', a_cfg a Fcolor = Some (Some i) /\ format rgb (Some i) = Err e' /\ e = e' /\ (e = IndexError \/ e = KeyError).
Proof.
  unfold color_step. destruct (a_cfg a Fcolor) as [[i|]|] eqn:E; try discriminate.
  unfold convert_color, revalidate_color. destruct (format rgb (Some i)) as [s|e'] eqn:EF; cbn [rmap rbind wrap].
  - rewrite (format_idem _ _ _ EF). discriminate.
  - intros H. injection H as <-. assert (HF : e' = IndexError \/ e' = ValueError \/ e' = KeyError).
    { destruct i; cbn in EF; apply format_name_err in EF; exact EF. }
    destruct HF as [->|[->| ->]]; cbn; [right|left; reflexivity|right].
    + exists i, IndexError. auto.
    + exists i, KeyError. auto.
Qed.
Lemma shift_loop_err wn : forall ps f e, shift_loop wn ps f = Err e -> (forall p, In p ps -> f_has f p = true) -> f_has f wn = true -> e = ZeroDivisionError.
Proof.
  induction ps as [|p r IH]; intros f e H HP HW; cbn in H; [discriminate|].
  destruct (f_has_get _ _ (HP p (or_introl eq_refl))) as [v Hv]. destruct (f_has_get _ _ HW) as [w Hw]. rewrite Hv, Hw in H.
  unfold average in H. destruct (Qeq_bool (qsum (qs w)) 0); cbn in H; [injection H as <-; reflexivity|].
  apply IH in H; [exact H| |].
  - intros q Hq. rewrite (f_has_labels _ f); [apply HP; right; exact Hq|]. apply f_set_labels, f_has_names, HP. left. reflexivity.
  - rewrite (f_has_labels _ f); [exact HW|]. apply f_set_labels, f_has_names, HP. left. reflexivity.
Qed.

Lemma vpure_err f c e : frame_wf f -> vpure f c = Err e -> e = AssertionError \/ e = ValueError \/ (e = ZeroDivisionError /\ ch_cfg c Fshift_params = true).
Proof.
  intros W H. unfold vpure in H.
  destruct (f_empty f); [injection H as <-; auto|]. destruct (_ && _) in H; [injection H as <-; auto|].
  destruct (_ && _) in H; [injection H as <-; auto|]. cbv zeta in H. destruct (negb (forallb _ _)); [injection H as <-; auto|].
  destruct (shifted c _) as [f2|e'] eqn:ES.
  - destruct (negb _) in H; [injection H as <-; auto|].
    destruct (match ch_cfg c Fcolor_param with Some p => _ | None => _ end); [injection H as <-; auto|].
    destruct (match ch_ndata c with Some p => _ | None => _ end); [injection H as <-; auto|].
    destruct (_ && _) in H; [injection H as <-; auto|discriminate].
  - injection H as <-. unfold shifted in ES. destruct (ch_cfg c Fshift_params); [|discriminate]. right. right. split; [|reflexivity].
    apply (shift_loop_err _ _ _ _ ES).
    + intros p Hp. apply f_has_names. exact Hp.
    + apply with_weight_has. right. reflexivity.
Qed.
Lemma new_chain_err rgb h a h' e : frame_wf (frame_at h (a_samples a)) -> new_chain rgb h a = (h', Err e) ->
  e = ValidationError \/
  ((e = IndexError \/ e = KeyError) /\ exists i, a_cfg a Fcolor = Some (Some i) /\ format rgb (Some i) = Err e) \/
  (e = ZeroDivisionError /\ a_cfg a Fshift_params = Some true).
Proof.
  intros W H. pose proof (new_chain_pure rgb h a) as P. rewrite H in P.
  destruct (cpure rgb _ a _) as [[f2 c1]|e'] eqn:E; [destruct P; discriminate|]. injection P as <-.
  unfold cpure in E. destruct (color_step rgb a) as [col|e'] eqn:EC; cbn [rbind] in E.
  - destruct (negb (field_ranges _)); [injection E as <-; auto|].
    destruct (vpure _ _) as [r|e'] eqn:EV; [discriminate|]. cbn in E. injection E as <-.
    destruct (vpure_err _ _ _ W EV) as [->|[->|[-> HS]]]; cbn; auto. right. right. split; [reflexivity|].
    cbn in HS. destruct (a_cfg a Fshift_params); [rewrite HS; reflexivity|discriminate].
  - injection E as <-. destruct (color_step_err _ _ _ EC) as [->|[i [e2 [H1 [H2 [<- H3]]]]]]; [auto|]. right. left. split; [exact H3|]. exists i. auto.
Qed.

(** The result. *)
Lemma new_chain_result rgb h a h' l : frame_wf (frame_at h (a_samples a)) -> new_chain rgb h a = (h', Ok l) ->
  exists col f2, let f := frame_at h (a_samples a) in let c := with_stat (build col a (length (h_frames h))) in
    color_step rgb a = Ok col /\ l = length (h_chains h) /\ chain_at h' l = Some c /\ frame_at h' (ch_samples c) = f2 /\
    shifted (build col a (length (h_frames h))) (with_weight f (weight_name a)) = Ok f2 /\ f_index f2 = f_index f /\
    map fst (f_cols f2) = map fst (f_cols (with_weight f (weight_name a))) /\ acceptable rgb f a /\
    h_chains h' = h_chains h ++ [c] /\ length (h_frames h') = S (length (h_frames h)).
Proof.
  intros W H. assert (HA : acceptable rgb (frame_at h (a_samples a)) a) by (apply (new_chain_accept rgb h a W); eauto).
  destruct (cpure_accept rgb _ a (length (h_frames h)) W HA) as [col [f2 [H1 [H2 [H3 [H4 H5]]]]]].
  pose proof (new_chain_pure rgb h a) as P. rewrite H, H2 in P. destruct P as [P1 [P2 [P3 [P4 [P5 P6]]]]]. injection P1 as ->.
  exists col, f2. cbv zeta. split; [exact H1|]. split; [reflexivity|]. split; [exact P2|]. split; [exact P4|].
  split; [exact H3|]. split; [exact H4|]. split; [exact H5|]. split; [exact HA|]. split; assumption.
Qed.
Lemma with_stat_other c f : f <> Fstatistics -> ch_cfg (with_stat c) f = ch_cfg c f.
Proof. intros N. unfold with_stat. cbn. destruct (ch_cfg c Fstatistics); [reflexivity|]. apply cset_other. congruence. Qed.
Lemma build_stored rgb a lf col f : color_step rgb a = Ok col ->
  match a_cfg a f with Some i => stored rgb f i (ch_cfg (with_stat (build col a lf)) f) | None => f <> Fstatistics -> ch_cfg (with_stat (build col a lf)) f = default_config f end.
Proof.
  intros HC. destruct (cfield_eq_dec f Fstatistics) as [->|N].
  - destruct (a_cfg a Fstatistics) as [[s|]|] eqn:E; cbn [stored]; try exact I; [|congruence].
    rewrite with_stat_stat. cbn. rewrite E. reflexivity.
  - destruct (cfield_eq_dec f Fcolor) as [->|NC].
    + pose proof (color_step_val rgb a col HC) as V. rewrite with_stat_other by discriminate. cbn [build ch_cfg fill].
      destruct (a_cfg a Fcolor) as [[i|]|]; cbn [stored].
      * destruct V as [s [V1 ->]]. exists s. auto.
      * rewrite V. reflexivity.
      * intros _. rewrite V. reflexivity.
    + rewrite with_stat_other by exact N. destruct f; try contradiction; cbn [build ch_cfg fill];
        match goal with |- match ?x with _ => _ end => destruct x; cbn [stored]; [reflexivity|intros _; reflexivity] end.
Qed.
