(** Proofs about panels. *)
From Coq Require Import String List Bool Arith ZArith QArith Reals Lia.
From Verif Require Import Py ColorModel FrameModel ConfigModel ChainModel AnalysisModel SurfaceModel PanelSpec SurfaceProofs.
From Verif Require Import OpacitySpec OpacityFacts.
Import ListNotations.
Open Scope list_scope.

Lemma dmerge_nodup {A} (a b : dict A) : NoDup (dkeys a) -> NoDup (dkeys (dmerge a b)).
Proof.
  unfold dmerge. revert a. induction b as [|[k v] r IH]; intros a H; cbn; [exact H|]. apply IH, nodup_dset, H.
Qed.

Section panel.
Variable num : numerics.
Variable kde2 : list Q -> list Q -> list Q -> Q -> Q * Q -> Q.
Variable argsort : list Q -> list nat.
Variable Phi : R -> R.
Lemma has_both_bool c f px py : negb (smem px (plotting_columns c f)) || negb (smem py (plotting_columns c f)) = false <-> has_both c f px py.
Proof. unfold has_both. rewrite orb_false_iff, !negb_false_iff, !smem_In. reflexivity. Qed.
Lemma cloud_ok c f px py h b : plot_cloud c f px py = Ok (h, b) -> is_cloud c [h] /\
  b = match ch_cfg c Fcolor_param with Some p => [(p, h)] | None => [] end.
Proof.
  unfold plot_cloud. intros H. apply rbind_ok in H as [x [_ H]]. apply rbind_ok in H as [y [_ H]]. apply rbind_ok in H as [k [_ H]].
  apply rbind_ok in H as [cd [Ec H]]. apply rbind_ok in H as [col [El H]]. injection H as <- <-. split.
  { eexists _, _. split; [reflexivity|]. unfold color_data in Ec. destruct (ch_cfg c Fcolor_param) as [p|]; [destruct (f_get f p); [|discriminate]; injection Ec as <-; injection El as <-; eexists; reflexivity|].
    injection Ec as <-. destruct (chain_colour c) as [s|]; [|discriminate]. injection El as <-. exists s. split; reflexivity. }
  unfold color_data in Ec. destruct (ch_cfg c Fcolor_param) as [p|]; [|destruct cd; reflexivity].
  destruct (f_get f p); [|discriminate]. injection Ec as <-. reflexivity.
Qed.
Lemma contour_ok s2 c f px py d : plot_contour num kde2 argsort Phi s2 c f px py = Ok d -> is_contour c d.
Proof.
  intros H. apply contour_inv in H as [base [[bands lines] [hist [xc [yc [vals [Eb [Ec [_ [_ H]]]]]]]]]]. cbv zeta in H. destruct H as [_ [_ [_ [_ [_ [_ [_ ->]]]]]]].
  cbn [fst snd]. eexists xc, yc, _, _, base, bands, lines, _, _. split; [reflexivity|]. split; [exact Eb|]. rewrite get_levels_length. split; [exact Ec|]. split; [|reflexivity].
  pose proof (shade_on_ok c) as SO. destruct (ch_cfg c Fshade && alpha_positive (ch_cfg c Fshade_alpha))%bool; [left; split; [apply SO|]; reflexivity|right; split; [|reflexivity]]. intros K. apply SO in K. discriminate K.
Qed.
Lemma point_ok c f px py d : plot_point c f px py = Ok d -> is_point c f px py d.
Proof.
  unfold plot_point. intros H. apply rbind_ok in H as [p [Ep H]]. destruct p as [[lp coords]|]; [|left; injection H as <-; split; [exact Ep|reflexivity]].
  right. exists lp, coords. split; [exact Ep|]. destruct (dget px coords) as [x|] eqn:Ex; [|right; injection H as <-; split; [left|]; reflexivity].
  destruct (dget py coords) as [y|] eqn:Ey; [|right; injection H as <-; split; [right|]; reflexivity].
  left. apply rbind_ok in H as [c0 [E0 H]]. apply rbind_ok in H as [col [E1 H]]. destruct (opacity_ok _ _); [|discriminate]. injection H as <-.
  exists x, y, c0, col. split; [reflexivity|]. split; [reflexivity|]. split; [exact E0|]. split; [|reflexivity].
  destruct (ch_cfg c Fplot_contour : bool); [exact E1|]. injection E1 as <-. reflexivity.
Qed.
Lemma surface_one_ok s2 c f px py part bars : surface_one num kde2 argsort Phi s2 c f px py = Ok (part, bars) ->
  panel_part px py (c, f) part /\ ((exists p h, wants_bar px py p h (c, f) /\ bars = [(p, h)]) \/ ((forall p h, ~ wants_bar px py p h (c, f)) /\ bars = [])).
Proof.
  unfold surface_one, panel_part. cbn [fst snd]. destruct (negb _ || negb _) eqn:E.
  - intros H. injection H as <- <-. assert (N : ~ has_both c f px py) by (rewrite <- has_both_bool, E; discriminate).
    split; [left; split; [exact N|reflexivity]|]. right. split; [|reflexivity]. intros p h [B _]. exact (N B).
  - apply has_both_bool in E. intros H. apply rbind_ok in H as [[cl bs] [E1 H]]. apply rbind_ok in H as [ct [E2 H]]. apply rbind_ok in H as [pt [E3 H]].
    injection H as <- <-. cbn [fst snd]. split.
    + right. split; [exact E|]. exists cl, ct, pt. split; [reflexivity|]. split; [|split].
      * destruct (ch_cfg c Fplot_cloud : bool); [|injection E1 as <- _; reflexivity].
        destruct (plot_cloud c f px py) as [[h b]|] eqn:EP; [|discriminate]. injection E1 as <- _. apply (cloud_ok _ _ _ _ _ _ EP).
      * destruct (ch_cfg c Fplot_contour : bool); [exact (contour_ok _ _ _ _ _ _ E2)|injection E2 as <-; reflexivity].
      * destruct (ch_cfg c Fplot_point : bool); [exact (point_ok _ _ _ _ _ E3)|injection E3 as <-; reflexivity].
    + clear E2 E3. destruct (ch_cfg c Fplot_cloud : bool) eqn:PC.
      * destruct (plot_cloud c f px py) as [[h b]|] eqn:EP; [|discriminate]. injection E1 as _ <-. cbn [snd]. destruct (cloud_ok _ _ _ _ _ _ EP) as [_ ->].
        destruct (ch_cfg c Fcolor_param) as [p|] eqn:CP.
        -- left. exists p, h. split; [|reflexivity]. split; [exact E|]. split; [exact PC|]. split; [exact CP|]. eexists. exact EP.
        -- right. split; [|reflexivity]. intros p h' [_ [_ [C _]]]. cbn in C. congruence.
      * injection E1 as _ <-. right. split; [|reflexivity]. intros p h [_ [C _]]. cbn in C. congruence.
Qed.
Lemma wants_bar_fun px py p h h' cf : wants_bar px py p h cf -> wants_bar px py p h' cf -> h = h'.
Proof. intros [_ [_ [_ [b E]]]] [_ [_ [_ [b' E']]]]. congruence. Qed.
Lemma wants_dec px py p cf : (exists h, wants_bar px py p h cf) \/ ~ exists h, wants_bar px py p h cf.
Proof.
  destruct cf as [c f]. unfold wants_bar. cbn [fst snd].
  destruct (negb (smem px (plotting_columns c f)) || negb (smem py (plotting_columns c f))) eqn:HB.
  - right. intros [h [B _]]. apply has_both_bool in B. congruence.
  - apply has_both_bool in HB. destruct (ch_cfg c Fplot_cloud : bool); [|right; intros [h [_ [C _]]]; discriminate].
    destruct (ch_cfg c Fcolor_param) as [q|]; [|right; intros [h [_ [_ [C _]]]]; discriminate].
    destruct (string_dec q p) as [->|NE]; [|right; intros [h [_ [_ [C _]]]]; congruence].
    destruct (plot_cloud c f px py) as [[h b]|]; [left; exists h; split; [exact HB|]; split; [reflexivity|]; split; [reflexivity|]; exists b; reflexivity|].
    right. intros [h [_ [_ [_ [b C]]]]]. discriminate.
Qed.
Lemma last_such {A} (P : A -> Prop) l : (forall x, P x \/ ~ P x) ->
  (forall x, In x l -> ~ P x) \/ exists b x a, l = b ++ x :: a /\ P x /\ forall y, In y a -> ~ P y.
Proof.
  intros D. induction l as [|x l [N|[b [y [a [E [Y1 Y2]]]]]]]; [left; intros x []| |].
  - destruct (D x) as [Px|Nx]; [right; exists [], x, l; split; [reflexivity|]; split; assumption|].
    left. intros y [<-|Hy]; [exact Nx|apply N, Hy].
  - right. exists (x :: b), y, a. split; [rewrite E; reflexivity|]. split; assumption.
Qed.
Lemma plot_surface_ok s2 chains px py ds bars : plot_surface num kde2 argsort Phi s2 chains px py = Ok (ds, bars) ->
  (exists parts, Forall2 (panel_part px py) chains parts /\ ds = concat parts) /\ NoDup (dkeys bars) /\
  forall p h, dget p bars = Some h <-> exists before cf after, chains = before ++ cf :: after /\ wants_bar px py p h cf /\ forall cf' h', In cf' after -> ~ wants_bar px py p h' cf'.
Proof.
  revert ds bars. induction chains as [|[c f] r IH]; intros ds bars H; cbn [plot_surface] in H.
  - injection H as <- <-. split; [exists []; split; constructor|]. split; [constructor|]. intros p h. split; [discriminate|]. intros [b [cf [a [E _]]]]. destruct b; discriminate.
  - apply rbind_ok in H as [[part bs] [E1 H]]. apply rbind_ok in H as [[rest rbars] [E2 H]]. injection H as <- <-. cbn [fst snd].
    destruct (surface_one_ok _ _ _ _ _ _ _ E1) as [P1 B1]. destruct (IH _ _ E2) as [[parts [F1 ->]] [ND IB]]. split; [|split].
    + exists (part :: parts). split; [constructor; assumption|reflexivity].
    + apply dmerge_nodup. destruct B1 as [[q [hq [_ ->]]]|[_ ->]]; [constructor; [intros []|constructor]|constructor].
    + intros p h. rewrite dmerge_get by exact ND.
      assert (NR : dget p rbars = None -> forall cf' h', In cf' r -> ~ wants_bar px py p h' cf').
      { intros EN cf' h' HI WB. destruct (last_such (fun cf => exists h, wants_bar px py p h cf) r (wants_dec px py p)) as [N|[b [cf [a [Ea [[h0 W1] W2]]]]]].
        - apply (N cf' HI). exists h'. exact WB.
        - assert (D : dget p rbars = Some h0); [|congruence]. apply IB. exists b, cf, a. split; [exact Ea|]. split; [exact W1|].
          intros cf2 h2 I2 C. apply (W2 cf2 I2). exists h2. exact C. }
      destruct (dget p rbars) as [h0|] eqn:ER.
      * pose proof (proj1 (IB p h0) ER) as [b [cf [a [Ea [W1 W2]]]]]. split.
        -- intros E. injection E as <-. exists ((c, f) :: b), cf, a. split; [rewrite Ea; reflexivity|]. split; assumption.
        -- intros [b' [cf' [a' [Ea' [W1' W2']]]]]. destruct b' as [|x b'].
           ++ injection Ea' as <- <-. exfalso. apply (W2' cf h0); [rewrite Ea; apply in_or_app; right; left; reflexivity|exact W1].
           ++ injection Ea' as _ Ea'. assert (D : dget p rbars = Some h) by (apply IB; exists b', cf', a'; split; [exact Ea'|]; split; assumption). congruence.
      * specialize (NR eq_refl). destruct B1 as [[q [hq [WQ ->]]]|[NB ->]].
        -- cbn [dget]. destruct (String.eqb p q) eqn:EQ.
           ++ apply String.eqb_eq in EQ. subst q. split.
              ** intros E. injection E as <-. exists [], (c, f), r. split; [reflexivity|]. split; [exact WQ|exact NR].
              ** intros [b [cf [a [Ea [W1 W2]]]]]. destruct b as [|y b]; [injection Ea as <- <-; f_equal; apply (wants_bar_fun _ _ _ _ _ _ WQ W1)|].
                 injection Ea as _ Ea. exfalso. apply (NR cf h); [rewrite Ea; apply in_or_app; right; left; reflexivity|exact W1].
           ++ apply String.eqb_neq in EQ. split; [discriminate|]. intros [b [cf [a [Ea [W1 W2]]]]]. destruct b as [|y b].
              ** injection Ea as <- <-. destruct WQ as [_ [_ [C1 _]]]. destruct W1 as [_ [_ [C2 _]]]. congruence.
              ** injection Ea as _ Ea. exfalso. apply (NR cf h); [rewrite Ea; apply in_or_app; right; left; reflexivity|exact W1].
        -- cbn [dget]. split; [discriminate|]. intros [b [cf [a [Ea [W1 W2]]]]]. destruct b as [|y b]; [injection Ea as <- <-; exfalso; exact (NB _ _ W1)|].
           injection Ea as _ Ea. exfalso. apply (NR cf h); [rewrite Ea; apply in_or_app; right; left; reflexivity|exact W1].
Qed.
End panel.
