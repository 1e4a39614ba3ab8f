(** C52, C53: colours. *)
From Coq Require Import String Ascii List Bool Arith ZArith QArith Qround Lia.
From Verif Require Import Py ColorModel ColorSpec ColorProofs.
Import ListNotations.
Open Scope string_scope.
Open Scope list_scope.

(** * C52 *)
(** Anything starting with '#' is returned as it is. *)
Theorem C52_hex_unchanged : forall rgb2hex s, format rgb2hex (Some (CName (String "#" s))) = Ok (String "#" s).
Proof. reflexivity. Qed.
Print Assumptions C52_hex_unchanged.
(** Every palette name gives its own middle shade, a valid colour. *)
Theorem C52_names : forall rgb2hex name shades, In (name, shades) all_colours ->
  exists c, format rgb2hex (Some (CName name)) = Ok c /\ nth_error shades 4 = Some c /\ valid_colour c.
Proof.
  intros rgb name shades H. pose proof names_ok as T. rewrite forallb_forall in T. specialize (T _ H). cbn [fst snd] in T.
  cbn [format]. destruct (format_name name) as [c|e]; [|discriminate]. destruct (nth_error shades 4) as [d|] eqn:E; [|discriminate].
  apply String.eqb_eq in T. subst d. exists c. split; [reflexivity|]. split; [reflexivity|].
  apply palette_valid. exists name, shades. split; [exact H|apply (nth_error_In _ _ E)].
Qed.
Print Assumptions C52_names.
(** Every declared alias except "e" gives a colour of the palette. *)
Theorem C52_aliases_partial : forall rgb2hex a target, In (a, target) aliases -> a <> "e" ->
  exists c, format rgb2hex (Some (CName a)) = Ok c /\ palette_colour c /\ valid_colour c.
Proof.
  intros rgb a t H N. pose proof aliases_ok as T. rewrite forallb_forall in T. specialize (T _ H). cbn [fst] in T.
  destruct (String.eqb_spec a "e"); [contradiction|]. cbn [orb] in T. cbn [format].
  destruct (format_name a) as [c|e] eqn:E; [|discriminate]. exists c. split; [reflexivity|].
  assert (P : palette_colour c).
  { pose proof E as E2. apply format_name_result in E. destruct E as [[r ->] [E|E]]; [|exact E]. exfalso. subst a.
    revert H. unfold aliases. cbn [In]. intros H. repeat (destruct H as [H|H]; [discriminate|]). destruct H. }
  split; [exact P|apply palette_valid; exact P].
Qed.
Print Assumptions C52_aliases_partial.
(** "e" is declared as an alias of "grey", which is not a palette colour. *)
Theorem C52_alias_refuted : exists a target, In (a, target) aliases /\
  forall rgb2hex, format rgb2hex (Some (CName a)) = Err KeyError.
Proof. exists "e", "grey". split; [vm_compute; tauto|]. intros rgb. vm_compute. reflexivity. Qed.
Print Assumptions C52_alias_refuted.
(** Formatting a formatted colour changes nothing, whatever was given. *)
Theorem C52_idempotent : forall rgb2hex i c, format rgb2hex (Some i) = Ok c -> format rgb2hex (Some (CName c)) = Ok c.
Proof. exact format_idem. Qed.
Print Assumptions C52_idempotent.
(** Unknown names, and only those, are rejected with ValueError. *)
Theorem C52_unknown : forall rgb2hex s, s <> "" ->
  (format rgb2hex (Some (CName s)) = Err ValueError <->
   (forall r, s <> String "#" r) /\ ~ In s (dkeys all_colours) /\ ~ In s (dkeys aliases)).
Proof.
  intros rgb s Hs. destruct s as [|x r]; [contradiction|]. cbn [format format_name].
  destruct (Ascii.eqb_spec x hash) as [->|N].
  - split; [discriminate|]. intros [H _]. destruct (H r). reflexivity.
  - assert (H0 : forall r0, String x r <> String "#" r0) by (intros r0 E; injection E as -> _; apply N; reflexivity).
    destruct (dmem (String x r) all_colours) eqn:D.
    + apply dmem_In in D. split; [|tauto]. intros H. exfalso.
      unfold dkeys in D. apply in_map_iff in D. destruct D as [[nm sh] [E HI]]. cbn in E. subst nm.
      destruct (C52_names rgb _ _ HI) as [c [HC _]]. cbn [format format_name] in HC.
      destruct (Ascii.eqb_spec x hash); [contradiction|]. rewrite (proj2 (dmem_In _ _)) in HC by (apply (in_map fst) in HI; exact HI). congruence.
    + destruct (dget (String x r) aliases) as [al|] eqn:E.
      * split; [|intros [_ [_ H]]; destruct H; apply dget_Some_mem; exists al; exact E].
        intros H. exfalso. apply dget_In in E. destruct (string_dec (String x r) "e") as [E2|E2].
        -- rewrite E2 in *. assert (al = "grey"). { revert E. unfold aliases. cbn [In]. intros E. repeat (destruct E as [E|E]; [congruence|]). destruct E. }
           subst al. vm_compute in H. discriminate.
        -- destruct (C52_aliases_partial rgb _ _ E E2) as [c [HC _]]. cbn [format format_name] in HC.
           destruct (Ascii.eqb_spec x hash); [contradiction|]. rewrite D in HC.
           destruct (dget (String x r) aliases) as [al2|] eqn:E3; [|discriminate].
           assert (al2 = al). { apply dget_In in E3. clear -E E3 H0. 
             assert (ND : NoDup (dkeys aliases)) by (cbn; repeat (constructor; [cbn; intuition discriminate|]); constructor).
             pose proof (dget_nodup _ _ _ ND E). pose proof (dget_nodup _ _ _ ND E3). congruence. }
           subst al2. congruence.
      * split; [intros _|reflexivity]. split; [exact H0|]. split; [intros HI; apply dmem_In in HI; congruence|].
        apply dget_None. exact E.
Qed.
Print Assumptions C52_unknown.
Example C52_example : format (fun _ => "") (Some (CName "black")) = Ok "#18181b" /\
  format (fun _ => "") (Some (CName "sky")) = Ok "#0ea5e9" /\ format (fun _ => "") (Some (CName "burgundy")) = Err ValueError.
Proof. vm_compute. repeat split. Qed.

(** * C53 *)
Theorem C53_scale : forall rgb2hex s r g b f, is_colour s r g b -> (0 <= f)%Q ->
  exists s', scale_colour rgb2hex (CName s) f = Ok s' /\
    is_colour s' (Z.min 255 (Qfloor (inject_Z r * f))) (Z.min 255 (Qfloor (inject_Z g * f))) (Z.min 255 (Qfloor (inject_Z b * f))).
Proof. exact scale_spec. Qed.
Print Assumptions C53_scale.
Theorem C53_identity : forall rgb2hex s r g b s', is_colour s r g b ->
  scale_colour rgb2hex (CName s) 1 = Ok s' -> is_colour s' r g b.
Proof.
  intros rgb s r g b s' H E. destruct (scale_spec rgb s r g b 1 H ltac:(discriminate)) as [s2 [E2 H2]].
  rewrite E in E2. injection E2 as <-. apply is_colour_range in H. rewrite !scaled_one in H2 by lia. exact H2.
Qed.
Print Assumptions C53_identity.
Theorem C53_monotone : forall rgb2hex s f f' s1 s2 r1 g1 b1 r2 g2 b2, valid_colour s -> (0 <= f)%Q -> (f <= f')%Q ->
  scale_colour rgb2hex (CName s) f = Ok s1 -> scale_colour rgb2hex (CName s) f' = Ok s2 ->
  is_colour s1 r1 g1 b1 -> is_colour s2 r2 g2 b2 -> (r1 <= r2 /\ g1 <= g2 /\ b1 <= b2)%Z.
Proof.
  intros rgb s f f' s1 s2 r1 g1 b1 r2 g2 b2 [r [g [b H]]] Hf Hff E1 E2 C1 C2.
  destruct (scale_spec rgb s r g b f H Hf) as [t1 [F1 D1]].
  destruct (scale_spec rgb s r g b f' H ltac:(apply (Qle_trans _ f); assumption)) as [t2 [F2 D2]].
  rewrite E1 in F1. injection F1 as <-. rewrite E2 in F2. injection F2 as <-.
  destruct (is_colour_fun _ _ _ _ _ _ _ C1 D1) as [-> [-> ->]]. destruct (is_colour_fun _ _ _ _ _ _ _ C2 D2) as [-> [-> ->]].
  apply is_colour_range in H. repeat split; apply scaled_mono; try lia; exact Hff.
Qed.
Print Assumptions C53_monotone.
(** By name: a palette name or alias scales like the colour it stands for. *)
Theorem C53_by_name : forall rgb2hex i c f, format rgb2hex (Some i) = Ok c ->
  scale_colour rgb2hex i f = scale_colour rgb2hex (CName c) f.
Proof. intros rgb i c f H. unfold scale_colour. rewrite H, (format_idem _ _ _ H). reflexivity. Qed.
Print Assumptions C53_by_name.
Example C53_example : is_colour "#3b82F6" 59 130 246 /\ scale_colour (fun _ => "") (CName "#3b82F6") (3 # 2) = Ok "#58c3ff".
Proof.
  split; [|vm_compute; reflexivity]. exists "3"%char, "b"%char, "8"%char, "2"%char, "F"%char, "6"%char, 3%Z, 11%Z, 8%Z, 2%Z, 15%Z, 6%Z.
  unfold is_digit, digit_table. repeat split; vm_compute; tauto.
Qed.
