(** C92: assigning attributes of existing objects. *)
From Coq Require Import String List Bool Arith ZArith QArith Lia.
From Verif Require Import Py NumModel ColorModel MarginalModel FrameModel ConfigModel ChainModel RegistryModel RegistrySpec HeapFacts RegistryProofs RegistryProps AssignModel AssignSpec AssignProofs.
Import ListNotations.
Open Scope string_scope.
Open Scope list_scope.

(** * C92 *)
(** The value assigned last to a setting of a chain, whenever it is assigned, is the one figures and summaries use - unless the
    override has a value for it, and for all settings but the automatic ones: of these only a colour and those that were
    already given when the chain was made. *)
Theorem C92_chain_partial : forall rgb2hex h0 past l f v n w' finals, let w := doing rgb2hex (h0, new_consumer) past in
  (forall d, In d past -> ~ renames d) -> assigned rgb2hex (h0, new_consumer) past l f v -> get_chain w n = Ok l -> get_final_chains w = (w', Ok finals) -> silent (k_override (snd w)) f ->
  (~ automatic f \/ (exists a, made rgb2hex (h0, new_consumer) past l a /\ a_cfg a f <> None) \/ exists col, existT ctype f v = existT ctype Fcolor (Some col)) ->
  in_use w n f v.
Proof.
  intros rgb h0 past l f v n w' finals w N A G F S C. destruct (assigned_value rgb h0 past l f v N A) as [c [H V]]. fold w in H. assert (W : world_ok w) by (apply doing_ok; [exact N|apply world_ok_new]).
  destruct (used w n l c w' finals W G H F) as [l' [cfg' [pal [D [H' P]]]]]. exists w', finals, l', (with_cfg c cfg'). repeat (split; [assumption|]). cbn [with_cfg ch_cfg]. rewrite <- V.
  destruct (ch_user c f) eqn:U; [exact (pr_user _ _ _ _ _ P f S U)|]. destruct C as [C|[[a [M GA]]|[col E]]].
  - apply (pr_rest _ _ _ _ _ P f S U). exact C.
  - exfalso. destruct (made_user rgb h0 past l a N M) as [c1 [H1 U1]]. fold w in H1. rewrite H in H1. injection H1 as <-. rewrite U1 in U. unfold user_keys in U. destruct (a_cfg a f); [discriminate|contradiction].
  - assert (EF : f = Fcolor) by exact (f_equal (@projT1 _ _) E). subst f. apply (Eqdep_dec.inj_pair2_eq_dec cfield cfield_eq_dec) in E. rewrite E in V. rewrite V. exact (pr_color_kept _ _ _ _ _ P col S V).
Qed.
Print Assumptions C92_chain_partial.
(** Assigning to an attribute of the override in use counts if the attribute was given when the override was made. *)
Theorem C92_override_partial : forall rgb2hex h0 past o f v n l w' finals, let w := doing rgb2hex (h0, new_consumer) past in
  (forall d, In d past -> ~ renames d) -> override_assigned past o f v -> o_user o f = true -> get_chain w n = Ok l -> get_final_chains w = (w', Ok finals) -> in_use w n f v.
Proof.
  intros rgb h0 past o f v n l w' finals w N A U G F. destruct (override_value rgb (h0, new_consumer) past o f v A) as [o' [K [U' V]]]. fold w in K. assert (W : world_ok w) by (apply doing_ok; [exact N|apply world_ok_new]).
  assert (exists c, chain_at (fst w) l = Some c) as [c H]. { unfold get_chain in G. destruct (dget n (k_chains (snd w))) as [k|] eqn:D; [|discriminate]. injection G as ->. destruct (proj2 W n l (dget_In _ _ _ D)) as [c [H _]]. eauto. }
  destruct (used w n l c w' finals W G H F) as [l' [cfg' [pal [D [H' P]]]]]. exists w', finals, l', (with_cfg c cfg'). repeat (split; [assumption|]). cbn [with_cfg ch_cfg]. rewrite <- V. apply (pr_override _ _ _ _ _ P o' f K). rewrite U'. exact U.
Qed.
Print Assumptions C92_override_partial.
(** Assignments change nothing but the object assigned to. *)
Theorem C92_only : forall rgb2hex w d, (forall o, d <> Do o) ->
  h_frames (fst (does rgb2hex w d)) = h_frames (fst w) /\ k_chains (snd (does rgb2hex w d)) = k_chains (snd w) /\
  (forall l, match d with Assign l' _ | Rename l' _ => l <> l' | _ => True end -> chain_at (fst (does rgb2hex w d)) l = chain_at (fst w) l) /\
  (match d with AssignOverride _ => True | _ => k_override (snd (does rgb2hex w d)) = k_override (snd w) end).
Proof.
  intros rgb w d N. destruct d as [o|l s|l n|s]; [exfalso; exact (N o eq_refl)| | |repeat split]; cbn [does fst snd]; (split; [unfold assign, rename; destruct (chain_at (fst w) l); reflexivity|]); (split; [reflexivity|]); (split; [|reflexivity]); intros k NE.
  - rewrite assign_at. destruct (Nat.eqb_spec l k); [congruence|reflexivity].
  - unfold rename. destruct (chain_at (fst w) l) as [c|] eqn:E; [|reflexivity]. rewrite write_chain_at by (apply nth_error_Some; unfold chain_at in E; congruence). destruct (Nat.eqb_spec l k); [congruence|reflexivity].
Qed.
Print Assumptions C92_only.

(** ** Examples and failures *)
(** Two chains; the line width of the first is assigned before and after it is added, its colour later; the shading of the second was given
    and is assigned again; the override's line style is assigned after it was set. *)
Definition ex92_override : config_obj := {| o_cfg := cset default_config Flinestyle "--"; o_user := fun f => match f with Flinestyle => true | _ => false end |}.
Definition ex92_past : list deed :=
  [Do (OpNewChain (ex_args "A" no_kw)); Do (OpNewChain (ex_args "C" (kset no_kw Fshade true))); Assign 0 (existT ctype Flinewidth 2%Q); Do (OpAdd 0); Do (OpAdd 1); Assign 0 (existT ctype Flinewidth 5%Q);
   Do (OpSelect ReqAll false); Assign 0 (existT ctype Fcolor (Some "#123456")); Assign 1 (existT ctype Fshade false); Do (OpOverride ex92_override); AssignOverride (existT ctype Flinestyle ":")].
Notation ex92_world := (doing ex_rgb (ex_heap, new_consumer) ex92_past) (only parsing).
Definition ex92_read {A} (w : world) (n : string) (read : chain -> A) : option A :=
  match get_final_chains w with (w', Ok finals) => match dget n finals with Some l => option_map read (chain_at (fst w') l) | None => None end | _ => None end.
Lemma ex92_used w n f v : ex92_read w n (fun c => ch_cfg c f) = Some v -> in_use w n f v.
Proof.
  unfold ex92_read. destruct (get_final_chains w) as [w' [finals|e]] eqn:E; [|discriminate]. destruct (dget n finals) as [l|] eqn:D; [|discriminate]. destruct (chain_at (fst w') l) as [c|] eqn:C; [|discriminate]. cbn. intros H. injection H as H. exists w', finals, l, c. auto.
Qed.
Lemma ex92_not_used w n f v v' : ex92_read w n (fun c => ch_cfg c f) = Some v' -> v <> v' -> ~ in_use w n f v.
Proof.
  unfold ex92_read. intros H NE [w1 [finals [l [c [E [D [C V]]]]]]]. rewrite E, D, C in H. cbn in H. injection H as H. congruence.
Qed.
Example C92_nonvacuous : (forall d, In d ex92_past -> ~ renames d) /\
  assigned ex_rgb (ex_heap, new_consumer) ex92_past 0 Flinewidth 5%Q /\ assigned ex_rgb (ex_heap, new_consumer) ex92_past 0 Fcolor (Some "#123456") /\ assigned ex_rgb (ex_heap, new_consumer) ex92_past 1 Fshade false /\
  made ex_rgb (ex_heap, new_consumer) ex92_past 1 (ex_args "C" (kset no_kw Fshade true)) /\ override_assigned ex92_past ex92_override Flinestyle ":" /\
  get_chain ex92_world "A" = Ok 0%nat /\ get_chain ex92_world "C" = Ok 1%nat /\
  in_use ex92_world "A" Flinewidth 5%Q /\ in_use ex92_world "A" Fcolor (Some "#123456") /\ in_use ex92_world "C" Fshade false /\ in_use ex92_world "C" Flinestyle ":".
Proof.
  split; [intros d H; repeat (destruct H as [<-|H]; [intros []|]); destruct H|].
  split; [eexists (firstn 5 ex92_past), _; split; [reflexivity|split; [eexists; vm_compute; reflexivity|]]; intros v' H; repeat (destruct H as [H|H]; [try discriminate; injection H as H; discriminate|]); destruct H|].
  split; [eexists (firstn 7 ex92_past), _; split; [reflexivity|split; [eexists; vm_compute; reflexivity|]]; intros v' H; repeat (destruct H as [H|H]; [try discriminate; injection H as H; discriminate|]); destruct H|].
  split; [eexists (firstn 8 ex92_past), _; split; [reflexivity|split; [eexists; vm_compute; reflexivity|]]; intros v' H; repeat (destruct H as [H|H]; [try discriminate; injection H as H; discriminate|]); destruct H|].
  split; [eexists (firstn 1 ex92_past), _, _; split; [reflexivity|vm_compute; reflexivity]|].
  split; [eexists (firstn 9 ex92_past), [], []; split; [reflexivity|]; split; [intros o' []|intros v' []]|].
  split; [vm_compute; reflexivity|]. split; [vm_compute; reflexivity|].
  repeat split; apply ex92_used; vm_compute; reflexivity.
Qed.
(** A shading assigned to a chain that was made without one is replaced by the automatic one. *)
Theorem C92_automatic_refuted : exists rgb2hex h0 past l n, (forall d, In d past -> ~ renames d) /\ assigned rgb2hex (h0, new_consumer) past l Fshade false /\
  get_chain (doing rgb2hex (h0, new_consumer) past) n = Ok l /\ k_override (snd (doing rgb2hex (h0, new_consumer) past)) = None /\
  ~ in_use (doing rgb2hex (h0, new_consumer) past) n Fshade false /\ in_use (doing rgb2hex (h0, new_consumer) past) n Fshade true.
Proof.
  exists ex_rgb, ex_heap, [Do (OpNewChain (ex_args "A" no_kw)); Do (OpAdd 0); Assign 0 (existT ctype Fshade false)], 0%nat, "A".
  split; [intros d H; repeat (destruct H as [<-|H]; [intros []|]); destruct H|]. split; [eexists [_; _], []; split; [reflexivity|]; split; [eexists; vm_compute; reflexivity|intros v' []]|].
  split; [vm_compute; reflexivity|]. split; [vm_compute; reflexivity|]. split; [apply (ex92_not_used _ _ Fshade false true); [vm_compute; reflexivity|discriminate]|apply ex92_used; vm_compute; reflexivity].
Qed.
Print Assumptions C92_automatic_refuted.
(** An attribute of the override that was not given when it was made has no effect when assigned. *)
Theorem C92_override_refuted : exists rgb2hex h0 past o n, override_assigned past o Flinewidth 9%Q /\ (exists l, get_chain (doing rgb2hex (h0, new_consumer) past) n = Ok l) /\
  ~ in_use (doing rgb2hex (h0, new_consumer) past) n Flinewidth 9%Q /\ in_use (doing rgb2hex (h0, new_consumer) past) n Flinewidth 1%Q.
Proof.
  exists ex_rgb, ex_heap, [Do (OpNewChain (ex_args "A" no_kw)); Do (OpAdd 0); Do (OpOverride ex92_override); AssignOverride (existT ctype Flinewidth 9%Q)], ex92_override, "A".
  split; [eexists [_; _], [], []; split; [reflexivity|]; split; [intros o' []|intros v' []]|]. split; [exists 0%nat; vm_compute; reflexivity|].
  split; [apply (ex92_not_used _ _ Flinewidth 9%Q 1%Q); [vm_compute; reflexivity|discriminate]|apply ex92_used; vm_compute; reflexivity].
Qed.
Print Assumptions C92_override_refuted.
(** A chain renamed after it was added: it is still known by its old name, asking for the object itself is a KeyError and removing it an
    AssertionError. *)
Theorem C92_rename_refuted : exists rgb2hex h0 past l c, let w := doing rgb2hex (h0, new_consumer) past in
  past = [Do (OpNewChain (ex_args "A" no_kw)); Do (OpAdd l); Rename l "B"] /\ chain_at (fst w) l = Some c /\ ch_name c = "B" /\
  get_names w = ["A"] /\ get_chain w "B" = Err AssertionError /\ snd (sanitise_chains w (ReqList [ByChain l]) false) = Err KeyError /\ remove_chain w l = (w, Err AssertionError).
Proof.
  exists ex_rgb, ex_heap, [Do (OpNewChain (ex_args "A" no_kw)); Do (OpAdd 0); Rename 0 "B"], 0%nat. eexists. cbv zeta. split; [reflexivity|]. split; [vm_compute; reflexivity|]. split; [reflexivity|]. repeat split; vm_compute; reflexivity.
Qed.
Print Assumptions C92_rename_refuted.
