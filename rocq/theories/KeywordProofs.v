(** Lemmas about unknown keyword arguments. *)
From Coq Require Import String List Bool Arith ZArith QArith Lia.
From Verif Require Import Py NumModel ColorModel MarginalModel FrameModel ConfigModel ChainModel RegistryModel RegistrySpec HeapFacts RegistryProofs KeywordModel KeywordSpec.
Import ListNotations.
Open Scope list_scope.

Lemma resolve_same num ov : (forall o, ov = Some o -> x_names o = []) -> forall d h colors, resolve_loop_kw h num ov colors d = resolve_loop h num (option_map x_obj ov) colors d.
Proof.
  intros N. induction d as [|[n l] d IH]; intros h colors; [reflexivity|]. cbn [resolve_loop_kw resolve_loop]. destruct (chain_at h l) as [c|]; [|reflexivity]. cbv zeta.
  destruct (match ch_cfg c Fcolor with Some _ => _ | None => _ end) as [[local cs]|e]; [|reflexivity]. destruct ov as [o|]; [|apply IH].
  cbn [option_map]. unfold dump_kw. rewrite (N o eq_refl). apply IH.
Qed.
Lemma final_same w : well_spelt w -> get_final_chains_kw w = ((fst (fst (get_final_chains (forget w))), snd w), snd (get_final_chains (forget w))).
Proof.
  intros N. destruct w as [h k]. unfold get_final_chains_kw, get_final_chains, forget. cbn [fst snd k_chains k_override]. destruct (copy_chains h (y_chains k)) as [h1 finals]. rewrite (resolve_same _ _ N).
  destruct (resolve_loop h1 _ _ _ finals) as [h2 [u|e]]; reflexivity.
Qed.
Lemma select_same w req b : well_spelt w -> sanitise_chains_kw w req b = ((fst (fst (sanitise_chains (forget w) req b)), snd w), snd (sanitise_chains (forget w) req b)).
Proof.
  intros N. unfold sanitise_chains_kw, sanitise_chains. rewrite (final_same w N). destruct (get_final_chains (forget w)) as [w1 [finals|e]]; reflexivity.
Qed.
Lemma resolve_kw_untouched h0 num ov : forall d h colors, untouched h0 h -> (forall n l, In (n, l) d -> (length (h_chains h0) <= l)%nat) -> untouched h0 (fst (resolve_loop_kw h num ov colors d)).
Proof.
  induction d as [|[n l] d IH]; intros h colors U L; [exact U|]. cbn [resolve_loop_kw]. destruct (chain_at h l) as [c|]; [|exact U]. cbv zeta.
  destruct (match ch_cfg c Fcolor with Some _ => _ | None => _ end) as [[local cs]|e]; [|exact U].
  assert (W : forall c', untouched h0 (write_chain h l c')) by (intros c'; apply untouched_write_chain; [exact U|apply (L n); left; reflexivity]).
  assert (L' : forall n0 l0, In (n0, l0) d -> (length (h_chains h0) <= l0)%nat) by (intros n0 l0 I; apply (L n0); right; exact I).
  destruct ov as [o|]; [destruct (dump_kw o); [apply IH; auto|apply W]|apply IH; auto].
Qed.
Lemma copy_head h n l d c h1 d1 : chain_at h l = Some c -> copy_chains h ((n, l) :: d) = (h1, d1) -> exists r l1, d1 = (n, l1) :: r /\ chain_at h1 l1 = Some c.
Proof.
  intros E H. cbn [copy_chains] in H. rewrite E in H. destruct (alloc_chain h c) as [h2 l1] eqn:EA. destruct (copy_chains h2 d) as [h3 r2] eqn:EC. injection H as <- <-. exists r2, l1. split; [reflexivity|].
  unfold alloc_chain in EA. injection EA as <- <-. pose proof (copy_untouched d {| h_frames := h_frames h; h_chains := h_chains h ++ [c] |}) as [[_ U] _]. rewrite EC in U. cbn [fst h_chains] in U. unfold chain_at.
  apply U. rewrite nth_error_app2 by lia. rewrite Nat.sub_diag. reflexivity.
Qed.
Lemma palette_head : exists x cs, next_colour = Ok x :: cs.
Proof. rewrite next_colour_ok. destruct palette as [|x cs] eqn:E; [discriminate|]. exists x, (map Ok cs). reflexivity. Qed.
Lemma misspelt_fails h k o : y_override k = Some o -> x_names o <> [] -> y_chains k <> [] -> (forall n l, In (n, l) (y_chains k) -> exists c, chain_at h l = Some c) ->
  exists h', get_final_chains_kw (h, k) = ((h', k), Err AttributeError) /\ untouched h h'.
Proof.
  intros EO NE NC EX. unfold get_final_chains_kw. destruct (copy_chains h (y_chains k)) as [h1 finals] eqn:EC. pose proof (copy_untouched (y_chains k) h) as [U UL]. rewrite EC in U, UL. cbn [fst snd] in U, UL.
  pose proof (resolve_kw_untouched h (num_contour_chains h (y_chains k)) (y_override k) finals h1 next_colour U) as UR.
  destruct (y_chains k) as [|[n l] d] eqn:EK; [congruence|]. destruct (EX n l (or_introl eq_refl)) as [c Hc]. destruct (copy_head h n l d c h1 finals Hc EC) as [r [l1 [-> Hc1]]].
  set (num := num_contour_chains h ((n, l) :: d)) in *. rewrite EO in *.
  assert (F : snd (resolve_loop_kw h1 num (Some o) next_colour ((n, l1) :: r)) = Err AttributeError).
  { cbn [resolve_loop_kw]. rewrite Hc1. cbv zeta. destruct palette_head as [x [cs EP]]. rewrite EP. unfold dump_kw. destruct (x_names o) as [|z zs]; [congruence|]. destruct (ch_cfg c Fcolor); reflexivity. }
  destruct (resolve_loop_kw h1 num (Some o) next_colour ((n, l1) :: r)) as [h2 [u|e]] eqn:ER; cbn [snd] in F; [discriminate|]. injection F as ->. exists h2. split; [reflexivity|]. apply UR. exact UL.
Qed.
