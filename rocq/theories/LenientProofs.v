(** Proofs about diagnostics under two thresholds, and for fewer chains. *)
From Coq Require Import String List Bool Arith ZArith QArith Qround Lia Reals Qreals Lra Lqa.
From Verif Require Import Py NumModel FrameModel FrameFacts ConfigModel ChainModel RegistryModel CovModel CovSpec DiagModel DiagSpec DiagProofs LenientSpec.
Import ListNotations.
Open Scope list_scope.

Definition rel (p p' : string * bool) : Prop := fst p = fst p' /\ (snd p = true -> snd p' = true).
Lemma dset_rel k b b' d d' : (b = true -> b' = true) -> Forall2 rel d d' -> Forall2 rel (dset k b d) (dset k b' d').
Proof.
  intros HB H. induction H as [|[k1 v1] [k2 v2] d d' [E V] H IH]; [constructor; [split; [reflexivity|exact HB]|constructor]|].
  cbn in E, V. subst k2. cbn [dset]. destruct (String.eqb k k1); constructor; try assumption; (split; [reflexivity|assumption]).
Qed.
Lemma dmerge_rel a a' : Forall2 rel a a' -> forall d d', Forall2 rel d d' -> Forall2 rel (dmerge d a) (dmerge d' a').
Proof.
  unfold dmerge. induction 1 as [|[k1 v1] [k2 v2] a a' [E V] H IH]; intros d d' HD; [exact HD|]. cbn in E, V. subst k2. cbn [fold_left fst snd]. apply IH. apply dset_rel; assumption.
Qed.
Lemma fold_rel ts ts' : Forall2 at_least ts ts' -> forall d d', Forall2 rel d d' ->
  Forall2 rel (fold_left (fun d r => dmerge d (t_results r)) ts d) (fold_left (fun d r => dmerge d (t_results r)) ts' d').
Proof. induction 1 as [|t t' ts ts' [_ A] H IH]; intros d d' HD; [exact HD|]. cbn [fold_left]. apply IH. apply dmerge_rel; assumption. Qed.
Lemma all_rel ts ts' : Forall2 at_least ts ts' -> forallb t_passed ts = true -> forallb t_passed ts' = true.
Proof.
  induction 1 as [|t t' ts ts' [A _] H IH]; [auto|]. cbn [forallb]. rewrite !andb_true_iff. intros [P Q]. auto.
Qed.
Lemma rmapM_rel {A} (g g' : A -> res test_result) l : (forall x, outcome_at_least (g x) (g' x)) ->
  match rmapM g l, rmapM g' l with Ok ts, Ok ts' => Forall2 at_least ts ts' | Err e, Err e' => e = e' | _, _ => False end.
Proof.
  intros H. induction l as [|x l IH]; [constructor|]. cbn [rmapM]. specialize (H x). unfold outcome_at_least in H.
  destruct (g x) as [t|e], (g' x) as [t'|e']; try contradiction; cbn [rbind]; [|exact H].
  destruct (rmapM g l), (rmapM g' l); try contradiction; cbn [rbind rmap]; [constructor; assumption|exact IH].
Qed.
Lemma over_rel (one one' : chain -> frame -> res test_result) w r : (forall c f, outcome_at_least (one c f) (one' c f)) -> outcome_at_least (over_chains one w r) (over_chains one' w r).
Proof.
  intros H. unfold over_chains. destruct (diag_chains w r) as [ls|e]; [|reflexivity]. cbn [rbind]. fold (run_one one w) (run_one one' w).
  assert (R : forall l, outcome_at_least (run_one one w l) (run_one one' w l)). { intros l. unfold run_one. destruct (chain_at (fst w) l); [apply H|reflexivity]. }
  destruct ls as [|l1 [|l2 ls]]; [reflexivity|apply R|].
  pose proof (rmapM_rel _ _ (l1 :: l2 :: ls) R) as G. destruct (rmapM (run_one one w) _), (rmapM (run_one one' w) _); try contradiction; cbn [rmap rbind]; [|exact G].
  split; [apply all_rel; exact G|]. apply (fold_rel _ _ G). constructor.
Qed.
Lemma gr_passed_le t t' o : (t <= t')%Q -> gr_passed t o = true -> gr_passed t' o = true.
Proof.
  intros L. destruct o as [q|]; [|discriminate]. rewrite !gr_passed_some. unfold near_one. intros H. apply Qle_Rle in L. Lra.lra.
Qed.
Lemma gr_one_rel t t' : (t <= t')%Q -> forall c f, outcome_at_least (gelman_rubin_one c f t) (gelman_rubin_one c f t').
Proof.
  intros L c f. unfold gelman_rubin_one. destruct (select f (data_columns c f)) as [xs|]; [|reflexivity]. cbn [rbind]. destruct (negb _); [reflexivity|]. destruct (negb _); [reflexivity|].
  cbn [outcome_at_least].
  assert (A : forall m n, forallb (fun x => gr_passed t (gr_ratio x m n)) xs = true -> forallb (fun x => gr_passed t' (gr_ratio x m n)) xs = true).
  { intros m n. rewrite !forallb_forall. intros H x HI. apply (gr_passed_le t); [exact L|]. apply H. exact HI. }
  split; cbn [t_passed t_results]; [apply A|]. constructor; [|constructor]. split; [reflexivity|apply A].
Qed.
Lemma gw_one_rel yw nt first last t t' : (t' <= t)%Q -> forall c f, outcome_at_least (geweke_one yw nt first last t c f) (geweke_one yw nt first last t' c f).
Proof.
  intros L c f. unfold geweke_one. destruct (negb _); [reflexivity|]. destruct (select f (data_columns c f)) as [xs|]; [|reflexivity]. cbn [rbind]. destruct (negb _); [reflexivity|].
  destruct (rmapM _ _) as [zs|]; [|reflexivity]. cbn [rbind]. destruct (nt _) as [p|]; [|reflexivity]. cbn [rbind outcome_at_least]. apply Qle_Rle in L.
  assert (A : match p with Some v => if Rlt_dec (Q2R t) v then true else false | None => false end = true -> match p with Some v => if Rlt_dec (Q2R t') v then true else false | None => false end = true).
  { destruct p as [v|]; [|auto]. destruct (Rlt_dec (Q2R t) v); [|discriminate]. destruct (Rlt_dec (Q2R t') v); [reflexivity|]. exfalso. Lra.lra. }
  split; cbn [t_passed t_results]; [exact A|]. constructor; [|constructor]. split; [reflexivity|exact A].
Qed.
(** Fewer chains. *)
Lemma over_fewer one w r r' ls ls' t : (forall c f t, one c f = Ok t -> t_results t = [(ch_name c, t_passed t)]) -> asked_for w r ls -> asked_for w r' ls' -> ls' <> [] -> incl ls' ls ->
  over_chains one w r = Ok t -> exists t', over_chains one w r' = Ok t' /\ (t_passed t = true -> t_passed t' = true).
Proof.
  intros HO HA HA' NE I H. destruct (over_ok one w r ls t HO HA H) as [ts [ns [_ [FT [_ [P _]]]]]].
  assert (G : forall l, In l ls -> exists u, over_chains one w (DOne (DObject l)) = Ok u /\ In u ts).
  { clear -FT. intros l HI. induction FT as [|l0 u ls ts E FT IH]; [destruct HI|]. destruct HI as [<-|HI]; [exists u; split; [exact E|left; reflexivity]|]. destruct (IH HI) as [v [V1 V2]]. exists v. split; [exact V1|right; exact V2]. }
  assert (FT' : exists us, Forall2 (fun l t => over_chains one w (DOne (DObject l)) = Ok t) ls' us /\ incl us ts).
  { clear HA' NE. induction ls' as [|l ls' IH]; [exists []; split; [constructor|intros u []]|]. destruct (G l (I l (or_introl eq_refl))) as [u [U1 U2]].
    destruct IH as [us [V1 V2]]; [intros x Hx; apply I; right; exact Hx|]. exists (u :: us). split; [constructor; assumption|]. intros x [<-|Hx]; [exact U2|apply V2; exact Hx]. }
  destruct FT' as [us [F1 F2]]. destruct (over_conv one w r' ls' us HA' NE F1) as [t' T']. exists t'. split; [exact T'|]. intros PT.
  destruct (over_ok one w r' ls' t' HO HA' T') as [us' [ns' [_ [F1' [_ [P' _]]]]]]. apply P'. intros u HU.
  assert (EU : us' = us). { clear -F1 F1'. revert us' F1'. induction F1 as [|l a ls us E F IH]; intros us' F1'; inversion F1' as [|? b ? ? E' F']; subst; [reflexivity|]. rewrite E in E'. injection E' as ->. f_equal. apply IH. exact F'. }
  subst us'. apply (proj1 P PT). apply F2. exact HU.
Qed.
