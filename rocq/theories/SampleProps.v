(** C89: example samples. *)
From Coq Require Import String Ascii List Bool Arith Lia Reals Lra.
From Verif Require Import Py SampleModel SampleSpec.
Import ListNotations.
Open Scope R_scope.

Lemma sum_ext n f g : (forall k, (k < n)%nat -> f k = g k) -> sum_to n f = sum_to n g.
Proof. induction n as [|n IH]; intros H; [reflexivity|]. cbn. rewrite IH by (intros k K; apply H; lia). rewrite H by lia. reflexivity. Qed.
Lemma sum_scale n c f : sum_to n (fun k => c * f k) = c * sum_to n f.
Proof. induction n as [|n IH]; cbn; [ring|]. rewrite IH. ring. Qed.
Lemma sum_plus n f g : sum_to n (fun k => f k + g k) = sum_to n f + sum_to n g.
Proof. induction n as [|n IH]; cbn; [ring|]. rewrite IH. ring. Qed.
Lemma sum_swap n m f : sum_to n (fun i => sum_to m (fun j => f i j)) = sum_to m (fun j => sum_to n (fun i => f i j)).
Proof.
  induction n as [|n IH]; cbn; [induction m as [|m IH]; cbn; [reflexivity|rewrite <- IH; ring]|]. rewrite IH, <- sum_plus. reflexivity.
Qed.
Lemma sum_nonneg n f : (forall k, (k < n)%nat -> 0 <= f k) -> 0 <= sum_to n f.
Proof. induction n as [|n IH]; intros H; cbn; [lra|]. specialize (IH ltac:(intros k K; apply H; lia)). specialize (H n ltac:(lia)). lra. Qed.
Lemma sum_product n f g : sum_to n f * sum_to n g = sum_to n (fun i => sum_to n (fun j => f i * g j)).
Proof. rewrite (sum_ext n (fun i => sum_to n (fun j => f i * g j)) (fun i => sum_to n g * f i)) by (intros k _; rewrite sum_scale; ring). rewrite sum_scale. ring. Qed.
Lemma sum_pos n f i : (forall k, (k < n)%nat -> 0 <= f k) -> (i < n)%nat -> 0 < f i -> 0 < sum_to n f.
Proof.
  intros H L P. induction n as [|n IH]; [lia|]. cbn. destruct (Nat.eq_dec i n) as [->|N].
  - pose proof (sum_nonneg n f ltac:(intros k K; apply H; lia)). lra.
  - specialize (IH ltac:(intros k K; apply H; lia) ltac:(lia)). specialize (H n ltac:(lia)). lra.
Qed.
Lemma cov_pos d random i : (exists k, (k < d)%nat /\ random i k <> 1 / 2) -> 0 < cov d random i i.
Proof. intros [k [K N]]. unfold cov. apply (sum_pos _ _ k); [intros j _; nra|exact K|]. unfold vals. nra. Qed.

Lemma cor_proper : forall d random, (forall i, (i < d)%nat -> exists k, (k < d)%nat /\ random i k <> 1 / 2) -> correlation_matrix d (cor d random).
Proof.
  intros d random NZ. constructor.
  - intros i j. unfold cor, cov. rewrite (Rmult_comm (sqrt _)). f_equal. apply sum_ext. intros k _. ring.
  - intros i L. unfold cor. pose proof (cov_pos d random i (NZ i L)) as P. rewrite sqrt_sqrt by lra. field. lra.
  - intros x. set (y := fun i => x i / sqrt (cov d random i i)).
    rewrite (sum_ext d _ (fun i => sum_to d (fun j => sum_to d (fun k => (y i * vals random i k) * (y j * vals random j k))))).
    + rewrite (sum_ext d _ (fun i => sum_to d (fun k => sum_to d (fun j => (y i * vals random i k) * (y j * vals random j k))))) by (intros i _; apply sum_swap).
      rewrite sum_swap. apply sum_nonneg. intros k _. rewrite <- sum_product. nra.
    + intros i Li. apply sum_ext. intros j Lj. unfold cor, y. pose proof (cov_pos d random i (NZ i Li)) as Pi. pose proof (cov_pos d random j (NZ j Lj)) as Pj.
      pose proof (sqrt_lt_R0 _ Pi). pose proof (sqrt_lt_R0 _ Pj).
      set (si := sqrt (cov d random i i)) in *. set (sj := sqrt (cov d random j j)) in *. unfold cov at 1.
      rewrite (sum_ext d (fun k => x i / si * vals random i k * (x j / sj * vals random j k)) (fun k => (x i / si * (x j / sj)) * (vals random i k * vals random j k))) by (intros k _; ring).
      rewrite sum_scale. field. lra.
Qed.
(** The points are drawn from a normal distribution with a proper correlation matrix (unless all values drawn for a parameter are
    exactly one half) and means at, or within one of, 0, 5, 10, ...: only what scipy does for such arguments matters. *)
Theorem C89_distribution : forall mv mv' random uniform d (randomise : bool) n, (forall i, (i < d)%nat -> exists k, (k < d)%nat /\ random i k <> 1 / 2) ->
  (forall i, -1 <= uniform i <= 1) ->
  (forall m c, correlation_matrix d c -> (forall i, if randomise then -1 <= m i - 5 * INR i <= 1 else m i = 5 * INR i) -> mv d m c = mv' d m c) ->
  make_sample mv random uniform d randomise n = make_sample mv' random uniform d randomise n.
Proof.
  intros mv mv' random uniform d randomise n NZ U A. unfold make_sample. rewrite A; [reflexivity|apply cor_proper; exact NZ|].
  intros i. unfold means. destruct randomise; [specialize (U i)|]; lra.
Qed.
Print Assumptions C89_distribution.

Lemma letters_alphabet d : (d <= 26)%nat -> map letter (seq 0 d) = firstn d alphabet.
Proof. intros L. do 27 (destruct d as [|d]; [reflexivity|]). lia. Qed.
Lemma nth_seq d i : (i < d)%nat -> nth_error (seq 0 d) i = Some i.
Proof. intros L. rewrite (nth_error_nth' _ 0%nat) by (rewrite seq_length; exact L). rewrite seq_nth by exact L. reflexivity. Qed.
(** With at most 26 parameters and any number of points but one: a column for each parameter, named by the letters of the alphabet, holding
    that coordinate of the points, and the logarithm of their density as last column. *)
Theorem C89_table_partial : forall mv random uniform d randomise n norm, mv d (means randomise uniform) (cor d random) = Ok norm -> draws norm d -> (d <= 26)%nat -> n <> 1%nat ->
  exists t, make_sample mv random uniform d randomise n = Ok t /\ map fst t = firstn d alphabet ++ ["log_posterior"%string] /\
    (forall j c v, (j < d)%nat -> nth_error t j = Some (c, v) -> length v = n /\ forall i r, nth_error (nm_rows norm n) i = Some r -> exists x, nth_error r j = Some x /\ nth_error v i = Some x) /\
    (forall c v, nth_error t d = Some (c, v) -> length v = n /\ forall i r, nth_error (nm_rows norm n) i = Some r -> nth_error v i = Some (nm_logpdf norm r)).
Proof.
  intros mv random uniform d randomise n norm EM D LD N1. unfold make_sample. rewrite EM. cbn [rbind]. destruct (Nat.eqb_spec n 1) as [E|_]; [contradiction|]. destruct (D n) as [DL DR].
  eexists. split; [reflexivity|]. assert (LS : length (map (fun i => (letter i, map (fun r => nth i r 0) (nm_rows norm n))) (seq 0 d)) = d) by (rewrite map_length; apply seq_length).
  split; [rewrite map_app, map_map; cbn [map fst]; rewrite letters_alphabet by exact LD; reflexivity|]. split.
  - intros j c v L E. rewrite nth_error_app1 in E by lia. rewrite nth_error_map, (nth_seq d j L) in E. cbn in E. injection E as _ <-. split; [rewrite map_length; exact DL|].
    intros i r ER. exists (nth j r 0). split; [|rewrite nth_error_map, ER; reflexivity]. apply nth_error_nth'. rewrite (DR r (nth_error_In _ _ ER)). exact L.
  - intros c v E. rewrite nth_error_app2 in E by lia. rewrite LS, Nat.sub_diag in E. cbn in E. injection E as _ <-. split; [rewrite map_length; exact DL|].
    intros i r ER. rewrite nth_error_map, ER. reflexivity.
Qed.
Print Assumptions C89_table_partial.
(** A single point is refused, whatever was drawn. *)
Theorem C89_single_refuted : forall mv random uniform d randomise norm, mv d (means randomise uniform) (cor d random) = Ok norm ->
  make_sample mv random uniform d randomise 1 = Err ValueError.
Proof. intros mv random uniform d randomise norm EM. unfold make_sample. rewrite EM. reflexivity. Qed.
Print Assumptions C89_single_refuted.
(** Two parameters; values one and one half off the diagonal. *)
Definition ex89_norm : normal := {| nm_rows := fun n => repeat [3; 4] n; nm_logpdf := fun r => - nth 0 r 0 |}.
Example C89_nonvacuous : (forall i, (i < 2)%nat -> exists k, (k < 2)%nat /\ (if Nat.eqb i k then 1 else 1 / 2) <> 1 / 2) /\ draws ex89_norm 2 /\
  make_sample (fun _ _ _ => Ok ex89_norm) (fun i k => if Nat.eqb i k then 1 else 1 / 2) (fun _ => 0) 2 false 2 = Ok [("A", [3; 3]); ("B", [4; 4]); ("log_posterior", [- (3); - (3)])]%string.
Proof.
  split; [intros i L; exists i; split; [exact L|]; rewrite Nat.eqb_refl; lra|]. split; [|reflexivity].
  intros n. cbn. split; [apply repeat_length|]. intros r I. apply repeat_spec in I. subst r. reflexivity.
Qed.
