(** Facts about frames. *)
From Coq Require Import String List Bool Arith ZArith QArith Lia.
From Verif Require Import Py FrameModel.
Import ListNotations.
Open Scope list_scope.

Lemma clabel_eqb_spec a b : reflect (a = b) (clabel_eqb a b).
Proof.
  destruct a as [s|y], b as [t|z]; cbn; try (constructor; discriminate).
  - destruct (String.eqb_spec s t); constructor; congruence.
  - destruct (Z.eqb_spec y z); constructor; congruence.
Qed.
Lemma clabel_eqb_refl a : clabel_eqb a a = true.
Proof. destruct (clabel_eqb_spec a a); congruence. Qed.
Lemma rlabel_eqb_spec a b : reflect (a = b) (rlabel_eqb a b).
Proof.
  destruct a as [s|y], b as [t|z]; cbn; try (constructor; discriminate).
  - destruct (Z.eqb_spec s t); constructor; congruence.
  - destruct (String.eqb_spec y z); constructor; congruence.
Qed.

Lemma col_get_In c l cols : col_get c cols = Some l -> In (c, l) cols.
Proof.
  induction cols as [|[c' l'] cols IH]; cbn; [discriminate|]. destruct (clabel_eqb_spec c c') as [<-|]; [|auto].
  intros H. injection H as ->. left. reflexivity.
Qed.
Lemma col_get_nodup c l cols : NoDup (map fst cols) -> In (c, l) cols -> col_get c cols = Some l.
Proof.
  induction cols as [|[c' l'] cols IH]; cbn; [intros _ []|]. intros ND H. inversion ND as [|? ? Hn ND']; subst.
  destruct (clabel_eqb_spec c c') as [<-|N].
  - destruct H as [H|H]; [congruence|]. destruct Hn. change c with (fst (c, l)). apply in_map. exact H.
  - destruct H as [H|H]; [congruence|]. apply IH; assumption.
Qed.
Lemma col_get_None c cols : col_get c cols = None <-> ~ In c (map fst cols).
Proof.
  induction cols as [|[c' l'] cols IH]; cbn; [tauto|]. destruct (clabel_eqb_spec c c') as [<-|N].
  - split; [discriminate|]. intros H. destruct H. left. reflexivity.
  - rewrite IH. intuition congruence.
Qed.
Lemma col_get_set_same c l cols : col_get c (col_set c l cols) = Some l.
Proof.
  induction cols as [|[c' l'] cols IH]; cbn; [rewrite clabel_eqb_refl; reflexivity|].
  destruct (clabel_eqb c c') eqn:E; cbn; rewrite E; [reflexivity|exact IH].
Qed.
Lemma col_get_set_other c d l cols : c <> d -> col_get d (col_set c l cols) = col_get d cols.
Proof.
  intros N. induction cols as [|[c' l'] cols IH]; cbn.
  - destruct (clabel_eqb_spec d c); [congruence|reflexivity].
  - destruct (clabel_eqb_spec c c') as [<-|N2]; cbn.
    + destruct (clabel_eqb_spec d c); [congruence|reflexivity].
    + destruct (clabel_eqb_spec d c'); [reflexivity|exact IH].
Qed.
Lemma col_set_labels_in c l cols : In c (map fst cols) -> map fst (col_set c l cols) = map fst cols.
Proof.
  induction cols as [|[c' l'] cols IH]; cbn; [intros []|]. destruct (clabel_eqb_spec c c') as [<-|N]; cbn; [reflexivity|].
  intros [H|H]; [congruence|]. f_equal. apply IH. exact H.
Qed.
Lemma col_set_new c l cols : ~ In c (map fst cols) -> col_set c l cols = cols ++ [(c, l)].
Proof.
  induction cols as [|[c' l'] cols IH]; cbn; [reflexivity|]. intros H. destruct (clabel_eqb_spec c c') as [<-|N].
  - destruct H. left. reflexivity.
  - f_equal. apply IH. tauto.
Qed.

(** All labels are strings. *)
Definition str_frame (f : frame) : Prop := forall c l, In (c, l) (f_cols f) -> exists s, c = CStr s.
Lemma labels_names cols : (forall c l, In (c, l) cols -> exists s, c = CStr s) -> map fst cols = map CStr (str_labels cols).
Proof.
  induction cols as [|[c l] cols IH]; intros H; [reflexivity|]. destruct (H c l (or_introl eq_refl)) as [s ->].
  cbn. f_equal. apply IH. intros d k Hd. apply (H d k). right. exact Hd.
Qed.
Lemma str_labels_ext a b : map fst a = map fst b -> str_labels a = str_labels b.
Proof.
  revert b. induction a as [|[c l] a IH]; intros [|[d k] b] H; cbn in H; try discriminate; [reflexivity|].
  injection H as -> H. cbn. f_equal. apply IH. exact H.
Qed.
Lemma str_labels_app a b : str_labels (a ++ b) = str_labels a ++ str_labels b.
Proof. unfold str_labels. apply flat_map_app. Qed.
Lemma in_str_labels n cols : In n (str_labels cols) <-> In (CStr n) (map fst cols).
Proof.
  unfold str_labels. rewrite in_flat_map, in_map_iff. split.
  - intros [[c l] [H1 H2]]. exists (c, l). split; [|exact H1]. cbn in *. destruct c as [s|z]; cbn in H2; [|destruct H2].
    destruct H2 as [->|[]]. reflexivity.
  - intros [[c l] [H1 H2]]. exists (c, l). split; [exact H2|]. cbn in *. subst c. left. reflexivity.
Qed.
Lemma nodup_str_labels cols : NoDup (map fst cols) -> NoDup (str_labels cols).
Proof.
  induction cols as [|[c l] cols IH]; intros H; [constructor|]. cbn in H. inversion H as [|? ? Hn ND]; subst.
  cbn. destruct c as [s|z]; cbn; [|apply IH; exact ND]. constructor; [|apply IH; exact ND].
  intros HI. apply in_str_labels in HI. contradiction.
Qed.

Lemma f_get_In f n l : f_get f n = Some l -> In (CStr n, l) (f_cols f).
Proof. apply col_get_In. Qed.
Lemma f_get_wf f n l : frame_wf f -> (f_get f n = Some l <-> In (CStr n, l) (f_cols f)).
Proof. intros [H _]. split; [apply col_get_In|apply col_get_nodup; exact H]. Qed.
Lemma f_has_names f n : f_has f n = true <-> In n (f_names f).
Proof.
  unfold f_has, f_names. rewrite in_str_labels. unfold f_get. destruct (col_get (CStr n) (f_cols f)) as [l|] eqn:E.
  - split; [intros _|reflexivity]. apply col_get_In in E. change (CStr n) with (fst (CStr n, l)). apply in_map. exact E.
  - apply col_get_None in E. split; [discriminate|contradiction].
Qed.
Lemma f_has_get f n : f_has f n = true -> exists l, f_get f n = Some l.
Proof. unfold f_has. destruct (f_get f n) as [l|]; [exists l; reflexivity|discriminate]. Qed.
Lemma f_get_set_same f n l : f_get (f_set f n l) n = Some l.
Proof. apply col_get_set_same. Qed.
Lemma f_get_set_other f n m l : n <> m -> f_get (f_set f n l) m = f_get f m.
Proof. intros H. apply col_get_set_other. congruence. Qed.
Lemma f_set_labels f n l : In n (f_names f) -> map fst (f_cols (f_set f n l)) = map fst (f_cols f).
Proof. intros H. apply col_set_labels_in. apply in_str_labels. exact H. Qed.
Lemma f_set_names f n l : In n (f_names f) -> f_names (f_set f n l) = f_names f.
Proof. intros H. apply str_labels_ext, f_set_labels. exact H. Qed.
Lemma f_set_cols_new f n l : ~ In n (f_names f) -> f_cols (f_set f n l) = f_cols f ++ [(CStr n, l)].
Proof. intros H. apply col_set_new. intros HI. apply H. apply in_str_labels. exact HI. Qed.
Lemma f_set_names_new f n l : ~ In n (f_names f) -> f_names (f_set f n l) = f_names f ++ [n].
Proof. intros H. unfold f_names. rewrite f_set_cols_new by exact H. rewrite str_labels_app. reflexivity. Qed.

Lemma f_empty_spec f : f_empty f = false <-> (0 < f_rows f)%nat /\ f_cols f <> [].
Proof.
  unfold f_empty, f_rows. destruct (f_index f); cbn; [split; [discriminate|lia]|].
  destruct (f_cols f); split.
  - discriminate.
  - intros [_ H]. congruence.
  - intros _. split; [lia|discriminate].
  - reflexivity.
Qed.

(** ** Rows *)
Lemma f_row_get f i n : NoDup (map fst (f_cols f)) -> dget n (f_row f i) = option_map (fun l => nth i l NaN) (f_get f n).
Proof.
  intros _. unfold f_row, f_get. induction (f_cols f) as [|[c l] cols IH]; [reflexivity|]. cbn [flat_map fst snd col_get].
  destruct c as [s|z]; cbn [clabel_eqb app].
  - cbn [dget]. destruct (String.eqb n s); [reflexivity|exact IH].
  - exact IH.
Qed.
Lemma f_row_keys f i : map fst (f_row f i) = f_names f.
Proof.
  unfold f_row, f_names, str_labels. induction (f_cols f) as [|[c l] cols IH]; [reflexivity|]. cbn [flat_map fst snd].
  destruct c; cbn [app map fst]; [f_equal|]; exact IH.
Qed.

(** ** Positions *)
Lemma positions_shift {A} (p : A -> bool) l : forall i, positions p i l = map (fun k => (i + k)%nat) (positions p 0 l).
Proof.
  induction l as [|x l IH]; intros i; [reflexivity|]. cbn [positions]. rewrite (IH (S i)), (IH 1%nat).
  assert (E : map (fun k => (S i + k)%nat) (positions p 0 l) = map (fun k => (i + k)%nat) (map (fun k => (1 + k)%nat) (positions p 0 l))).
  { rewrite map_map. apply map_ext. intros k. lia. }
  rewrite E. destruct (p x); cbn [map]; [f_equal; lia|reflexivity].
Qed.
Lemma positions_In {A} (p : A -> bool) l : forall i k, In k (positions p i l) <-> exists x, nth_error l (k - i) = Some x /\ (i <= k)%nat /\ p x = true.
Proof.
  induction l as [|x l IH]; intros i k; cbn [positions].
  - split; [intros []|]. intros [x [H _]]. destruct (k - i)%nat; discriminate.
  - destruct (Nat.lt_trichotomy k i) as [L|[->|L]].
    + assert (N : ~ In k (positions p (S i) l)) by (intros H; apply IH in H; destruct H as [_ [_ [H _]]]; lia).
      destruct (p x); [split; [intros [->|H]; [lia|contradiction]|intros [y [_ [H _]]]; lia]|split; [contradiction|intros [y [_ [H _]]]; lia]].
    + rewrite Nat.sub_diag. cbn. assert (N : ~ In i (positions p (S i) l)) by (intros H; apply IH in H; destruct H as [_ [_ [H _]]]; lia).
      destruct (p x) eqn:E.
      * split; [intros _; exists x; auto|left; reflexivity].
      * split; [contradiction|intros [y [H1 [_ H2]]]; congruence].
    + replace (k - i)%nat with (S (k - S i)) by lia. cbn [nth_error].
      assert (HH : In k (positions p (S i) l) <-> exists y, nth_error l (k - S i) = Some y /\ (i <= k)%nat /\ p y = true).
      { rewrite IH. split; intros [y [H1 [H2 H3]]]; exists y; repeat split; auto; lia. }
      destruct (p x); [|exact HH]. cbn. rewrite HH. split; [intros [->|H]; [lia|exact H]|right; assumption].
Qed.

(** ** Slices *)
Lemma slice_length {A} st en (l : list A) : (st <= en)%nat -> (en <= length l)%nat -> length (slice st en l) = (en - st)%nat.
Proof. intros H1 H2. unfold slice. rewrite firstn_length, skipn_length. lia. Qed.
Lemma slice_In {A} st en (l : list A) x : In x (slice st en l) -> In x l.
Proof. unfold slice. intros H. rewrite <- (firstn_skipn st l). apply in_or_app. right. rewrite <- (firstn_skipn (en - st) (skipn st l)). apply in_or_app. left. exact H. Qed.
Lemma slices_concat {A} size : forall n k (l : list A), length l = ((k + n) * size)%nat ->
  concat (map (fun i => slice (i * size) (i * size + size) l) (seq k n)) = skipn (k * size) l.
Proof.
  induction n as [|n IH]; intros k l H; cbn [seq map concat].
  - symmetry. apply skipn_all2. lia.
  - rewrite (IH (S k) l) by lia. unfold slice. replace (k * size + size - k * size)%nat with size by lia.
    replace (S k * size)%nat with (size + k * size)%nat by lia. rewrite <- (firstn_skipn size (skipn (k * size) l)) at 2. f_equal.
    clear. generalize (k * size)%nat. intros m. revert l. induction m as [|m IHm]; intros l; [rewrite Nat.add_0_r; reflexivity|].
    rewrite Nat.add_succ_r. destruct l as [|x l]; [rewrite !skipn_nil; reflexivity|]. cbn [skipn]. apply IHm.
Qed.
Lemma col_get_map c (g : list cell -> list cell) cols : col_get c (map (fun cl => (fst cl, g (snd cl))) cols) = option_map g (col_get c cols).
Proof. induction cols as [|[d l] cols IH]; cbn; [reflexivity|]. destruct (clabel_eqb c d); [reflexivity|exact IH]. Qed.
Lemma f_slice_get st en f n : f_get (f_slice st en f) n = option_map (slice st en) (f_get f n).
Proof. unfold f_get, f_slice. cbn. apply col_get_map. Qed.
Lemma f_slice_labels st en f : map fst (f_cols (f_slice st en f)) = map fst (f_cols f).
Proof. unfold f_slice. cbn. rewrite map_map. apply map_ext. reflexivity. Qed.
Lemma f_slice_names st en f : f_names (f_slice st en f) = f_names f.
Proof. apply str_labels_ext, f_slice_labels. Qed.
