(** Python vocabulary shared by the whole model: exceptions as values,
    insertion-ordered dictionaries with string keys, list slices.
    These are Python language semantics, not ChainConsumer code. *)
From Coq Require Import String List Bool Arith ZArith Lia.
Import ListNotations.
Open Scope string_scope.
Open Scope list_scope.

(** Python exceptions that the modelled code raises (or lets escape). *)
Inductive exn :=
| AssertionError | ValueError | KeyError | IndexError | TypeError
| ZeroDivisionError | OverflowError | StopIteration | ValidationError | RuntimeError | AttributeError
| NaNResult.  (** not an exception: numpy divided 0/0 or x/0 and carries on with NaN/inf arrays;
                  the exact-arithmetic model stops here and reports it explicitly. *)

Inductive res (A : Type) := Ok (a : A) | Err (e : exn).
Arguments Ok {A} a.
Arguments Err {A} e.

Definition rbind {A B} (m : res A) (f : A -> res B) : res B :=
  match m with Ok a => f a | Err e => Err e end.

Definition rmap {A B} (f : A -> B) (m : res A) : res B :=
  match m with Ok a => Ok (f a) | Err e => Err e end.

Definition is_ok {A} (m : res A) : bool := match m with Ok _ => true | Err _ => false end.

(** [for x in l: acc.append(f x)], stopping at the first exception. *)
Fixpoint rmapM {A B} (f : A -> res B) (l : list A) : res (list B) :=
  match l with
  | [] => Ok []
  | x :: r => rbind (f x) (fun y => rbind (rmapM f r) (fun ys => Ok (y :: ys)))
  end.

(** Python dict: insertion ordered, unique keys. *)
Definition dict (A : Type) := list (string * A).

Fixpoint dget {A} (k : string) (d : dict A) : option A :=
  match d with
  | [] => None
  | (k', v) :: r => if String.eqb k k' then Some v else dget k r
  end.

(** [d[k] = v]: overwrite in place, or append. *)
Fixpoint dset {A} (k : string) (v : A) (d : dict A) : dict A :=
  match d with
  | [] => [(k, v)]
  | (k', v') :: r => if String.eqb k k' then (k', v) :: r else (k', v') :: dset k v r
  end.

(** [d.pop(k)] (the removal part). *)
Fixpoint dpop {A} (k : string) (d : dict A) : dict A :=
  match d with
  | [] => []
  | (k', v') :: r => if String.eqb k k' then r else (k', v') :: dpop k r
  end.

Definition dkeys {A} (d : dict A) : list string := map fst d.
Definition dvalues {A} (d : dict A) : list A := map snd d.
Definition dmem {A} (k : string) (d : dict A) : bool :=
  match dget k d with Some _ => true | None => false end.

(** [a | b] / [a |= b]: keys of [a] keep their place, [b]'s values win. *)
Definition dmerge {A} (a b : dict A) : dict A :=
  fold_left (fun acc kv => dset (fst kv) (snd kv) acc) b a.

(** [x in l] for lists of strings. *)
Definition smem (x : string) (l : list string) : bool := existsb (String.eqb x) l.

(** Basic facts about these semantics. *)
Lemma smem_In x l : smem x l = true <-> In x l.
Proof.
  unfold smem. rewrite existsb_exists. split.
  - intros [y [Hy E]]. apply String.eqb_eq in E. subst. exact Hy.
  - intros H. exists x. split; [exact H | apply String.eqb_refl].
Qed.

Lemma smem_false x l : smem x l = false <-> ~ In x l.
Proof.
  rewrite <- smem_In. destruct (smem x l); split; intros H; try congruence; try tauto.
Qed.

Lemma dget_In {A} k (d : dict A) v : dget k d = Some v -> In (k, v) d.
Proof.
  induction d as [|[k' v'] r IH]; cbn; intros H; [discriminate|].
  destruct (String.eqb_spec k k') as [->|N].
  - injection H as ->. left; reflexivity.
  - right; apply IH; exact H.
Qed.

Lemma dget_None {A} k (d : dict A) : dget k d = None <-> ~ In k (dkeys d).
Proof.
  induction d as [|[k' v'] r IH]; cbn; [tauto|].
  destruct (String.eqb_spec k k') as [->|N].
  - split; [discriminate | intros H; exfalso; apply H; left; reflexivity].
  - rewrite IH. split; intros H; [intros [E|E]; [congruence | tauto] | tauto].
Qed.

Lemma dget_nodup {A} k v (d : dict A) : NoDup (dkeys d) -> In (k, v) d -> dget k d = Some v.
Proof.
  induction d as [|[k' v'] r IH]; cbn; intros ND H; [tauto|].
  inversion ND as [|? ? Hn ND']; subst.
  destruct H as [E|H].
  - injection E as -> ->. rewrite String.eqb_refl. reflexivity.
  - destruct (String.eqb_spec k k') as [->|N]; [|apply IH; assumption].
    exfalso; apply Hn. apply in_map_iff. exists (k', v); split; [reflexivity|exact H].
Qed.

Lemma dget_Some_mem {A} k (d : dict A) : (exists v, dget k d = Some v) <-> In k (dkeys d).
Proof.
  destruct (dget k d) as [v|] eqn:E.
  - split; [intros _ | intros _; eauto].
    apply dget_In in E. apply in_map_iff. exists (k, v); auto.
  - split; [intros [v H]; discriminate|]. apply dget_None in E. tauto.
Qed.

Lemma dmem_In {A} k (d : dict A) : dmem k d = true <-> In k (dkeys d).
Proof.
  unfold dmem. rewrite <- dget_Some_mem. destruct (dget k d); split; intros H; eauto; try discriminate.
  destruct H; discriminate.
Qed.

Lemma dget_dset_same {A} k v (d : dict A) : dget k (dset k v d) = Some v.
Proof.
  induction d as [|[k' v'] r IH]; cbn; [rewrite String.eqb_refl; reflexivity|].
  destruct (String.eqb_spec k k') as [->|N]; cbn.
  - rewrite String.eqb_refl. reflexivity.
  - destruct (String.eqb_spec k k'); [congruence|exact IH].
Qed.

Lemma dget_dset_other {A} k k2 v (d : dict A) : k <> k2 -> dget k2 (dset k v d) = dget k2 d.
Proof.
  intros Hne. induction d as [|[k' v'] r IH]; cbn.
  - destruct (String.eqb_spec k2 k); congruence.
  - destruct (String.eqb_spec k k') as [->|N]; cbn.
    + destruct (String.eqb_spec k2 k'); congruence.
    + destruct (String.eqb k2 k'); congruence.
Qed.

Lemma dset_new {A} k v (d : dict A) : ~ In k (dkeys d) -> dset k v d = d ++ [(k, v)].
Proof.
  induction d as [|[k' v'] r IH]; cbn; intros H; [reflexivity|].
  destruct (String.eqb_spec k k') as [->|N]; [tauto|].
  rewrite IH; [reflexivity|tauto].
Qed.

Lemma dkeys_dset_in {A} k v (d : dict A) : In k (dkeys d) -> dkeys (dset k v d) = dkeys d.
Proof.
  induction d as [|[k' v'] r IH]; cbn; intros H; [tauto|].
  destruct (String.eqb_spec k k') as [->|N]; cbn; [reflexivity|].
  f_equal. apply IH. destruct H; [congruence|assumption].
Qed.

Lemma dkeys_dset_new {A} k v (d : dict A) : ~ In k (dkeys d) -> dkeys (dset k v d) = dkeys d ++ [k].
Proof. intros H. rewrite dset_new by exact H. unfold dkeys. rewrite map_app. reflexivity. Qed.

Lemma dkeys_dset {A} k v (d : dict A) k2 : In k2 (dkeys (dset k v d)) <-> k2 = k \/ In k2 (dkeys d).
Proof.
  destruct (in_dec string_dec k (dkeys d)) as [H|H].
  - rewrite dkeys_dset_in by exact H. split; [tauto|]. intros [->|]; assumption.
  - rewrite dkeys_dset_new by exact H. rewrite in_app_iff. cbn. split; intros H1.
    + destruct H1 as [H1|[H1|[]]]; [right; exact H1 | left; symmetry; exact H1].
    + destruct H1 as [->|H1]; [right; left; reflexivity | left; exact H1].
Qed.

Lemma nodup_dset {A} k v (d : dict A) : NoDup (dkeys d) -> NoDup (dkeys (dset k v d)).
Proof.
  intros ND. destruct (in_dec string_dec k (dkeys d)) as [H|H].
  - rewrite dkeys_dset_in; assumption.
  - rewrite dkeys_dset_new by exact H.
    induction (dkeys d) as [|x l IH]; cbn.
    + constructor; [intros []|constructor].
    + inversion ND; subst. constructor.
      * rewrite in_app_iff. cbn. intros [E|[E|[]]]; [tauto|]. apply H; left; congruence.
      * apply IH; [assumption|]. intros E; apply H; right; exact E.
Qed.

Lemma dkeys_dpop_in {A} k (d : dict A) k2 :
  NoDup (dkeys d) -> (In k2 (dkeys (dpop k d)) <-> In k2 (dkeys d) /\ k2 <> k).
Proof.
  induction d as [|[k' v'] r IH]; cbn; intros ND; [tauto|].
  inversion ND as [|? ? Hn ND']; subst.
  destruct (String.eqb_spec k k') as [->|N]; cbn.
  - split; [intros H; split; [tauto|intros ->; tauto] | intros [[->|H] H2]; [congruence|exact H]].
  - rewrite IH by exact ND'. split.
    + intros [->|[H1 H2]]; [split; [left; reflexivity | congruence] | tauto].
    + tauto.
Qed.

Lemma nodup_dpop {A} k (d : dict A) : NoDup (dkeys d) -> NoDup (dkeys (dpop k d)).
Proof.
  induction d as [|[k' v'] r IH]; cbn; intros ND; [exact ND|].
  inversion ND as [|? ? Hn ND']; subst.
  destruct (String.eqb_spec k k') as [->|N]; cbn; [exact ND'|].
  constructor; [|apply IH; exact ND'].
  intros H. apply (dkeys_dpop_in k r k' ND') in H. tauto.
Qed.

Lemma dget_dpop_same {A} k (d : dict A) : NoDup (dkeys d) -> dget k (dpop k d) = None.
Proof. intros ND. apply dget_None. rewrite dkeys_dpop_in by exact ND. tauto. Qed.

Lemma dget_dpop_other {A} k k2 (d : dict A) : k <> k2 -> dget k2 (dpop k d) = dget k2 d.
Proof.
  intros Hne. induction d as [|[k' v'] r IH]; cbn; [reflexivity|].
  destruct (String.eqb_spec k k') as [->|N]; cbn.
  - destruct (String.eqb_spec k2 k'); congruence.
  - destruct (String.eqb k2 k'); [reflexivity|exact IH].
Qed.

Lemma dpop_absent {A} k (d : dict A) : ~ In k (dkeys d) -> dpop k d = d.
Proof.
  induction d as [|[k' v'] r IH]; cbn; intros H; [reflexivity|].
  destruct (String.eqb_spec k k') as [->|N]; [tauto|]. f_equal. apply IH. tauto.
Qed.

Lemma dmerge_get {A} k (a b : dict A) :
  NoDup (dkeys b) -> dget k (dmerge a b) = match dget k b with Some v => Some v | None => dget k a end.
Proof.
  unfold dmerge. revert a. induction b as [|[k' v'] r IH]; cbn; intros a ND; [reflexivity|].
  inversion ND as [|? ? Hn ND']; subst.
  rewrite IH by exact ND'.
  destruct (String.eqb_spec k k') as [->|N].
  - assert (dget k' r = None) as -> by (apply dget_None; exact Hn).
    apply dget_dset_same.
  - destruct (dget k r); [reflexivity|]. apply dget_dset_other. congruence.
Qed.

Lemma rmapM_ok {A B} (f : A -> res B) l ys :
  rmapM f l = Ok ys <-> Forall2 (fun x y => f x = Ok y) l ys.
Proof.
  revert ys. induction l as [|x r IH]; cbn; intros ys.
  - split; intros H; [injection H as <-; constructor | inversion H; reflexivity].
  - destruct (f x) as [y|e] eqn:E; cbn.
    + destruct (rmapM f r) as [zs|e] eqn:E2; cbn.
      * split; intros H.
        -- injection H as <-. constructor; [exact E|]. apply IH; reflexivity.
        -- inversion H; subst. rewrite E in H2. injection H2 as ->.
           apply IH in H4. injection H4 as ->. reflexivity.
      * split; intros H; [discriminate|]. inversion H; subst. apply IH in H4. discriminate.
    + split; intros H; [discriminate|]. inversion H; subst. congruence.
Qed.
