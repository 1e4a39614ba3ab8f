(** C29-C31: masks to intervals, density threshold, multimodal bounds. *)
From Coq Require Import QArith Qabs List Arith ZArith Bool Lia Lqa.
From Verif Require Import Py NumSpec NumModel NumFacts InterpFacts HelpersProofs MarginalModel SummarySpec
  SimpsonFacts QuantileProofs.
Import ListNotations.
Open Scope Q_scope.

(** The runs of a mask, computed in one pass; [op] is the start of the open run. *)
Fixpoint runs (i : nat) (op : option nat) (mask : list bool) : list (nat * nat) :=
  match mask with
  | [] => match op with Some s => [(s, (i - 1)%nat)] | None => [] end
  | b :: r =>
      match op, b with
      | Some s, true => runs (S i) (Some s) r
      | Some s, false => (s, (i - 1)%nat) :: runs (S i) None r
      | None, true => runs (S i) (Some i) r
      | None, false => runs (S i) None r
      end
  end.
Definition isS (o : option nat) : bool := match o with Some _ => true | None => false end.

Lemma runs_combine : forall mask i op, (1 <= i)%nat ->
  let starts := (match op with Some s => [s] | None => [] end) ++ run_starts i (isS op) mask in
  let ends := run_ends i (isS op) mask ++ (if last (isS op :: mask) false then [(i + length mask - 1)%nat] else []) in
  length starts = length ends /\ combine starts ends = runs i op mask.
Proof.
  induction mask as [|b r IH]; intros i op Hi.
  - destruct op as [s|]; cbn; [|split; reflexivity]. replace (i + 0 - 1)%nat with (i - 1)%nat by lia. split; reflexivity.
  - assert (EL : forall x y : bool, last (x :: y :: r) false = last (y :: r) false) by reflexivity.
    destruct op as [s|], b; cbn [isS app run_starts run_ends runs negb andb length].
    + specialize (IH (S i) (Some s) ltac:(lia)). cbv zeta in IH. cbn [isS app] in IH.
      rewrite EL. replace (i + S (length r) - 1)%nat with (S i + length r - 1)%nat by lia. exact IH.
    + specialize (IH (S i) None ltac:(lia)). cbv zeta in IH. cbn [isS app] in IH. destruct IH as [I1 I2].
      rewrite EL. replace (i + S (length r) - 1)%nat with (S i + length r - 1)%nat by lia.
      cbn [app length combine]. split; [f_equal; exact I1|f_equal; exact I2].
    + specialize (IH (S i) (Some i) ltac:(lia)). cbv zeta in IH. cbn [isS app] in IH.
      rewrite EL. replace (i + S (length r) - 1)%nat with (S i + length r - 1)%nat by lia. exact IH.
    + specialize (IH (S i) None ltac:(lia)). cbv zeta in IH. cbn [isS app] in IH.
      rewrite EL. replace (i + S (length r) - 1)%nat with (S i + length r - 1)%nat by lia. exact IH.
Qed.

Lemma mask_to_intervals_runs x mask :
  mask_to_intervals x mask =
  Ok (map (fun se => (at_ x (fst se), at_ x (snd se)))
          (filter (fun se => qltb (at_ x (fst se)) (at_ x (snd se))) (runs 0 None mask))).
Proof.
  destruct mask as [|b0 r]; [reflexivity|]. unfold mask_to_intervals.
  pose proof (runs_combine r 1 (if b0 then Some 0%nat else None) ltac:(lia)) as H. cbv zeta in H.
  assert (E0 : isS (if b0 then Some 0%nat else None) = b0) by (destruct b0; reflexivity). rewrite E0 in H.
  assert (E1 : match (if b0 then Some 0%nat else None) with Some s => [s] | None => [] end = (if b0 then [0%nat] else [])) by (destruct b0; reflexivity).
  rewrite E1 in H.
  assert (E2 : (length (b0 :: r) - 1)%nat = (1 + length r - 1)%nat) by (cbn; lia). rewrite E2.
  destruct H as [H1 H2].
  assert (E3 : runs 1 (if b0 then Some 0%nat else None) r = runs 0 None (b0 :: r)) by (destruct b0; reflexivity).
  rewrite E3 in H2. rewrite H1, Nat.eqb_refl, H2. reflexivity.
Qed.

(** Membership in [runs], relative to the whole mask. *)
Definition nthb (full : list bool) (k : nat) : bool := nth k full false.
Lemma runs_in full : forall mask i op,
  skipn i full = mask -> (i <= length full)%nat ->
  (match op with
   | Some s => (s < i)%nat /\ (forall k, (s <= k < i)%nat -> nthb full k = true) /\ (s = 0%nat \/ nthb full (s-1) = false)
   | None => i = 0%nat \/ nthb full (i-1) = false
   end) ->
  forall s e, In (s, e) (runs i op mask) <->
    (is_run full s e /\ match op with Some s0 => (s0 <= s)%nat | None => (i <= s)%nat end).
Proof.
  induction mask as [|b r IH]; intros i op Hs Hi Hop s e.
  - assert (length (skipn i full) = 0%nat) as HL by (rewrite Hs; reflexivity). rewrite skipn_length in HL.
    assert (i = length full) by lia. subst i. cbn [runs].
    destruct op as [s0|].
    + destruct Hop as [O1 [O2 O3]]. split.
      * intros [H|[]]. injection H as <- <-. split; [|lia].
        split; [lia|]; split; [lia|]; split; [|split; [exact O3|left; lia]]. intros k Hk. apply O2. lia.
      * intros [(R1&R2&R3&R4&R5) Hge]. left.
        assert (s = s0).
        { destruct (Nat.eq_dec s s0) as [E|N]; [exact E|exfalso]. destruct R4 as [R4|R4]; [lia|].
          rewrite <- not_true_iff_false in R4. apply R4. apply O2. lia. }
        assert (e = length full - 1)%nat.
        { destruct R5 as [R5|R5]; [lia|]. destruct (Nat.eq_dec (S e) (length full)) as [E|N]; [lia|exfalso].
          rewrite <- not_true_iff_false in R5. apply R5. apply O2. lia. }
        congruence.
    + split; [intros []|]. intros [(R1&R2&_) Hge]. lia.
  - assert (HL : (i < length full)%nat /\ nthb full i = b /\ skipn (S i) full = r).
    { clear - Hs. revert full Hs. induction i as [|i IHi]; intros [|y l] Hs; cbn [skipn] in Hs; try discriminate.
      - injection Hs as -> ->. cbn. repeat split. lia.
      - destruct (IHi l Hs) as [A [B C]]. cbn. repeat split; [lia|exact B|exact C]. }
    destruct HL as [HL [Hb Hr]].
    destruct op as [s0|], b; cbn [runs].
    + destruct Hop as [O1 [O2 O3]]. apply (IH (S i) (Some s0)); [exact Hr|lia|].
      repeat split; [lia| |exact O3]. intros k Hk. destruct (Nat.eq_dec k i) as [->|N]; [exact Hb|apply O2; lia].
    + destruct Hop as [O1 [O2 O3]]. cbn [In].
      rewrite (IH (S i) None Hr ltac:(lia)); [|right; replace (S i - 1)%nat with i by lia; exact Hb].
      split.
      * intros [H|[H1 H2]].
        -- injection H as <- <-. split; [|lia]. split; [lia|]; split; [lia|]; split; [|split; [exact O3|]].
           ++ intros k Hk. apply O2. lia.
           ++ right. replace (S (i - 1)) with i by lia. exact Hb.
        -- split; [exact H1|lia].
      * intros [HR Hge]. pose proof HR as (R1&R2&R3&R4&R5).
        destruct (Nat.eq_dec s s0) as [->|N].
        -- left. f_equal.
           assert (e < i)%nat.
           { destruct (Nat.lt_ge_cases e i) as [L|L]; [exact L|exfalso]. specialize (R3 i ltac:(lia)). unfold nthb in Hb. congruence. }
           destruct (Nat.eq_dec e (i - 1)) as [E|N]; [lia|exfalso].
           destruct R5 as [R5|R5]; [lia|]. rewrite <- not_true_iff_false in R5. apply R5. apply O2. lia.
        -- right. split; [exact HR|].
           destruct (Nat.lt_ge_cases s (S i)) as [L|L]; [exfalso|lia].
           destruct (Nat.eq_dec s i) as [->|N2].
           { specialize (R3 i ltac:(lia)). unfold nthb in Hb. congruence. }
           destruct R4 as [R4|R4]; [lia|]. rewrite <- not_true_iff_false in R4. apply R4. apply O2. lia.
    + rewrite (IH (S i) (Some i) Hr ltac:(lia)); [reflexivity|].
      repeat split; [lia| |exact Hop]. intros k Hk. replace k with i by lia. exact Hb.
    + rewrite (IH (S i) None Hr ltac:(lia)); [|right; replace (S i - 1)%nat with i by lia; exact Hb].
      split; intros [HR Hge]; split; try exact HR; [lia|].
      destruct (Nat.eq_dec s i) as [->|N]; [exfalso|lia].
      destruct HR as (R1&R2&R3&_). specialize (R3 i ltac:(lia)). unfold nthb in Hb. congruence.
Qed.

Lemma runs_sorted full : forall mask i op,
  skipn i full = mask ->
  (match op with Some s => (s < i)%nat | None => True end) ->
  forall a b, (a < b < length (runs i op mask))%nat ->
   (snd (nth a (runs i op mask) (0,0)%nat) + 1 < fst (nth b (runs i op mask) (0,0)%nat))%nat.
Proof.
  intros mask i op _.
  assert (G : forall mask i op, (match op with Some s => (s < i)%nat | None => True end) ->
     (forall p, In p (runs i op mask) -> match op with Some s => (s <= fst p)%nat | None => (i <= fst p)%nat end) /\
     (forall a b, (a < b < length (runs i op mask))%nat ->
       (snd (nth a (runs i op mask) (0,0)%nat) + 1 < fst (nth b (runs i op mask) (0,0)%nat))%nat)).
  { clear. induction mask as [|b r IH]; intros i op Hop.
    - destruct op as [s|]; cbn [runs]; split; cbn.
      + intros p [<-|[]]. cbn. lia.
      + intros; lia.
      + intros p [].
      + intros; lia.
    - destruct op as [s|], b; cbn [runs].
      + destruct (IH (S i) (Some s)) as [I1 I2]; [lia|]. split; [exact I1|exact I2].
      + destruct (IH (S i) None I) as [I1 I2]. split.
        * intros p [<-|Hp]; [cbn; lia|]. specialize (I1 p Hp). lia.
        * intros a b' Hab. destruct a as [|a], b' as [|b']; try lia.
          -- cbn [nth snd]. cbn [length] in Hab.
             assert (S i <= fst (nth b' (runs (S i) None r) (0,0)%nat))%nat by (apply I1, nth_In; lia). lia.
          -- cbn [nth]. apply I2. cbn in Hab. lia.
      + destruct (IH (S i) (Some i)) as [I1 I2]; [lia|]. split; [exact I1|exact I2].
      + destruct (IH (S i) None I) as [I1 I2]. split; [|exact I2]. intros p Hp. specialize (I1 p Hp). lia. }
  intros Hop. apply G. exact Hop.
Qed.

Lemma In_filter_nth_order {A} (R : A -> A -> Prop) (f : A -> bool) (d : A) l :
  (forall a b, (a < b < length l)%nat -> R (nth a l d) (nth b l d)) ->
  forall a b, (a < b < length (filter f l))%nat -> R (nth a (filter f l) d) (nth b (filter f l) d).
Proof.
  induction l as [|x l IH]; intros H a b Hab; [cbn in Hab; lia|].
  assert (H' : forall a b, (a < b < length l)%nat -> R (nth a l d) (nth b l d)).
  { intros p q Hpq. apply (H (S p) (S q)). cbn; lia. }
  cbn [filter] in *. destruct (f x); [|apply IH; assumption].
  destruct a as [|a], b as [|b]; try lia.
  - cbn [nth]. cbn in Hab.
    assert (HI : In (nth b (filter f l) d) l) by (apply (filter_In f), nth_In; lia).
    destruct (In_nth _ _ d HI) as [k [Hk <-]]. apply (H 0%nat (S k)). cbn; lia.
  - cbn [nth]. apply IH; [exact H'|cbn in Hab; lia].
Qed.

Theorem mask_runs : forall x mask, increasing x -> length mask = length x ->
  exists rs, mask_to_intervals x mask = Ok (map (fun se => (at_ x (fst se), at_ x (snd se))) rs) /\
    (forall s e, In (s, e) rs <-> (is_run mask s e /\ (s < e)%nat)) /\
    (forall a b, (a < b < length rs)%nat -> (snd (nth a rs (0,0)%nat) + 1 < fst (nth b rs (0,0)%nat))%nat).
Proof.
  intros x mask HX HL.
  exists (filter (fun se => qltb (at_ x (fst se)) (at_ x (snd se))) (runs 0 None mask)).
  split; [apply mask_to_intervals_runs|]. split.
  - intros s e. rewrite filter_In. rewrite (runs_in mask mask 0 None eq_refl ltac:(lia) (or_introl eq_refl)).
    cbn [fst snd]. rewrite qlt_true. split.
    + intros [[HR _] Hlt]. split; [exact HR|]. pose proof HR as (R1&R2&_).
      destruct (Nat.eq_dec s e) as [->|N]; [lra|lia].
    + intros [HR Hlt]. pose proof HR as (R1&R2&_). split; [split; [exact HR|lia]|]. apply HX; lia.
  - apply (In_filter_nth_order (fun p q => (snd p + 1 < fst q)%nat)).
    intros a b Hab. apply (runs_sorted mask mask 0 None eq_refl I). exact Hab.
Qed.

(** Every true point with a true neighbour is covered, and only those. *)
Lemma run_around mask : forall k, nthb mask k = true -> exists s e, is_run mask s e /\ (s <= k <= e)%nat.
Proof.
  intros k Hk.
  assert (Kl : (k < length mask)%nat).
  { destruct (Nat.lt_ge_cases k (length mask)) as [L|L]; [exact L|]. unfold nthb in Hk. rewrite nth_overflow in Hk by exact L. discriminate. }
  assert (HS : exists s, (s <= k)%nat /\ (forall j, (s <= j <= k)%nat -> nthb mask j = true) /\ (s = 0%nat \/ nthb mask (s - 1) = false)).
  { clear Kl. induction k as [|k IH].
    - exists 0%nat. repeat split; [lia| |left; reflexivity]. intros j Hj. replace j with 0%nat by lia. exact Hk.
    - destruct (nthb mask k) eqn:E.
      + destruct (IH eq_refl) as [s [A [B C]]]. exists s. repeat split; [lia| |exact C].
        intros j Hj. destruct (Nat.eq_dec j (S k)) as [->|N]; [exact Hk|apply B; lia].
      + exists (S k). repeat split; [lia| |right; replace (S k - 1)%nat with k by lia; exact E].
        intros j Hj. replace j with (S k) by lia. exact Hk. }
  assert (HE : exists e, (k <= e < length mask)%nat /\ (forall j, (k <= j <= e)%nat -> nthb mask j = true) /\ (S e = length mask \/ nthb mask (S e) = false)).
  { clear HS. remember (length mask - k)%nat as d eqn:Ed. revert k Hk Kl Ed. induction d as [|d IH]; intros k Hk Kl Ed; [lia|].
    destruct (Nat.eq_dec (S k) (length mask)) as [E|N].
    { exists k. split; [lia|]; split; [|left; exact E]. intros j Hj. replace j with k by lia. exact Hk. }
    destruct (nthb mask (S k)) eqn:E.
    - destruct (IH (S k) E ltac:(lia) ltac:(lia)) as [e [A [B C]]]. exists e. split; [lia|]; split; [|exact C].
      intros j Hj. destruct (Nat.eq_dec j k) as [->|N2]; [exact Hk|apply B; lia].
    - exists k. split; [lia|]; split; [|right; exact E]. intros j Hj. replace j with k by lia. exact Hk. }
  destruct HS as [s [A [B C]]], HE as [e [D [E F]]]. exists s, e. split; [|lia].
  split; [lia|]; split; [lia|]; split; [|split; [exact C|exact F]].
  intros j Hj. destruct (Nat.le_gt_cases j k) as [L|L]; [apply B; lia|apply E; lia].
Qed.

(** C30: the threshold. *)
Section Mass.
Variable m : marginal.
Hypothesis HM : mg_ok m.
Variable h : Q.
Hypothesis Hh : 0 < h.
Hypothesis HU : uniform h (mg_xs m).
Let xs := mg_xs m.
Let ys := mg_ys m.

Lemma simpson_pos : 0 < simpson xs ys.
Proof.
  destruct (mok_lens _ _ _ HM) as [L1 [L2 L3]]. fold xs ys in L1. fold xs in L3.
  destruct (simpson_weights (length xs) h L3 Hh) as [ws [W1 [W2 W3]]].
  rewrite (W3 xs ys eq_refl L1 HU).
  assert (Z0 : dot ws (repeat 0 (length xs)) == 0).
  { apply dot_zero; [|rewrite repeat_length; lia]. intros i Hi. unfold at_. rewrite nth_repeat. reflexivity. }
  rewrite <- Z0. apply dot_lt; [exact W2|rewrite repeat_length; lia|lia| |].
  - intros i Hi. unfold at_ at 1. rewrite nth_repeat. apply all_nonneg_at, (mok_nonneg _ _ _ HM).
  - (* some density is positive *)
    assert (HE : ~ (forall i, (i < length ys)%nat -> at_ ys i <= 0)).
    { intros H. pose proof (mok_total _ _ _ HM) as HT. fold ys in HT.
      assert (total ys <= 0); [|lra].
      assert (Z1 : forall a len, sum_n (fun _ => 0) a len == 0).
      { intros a len. revert a. induction len as [|len IHl]; intros a; cbn; [reflexivity|]. rewrite IHl. lra. }
      unfold total, sum_range. rewrite <- (Z1 0%nat (length ys - 0)%nat). apply sum_n_le. intros i Hi. apply H. lia. }
    assert (HB : existsb (fun y => qltb 0 y) ys = true).
    { destruct (existsb (fun y => qltb 0 y) ys) eqn:E; [reflexivity|exfalso]. apply HE. intros i Hi.
      destruct (Qlt_le_dec 0 (at_ ys i)) as [L|L]; [|exact L]. exfalso.
      assert (existsb (fun y => qltb 0 y) ys = true).
      { apply existsb_exists. exists (at_ ys i). split; [apply at_In; exact Hi|apply qlt_true; exact L]. }
      congruence. }
    apply existsb_exists in HB. destruct HB as [y [Hy Hp]]. apply qlt_true in Hp.
    destruct (In_at _ _ Hy) as [i [Hi Ei]]. exists i. split; [lia|].
    unfold at_ at 1. rewrite nth_repeat. rewrite Ei. exact Hp.
Qed.

Lemma hdi_density_ok : exists dens, hdi_density m = Ok dens /\ length dens = length xs /\ all_nonneg dens /\
  simpson xs dens == 1 /\ forall i, (i < length xs)%nat -> at_ dens i == at_ ys i / simpson xs ys.
Proof.
  destruct (mok_lens _ _ _ HM) as [L1 [L2 L3]]. fold xs ys in L1. fold xs in L3.
  pose proof simpson_pos as HP. exists (map (fun y => y / simpson xs ys) ys).
  unfold hdi_density. fold xs ys.
  assert (Qeq_bool (simpson xs ys) 0 = false) as -> by (apply qeqb_false; lra).
  split; [reflexivity|]. split; [rewrite map_length; exact L1|]. split.
  - intros x Hx. apply in_map_iff in Hx. destruct Hx as [y [<- Hy]].
    apply Qle_shift_div_l; [exact HP|]. rewrite Qmult_0_l. apply (mok_nonneg _ _ _ HM); exact Hy.
  - split.
    + destruct (simpson_weights (length xs) h L3 Hh) as [ws [W1 [W2 W3]]].
      assert (E1 : simpson xs (map (fun y => y / simpson xs ys) ys) == dot ws (map (fun y => y / simpson xs ys) ys)).
      { apply W3; [reflexivity|rewrite map_length; exact L1|exact HU]. }
      assert (E2 : simpson xs ys == dot ws ys) by (apply W3; [reflexivity|exact L1|exact HU]).
      rewrite E1, dot_scal, <- E2. field. lra.
    + intros i Hi. rewrite at_map by lia. reflexivity.
Qed.

Variable dens : list Q.
Hypothesis HD : length dens = length xs.
Hypothesis HD0 : all_nonneg dens.

Lemma mass_above_mono s t : s <= t -> mass_above dens xs t <= mass_above dens xs s.
Proof.
  intros Hst. destruct (mok_lens _ _ _ HM) as [L1 [L2 L3]]. fold xs in L3. unfold mass_above.
  destruct (simpson_weights (length xs) h L3 Hh) as [ws [W1 [W2 W3]]].
  rewrite !(W3 xs) by (try reflexivity; try exact HU; rewrite map_length; exact HD).
  apply dot_le; [exact W2|rewrite map_length; lia|rewrite map_length; lia|].
  intros i Hi. rewrite !at_map by lia.
  destruct (Qle_bool t (at_ dens i)) eqn:E1.
  - apply qle_true in E1. assert (Qle_bool s (at_ dens i) = true) as -> by (apply qle_true; lra). lra.
  - destruct (Qle_bool s (at_ dens i)); [|lra]. apply all_nonneg_at; exact HD0.
Qed.
Lemma mass_above_0 : mass_above dens xs 0 == simpson xs dens.
Proof.
  unfold mass_above. assert (E : map (fun y => if Qle_bool 0 y then y else 0) dens = dens); [|rewrite E; reflexivity].
  clear HD. induction dens as [|d l IH]; [reflexivity|]. cbn [map].
  assert (Qle_bool 0 d = true) as -> by (apply qle_true, HD0; left; reflexivity). f_equal. apply IH.
  intros x Hx; apply HD0; right; exact Hx.
Qed.
End Mass.

Lemma bisect_loop_S k f xtol rtol fa xa dm :
  bisect_loop (S k) f xtol rtol fa xa dm =
  (let dm := dm / 2 in let xm := xa + dm in let fm := f xm in
   let xa' := if Bool.eqb (qneg fm) (qneg fa) then xm else xa in
   if Qeq_bool fm 0 || qltb (Qabs dm) (xtol + rtol * Qabs xm) then xm else bisect_loop k f xtol rtol fa xa' dm).
Proof. reflexivity. Qed.

(** Bisection on a non-increasing function. *)
Section Bisect.
Variable f : Q -> Q.
Hypothesis Hf : forall s t, s <= t -> f t <= f s.
Variables (xtol rtol top : Q).
Hypothesis Hx : 0 < xtol.
Hypothesis Hr : 0 <= rtol.
Hypothesis Ht : 0 < top.

Lemma bisect_loop_spec fa : 0 < fa -> forall fuel xa dm, 0 <= xa -> 0 < dm -> xa + dm <= top -> 0 < f xa -> f (xa + dm) < 0 ->
  dm < xtol * inject_Z (2 ^ Z.of_nat fuel) -> (1 <= fuel)%nat ->
  exists d, let t := bisect_loop fuel f xtol rtol fa xa dm in
    xa < t < xa + dm /\ 0 < d < xtol + rtol * top + dm /\
    ((f t == 0) \/ (d < xtol + rtol * top /\ (forall v, v <= t - d -> 0 < f v) /\ (forall v, t + d <= v -> f v < 0))).
Proof.
  intros Hfa. induction fuel as [|k IH]; intros xa dm Hxa Hdm Htop Hpa Hpb Hsm Hk; [lia|].
  cbn [bisect_loop]. cbv zeta.
  set (d := dm / 2). assert (Ed : d == (1#2) * dm) by (unfold d; field).
  set (xm := xa + d).
  assert (Exm : xm == xa + d) by reflexivity.
  assert (Hq : qneg fa = false) by (apply qlt_false; lra). rewrite Hq.
  destruct (Qeq_bool (f xm) 0 || qltb (Qabs d) (xtol + rtol * Qabs xm)) eqn:ES.
  - exists d. assert (rtol * Qabs xm <= rtol * top).
    { rewrite (Qabs_pos xm) by lra. assert (xm <= top) by lra. nra. }
    assert (0 <= rtol * top) by nra.
    split; [lra|]. split; [lra|].
    destruct (Qeq_bool (f xm) 0) eqn:E0; [left; apply qeqb_true; exact E0|right].
    cbn [orb] in ES. apply qlt_true in ES. rewrite (Qabs_pos d) in ES by lra. split; [lra|]. split.
    + intros v Hv. assert (f xa <= f v) by (apply Hf; lra). lra.
    + intros v Hv. assert (f v <= f (xa + dm)) by (apply Hf; lra). lra.
  - apply orb_false_iff in ES. destruct ES as [E0 E1]. apply qeqb_false in E0.
    apply qlt_false in E1. rewrite (Qabs_pos d) in E1 by lra.
    destruct k as [|k].
    { exfalso. change (inject_Z (2 ^ Z.of_nat 1)) with 2 in Hsm.
      assert (0 <= rtol * Qabs xm) by (pose proof (Qabs_nonneg xm); nra). lra. }
    assert (Hsm' : d < xtol * inject_Z (2 ^ Z.of_nat (S k))).
    { rewrite Nat2Z.inj_succ, Z.pow_succ_r, inject_Z_mult in Hsm by lia. change (inject_Z 2) with 2 in Hsm. lra. }
    assert (0 <= rtol * top) by nra.
    destruct (Bool.eqb (qneg (f xm)) false) eqn:EN.
    + apply eqb_prop in EN. apply qlt_false in EN.
      assert (Hpm : 0 < f xm) by (destruct (Qlt_le_dec 0 (f xm)) as [L|L]; [exact L|exfalso; apply E0; lra]).
      assert (Hpb' : f (xm + d) < 0).
      { assert (f (xm + d) <= f (xa + dm)) by (apply Hf; lra). lra. }
      destruct (IH xm d) as [d' [A [B C]]]; try assumption; try lra; try lia.
      exists d'. cbv zeta in A, B, C. split; [lra|]. split; [lra|]. exact C.
    + assert (Hneg : f xm < 0).
      { destruct (qneg (f xm)) eqn:EQ; [apply qlt_true in EQ; exact EQ|discriminate]. }
      assert (Hpb' : f (xa + d) < 0) by exact Hneg.
      destruct (IH xa d) as [d' [A [B C]]]; try assumption; try lra; try lia.
      exists d'. cbv zeta in A, B, C. split; [lra|]. split; [lra|]. exact C.
Qed.
End Bisect.

Lemma qmax_list_hd_spec (l : list Q) : l <> [] -> (forall x, In x l -> x <= qmax_list (hd 0 l) l) /\ In (qmax_list (hd 0 l) l) l.
Proof.
  intros HN. destruct (qmax_list_spec (hd 0 l) l) as [H1 H2]. split.
  - intros x Hx. apply H1. right. exact Hx.
  - destruct H2 as [H2|H2]; [|exact H2]. rewrite <- H2. destruct l; [congruence|left; reflexivity].
Qed.

Section Threshold.
Variable m : marginal.
Hypothesis HM : mg_ok m.
Variable h : Q.
Hypothesis Hh : 0 < h.
Hypothesis HU : uniform h (mg_xs m).
Variable dens : list Q.
Hypothesis HD : hdi_density m = Ok dens.
Let mass := mass_above dens (mg_xs m).
Let peak := qmax_list (hd 0 dens) dens.

Lemma dens_facts : length dens = length (mg_xs m) /\ all_nonneg dens /\ simpson (mg_xs m) dens == 1.
Proof.
  destruct (hdi_density_ok m HM h Hh HU) as [d' [E1 [E2 [E3 [E4 _]]]]]. rewrite HD in E1. injection E1 as <-. tauto.
Qed.
Lemma peak_spec : (forall i, (i < length dens)%nat -> at_ dens i <= peak) /\ In peak dens /\ 0 < peak.
Proof.
  destruct dens_facts as [L [N S]]. destruct (mok_lens _ _ _ HM) as [L1 [L2 L3]].
  assert (NE : dens <> []) by (intros E; rewrite E in L; cbn in L; lia).
  destruct (qmax_list_hd_spec dens NE) as [P1 P2]. fold peak in P1, P2.
  assert (HB : forall i, (i < length dens)%nat -> at_ dens i <= peak) by (intros i Hi; apply P1, at_In; exact Hi).
  split; [exact HB|]. split; [exact P2|].
  assert (0 <= peak) by (apply N; exact P2).
  destruct (Qlt_le_dec 0 peak) as [Lp|Lp]; [exact Lp|exfalso].
  destruct (simpson_weights (length (mg_xs m)) h L3 Hh) as [ws [W1 [W2 W3]]].
  rewrite (W3 (mg_xs m) dens eq_refl L HU) in S.
  rewrite dot_zero in S; [lra| |lia]. intros i Hi. specialize (HB i ltac:(lia)).
  pose proof (all_nonneg_at dens i N). lra.
Qed.

Lemma mass_mono s t : s <= t -> mass t <= mass s.
Proof. destruct dens_facts as [L [N S]]. intros H. apply (mass_above_mono m HM h Hh HU dens L N); exact H. Qed.
Lemma mass_0 : mass 0 == 1.
Proof. destruct dens_facts as [L [N S]]. unfold mass. rewrite mass_above_0 by assumption. exact S. Qed.

Definition tol := hdi_xtol + bisect_rtol * peak.

(** [t] separates the levels whose enclosed mass exceeds the area from those where it falls short,
    up to the solver's tolerance. *)
Lemma threshold_spec area : 0 < area < 1 -> mass peak < area -> peak < hdi_xtol * inject_Z (2 ^ 100) ->
  exists t, hdi_threshold area m dens = Ok t /\ 0 < t < peak /\
    (mass t == area \/ ((forall v, v <= t - tol -> area < mass v) /\ (forall v, t + tol <= v -> mass v < area))).
Proof.
  intros HA Hp Hb. destruct peak_spec as [P1 [P2 P3]]. unfold hdi_threshold. fold peak mass.
  set (f := fun t => mass t - area).
  assert (Hf : forall s t, s <= t -> f t <= f s) by (intros s t Hst; unfold f; pose proof (mass_mono s t Hst); lra).
  assert (F0 : f 0 == 1 - area) by (unfold f; rewrite mass_0; reflexivity).
  assert (F1 : f peak < 0) by (unfold f; lra).
  unfold bisect.
  assert (Qeq_bool (f 0) 0 = false) as -> by (apply qeqb_false; rewrite F0; lra).
  assert (Qeq_bool (f peak) 0 = false) as -> by (apply qeqb_false; lra).
  assert (qneg (f 0) = false) as -> by (apply qlt_false; rewrite F0; lra).
  assert (qneg (f peak) = true) as -> by (apply qlt_true; exact F1). cbn [Bool.eqb].
  assert (X1 : 0 < hdi_xtol) by reflexivity. assert (X2 : 0 <= bisect_rtol) by discriminate.
  assert (Hfa : 0 < f 0) by (rewrite F0; lra).
  assert (E0 : peak - 0 == peak) by ring.
  destruct (bisect_loop_spec f Hf hdi_xtol bisect_rtol peak X1 X2 (f 0) Hfa 100 0 (peak - 0)) as [d [A [B C]]]; try lra; try lia.
  - assert (f (0 + (peak - 0)) <= f peak) by (apply Hf; lra). lra.
  - rewrite E0. exact Hb.
  - cbv zeta in A, B, C. set (t := bisect_loop 100 f hdi_xtol bisect_rtol (f 0) 0 (peak - 0)) in *.
    exists t. split; [reflexivity|]. split; [lra|]. unfold tol.
    destruct C as [C|[C1 [C2 C3]]]; [left; unfold f in C; lra|right]. split.
    + intros v Hv. specialize (C2 v ltac:(lra)). unfold f in C2. lra.
    + intros v Hv. specialize (C3 v ltac:(lra)). unfold f in C3. lra.
Qed.

(** No sign change: the solver refuses. *)
Lemma threshold_err area : area < 1 -> area < mass peak -> hdi_threshold area m dens = Err ValueError.
Proof.
  intros HA Hp. unfold hdi_threshold. fold peak mass. unfold bisect.
  pose proof mass_0 as M0.
  assert (Qeq_bool (mass 0 - area) 0 = false) as -> by (apply qeqb_false; rewrite M0; lra).
  assert (Qeq_bool (mass peak - area) 0 = false) as -> by (apply qeqb_false; lra).
  assert (qneg (mass 0 - area) = false) as -> by (apply qlt_false; rewrite M0; lra).
  assert (qneg (mass peak - area) = false) as -> by (apply qlt_false; lra). reflexivity.
Qed.

(** On a wide scale (peak density below 1e-3) the threshold is half the peak, whatever the area. *)
Lemma threshold_wide area : area < 1 -> mass peak < area -> peak < 2 * hdi_xtol ->
  exists t, hdi_threshold area m dens = Ok t /\ t == (1#2) * peak.
Proof.
  intros HA Hp Hb. destruct peak_spec as [P1 [P2 P3]]. unfold hdi_threshold. fold peak mass. unfold bisect.
  pose proof mass_0 as M0.
  assert (Qeq_bool (mass 0 - area) 0 = false) as -> by (apply qeqb_false; rewrite M0; lra).
  assert (Qeq_bool (mass peak - area) 0 = false) as -> by (apply qeqb_false; lra).
  assert (qneg (mass 0 - area) = false) as -> by (apply qlt_false; rewrite M0; lra).
  assert (qneg (mass peak - area) = true) as -> by (apply qlt_true; lra). cbn [Bool.eqb].
  eexists. split; [reflexivity|]. change 100%nat with (S 99). rewrite bisect_loop_S. cbv zeta.
  set (xm := 0 + (peak - 0) / 2). assert (Em : xm == (1#2) * peak) by (unfold xm; field).
  assert (qltb (Qabs ((peak - 0) / 2)) (hdi_xtol + bisect_rtol * Qabs xm) = true) as ->.
  { apply qlt_true. assert (E : (peak - 0) / 2 == (1#2) * peak) by field. rewrite E, Em. rewrite Qabs_pos by lra.
    assert (0 < bisect_rtol) by reflexivity. assert (0 < hdi_xtol) by reflexivity. nra. }
  rewrite orb_true_r. exact Em.
Qed.
End Threshold.

(** C31: multimodal bounds. *)
Lemma masked_in {A} (mask : list bool) (l : list A) (d : A) : length mask = length l ->
  forall k, (k < length (masked mask l))%nat -> exists i, (i < length l)%nat /\ nth i mask false = true /\
    nth k (masked mask l) d = nth i l d /\
    (forall (B : Type) (l2 : list B) (d2 : B), length l2 = length l -> nth k (masked mask l2) d2 = nth i l2 d2).
Proof.
  revert l. induction mask as [|b mask IH]; intros [|x l] HL k Hk; cbn in HL; try lia; [cbn in Hk; lia|].
  unfold masked in *. cbn [combine filter fst] in *. destruct b; cbn [map snd] in *.
  - destruct k as [|k].
    + exists 0%nat. cbn. repeat split; [lia|]. intros B [|y l2] d2 H2; cbn in H2; [lia|]. reflexivity.
    + destruct (IH l ltac:(lia) k ltac:(cbn in Hk; lia)) as [i [A1 [A2 [A3 A4]]]].
      exists (S i). cbn. repeat split; [lia|exact A2|exact A3|].
      intros B [|y l2] d2 H2; cbn in H2; [lia|]. cbn. apply A4. lia.
  - destruct (IH l ltac:(lia) k Hk) as [i [A1 [A2 [A3 A4]]]].
    exists (S i). cbn. repeat split; [lia|exact A2|exact A3|].
    intros B [|y l2] d2 H2; cbn in H2; [lia|]. cbn. apply A4. lia.
Qed.
Lemma masked_all {A} (mask : list bool) (l : list A) (d : A) : length mask = length l ->
  forall i, (i < length l)%nat -> nth i mask false = true -> In (nth i l d) (masked mask l).
Proof.
  revert l. induction mask as [|b mask IH]; intros [|x l] HL i Hi Hm; cbn in HL, Hi; try lia.
  unfold masked in *. cbn [combine filter fst]. destruct i as [|i].
  - cbn in Hm. subst b. left. reflexivity.
  - cbn in Hm. cbn [nth]. destruct b; cbn [map snd]; [right|]; apply IH; try lia; exact Hm.
Qed.
Lemma masked_length {A B} (mask : list bool) (l : list A) (l2 : list B) :
  length l = length l2 -> length (masked mask l) = length (masked mask l2).
Proof.
  revert l l2. induction mask as [|b mask IH]; intros [|x l] [|y l2] H; cbn in H; try lia; try reflexivity.
  unfold masked in *. cbn [combine filter fst]. destruct b; cbn [map length]; rewrite (IH l l2) by lia; reflexivity.
Qed.

Theorem multimodal_bound_ok : forall m lo hi, mg_ok m -> In lo (mg_xs m) -> In hi (mg_xs m) -> lo <= hi ->
  exists l c u k, multimodal_bound m (lo, hi) = mkB l c u /\ l == lo /\ u == hi /\ l <= c <= u /\
    (k < length (mg_xs m))%nat /\ at_ (mg_xs m) k == c /\
    forall j, (j < length (mg_xs m))%nat -> lo <= at_ (mg_xs m) j <= hi -> at_ (mg_ys m) j <= at_ (mg_ys m) k.
Proof.
  intros m lo hi HM Hlo Hhi Hle. destruct (mok_lens _ _ _ HM) as [L1 [L2 L3]].
  set (xs := mg_xs m) in *. set (ys := mg_ys m) in *.
  assert (NE : xs <> []) by (intros E; rewrite E in L3; cbn in L3; lia).
  unfold multimodal_bound. fold xs ys. cbn [fst snd]. cbv zeta.
  set (lower := qmax lo (qmin_list (hd 0 xs) xs)). set (upper := qmin hi (qmax_list (hd 0 xs) xs)).
  assert (El : lower == lo).
  { unfold lower, qmax. destruct (qmin_list_spec (hd 0 xs) xs) as [Q1 _].
    specialize (Q1 lo (or_intror Hlo)). destruct (Qle_bool lo (qmin_list (hd 0 xs) xs)) eqn:E; [apply qle_true in E; lra|reflexivity]. }
  assert (Eu : upper == hi).
  { unfold upper, qmin. destruct (qmax_list_spec (hd 0 xs) xs) as [Q1 _].
    specialize (Q1 hi (or_intror Hhi)). destruct (Qle_bool hi (qmax_list (hd 0 xs) xs)) eqn:E; [reflexivity|apply qle_false in E; lra]. }
  set (mask := map (fun x => Qle_bool lower x && Qle_bool x upper) xs).
  assert (LM : length mask = length xs) by apply map_length.
  assert (HMk : forall j, (j < length xs)%nat -> nth j mask false = true <-> lo <= at_ xs j <= hi).
  { intros j Hj. unfold mask. set (g := fun x => Qle_bool lower x && Qle_bool x upper).
    rewrite (nth_indep _ false (g 0)) by (rewrite map_length; exact Hj).
    rewrite (map_nth g). unfold g. fold (at_ xs j). rewrite andb_true_iff, !qle_true. rewrite El, Eu. reflexivity. }
  destruct (In_at _ _ Hlo) as [il [Hil Eil]].
  assert (Hex : existsb (fun b => b) mask = true).
  { apply existsb_exists. exists true. split; [|reflexivity].
    assert (Ht : nth il mask false = true) by (apply HMk; [exact Hil|rewrite Eil; lra]).
    rewrite <- Ht. apply nth_In. lia. }
  rewrite Hex.
  assert (NM : masked mask ys <> []).
  { assert (HI : In (nth il ys 0) (masked mask ys)).
    { apply masked_all; [lia|lia|]. apply HMk; [exact Hil|rewrite Eil; lra]. }
    intros E. rewrite E in HI. exact HI. }
  destruct (argmax_spec _ NM) as [[A1 A2] _]. set (k := argmax (masked mask ys)) in *.
  destruct (masked_in mask ys 0 ltac:(lia) k A1) as [i [I1 [I2 [I3 I4]]]].
  assert (Hi : lo <= at_ xs i <= hi) by (apply HMk; [lia|exact I2]).
  assert (EC : nth k (masked mask xs) 0 = at_ xs i) by (apply I4; lia).
  eexists lower, _, upper, i. split; [reflexivity|]. split; [exact El|]. split; [exact Eu|].
  rewrite EC. rewrite El, Eu. split; [exact Hi|]. split; [lia|]. split; [reflexivity|].
  intros j Hj Hin.
  assert (HI : In (nth j ys 0) (masked mask ys)).
  { apply masked_all; [lia|lia|]. apply HMk; [exact Hj|exact Hin]. }
  destruct (In_at _ _ HI) as [q [Hq Eq]]. specialize (A2 q Hq). rewrite Eq in A2.
  change (at_ (masked mask ys) k) with (nth k (masked mask ys) 0) in A2. rewrite I3 in A2. exact A2.
Qed.
