(** Lemmas: when a chain's contours and bars are filled. *)
From Coq Require Import String List Bool Arith ZArith QArith Reals Qreals Lia Lra.
From Verif Require Import Py NumModel NumSpec NumFacts MarginalModel FrameModel ConfigModel ChainModel RegistrySpec SurfaceModel SurfaceProofs OpacitySpec.
Import ListNotations.
Open Scope Q_scope.

Lemma alpha_positive_ok a : alpha_positive a = true <-> forall v, alpha_value a = Some v -> (0 < v)%R.
Proof.
  induction a as [q|n|a IH].
  - cbn. split.
    + intros H v E. injection E as <-. apply qlt_true in H. replace 0%R with (Q2R 0) by (unfold Q2R; cbn; lra). apply Qlt_Rlt. exact H.
    + intros H. specialize (H _ eq_refl). apply qlt_true. apply Rlt_Qlt. unfold Q2R at 1. cbn. lra.
  - split; [|reflexivity]. intros _ v E. destruct n; [discriminate|]. change (Some (1 / sqrt (INR (S n)))%R = Some v) in E. injection E as <-. change (0 < 1 / sqrt (INR (S n)))%R. apply Rdiv_lt_0_compat; [lra|]. apply sqrt_lt_R0. apply lt_0_INR. lia.
  - change (alpha_positive (AHalf a)) with (alpha_positive a). rewrite IH. cbn. destruct (alpha_value a) as [v|]; cbn; split; intros H w E; try discriminate; injection E as <-.
    + specialize (H v eq_refl). lra.
    + specialize (H _ eq_refl). lra.
Qed.
Lemma shade_on_ok c : (ch_cfg c Fshade : bool) && alpha_positive (ch_cfg c Fshade_alpha) = true <-> shade_on c.
Proof. unfold shade_on. rewrite andb_true_iff, alpha_positive_ok. reflexivity. Qed.
