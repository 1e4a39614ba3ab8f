(** Independent vocabulary: chains that cover the same values of a parameter, in the same or in other units. *)
From Coq Require Import String QArith List.
From Verif Require Import Py HelpersModel FrameModel ConfigModel ChainModel ChainSpec RegistryModel AnalysisModel SurfaceModel FigureModel FigureSpec EquivSpec.
Import ListNotations.
Open Scope string_scope.
Open Scope list_scope.
Open Scope Q_scope.

(** The chain is drawn as contours or a cloud, not only as a point. *)
Definition extended (c : chain) : Prop := ch_cfg c Fplot_contour = true \/ ch_cfg c Fplot_cloud = true.
(** The weighted sample of a column with one weight for each value. *)
Definition whole_sample (c : chain) (f : frame) (p : string) (d : list (Q * Q)) : Prop :=
  exists x w, f_get f p = Some x /\ f_get f (ch_weight c) = Some w /\ length x = length w /\ d = combine (qs x) (qs w).
(** The coordinate of the chain's point of maximum posterior. *)
Definition peak_at (c : chain) (f : frame) (p : string) (v : Q) : Prop :=
  exists lp coords, get_max_posterior_point c f = Ok (Some (lp, coords)) /\ dget p coords = Some v.
(** Both chains are drawn in the same way.  Both lack the parameter, or the samples of one are those of the other in
    other units; chains drawn only as a point have the same point. *)
Definition covers_alike (a b : Q) (p : string) (cf cf' : chain * frame) : Prop :=
  let c := fst cf in let f := snd cf in let c' := fst cf' in let f' := snd cf' in
  (is_column f p <-> is_column f' p) /\ ch_grid c' = ch_grid c /\ ch_cfg c' Fplot_contour = ch_cfg c Fplot_contour /\ ch_cfg c' Fplot_cloud = ch_cfg c Fplot_cloud /\
  (is_column f p -> extended c -> exists k d d', whole_sample c f p d /\ whole_sample c' f' p d' /\ d <> [] /\ same_sample a b k d d' /\ (a == 1 \/ spread d)) /\
  (is_column f p -> ~ extended c ->
    (forall v, peak_at c f p v -> exists v', peak_at c' f' p v' /\ in_units a b v v') /\ (forall v', peak_at c' f' p v' -> exists v, peak_at c f p v /\ in_units a b v v')).
