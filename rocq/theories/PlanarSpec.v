(** Independent vocabulary: weighted points of the plane related by a change of units, and surfaces that
    follow it. *)
From Coq Require Import String QArith List Arith ZArith Bool Reals.
From Verif Require Import Py NumSpec HelpersSpec MarginalModel FrameModel ConfigModel ChainModel AnalysisModel SurfaceSpec EquivSpec.
From Verif Require Import SurfaceModel.
Import ListNotations.
Open Scope Q_scope.

(** The weight of all samples at the point (x, y); whether there is one. *)
Definition weight_at2 (x y : Q) (s : list (Q * Q * Q)) : Q := weight_where (fun a b => Qeq_bool a x && Qeq_bool b y) s.
Definition occurs2 (x y : Q) (s : list (Q * Q * Q)) : Prop := exists a b w, In ((a, b), w) s /\ a == x /\ b == y.
(** Units of the two axes. *)
Record units := { u_a : Q; u_b : Q; u_c : Q; u_d : Q }.
Definition in_x (u : units) : Q -> Q -> Prop := in_units (u_a u) (u_b u).
Definition in_y (u : units) : Q -> Q -> Prop := in_units (u_c u) (u_d u).
Definition positive_units (u : units) : Prop := 0 < u_a u /\ 0 < u_c u.
Definition no_units : units := {| u_a := 1; u_b := 0; u_c := 1; u_d := 0 |}.
(** The weighted points [s'] are [s] in other units, the weights in other units too (a factor [k]).  The number of
    samples at a point and their order are free. *)
Definition same_points (u : units) (k : Q) (s s' : list (Q * Q * Q)) : Prop :=
  0 < k /\ forall x x' y y', in_x u x x' -> in_y u y y' -> (occurs2 x y s <-> occurs2 x' y' s') /\ weight_at2 x' y' s' == k * weight_at2 x y s.
(** Units may change along an axis only if the points differ along it. *)
Definition spread_out (u : units) (s : list (Q * Q * Q)) : Prop :=
  (u_a u == 1 \/ exists x y x' y', occurs2 x y s /\ occurs2 x' y' s /\ ~ x == x') /\
  (u_c u == 1 \/ exists x y x' y', occurs2 x y s /\ occurs2 x' y' s /\ ~ y == y').

(** The weighted points of two columns of a chain. *)
Definition points (c : chain) (f : frame) (px py : string) (s : list (Q * Q * Q)) : Prop :=
  exists x y w, f_get f px = Some x /\ f_get f py = Some y /\ f_get f (ch_weight c) = Some w /\ s = combine (combine (qs x) (qs y)) (qs w).
(** The two columns of [f'] hold the weighted points of [f] in other units, the weights in other units too. *)
Definition same_plane (u : units) (k : Q) (c : chain) (f f' : frame) (px py : string) : Prop :=
  same_bins c f f' /\ exists s s', points c f px py s /\ points c f' px py s' /\ s <> [] /\ same_points u k s s' /\ spread_out u s.
(** The two columns and the weights replaced by their values in other units. *)
Definition rescaled (u : units) (k : Q) (c : chain) (px py : string) (f f' : frame) : Prop :=
  exists x y w x' y' w', f_get f px = Some x /\ f_get f py = Some y /\ f_get f (ch_weight c) = Some w /\
    Forall2 (in_x u) (qs x) (qs x') /\ Forall2 (in_y u) (qs y) (qs y') /\ Forall2 (in_units k 0) (qs w) (qs w') /\
    f' = f_set (f_set (f_set f px x') py y') (ch_weight c) w'.
(** Without a kernel density estimate, or with one that follows the units up to the factor [t]. *)
Definition same_kde2 (kde2 : list Q -> list Q -> list Q -> Q -> Q * Q -> Q) (u : units) (t : Q) (c : chain) (f f' : frame) (px py : string) : Prop :=
  kde_on (ch_cfg c Fkde) = false \/
  forall x y w x' y' w' p q p' q', f_get f px = Some x -> f_get f py = Some y -> f_get f (ch_weight c) = Some w ->
    f_get f' px = Some x' -> f_get f' py = Some y' -> f_get f' (ch_weight c) = Some w' -> in_x u p p' -> in_y u q q' ->
    kde2 (qs x') (qs y') (qs w') (kde_value (ch_cfg c Fkde)) (p', q') == t * kde2 (qs x) (qs y) (qs w) (kde_value (ch_cfg c Fkde)) (p, q).

(** A density on a grid, in other units: the same cells, [t] times as dense. *)
Definition surface_in_units (u : units) (t : Q) (s s' : list (list Q) * list Q * list Q) : Prop :=
  Forall2 (Forall2 (in_units t 0)) (fst (fst s)) (fst (fst s')) /\ Forall2 (in_x u) (snd (fst s)) (snd (fst s')) /\ Forall2 (in_y u) (snd s) (snd s').

(** [z] is [v] with rows and columns exchanged. *)
Definition exchanged (z v : list (list Q)) : Prop :=
  exists a b, shaped v a b /\ shaped z b a /\ forall i j, (i < a)%nat -> (j < b)%nat -> cell 0 z j i = cell 0 v i j.
(** What contours are drawn from: an empty cell counts as 1e-16. *)
Definition never_empty (m : list (list Q)) : list (list Q) := map (map (fun v => if Qeq_bool v 0 then (1 # 10000000000000000) else v)) m.
Definition full (m : list (list Q)) : Prop := forall v, In v (concat m) -> ~ v == 0.
(** Two arrays show the credible regions of the density [m] (they may differ in the order of equally dense cells). *)
Definition same_regions (m z z' : list (list Q)) : Prop :=
  exists v v', credible_surface m v /\ credible_surface m v' /\ exchanged z v /\ exchanged z' v'.
(** Exactly one cell is as dense as cell (i, j). *)
Definition untied (m : list (list Q)) (i j : nat) : Prop := length (filter (Qeq_bool (cell 0 m i j)) (concat m)) = 1%nat.
(** Contours of the density [m] in other units. *)
Definition draw_in_units (u : units) (m : list (list Q)) (d d' : draw) : Prop :=
  match d, d' with
  | Filled xc yc z l col a zo, Filled xc' yc' z' l' col' a' zo' =>
      Forall2 (in_x u) xc xc' /\ Forall2 (in_y u) yc yc' /\ same_regions m z z' /\ l' = l /\ col' = col /\ a' = a /\ zo' = zo
  | Lines xc yc z l col st lw zo, Lines xc' yc' z' l' col' st' lw' zo' =>
      Forall2 (in_x u) xc xc' /\ Forall2 (in_y u) yc yc' /\ same_regions m z z' /\ l' = l /\ col' = col /\ st' = st /\ lw' = lw /\ zo' = zo
  | LevelLabels l, LevelLabels l' => l' = l
  | _, _ => False
  end.
