(** Independent vocabulary: calls that fail; several consumers in one Python process. *)
From Coq Require Import String List Bool Arith ZArith QArith Reals.
From Verif Require Import Py NumModel FrameModel ConfigModel ChainModel RegistryModel RegistrySpec AnalysisModel FigureModel ConsumerSpec QuerySpec.
Import ListNotations.
Open Scope string_scope.
Open Scope list_scope.

(** The call raises an exception in this session: a constructor or registry call, a truth that is refused, a drawing, or
    a question. The other calls (set_plot_config, restore_rc_params, changing rcParams) never raise. *)
Definition raised (a : answer) : Prop :=
  match a with
  | WithSummary (Err _) | WithText (Err _) | WithPoints (Err _) | WithScores (Err _) | WithTest (Err _) => True
  | _ => False
  end.
Definition raises (rgb2hex : list Q -> string) (k : backend) (o : primitives) (s : session) (e : QuerySpec.event) : Prop :=
  match e with
  | Did (ARegistry op) => exists x, snd (step rgb2hex (s_world s) op) = Err x
  | Did (ATruth t) => ~ valid_truth (bk_filled k) t
  | Did (ADraw d) => exists x, snd (draw_figure k s d) = Err x
  | Did _ => False
  | Asked q => raised (snd (ask o s q))
  end.
(** Every call of the list raises, or is a question, a drawing, a selection or builds a chain object without adding it. *)
Fixpoint in_vain (rgb2hex : list Q -> string) (k : backend) (o : primitives) (s : session) (l : list QuerySpec.event) : Prop :=
  match l with
  | [] => True
  | e :: l => (raises rgb2hex k o s e \/ harmless e) /\ in_vain rgb2hex k o (happen rgb2hex k o s e) l
  end.

(** What the user can observe of a consumer now: its chains (names, in order, and the objects), override, truths and
    plotting configuration, the result of every question and of every drawing about chain objects that exist. *)
Definition same_to_the_user (k : backend) (o : primitives) (s s' : session) : Prop :=
  untouched (fst (s_world s)) (fst (s_world s')) /\ snd (s_world s') = snd (s_world s) /\ s_truths s' = s_truths s /\ s_plotter s' = s_plotter s /\
  (forall q, about_existing (s_world s) q -> snd (ask o s' q) = snd (ask o s q)) /\
  (forall d, (forall l, In l (req_locs (asks_for d)) -> exists c, chain_at (fst (s_world s)) l = Some c) -> snd (draw_figure k s' d) = snd (draw_figure k s d)).

(** ** Several consumers *)
(** What belongs to one consumer; chain objects, DataFrames and matplotlib's rc parameters are shared. *)
Record owner := { ow_consumer : consumer; ow_truths : list truth; ow_plotter : plotter }.
Record process := { pc_heap : heap; pc_rc : rc_params; pc_consumers : list owner }.
Definition seen_by (p : process) (x : owner) : session :=
  {| s_world := (pc_heap p, ow_consumer x); s_truths := ow_truths x; s_plotter := ow_plotter x; s_rc := pc_rc p |}.
Definition consumer_at (p : process) (i : nat) : option session := option_map (seen_by p) (nth_error (pc_consumers p) i).
Fixpoint replace_at {A} (i : nat) (x : A) (l : list A) : list A :=
  match l, i with
  | [], _ => []
  | _ :: l, O => x :: l
  | y :: l, S i => y :: replace_at i x l
  end.
(** ChainConsumer(), or a call on the i-th consumer. *)
Inductive usage := Make | On (i : nat) (e : QuerySpec.event).
Definition use (rgb2hex : list Q -> string) (k : backend) (o : primitives) (p : process) (u : usage) : process :=
  match u with
  | Make => {| pc_heap := pc_heap p; pc_rc := pc_rc p; pc_consumers := pc_consumers p ++ [{| ow_consumer := new_consumer; ow_truths := []; ow_plotter := new_plotter (pc_rc p) |}] |}
  | On i e =>
      match consumer_at p i with
      | None => p
      | Some s =>
          let s' := happen rgb2hex k o s e in
          {| pc_heap := fst (s_world s'); pc_rc := s_rc s';
             pc_consumers := replace_at i {| ow_consumer := snd (s_world s'); ow_truths := s_truths s'; ow_plotter := s_plotter s' |} (pc_consumers p) |}
      end
  end.
Definition uses (rgb2hex : list Q -> string) (k : backend) (o : primitives) (p : process) (l : list usage) : process := fold_left (use rgb2hex k o) l p.
(** A process with DataFrames and no consumer yet. *)
Definition started (h : heap) (rc : rc_params) : process := {| pc_heap := h; pc_rc := rc; pc_consumers := [] |}.
Definition reasonable (u : usage) : Prop := match u with Make => True | On _ e => sane e end.
(** Not a call on the i-th consumer. *)
Definition elsewhere (i : nat) (u : usage) : Prop := match u with Make => True | On j _ => j <> i end.
(** Neither drawing nor changing rcParams oneself. *)
Definition quiet (u : usage) : Prop := match u with On _ (Did (ADraw _)) | On _ (Did (ASetRc _)) => False | _ => True end.
(** The parameters that the library sets. *)
Definition same_fonts (rc rc' : rc_params) : Prop := rc_usetex rc' = rc_usetex rc /\ rc_family rc' = rc_family rc.
