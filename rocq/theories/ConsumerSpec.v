(** Independent vocabulary for whole sessions: a consumer, its figures and matplotlib's rc parameters. *)
From Coq Require Import String List Bool Arith ZArith QArith.
From Verif Require Import Py NumModel ColorModel FrameModel ConfigModel ChainModel RegistryModel RegistrySpec TextModel AnalysisModel AnalysisSpec SurfaceModel FigureModel FigureSpec.
Import ListNotations.
Open Scope string_scope.
Open Scope list_scope.

(** A drawing call with its arguments. *)
Inductive drawing :=
| DTriangle (req : chain_request) (columns : option (list string)) (file : filename_arg) (size : figsize_arg)
| DWalks (req : chain_request) (columns : option (list string)) (file : filename_arg) (size : size_arg) (convolve : option Z) (weights posterior log_weight : bool)
| DDistributions (req : chain_request) (columns : option (list string)) (file : filename_arg) (wrap : Z) (size : size_arg)
| DSummary (req : chain_request) (columns : option (list string)) (file : filename_arg) (size : Q) (errorbar : bool) (spacing ratio : Q).
Definition asks_for (d : drawing) : chain_request :=
  match d with DTriangle r _ _ _ | DWalks r _ _ _ _ _ _ _ | DDistributions r _ _ _ _ | DSummary r _ _ _ _ _ _ => r end.
Definition columns_of (d : drawing) : option (list string) :=
  match d with DTriangle _ c _ _ | DWalks _ c _ _ _ _ _ _ | DDistributions _ c _ _ _ | DSummary _ c _ _ _ _ _ => c end.
Definition is_triangle (d : drawing) : Prop := match d with DTriangle _ _ _ _ => True | _ => False end.
Definition draw_figure (k : backend) (s : session) (d : drawing) : session * res figure :=
  match d with
  | DTriangle r c f z => plot k s r c f z
  | DWalks r c f z cv w p l => plot_walks k s r c f z cv w p l
  | DDistributions r c f w z => plot_distributions k s r c f w z
  | DSummary r c f z e sp vr => plot_summary k s r c f z e sp vr
  end.
(** What a user can do with one consumer: build, add and remove chains, set the override; add truths; set the
    plotting configuration; draw; restore the rc parameters; change the rc parameters on their own. *)
Inductive action :=
| ARegistry (o : op)
| ATruth (t : truth)
| AConfig (cfg : plot_config)
| ADraw (d : drawing)
| ARestore
| ASetRc (rc : rc_params).
(** One action (an action that raises leaves the rest of the session to go on). *)
Definition act (rgb2hex : list Q -> string) (k : backend) (s : session) (a : action) : session :=
  match a with
  | ARegistry o => with_world s (fst (step rgb2hex (s_world s) o))
  | ATruth t => match new_truth (bk_filled k) t with Ok t' => add_truth s t' | Err _ => s end
  | AConfig cfg => set_plot_config s cfg
  | ADraw d => fst (draw_figure k s d)
  | ARestore => restore s
  | ASetRc rc => {| s_world := s_world s; s_truths := s_truths s; s_plotter := s_plotter s; s_rc := rc |}
  end.
Definition acts (rgb2hex : list Q -> string) (k : backend) (s : session) (l : list action) : session := fold_left (act rgb2hex k) l s.
(** A new consumer in a Python process whose objects are [h] and whose rc parameters are [rc]. *)
Definition fresh (h : heap) (rc : rc_params) : session := {| s_world := (h, new_consumer); s_truths := []; s_plotter := new_plotter rc; s_rc := rc |}.

(** The rc parameters after drawing with [cfg]. *)
Definition drawn_with (cfg : plot_config) (rc rc' : rc_params) : Prop :=
  rc_usetex rc' = match p_usetex cfg with Some b => b | None => rc_usetex rc end /\
  rc_family rc' = match p_serif cfg with Some true => ["serif"] | Some false => ["sans-serif"] | None => rc_family rc end /\
  rc_other rc' = rc_other rc.
(** Actions that change neither the registered chains, the override, the truths nor the configuration. *)
Definition looks (a : action) : Prop :=
  match a with
  | ARegistry (OpNewChain _) | ARegistry (OpDivide _) | ARegistry (OpSelect _ _) | ADraw _ | ARestore | ASetRc _ => True
  | _ => False
  end.

(** The value of a keyword argument given both the user's and the standard ones. *)
Definition keyword (user standard : dict pyval) (key : string) : option pyval :=
  match dget key user with Some v => Some v | None => dget key standard end.
Definition standard_legend (font_size : Z) (markers_first : bool) : dict pyval :=
  [("labelspacing", VNum (3 # 10)); ("loc", VStr "upper right"); ("frameon", VBool false); ("fontsize", VNum (inject_Z font_size)); ("handlelength", VNum 1);
   ("handletextpad", VNum (1 # 5)); ("borderaxespad", VNum 0); ("markerfirst", VBool markers_first)].
Definition standard_watermark : dict pyval :=
  [("color", VStr "#333333"); ("alpha", VNum (7 # 10)); ("verticalalignment", VStr "center"); ("horizontalalignment", VStr "center"); ("weight", VStr "bold")].
(** A marker's location is a dict: its keys are distinct. *)
Definition takes_dicts (a : action) : Prop := match a with ARegistry (OpMarker loc _ _ _ _ _ _) => NoDup (map fst loc) | _ => True end.

(** A truth's marker may have a wide edge only if it is a filled one. *)
Definition valid_truth (filled : string -> bool) (t : truth) : Prop :=
  forall m, t_marker t = Some m -> filled m = false -> t_marker_edge_width t <= 1.
(** [ts] are the valid truths among those added by [past], in the order of the calls. *)
Inductive truths_added (filled : string -> bool) : list action -> list truth -> Prop :=
| ta_nil : truths_added filled [] []
| ta_valid t past ts : valid_truth filled t -> truths_added filled past ts -> truths_added filled (ATruth t :: past) (t :: ts)
| ta_refused t past ts : ~ valid_truth filled t -> truths_added filled past ts -> truths_added filled (ATruth t :: past) ts
| ta_other a past ts : (forall t, a <> ATruth t) -> truths_added filled past ts -> truths_added filled (a :: past) ts.
