(** Independent vocabulary: the questions a user can ask of a consumer, between other calls. *)
From Coq Require Import String List Bool Arith ZArith QArith Reals.
From Verif Require Import Py NumModel FrameModel ConfigModel ChainModel RegistryModel RegistrySpec CovModel TextModel AnalysisModel CompareModel DiagModel SurfaceModel FigureModel FigureSpec ConsumerSpec.
Import ListNotations.
Open Scope string_scope.
Open Scope list_scope.

(** The external primitives the answers depend on. *)
Record primitives := {
  pr_num : numerics; pr_repr : string -> string; pr_ascii : string -> string;
  pr_nearest : list (list Q) -> list Q -> nat; pr_argsort : list R -> list nat;
  pr_yule_walker : list Q -> nat -> list R * R; pr_normaltest : list R -> res (option R) }.

(** Calls of [analysis], [comparison] and [diagnostic], with their arguments. *)
Inductive question :=
| QSummary (req : chain_request) (columns : option (list string))
| QLatex (columns : option (list string)) (req : chain_request) (transpose : bool) (caption label : option string) (hlines : bool) (blank : string)
| QCorrelation (which : option chain_ref) (columns : option (list string)) (caption label : string)
| QCovariance (which : option chain_ref) (columns : option (list string)) (caption label : string)
| QMaxPosteriors (names : option (list string))
| QAic | QBic | QDic
| QComparison (caption label : option string) (hlines aic bic dic : bool) (sort : string) (descending : bool)
| QGelmanRubin (r : dreq) (threshold : Q)
| QGeweke (r : dreq) (first last threshold : Q).
Inductive answer :=
| WithSummary (r : res (dict (dict bounds_in)))
| WithText (r : res string)
| WithPoints (r : res (dict max_posterior))
| WithScores (r : res (dict R))
| WithTest (r : res test_result).

(** The labels and blinds of the tables are those of the plotting configuration. *)
Definition ask (o : primitives) (s : session) (q : question) : session * answer :=
  let w := s_world s in
  let cfg := config_in_use (s_plotter s) in
  match q with
  | QSummary req columns => let '(w', r) := get_summary (pr_num o) w req columns in (with_world s w', WithSummary r)
  | QLatex columns req t c l h b => let '(w', r) := get_latex_table (pr_num o) (pr_repr o) (pr_ascii o) w (p_labels cfg) (p_blind cfg) columns req t c l h b in (with_world s w', WithText r)
  | QCorrelation which columns c l => (s, WithText (get_correlation_table (pr_repr o) (pr_ascii o) w (p_labels cfg) which columns c l))
  | QCovariance which columns c l => (s, WithText (get_covariance_table (pr_repr o) (pr_ascii o) w (p_labels cfg) which columns c l))
  | QMaxPosteriors names => (s, WithPoints (get_max_posteriors w names))
  | QAic => (s, WithScores (aic w)) | QBic => (s, WithScores (bic w)) | QDic => (s, WithScores (dic (pr_nearest o) w))
  | QComparison c l h a b d st de => (s, WithText (comparison_table (pr_repr o) (pr_ascii o) (pr_nearest o) (pr_argsort o) w c l h a b d st de))
  | QGelmanRubin r t => (s, WithTest (gelman_rubin w r t))
  | QGeweke r f l t => (s, WithTest (geweke (pr_yule_walker o) (pr_normaltest o) w r f l t))
  end.

(** A session mixes questions with the other calls. *)
Inductive event := Did (a : action) | Asked (q : question).
Definition happen (rgb2hex : list Q -> string) (k : backend) (o : primitives) (s : session) (e : event) : session :=
  match e with Did a => act rgb2hex k s a | Asked q => fst (ask o s q) end.
Definition happens (rgb2hex : list Q -> string) (k : backend) (o : primitives) (s : session) (l : list event) : session := fold_left (happen rgb2hex k o) l s.
(** Questions, drawing, selecting and building chain objects that are not added. *)
Definition harmless (e : event) : Prop := match e with Did a => looks a | Asked _ => True end.
Definition sane (e : event) : Prop := match e with Did a => takes_dicts a | Asked _ => True end.

(** The chain objects a question mentions. *)
Definition ref_locs (r : chain_ref) : list nat := match r with ByChain l => [l] | ByName _ => [] end.
Definition req_locs (req : chain_request) : list nat := match req with ReqList l => flat_map ref_locs l | ReqDict d => dvalues d | ReqAll => [] end.
Definition creq_locs (c : creq) : list nat := match c with DObject l => [l] | DName _ => [] end.
Definition dreq_locs (r : dreq) : list nat := match r with DAll => [] | DList l => flat_map creq_locs l | DOne c => creq_locs c end.
Definition mentioned (q : question) : list nat :=
  match q with
  | QSummary req _ | QLatex _ req _ _ _ _ _ => req_locs req
  | QCorrelation (Some r) _ _ _ | QCovariance (Some r) _ _ _ => ref_locs r
  | QGelmanRubin r _ | QGeweke r _ _ _ => dreq_locs r
  | _ => []
  end.
(** They exist. *)
Definition about_existing (w : world) (q : question) : Prop := forall l, In l (mentioned q) -> exists c, chain_at (fst w) l = Some c.
