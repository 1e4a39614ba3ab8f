(** Independent vocabulary for the figures. *)
From Coq Require Import String List Bool Arith ZArith QArith Qabs Reals.
From Verif Require Import Py NumSpec NumModel HelpersSpec ColorModel HelpersModel MarginalModel FrameModel ConfigModel ChainModel RegistryModel RegistrySpec ChainSpec TextModel AnalysisModel AnalysisSpec SurfaceModel PanelSpec FigureModel.
Import ListNotations.
Open Scope string_scope.
Open Scope list_scope.

(** Asked for [req] and [columns], the session plots the chains [chains] and the columns [cols]. *)
Definition plots (s : session) (req : chain_request) (columns : option (list string)) (chains : list (chain * frame)) (cols : list string) : Prop :=
  exists w1 finals names locs, get_final_chains (s_world s) = (w1, Ok finals) /\ requested (s_world s) req = map Some names /\
    selected (fst w1) finals false names locs /\ objects (fst w1) locs chains /\ AnalysisSpec.asked columns chains cols.
(** The configuration last set, or the default one. *)
Definition config_of (s : session) (cfg : plot_config) : Prop := given (pl_config (s_plotter s)) default_plot_config cfg.

(** [calls] were made on the axis in row [i] and column [j]. *)
Definition axis (fig : figure) (i j : nat) (calls : list call) : Prop :=
  exists row, nth_error (fg_axes fig) i = Some row /\ nth_error row j = Some calls.
Definition grid_shape (fig : figure) (rows cols : nat) : Prop :=
  length (fg_axes fig) = rows /\ forall row, In row (fg_axes fig) -> length row = cols.

(** ** The triangle *)
(** Panel (i, j) of the triangle has [px] along its horizontal and [py] along its vertical axis.  Without
    distributions the first column has no row and the last none. *)
Definition panel_at (cfg : plot_config) (cols : list string) (i j : nat) (px py : string) : Prop :=
  nth_error cols j = Some px /\ nth_error cols (if p_plot_hists cfg then i else S i) = Some py.
Definition diagonal (cfg : plot_config) (i j : nat) : Prop := p_plot_hists cfg = true /\ i = j.
(** The distribution of the second of two parameters is drawn sideways. *)
Definition sideways (cfg : plot_config) (cols : list string) (i : nat) : Prop := p_flip cfg = true /\ p_plot_hists cfg = true /\ length cols = 2%nat /\ i = 1%nat.

(** The text behind an axis label: the factor common to the tick labels. *)
Definition offset_text (o : string) : string := match o with EmptyString => "" | _ => ("[" ++ o ++ "]")%string end.

(** ** Truths *)
Definition is_mark (c : call) : bool := match c with VLine _ _ | HLine _ _ | Marker _ _ _ => true | _ => false end.
Definition marks (calls : list call) : list call := filter is_mark calls.
Definition no_value (t : truth) (p : option string) : Prop := forall q, p = Some q -> dget q (t_location t) = None.
Definition has_value (t : truth) (p : option string) (v : Q) : Prop := exists q, p = Some q /\ dget q (t_location t) = Some v.
(** How a truth is drawn: its own colour, width, dashes, opacity and layer; a filled marker also has an edge, of its own
    colour if it has one. *)
Definition line_style_of (t : truth) (s : line_style) : Prop :=
  l_ls s = t_line_style t /\ l_c s = t_color t /\ l_lw s = t_line_width t /\ l_alpha s = t_alpha t /\ l_zorder s = t_zorder t.
Inductive fill_of (filled : string -> bool) (t : truth) (m : string) : option (colour_input * colour_input * Q) -> Prop :=
| fo_open : filled m = false -> fill_of filled t m None
| fo_edge e : filled m = true -> t_edge_color t = Some e -> fill_of filled t m (Some (e, t_color t, t_marker_edge_width t))
| fo_plain : filled m = true -> t_edge_color t = None -> fill_of filled t m (Some (t_color t, t_color t, t_marker_edge_width t)).
Definition marker_style_of (filled : string -> bool) (t : truth) (m : string) (s : marker_style) : Prop :=
  mk_marker s = m /\ mk_size s = t_marker_size t /\ mk_color s = t_color t /\ mk_alpha s = t_alpha t /\ mk_zorder s = t_zorder t /\ fill_of filled t m (mk_fill s).
(** What a truth draws on a panel with the parameters [px] and [py] on its axes. *)
Inductive marks_of (filled : string -> bool) (px py : option string) (t : truth) : list call -> Prop :=
| mo_none : no_value t px -> no_value t py -> marks_of filled px py t []
| mo_x x s : has_value t px x -> no_value t py -> line_style_of t s -> marks_of filled px py t [VLine x s]
| mo_y y s : no_value t px -> has_value t py y -> line_style_of t s -> marks_of filled px py t [HLine y s]
| mo_cross x y s : has_value t px x -> has_value t py y -> t_marker t = None -> line_style_of t s -> marks_of filled px py t [VLine x s; HLine y s]
| mo_point x y m s : has_value t px x -> has_value t py y -> t_marker t = Some m -> marker_style_of filled t m s -> marks_of filled px py t [Marker x y s].
Definition shows_truths (filled : string -> bool) (truths : list truth) (px py : option string) (calls : list call) : Prop :=
  exists l, Forall2 (marks_of filled px py) truths l /\ marks calls = concat l.

(** ** Ranges *)
(** The range a chain would give the parameter. *)
Inductive own_range (num : numerics) (wide : bool) (p : string) (c : chain) (f : frame) : Q * Q -> Prop :=
| or_grid lo hi v : ch_cfg c Fplot_contour = true \/ ch_cfg c Fplot_cloud = true -> ch_grid c = true -> get_data f p = Ok v ->
    is_min lo v -> is_max hi v -> own_range num wide p c f (lo, hi)
| or_samples lo hi v w : ch_cfg c Fplot_contour = true \/ ch_cfg c Fplot_cloud = true -> ch_grid c = false -> get_data f p = Ok v -> weights c f = Ok w ->
    get_extents (n_bins num) (combine v w) true wide false false = Ok (lo, hi) -> own_range num wide p c f (lo, hi)
| or_point lp coords v : ch_cfg c Fplot_contour = false -> ch_cfg c Fplot_cloud = false -> get_max_posterior_point c f = Ok (Some (lp, coords)) ->
    dget p coords = Some v -> own_range num wide p c f (v, v).
Definition ranged (num : numerics) (wide : bool) (p : string) (cf : chain * frame) (r : Q * Q) : Prop :=
  is_column (snd cf) p /\ own_range num wide p (fst cf) (snd cf) r.
(** The range of the axis of [p]: the user's, otherwise the smallest containing the ranges of all chains. *)
Definition range_of (num : numerics) (cfg : plot_config) (wide : bool) (chains : list (chain * frame)) (p : string) (r : Q * Q) : Prop :=
  match dget p (p_extents cfg) with
  | Some e => r = e
  | None =>
      (forall cf e, In cf chains -> ranged num wide p cf e -> fst r <= fst e /\ snd e <= snd r)%Q /\
      (exists cf e, In cf chains /\ ranged num wide p cf e /\ fst r = fst e) /\
      (exists cf e, In cf chains /\ ranged num wide p cf e /\ snd r = snd e)
  end.

(** ** Distributions *)
Definition scaled_by (c : chain) (h ys : list Q) : Prop := length ys = length h /\ forall i, (i < length h)%nat -> nth i ys 0 = (nth i h 0 * ch_relheight c)%Q.
(** The outline of the distribution of [p]: the smoothed marginal as a curve, or the histogram. *)
Inductive outline_of (num : numerics) (flip : bool) (p : string) (c : chain) (f : frame) : call -> list Q -> list Q -> Prop :=
| oo_curve m ys : smooth_value (ch_cfg c Fsmooth) (ch_grid c) <> 0%Z \/ kde_on (ch_cfg c Fkde) = true ->
    chain_marginal num c f p true = Ok m -> scaled_by c (mg_ys m) ys ->
    outline_of num flip p c f (Curve flip (mg_xs m) ys (ch_cfg c Fcolor) (ch_cfg c Flinestyle) (ch_cfg c Flinewidth) (ch_cfg c Fzorder)) (mg_xs m) ys
| oo_bars v w edges h ys : smooth_value (ch_cfg c Fsmooth) (ch_grid c) = 0%Z -> kde_on (ch_cfg c Fkde) = false ->
    get_data f p = Ok v -> weights c f = Ok w -> hist_density edges (combine v w) = Ok h ->
    (if ch_grid c then get_grid_bins v = Ok edges
     else exists s, get_smoothed_bins (n_bins num) 0 (get_bins (ch_cfg c Fbins) (ch_cfg c Fsmooth) (ch_grid c) (f_rows f) (length (f_cols f))) (combine v w) false false = Ok (edges, s)) ->
    scaled_by c (map (n_power num (ch_power c)) h) ys ->
    outline_of num flip p c f (Bars flip edges ys (ch_cfg c Fcolor) (ch_cfg c Flinestyle) (ch_cfg c Flinewidth) (ch_cfg c Fzorder)) (bin_centers edges) ys.
(** The intervals to shade and the bounds to write above: a unimodal chain shades its summary interval, cut
    to the range of the curve; a multimodal one its bands, or the summary interval if there are fewer than two. *)
Inductive shading (num : numerics) (p : string) (c : chain) (f : frame) (xs : list Q) (b : bound) (lower upper : Q) : list (Q * Q) -> bounds_in -> Prop :=
| sh_one lo hi mn mx : ch_cfg c Fmultimodal = false -> is_min mn xs -> is_max mx xs -> is_max lo [lower; mn] -> is_min hi [upper; mx] ->
    shading num p c f xs b lower upper [(lo, hi)] (BOne b)
| sh_bands bands bs : ch_cfg c Fmultimodal = true -> get_parameter_hdi_intervals num c f p = Ok bands -> get_parameter_multimodal_bounds num c f p bands = Ok bs ->
    (2 <= length bands)%nat -> shading num p c f xs b lower upper bands (BMany bs)
| sh_single bands bs : ch_cfg c Fmultimodal = true -> get_parameter_hdi_intervals num c f p = Ok bands -> get_parameter_multimodal_bounds num c f p bands = Ok bs ->
    (length bands < 2)%nat -> shading num p c f xs b lower upper [(lower, upper)] (BMany bs).
(** The title: the summary as text under the label without dollar signs; none if there is no text. *)
Definition trimmed (s t : string) : Prop := exists k n m, k = "$" /\ s = (String.concat "" (repeat k n) ++ t ++ String.concat "" (repeat k m))%string /\
  (forall r, t <> (k ++ r)%string) /\ (forall r, t <> (r ++ k)%string).
Definition titled (cfg : plot_config) (p : string) (bs : bounds_in) (titles : list call) : Prop :=
  exists label stripped text, shown_label (p_labels cfg) p label /\ trimmed label stripped /\ get_parameter_text bs true (Some stripped) = Ok text /\
    titles = (if String.eqb text "" then [] else [Title text]).
(** Everything drawn for one chain and one parameter: outline, shading, title (if wanted); [top] is the
    highest value. *)
Definition bar_group (num : numerics) (cfg : plot_config) (p : string) (flip summary : bool) (cf : chain * frame) (group : list call) (top : Q) : Prop :=
  let c := fst cf in let f := snd cf in
  exists out xs ys fills titles, group = out :: fills ++ titles /\ outline_of num flip p c f out xs ys /\ is_max top ys /\
    let unshaded := ch_cfg c Fbar_shade = false \/ (exists b, get_parameter_summary num c f p = Ok b /\ (b_lower b = None \/ b_upper b = None)) in
    (unshaded /\ fills = [] /\ titles = []) \/
    (ch_cfg c Fbar_shade = true /\ exists b lower upper ivs bs, get_parameter_summary num c f p = Ok b /\ b_lower b = Some lower /\ b_upper b = Some upper /\
       shading num p c f xs b lower upper ivs bs /\
       fills = map (fun iv => Fill flip (fst iv) (snd iv) (negb (smooth_value (ch_cfg c Fsmooth) (ch_grid c) =? 0)%Z) xs ys (ch_cfg c Fcolor) (ch_cfg c Fzorder)) ivs /\
       (forall iv x, In iv ivs -> x = fst iv \/ x = snd iv -> exists mn mx, is_min mn xs /\ is_max mx xs /\ mn <= x <= mx)%Q /\
       (if summary then titled cfg p bs titles else titles = [])).
Definition is_bar (c : call) : bool := match c with Curve _ _ _ _ _ _ _ | Bars _ _ _ _ _ _ _ | Fill _ _ _ _ _ _ _ _ | Title _ => true | _ => false end.
Definition bars_of (calls : list call) : list call := filter is_bar calls.
(** The chains that draw a distribution of [p]. *)
Definition draws_bars (p : string) (cf : chain * frame) : Prop := ch_cfg (fst cf) Fplot_contour = true /\ is_column (snd cf) p.
(** [l'] are the elements of [l] with the property, in order. *)
Inductive those {A} (P : A -> Prop) : list A -> list A -> Prop :=
| th_nil : those P [] []
| th_take x l l' : P x -> those P l l' -> those P (x :: l) (x :: l')
| th_skip x l l' : ~ P x -> those P l l' -> those P (x :: l) l'.
(** One group for each chain that draws, in order. *)
Definition bars_shown_by (draws : chain * frame -> Prop) (num : numerics) (cfg : plot_config) (p : string) (flip summary : bool) (chains : list (chain * frame)) (calls : list call) (tops : list Q) : Prop :=
  exists drawn groups, those draws chains drawn /\ length groups = length drawn /\ length tops = length drawn /\
    (forall i cf g top, nth_error drawn i = Some cf -> nth_error groups i = Some g -> nth_error tops i = Some top -> bar_group num cfg p flip summary cf g top) /\
    bars_of calls = concat groups.
Definition bars_shown (num : numerics) (cfg : plot_config) (p : string) : bool -> bool -> list (chain * frame) -> list call -> list Q -> Prop := bars_shown_by (draws_bars p) num cfg p.

(** The title of the panel of [p] shows the summary of the only chain that draws contours. *)
Definition summarised (cfg : plot_config) (chains : list (chain * frame)) (p : string) : Prop :=
  p_summarise cfg = true /\ (exists cf, those (fun cf => ch_cfg (fst cf) Fplot_contour = true) chains [cf]) /\ ~ hidden (p_blind cfg) p.
(** No minor ticks: the axis of [p] is linear, or logarithmic over more than a decade. *)
Definition no_minor_ticks (num : numerics) (cfg : plot_config) (wide : bool) (chains : list (chain * frame)) (p : string) : Prop :=
  In p (p_log_scales cfg) -> forall r, range_of num cfg wide chains p r -> (0 < fst r /\ 10 * fst r < snd r)%Q.

(** The bounds written above the distribution of [p]. *)
Definition title_bounds (num : numerics) (p : string) (cf : chain * frame) (bs : bounds_in) : Prop :=
  let c := fst cf in let f := snd cf in
  ch_cfg c Fbar_shade = true /\ exists b lower upper, get_parameter_summary num c f p = Ok b /\ b_lower b = Some lower /\ b_upper b = Some upper /\
    if (ch_cfg c Fmultimodal : bool) then exists bands l, get_parameter_hdi_intervals num c f p = Ok bands /\ get_parameter_multimodal_bounds num c f p bands = Ok l /\ bs = BMany l else bs = BOne b.
(** ** Colour bars *)
Definition bar_text (cfg : plot_config) (p t : string) : Prop :=
  exists l, shown_label (p_labels cfg) p l /\
    t = match dget l [("weight", "Weights"); ("log_weight", "log(Weights)"); ("posterior", "log(Posterior)")] with Some u => u | None => l end.
(** ** Sizes and files *)
(** The size in inches for [n] parameters; a colour bar ([c]) takes an inch. *)
Inductive figure_size (n : nat) (c : Prop) : figsize_arg -> Q * Q -> Prop :=
| fs_page : figure_size n c FPage (10, 10)
| fs_column : ~ c -> figure_size n c FColumn (5, 5)
| fs_column_bar : c -> figure_size n c FColumn (6, 5)
| fs_grow w h : ~ c -> (w == 3 + 2 * nq n)%Q -> (h == 3 + 2 * nq n)%Q -> figure_size n c FGrow (w, h)
| fs_grow_bar w h : c -> (w == 4 + 2 * nq n)%Q -> (h == 3 + 2 * nq n)%Q -> figure_size n c FGrow (w, h)
| fs_float g w h : ~ c -> (w == 3 + g * (2 * nq n))%Q -> (h == 3 + g * (2 * nq n))%Q -> figure_size n c (FFloat g) (w, h)
| fs_float_bar g w h : c -> (w == 4 + g * (2 * nq n))%Q -> (h == 3 + g * (2 * nq n))%Q -> figure_size n c (FFloat g) (w, h)
| fs_int z : figure_size n c (FInt z) (inject_Z z, inject_Z z)
| fs_tuple w h : figure_size n c (FTuple w h) (w, h).
(** One file for every name, at the configured resolution. *)
Definition saves (cfg : plot_config) (file : filename_arg) (saved : list (string * Z)) : Prop :=
  map fst saved = match file with FileNone => [] | FileOne s => [s] | FileList l => l end /\ forall s d, In (s, d) saved -> d = p_dpi cfg.

(** ** The legend *)
Definition legend_wanted (cfg : plot_config) (chains : list (chain * frame)) : Prop :=
  match p_show_legend cfg with Some v => v = true | None => (1 < length chains)%nat end.
(** The entry of a chain: a line, a line with a marker, or only a marker if the chain draws points and no contours. *)
Definition legend_entry (cf : chain * frame) (a : artist) : Prop :=
  let c := fst cf in ar_label a = ("  " ++ ch_name c)%string /\ chain_colour c = Ok (ar_color a) /\ ar_ls a = ch_cfg c Flinestyle /\
  (ch_cfg c Fplot_contour = true -> ch_cfg c Fplot_point = false -> ar_lw a = ch_cfg c Flinewidth /\ ar_marker a = None) /\
  (ch_cfg c Fplot_contour = false -> ch_cfg c Fplot_point = true -> ar_lw a = 0 /\ ar_marker a = Some (ch_cfg c Fmarker_style, ch_cfg c Fmarker_size)) /\
  (ch_cfg c Fplot_contour = ch_cfg c Fplot_point -> ar_lw a = ch_cfg c Flinewidth /\ ar_marker a = Some (ch_cfg c Fmarker_style, ch_cfg c Fmarker_size)).
(** Python's index [k] into [n] elements. *)
Definition at_index (n : nat) (k : Z) (i : nat) : Prop := (i < n)%nat /\ (k = Z.of_nat i \/ k = Z.of_nat i - Z.of_nat n)%Z.
(** The user's value for a key, or the default one. *)
Definition overrides {A} (user defaults final : dict A) : Prop :=
  forall key, dget key final = match dget key user with Some v => Some v | None => dget key defaults end.

Definition surfaces (calls : list call) : list draw := flat_map (fun c => match c with Surface d => [d] | _ => [] end) calls.

(** ** Walks *)
Definition walks (calls : list call) : list (list Q * string) := flat_map (fun c => match c with Walk ys col => [(ys, col)] | _ => [] end) calls.
(** [ys] are all values of [full], or every k-th one if there are more than [max]. *)
Definition thinned (max : nat) (full ys : list Q) : Prop :=
  ((length full <= max)%nat /\ ys = full) \/
  ((max < length full)%nat /\ exists k, (k = length full / max)%nat /\ (0 < k)%nat /\
     (forall i, (i < length ys)%nat -> (i * k < length full)%nat /\ nth_error ys i = nth_error full (i * k)) /\ (length full <= length ys * k)%nat).
(** One walk for each chain with values, in order, in the chain's colour. *)
Definition shows_walks (max : nat) (values : chain * frame -> option (list Q) -> Prop) (chains : list (chain * frame)) (calls : list call) : Prop :=
  exists parts, Forall2 (fun cf part => exists v, values cf v /\
      match v with
      | None => part = []
      | Some full => exists ys col, thinned max full ys /\ chain_colour (fst cf) = Ok col /\ part = [(ys, col)]
      end) chains parts /\ walks calls = concat parts.
Definition parameter_values (p : string) (cf : chain * frame) (v : option (list Q)) : Prop :=
  (~ In p (data_columns (fst cf) (snd cf)) /\ v = None) \/ (In p (data_columns (fst cf) (snd cf)) /\ exists l, get_data (snd cf) p = Ok l /\ v = Some l).
(** Relative to the highest one. *)
Definition posterior_values (cf : chain * frame) (v : option (list Q)) : Prop :=
  (log_posterior (fst cf) (snd cf) = None /\ v = None) \/
  exists l m, log_posterior (fst cf) (snd cf) = Some l /\ is_max m l /\ v = Some (map (fun x => (x - m)%Q) l).
(** As they are or as logarithms. *)
Definition shown_weights (log10 : Q -> Q) (log_weight : bool) (cf : chain * frame) (v : option (list Q)) : Prop :=
  exists w, weights (fst cf) (snd cf) = Ok w /\ v = Some (if log_weight then map log10 w else w).
(** The rows of the figure: posterior (if wanted and known for some chain), weights (if wanted), the columns. *)
Inductive row_kind := RPosterior | RWeights | RColumn (p : string).
Definition walk_layout (plot_weights plot_posterior : bool) (chains : list (chain * frame)) (cols : list string) (rows : list row_kind) : Prop :=
  let known := exists cf, In cf chains /\ log_posterior (fst cf) (snd cf) <> None in
  exists a b, rows = a ++ b ++ map RColumn cols /\
    (plot_posterior = true /\ known -> a = [RPosterior]) /\ (~ (plot_posterior = true /\ known) -> a = []) /\
    (plot_weights = true -> b = [RWeights]) /\ (plot_weights = false -> b = []).
Definition row_values (log10 : Q -> Q) (log_weight : bool) (kind : row_kind) : chain * frame -> option (list Q) -> Prop :=
  match kind with RPosterior => posterior_values | RWeights => shown_weights log10 log_weight | RColumn p => parameter_values p end.
Definition row_name (log_weight : bool) (kind : row_kind) : string :=
  match kind with RPosterior => "$\log(P)$" | RWeights => if log_weight then "$\log_{10}$Weight" else "Weight" | RColumn p => p end.
(** The smoothed lines, and what they are: from half a window after the start until half a window before the
    end, the mean of the [w] values around the position. *)
Definition smooths (calls : list call) : list (list (Q * Q)) := flat_map (fun c => match c with Smoothed pts _ => [pts] | _ => [] end) calls.
Definition smooth_of (w : nat) (ys : list Q) (pts : list (Q * Q)) : Prop :=
  let half := (w / 2)%nat in
  length pts = (length ys - 2 * half)%nat /\
  forall j x v, nth_error pts j = Some (x, v) -> x = nq (half + j) /\ (j + w <= length ys)%nat /\ (v * nq w == qsum (firstn w (skipn j ys)))%Q.
(** The limits of the horizontal axis all rows share. *)
Definition shared_limits (fig : figure) : option (Q * Q) := current_limits AX (concat (concat (fg_axes fig))).

(** ** The figure of distributions *)
(** The chains that draw a distribution of [p] there: it is one of their plotted columns. *)
Definition draws_plotted (p : string) (cf : chain * frame) : Prop := ch_cfg (fst cf) Fplot_contour = true /\ In p (plotting_columns (fst cf) (snd cf)).
(** Parameter number [k] has the axis in row [i] and column [j] of rows of [w] panels. *)
Definition wrapped (w k i j : nat) : Prop := (j < w)%nat /\ k = (i * w + j)%nat.
Definition summarised_alone (cfg : plot_config) (chains : list (chain * frame)) (p : string) : Prop :=
  p_summarise cfg = true /\ (exists cf, chains = [cf]) /\ ~ hidden (p_blind cfg) p.

(** ** The summary figure *)
(** What is drawn of distributions, without titles; the error bars; the titles. *)
Definition panel_bars (calls : list call) : list call := filter (fun c => match c with Title _ => false | _ => is_bar c end) calls.
Definition error_bars (calls : list call) : list (Q * Q * Q * string) := flat_map (fun c => match c with ErrorBar x l u col => [(x, l, u, col)] | _ => [] end) calls.
Definition panel_titles (calls : list call) : list string := flat_map (fun c => match c with Title t => [t] | _ => [] end) calls.
(** An error bar from the lower to the upper end of the chain's summary, around its centre; none without a summary
    or without one of its ends. *)
Definition summary_bar (num : numerics) (p colour : string) (cf : chain * frame) (bars : list (Q * Q * Q * string)) : Prop :=
  exists b, get_parameter_summary num (fst cf) (snd cf) p = Ok b /\
    match b_lower b, b_center b, b_upper b with
    | Some lo, Some x, Some hi => exists l u, bars = [(x, l, u, colour)] /\ (l == Qabs (x - lo))%Q /\ (u == Qabs (hi - x))%Q
    | _, _, _ => bars = []
    end.
(** The distributions drawn in the panels of [p], number [j] of the columns: one for each chain that has it, and
    the highest value of each. *)
Definition column_tops (num : numerics) (cfg : plot_config) (fig : figure) (chains : list (chain * frame)) (p : string) (j : nat) (tops : list (option Q)) : Prop :=
  length tops = length chains /\
  forall i cf o, nth_error chains i = Some cf -> nth_error tops i = Some o -> exists calls, axis fig i (S j) calls /\
    match o with
    | Some t => In p (data_columns (fst cf) (snd cf)) /\ bar_group num cfg p false false cf (panel_bars calls) t
    | None => ~ In p (data_columns (fst cf) (snd cf)) /\ panel_bars calls = []
    end.
Definition somes {A} (l : list (option A)) : list A := flat_map (fun o => match o with Some x => [x] | None => [] end) l.
