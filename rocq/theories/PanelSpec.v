(** What one chain contributes to a two-dimensional panel. *)
From Coq Require Import String List Bool Arith ZArith QArith Reals.
From Verif Require Import Py ColorModel ShadeModel FrameModel ConfigModel ChainModel AnalysisModel SurfaceModel OpacitySpec.
Import ListNotations.
Open Scope list_scope.

(** Both parameters are parameters of the chain. *)
Definition has_both (c : chain) (f : frame) (px py : string) : Prop := In px (plotting_columns c f) /\ In py (plotting_columns c f).

(** Points in the chain's colour, or coloured by the values of a parameter. *)
Definition is_cloud (c : chain) (d : list draw) : Prop := exists pts col, d = [Scatter pts col 10 "." (ch_cfg c Fzorder - 5)%Z] /\
  match ch_cfg c Fcolor_param with None => exists s, chain_colour c = Ok s /\ col = OneColour s (3 # 10) | Some _ => exists values, col = ByValue values (ch_cfg c Fcmap) end.
Definition is_contour (c : chain) (d : list draw) : Prop :=
  exists xc yc z levels base bands lines fill labels,
    d = fill ++ [Lines xc yc z levels lines (ch_cfg c Flinestyle) (ch_cfg c Flinewidth) (ch_cfg c Fzorder)] ++ labels /\
    chain_colour c = Ok base /\ contour_colours base (length levels) (ch_cfg c Fshade_gradient) (ch_cfg c Fshade) = Ok (bands, lines) /\
    ((shade_on c /\ fill = [Filled xc yc z levels bands (ch_cfg c Fshade_alpha) (ch_cfg c Fzorder - 2)%Z]) \/ (~ shade_on c /\ fill = [])) /\
    labels = (if (ch_cfg c Fshow_contour_labels : bool) then [LevelLabels (map (fun l => (l, level_label l)) (nonzero_levels levels))] else []).
(** A marker at the chain's maximum posterior point, one layer above the contours, darker than them. *)
Definition is_point (c : chain) (f : frame) (px py : string) (d : list draw) : Prop :=
  (get_max_posterior_point c f = Ok None /\ d = []) \/
  exists lp coords, get_max_posterior_point c f = Ok (Some (lp, coords)) /\
    ((exists x y c0 col, dget px coords = Some x /\ dget py coords = Some y /\ chain_colour c = Ok c0 /\
        (if (ch_cfg c Fplot_contour : bool) then scale_colour (fun _ => EmptyString) (CName c0) (1 # 2) = Ok col else col = c0) /\
        d = [Scatter [(x, y)] (OneColour col (ch_cfg c Fmarker_alpha)) (ch_cfg c Fmarker_size) (ch_cfg c Fmarker_style) (ch_cfg c Fzorder + 1)%Z]) \/
     ((dget px coords = None \/ dget py coords = None) /\ d = [])).

Definition panel_part (px py : string) (cf : chain * frame) (part : list draw) : Prop :=
  let c := fst cf in let f := snd cf in
  (~ has_both c f px py /\ part = []) \/
  (has_both c f px py /\ exists cloud contour point, part = cloud ++ contour ++ point /\
     (if (ch_cfg c Fplot_cloud : bool) then is_cloud c cloud else cloud = []) /\
     (if (ch_cfg c Fplot_contour : bool) then is_contour c contour else contour = []) /\
     (if (ch_cfg c Fplot_point : bool) then is_point c f px py point else point = [])).

(** The chain wants a colour bar for the parameter [p], for the scatter [h]. *)
Definition wants_bar (px py p : string) (h : draw) (cf : chain * frame) : Prop :=
  has_both (fst cf) (snd cf) px py /\ ch_cfg (fst cf) Fplot_cloud = true /\ ch_cfg (fst cf) Fcolor_param = Some p /\
  exists b, plot_cloud (fst cf) (snd cf) px py = Ok (h, b).
