(** Independent vocabulary for summaries and tables. *)
From Coq Require Import String Ascii List Bool Arith ZArith QArith Reals.
From Coq Require Import Qreals.
From Verif Require Import Py MarginalModel FrameModel ConfigModel ChainModel RegistryModel ChainSpec CovSpec FormatSpec CompareSpec TextModel AnalysisModel.
Import ListNotations.
Open Scope string_scope.
Open Scope list_scope.

(** [l'] are the elements of [l] with the property [P], in order. *)
Inductive kept (P : string -> Prop) : list string -> list string -> Prop :=
| kept_nil : kept P [] []
| kept_keep x l l' : P x -> kept P l l' -> kept P (x :: l) (x :: l')
| kept_drop x l l' : ~ P x -> kept P l l' -> kept P (x :: l) l'.

(** [e] is what the chain says about the column: its bound, or the bounds of its bands if it is multimodal
    and there are at least two. *)
Definition entry_of (num : numerics) (c : chain) (f : frame) (p : string) (e : bounds_in) : Prop :=
  exists b, get_parameter_summary num c f p = Ok b /\
  ((ch_cfg c Fmultimodal = false /\ e = BOne b) \/
   (ch_cfg c Fmultimodal = true /\ exists bands, get_parameter_hdi_intervals num c f p = Ok bands /\
     (((length bands < 2)%nat /\ e = BOne b) \/
      ((2 <= length bands)%nat /\ exists bs, get_parameter_multimodal_bounds num c f p bands = Ok bs /\ e = BMany bs)))).
(** [d] holds one entry for each of the columns [cols] that the chain has. *)
Definition summary_of (num : numerics) (cols : list string) (cf : chain * frame) (d : dict bounds_in) : Prop :=
  (exists mine, kept (is_column (snd cf)) cols mine /\ first_seen mine (dkeys d)) /\
  forall p e, dget p d = Some e -> entry_of num (fst cf) (snd cf) p e.
(** The columns asked for; by default everything some chain plots, in the order first met. *)
Definition asked (columns : option (list string)) (chains : list (chain * frame)) (cols : list string) : Prop :=
  match columns with Some l => cols = l | None => first_seen (concat (map (fun cf => plotting_columns (fst cf) (snd cf)) chains)) cols end.
(** The chain objects at the given places. *)
Definition objects (h : heap) (locs : list nat) (chains : list (chain * frame)) : Prop :=
  Forall2 (fun l cf => chain_at h l = Some (fst cf) /\ snd cf = frame_at h (ch_samples (fst cf))) locs chains.
(** [d] maps the name of every chain to its summary; of chains with the same name, the last one's. *)
Definition summaries_of (num : numerics) (cols : list string) (chains : list (chain * frame)) (d : dict (dict bounds_in)) : Prop :=
  first_seen (map (fun cf => ch_name (fst cf)) chains) (dkeys d) /\
  forall before cf after, chains = before ++ cf :: after -> ~ In (ch_name (fst cf)) (map (fun cf => ch_name (fst cf)) after) ->
    exists s, dget (ch_name (fst cf)) d = Some s /\ summary_of num cols cf s.

(** ** Tables *)
Definition hidden (b : blind_opt) (p : string) : Prop :=
  match b with BlindNone => False | BlindBool v => v = true | BlindList l => In p l end.
Definition newline : string := String (ascii_of_nat 10) EmptyString.
Definition indent : string := String (ascii_of_nat 9) (String (ascii_of_nat 9) EmptyString).
(** One line: cells separated by " & ", ended by "\\". *)
Definition line (cells : list string) : string := (String.concat " & " cells ++ " \\ " ++ newline)%string.
Definition rule : string := ("\hline" ++ newline)%string.
(** Header, rows, and rules around the header and at the end if wanted. *)
Definition table_body (hlines : bool) (header : list string) (rows : list (list string)) : string :=
  ((if hlines then rule ++ indent else "") ++ line header ++ (if hlines then indent ++ rule else "") ++
   String.concat "" (map (fun r => indent ++ line r)%string rows) ++ (if hlines then indent ++ rule else ""))%string.
(** Column specification with [n] centred columns. *)
Definition centred (n : nat) : string := String.concat "" (repeat "c" n).
(** [s] is the cell for the chain and the parameter: the chain's text, or the filling if the chain does not
    have the parameter or no selected chain plots it. *)
Definition cell_for (num : numerics) (chains : list (chain * frame)) (blank : string) (cf : chain * frame) (p : string) (s : string) : Prop :=
  let has := is_column (snd cf) p /\ exists cf', In cf' chains /\ In p (plotting_columns (fst cf') (snd cf')) in
  (has /\ exists e, entry_of num (fst cf) (snd cf) p e /\ get_parameter_text e true None = Ok s) \/ (~ has /\ s = blank).

(** A square table: the labels as header and first column, [cell i j] in row i and column j. *)
Definition square_table (labels : list string) (cell : nat -> nat -> string -> Prop) (caption label text : string) : Prop :=
  exists width rows,
    (forall l, In l labels -> String.length l <= width)%nat /\
    length rows = length labels /\
    (forall i l, nth_error labels i = Some l -> exists first cells, nth_error rows i = Some (first, cells) /\ padded width l first /\
       length cells = length labels /\ forall j s, nth_error cells j = Some s -> cell i j s) /\
    text = latex_table caption label ("c|" ++ centred (length labels))
      (String.concat " & " ("" :: labels) ++ "\\ " ++ newline ++ "        " ++ rule ++
       String.concat "" (map (fun r => "        " ++ fst r ++ String.concat "" (map (fun s => " & " ++ s) (snd r)) ++ " \\ " ++ newline) rows) ++
       "        " ++ rule)%string.
(** The label of a parameter: as configured, otherwise its name. *)
Definition shown_label (labels : dict string) (p l : string) : Prop :=
  match dget p labels with Some s => l = s | None => l = p end.
(** The chain a covariance or correlation table is about: by name, the given object, or the only chain. *)
Definition about_chain (w : world) (which : option chain_ref) (c : chain) (f : frame) : Prop :=
  exists l, match which with
            | Some (ByName n) => get_chain w n = Ok l
            | Some (ByChain l') => l = l'
            | None => exists n, get_names w = [n] /\ get_chain w n = Ok l
            end /\ chain_at (fst w) l = Some c /\ f = frame_at (fst w) (ch_samples c).
Definition name_of (cf : chain * frame) : string := ch_name (fst cf).
(** The cells of a parameter table: one row per chain under the labels of the shown parameters, or
    (transposed) one row per shown parameter under the names of the chains. *)
Definition latex_rows (num : numerics) (labels : dict string) (chains : list (chain * frame)) (blank : string) (transpose : bool) (shown header : list string) (rows : list (list string)) : Prop :=
  if transpose
  then header = "Parameter" :: map name_of chains /\
       Forall2 (fun p row => exists l cells, shown_label labels p l /\ row = l :: cells /\ Forall2 (fun cf s => cell_for num chains blank cf p s) chains cells) shown rows
  else (exists ls, Forall2 (shown_label labels) shown ls /\ header = "Model" :: ls) /\
       Forall2 (fun cf row => exists cells, row = name_of cf :: cells /\ Forall2 (cell_for num chains blank cf) shown cells) chains rows.
(** [s] shows the covariance of two columns with two decimals; [s] shows their correlation, "nan" if one of
    them is constant. *)
Definition shows_covariance (x y w : list Q) (s : string) : Prop := exists q t, is_covariance x y w q /\ shows t 2 q /\ padded 5 t s.
Definition shows_correlation (x y w : list Q) (s : string) : Prop :=
  exists qx qy q, is_covariance x x w qx /\ is_covariance y y w qy /\ is_covariance x y w q /\
    (((qx == 0 \/ qy == 0)%Q /\ padded 5 "nan" s) \/
     ((0 < qx)%Q /\ (0 < qy)%Q /\ exists r t, (r * (sqrt (Q2R qx) * sqrt (Q2R qy)) = Q2R q)%R /\ shows_R t 2 r /\ padded 5 t s)).
