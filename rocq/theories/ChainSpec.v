(** Independent vocabulary for the chain properties. *)
From Coq Require Import String List Bool Arith ZArith QArith.
From Verif Require Import Py NumSpec ColorModel MarginalModel FrameModel ConfigModel ChainModel RegistryModel.
Import ListNotations.
Open Scope list_scope.

(** [n] is a column of the frame; [n] is a column with the finite values [v]. *)
Definition is_column (f : frame) (n : string) : Prop := exists l, In (CStr n, l) (f_cols f).
Definition column (f : frame) (n : string) (v : list Q) : Prop := In (CStr n, map Fin v) (f_cols f).

(** The name of the weight column the caller asked for. *)
Definition weight_name (a : cargs) : string := match a_weight a with Some s => s | None => "weight"%string end.

(** What Chain(...) accepts: [f] is the caller's DataFrame, [a] the other arguments. *)
Record acceptable (rgb2hex : list Q -> string) (f : frame) (a : cargs) : Prop := {
  ac_rows : (0 < length (f_index f))%nat;
  ac_columns : f_cols f <> [];
  ac_labels : forall c l, In (c, l) (f_cols f) -> exists s, c = CStr s;
  ac_finite : forall c l x, In (c, l) (f_cols f) -> In x l -> exists q, x = Fin q;
  ac_weights : forall l q, In (CStr (weight_name a), l) (f_cols f) -> In (Fin q) l -> (0 < q)%Q;
  ac_weight_name : ~ is_column f (weight_name a) -> weight_name a = "weight"%string;
  ac_area : forall q, a_cfg a Fsummary_area = Some q -> (0 <= q <= 1)%Q;
  ac_marker : forall q, a_cfg a Fmarker_size = Some q -> (1 <= q)%Q;
  ac_walkers : forall z, a_walkers a = Some z -> (1 <= z)%Z /\ (z | Z.of_nat (length (f_index f)))%Z;
  ac_nfree : forall z, a_nfree a = Some (Some z) -> (0 <= z)%Z;
  ac_ndata : forall x, a_ndata a = Some (Some x) -> exists q, x = Fin q /\ (0 <= q)%Q;
  ac_relheight : forall q, a_relheight a = Some q -> (0 <= q)%Q;
  ac_color_param : forall p, a_cfg a Fcolor_param = Some (Some p) -> is_column f p \/ p = weight_name a;
  ac_multimodal : a_cfg a Fmultimodal = Some true ->
     forall s, a_cfg a Fstatistics = Some (Some s) -> s = SHdi;
  ac_color : forall i, a_cfg a Fcolor = Some (Some i) -> exists s, format rgb2hex (Some i) = Ok s;
  ac_shift : a_cfg a Fshift_params = Some true ->
     ~ is_column f (weight_name a) \/
     (exists cols l, f_cols f = cols ++ [(CStr (weight_name a), l)]) \/
     (exists l x y, In (CStr (weight_name a), l) (f_cols f) /\ In (Fin x) l /\ In (Fin y) l /\ ~ (x == y)%Q) }.

(** [v] is what a chain holds for the setting [f] when the caller wrote [i]: the same value, except that
    a colour is held in its hexadecimal form and a statistic of None is replaced (see [stored_statistic]). *)
Definition stored (rgb2hex : list Q -> string) (f : cfield) : itype f -> ctype f -> Prop :=
  match f return itype f -> ctype f -> Prop with
  | Fcolor => fun i v => match i with None => v = None | Some c => exists s, v = Some s /\ format rgb2hex (Some c) = Ok s end
  | Fstatistics => fun i v => match i with None => True | Some s => v = Some s end
  | _ => fun i v => v = i
  end.
(** The statistic of a chain whose caller gave none. *)
Definition stored_statistic (multimodal : bool) (s : option stat) : Prop := s = Some (if multimodal then SHdi else SMax).

(** What the caller asked for, apart from settings, or the documented default. *)
Definition given {A} (o : option A) (default v : A) : Prop := match o with Some x => v = x | None => v = default end.

(** Sum of products of two lists. *)
Definition wsum (v w : list Q) : Q := sum_range (fun i => at_ v i * at_ w i)%Q 0 (length w).
(** [mu] is the mean of [v] with weights [w]. *)
Definition weighted_mean (v w : list Q) (mu : Q) : Prop := (mu * total w == wsum v w)%Q.

(** [l] and [m] have the same differences between rows. *)
Definition same_differences (l m : list Q) : Prop :=
  length l = length m /\ forall i j, (i < length l)%nat -> (j < length l)%nat -> (at_ l i - at_ l j == at_ m i - at_ m j)%Q.

(** Lower-cased names never treated as parameters. *)
Definition reserved_name (n : string) : Prop :=
  let m := lower n in
  m = "weight" \/ m = "weights" \/ m = "posterior" \/ m = "posteriors" \/
  m = "log_weights" \/ m = "log_posterior" \/ m = "log_posteriors".

(** [small] is [big] with some elements left out, the rest in the same order. *)
Inductive sublist {A} : list A -> list A -> Prop :=
| sub_nil : sublist [] []
| sub_keep x s b : sublist s b -> sublist (x :: s) (x :: b)
| sub_skip x s b : sublist s b -> sublist s (x :: b).

(** The distinct elements of a list in the order they are first met. *)
Inductive first_seen : list string -> list string -> Prop :=
| fs_nil : first_seen [] []
| fs_cons x l u : first_seen (filter (fun y => negb (String.eqb x y)) l) u -> first_seen (x :: l) (x :: u).

(** [c'] is walker number [i] of [c]: everything as in [c] except the name, the number of walkers and the
    colour. *)
Definition walker_of (c c' : chain) (i : nat) : Prop :=
  ch_name c' = (ch_name c ++ " Walker " ++ dec (Z.of_nat i))%string /\ ch_walkers c' = 1%Z /\
  (forall s, s <> Fcolor -> ch_cfg c' s = ch_cfg c s) /\ ch_cfg c' Fcolor = None /\
  ch_weight c' = ch_weight c /\ ch_post c' = ch_post c /\ ch_grid c' = ch_grid c /\ ch_nfree c' = ch_nfree c /\ ch_ndata c' = ch_ndata c /\
  ch_power c' = ch_power c /\ ch_showlabel c' = ch_showlabel c /\ ch_relheight c' = ch_relheight c.

(** pandas' default row labels 0, 1, 2, ... *)
Definition default_labels (f : frame) : Prop := forall i r, nth_error (f_index f) i = Some r -> r = LInt (Z.of_nat i).

(** [coords] are the values of row [i] in the columns [cols], in that order. *)
Definition row_values (f : frame) (i : nat) (cols : list string) (coords : list (string * Q)) : Prop :=
  map fst coords = cols /\ forall n q, In (n, q) coords -> exists v, column f n v /\ nth_error v i = Some q.

(** The chains asked for by get_max_posteriors. *)
Definition asked (w : world) (req : option (list string)) : list string :=
  match req with None => map fst (k_chains (snd w)) | Some l => l end.
