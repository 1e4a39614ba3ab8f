(** When a chain's contours and bars are filled. *)
From Coq Require Import Reals.
From Verif Require Import ConfigModel ChainModel RegistrySpec.

(** The shading is asked for and not transparent (an opacity of 1/sqrt(0) is infinite). *)
Definition shade_on (c : chain) : Prop := ch_cfg c Fshade = true /\ forall a, alpha_value (ch_cfg c Fshade_alpha) = Some a -> (0 < a)%R.
