(** Specification for C91: saving and loading in one version after the other. *)
From Verif Require Import Base M_VCard M_VCardText M_Addressee M_VCardTool S_Contact S_Whole.

(** [r] is what is left of the contacts [l] after writing and reading them in these
    versions one after the other, with or without pictures embedded for export; each
    time the parameters and names of the contacts can be written ([fits]). *)
Inductive converted (T : Tool) (E : Ext) : list (version * bool) -> list addressee -> list addressee -> Prop :=
| conv_none : forall l, converted T E [] l l
| conv_more : forall v export steps l m r, Forall (fits T v) l -> round_trip T E v export l m -> converted T E steps m r ->
                converted T E ((v, export) :: steps) l r.
