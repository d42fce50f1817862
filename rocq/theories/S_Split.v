(** Specification vocabulary for structured values (C10). *)
From Verif Require Import Base.

Definition ends_in_backslash (s : ustring) : Prop := exists r, s = r ++ [cBS].

(** No component other than the last one ends in a backslash. *)
Definition separable (l : list ustring) : Prop :=
  forall before p q after, l = before ++ p :: q :: after -> ~ ends_in_backslash p.
