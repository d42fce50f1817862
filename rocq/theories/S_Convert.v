(** Specification vocabulary for drag and drop, dates, messaging names and services
    (C54-C57). *)
From Verif Require Import Base M_Date M_Convert.

(** [p] is somewhere in [s] *)
Definition inside (p s : list N) : Prop := exists u v, s = u ++ p ++ v.

(** [t] is [s] with every name of the table replaced by its short form, and with
    nothing else changed: the text is read from left to right; where a name begins, its
    short form is written; any other character is copied. *)
Inductive adapted (tab : list (bytes * bytes)) : bytes -> bytes -> Prop :=
| ad_end : adapted tab [] []
| ad_name : forall p r s t, In (p, r) tab -> adapted tab s t -> adapted tab (p ++ s) (r ++ t)
| ad_char : forall c s t, (forall p r u, In (p, r) tab -> c :: s <> p ++ u) -> adapted tab s t -> adapted tab (c :: s) (c :: t).

(** the wall-clock date and time a text without time zone and fractions can hold *)
Definition four_digits (d : date) : Prop := date_ok (d_year d) (d_month d) (d_day d) = true /\ (0 < d_year d < 10000)%Z.
Definition time_valid (t : time) : Prop := time_ok (t_hour t) (t_min t) (t_sec t) (t_msec t) = true.
(** [s] without dashes and colons *)
Definition compact (s : ustring) : ustring := filter (fun c => negb (N.eqb c 45) && negb (N.eqb c 58)) s.

(** [f] is the name of a desktop file of the service [t] *)
Definition service_file (f t : ustring) : Prop :=
  (exists stem, f = stem ++ B ".desktop") /\ ~ In cDOT t /\ exists rest, f = t ++ [cDOT] ++ rest.
(** strictly sorted *)
Definition sorted (l : list ustring) : Prop :=
  forall l1 x y l2, l = l1 ++ x :: y :: l2 -> lltb x y = true.
