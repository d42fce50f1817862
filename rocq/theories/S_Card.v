(** Specification vocabulary for parameter maps and cards (C08, C09). *)
From Verif Require Import Base M_ParamMap M_VCard.
From Coq Require Export Sorting.Sorted.

(** strictly increasing in the order of [QString::operator<] *)
Definition increasing (l : list ustring) : Prop :=
  StronglySorted (fun a b => lltb a b = true) l.

(** the distinct elements of a list in order of first occurrence *)
Fixpoint firsts (l : list ustring) : list ustring :=
  match l with
  | [] => []
  | x :: r => x :: filter (fun y => negb (leqb y x)) (firsts r)
  end.

(** the values that a sequence of additions adds under the name [p] *)
Definition added (p : ustring) (ops : list (ustring * ustring)) : list ustring :=
  map snd (filter (fun pv => leqb (fst pv) p) ops).

(** a property line after a sequence of [addParameter] calls *)
Definition add_all (ops : list (ustring * ustring)) (l : vline) : vline :=
  fold_left (fun l pv => vl_add_param (fst pv) (snd pv) l) ops l.

(** a card after a sequence of [addLine] calls *)
Definition card_of (lines : list vline) : vcard :=
  fold_left (fun c l => add_line l c) lines [].
