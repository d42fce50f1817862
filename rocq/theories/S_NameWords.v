(** Which word of a name belongs to which part. *)
From Verif Require Import Base M_Addressee M_Name.
Open Scope list_scope.

(** words written in a line, with one space between two; an empty word (two spaces
    following each other) at the outer end is dropped *)
Fixpoint skip_empty (ws : list ustring) : list ustring :=
  match ws with [] => [] | w :: r => if isnil w then skip_empty r else ws end.
Definition in_line (ws : list ustring) : ustring := join [cSP] (skip_empty ws).
Definition in_line_end (ws : list ustring) : ustring := join [cSP] (rev (skip_empty (rev ws))).

(** titles at the beginning, as many as there are; then a word that is no title; then the rest *)
Definition first_parts (H : NameExt) (titles given others : list ustring) : Prop :=
  Forall (fun w => nx_title H w = true) titles
  /\ ((given = [] /\ others = []) \/ exists w, given = [w] /\ nx_title H w = false).

(** a word like van or de; capitals do not matter *)
Definition nobiliary (H : NameExt) (w : ustring) : bool := nx_prefix H (nx_lower H w).

(** suffixes at the end, as many as there are; before them the family name: a word that is
    no suffix, together with the word before it if that is nobiliary *)
Definition last_parts (H : NameExt) (before family suffixes : list ustring) : Prop :=
  Forall (fun w => nx_suffix H w = true) suffixes
  /\ ((before = [] /\ family = [])
      \/ exists w, nx_suffix H w = false
           /\ ((exists p, family = [p; w] /\ nobiliary H p = true)
               \/ (family = [w] /\ forall b p, before = b ++ [p] -> nobiliary H p = false))).
