(** Specification vocabulary for the name that is shown (C88). *)
From Verif Require Import Base QtText M_Addressee.

(** only white space; no white space *)
Definition all_blank (s : ustring) : Prop := Forall (fun c => is_uspace c = true) s.
Definition no_blank (s : ustring) : Prop := Forall (fun c => is_uspace c = false) s.
Definition word_ends (r : ustring) : Prop := forall c r', r = c :: r' -> is_uspace c = true.

(** [ws] are the words of the text [s]: the pieces between white space. *)
Inductive word_list : ustring -> list ustring -> Prop :=
| no_words : forall b, all_blank b -> word_list b []
| one_word : forall b w r ws, all_blank b -> w <> [] -> no_blank w -> word_ends r -> word_list r ws -> word_list (b ++ w ++ r) (w :: ws).

(** The words of the five parts of the name, in the order of speaking. *)
Definition spoken (a : addressee) (ws : list ustring) : Prop :=
  exists p g d f s, word_list (a_prefix a) p /\ word_list (a_given a) g /\ word_list (a_additional a) d /\
    word_list (a_family a) f /\ word_list (a_suffix a) s /\ ws = p ++ g ++ d ++ f ++ s.
