(** Specification vocabulary for the case of names (C69) and for line ends and
    lines that do not belong to a card (C70). *)
From Verif Require Import Base Utf8 M_VCardText S_Parse S_Soft S_Order.

(** ** C69 *)
(** A property with a name in front. *)
Definition titled (n : bytes) (b : block) : block := (n ++ fst b, snd b).
(** A property with two spellings of its name. *)
Definition spellings := (bytes * bytes * block)%type.
Definition spelt1 (t : spellings) : block := titled (fst (fst t)) (snd t).
Definition spelt2 (t : spellings) : block := titled (snd (fst t)) (snd t).

(** A name without ':', ';' and '.' that is not the name of an extension. *)
Definition plain_title (n : bytes) : Prop :=
  (forall c, In c n -> c <> 58%N /\ c <> 59%N /\ c <> 46%N) /\ ~ (exists r, to_lower n = B "x-" ++ r).
(** The spellings differ in case only. *)
Definition same_letters (t : spellings) : Prop :=
  plain_title (fst (fst t)) /\ plain_title (snd (fst t)) /\ to_lower (fst (fst t)) = to_lower (snd (fst t)) /\
  exists d r, fst (snd t) = d :: r /\ (d = 58 \/ d = 59)%N.
(** The names are ordered in the same way in both spellings. *)
Definition same_rank (ts : list spellings) : Prop :=
  forall s t, In s ts -> In t ts -> lltb (fst (fst s)) (fst (fst t)) = lltb (snd (fst s)) (snd (fst t)).

Definition lower_name (n : bytes) : Prop := forall c, In c n -> (97 <= c <= 122 \/ 48 <= c <= 57 \/ c = 45)%N.

(** The name of a parameter. *)
Definition param_key (k : bytes) : Prop := ~ In 58%N k /\ ~ In 59%N k /\ ~ In 61%N k.

(** ** C70 *)
(** A text made of lines that each have their own line end. *)
Definition mixed_text (ls : list (bytes * bytes)) : bytes := flat_map (fun l => fst l ++ snd l) ls.
(** Every BEGIN line is followed by an END line. *)
Definition closed (ls : list bytes) : Prop := forall a p b, ls = a ++ p :: b -> begin_line p -> Exists end_line b.
Definition no_tag (p : bytes) : Prop := ~ begin_line p /\ ~ end_line p.
Definition no_soft (p : bytes) : Prop := ~ (exists q, p = q ++ [61%N]).
