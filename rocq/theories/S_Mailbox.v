(** The parts of a written e-mail address (C72). *)
From Verif Require Import Base Utf8.
Open Scope list_scope.
Open Scope N_scope.

(** An address is written as a sequence of texts, quoted strings, comments in
    parentheses and addresses in angle brackets. *)
Inductive piece := Text (s : ustring) | Quoted (s : ustring) | Comment (s : ustring) | Angle (s : ustring).

(** Reading a part from left to right: a backslash takes away the meaning of the
    character after it, every other character changes the state, or must not be there. *)
Fixpoint scan {A : Type} (f : N -> A -> option A) (escaped : bool) (s : list N) (x : A) : option A :=
  match s with
  | [] => if escaped then None else Some x
  | c :: r => if escaped then scan f false r x
              else if c =? 92 then scan f true r x
              else match f c x with Some y => scan f false r y | None => None end
  end.
(** a text has no quote, opening parenthesis, opening bracket or comma *)
Definition in_text (c : N) (x : unit) : option unit := if mem c [34; 40; 60; 44] then None else Some x.
(** a quoted string has no quote *)
Definition in_quotes (c : N) (x : unit) : option unit := if c =? 34 then None else Some x.
(** in a comment parentheses are balanced *)
Definition in_comment (c : N) (depth : nat) : option nat :=
  if c =? 40 then Some (S depth) else if c =? 41 then match depth with O => None | S d => Some d end else Some depth.
(** between angle brackets a closing bracket is in quotes *)
Definition in_angle (c : N) (quoted : bool) : option bool :=
  if c =? 34 then Some (negb quoted) else if c =? 62 then (if quoted then Some quoted else None) else Some quoted.

Definition body (p : piece) : ustring := match p with Text s | Quoted s | Comment s | Angle s => s end.
Definition piece_ok (p : piece) : Prop :=
  valid_utf16 (body p) = true /\ ~ In 0 (body p) /\
  match p with
  | Text s => scan in_text false s tt = Some tt
  | Quoted s => scan in_quotes false s tt = Some tt
  | Comment s => scan in_comment false s 0%nat = Some 0%nat
  | Angle s => scan in_angle false s false = Some false
  end.

Definition written (p : piece) : ustring :=
  match p with Text s => s | Quoted s => [34] ++ s ++ [34] | Comment s => [40] ++ s ++ [41] | Angle s => [60] ++ s ++ [62] end.
Definition address_text (ps : list piece) : ustring := flat_map written ps.
(** what is outside of comments and brackets *)
Definition outside (ps : list piece) : ustring :=
  flat_map (fun p => match p with Text _ | Quoted _ => written p | _ => [] end) ps.
(** the comments, one after the other *)
Definition remarks (ps : list piece) : ustring := flat_map (fun p => match p with Comment s => s ++ [32] | _ => [] end) ps.
(** what is in angle brackets *)
Definition bracketed (ps : list piece) : ustring := flat_map (fun p => match p with Angle s => s | _ => [] end) ps.
(** no spaces around, no quotes around (if there is something between them) *)
Definition name_of (s n : ustring) : Prop :=
  (trimmed s = [34] ++ n ++ [34] /\ n <> []) \/
  (trimmed s = n /\ ~ exists m, m <> [] /\ n = [34] ++ m ++ [34]).
(** the end of an address: the end of the text, or a comma and anything *)
Definition ending (t : ustring) : Prop := t = [] \/ exists r, t = 44 :: r.
(** a part that was begun but not ended *)
Definition begun (p : piece) : ustring :=
  match p with Text s => s | Quoted s => 34 :: s | Comment s => 40 :: s | Angle s => 60 :: s end.
(** such a part, with nothing else wrong *)
Definition unclosed (p : piece) : Prop :=
  valid_utf16 (body p) = true /\ ~ In 0 (body p) /\
  match p with
  | Text _ => False
  | Quoted s => scan in_quotes false s tt = Some tt
  | Comment s => exists n, scan in_comment false s 0%nat = Some n
  | Angle s => exists q, scan in_angle false s false = Some q
  end.
