(** Further Qt text functions (trusted base): Unicode white space,
    [QString::simplified], [QString::trimmed], case-insensitive comparison. *)
From Verif Require Import Base.

(** [QChar::isSpace]: the ASCII blanks, U+0085 and the Unicode separators. *)
Definition is_uspace (c : N) : bool :=
  (N.eqb c 32 || (N.leb 9 c && N.leb c 13) || N.eqb c 133 || N.eqb c 160
   || N.eqb c 5760 || (N.leb 8192 c && N.leb c 8202) || N.eqb c 8232 || N.eqb c 8233
   || N.eqb c 8239 || N.eqb c 8287 || N.eqb c 12288)%N.

Fixpoint utrim_left (s : ustring) : ustring :=
  match s with [] => [] | c :: t => if is_uspace c then utrim_left t else s end.
(** [QString::trimmed] *)
Definition utrimmed (s : ustring) : ustring := rev (utrim_left (rev (utrim_left s))).

(** The words of a text: maximal runs of non-blank characters. *)
Fixpoint words_acc (cur : ustring) (s : ustring) : list ustring :=
  match s with
  | [] => match cur with [] => [] | _ => [cur] end
  | c :: t => if is_uspace c
              then match cur with [] => words_acc [] t | _ => cur :: words_acc [] t end
              else words_acc (cur ++ [c]) t
  end.
Definition words (s : ustring) : list ustring := words_acc [] s.

(** [QString::simplified]: leading and trailing blanks removed, every inner run of
    blanks replaced by one space. *)
Definition simplified (s : ustring) : ustring := join [cSP] (words s).

(** [QStringList::contains(s, Qt::CaseInsensitive)] and [QString::compare] with
    case-insensitivity, for ASCII arguments. *)
Definition leqb_ci (a b : ustring) : bool := leqb (to_lower a) (to_lower b).
Fixpoint contains_ci (v : ustring) (l : list ustring) : bool :=
  match l with [] => false | x :: r => leqb_ci x v || contains_ci v r end.

(** [QStringList::removeAll] *)
Definition remove_all (v : ustring) (l : list ustring) : list ustring :=
  filter (fun x => negb (leqb x v)) l.
