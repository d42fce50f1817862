(** Base library: characters, byte strings, and the Qt container and string
    functions that the modelled code calls.

    A byte of a [QByteArray] and a UTF-16 code unit of a [QString] are numbers
    of type [N]; [QByteArray] and [QString] are lists of them.  The functions in
    this file are models of Qt / C++ standard library functions (trusted base);
    the functions of the repository itself live in the [M_*] files. *)
From Coq Require Export String Ascii.
From Coq Require Export List Arith NArith ZArith Lia Bool.
From Coq Require Export ZifyBool ZifyNat ZifyN.
Export ListNotations.
Open Scope list_scope.
Open Scope nat_scope.

Arguments N.add : simpl never.
Arguments N.mul : simpl never.
Arguments N.sub : simpl never.
Arguments N.div : simpl never.
Arguments N.modulo : simpl never.
Arguments N.eqb : simpl nomatch.
Arguments N.leb : simpl never.
Arguments N.ltb : simpl never.

(** ** Literals *)

Definition bytes := list N.
Definition ustring := list N.

(** [B "text"] is the list of the character codes of an ASCII literal. *)
Definition B (s : string) : list N := map N_of_ascii (list_ascii_of_string s).

(** ** Equality *)

Fixpoint leqb (a b : list N) : bool :=
  match a, b with
  | [], [] => true
  | x :: a', y :: b' => N.eqb x y && leqb a' b'
  | _, _ => false
  end.

Definition isnil {A} (l : list A) : bool := match l with [] => true | _ => false end.

(** Lexicographic order, [QString::operator<] (comparison by code unit). *)
Fixpoint lltb (a b : list N) : bool :=
  match a, b with
  | [], [] => false
  | [], _ :: _ => true
  | _ :: _, [] => false
  | x :: a', y :: b' => if N.ltb x y then true else if N.eqb x y then lltb a' b' else false
  end.

(** ** Characters *)

Definition cLF : N := 10%N.
Definition cCR : N := 13%N.
Definition cTAB : N := 9%N.
Definition cSP : N := 32%N.
Definition cDQ : N := 34%N.      (* double quote *)
Definition cCOMMA : N := 44%N.
Definition cDOT : N := 46%N.
Definition cCOLON : N := 58%N.
Definition cSEMI : N := 59%N.
Definition cEQ : N := 61%N.
Definition cBS : N := 92%N.      (* backslash *)

(** ASCII whitespace, as [QByteArray::trimmed] uses it:
    tab, LF, VT, FF, CR, space. *)
Definition is_space (c : N) : bool :=
  (N.eqb c 32 || (N.leb 9 c && N.leb c 13))%N.

(** ASCII case mapping ([QByteArray::toLower/toUpper]). *)
Definition is_upper (c : N) : bool := (N.leb 65 c && N.leb c 90)%N.
Definition is_lower (c : N) : bool := (N.leb 97 c && N.leb c 122)%N.
Definition is_digit (c : N) : bool := (N.leb 48 c && N.leb c 57)%N.
Definition lower1 (c : N) : N := if is_upper c then (c + 32)%N else c.
Definition upper1 (c : N) : N := if is_lower c then (c - 32)%N else c.
Definition to_lower (s : list N) : list N := map lower1 s.
Definition to_upper (s : list N) : list N := map upper1 s.

(** ** Searching and slicing *)

Fixpoint mem (c : N) (s : list N) : bool :=
  match s with [] => false | x :: t => N.eqb x c || mem c t end.

Fixpoint starts_with (p s : list N) : bool :=
  match p, s with
  | [], _ => true
  | _ :: _, [] => false
  | x :: p', y :: s' => N.eqb x y && starts_with p' s'
  end.

Definition ends_with (p s : list N) : bool := starts_with (rev p) (rev s).

(** Case-insensitive prefix test, [qstrnicmp(s, p, strlen(p)) == 0]. *)
Definition starts_with_ci (p s : list N) : bool := starts_with (to_lower p) (to_lower s).

(** Position of the first occurrence of a character; [None] is Qt's -1. *)
Fixpoint index_of (c : N) (s : list N) : option nat :=
  match s with
  | [] => None
  | x :: t => if N.eqb x c then Some 0 else option_map S (index_of c t)
  end.

(** [mid n s] is [s.mid(n)]; [mid_len n l s] is [s.mid(n, l)], for n, l >= 0. *)
Definition mid (n : nat) (s : list N) : list N := skipn n s.
Definition mid_len (n l : nat) (s : list N) : list N := firstn l (skipn n s).

Fixpoint trim_left (s : list N) : list N :=
  match s with [] => [] | c :: t => if is_space c then trim_left t else s end.
Definition trimmed (s : list N) : list N := rev (trim_left (rev (trim_left s))).

(** [chop(1)] *)
Definition chop1 (s : list N) : list N := removelast s.

(** ** Replacement *)

(** [QByteArray::replace(char before, const char *after)]. *)
Definition replace_ch (c : N) (by_ s : list N) : list N :=
  flat_map (fun x => if N.eqb x c then by_ else [x]) s.

(** [QByteArray::replace] of a two-character pattern: non-overlapping
    occurrences, left to right, the replacement is not searched again. *)
Fixpoint replace2 (a b : N) (by_ s : list N) : list N :=
  match s with
  | [] => []
  | x :: s' =>
      match s' with
      | [] => [x]
      | y :: t => if (N.eqb x a && N.eqb y b)%bool then by_ ++ replace2 a b by_ t
                  else x :: replace2 a b by_ s'
      end
  end.

(** ** Splitting and joining *)

(** [QString::split(QChar)] / [QByteArray::split(char)]: always at least one
    part. *)
Fixpoint split (c : N) (s : list N) : list (list N) :=
  match s with
  | [] => [[]]
  | x :: t =>
      if N.eqb x c then [] :: split c t
      else match split c t with
           | p :: ps => (x :: p) :: ps
           | [] => [[x]]
           end
  end.

(** [QStringList::join]. *)
Fixpoint join (sep : list N) (l : list (list N)) : list N :=
  match l with
  | [] => []
  | [x] => x
  | x :: r => x ++ sep ++ join sep r
  end.
