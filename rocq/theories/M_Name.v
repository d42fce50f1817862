(** Model of [Addressee::setNameFromString], [Addressee::fullEmail] and
    [Addressee::parseEmailAddress]. *)
From Verif Require Import Base Utf8 M_Addressee.
Open Scope list_scope.

(** ** Names *)

(** What setNameFromString asks [AddresseeHelper] (addresseehelper.cpp:73-91: three
    sets of words filled from translations and a configuration file, and a switch)
    and [QString::toLower]. *)
Record NameExt := {
  nx_title : ustring -> bool;
  nx_prefix : ustring -> bool;
  nx_suffix : ustring -> bool;
  nx_family : bool;
  nx_lower : ustring -> ustring
}.

(** [parts[i]]: [None] if the index is outside the list (undefined behaviour) *)
Definition at_index (parts : list ustring) (i : Z) : option ustring :=
  if (i <? 0)%Z then None else nth_error parts (Z.to_nat i).

(** [acc.append((acc.isEmpty() ? "" : " ") + w)] and [acc.prepend(w + ...)] *)
Definition append_word (acc w : ustring) : ustring := acc ++ (if isnil acc then [] else [cSP]) ++ w.
Definition prepend_word (w acc : ustring) : ustring := w ++ (if isnil acc then [] else [cSP]) ++ acc.

(** the loop over suffixes, addressee.cpp:1451-1460 and 1516-1524; [n] is
    [rightOffset + 1]; the result is the final [rightOffset] and the suffix *)
Fixpoint suffix_loop (H : NameExt) (parts : list ustring) (n : nat) (suffix : ustring) : option (Z * ustring) :=
  match n with
  | O => Some ((-1)%Z, suffix)
  | S m =>
      match nth_error parts m with
      | None => None
      | Some w => if nx_suffix H w then suffix_loop H parts m (prepend_word w suffix)
                  else Some (Z.of_nat m, suffix)
      end
  end.

(** the loops that collect words from the left while [ok] holds and
    [leftOffset < rightOffset], addressee.cpp:1477-1485, 1494-1498, 1534-1541,
    1555-1562, 1570-1574; [n] is [rightOffset - leftOffset] *)
Fixpoint left_loop (ok : ustring -> bool) (parts : list ustring) (n lo : nat) (acc : ustring)
  : option (nat * ustring) :=
  match n with
  | O => Some (lo, acc)
  | S m =>
      match nth_error parts lo with
      | None => None
      | Some w => if ok w then left_loop ok parts m (S lo) (append_word acc w) else Some (lo, acc)
      end
  end.

(** a word without a check, for brevity *)
Definition any_word (w : ustring) : bool := true.

(** titles, given name and additional names from the words from [0] up to (not
    including) [hi], addressee.cpp:1476-1499 and 1554-1575 *)
Definition given_part (H : NameExt) (parts : list ustring) (hi : nat) (a : addressee) : option addressee :=
  match left_loop (nx_title H) parts hi 0 [] with
  | None => None
  | Some (lo, prefix) =>
      let a := set_prefix prefix a in
      let step :=
        if Nat.ltb lo hi then
          match nth_error parts lo with
          | None => None
          | Some w => Some (S lo, set_given w a)
          end
        else Some (lo, a) in
      match step with
      | None => None
      | Some (lo, a) =>
          match left_loop any_word parts (hi - lo) lo [] with
          | None => None
          | Some (_, additional) => Some (set_additional additional a)
          end
      end
  end.

(** [rightOffset - 1 >= 0 && containsPrefix(parts[rightOffset - 1].toLower())]:
    the word before, if it is such a prefix ([None]: outside the list) *)
Definition name_prefix (H : NameExt) (parts : list ustring) (hi : Z) : option (option ustring) :=
  if (0 <=? hi - 1)%Z then
    match at_index parts (hi - 1)%Z with
    | None => None
    | Some w => Some (if nx_prefix H (nx_lower H w) then Some w else None)
    end
  else Some None.

(** addressee.cpp:1446-1500: no comma; [parts] are the words *)
Definition name_without_comma (H : NameExt) (parts : list ustring) (a : addressee) : option addressee :=
  match suffix_loop H parts (length parts) [] with
  | None => None
  | Some (hi, suffix) =>
      let a := set_suffix suffix a in
      if (hi <? 0)%Z then Some a
      else
        match name_prefix H parts hi, at_index parts hi with
        | Some (Some p), Some w =>
            given_part H parts (Z.to_nat (hi - 1)) (set_family (p ++ [cSP] ++ w) a)
        | Some None, Some w =>
            given_part H parts (Z.to_nat hi) (if nx_family H then set_family w a else set_given w a)
        | _, _ => None
        end
  end.

(** addressee.cpp:1501-1581: the words before and after the first comma (a split
    list is never empty) *)
Definition name_with_comma (H : NameExt) (parts parts2 : list ustring) (a : addressee) : option addressee :=
  match suffix_loop H parts (length parts) [] with
  | None => None
  | Some (hi, suffix) =>
      let a := set_suffix suffix a in
      match name_prefix H parts hi, at_index parts hi with
      | Some pre, Some w =>
          let a := set_family (match pre with Some p => p ++ [cSP] ++ w | None => w end) a in
          let hi := match pre with Some _ => (hi - 1)%Z | None => hi end in
          (* titles of the first part: collected, not used *)
          match left_loop (nx_title H) parts (Z.to_nat hi) 0 [] with
          | None => None
          | Some _ => given_part H parts2 (length parts2) a
          end
      | _, _ => None
      end
  end.

(** removal of enclosing quotes, addressee.cpp:1423-1427 *)
Definition unquote (s : ustring) : ustring :=
  match s with
  | c :: r => if Nat.ltb 1 (length s) && N.eqb c cDQ && N.eqb (last s 0%N) cDQ then removelast r else s
  | [] => s
  end.

(** [Addressee::setNameFromString], addressee.cpp:1421-1576 *)
Definition set_name_from_string (H : NameExt) (s : ustring) (a : addressee) : option addressee :=
  let str := unquote s in
  let a := set_name str (set_formatted str a) in
  let a := set_suffix [] (set_family [] (set_additional [] (set_given [] (set_prefix [] a)))) in
  if isnil str then Some a
  else match index_of cCOMMA str with
       | None => name_without_comma H (split cSP str) a
       | Some i => name_with_comma H (split cSP (firstn i str)) (split cSP (mid (S i) str)) a
       end.

(** ** E-mail addresses *)

Open Scope N_scope.

(** characters of the class [ 0-9A-Za-z\x{0080}-\x{FFFF}]; a surrogate pair is one
    character beyond U+FFFF.  (For text that is not valid UTF-16 the regular
    expression does not match at all.) *)
Definition plain_char (c : N) : bool :=
  (c =? 32) || is_digit c || is_upper c || is_lower c || ((128 <=? c) && (c <=? 65535) && negb (is_surr c)).
Definition need_quotes (name : ustring) : bool := valid_utf16 name && negb (forallb plain_char name).

(** [Addressee::fullEmail], addressee.cpp:1611-1638; the argument is [None] for a
    null string *)
Definition full_email (email : option ustring) (a : addressee) : ustring :=
  let e := match email with None => preferred_email a | Some e => e end in
  if isnil e then []
  else if isnil (real_name a) then e
  else if need_quotes (real_name a) then
    [cDQ] ++ replace_ch cDQ [cBS; cDQ] (real_name a) ++ [cDQ; cSP; 60] ++ e ++ [62]
  else real_name a ++ [cSP; 60] ++ e ++ [62].

(** the state of the loop of parseEmailAddress *)
Inductive econtext := TopLevel | InComment | InAngle.
Record estate := mkE {
  es_context : econtext; es_quoted : bool; es_level : Z;
  es_display : bytes; es_addr : bytes; es_comment : bytes }.
Definition estate_new : estate := mkE TopLevel false 0%Z [] [] [].

Definition add_display (c : bytes) (st : estate) : estate :=
  mkE (es_context st) (es_quoted st) (es_level st) (es_display st ++ c) (es_addr st) (es_comment st).
Definition add_addr (c : bytes) (st : estate) : estate :=
  mkE (es_context st) (es_quoted st) (es_level st) (es_display st) (es_addr st ++ c) (es_comment st).
Definition add_comment (c : bytes) (st : estate) : estate :=
  mkE (es_context st) (es_quoted st) (es_level st) (es_display st) (es_addr st) (es_comment st ++ c).
Definition set_context (x : econtext) (st : estate) : estate :=
  mkE x (es_quoted st) (es_level st) (es_display st) (es_addr st) (es_comment st).
Definition flip_quoted (st : estate) : estate :=
  mkE (es_context st) (negb (es_quoted st)) (es_level st) (es_display st) (es_addr st) (es_comment st).
Definition set_level (n : Z) (st : estate) : estate :=
  mkE (es_context st) (es_quoted st) n (es_display st) (es_addr st) (es_comment st).
(** appending to the buffer of the current context *)
Definition add_here (c : bytes) (st : estate) : estate :=
  match es_context st with TopLevel => add_display c st | InComment => add_comment c st | InAngle => add_addr c st end.

(** the loop, addressee.cpp:2371-2476: it ends at the first NUL byte or at
    [goto ABORT_PARSING] *)
Fixpoint email_loop (s : bytes) (st : estate) : estate :=
  match s with
  | [] => st
  | c :: r =>
      if c =? 0 then st
      else if c =? cBS then
        (* the same in all three contexts *)
        match r with
        | [] => add_here [c] st
        | d :: r' => if d =? 0 then add_here [c] st else email_loop r' (add_here [c; d] st)
        end
      else
        match es_context st with
        | TopLevel =>
            if c =? cDQ then email_loop r (add_display [c] (flip_quoted st))
            else if c =? 40 then
              (if es_quoted st then email_loop r (add_display [c] st)
               else email_loop r (set_level 1%Z (set_context InComment st)))
            else if c =? 60 then
              (if es_quoted st then email_loop r (add_display [c] st)
               else email_loop r (set_context InAngle st))
            else if c =? cCOMMA then
              (if es_quoted st then email_loop r (add_display [c] st) else st)
            else email_loop r (add_display [c] st)
        | InComment =>
            if c =? 40 then email_loop r (add_comment [c] (set_level (es_level st + 1)%Z st))
            else if c =? 41 then
              let st1 := set_level (es_level st - 1)%Z st in
              if (es_level st1 =? 0)%Z then email_loop r (add_comment [32] (set_context TopLevel st1))
              else email_loop r (add_comment [c] st1)
            else email_loop r (add_comment [c] st)
        | InAngle =>
            if c =? cDQ then email_loop r (add_addr [c] (flip_quoted st))
            else if c =? 62 then
              (if es_quoted st then email_loop r (add_addr [c] st)
               else email_loop r (set_context TopLevel st))
            else email_loop r (add_addr [c] st)
        end
  end.

(** addressee.cpp:2507-2517 *)
Definition strip_quotes (s : ustring) : ustring :=
  if Nat.ltb (length s) 3 then s
  else if starts_with [cDQ] s && ends_with [cDQ] s then mid_len 1 (length s - 2) s
  else s.

(** [Addressee::parseEmailAddress], addressee.cpp:2341-2518: full name and e-mail;
    [lower] is [QString::toLower] *)
Definition parse_email (lower : ustring -> ustring) (raw : ustring) : ustring * ustring :=
  if isnil raw then ([], [])
  else
    let st := email_loop (to_utf8 raw) estate_new in
    let display := trimmed (es_display st) in
    let comment := trimmed (es_comment st) in
    let addr := trimmed (es_addr st) in
    let full := from_utf8 display in
    let email := from_utf8 addr in
    if es_quoted st then (full, email)
    else match es_context st with
         | InComment | InAngle => (full, email)
         | TopLevel =>
             if isnil addr && isnil display then (full, email)
             else
               let '(full, email) := if isnil addr then (from_utf8 comment, full) else (full, email) in
               (strip_quotes full, lower email)
         end.
