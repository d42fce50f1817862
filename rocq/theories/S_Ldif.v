(** Vocabulary for the LDIF properties: what repeated calls of [nextItem] report, and
    the texts of entries. *)
From Verif Require Import Base Utf8 QtText M_Values M_Date M_Addressee M_ContactGroup M_Ldif.
Local Open Scope list_scope.
Local Open Scope nat_scope.

(** What a caller sees after one call of [nextItem]: the result, [attr()] and
    [value()]. *)
Definition event : Type := pval * ustring * bytes.
(** The calls up to the first one that reports the end of the input; [None]: there is
    no such call among the first [n]. *)
Fixpoint calls (n : nat) (s : lstate) : option (list event) :=
  match n with
  | O => None
  | S m => let '(v, s1) := next_item s in
           match v with
           | PMore => Some []
           | _ => option_map (cons (v, l_attr s1, l_value s1)) (calls m s1)
           end
  end.
(** the reader is given a text, and everything it reports is collected *)
Definition reports (text : bytes) : option (list event) := calls (S (length text)) (ldif_start text).

(** Attribute names: printable ASCII without colon, not beginning like a comment. *)
Definition attr_char (c : N) : bool := (N.ltb 32 c && N.ltb c 127 && negb (N.eqb c 58))%bool.
Definition attr_ok (f : ustring) : bool :=
  match f with [] => false | c :: _ => negb (N.eqb c 35) && forallb attr_char f end.
(** names without special meaning at the start of an entry *)
Definition ordinary (f : ustring) : bool :=
  negb (one_of ["version"; "dn"; "changetype"; "control"]%string (to_lower f)).

(** one attribute as the writer puts it, with the end of the line *)
Definition line_of (sc : bool) (len : nat) (p : ustring * bytes) : bytes :=
  assemble_line sc (fst p) (snd p) len false ++ [cLF].
(** An entry: its distinguished name and its attributes; then an empty line. *)
Definition entry : Type := bytes * list (ustring * bytes).
Definition entry_text (sc : bool) (len : nat) (e : entry) : bytes :=
  line_of sc len (B "dn", fst e) ++ flat_map (line_of sc len) (snd e) ++ [cLF].
Definition pair_ok (p : ustring * bytes) : bool := attr_ok (fst p) && is_bytes (snd p).
(** every name is an attribute name, every value a byte string, the first attribute is
    an ordinary one with a value *)
Definition entry_ok (e : entry) : bool :=
  is_bytes (fst e) && forallb pair_ok (snd e)
  && match snd e with p :: _ => ordinary (fst p) && negb (isnil (snd p)) | [] => false end.
Definition entry_events (e : entry) : list event :=
  (PNewEntry, B "dn", fst e) :: map (fun p => (PItem, fst p, snd p)) (snd e) ++ [(PEndEntry, [], [])].

(** joining continuation lines: every line end followed by a space disappears *)
Fixpoint unfolded (s : bytes) : bytes :=
  match s with
  | [] => []
  | c :: t => match t with
              | d :: r => if N.eqb c cLF && N.eqb d cSP then unfolded r else c :: unfolded t
              | [] => [c]
              end
  end.

(** how many line ends a text has *)
Definition is_eol (c : N) : bool := N.eqb c cLF || N.eqb c cCR.
Definition eols (s : bytes) : nat := length (filter is_eol s).

(** ** Reading a text into contacts *)

(** Everything the reader reports for a text that is then ended with [endLdif]. *)
Definition all_reports (text : bytes) : option (list event) := reports (text ++ [cLF; cLF; cLF]).

(** The result of an import: contacts, groups, how many identifiers have been drawn
    (without the four for the contact, addresses and group that were prepared for an
    entry that did not come) and the three birthday parts (day, month, year) left in the local variables. *)
Record imported := mkImported {
  im_contacts : list addressee; im_groups : list cgroup; im_ids : nat; im_birth : Z * Z * Z
}.
(** [LDIFToAddressee] with the local variables exposed: started after [k] identifiers
    and with the birthday parts [b] (the code starts with -1, -1, -1) *)
Definition import_from (E : LdifExt) (rev : datetime) (k : nat) (b : Z * Z * Z) (text : bytes) : option imported :=
  match read_loop (length text + 6) E rev false (ldif_start text) (r_start E rev k b [] []) with
  | Some r => Some (mkImported (r_contacts r) (r_groups r) (r_k r - 4) (r_bday r, r_bmon r, r_byear r))
  | None => None
  end.
Definition no_birth : Z * Z * Z := ((-1), (-1), (-1))%Z.

(** a contact without its birthday and its [isEmpty] flag *)
Definition without_birthday (a : addressee) : addressee :=
  put_empty false (put_bdaytime false (put_birthday dt_null a)).

(** ** Other line ends *)

(** every LF becomes CR LF *)
Definition crlf (t : bytes) : bytes := flat_map (fun c => if N.eqb c cLF then [cCR; cLF] else [c]) t.
(** every LF becomes LF CR *)
Definition lfcr (t : bytes) : bytes := flat_map (fun c => if N.eqb c cLF then [cLF; cCR] else [c]) t.

(** the names of the three birthday parts *)
Definition birth_name (f : ustring) : bool := one_of ["birthyear"; "birthmonth"; "birthday"]%string (to_lower f).

(** an attribute that is not special at the start of an entry, with a value *)
Definition plain_pair (p : ustring * bytes) : bool := pair_ok p && ordinary (fst p) && negb (isnil (snd p)).
(** an attribute as an entry of its own *)
Definition alone (p : ustring * bytes) : list event := [(PItem, fst p, snd p); (PEndEntry, [], [])].
