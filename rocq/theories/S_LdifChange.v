(** LDIF records that change a directory (C74): what the reader reports for them. *)
From Verif Require Import Base Utf8 QtText M_Ldif S_Ldif.
Local Open Scope list_scope.
Local Open Scope nat_scope.

(** What a caller asks for after a call of [nextItem], depending on its result:
    [dn()]; [oid()], [isCritical()] and [value()]; [entryType()], [modType()], [attr()]
    and [value()]; at the end of an entry [entryType()] and, if it is to be renamed,
    [newRdn()], [delOldRdn()] and [newSuperior()]. *)
Inductive report :=
| Begin (dn : bytes)
| AControl (oid : ustring) (critical : bool) (value : bytes)
| AnItem (kind : etype) (how : mtype) (attr : ustring) (value : bytes)
| End (kind : etype)
| EndRename (newrdn : ustring) (delold : bool) (newsup : ustring)
| Wrong.
Definition shown (v : pval) (s : lstate) : report :=
  match v with
  | PNewEntry => Begin (l_dn s)
  | PControl => AControl (l_oid s) (l_critical s) (l_value s)
  | PItem => AnItem (l_etype s) (l_mod s) (l_attr s) (l_value s)
  | PEndEntry => match l_etype s with EModrdn => EndRename (l_newrdn s) (l_delold s) (l_newsup s) | e => End e end
  | _ => Wrong
  end.
(** all calls up to the first that reports the end of the input *)
Fixpoint looks (n : nat) (s : lstate) : option (list report) :=
  match n with
  | O => None
  | S m => let '(v, s1) := next_item s in
           match v with
           | PMore => Some []
           | _ => option_map (cons (shown v s1)) (looks m s1)
           end
  end.
Definition observed (text : bytes) : option (list report) := looks (S (length text)) (ldif_start text).

(** ** Records *)

(** A control: an identifier, whether it is critical (if that is said), a value (if there
    is one). *)
Record control := mkControl { ct_oid : ustring; ct_critical : option bool; ct_value : option bytes }.
(** A modification: add, replace or delete; an attribute; the values. *)
Record modification := mkMod { md_how : mtype; md_attr : ustring; md_values : list bytes }.
Inductive change :=
| Content (ps : list (ustring * bytes))        (* no change but an entry *)
| Adds (ps : list (ustring * bytes))
| Deletes
| Modifies (ms : list modification)
| Renames (newrdn : ustring) (delold : option bool) (newsup : option ustring).
Record ldif_record := mkRecord { rc_dn : bytes; rc_controls : list control; rc_change : change }.

(** ** Their texts *)

(** A line is a name and a value, or the dash between modifications, or empty. *)
Inductive line := Pair (name : ustring) (value : bytes) | Dash | Blank.
Definition pair_line (p : ustring * bytes) : line := Pair (fst p) (snd p).
Definition line_text (sc : bool) (len : nat) (l : line) : bytes :=
  match l with
  | Pair f v => assemble_line sc f v len false
  | Dash => [45%N]
  | Blank => []
  end ++ [cLF].

(** keywords may be written in any case *)
Definition keyword (k : string) (f : ustring) : Prop := to_lower f = B k.

Definition control_value (sc : bool) (c : control) : bytes :=
  let head := ct_oid c ++ match ct_critical c with Some true => B " true" | Some false => B " false" | None => [] end in
  match ct_value c with None => head | Some v => assemble_line sc head v 0 false end.
Definition control_line (sc : bool) (c : control) (l : line) : Prop :=
  exists f, keyword "control" f /\ l = Pair f (control_value sc c).

Definition how_name (m : mtype) : string := match m with MAdd => "add" | MReplace => "replace" | MDel => "delete" | MNone => "" end.
Definition mod_lines (m : modification) (ls : list line) : Prop :=
  exists f, keyword (how_name (md_how m)) f /\
    ls = Pair f (md_attr m) :: map (Pair (md_attr m)) (md_values m) ++ [Dash].
Definition opt_lines {A : Type} (o : option A) (p : A -> line -> Prop) (ls : list line) : Prop :=
  match o with None => ls = [] | Some x => exists l, ls = [l] /\ p x l end.
Definition change_lines (c : change) (ls : list line) : Prop :=
  match c with
  | Content ps => ls = map pair_line ps
  | Adds ps => exists f, keyword "changetype" f /\ ls = Pair f (B "add") :: map pair_line ps
  | Deletes => exists f, keyword "changetype" f /\ ls = [Pair f (B "delete")]
  | Modifies ms => exists f lss, keyword "changetype" f /\ Forall2 mod_lines ms lss /\ ls = Pair f (B "modify") :: concat lss
  | Renames r d s => exists f g v l1 l2,
      keyword "changetype" f /\ (v = B "modrdn" \/ v = B "moddn") /\ keyword "newrdn" g /\
      opt_lines d (fun b l => exists h, keyword "deleteoldrdn" h /\ l = Pair h (if b : bool then B "1" else B "0")) l1 /\
      opt_lines s (fun t l => exists h, keyword "newsuperior" h /\ l = Pair h (to_utf8 t)) l2 /\
      ls = Pair f v :: Pair g (to_utf8 r) :: l1 ++ l2
  end.
Definition record_lines (sc : bool) (r : ldif_record) (ls : list line) : Prop :=
  exists f cs xs, keyword "dn" f /\ Forall2 (control_line sc) (rc_controls r) cs /\ change_lines (rc_change r) xs /\
    ls = Pair f (rc_dn r) :: cs ++ xs ++ [Blank].

(** ** Which records *)

Definition oid_char (c : N) : bool := (N.leb 48 c && N.leb c 57 || N.eqb c 46)%bool.
Definition control_ok (c : control) : Prop :=
  ct_oid c <> [] /\ forallb oid_char (ct_oid c) = true /\ match ct_value c with Some v => is_bytes v = true | None => True end.
Definition mod_ok (m : modification) : Prop :=
  md_how m <> MNone /\ attr_ok (md_attr m) = true /\ Forall (fun v => is_bytes v = true) (md_values m).
Definition change_ok (c : change) : Prop :=
  match c with
  | Content ps => forallb pair_ok ps = true /\ match ps with p :: _ => ordinary (fst p) = true /\ snd p <> [] | [] => False end
  | Adds ps => forallb pair_ok ps = true
  | Deletes => True
  | Modifies ms => Forall mod_ok ms
  | Renames r d s => text_ok r = true /\ match s with Some t => text_ok t = true | None => True end
  end.
Definition changes (c : change) : bool := match c with Content _ => false | _ => true end.
(** a record that changes something has a name *)
Definition record_ok (r : ldif_record) : Prop :=
  is_bytes (rc_dn r) = true /\ (changes (rc_change r) = true -> rc_dn r <> []) /\
  Forall control_ok (rc_controls r) /\ change_ok (rc_change r).

(** ** What is reported *)

Definition control_report (c : control) : report :=
  AControl (ct_oid c) (match ct_critical c with Some b => b | None => false end) (match ct_value c with Some v => v | None => [] end).
(** To replace or to delete an attribute is reported by an item without value. *)
Definition mod_reports (m : modification) : list report :=
  match md_how m with MAdd => [] | h => [AnItem EMod h (md_attr m) []] end
  ++ map (AnItem EMod (md_how m) (md_attr m)) (md_values m).
Definition change_reports (c : change) : list report :=
  match c with
  | Content ps | Adds ps => map (fun p => AnItem EAdd MNone (fst p) (snd p)) ps ++ [End EAdd]
  | Deletes => [End EDel]
  | Modifies ms => flat_map mod_reports ms ++ [End EMod]
  | Renames r d s => [EndRename r (match d with Some b => b | None => true end) (match s with Some t => t | None => [] end)]
  end.
Definition record_reports (r : ldif_record) : list report :=
  Begin (rc_dn r) :: map control_report (rc_controls r) ++ change_reports (rc_change r).
