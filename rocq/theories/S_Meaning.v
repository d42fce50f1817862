(** Specification vocabulary for the meaning of the properties of a card (C77). *)
From Verif Require Import Base QtText M_VCardText M_Values M_Addressee M_VCardTool S_Parse S_Soft S_Order S_Split S_Coding S_Foreign S_Card.

(** A property: a name, parameters, and the text of its value. *)
Record said := mkSaid { sd_name : bytes; sd_params : list bytes; sd_text : ustring }.
Definition expressed (E : Ext) (b : block) (p : said) : Prop :=
  (forall c, In c (sd_name p) -> c <> 58%N /\ c <> 59%N /\ c <> 46%N) /\ says E (sd_name p) (sd_params p) (sd_text p) b.

(** The properties of one name, in any case, in the order of the card. *)
Definition called (f : string) (p : said) : bool := leqb (to_lower (sd_name p)) (B f).
Definition of_name (f : string) (ps : list said) : list said := filter (called f) ps.
(** All of them write the name in the same way. *)
Definition alike_in_case (f : string) (ps : list said) : Prop :=
  forall p q, In p (of_name f ps) -> In q (of_name f ps) -> sd_name p = sd_name q.

(** The card with these properties is read as one contact with the property [P]; only
    pictures can prevent that (see C66). *)
Definition reads_as_contact (T : Tool) (E : Ext) (ps : list said) (P : addressee -> Prop) : Prop :=
  forall (nl b : bytes) (bs : list block) (e : bytes),
    newline nl -> plain_bytes b -> plain_bytes e -> begin_line b -> end_line e -> Forall2 (expressed E) bs ps ->
    exists k, forall fuel, k <= fuel ->
      (parse_text T E fuel (card_in nl [] b bs e []) = Undefined /\ of_name "photo" ps ++ of_name "logo" ps <> []) \/
      exists a, parse_text T E fuel (card_in nl [] b bs e []) = Done [a] /\ P a.

(** The text of the last property of a name; nothing without one. *)
Definition last_text (f : string) (ps : list said) : ustring := last (map sd_text (of_name f ps)) [].
Definition not_empty (s : ustring) : bool := negb (isnil s).
(** More than blanks. *)
Definition visible (s : ustring) : bool := not_empty (simplified s).

(** A text made of in_parts: separators in a component are escaped. *)
Definition in_parts (sep : N) (l : list ustring) (s : ustring) : Prop :=
  l <> [] /\ separable l /\
  s = join [sep] (map (flat_map (fun c => if (c =? sep)%N then [92%N; sep] else [c])) l).
(** The last given component of a position. *)
Definition last_at (i : nat) (ls : list (list ustring)) : ustring := last (flat_map (fun l => firstn 1 (skipn i l)) ls) [].

(** A value of a TYPE parameter: [TYPE=a,b], [TYPE="a,b"], or a word alone as in version 2.1. *)
Definition type_value (v : bytes) (p : said) : Prop :=
  exists q, In q (sd_params p) /\
    ((~ In 61%N q /\ to_lower q <> B "quoted-printable" /\ to_lower q <> B "base64" /\ v = q) \/
     (exists k r, q = k ++ 61%N :: r /\ ~ In 34%N r /\ to_lower k = B "type" /\ In v (split 44%N r)) \/
     exists k vs r, in_quotes k vs r q /\ to_lower k = B "type" /\ (In v vs \/ In v (split 44%N r))).
(** The flags in [t] are those of the words among the types; other words mean nothing. *)
Definition flags_of (table : list (string * N)) (p : said) (t : N) : Prop :=
  forall i, N.testbit t i = true <-> exists w v, In (w, i) table /\ type_value v p /\ to_lower v = B w.
(** The positions of the flags in [PhoneNumber::TypeFlag] and [Address::TypeFlag]. *)
Definition phone_flags : list (string * N) :=
  [("home", 0); ("work", 1); ("msg", 2); ("pref", 3); ("voice", 4); ("fax", 5); ("cell", 6); ("video", 7); ("bbs", 8);
   ("modem", 9); ("car", 10); ("isdn", 11); ("pcs", 12); ("pager", 13)]%string%N.
Definition address_flags : list (string * N) :=
  [("dom", 0); ("intl", 1); ("postal", 2); ("parcel", 3); ("home", 4); ("work", 5); ("pref", 6)]%string%N.
(** No type at all. *)
Definition untyped (p : said) : Prop := forall v, ~ type_value v p.

(** The meaning of the CLASS property. *)
Definition classes : list (string * secrecy) := [("public", SPublic); ("private", SPrivate); ("confidential", SConfidential)]%string.

(** An extension [X-app-name], or [X-app] for the entry of the program in its own name. *)
Definition names_entry (n app name : bytes) : Prop :=
  exists x, (x = 88 \/ x = 120)%N /\ (n = x :: 45%N :: app ++ 45%N :: name \/ (app = name /\ n = x :: 45%N :: app)).
(** It is not one of the extensions with a meaning of their own (C71). *)
Definition own_meaning (n : bytes) : Prop :=
  In (to_lower n) (flat_map snd extensions ++ map fst messengers ++ [B "x-gadugadu"]) \/ exists r, to_lower n = B "x-messaging/" ++ r.
Definition extension (app name : bytes) (p : said) : Prop :=
  names_entry (sd_name p) app name /\ app <> [] /\ name <> [] /\ ~ In 45%N app /\ ~ own_meaning (sd_name p).

(** A parameter with its key in lower case and its values in their order. *)
Definition reads_param (q : bytes) (kv : bytes * list bytes) : Prop :=
  (~ In 61%N q /\ kv = (if leqb (to_lower q) (B "quoted-printable") || leqb (to_lower q) (B "base64") then B "encoding" else B "type", [q])) \/
  (exists k r, q = k ++ 61%N :: r /\ ~ In 61%N k /\ ~ In 34%N r /\ kv = (to_lower k, split 44%N r)) \/
  (exists k vs r, in_quotes k vs r q /\ kv = (to_lower k, vs ++ (if leqb (to_lower k) (B "type") then split 44%N r else [r]))).
(** The distinct values of the parameter [k] of a property, in their order. *)
Definition parameter (p : said) (k : bytes) (vs : list bytes) : Prop :=
  exists kvs, Forall2 reads_param (sd_params p) kvs /\ vs = firsts (flat_map (fun kv => if leqb (fst kv) k then snd kv else []) kvs).
(** A parameter that does not speak about the coding. *)
Definition kept_key (k : bytes) : Prop := k <> B "encoding" /\ k <> B "charset".
