(** Specification vocabulary for the coding of values (C76). *)
From Verif Require Import Base Utf8 M_VCardText S_Escape S_Parse S_Soft S_Order.

(** How the value of a property is coded. *)
Inductive coding := Plain | Eight | Base64 | Quoted.
Definition coding_param (c : coding) (p : bytes) : Prop :=
  match c with
  | Plain => False
  | Eight => to_lower p = B "encoding=8bit"
  | Base64 => to_lower p = B "encoding=b" \/ to_lower p = B "encoding=base64" \/ to_lower p = B "base64"
  | Quoted => to_lower p = B "encoding=quoted-printable" \/ to_lower p = B "quoted-printable"
  end.
(** The character set [k], in lower case. *)
Definition charset_param (k : bytes) (p : bytes) : Prop := to_lower p = B "charset=" ++ k /\ k <> [] /\ ~ In 44%N k /\ ~ In 34%N k.

(** The parameters other than the coding and the character set. *)
Definition about_coding (p : bytes) : bool :=
  starts_with (B "encoding=") (to_lower p) || starts_with (B "charset=") (to_lower p)
  || leqb (to_lower p) (B "quoted-printable") || leqb (to_lower p) (B "base64").
Definition others (ps : list bytes) : list bytes := filter (fun p => negb (about_coding p)) ps.

(** A parameter whose last value is in quotes: [k=v1,v2,"q"]. *)
Definition in_quotes (k : bytes) (vs : list bytes) (q p : bytes) : Prop :=
  p = k ++ 61%N :: flat_map (fun v => v ++ [44%N]) vs ++ 34%N :: q ++ [34%N] /\
  param_text k /\ ~ In 61%N k /\ Forall (fun v => param_text v /\ ~ In 44%N v) vs /\ ~ In 34%N q.
Definition param_form (p : bytes) : Prop := param_text p \/ exists k vs q, in_quotes k vs q p.

(** The parameters [ps] announce the coding [c] and the character set [k]. *)
Definition announced (ps : list bytes) (c : coding) (k : option bytes) : Prop :=
  Forall param_form ps /\
  Forall (fun p => about_coding p = false \/ coding_param c p \/ exists n, k = Some n /\ charset_param n p) ps /\
  (c <> Plain -> Exists (coding_param c) ps) /\
  (forall n, k = Some n -> Exists (charset_param n) ps).

(** The escaped form of a text. *)
Definition escaped (v : bytes) : bytes :=
  flat_map (fun c => if (c =? 92)%N then [92; 92]%N else if (c =? 44)%N then [92; 44]%N
                     else if (c =? 13)%N then [92; 114]%N else if (c =? 10)%N then [92; 110]%N else [c]) v.

(** Escapes as the standards have them, read from left to right.  An escape that they do not know, and [\;], stays as
    it is (the components of a structured value are separated later).  An escaped backslash before one of the letters
    n, N and r is not covered (see C01). *)
Inductive unescapes : bytes -> bytes -> Prop :=
| un_end : unescapes [] []
| un_char c w v : c <> 92%N -> unescapes w v -> unescapes (c :: w) (c :: v)
| un_comma w v : unescapes w v -> unescapes (92 :: 44 :: w)%N (44%N :: v)
| un_newline c w v : (c = 110 \/ c = 78)%N -> unescapes w v -> unescapes (92 :: c :: w)%N (10%N :: v)
| un_return w v : unescapes w v -> unescapes (92 :: 114 :: w)%N (13%N :: v)
| un_backslash w v : ~ (exists c r, w = c :: r /\ (c = 110 \/ c = 78 \/ c = 114)%N) -> unescapes w v -> unescapes (92 :: 92 :: w)%N (92%N :: v)
| un_other c w v : ~ In c [44; 78; 92; 110; 114]%N -> unescapes w v -> unescapes (92%N :: c :: w) (92%N :: c :: v)
| un_last : unescapes [92%N] [92%N].

(** The characters [w] after the colon stand for the bytes [v]. *)
Definition stands_for (E : Ext) (c : coding) (w v : bytes) : Prop :=
  match c with
  | Plain | Eight => unescapes w v
  | Base64 => is_bytes v = true /\ w = to_base64 v
  | Quoted => ~ In 92%N w /\ qp_decode E w = v
  end.
(** The text in the character set [k]; UTF-8 without one, or if it is not known. *)
Definition in_charset (E : Ext) (k : option bytes) (v : bytes) : ustring :=
  match k with
  | None => from_utf8 v
  | Some n => match charset_decode E n with Some read => read v | None => from_utf8 v end
  end.

(** The property [b], with the name [n] and the parameters [ps], says [s]. *)
Definition says (E : Ext) (n : bytes) (ps : list bytes) (s : ustring) (b : block) : Prop :=
  (exists c r, fst b = c :: r /\ is_space c = false) /\ Forall plain_bytes (block_lines b) /\
  ~ begin_line (fst b) /\ ~ end_line (fst b) /\
  exists c k w v, content b = n ++ flat_map (fun p => 59%N :: p) ps ++ 58%N :: w /\
    announced ps c k /\ stands_for E c w v /\ s = in_charset E k v /\
    (c = Quoted -> ~ (exists q, w = q ++ [61%N])).

(** The properties of a contact that are kept without their parameters. *)
Definition text_names : list bytes :=
  map B ["adr"; "anniversary"; "bday"; "deathdate"; "categories"; "class"; "gender"; "kind"; "fn"; "geo"; "label"; "mailer"; "n";
         "name"; "note"; "prodid"; "rev"; "sort-string"; "tz"; "uid"; "source"; "member"]%string.
Definition text_name (n : bytes) : Prop :=
  (forall c, In c n -> c <> 58%N /\ c <> 59%N /\ c <> 46%N) /\
  (In (to_lower n) text_names \/ exists r, to_lower n = B "x-kaddressbook-" ++ r).

(** The same property, possibly with its value in another coding. *)
Definition same_property (E : Ext) (b b' : block) : Prop :=
  (b = b' /\ block_ok b) \/
  exists n ps ps' s, text_name n /\ others ps = others ps' /\ says E n ps s b /\ says E n ps' s b'.
