(** Specification vocabulary for what a written card says (C80).  Nothing here refers to
    the reader of cards. *)
From Verif Require Import Base Utf8 M_VCard M_VCardText M_Values M_Date M_Addressee M_VCardTool S_Parse S_Soft S_Order S_Coding S_Meaning S_DateText.

(** The escapes of RFC 6350 (3.4) in a value, read from left to right.  ([\r], which the
    standard does not have, stands for a carriage return.) *)
Inductive decodes : bytes -> bytes -> Prop :=
| de_end : decodes [] []
| de_char c w v : c <> 92%N -> decodes w v -> decodes (c :: w) (c :: v)
| de_escape c d w v : In (c, d) [(92, 92); (44, 44); (59, 59); (110, 10); (78, 10); (114, 13)]%N -> decodes w v ->
    decodes (92%N :: c :: w) (d :: v).

(** The form of a parameter: a name, or a name and values, or a name and a value in quotes. *)
Definition param_shape (q : bytes) : Prop :=
  Forall (fun c => ~ In c [58; 59; 61]%N) q \/
  exists k r, q = k ++ 61%N :: r /\ Forall (fun c => ~ In c [58; 59; 61]%N) k /\
    (Forall (fun c => ~ In c [34; 58; 59]%N) r \/ exists s, r = 34%N :: s ++ [34%N] /\ ~ In 34%N s).

(** The lines [b] hold the property [p]: a name, parameters, a colon and the characters of
    the value, as they stand there.  A property is folded: the lines after the first one
    begin with a blank. *)
Definition laid_out (b : block) (p : said) : Prop :=
  Forall plain_bytes (block_lines b) /\ (exists c r, fst b = c :: r /\ (33 <= c <= 126)%N) /\
  sd_name p <> [] /\ ~ In 58%N (sd_name p) /\ ~ In 59%N (sd_name p) /\ Forall param_shape (sd_params p) /\
  content b = sd_name p ++ flat_map (fun q => 59%N :: q) (sd_params p) ++ 58%N :: sd_text p.

(** The text written for the contact is one card whose properties are [P]. *)
Definition writes_as (T : Tool) (E : Ext) (v : version) (export : bool) (a : addressee) (P : list said -> Prop) : Prop :=
  exists bs ps, create_text T E v export [a] = card_in [13%N; 10%N] [] (B "BEGIN:VCARD") bs (B "END:VCARD") [[]] /\
    Forall2 laid_out bs ps /\ P ps.

(** The value is this text. *)
Definition holds_text (p : said) (s : ustring) : Prop :=
  Forall (fun q => about_coding q = false) (sd_params p) /\ decodes (sd_text p) (to_utf8 s).
(** The value consists of these components. *)
Definition holds_parts (sep : N) (p : said) (l : list ustring) : Prop :=
  Forall (fun q => about_coding q = false) (sd_params p) /\
  exists ws, sd_text p = join [sep] ws /\ Forall2 (fun w s => ~ In sep w /\ decodes w (to_utf8 s)) ws l.
(** The value is this data. *)
Definition holds_data (p : said) (d : bytes) : Prop :=
  In (B "ENCODING=b") (sd_params p) /\ sd_text p = to_base64 d.

(** A parameter with its values. *)
Definition param_of (kv : ustring * list ustring) : bytes := to_upper (fst kv) ++ 61%N :: join [44%N] (snd kv).
(** The properties of a name are these texts without parameters; empty ones are left out. *)
Definition only_texts (f : string) (l : list ustring) (ps : list said) : Prop :=
  Forall2 (fun p s => sd_params p = [] /\ holds_text p s) (of_name f ps) (filter not_empty l).
(** These texts with these parameters. *)
Definition only_entries {A} (f : string) (text : A -> ustring) (params : A -> list (ustring * list ustring)) (l : list A) (ps : list said) : Prop :=
  Forall2 (fun p x => sd_params p = map param_of (params x) /\ holds_text p (text x)) (of_name f ps) (filter (fun x => not_empty (text x)) l).

(** The flags in [t] are told by the types of a property, and nothing else is. *)
Definition flags_told (table : list (string * N)) (t : N) (p : said) : Prop :=
  forall w i, In (w, i) table -> (N.testbit t i = true <-> exists s, type_value s p /\ to_lower s = B w).
Definition only_flags (table : list (string * N)) (p : said) : Prop :=
  forall s, type_value s p -> exists w i, In (w, i) table /\ to_lower s = B w.

(** A date; a date with time and zone. *)
Definition says_date (d : datetime) (with_time : bool) (s : ustring) : Prop :=
  match dt_date d with
  | None => s = []
  | Some x =>
      exists s1, date_text x s1 /\
        if with_time
        then exists t s2 s3, dt_time d = Some t /\ time_text t s2 /\ zone_text (dt_spec d) s3 /\ s = s1 ++ 84%N :: s2 ++ s3
        else s = s1
  end.
Definition only_date (f : string) (params : list bytes) (d : datetime) (with_time : bool) (ps : list said) : Prop :=
  exists s, says_date d with_time s /\
    Forall2 (fun p x => sd_params p = params /\ holds_text p x) (of_name f ps) (filter not_empty [s]).
(** An offset in minutes. *)
Definition says_offset (o : Z) (s : ustring) : Prop :=
  exists (east : bool) h m, (0 <= h < 100 /\ 0 <= m < 60 /\ o = if east then h * 60 + m else - (h * 60 + m))%Z /\
    s = [if east then 43%N else 45%N] ++ two h ++ [58%N] ++ two m.

(** The picture: data, or the address it is found at. *)
Definition holds_picture (v : version) (I : ImgExt) (p : said) (x : picture) : Prop :=
  if pi_intern x
  then match v with
       | V40 => sd_params p = [] /\ sd_text p = B "data:image/" ++ pi_type x ++ B ";base64," ++ to_base64 (pi_raw_of I x)
       | _ => holds_data p (pi_raw_of I x) /\ (pi_type x <> [] -> In (B "TYPE=" ++ pi_type x) (sd_params p))
       end
  else sd_params p = (match v with V40 => [] | _ => [B "VALUE=URI"] end) /\ holds_text p (pi_url x).

(** The name of a field of the user.  Cards for other programs use the names that are common
    for messengers. *)
Definition messengers : list (string * string) :=
  [("aim", "X-AIM"); ("icq", "X-ICQ"); ("xmpp", "X-JABBER"); ("msn", "X-MSN"); ("yahoo", "X-YAHOO"); ("gadu", "X-GADUGADU"); ("skype", "X-SKYPE");
   ("groupwise", "X-GROUPWISE"); ("sms", "X-SMS"); ("meanwhile", "X-MEANWHILE"); ("irc", "X-IRC"); ("googletalk", "X-GTALK"); ("twitter", "X-TWITTER")]%string.
Definition messenger (n : ustring) (f : string) : Prop := exists s, In (s, f) messengers /\ n = B "messaging/" ++ B s ++ B "-All".
Definition custom_name (export : bool) (n m : ustring) : Prop :=
  (export = true /\ exists f, messenger n f /\ m = B f) \/ (m = B "X-" ++ n /\ (export = true -> ~ exists f, messenger n f)).
