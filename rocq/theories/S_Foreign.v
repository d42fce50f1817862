(** Specification vocabulary for the extensions of other programs (C71). *)
From Verif Require Import Base M_VCardText S_Parse S_Soft S_Order S_Case.

(** The fields of a contact that have no vCard property of their own, each with the
    names (in lower case) of the extensions it is read from. *)
Definition extensions : list (bytes * list bytes) :=
  [(B "X-SpousesName", map B ["x-evolution-spouse"; "x-spouse"; "x-kaddressbook-x-spousesname"]%string);
   (B "X-AssistantsName", map B ["x-evolution-assistant"; "x-assistant"; "x-kaddressbook-x-assistantsname"]%string);
   (B "X-ManagersName", map B ["x-evolution-manager"; "x-manager"; "x-kaddressbook-x-managersname"]%string);
   (B "X-Anniversary", map B ["x-evolution-anniversary"; "x-anniversary"; "x-kaddressbook-x-anniversary"]%string);
   (B "BlogFeed", map B ["x-evolution-blog-url"; "x-kaddressbook-blogfeed"]%string);
   (B "X-Office", [B "x-kaddressbook-x-office"]);
   (B "X-Profession", [B "x-kaddressbook-x-profession"])].
(** [n], in any case, is a name of the field [f] *)
Definition extension_of (f n : bytes) : Prop := exists ns, In (f, ns) extensions /\ In (to_lower n) ns.
(** two names of one field in front of a property *)
Definition same_field (t : spellings) : Prop :=
  (exists f, extension_of f (fst (fst t)) /\ extension_of f (snd (fst t))) /\
  exists d r, fst (snd t) = d :: r /\ (d = 58 \/ d = 59)%N.

(** The old extensions for messaging, with the scheme of the address they stand for. *)
Definition messengers : list (bytes * bytes) :=
  [(B "x-aim", B "aim"); (B "x-icq", B "icq"); (B "x-jabber", B "xmpp"); (B "x-msn", B "msn"); (B "x-yahoo", B "ymsgr");
   (B "x-skype", B "skype"); (B "x-groupwise", B "groupwise"); (B "x-sms", B "sms"); (B "x-meanwhile", B "meanwhile");
   (B "x-irc", B "irc"); (B "x-gtalk", B "googletalk"); (B "x-twitter", B "twitter")].

(** A value that is written as it is: printable ASCII without a backslash. *)
Definition plain_value (v : bytes) : Prop := v <> [] /\ forall c, In c v -> (32 <= c < 127)%N /\ c <> 92%N.
