(** The messaging services that the library ships: src/improtocols/*.desktop, put into the
    resources by src/CMakeLists.txt:92-124 under [:/org.kde.kcontacts/improtocols/].  Each
    file with the entries [Name] and [Icon] of its group [Desktop Entry]; the translations
    of the names and the comments are left out. *)
From Verif Require Import Base M_Convert.
From Coq Require Import String.
Open Scope string_scope.


Definition bundled_services : list (string * (string * string)) := [
  ("aim", ("AIM", "im-aim"));
  ("delta", ("Delta Chat", "im-delta"));
  ("discord", ("Discord", "im-discord"));
  ("facebook", ("Facebook", "im-facebook"));
  ("fluxer", ("Fluxer", "im-fluxer"));
  ("gg", ("Gadu-Gadu", "im-gadugadu"));
  ("googletalk", ("Google Talk", "im-google"));
  ("groupwise", ("GroupWise", "im-groupwise"));
  ("icq", ("ICQ", "im-icq"));
  ("irc", ("IRC", "im-irc"));
  ("matrix", ("Matrix", ""));
  ("meanwhile", ("Meanwhile", "im-meanwhile"));
  ("msn", ("MSN Messenger", "im-msn"));
  ("mumble", ("Mumble", "im-mumble"));
  ("qq", ("QQ", "im-qq"));
  ("rocketchat", ("RocketChat", ""));
  ("signal", ("Signal", ""));
  ("sip", ("SIP", "internet-telephone"));
  ("skype", ("Skype", "im-skype"));
  ("slack", ("Slack", "im-slack"));
  ("sms", ("SMS", "im-sms"));
  ("teams", ("Microsoft Teams", "im-teams"));
  ("telegram", ("Telegram", ""));
  ("threema", ("Threema", ""));
  ("twitter", ("Twitter", "im-twitter"));
  ("whatsapp", ("WhatsApp", "im-whatsapp"));
  ("xmpp", ("Jabber", "im-jabber"));
  ("ymsgr", ("Yahoo", "im-yahoo"))].

(** The name of a resource, impp.cpp:173 with CMakeLists.txt:93 *)
Definition service_resource (t : string) : ustring :=
  (B ":/org.kde.kcontacts/improtocols/" ++ B t ++ B ".desktop")%list.

(** [Impp::serviceIcon], impp.cpp:194-199; [icon]: [KDesktopFile(path).readIcon()] *)
Definition service_icon (X : ImExt) (icon : ustring -> ustring) (t : ustring) : ustring := icon (protocol_file X t).
