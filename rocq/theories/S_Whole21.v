(** Specification vocabulary for contacts of version 2.1 with texts in any script (C83). *)
From Verif Require Import Base Utf8 QtText M_ParamMap M_VCard M_VCardText S_Escape S_Split S_Date
  S_Card S_RoundTrip M_Split M_Values M_Date M_Addressee M_VCardTool S_Contact S_Whole.

(** [m'] are the parameters [m] together with the two that announce the coding of
    the value, which version 2.1 writes when the value needs it. *)
Definition announced_in (m m' : pmap) : Prop :=
  increasing (map fst m') /\
  forall k vs, In (k, vs) m' <->
    (k = B "charset" /\ vs = [B "UTF-8"]) \/ (k = B "encoding" /\ vs = [B "QUOTED-PRINTABLE"]) \/ In (k, vs) m.
(** the entry [y] is [x], with those parameters if the written value [s] needs a coding *)
Definition same_coded (s : ustring) (x y : ptext) : Prop :=
  pt_text y = pt_text x /\ if needs_encoding s then announced_in (pt_params x) (pt_params y) else pt_params y = pt_params x.
(** an organisation is written together with the department *)
Definition org_written (a : addressee) (o : ptext) : ustring :=
  join_components cSEMI (pt_text o :: (if isnil (a_department a) then [] else [a_department a])).

(** the e-mail address [f] read for [e]: its types are in upper case *)
Definition same_email (e f : email) : Prop := em_mail f = em_mail e /\ types_upper (em_params e) (em_params f).

(** As [same21], except for the parameters of titles, roles, organisations and the
    types of e-mail addresses. *)
Record same21_coded (a b : addressee) : Prop := {
  k21_texts : [a_formatted b; a_note b; a_uid b; a_name b; a_mailer b] = [a_formatted a; a_note a; a_uid a; a_name a; a_mailer a];
  k21_n : [a_family b; a_given b; a_additional b; a_prefix b; a_suffix b] = [a_family a; a_given a; a_additional a; a_prefix a; a_suffix a];
  k21_titles : Forall2 (fun x y => same_coded (pt_text x) x y) (a_titles a) (a_titles b);
  k21_roles : Forall2 (fun x y => same_coded (pt_text x) x y) (a_roles a) (a_roles b);
  k21_orgs : Forall2 (fun x y => same_coded (org_written a x) x y) (a_orgs a) (a_orgs b) /\ a_department b = a_department a;
  k21_birthday : a_birthday b = a_birthday a /\ a_bdaytime b = a_bdaytime a;
  k21_revision : a_revision b = a_revision a;
  k21_tz : a_tz b = a_tz a;
  k21_urls : a_urls b = a_urls a;
  k21_emails : Forall2 same_email (a_emails a) (a_emails b);
  k21_phones : Forall2 same_phone (a_phones a) (a_phones b);
  k21_addresses : Forall2 same_address (a_addresses a) (a_addresses b);
  k21_customs : a_customs b = a_customs a
}.
