(** Specification vocabulary for whole contacts in versions 2.1 and 4.0 (C44);
    version 3.0 has its own in [S_Contact]. *)
From Verif Require Import Base Utf8 QtText M_ParamMap M_VCard M_VCardText S_Escape S_Split S_Date
  S_Card S_RoundTrip M_Split M_Values M_Date M_Addressee M_VCardTool S_Contact.

(** the texts have values that survive, and none is empty *)
Definition texts_full (l : list ptext) : Prop := Forall (fun t => text_safe (pt_text t) /\ pt_text t <> []) l.

(** ** What every version keeps *)
Record safe_in (T : Tool) (v : version) (a : addressee) : Prop := {
  w_texts : Forall text_safe [a_formatted a; a_note a; a_uid a];
  w_uid : a_uid a <> [];
  w_n : parts_safe [a_family a; a_given a; a_additional a; a_prefix a; a_suffix a];
  w_titles : texts_full (a_titles a);
  w_roles : texts_full (a_roles a);
  (** the department is written with the organisation *)
  w_orgs : Forall (fun o => pt_text o <> [] /\ parts_safe (pt_text o :: (if isnil (a_department a) then [] else [a_department a]))) (a_orgs a);
  w_department : a_orgs a = [] -> a_department a = [];
  w_birthday : birthday_safe (a_birthday a) (a_bdaytime a);
  w_revision : datetime_safe (a_revision a);
  w_tz : tz_safe (a_tz a);
  w_urls : Forall (fun u => text_safe (ru_url u) /\ ru_url u <> [] /\ url_parse (env_url (t_env T)) (ru_url u) = ru_url u /\
                            rurl_valid (env_url (t_env T)) u = true) (a_urls a);
  (** at most the first e-mail address is preferred *)
  w_emails : Forall (fun e => text_safe (em_mail e) /\ em_mail e <> []) (a_emails a) /\ NoDup (map em_mail (a_emails a)) /\
             Forall (fun e => email_preferred e = false) (tl (a_emails a));
  w_phones : Forall (fun p => text_safe (ph_number p) /\ simplified (ph_number p) = ph_number p /\ ph_number p <> [] /\
                              N.land (ph_type p) phone_vocabulary = ph_type p /\ ph_type p <> 0%N) (a_phones a);
  (** in version 4.0 a label is a parameter of its address *)
  w_addresses : Forall (fun x => address_safe x /\ address_blank x = false /\ (v <> V40 -> text_safe (ad_label x)) /\
                                 N.land (ad_type x) address_vocabulary = ad_type x) (a_addresses a) /\
                (v <> V40 -> labels_told_apart (a_addresses a));
  w_customs : increasing (map fst (a_customs a)) /\ Forall (fun e => text_safe (snd e) /\ snd e <> [] /\ custom_name (fst e)) (a_customs a) /\
              special_free v a
}.
Record same_in (a b : addressee) : Prop := {
  k_texts : [a_formatted b; a_note b; a_uid b] = [a_formatted a; a_note a; a_uid a];
  k_n : [a_family b; a_given b; a_additional b; a_prefix b; a_suffix b] = [a_family a; a_given a; a_additional a; a_prefix a; a_suffix a];
  k_titles : a_titles b = a_titles a;
  k_roles : a_roles b = a_roles a;
  k_orgs : a_orgs b = a_orgs a /\ a_department b = a_department a;
  k_birthday : a_birthday b = a_birthday a /\ a_bdaytime b = a_bdaytime a;
  k_revision : a_revision b = a_revision a;
  k_tz : a_tz b = a_tz a;
  k_urls : a_urls b = a_urls a;
  k_emails : a_emails b = a_emails a;
  k_phones : Forall2 same_phone (a_phones a) (a_phones b);
  k_addresses : Forall2 same_address (a_addresses a) (a_addresses b);
  k_customs : a_customs b = a_customs a
}.

(** ** Version 2.1 also keeps name and mailer *)
Definition safe21 (T : Tool) (a : addressee) : Prop := safe_in T V21 a /\ text_safe (a_name a) /\ text_safe (a_mailer a).
Definition same21 (a b : addressee) : Prop := same_in a b /\ a_name b = a_name a /\ a_mailer b = a_mailer a.

(** ** Version 4.0 also keeps what it has new properties for *)
Record safe40 (T : Tool) (a : addressee) : Prop := {
  w40_all : safe_in T V40 a;
  w40_prodid : text_safe (a_prodid a);
  w40_kind : text_safe (a_kind a);
  w40_nicks : texts_full (a_nicks a);
  w40_pidmaps : texts_full (a_pidmaps a);
  w40_categories : parts_safe (a_categories a) /\ a_categories a <> [[]];
  w40_gender : (length (ge_gender (a_gender a)) <= 1)%nat /\ ge_gender (a_gender a) <> [cSEMI] /\
               text_safe (ge_gender (a_gender a)) /\ text_safe (ge_comment (a_gender a));
  w40_deathdate : datetime_safe (a_deathdate a);
  w40_langs : Forall (fun t => text_safe (pt_text t) /\ simplified (pt_text t) <> []) (a_langs a) /\ NoDup (map pt_text (a_langs a));
  w40_sources : Forall (fun u => text_safe u /\ u <> [] /\ url_parse (env_url (t_env T)) u = u) (a_sources a);
  (** only groups have members *)
  w40_members : a_members a = [] \/
                (to_lower (a_kind a) = B "group" /\ Forall (fun m => text_safe m /\ m <> []) (a_members a) /\ NoDup (a_members a))
}.
Record same40 (a b : addressee) : Prop := {
  k40_all : same_in a b;
  k40_texts : [a_prodid b; a_kind b] = [a_prodid a; a_kind a];
  k40_nicks : a_nicks b = a_nicks a;
  k40_pidmaps : a_pidmaps b = a_pidmaps a;
  k40_categories : a_categories b = a_categories a;
  k40_gender : a_gender b = a_gender a;
  k40_deathdate : a_deathdate b = a_deathdate a;
  k40_langs : a_langs b = a_langs a;
  k40_sources : a_sources b = a_sources a;
  k40_members : a_members b = a_members a
}.
