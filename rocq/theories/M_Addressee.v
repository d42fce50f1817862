(** Model of [KContacts::Addressee], addressee.cpp: the private data as a record and
    the member functions as functions on it.

    The pointer [d] is an implicitly shared pointer; this file gives the meaning of
    the member functions on an object that is not shared.  [M_Copy] models sharing
    and the detaching copy constructors. *)
From Verif Require Import Base QtText M_ParamMap M_Values M_Date.
Local Open Scope list_scope.
Local Open Scope nat_scope.

(** External operations used by a contact: URLs, images and the instant of a
    [QDateTime] (which for local times depends on the time zone database). *)
Record Env := {
  env_url : UrlExt;
  env_img : ImgExt;
  env_instant : datetime -> Z
}.
(** [QDateTime::operator==]: two invalid values are equal, valid ones are compared
    as instants. *)
Definition dt_eq (V : Env) (a b : datetime) : bool :=
  if negb (dt_valid a) then negb (dt_valid b)
  else dt_valid b && Z.eqb (env_instant V a) (env_instant V b).

(** [Addressee::Private], addressee.cpp:128-184 (the members in that order) *)
Record addressee := mkAddressee {
  a_uid : ustring;
  a_name : ustring;
  a_formatted : ustring;
  a_family : ustring;
  a_given : ustring;
  a_additional : ustring;
  a_prefix : ustring;
  a_suffix : ustring;
  a_birthday : datetime;
  a_mailer : ustring;
  a_tz : tzone;
  a_geo : geo;
  a_department : ustring;
  a_note : ustring;
  a_prodid : ustring;
  a_revision : datetime;
  a_sortstring : ustring;
  a_secrecy : secrecy;
  a_logo : picture;
  a_photo : picture;
  a_sound : sound;
  a_deathdate : datetime;
  a_phones : list phone;
  a_addresses : list address;
  a_keys : list key;
  a_emails : list email;
  a_langs : list ptext;
  a_impps : list impp;
  a_gender : gender;
  a_kind : ustring;
  a_categories : list ustring;
  a_customs : list (ustring * ustring);
  a_calurls : list calurl;
  a_xsounds : list sound;
  a_xphotos : list picture;
  a_xlogos : list picture;
  a_urls : list rurl;
  a_sources : list qurl;
  a_members : list ustring;
  a_related : list ptext;
  a_fgroups : list fgroup;
  a_titles : list ptext;
  a_roles : list ptext;
  a_orgs : list ptext;
  a_nicks : list ptext;
  a_pidmaps : list ptext;
  a_empty : bool;
  a_changed : bool;
  a_bdaytime : bool
}.
(** [Addressee::Private::Private()], addressee.cpp:53-60, with the member defaults.
    The random unique identifier is an argument. *)
Definition addressee_new (uid : ustring) : addressee :=
  mkAddressee uid [] [] [] [] [] [] [] dt_null [] tz_new geo_new [] [] [] dt_null [] SInvalid picture_new picture_new sound_new dt_null [] [] [] [] [] [] gender_new [] [] [] [] [] [] [] [] [] [] [] [] [] [] [] [] [] true false false.

(** assignments to one member *)
Definition put_uid (v : ustring) (a : addressee) : addressee :=
  mkAddressee v (a_name a) (a_formatted a) (a_family a) (a_given a) (a_additional a) (a_prefix a) (a_suffix a) (a_birthday a) (a_mailer a) (a_tz a) (a_geo a) (a_department a) (a_note a) (a_prodid a) (a_revision a) (a_sortstring a) (a_secrecy a) (a_logo a) (a_photo a) (a_sound a) (a_deathdate a) (a_phones a) (a_addresses a) (a_keys a) (a_emails a) (a_langs a) (a_impps a) (a_gender a) (a_kind a) (a_categories a) (a_customs a) (a_calurls a) (a_xsounds a) (a_xphotos a) (a_xlogos a) (a_urls a) (a_sources a) (a_members a) (a_related a) (a_fgroups a) (a_titles a) (a_roles a) (a_orgs a) (a_nicks a) (a_pidmaps a) (a_empty a) (a_changed a) (a_bdaytime a).
Definition put_name (v : ustring) (a : addressee) : addressee :=
  mkAddressee (a_uid a) v (a_formatted a) (a_family a) (a_given a) (a_additional a) (a_prefix a) (a_suffix a) (a_birthday a) (a_mailer a) (a_tz a) (a_geo a) (a_department a) (a_note a) (a_prodid a) (a_revision a) (a_sortstring a) (a_secrecy a) (a_logo a) (a_photo a) (a_sound a) (a_deathdate a) (a_phones a) (a_addresses a) (a_keys a) (a_emails a) (a_langs a) (a_impps a) (a_gender a) (a_kind a) (a_categories a) (a_customs a) (a_calurls a) (a_xsounds a) (a_xphotos a) (a_xlogos a) (a_urls a) (a_sources a) (a_members a) (a_related a) (a_fgroups a) (a_titles a) (a_roles a) (a_orgs a) (a_nicks a) (a_pidmaps a) (a_empty a) (a_changed a) (a_bdaytime a).
Definition put_formatted (v : ustring) (a : addressee) : addressee :=
  mkAddressee (a_uid a) (a_name a) v (a_family a) (a_given a) (a_additional a) (a_prefix a) (a_suffix a) (a_birthday a) (a_mailer a) (a_tz a) (a_geo a) (a_department a) (a_note a) (a_prodid a) (a_revision a) (a_sortstring a) (a_secrecy a) (a_logo a) (a_photo a) (a_sound a) (a_deathdate a) (a_phones a) (a_addresses a) (a_keys a) (a_emails a) (a_langs a) (a_impps a) (a_gender a) (a_kind a) (a_categories a) (a_customs a) (a_calurls a) (a_xsounds a) (a_xphotos a) (a_xlogos a) (a_urls a) (a_sources a) (a_members a) (a_related a) (a_fgroups a) (a_titles a) (a_roles a) (a_orgs a) (a_nicks a) (a_pidmaps a) (a_empty a) (a_changed a) (a_bdaytime a).
Definition put_family (v : ustring) (a : addressee) : addressee :=
  mkAddressee (a_uid a) (a_name a) (a_formatted a) v (a_given a) (a_additional a) (a_prefix a) (a_suffix a) (a_birthday a) (a_mailer a) (a_tz a) (a_geo a) (a_department a) (a_note a) (a_prodid a) (a_revision a) (a_sortstring a) (a_secrecy a) (a_logo a) (a_photo a) (a_sound a) (a_deathdate a) (a_phones a) (a_addresses a) (a_keys a) (a_emails a) (a_langs a) (a_impps a) (a_gender a) (a_kind a) (a_categories a) (a_customs a) (a_calurls a) (a_xsounds a) (a_xphotos a) (a_xlogos a) (a_urls a) (a_sources a) (a_members a) (a_related a) (a_fgroups a) (a_titles a) (a_roles a) (a_orgs a) (a_nicks a) (a_pidmaps a) (a_empty a) (a_changed a) (a_bdaytime a).
Definition put_given (v : ustring) (a : addressee) : addressee :=
  mkAddressee (a_uid a) (a_name a) (a_formatted a) (a_family a) v (a_additional a) (a_prefix a) (a_suffix a) (a_birthday a) (a_mailer a) (a_tz a) (a_geo a) (a_department a) (a_note a) (a_prodid a) (a_revision a) (a_sortstring a) (a_secrecy a) (a_logo a) (a_photo a) (a_sound a) (a_deathdate a) (a_phones a) (a_addresses a) (a_keys a) (a_emails a) (a_langs a) (a_impps a) (a_gender a) (a_kind a) (a_categories a) (a_customs a) (a_calurls a) (a_xsounds a) (a_xphotos a) (a_xlogos a) (a_urls a) (a_sources a) (a_members a) (a_related a) (a_fgroups a) (a_titles a) (a_roles a) (a_orgs a) (a_nicks a) (a_pidmaps a) (a_empty a) (a_changed a) (a_bdaytime a).
Definition put_additional (v : ustring) (a : addressee) : addressee :=
  mkAddressee (a_uid a) (a_name a) (a_formatted a) (a_family a) (a_given a) v (a_prefix a) (a_suffix a) (a_birthday a) (a_mailer a) (a_tz a) (a_geo a) (a_department a) (a_note a) (a_prodid a) (a_revision a) (a_sortstring a) (a_secrecy a) (a_logo a) (a_photo a) (a_sound a) (a_deathdate a) (a_phones a) (a_addresses a) (a_keys a) (a_emails a) (a_langs a) (a_impps a) (a_gender a) (a_kind a) (a_categories a) (a_customs a) (a_calurls a) (a_xsounds a) (a_xphotos a) (a_xlogos a) (a_urls a) (a_sources a) (a_members a) (a_related a) (a_fgroups a) (a_titles a) (a_roles a) (a_orgs a) (a_nicks a) (a_pidmaps a) (a_empty a) (a_changed a) (a_bdaytime a).
Definition put_prefix (v : ustring) (a : addressee) : addressee :=
  mkAddressee (a_uid a) (a_name a) (a_formatted a) (a_family a) (a_given a) (a_additional a) v (a_suffix a) (a_birthday a) (a_mailer a) (a_tz a) (a_geo a) (a_department a) (a_note a) (a_prodid a) (a_revision a) (a_sortstring a) (a_secrecy a) (a_logo a) (a_photo a) (a_sound a) (a_deathdate a) (a_phones a) (a_addresses a) (a_keys a) (a_emails a) (a_langs a) (a_impps a) (a_gender a) (a_kind a) (a_categories a) (a_customs a) (a_calurls a) (a_xsounds a) (a_xphotos a) (a_xlogos a) (a_urls a) (a_sources a) (a_members a) (a_related a) (a_fgroups a) (a_titles a) (a_roles a) (a_orgs a) (a_nicks a) (a_pidmaps a) (a_empty a) (a_changed a) (a_bdaytime a).
Definition put_suffix (v : ustring) (a : addressee) : addressee :=
  mkAddressee (a_uid a) (a_name a) (a_formatted a) (a_family a) (a_given a) (a_additional a) (a_prefix a) v (a_birthday a) (a_mailer a) (a_tz a) (a_geo a) (a_department a) (a_note a) (a_prodid a) (a_revision a) (a_sortstring a) (a_secrecy a) (a_logo a) (a_photo a) (a_sound a) (a_deathdate a) (a_phones a) (a_addresses a) (a_keys a) (a_emails a) (a_langs a) (a_impps a) (a_gender a) (a_kind a) (a_categories a) (a_customs a) (a_calurls a) (a_xsounds a) (a_xphotos a) (a_xlogos a) (a_urls a) (a_sources a) (a_members a) (a_related a) (a_fgroups a) (a_titles a) (a_roles a) (a_orgs a) (a_nicks a) (a_pidmaps a) (a_empty a) (a_changed a) (a_bdaytime a).
Definition put_birthday (v : datetime) (a : addressee) : addressee :=
  mkAddressee (a_uid a) (a_name a) (a_formatted a) (a_family a) (a_given a) (a_additional a) (a_prefix a) (a_suffix a) v (a_mailer a) (a_tz a) (a_geo a) (a_department a) (a_note a) (a_prodid a) (a_revision a) (a_sortstring a) (a_secrecy a) (a_logo a) (a_photo a) (a_sound a) (a_deathdate a) (a_phones a) (a_addresses a) (a_keys a) (a_emails a) (a_langs a) (a_impps a) (a_gender a) (a_kind a) (a_categories a) (a_customs a) (a_calurls a) (a_xsounds a) (a_xphotos a) (a_xlogos a) (a_urls a) (a_sources a) (a_members a) (a_related a) (a_fgroups a) (a_titles a) (a_roles a) (a_orgs a) (a_nicks a) (a_pidmaps a) (a_empty a) (a_changed a) (a_bdaytime a).
Definition put_mailer (v : ustring) (a : addressee) : addressee :=
  mkAddressee (a_uid a) (a_name a) (a_formatted a) (a_family a) (a_given a) (a_additional a) (a_prefix a) (a_suffix a) (a_birthday a) v (a_tz a) (a_geo a) (a_department a) (a_note a) (a_prodid a) (a_revision a) (a_sortstring a) (a_secrecy a) (a_logo a) (a_photo a) (a_sound a) (a_deathdate a) (a_phones a) (a_addresses a) (a_keys a) (a_emails a) (a_langs a) (a_impps a) (a_gender a) (a_kind a) (a_categories a) (a_customs a) (a_calurls a) (a_xsounds a) (a_xphotos a) (a_xlogos a) (a_urls a) (a_sources a) (a_members a) (a_related a) (a_fgroups a) (a_titles a) (a_roles a) (a_orgs a) (a_nicks a) (a_pidmaps a) (a_empty a) (a_changed a) (a_bdaytime a).
Definition put_tz (v : tzone) (a : addressee) : addressee :=
  mkAddressee (a_uid a) (a_name a) (a_formatted a) (a_family a) (a_given a) (a_additional a) (a_prefix a) (a_suffix a) (a_birthday a) (a_mailer a) v (a_geo a) (a_department a) (a_note a) (a_prodid a) (a_revision a) (a_sortstring a) (a_secrecy a) (a_logo a) (a_photo a) (a_sound a) (a_deathdate a) (a_phones a) (a_addresses a) (a_keys a) (a_emails a) (a_langs a) (a_impps a) (a_gender a) (a_kind a) (a_categories a) (a_customs a) (a_calurls a) (a_xsounds a) (a_xphotos a) (a_xlogos a) (a_urls a) (a_sources a) (a_members a) (a_related a) (a_fgroups a) (a_titles a) (a_roles a) (a_orgs a) (a_nicks a) (a_pidmaps a) (a_empty a) (a_changed a) (a_bdaytime a).
Definition put_geo (v : geo) (a : addressee) : addressee :=
  mkAddressee (a_uid a) (a_name a) (a_formatted a) (a_family a) (a_given a) (a_additional a) (a_prefix a) (a_suffix a) (a_birthday a) (a_mailer a) (a_tz a) v (a_department a) (a_note a) (a_prodid a) (a_revision a) (a_sortstring a) (a_secrecy a) (a_logo a) (a_photo a) (a_sound a) (a_deathdate a) (a_phones a) (a_addresses a) (a_keys a) (a_emails a) (a_langs a) (a_impps a) (a_gender a) (a_kind a) (a_categories a) (a_customs a) (a_calurls a) (a_xsounds a) (a_xphotos a) (a_xlogos a) (a_urls a) (a_sources a) (a_members a) (a_related a) (a_fgroups a) (a_titles a) (a_roles a) (a_orgs a) (a_nicks a) (a_pidmaps a) (a_empty a) (a_changed a) (a_bdaytime a).
Definition put_department (v : ustring) (a : addressee) : addressee :=
  mkAddressee (a_uid a) (a_name a) (a_formatted a) (a_family a) (a_given a) (a_additional a) (a_prefix a) (a_suffix a) (a_birthday a) (a_mailer a) (a_tz a) (a_geo a) v (a_note a) (a_prodid a) (a_revision a) (a_sortstring a) (a_secrecy a) (a_logo a) (a_photo a) (a_sound a) (a_deathdate a) (a_phones a) (a_addresses a) (a_keys a) (a_emails a) (a_langs a) (a_impps a) (a_gender a) (a_kind a) (a_categories a) (a_customs a) (a_calurls a) (a_xsounds a) (a_xphotos a) (a_xlogos a) (a_urls a) (a_sources a) (a_members a) (a_related a) (a_fgroups a) (a_titles a) (a_roles a) (a_orgs a) (a_nicks a) (a_pidmaps a) (a_empty a) (a_changed a) (a_bdaytime a).
Definition put_note (v : ustring) (a : addressee) : addressee :=
  mkAddressee (a_uid a) (a_name a) (a_formatted a) (a_family a) (a_given a) (a_additional a) (a_prefix a) (a_suffix a) (a_birthday a) (a_mailer a) (a_tz a) (a_geo a) (a_department a) v (a_prodid a) (a_revision a) (a_sortstring a) (a_secrecy a) (a_logo a) (a_photo a) (a_sound a) (a_deathdate a) (a_phones a) (a_addresses a) (a_keys a) (a_emails a) (a_langs a) (a_impps a) (a_gender a) (a_kind a) (a_categories a) (a_customs a) (a_calurls a) (a_xsounds a) (a_xphotos a) (a_xlogos a) (a_urls a) (a_sources a) (a_members a) (a_related a) (a_fgroups a) (a_titles a) (a_roles a) (a_orgs a) (a_nicks a) (a_pidmaps a) (a_empty a) (a_changed a) (a_bdaytime a).
Definition put_prodid (v : ustring) (a : addressee) : addressee :=
  mkAddressee (a_uid a) (a_name a) (a_formatted a) (a_family a) (a_given a) (a_additional a) (a_prefix a) (a_suffix a) (a_birthday a) (a_mailer a) (a_tz a) (a_geo a) (a_department a) (a_note a) v (a_revision a) (a_sortstring a) (a_secrecy a) (a_logo a) (a_photo a) (a_sound a) (a_deathdate a) (a_phones a) (a_addresses a) (a_keys a) (a_emails a) (a_langs a) (a_impps a) (a_gender a) (a_kind a) (a_categories a) (a_customs a) (a_calurls a) (a_xsounds a) (a_xphotos a) (a_xlogos a) (a_urls a) (a_sources a) (a_members a) (a_related a) (a_fgroups a) (a_titles a) (a_roles a) (a_orgs a) (a_nicks a) (a_pidmaps a) (a_empty a) (a_changed a) (a_bdaytime a).
Definition put_revision (v : datetime) (a : addressee) : addressee :=
  mkAddressee (a_uid a) (a_name a) (a_formatted a) (a_family a) (a_given a) (a_additional a) (a_prefix a) (a_suffix a) (a_birthday a) (a_mailer a) (a_tz a) (a_geo a) (a_department a) (a_note a) (a_prodid a) v (a_sortstring a) (a_secrecy a) (a_logo a) (a_photo a) (a_sound a) (a_deathdate a) (a_phones a) (a_addresses a) (a_keys a) (a_emails a) (a_langs a) (a_impps a) (a_gender a) (a_kind a) (a_categories a) (a_customs a) (a_calurls a) (a_xsounds a) (a_xphotos a) (a_xlogos a) (a_urls a) (a_sources a) (a_members a) (a_related a) (a_fgroups a) (a_titles a) (a_roles a) (a_orgs a) (a_nicks a) (a_pidmaps a) (a_empty a) (a_changed a) (a_bdaytime a).
Definition put_sortstring (v : ustring) (a : addressee) : addressee :=
  mkAddressee (a_uid a) (a_name a) (a_formatted a) (a_family a) (a_given a) (a_additional a) (a_prefix a) (a_suffix a) (a_birthday a) (a_mailer a) (a_tz a) (a_geo a) (a_department a) (a_note a) (a_prodid a) (a_revision a) v (a_secrecy a) (a_logo a) (a_photo a) (a_sound a) (a_deathdate a) (a_phones a) (a_addresses a) (a_keys a) (a_emails a) (a_langs a) (a_impps a) (a_gender a) (a_kind a) (a_categories a) (a_customs a) (a_calurls a) (a_xsounds a) (a_xphotos a) (a_xlogos a) (a_urls a) (a_sources a) (a_members a) (a_related a) (a_fgroups a) (a_titles a) (a_roles a) (a_orgs a) (a_nicks a) (a_pidmaps a) (a_empty a) (a_changed a) (a_bdaytime a).
Definition put_secrecy (v : secrecy) (a : addressee) : addressee :=
  mkAddressee (a_uid a) (a_name a) (a_formatted a) (a_family a) (a_given a) (a_additional a) (a_prefix a) (a_suffix a) (a_birthday a) (a_mailer a) (a_tz a) (a_geo a) (a_department a) (a_note a) (a_prodid a) (a_revision a) (a_sortstring a) v (a_logo a) (a_photo a) (a_sound a) (a_deathdate a) (a_phones a) (a_addresses a) (a_keys a) (a_emails a) (a_langs a) (a_impps a) (a_gender a) (a_kind a) (a_categories a) (a_customs a) (a_calurls a) (a_xsounds a) (a_xphotos a) (a_xlogos a) (a_urls a) (a_sources a) (a_members a) (a_related a) (a_fgroups a) (a_titles a) (a_roles a) (a_orgs a) (a_nicks a) (a_pidmaps a) (a_empty a) (a_changed a) (a_bdaytime a).
Definition put_logo (v : picture) (a : addressee) : addressee :=
  mkAddressee (a_uid a) (a_name a) (a_formatted a) (a_family a) (a_given a) (a_additional a) (a_prefix a) (a_suffix a) (a_birthday a) (a_mailer a) (a_tz a) (a_geo a) (a_department a) (a_note a) (a_prodid a) (a_revision a) (a_sortstring a) (a_secrecy a) v (a_photo a) (a_sound a) (a_deathdate a) (a_phones a) (a_addresses a) (a_keys a) (a_emails a) (a_langs a) (a_impps a) (a_gender a) (a_kind a) (a_categories a) (a_customs a) (a_calurls a) (a_xsounds a) (a_xphotos a) (a_xlogos a) (a_urls a) (a_sources a) (a_members a) (a_related a) (a_fgroups a) (a_titles a) (a_roles a) (a_orgs a) (a_nicks a) (a_pidmaps a) (a_empty a) (a_changed a) (a_bdaytime a).
Definition put_photo (v : picture) (a : addressee) : addressee :=
  mkAddressee (a_uid a) (a_name a) (a_formatted a) (a_family a) (a_given a) (a_additional a) (a_prefix a) (a_suffix a) (a_birthday a) (a_mailer a) (a_tz a) (a_geo a) (a_department a) (a_note a) (a_prodid a) (a_revision a) (a_sortstring a) (a_secrecy a) (a_logo a) v (a_sound a) (a_deathdate a) (a_phones a) (a_addresses a) (a_keys a) (a_emails a) (a_langs a) (a_impps a) (a_gender a) (a_kind a) (a_categories a) (a_customs a) (a_calurls a) (a_xsounds a) (a_xphotos a) (a_xlogos a) (a_urls a) (a_sources a) (a_members a) (a_related a) (a_fgroups a) (a_titles a) (a_roles a) (a_orgs a) (a_nicks a) (a_pidmaps a) (a_empty a) (a_changed a) (a_bdaytime a).
Definition put_sound (v : sound) (a : addressee) : addressee :=
  mkAddressee (a_uid a) (a_name a) (a_formatted a) (a_family a) (a_given a) (a_additional a) (a_prefix a) (a_suffix a) (a_birthday a) (a_mailer a) (a_tz a) (a_geo a) (a_department a) (a_note a) (a_prodid a) (a_revision a) (a_sortstring a) (a_secrecy a) (a_logo a) (a_photo a) v (a_deathdate a) (a_phones a) (a_addresses a) (a_keys a) (a_emails a) (a_langs a) (a_impps a) (a_gender a) (a_kind a) (a_categories a) (a_customs a) (a_calurls a) (a_xsounds a) (a_xphotos a) (a_xlogos a) (a_urls a) (a_sources a) (a_members a) (a_related a) (a_fgroups a) (a_titles a) (a_roles a) (a_orgs a) (a_nicks a) (a_pidmaps a) (a_empty a) (a_changed a) (a_bdaytime a).
Definition put_deathdate (v : datetime) (a : addressee) : addressee :=
  mkAddressee (a_uid a) (a_name a) (a_formatted a) (a_family a) (a_given a) (a_additional a) (a_prefix a) (a_suffix a) (a_birthday a) (a_mailer a) (a_tz a) (a_geo a) (a_department a) (a_note a) (a_prodid a) (a_revision a) (a_sortstring a) (a_secrecy a) (a_logo a) (a_photo a) (a_sound a) v (a_phones a) (a_addresses a) (a_keys a) (a_emails a) (a_langs a) (a_impps a) (a_gender a) (a_kind a) (a_categories a) (a_customs a) (a_calurls a) (a_xsounds a) (a_xphotos a) (a_xlogos a) (a_urls a) (a_sources a) (a_members a) (a_related a) (a_fgroups a) (a_titles a) (a_roles a) (a_orgs a) (a_nicks a) (a_pidmaps a) (a_empty a) (a_changed a) (a_bdaytime a).
Definition put_phones (v : list phone) (a : addressee) : addressee :=
  mkAddressee (a_uid a) (a_name a) (a_formatted a) (a_family a) (a_given a) (a_additional a) (a_prefix a) (a_suffix a) (a_birthday a) (a_mailer a) (a_tz a) (a_geo a) (a_department a) (a_note a) (a_prodid a) (a_revision a) (a_sortstring a) (a_secrecy a) (a_logo a) (a_photo a) (a_sound a) (a_deathdate a) v (a_addresses a) (a_keys a) (a_emails a) (a_langs a) (a_impps a) (a_gender a) (a_kind a) (a_categories a) (a_customs a) (a_calurls a) (a_xsounds a) (a_xphotos a) (a_xlogos a) (a_urls a) (a_sources a) (a_members a) (a_related a) (a_fgroups a) (a_titles a) (a_roles a) (a_orgs a) (a_nicks a) (a_pidmaps a) (a_empty a) (a_changed a) (a_bdaytime a).
Definition put_addresses (v : list address) (a : addressee) : addressee :=
  mkAddressee (a_uid a) (a_name a) (a_formatted a) (a_family a) (a_given a) (a_additional a) (a_prefix a) (a_suffix a) (a_birthday a) (a_mailer a) (a_tz a) (a_geo a) (a_department a) (a_note a) (a_prodid a) (a_revision a) (a_sortstring a) (a_secrecy a) (a_logo a) (a_photo a) (a_sound a) (a_deathdate a) (a_phones a) v (a_keys a) (a_emails a) (a_langs a) (a_impps a) (a_gender a) (a_kind a) (a_categories a) (a_customs a) (a_calurls a) (a_xsounds a) (a_xphotos a) (a_xlogos a) (a_urls a) (a_sources a) (a_members a) (a_related a) (a_fgroups a) (a_titles a) (a_roles a) (a_orgs a) (a_nicks a) (a_pidmaps a) (a_empty a) (a_changed a) (a_bdaytime a).
Definition put_keys (v : list key) (a : addressee) : addressee :=
  mkAddressee (a_uid a) (a_name a) (a_formatted a) (a_family a) (a_given a) (a_additional a) (a_prefix a) (a_suffix a) (a_birthday a) (a_mailer a) (a_tz a) (a_geo a) (a_department a) (a_note a) (a_prodid a) (a_revision a) (a_sortstring a) (a_secrecy a) (a_logo a) (a_photo a) (a_sound a) (a_deathdate a) (a_phones a) (a_addresses a) v (a_emails a) (a_langs a) (a_impps a) (a_gender a) (a_kind a) (a_categories a) (a_customs a) (a_calurls a) (a_xsounds a) (a_xphotos a) (a_xlogos a) (a_urls a) (a_sources a) (a_members a) (a_related a) (a_fgroups a) (a_titles a) (a_roles a) (a_orgs a) (a_nicks a) (a_pidmaps a) (a_empty a) (a_changed a) (a_bdaytime a).
Definition put_emails (v : list email) (a : addressee) : addressee :=
  mkAddressee (a_uid a) (a_name a) (a_formatted a) (a_family a) (a_given a) (a_additional a) (a_prefix a) (a_suffix a) (a_birthday a) (a_mailer a) (a_tz a) (a_geo a) (a_department a) (a_note a) (a_prodid a) (a_revision a) (a_sortstring a) (a_secrecy a) (a_logo a) (a_photo a) (a_sound a) (a_deathdate a) (a_phones a) (a_addresses a) (a_keys a) v (a_langs a) (a_impps a) (a_gender a) (a_kind a) (a_categories a) (a_customs a) (a_calurls a) (a_xsounds a) (a_xphotos a) (a_xlogos a) (a_urls a) (a_sources a) (a_members a) (a_related a) (a_fgroups a) (a_titles a) (a_roles a) (a_orgs a) (a_nicks a) (a_pidmaps a) (a_empty a) (a_changed a) (a_bdaytime a).
Definition put_langs (v : list ptext) (a : addressee) : addressee :=
  mkAddressee (a_uid a) (a_name a) (a_formatted a) (a_family a) (a_given a) (a_additional a) (a_prefix a) (a_suffix a) (a_birthday a) (a_mailer a) (a_tz a) (a_geo a) (a_department a) (a_note a) (a_prodid a) (a_revision a) (a_sortstring a) (a_secrecy a) (a_logo a) (a_photo a) (a_sound a) (a_deathdate a) (a_phones a) (a_addresses a) (a_keys a) (a_emails a) v (a_impps a) (a_gender a) (a_kind a) (a_categories a) (a_customs a) (a_calurls a) (a_xsounds a) (a_xphotos a) (a_xlogos a) (a_urls a) (a_sources a) (a_members a) (a_related a) (a_fgroups a) (a_titles a) (a_roles a) (a_orgs a) (a_nicks a) (a_pidmaps a) (a_empty a) (a_changed a) (a_bdaytime a).
Definition put_impps (v : list impp) (a : addressee) : addressee :=
  mkAddressee (a_uid a) (a_name a) (a_formatted a) (a_family a) (a_given a) (a_additional a) (a_prefix a) (a_suffix a) (a_birthday a) (a_mailer a) (a_tz a) (a_geo a) (a_department a) (a_note a) (a_prodid a) (a_revision a) (a_sortstring a) (a_secrecy a) (a_logo a) (a_photo a) (a_sound a) (a_deathdate a) (a_phones a) (a_addresses a) (a_keys a) (a_emails a) (a_langs a) v (a_gender a) (a_kind a) (a_categories a) (a_customs a) (a_calurls a) (a_xsounds a) (a_xphotos a) (a_xlogos a) (a_urls a) (a_sources a) (a_members a) (a_related a) (a_fgroups a) (a_titles a) (a_roles a) (a_orgs a) (a_nicks a) (a_pidmaps a) (a_empty a) (a_changed a) (a_bdaytime a).
Definition put_gender (v : gender) (a : addressee) : addressee :=
  mkAddressee (a_uid a) (a_name a) (a_formatted a) (a_family a) (a_given a) (a_additional a) (a_prefix a) (a_suffix a) (a_birthday a) (a_mailer a) (a_tz a) (a_geo a) (a_department a) (a_note a) (a_prodid a) (a_revision a) (a_sortstring a) (a_secrecy a) (a_logo a) (a_photo a) (a_sound a) (a_deathdate a) (a_phones a) (a_addresses a) (a_keys a) (a_emails a) (a_langs a) (a_impps a) v (a_kind a) (a_categories a) (a_customs a) (a_calurls a) (a_xsounds a) (a_xphotos a) (a_xlogos a) (a_urls a) (a_sources a) (a_members a) (a_related a) (a_fgroups a) (a_titles a) (a_roles a) (a_orgs a) (a_nicks a) (a_pidmaps a) (a_empty a) (a_changed a) (a_bdaytime a).
Definition put_kind (v : ustring) (a : addressee) : addressee :=
  mkAddressee (a_uid a) (a_name a) (a_formatted a) (a_family a) (a_given a) (a_additional a) (a_prefix a) (a_suffix a) (a_birthday a) (a_mailer a) (a_tz a) (a_geo a) (a_department a) (a_note a) (a_prodid a) (a_revision a) (a_sortstring a) (a_secrecy a) (a_logo a) (a_photo a) (a_sound a) (a_deathdate a) (a_phones a) (a_addresses a) (a_keys a) (a_emails a) (a_langs a) (a_impps a) (a_gender a) v (a_categories a) (a_customs a) (a_calurls a) (a_xsounds a) (a_xphotos a) (a_xlogos a) (a_urls a) (a_sources a) (a_members a) (a_related a) (a_fgroups a) (a_titles a) (a_roles a) (a_orgs a) (a_nicks a) (a_pidmaps a) (a_empty a) (a_changed a) (a_bdaytime a).
Definition put_categories (v : list ustring) (a : addressee) : addressee :=
  mkAddressee (a_uid a) (a_name a) (a_formatted a) (a_family a) (a_given a) (a_additional a) (a_prefix a) (a_suffix a) (a_birthday a) (a_mailer a) (a_tz a) (a_geo a) (a_department a) (a_note a) (a_prodid a) (a_revision a) (a_sortstring a) (a_secrecy a) (a_logo a) (a_photo a) (a_sound a) (a_deathdate a) (a_phones a) (a_addresses a) (a_keys a) (a_emails a) (a_langs a) (a_impps a) (a_gender a) (a_kind a) v (a_customs a) (a_calurls a) (a_xsounds a) (a_xphotos a) (a_xlogos a) (a_urls a) (a_sources a) (a_members a) (a_related a) (a_fgroups a) (a_titles a) (a_roles a) (a_orgs a) (a_nicks a) (a_pidmaps a) (a_empty a) (a_changed a) (a_bdaytime a).
Definition put_customs (v : list (ustring * ustring)) (a : addressee) : addressee :=
  mkAddressee (a_uid a) (a_name a) (a_formatted a) (a_family a) (a_given a) (a_additional a) (a_prefix a) (a_suffix a) (a_birthday a) (a_mailer a) (a_tz a) (a_geo a) (a_department a) (a_note a) (a_prodid a) (a_revision a) (a_sortstring a) (a_secrecy a) (a_logo a) (a_photo a) (a_sound a) (a_deathdate a) (a_phones a) (a_addresses a) (a_keys a) (a_emails a) (a_langs a) (a_impps a) (a_gender a) (a_kind a) (a_categories a) v (a_calurls a) (a_xsounds a) (a_xphotos a) (a_xlogos a) (a_urls a) (a_sources a) (a_members a) (a_related a) (a_fgroups a) (a_titles a) (a_roles a) (a_orgs a) (a_nicks a) (a_pidmaps a) (a_empty a) (a_changed a) (a_bdaytime a).
Definition put_calurls (v : list calurl) (a : addressee) : addressee :=
  mkAddressee (a_uid a) (a_name a) (a_formatted a) (a_family a) (a_given a) (a_additional a) (a_prefix a) (a_suffix a) (a_birthday a) (a_mailer a) (a_tz a) (a_geo a) (a_department a) (a_note a) (a_prodid a) (a_revision a) (a_sortstring a) (a_secrecy a) (a_logo a) (a_photo a) (a_sound a) (a_deathdate a) (a_phones a) (a_addresses a) (a_keys a) (a_emails a) (a_langs a) (a_impps a) (a_gender a) (a_kind a) (a_categories a) (a_customs a) v (a_xsounds a) (a_xphotos a) (a_xlogos a) (a_urls a) (a_sources a) (a_members a) (a_related a) (a_fgroups a) (a_titles a) (a_roles a) (a_orgs a) (a_nicks a) (a_pidmaps a) (a_empty a) (a_changed a) (a_bdaytime a).
Definition put_xsounds (v : list sound) (a : addressee) : addressee :=
  mkAddressee (a_uid a) (a_name a) (a_formatted a) (a_family a) (a_given a) (a_additional a) (a_prefix a) (a_suffix a) (a_birthday a) (a_mailer a) (a_tz a) (a_geo a) (a_department a) (a_note a) (a_prodid a) (a_revision a) (a_sortstring a) (a_secrecy a) (a_logo a) (a_photo a) (a_sound a) (a_deathdate a) (a_phones a) (a_addresses a) (a_keys a) (a_emails a) (a_langs a) (a_impps a) (a_gender a) (a_kind a) (a_categories a) (a_customs a) (a_calurls a) v (a_xphotos a) (a_xlogos a) (a_urls a) (a_sources a) (a_members a) (a_related a) (a_fgroups a) (a_titles a) (a_roles a) (a_orgs a) (a_nicks a) (a_pidmaps a) (a_empty a) (a_changed a) (a_bdaytime a).
Definition put_xphotos (v : list picture) (a : addressee) : addressee :=
  mkAddressee (a_uid a) (a_name a) (a_formatted a) (a_family a) (a_given a) (a_additional a) (a_prefix a) (a_suffix a) (a_birthday a) (a_mailer a) (a_tz a) (a_geo a) (a_department a) (a_note a) (a_prodid a) (a_revision a) (a_sortstring a) (a_secrecy a) (a_logo a) (a_photo a) (a_sound a) (a_deathdate a) (a_phones a) (a_addresses a) (a_keys a) (a_emails a) (a_langs a) (a_impps a) (a_gender a) (a_kind a) (a_categories a) (a_customs a) (a_calurls a) (a_xsounds a) v (a_xlogos a) (a_urls a) (a_sources a) (a_members a) (a_related a) (a_fgroups a) (a_titles a) (a_roles a) (a_orgs a) (a_nicks a) (a_pidmaps a) (a_empty a) (a_changed a) (a_bdaytime a).
Definition put_xlogos (v : list picture) (a : addressee) : addressee :=
  mkAddressee (a_uid a) (a_name a) (a_formatted a) (a_family a) (a_given a) (a_additional a) (a_prefix a) (a_suffix a) (a_birthday a) (a_mailer a) (a_tz a) (a_geo a) (a_department a) (a_note a) (a_prodid a) (a_revision a) (a_sortstring a) (a_secrecy a) (a_logo a) (a_photo a) (a_sound a) (a_deathdate a) (a_phones a) (a_addresses a) (a_keys a) (a_emails a) (a_langs a) (a_impps a) (a_gender a) (a_kind a) (a_categories a) (a_customs a) (a_calurls a) (a_xsounds a) (a_xphotos a) v (a_urls a) (a_sources a) (a_members a) (a_related a) (a_fgroups a) (a_titles a) (a_roles a) (a_orgs a) (a_nicks a) (a_pidmaps a) (a_empty a) (a_changed a) (a_bdaytime a).
Definition put_urls (v : list rurl) (a : addressee) : addressee :=
  mkAddressee (a_uid a) (a_name a) (a_formatted a) (a_family a) (a_given a) (a_additional a) (a_prefix a) (a_suffix a) (a_birthday a) (a_mailer a) (a_tz a) (a_geo a) (a_department a) (a_note a) (a_prodid a) (a_revision a) (a_sortstring a) (a_secrecy a) (a_logo a) (a_photo a) (a_sound a) (a_deathdate a) (a_phones a) (a_addresses a) (a_keys a) (a_emails a) (a_langs a) (a_impps a) (a_gender a) (a_kind a) (a_categories a) (a_customs a) (a_calurls a) (a_xsounds a) (a_xphotos a) (a_xlogos a) v (a_sources a) (a_members a) (a_related a) (a_fgroups a) (a_titles a) (a_roles a) (a_orgs a) (a_nicks a) (a_pidmaps a) (a_empty a) (a_changed a) (a_bdaytime a).
Definition put_sources (v : list qurl) (a : addressee) : addressee :=
  mkAddressee (a_uid a) (a_name a) (a_formatted a) (a_family a) (a_given a) (a_additional a) (a_prefix a) (a_suffix a) (a_birthday a) (a_mailer a) (a_tz a) (a_geo a) (a_department a) (a_note a) (a_prodid a) (a_revision a) (a_sortstring a) (a_secrecy a) (a_logo a) (a_photo a) (a_sound a) (a_deathdate a) (a_phones a) (a_addresses a) (a_keys a) (a_emails a) (a_langs a) (a_impps a) (a_gender a) (a_kind a) (a_categories a) (a_customs a) (a_calurls a) (a_xsounds a) (a_xphotos a) (a_xlogos a) (a_urls a) v (a_members a) (a_related a) (a_fgroups a) (a_titles a) (a_roles a) (a_orgs a) (a_nicks a) (a_pidmaps a) (a_empty a) (a_changed a) (a_bdaytime a).
Definition put_members (v : list ustring) (a : addressee) : addressee :=
  mkAddressee (a_uid a) (a_name a) (a_formatted a) (a_family a) (a_given a) (a_additional a) (a_prefix a) (a_suffix a) (a_birthday a) (a_mailer a) (a_tz a) (a_geo a) (a_department a) (a_note a) (a_prodid a) (a_revision a) (a_sortstring a) (a_secrecy a) (a_logo a) (a_photo a) (a_sound a) (a_deathdate a) (a_phones a) (a_addresses a) (a_keys a) (a_emails a) (a_langs a) (a_impps a) (a_gender a) (a_kind a) (a_categories a) (a_customs a) (a_calurls a) (a_xsounds a) (a_xphotos a) (a_xlogos a) (a_urls a) (a_sources a) v (a_related a) (a_fgroups a) (a_titles a) (a_roles a) (a_orgs a) (a_nicks a) (a_pidmaps a) (a_empty a) (a_changed a) (a_bdaytime a).
Definition put_related (v : list ptext) (a : addressee) : addressee :=
  mkAddressee (a_uid a) (a_name a) (a_formatted a) (a_family a) (a_given a) (a_additional a) (a_prefix a) (a_suffix a) (a_birthday a) (a_mailer a) (a_tz a) (a_geo a) (a_department a) (a_note a) (a_prodid a) (a_revision a) (a_sortstring a) (a_secrecy a) (a_logo a) (a_photo a) (a_sound a) (a_deathdate a) (a_phones a) (a_addresses a) (a_keys a) (a_emails a) (a_langs a) (a_impps a) (a_gender a) (a_kind a) (a_categories a) (a_customs a) (a_calurls a) (a_xsounds a) (a_xphotos a) (a_xlogos a) (a_urls a) (a_sources a) (a_members a) v (a_fgroups a) (a_titles a) (a_roles a) (a_orgs a) (a_nicks a) (a_pidmaps a) (a_empty a) (a_changed a) (a_bdaytime a).
Definition put_fgroups (v : list fgroup) (a : addressee) : addressee :=
  mkAddressee (a_uid a) (a_name a) (a_formatted a) (a_family a) (a_given a) (a_additional a) (a_prefix a) (a_suffix a) (a_birthday a) (a_mailer a) (a_tz a) (a_geo a) (a_department a) (a_note a) (a_prodid a) (a_revision a) (a_sortstring a) (a_secrecy a) (a_logo a) (a_photo a) (a_sound a) (a_deathdate a) (a_phones a) (a_addresses a) (a_keys a) (a_emails a) (a_langs a) (a_impps a) (a_gender a) (a_kind a) (a_categories a) (a_customs a) (a_calurls a) (a_xsounds a) (a_xphotos a) (a_xlogos a) (a_urls a) (a_sources a) (a_members a) (a_related a) v (a_titles a) (a_roles a) (a_orgs a) (a_nicks a) (a_pidmaps a) (a_empty a) (a_changed a) (a_bdaytime a).
Definition put_titles (v : list ptext) (a : addressee) : addressee :=
  mkAddressee (a_uid a) (a_name a) (a_formatted a) (a_family a) (a_given a) (a_additional a) (a_prefix a) (a_suffix a) (a_birthday a) (a_mailer a) (a_tz a) (a_geo a) (a_department a) (a_note a) (a_prodid a) (a_revision a) (a_sortstring a) (a_secrecy a) (a_logo a) (a_photo a) (a_sound a) (a_deathdate a) (a_phones a) (a_addresses a) (a_keys a) (a_emails a) (a_langs a) (a_impps a) (a_gender a) (a_kind a) (a_categories a) (a_customs a) (a_calurls a) (a_xsounds a) (a_xphotos a) (a_xlogos a) (a_urls a) (a_sources a) (a_members a) (a_related a) (a_fgroups a) v (a_roles a) (a_orgs a) (a_nicks a) (a_pidmaps a) (a_empty a) (a_changed a) (a_bdaytime a).
Definition put_roles (v : list ptext) (a : addressee) : addressee :=
  mkAddressee (a_uid a) (a_name a) (a_formatted a) (a_family a) (a_given a) (a_additional a) (a_prefix a) (a_suffix a) (a_birthday a) (a_mailer a) (a_tz a) (a_geo a) (a_department a) (a_note a) (a_prodid a) (a_revision a) (a_sortstring a) (a_secrecy a) (a_logo a) (a_photo a) (a_sound a) (a_deathdate a) (a_phones a) (a_addresses a) (a_keys a) (a_emails a) (a_langs a) (a_impps a) (a_gender a) (a_kind a) (a_categories a) (a_customs a) (a_calurls a) (a_xsounds a) (a_xphotos a) (a_xlogos a) (a_urls a) (a_sources a) (a_members a) (a_related a) (a_fgroups a) (a_titles a) v (a_orgs a) (a_nicks a) (a_pidmaps a) (a_empty a) (a_changed a) (a_bdaytime a).
Definition put_orgs (v : list ptext) (a : addressee) : addressee :=
  mkAddressee (a_uid a) (a_name a) (a_formatted a) (a_family a) (a_given a) (a_additional a) (a_prefix a) (a_suffix a) (a_birthday a) (a_mailer a) (a_tz a) (a_geo a) (a_department a) (a_note a) (a_prodid a) (a_revision a) (a_sortstring a) (a_secrecy a) (a_logo a) (a_photo a) (a_sound a) (a_deathdate a) (a_phones a) (a_addresses a) (a_keys a) (a_emails a) (a_langs a) (a_impps a) (a_gender a) (a_kind a) (a_categories a) (a_customs a) (a_calurls a) (a_xsounds a) (a_xphotos a) (a_xlogos a) (a_urls a) (a_sources a) (a_members a) (a_related a) (a_fgroups a) (a_titles a) (a_roles a) v (a_nicks a) (a_pidmaps a) (a_empty a) (a_changed a) (a_bdaytime a).
Definition put_nicks (v : list ptext) (a : addressee) : addressee :=
  mkAddressee (a_uid a) (a_name a) (a_formatted a) (a_family a) (a_given a) (a_additional a) (a_prefix a) (a_suffix a) (a_birthday a) (a_mailer a) (a_tz a) (a_geo a) (a_department a) (a_note a) (a_prodid a) (a_revision a) (a_sortstring a) (a_secrecy a) (a_logo a) (a_photo a) (a_sound a) (a_deathdate a) (a_phones a) (a_addresses a) (a_keys a) (a_emails a) (a_langs a) (a_impps a) (a_gender a) (a_kind a) (a_categories a) (a_customs a) (a_calurls a) (a_xsounds a) (a_xphotos a) (a_xlogos a) (a_urls a) (a_sources a) (a_members a) (a_related a) (a_fgroups a) (a_titles a) (a_roles a) (a_orgs a) v (a_pidmaps a) (a_empty a) (a_changed a) (a_bdaytime a).
Definition put_pidmaps (v : list ptext) (a : addressee) : addressee :=
  mkAddressee (a_uid a) (a_name a) (a_formatted a) (a_family a) (a_given a) (a_additional a) (a_prefix a) (a_suffix a) (a_birthday a) (a_mailer a) (a_tz a) (a_geo a) (a_department a) (a_note a) (a_prodid a) (a_revision a) (a_sortstring a) (a_secrecy a) (a_logo a) (a_photo a) (a_sound a) (a_deathdate a) (a_phones a) (a_addresses a) (a_keys a) (a_emails a) (a_langs a) (a_impps a) (a_gender a) (a_kind a) (a_categories a) (a_customs a) (a_calurls a) (a_xsounds a) (a_xphotos a) (a_xlogos a) (a_urls a) (a_sources a) (a_members a) (a_related a) (a_fgroups a) (a_titles a) (a_roles a) (a_orgs a) (a_nicks a) v (a_empty a) (a_changed a) (a_bdaytime a).
Definition put_empty (v : bool) (a : addressee) : addressee :=
  mkAddressee (a_uid a) (a_name a) (a_formatted a) (a_family a) (a_given a) (a_additional a) (a_prefix a) (a_suffix a) (a_birthday a) (a_mailer a) (a_tz a) (a_geo a) (a_department a) (a_note a) (a_prodid a) (a_revision a) (a_sortstring a) (a_secrecy a) (a_logo a) (a_photo a) (a_sound a) (a_deathdate a) (a_phones a) (a_addresses a) (a_keys a) (a_emails a) (a_langs a) (a_impps a) (a_gender a) (a_kind a) (a_categories a) (a_customs a) (a_calurls a) (a_xsounds a) (a_xphotos a) (a_xlogos a) (a_urls a) (a_sources a) (a_members a) (a_related a) (a_fgroups a) (a_titles a) (a_roles a) (a_orgs a) (a_nicks a) (a_pidmaps a) v (a_changed a) (a_bdaytime a).
Definition put_changed (v : bool) (a : addressee) : addressee :=
  mkAddressee (a_uid a) (a_name a) (a_formatted a) (a_family a) (a_given a) (a_additional a) (a_prefix a) (a_suffix a) (a_birthday a) (a_mailer a) (a_tz a) (a_geo a) (a_department a) (a_note a) (a_prodid a) (a_revision a) (a_sortstring a) (a_secrecy a) (a_logo a) (a_photo a) (a_sound a) (a_deathdate a) (a_phones a) (a_addresses a) (a_keys a) (a_emails a) (a_langs a) (a_impps a) (a_gender a) (a_kind a) (a_categories a) (a_customs a) (a_calurls a) (a_xsounds a) (a_xphotos a) (a_xlogos a) (a_urls a) (a_sources a) (a_members a) (a_related a) (a_fgroups a) (a_titles a) (a_roles a) (a_orgs a) (a_nicks a) (a_pidmaps a) (a_empty a) v (a_bdaytime a).
Definition put_bdaytime (v : bool) (a : addressee) : addressee :=
  mkAddressee (a_uid a) (a_name a) (a_formatted a) (a_family a) (a_given a) (a_additional a) (a_prefix a) (a_suffix a) (a_birthday a) (a_mailer a) (a_tz a) (a_geo a) (a_department a) (a_note a) (a_prodid a) (a_revision a) (a_sortstring a) (a_secrecy a) (a_logo a) (a_photo a) (a_sound a) (a_deathdate a) (a_phones a) (a_addresses a) (a_keys a) (a_emails a) (a_langs a) (a_impps a) (a_gender a) (a_kind a) (a_categories a) (a_customs a) (a_calurls a) (a_xsounds a) (a_xphotos a) (a_xlogos a) (a_urls a) (a_sources a) (a_members a) (a_related a) (a_fgroups a) (a_titles a) (a_roles a) (a_orgs a) (a_nicks a) (a_pidmaps a) (a_empty a) (a_changed a) v.
(** [d->mEmpty = false] *)
Definition touch (a : addressee) : addressee := put_empty false a.

(** ** Text members.  Each setter returns at once if the value is unchanged,
    otherwise it clears the empty flag and assigns. *)
Definition guarded {T} (same : bool) (put : T -> addressee -> addressee) (v : T) (a : addressee) : addressee :=
  if same then a else put v (touch a).
Definition set_text (get : addressee -> ustring) (put : ustring -> addressee -> addressee)
    (v : ustring) (a : addressee) : addressee := guarded (leqb v (get a)) put v a.
(** addressee.cpp:445-453 *)
Definition set_uid := set_text a_uid put_uid.
(** addressee.cpp:465-473 *)
Definition set_name := set_text a_name put_name.
(** addressee.cpp:485-493 *)
Definition set_kind := set_text a_kind put_kind.
(** addressee.cpp:661-669 *)
Definition set_formatted := set_text a_formatted put_formatted.
(** addressee.cpp:681-689 *)
Definition set_family := set_text a_family put_family.
(** addressee.cpp:701-709 *)
Definition set_given := set_text a_given put_given.
(** addressee.cpp:721-729 *)
Definition set_additional := set_text a_additional put_additional.
(** addressee.cpp:741-749 *)
Definition set_prefix := set_text a_prefix put_prefix.
(** addressee.cpp:761-769 *)
Definition set_suffix := set_text a_suffix put_suffix.
(** addressee.cpp:1002-1010 *)
Definition set_mailer := set_text a_mailer put_mailer.
(** addressee.cpp:1215-1223 *)
Definition set_department := set_text a_department put_department.
(** addressee.cpp:1235-1243 *)
Definition set_note := set_text a_note put_note.
(** addressee.cpp:1255-1263 *)
Definition set_prodid := set_text a_prodid put_prodid.
(** addressee.cpp:1295-1303 *)
Definition set_sortstring := set_text a_sortstring put_sortstring.

(** ** Other single values *)

(** [setBirthday(const QDateTime &, bool)], addressee.cpp:832-844 *)
Definition set_birthday (V : Env) (b : datetime) (withTime : bool) (a : addressee) : addressee :=
  if dt_eq V b (a_birthday a) && Bool.eqb (a_bdaytime a) withTime then a
  else put_bdaytime withTime
         (put_birthday (if withTime then b else dt_set_time None b) (touch a)).
Definition date_eqb (a b : option date) : bool :=
  match a, b with
  | None, None => true
  | Some x, Some y => Z.eqb (d_year x) (d_year y) && Z.eqb (d_month x) (d_month y) && Z.eqb (d_day x) (d_day y)
  | _, _ => false
  end.
(** [setBirthday(const QDate &)], addressee.cpp:846-855 *)
Definition set_birthday_date (b : option date) (a : addressee) : addressee :=
  if date_eqb b (dt_date (a_birthday a)) && negb (a_bdaytime a) then a
  else put_bdaytime false (put_birthday (mk_dt b None TLocal) (touch a)).
(** addressee.cpp:862-870 *)
Definition set_deathdate (V : Env) (d : datetime) (a : addressee) : addressee :=
  guarded (dt_eq V d (a_deathdate a)) put_deathdate d a.
(** addressee.cpp:1275-1283 *)
Definition set_revision (V : Env) (d : datetime) (a : addressee) : addressee :=
  guarded (dt_eq V d (a_revision a)) put_revision d a.
(** addressee.cpp:1022-1030 *)
Definition set_tz (t : tzone) (a : addressee) : addressee := guarded (tz_eq t (a_tz a)) put_tz t a.
(** addressee.cpp:1042-1050 *)
Definition set_geo (g : geo) (a : addressee) : addressee := guarded (geo_eq g (a_geo a)) put_geo g a.
(** addressee.cpp:1341-1349 *)
Definition set_secrecy (s : secrecy) (a : addressee) : addressee :=
  guarded (secrecy_eq s (a_secrecy a)) put_secrecy s a.
(** addressee.cpp:1361-1369 *)
Definition set_logo (V : Env) (p : picture) (a : addressee) : addressee :=
  guarded (picture_eq (env_img V) p (a_logo a)) put_logo p a.
(** addressee.cpp:1381-1389 *)
Definition set_photo (V : Env) (p : picture) (a : addressee) : addressee :=
  guarded (picture_eq (env_img V) p (a_photo a)) put_photo p a.
(** addressee.cpp:1401-1409 *)
Definition set_sound (s : sound) (a : addressee) : addressee := guarded (sound_eq s (a_sound a)) put_sound s a.
(** addressee.cpp:1755-1763 *)
Definition set_gender (g : gender) (a : addressee) : addressee := guarded (gender_eq g (a_gender a)) put_gender g a.

(** ** Lists that are only appended to or replaced *)

(** addressee.cpp:500-504, 511-515, 522-526 *)
Definition insert_xsound (s : sound) (a : addressee) := put_xsounds (a_xsounds a ++ [s]) (touch a).
Definition insert_xphoto (p : picture) (a : addressee) := put_xphotos (a_xphotos a ++ [p]) (touch a).
Definition insert_xlogo (p : picture) (a : addressee) := put_xlogos (a_xlogos a ++ [p]) (touch a).
(** addressee.cpp:551-557 *)
Definition insert_url (V : Env) (u : rurl) (a : addressee) :=
  if rurl_valid (env_url V) u then put_urls (a_urls a ++ [u]) (touch a) else a.
(** [setUrl(const QUrl &)], addressee.cpp:1315-1320 *)
Definition set_url (V : Env) (u : qurl) (a : addressee) := insert_url V (mkRurl [] u) a.
(** addressee.cpp:570-574 *)
Definition insert_source (u : qurl) (a : addressee) := put_sources (a_sources a ++ [u]) (touch a).
(** addressee.cpp:598-605 *)
Definition insert_fgroup (f : fgroup) (a : addressee) :=
  if fgroup_valid f then put_fgroups (a_fgroups a ++ [f]) (touch a) else a.
(** addressee.cpp:618-625 *)
Definition insert_pidmap (p : ptext) (a : addressee) :=
  if ptext_valid p then put_pidmaps (a_pidmaps a ++ [p]) (touch a) else a.
(** addressee.cpp:627-634 *)
Definition insert_impp (V : Env) (i : impp) (a : addressee) :=
  if impp_valid (env_url V) i then put_impps (a_impps a ++ [i]) (touch a) else a.
(** addressee.cpp:647-654 *)
Definition insert_calurl (V : Env) (c : calurl) (a : addressee) :=
  if calurl_valid (env_url V) c then put_calurls (a_calurls a ++ [c]) (touch a) else touch a.

(** ** Title, role, organisation, nick name: lists whose first element is the value *)

(** addressee.cpp:1080-1086, 1131-1137, 1182-1188, 799-805 *)
Definition insert_first_class (get : addressee -> list ptext) (put : list ptext -> addressee -> addressee)
    (t : ptext) (a : addressee) : addressee :=
  if ptext_valid t then put (get a ++ [t]) (touch a) else a.
(** [setTitle(const QString &)] etc., addressee.cpp:1062-1073, 1113-1124, 1164-1175, 781-792 *)
Definition set_first_text (get : addressee -> list ptext) (put : list ptext -> addressee -> addressee)
    (s : ustring) (a : addressee) : addressee :=
  match get a with
  | t :: r => touch (put (ptext_set s t :: r) a)
  | [] => insert_first_class get put (ptext_of s) a
  end.
(** [title()] etc., addressee.cpp:1088-1095, 1145-1152, 1196-1203, 818-825 *)
Definition first_text (l : list ptext) : ustring := match l with [] => [] | t :: _ => pt_text t end.
Definition insert_title := insert_first_class a_titles put_titles.
Definition insert_role := insert_first_class a_roles put_roles.
Definition insert_org := insert_first_class a_orgs put_orgs.
Definition insert_nick := insert_first_class a_nicks put_nicks.
Definition set_title := set_first_text a_titles put_titles.
Definition set_role := set_first_text a_roles put_roles.
Definition set_organization := set_first_text a_orgs put_orgs.
Definition set_nickname := set_first_text a_nicks put_nicks.
(** [setTitle(const Title &)] etc., addressee.cpp:1075-1078, 1126-1129, 1177-1180, 794-797 *)
Definition set_title_obj := insert_title.
Definition set_role_obj := insert_role.
Definition set_org_obj := insert_org.
Definition set_nick_obj := insert_nick.
Definition title (a : addressee) := first_text (a_titles a).
Definition role (a : addressee) := first_text (a_roles a).
Definition organization (a : addressee) := first_text (a_orgs a).
Definition nickname (a : addressee) := first_text (a_nicks a).

(** ** E-mail addresses *)

(** [std::find_if]: the list before the first match, the match, the list after it *)
Fixpoint find_split {A} (p : A -> bool) (l : list A) : option (list A * A * list A) :=
  match l with
  | [] => None
  | x :: r => if p x then Some ([], x, r)
              else match find_split p r with
                   | Some (b, y, t) => Some (x :: b, y, t)
                   | None => None
                   end
  end.
(** the list part of [addEmail], addressee.cpp:1640-1662 ([std::rotate] of
    [begin, it, it + 1] moves the element at [it] to the front) *)
Definition add_email_list (e : email) (l : list email) : list email :=
  match find_split (fun x => leqb (em_mail x) (em_mail e)) l with
  | Some (b, _, t) => if email_preferred e then e :: b ++ t else b ++ e :: t
  | None => if email_preferred e then e :: l else l ++ [e]
  end.
Definition has_email (m : ustring) (l : list email) : bool := existsb (fun x => leqb (em_mail x) m) l.
(** [addEmail], addressee.cpp:1640-1662 *)
Definition add_email (e : email) (a : addressee) : addressee :=
  if has_email (em_mail e) (a_emails a) then put_emails (add_email_list e (a_emails a)) a
  else put_emails (add_email_list e (a_emails a)) (touch a).
Definition remove_at {A} (i : nat) (l : list A) : list A := firstn i l ++ skipn (S i) l.
(** the loop of [removeEmail], addressee.cpp:1664-1671: [i] is increased even when
    an element has been removed.  Fuel: the number of elements left to visit. *)
Fixpoint remove_email_loop (fuel i : nat) (m : ustring) (l : list email) : list email :=
  match fuel with
  | O => l
  | S f => match nth_error l i with
           | None => l
           | Some e => if leqb (em_mail e) m then remove_email_loop f (S i) m (remove_at i l)
                       else remove_email_loop f (S i) m l
           end
  end.
Definition remove_email_list (m : ustring) (l : list email) : list email := remove_email_loop (length l) 0 m l.
Definition remove_email (m : ustring) (a : addressee) : addressee :=
  put_emails (remove_email_list m (a_emails a)) a.
(** [preferredEmail], addressee.cpp:1673-1680 *)
Definition preferred_email (a : addressee) : ustring :=
  match a_emails a with [] => [] | e :: _ => em_mail e end.
(** [emails], addressee.cpp:1682-1692 *)
Definition emails_of (a : addressee) : list ustring := map em_mail (a_emails a).
(** [setEmails], addressee.cpp:1699-1708; [setEmailList], addressee.cpp:1710-1714 *)
Definition set_emails (l : list ustring) (a : addressee) := touch (put_emails (map email_of l) a).
Definition set_email_list (l : list email) (a : addressee) := touch (put_emails l a).

(** ** Languages *)

(** the loop of [removeLang], addressee.cpp:1716-1723 *)
Fixpoint remove_lang_loop (fuel i : nat) (m : ustring) (l : list ptext) : list ptext :=
  match fuel with
  | O => l
  | S f => match nth_error l i with
           | None => l
           | Some e => if leqb (pt_text e) m then remove_lang_loop f (S i) m (remove_at i l)
                       else remove_lang_loop f (S i) m l
           end
  end.
Definition remove_lang (m : ustring) (a : addressee) : addressee :=
  put_langs (remove_lang_loop (length (a_langs a)) 0 m (a_langs a)) a.
(** [insertLang], addressee.cpp:1731-1748 *)
Definition insert_lang_list (x : ptext) (l : list ptext) : list ptext :=
  match find_split (fun y => leqb (pt_text y) (pt_text x)) l with
  | Some (b, y, t) => b ++ mkPtext (pt_params x) (pt_text y) :: t
  | None => l ++ [x]
  end.
Definition insert_lang (x : ptext) (a : addressee) : addressee :=
  if isnil (simplified (pt_text x)) then a else put_langs (insert_lang_list x (a_langs a)) (touch a).

(** ** Phone numbers, addresses, keys *)

(** replace the first match in place, else append if wanted *)
Definition replace_or {A} (p : A -> bool) (x : A) (app : bool) (l : list A) : list A :=
  match find_split p l with
  | Some (b, _, t) => b ++ x :: t
  | None => if app then l ++ [x] else l
  end.
(** remove the first match *)
Definition erase_first {A} (p : A -> bool) (l : list A) : list A :=
  match find_split p l with Some (b, _, t) => b ++ t | None => l end.
(** [insertPhoneNumber], addressee.cpp:1770-1785 *)
Definition insert_phone (p : phone) (a : addressee) : addressee :=
  put_phones (replace_or (fun q => leqb (ph_id q) (ph_id p)) p
                (negb (isnil (simplified (ph_number p)))) (a_phones a)) (touch a).
(** [removePhoneNumber], addressee.cpp:1787-1796 *)
Definition remove_phone (p : phone) (a : addressee) : addressee :=
  put_phones (erase_first (fun q => leqb (ph_id q) (ph_id p)) (a_phones a)) a.
(** [findPhoneNumber], addressee.cpp:1837-1844; [None]: the default value is returned *)
Definition find_phone (id : ustring) (a : addressee) : option phone :=
  find (fun q => leqb (ph_id q) id) (a_phones a).
(** [insertAddress], addressee.cpp:2006-2023 *)
Definition insert_address (x : address) (a : addressee) : addressee :=
  if ad_empty x then a
  else put_addresses (replace_or (fun q => leqb (ad_id q) (ad_id x)) x true (a_addresses a)) (touch a).
(** [removeAddress], addressee.cpp:2025-2033 *)
Definition remove_address (x : address) (a : addressee) : addressee :=
  put_addresses (erase_first (fun q => leqb (ad_id q) (ad_id x)) (a_addresses a)) a.
(** [findAddress], addressee.cpp:2073-2079 *)
Definition find_address (id : ustring) (a : addressee) : option address :=
  find (fun q => leqb (ad_id q) id) (a_addresses a).
(** [insertKey], addressee.cpp:1846-1858 *)
Definition insert_key (k : key) (a : addressee) : addressee :=
  put_keys (replace_or (fun q => leqb (ke_id q) (ke_id k)) k true (a_keys a)) (touch a).
(** [removeKey], addressee.cpp:1860-1866: all entries with that identifier *)
Definition remove_key (k : key) (a : addressee) : addressee :=
  put_keys (filter (fun q => negb (leqb (ke_id q) (ke_id k))) (a_keys a)) a.
(** [findKey], addressee.cpp:1924-1931 *)
Definition find_key (id : ustring) (a : addressee) : option key :=
  find (fun q => leqb (ke_id q) id) (a_keys a).

(** [matchBinaryPattern], addressee.cpp:2646-2659 *)
Definition match_pattern (value pattern : N) : bool :=
  if N.eqb pattern 0 then N.eqb value 0 else N.eqb pattern (N.land pattern value).
(** the loop of [phoneNumber(type)], addressee.cpp:1798-1813, and [address(type)],
    addressee.cpp:2041-2055: [cur] is the local variable, [blank] the test whether it
    may still be replaced *)
Fixpoint pick {A} (ty : A -> N) (pref : N) (blank : A -> bool) (t : N) (cur : A) (l : list A) : A :=
  match l with
  | [] => cur
  | x :: r => if match_pattern (ty x) t
              then if negb (N.eqb (N.land (ty x) pref) 0) then x
                   else if blank cur then pick ty pref blank t x r
                   else pick ty pref blank t cur r
              else pick ty pref blank t cur r
  end.
(** the default value is a phone number without number and with a random identifier *)
Definition phone_number (defid : ustring) (t : N) (a : addressee) : phone :=
  pick ph_type tPref (fun p => isnil (ph_number p)) t (phone_of defid [] t) (a_phones a).
Definition address_of (defid : ustring) (t : N) (a : addressee) : address :=
  pick ad_type aPref ad_empty t (address_new defid t) (a_addresses a).
(** [phoneNumbers(type)], addressee.cpp:1827-1835; [addresses(type)], addressee.cpp:2062-2071 *)
Definition phone_numbers (t : N) (a : addressee) : list phone :=
  filter (fun p => match_pattern (ph_type p) t) (a_phones a).
Definition addresses_of (t : N) (a : addressee) : list address :=
  filter (fun p => match_pattern (ad_type p) t) (a_addresses a).
(** [key(type, custom)], addressee.cpp:1868-1886, [keys(type, custom)], addressee.cpp:1899-1922 *)
Definition key_matches (t : keytype) (custom : ustring) (k : key) : bool :=
  keytype_eq (ke_type k) t
  && (if keytype_eq t KCustom then isnil custom || leqb (ke_custom k) custom else true).
Definition key_of_type (defid : ustring) (t : keytype) (custom : ustring) (a : addressee) : key :=
  match find (key_matches t custom) (a_keys a) with Some k => k | None => key_of defid [] t end.
Definition keys_of_type (t : keytype) (custom : ustring) (a : addressee) : list key :=
  filter (key_matches t custom) (a_keys a).

(** ** Categories, members, relations *)

(** [insertCategory], addressee.cpp:2081-2090; [removeCategory], addressee.cpp:2092-2097;
    [hasCategory], addressee.cpp:2099-2102; [setCategories], addressee.cpp:2104-2109 *)
Definition insert_category (c : ustring) (a : addressee) : addressee :=
  if contains c (a_categories a) then touch a else put_categories (a_categories a ++ [c]) (touch a).
Definition remove_category (c : ustring) (a : addressee) : addressee :=
  if contains c (a_categories a) then put_categories (remove_all c (a_categories a)) a else a.
Definition has_category (c : ustring) (a : addressee) : bool := contains c (a_categories a).
Definition set_categories (l : list ustring) (a : addressee) : addressee := put_categories l (touch a).
(** [insertMember], addressee.cpp:2116-2125 *)
Definition insert_member (m : ustring) (a : addressee) : addressee :=
  if contains m (a_members a) then touch a else put_members (a_members a ++ [m]) (touch a).
(** [insertRelationship], addressee.cpp:2138-2147 *)
Definition insert_related (r : ptext) (a : addressee) : addressee :=
  if existsb (fun x => ptext_eq x r) (a_related a) then touch a else put_related (a_related a ++ [r]) (touch a).

(** ** Custom fields *)

(** addressee.cpp:2277 *)
Definition qualified (app name : ustring) : ustring := app ++ 45%N :: name.
Definition find_custom (q : ustring) (l : list (ustring * ustring)) : option ustring :=
  match find (fun e => leqb (fst e) q) l with Some e => Some (snd e) | None => None end.
Fixpoint update_custom (q v : ustring) (l : list (ustring * ustring)) : list (ustring * ustring) :=
  match l with
  | [] => []
  | e :: r => if leqb (fst e) q then (fst e, v) :: r else e :: update_custom q v r
  end.
(** [std::lower_bound] and [insert]: before the first entry whose name is not
    smaller (the vector is sorted by name, which is an invariant) *)
Fixpoint insert_sorted (q v : ustring) (l : list (ustring * ustring)) : list (ustring * ustring) :=
  match l with
  | [] => [(q, v)]
  | e :: r => if lltb (fst e) q then e :: insert_sorted q v r else (q, v) :: e :: r
  end.
(** [insertCustom], addressee.cpp:2267-2285 *)
Definition insert_custom (app name value : ustring) (a : addressee) : addressee :=
  if isnil value || isnil name || isnil app then a
  else
    let q := qualified app name in
    match find_custom q (a_customs a) with
    | Some _ => put_customs (update_custom q value (a_customs a)) (touch a)
    | None => put_customs (insert_sorted q value (a_customs a)) (touch a)
    end.
(** [removeCustom], addressee.cpp:2287-2294 *)
Definition remove_custom (app name : ustring) (a : addressee) : addressee :=
  put_customs (erase_first (fun e => leqb (fst e) (qualified app name)) (a_customs a)) a.
(** [custom], addressee.cpp:2296-2301 *)
Definition custom (app name : ustring) (a : addressee) : ustring :=
  match find_custom (qualified app name) (a_customs a) with Some v => v | None => [] end.
(** the loop of [setCustoms], addressee.cpp:2303-2325 *)
Definition customs_step (acc : list (ustring * ustring)) (c : ustring) : list (ustring * ustring) :=
  match index_of 58%N c with
  | None => acc
  | Some i => let q := firstn i c in
              if existsb (fun e => leqb (fst e) q) acc then acc else acc ++ [(q, skipn (S i) c)]
  end.
(** [std::sort] by name (the names are pairwise distinct, so the order is unique) *)
Fixpoint sort_customs (l : list (ustring * ustring)) : list (ustring * ustring) :=
  match l with [] => [] | (q, v) :: r => insert_sorted q v (sort_customs r) end.
Definition set_customs (l : list ustring) (a : addressee) : addressee :=
  put_customs (sort_customs (fold_left customs_step l [])) (touch a).
(** [customs], addressee.cpp:2328-2339 *)
Definition customs_of (a : addressee) : list ustring := map (fun e => fst e ++ 58%N :: snd e) (a_customs a).

(** The fields stored as custom entries, addressee.cpp:2160-2265 *)
Definition vendor_id : ustring := B "KADDRESSBOOK".
Definition set_text_custom (name v : ustring) (a : addressee) : addressee :=
  if isnil v then remove_custom vendor_id name a else insert_custom vendor_id name v a.
Definition x_assistants : ustring := B "X-AssistantsName".
Definition x_managers : ustring := B "X-ManagersName".
Definition x_office : ustring := B "X-Office".
Definition x_profession : ustring := B "X-Profession".
Definition x_spouses : ustring := B "X-SpousesName".
Definition x_anniversary : ustring := B "X-Anniversary".
Definition x_blogfeed : ustring := B "BlogFeed".

(** ** Names *)

(** [assembledName], addressee.cpp:1598-1609 *)
Definition assembled_name (a : addressee) : ustring :=
  simplified (join [cSP] [a_prefix a; a_given a; a_additional a; a_family a; a_suffix a]).
(** [realName], addressee.cpp:1578-1596 *)
Definition real_name (a : addressee) : ustring :=
  if negb (isnil (a_formatted a)) then a_formatted a
  else if negb (isnil (assembled_name a)) then assembled_name a
  else if negb (isnil (a_name a)) then a_name a
  else organization a.

(** ** Equality *)

(** [listEquals], addressee.cpp:2661-2691; [eqb x y] is [x == y].  [QList::contains]
    compares the elements of the list with the argument. *)
Definition list_equals {A} (eqb : A -> A -> bool) (l pat : list A) : bool :=
  Nat.eqb (length l) (length pat)
  && forallb (fun x => existsb (fun y => eqb y x) pat) l.
(** [QList::operator==] *)
Fixpoint list_eqb {A} (eqb : A -> A -> bool) (a b : list A) : bool :=
  match a, b with
  | [], [] => true
  | x :: r, y :: s => eqb x y && list_eqb eqb r s
  | _, _ => false
  end.
Definition custom_eq (a b : ustring * ustring) : bool := leqb (fst a) (fst b) && leqb (snd a) (snd b).
(** [Addressee::operator==], addressee.cpp:206-433 *)
Definition addressee_eq (V : Env) (a b : addressee) : bool :=
  leqb (a_uid a) (a_uid b) && leqb (a_name a) (a_name b) && leqb (a_formatted a) (a_formatted b)
  && leqb (a_family a) (a_family b) && leqb (a_given a) (a_given b)
  && leqb (a_additional a) (a_additional b) && leqb (a_prefix a) (a_prefix b)
  && leqb (a_suffix a) (a_suffix b)
  && (dt_eq V (a_birthday a) (a_birthday b) && Bool.eqb (a_bdaytime a) (a_bdaytime b))
  && leqb (a_mailer a) (a_mailer b) && tz_eq (a_tz a) (a_tz b) && geo_eq (a_geo a) (a_geo b)
  && leqb (a_department a) (a_department b) && leqb (a_note a) (a_note b)
  && leqb (a_prodid a) (a_prodid b) && leqb (a_sortstring a) (a_sortstring b)
  && secrecy_eq (a_secrecy a) (a_secrecy b)
  && picture_eq (env_img V) (a_logo a) (a_logo b) && picture_eq (env_img V) (a_photo a) (a_photo b)
  && sound_eq (a_sound a) (a_sound b)
  && list_equals phone_eq (a_phones a) (a_phones b)
  && list_equals address_eq (a_addresses a) (a_addresses b)
  && list_equals key_eq (a_keys a) (a_keys b)
  && list_equals email_eq (a_emails a) (a_emails b)
  && list_equals leqb (a_categories a) (a_categories b)
  && list_eqb custom_eq (a_customs a) (a_customs b)
  && list_eqb ptext_eq (a_langs a) (a_langs b)
  && list_eqb impp_eq (a_impps a) (a_impps b)
  && gender_eq (a_gender a) (a_gender b) && leqb (a_kind a) (a_kind b)
  && list_equals calurl_eq (a_calurls a) (a_calurls b)
  && list_equals sound_eq (a_xsounds a) (a_xsounds b)
  && list_equals (picture_eq (env_img V)) (a_xphotos a) (a_xphotos b)
  && list_equals (picture_eq (env_img V)) (a_xlogos a) (a_xlogos b)
  && list_equals rurl_eq (a_urls a) (a_urls b)
  && list_equals leqb (a_members a) (a_members b)
  && list_equals ptext_eq (a_related a) (a_related b)
  && list_equals leqb (a_sources a) (a_sources b)
  && list_equals fgroup_eq (a_fgroups a) (a_fgroups b)
  && list_equals ptext_eq (a_titles a) (a_titles b)
  && list_equals ptext_eq (a_roles a) (a_roles b)
  && list_equals ptext_eq (a_orgs a) (a_orgs b)
  && list_equals ptext_eq (a_nicks a) (a_nicks b)
  && list_equals ptext_eq (a_pidmaps a) (a_pidmaps b)
  && dt_eq V (a_deathdate a) (a_deathdate b).
(** [Addressee::operator!=], addressee.cpp:435-438: the operands are exchanged *)
Definition addressee_neq (V : Env) (a b : addressee) : bool := negb (addressee_eq V b a).
