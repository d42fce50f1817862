(** Specification vocabulary for C61: the properties of a contact as variables. *)
From Verif Require Import Base QtText M_ParamMap M_Values M_Date M_Addressee M_Api.

(** the properties that have one setter and one getter *)
Inductive field :=
| FUid | FName | FKind | FFormatted | FFamily | FGiven | FAdditional | FPrefix | FSuffix | FMailer | FDepartment | FNote | FProdid | FSort
| FBirthday | FDeathdate | FRevision | FTz | FGeo | FSecrecy | FLogo | FPhoto | FSound | FGender
| FXsounds | FXphotos | FXlogos | FUrls | FSources | FFgroups | FPidmaps | FImpps | FNicks | FTitles | FRoles | FOrgs
| FLangs | FPhones | FKeys | FAddresses | FCategories | FMembers | FRelated | FChanged
| FAssistant | FManager | FOffice | FProfession | FSpouse | FAnniversary | FBlogfeed.

Definition value_of (f : field) : Type :=
  match f with
  | FBirthday => datetime * bool
  | FDeathdate | FRevision => datetime
  | FTz => tzone | FGeo => geo | FSecrecy => secrecy | FLogo | FPhoto => picture | FSound => sound | FGender => gender
  | FXsounds => list sound | FXphotos | FXlogos => list picture | FUrls => list rurl | FSources => list qurl
  | FFgroups => list fgroup | FImpps => list impp
  | FPidmaps | FNicks | FTitles | FRoles | FOrgs | FLangs | FRelated => list ptext
  | FPhones => list phone | FKeys => list key | FAddresses => list address
  | FCategories | FMembers => list ustring
  | FChanged => bool
  | FAnniversary => option date | FBlogfeed => qurl
  | _ => ustring
  end.

(** the library: dates in ISO form *)
Record Lib := { l_env : Env; l_iso : date -> ustring; l_from_iso : ustring -> option date }.

(** the getter and the setter of a property *)
Definition read (L : Lib) (f : field) : addressee -> value_of f :=
  match f with
  | FUid => a_uid | FName => a_name | FKind => a_kind | FFormatted => a_formatted | FFamily => a_family | FGiven => a_given
  | FAdditional => a_additional | FPrefix => a_prefix | FSuffix => a_suffix | FMailer => a_mailer | FDepartment => a_department
  | FNote => a_note | FProdid => a_prodid | FSort => a_sortstring
  | FBirthday => fun a => (a_birthday a, a_bdaytime a)
  | FDeathdate => a_deathdate | FRevision => a_revision | FTz => a_tz | FGeo => a_geo | FSecrecy => a_secrecy
  | FLogo => a_logo | FPhoto => a_photo | FSound => a_sound | FGender => a_gender
  | FXsounds => a_xsounds | FXphotos => a_xphotos | FXlogos => a_xlogos | FUrls => a_urls | FSources => a_sources
  | FFgroups => a_fgroups | FPidmaps => a_pidmaps | FImpps => a_impps | FNicks => a_nicks | FTitles => a_titles
  | FRoles => a_roles | FOrgs => a_orgs | FLangs => a_langs | FPhones => a_phones | FKeys => a_keys | FAddresses => a_addresses
  | FCategories => a_categories | FMembers => a_members | FRelated => a_related | FChanged => a_changed
  | FAssistant => custom vendor_id x_assistants | FManager => custom vendor_id x_managers | FOffice => custom vendor_id x_office
  | FProfession => custom vendor_id x_profession | FSpouse => custom vendor_id x_spouses
  | FAnniversary => anniversary (l_from_iso L) | FBlogfeed => blogfeed (env_url (l_env L))
  end.
Definition write (L : Lib) (f : field) : value_of f -> addressee -> addressee :=
  match f with
  | FUid => set_uid | FName => set_name | FKind => set_kind | FFormatted => set_formatted | FFamily => set_family | FGiven => set_given
  | FAdditional => set_additional | FPrefix => set_prefix | FSuffix => set_suffix | FMailer => set_mailer | FDepartment => set_department
  | FNote => set_note | FProdid => set_prodid | FSort => set_sortstring
  | FBirthday => fun v => set_birthday (l_env L) (fst v) (snd v)
  | FDeathdate => set_deathdate (l_env L) | FRevision => set_revision (l_env L) | FTz => set_tz | FGeo => set_geo | FSecrecy => set_secrecy
  | FLogo => set_logo (l_env L) | FPhoto => set_photo (l_env L) | FSound => set_sound | FGender => set_gender
  | FXsounds => set_xsounds | FXphotos => set_xphotos | FXlogos => set_xlogos | FUrls => set_urls | FSources => set_sources
  | FFgroups => set_fgroups | FPidmaps => set_pidmaps | FImpps => set_impps | FNicks => set_nicks | FTitles => set_titles
  | FRoles => set_roles | FOrgs => set_orgs | FLangs => set_langs | FPhones => set_phones | FKeys => set_keys | FAddresses => set_addresses
  | FCategories => set_categories | FMembers => set_members | FRelated => set_relateds | FChanged => set_changed
  | FAssistant => set_text_custom x_assistants | FManager => set_text_custom x_managers | FOffice => set_text_custom x_office
  | FProfession => set_text_custom x_profession | FSpouse => set_text_custom x_spouses
  | FAnniversary => set_anniversary (l_iso L) | FBlogfeed => set_blogfeed
  end.

(** Values of classes with an [operator==] may be replaced by equal ones: a setter
    that is given a value equal to the stored one does nothing. *)
Definition equal_to (L : Lib) (f : field) : value_of f -> value_of f -> Prop :=
  match f with
  | FBirthday => fun v x => snd x = snd v /\ dt_eq (l_env L) (fst v) (fst x) = true
  | FDeathdate | FRevision => fun v x => dt_eq (l_env L) v x = true
  | FTz => fun v x => tz_eq v x = true | FGeo => fun v x => geo_eq v x = true | FSecrecy => fun v x => secrecy_eq v x = true
  | FLogo | FPhoto => fun v x => picture_eq (env_img (l_env L)) v x = true
  | FSound => fun v x => sound_eq v x = true | FGender => fun v x => gender_eq v x = true
  | _ => fun v x => x = v
  end.
(** a birthday without time is kept as the start of the day *)
Definition kept (f : field) : value_of f -> value_of f :=
  match f with
  | FBirthday => fun v => (if snd v then fst v else dt_set_time None (fst v), snd v)
  | _ => fun v => v
  end.
(** a date is read back from its ISO form, an address from its text *)
Definition writable (L : Lib) (f : field) : value_of f -> Prop :=
  match f with
  | FAnniversary => fun v => l_from_iso L [] = None /\ match v with Some d => l_iso L d <> [] /\ l_from_iso L (l_iso L d) = Some d | None => True end
  | FBlogfeed => fun v => url_parse (env_url (l_env L)) v = v
  | _ => fun _ => True
  end.

(** a sequence of calls of setters *)
Definition call : Type := { f : field & value_of f }.
Definition set_to (f : field) (v : value_of f) : call := existT value_of f v.
Definition calls (L : Lib) (cs : list call) (a : addressee) : addressee := fold_left (fun a c => write L (projT1 c) (projT2 c) a) cs a.
