(** Model of the remaining setters of [Addressee]: the lists that are replaced as a
    whole and the fields that are stored as custom entries. *)
From Verif Require Import Base QtText M_ParamMap M_Values M_Date M_Addressee.

(** [d->mX = list; d->mEmpty = false], in either order *)
Definition set_all {A} (put : list A -> addressee -> addressee) (l : list A) (a : addressee) : addressee := put l (touch a).
(** addressee.cpp:533-549 *)
Definition set_xsounds := set_all put_xsounds.
Definition set_xphotos := set_all put_xphotos.
Definition set_xlogos := set_all put_xlogos.
(** addressee.cpp:559-563, 576-580 *)
Definition set_urls := set_all put_urls.
Definition set_sources := set_all put_sources.
(** addressee.cpp:592-596, 612-616, 636-640 *)
Definition set_fgroups := set_all put_fgroups.
Definition set_pidmaps := set_all put_pidmaps.
Definition set_impps := set_all put_impps.
(** addressee.cpp:807-811, 1102-1106, 1139-1143, 1190-1194 *)
Definition set_nicks := set_all put_nicks.
Definition set_titles := set_all put_titles.
Definition set_roles := set_all put_roles.
Definition set_orgs := set_all put_orgs.
(** addressee.cpp:1725-1729, 1820-1825, 1888-1892, 2035-2039 *)
Definition set_langs := set_all put_langs.
Definition set_phones := set_all put_phones.
Definition set_keys := set_all put_keys.
Definition set_addresses := set_all put_addresses.
(** addressee.cpp:2127-2131, 2149-2153 *)
Definition set_members := set_all put_members.
Definition set_relateds := set_all put_related.
(** [setChanged], addressee.cpp:2520-2523 *)
Definition set_changed (b : bool) (a : addressee) : addressee := put_changed b a.
(** [setBirthdayProperty], addressee.cpp:2693-2696 ([QTime::msecsSinceStartOfDay] is 0
    for an invalid time) *)
Definition set_birthday_property (V : Env) (d : datetime) (a : addressee) : addressee :=
  set_birthday V d (match dt_time d with
                    | Some t => negb (Z.eqb ((t_hour t * 3600 + t_min t * 60 + t_sec t) * 1000 + t_msec t) 0)
                    | None => false end) a.

(** The dates and addresses among the custom entries.  [QDate::toString(Qt::ISODate)],
    [QDate::fromString(.., Qt::ISODate)] are parameters; a QUrl is its text.
    addressee.cpp:2169-2181 *)
Definition anniversary (from_iso : ustring -> option date) (a : addressee) : option date :=
  from_iso (custom vendor_id x_anniversary a).
Definition set_anniversary (to_iso : date -> ustring) (d : option date) (a : addressee) : addressee :=
  match d with Some d => insert_custom vendor_id x_anniversary (to_iso d) a | None => remove_custom vendor_id x_anniversary a end.
(** addressee.cpp:2197-2209 *)
Definition blogfeed (U : UrlExt) (a : addressee) : qurl := url_parse U (custom vendor_id x_blogfeed a).
Definition set_blogfeed (u : qurl) (a : addressee) : addressee := set_text_custom x_blogfeed u a.
