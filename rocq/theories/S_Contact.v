(** Specification vocabulary for contacts written as vCards and read again (C11-C13,
    C37-C40, C44). *)
From Coq Require Import Permutation.
From Verif Require Import Base Utf8 QtText M_ParamMap M_VCard M_VCardText S_Escape S_Card S_RoundTrip S_Split S_Date
  M_Split M_Values M_Date M_Addressee M_VCardTool.

(** Writing the contacts [l] in version [v] and parsing the text ends, and gives
    the contacts [res]. *)
Definition round_trip (T : Tool) (E : Ext) (v : version) (export : bool) (l res : list addressee) : Prop :=
  exists n, forall fuel, n <= fuel -> parse_text T E fuel (create_text T E v export l) = Done res.

(** ** Contacts whose lines keep their shape

    The following says nothing about the texts of a contact.  It is about the names
    and parameters that are written into the head of a line without any escaping. *)

(** parameters with names in lower case and values of the allowed characters, which
    do not speak about the encoding of the value *)
Definition plain_params (m : pmap) : Prop :=
  wf_params m /\ ~ In (B "encoding") (map fst m) /\ ~ In (B "charset") (map fst m).
(** Latin-1 without control characters, double quote, : and ; *)
Definition value_chars (s : ustring) : Prop := Forall (fun c => (32 <= c < 256)%N /\ ~ In c [34; 58; 59]%N) s.
(** Latin-1 without control characters and double quote *)
Definition quoted_chars (s : ustring) : Prop := Forall (fun c => (32 <= c < 256)%N /\ c <> 34%N) s.
(** the name of a field group: a group and a property name other than ADR *)
Definition group_name (s : ustring) : Prop :=
  exists g n, s = g ++ [cDOT] ++ n /\ wf_name g /\ wf_name n /\ to_lower n <> B "adr".

Definition all_params (a : addressee) : list pmap :=
  map em_params (a_emails a) ++ map ph_params (a_phones a)
  ++ map pt_params (a_related a ++ a_langs a ++ a_pidmaps a ++ a_nicks a ++ a_orgs a ++ a_roles a ++ a_titles a)
  ++ map ru_params (a_urls a) ++ map cu_params (a_calurls a) ++ map fg_params (a_fgroups a) ++ map im_params (a_impps a).

(** pictures: the type becomes a parameter; in version 4.0 it becomes part of the
    line, and the reader looks into the URL of a linked picture *)
Definition picture_fits (T : Tool) (v : version) (p : picture) : Prop :=
  (pi_intern p = true -> is_bytes (pi_raw_of (env_img (t_env T)) p) = true /\
     match v with
     | V21 => Forall (fun c => (32 <= c < 127)%N /\ ~ In c [58; 59; 61]%N) (pi_type p) /\
              ~ In (to_lower (pi_type p)) [B "encoding"; B "quoted-printable"; B "base64"]
     | V30 => value_chars (pi_type p)
     | V40 => Forall (fun c => (33 <= c <= 126)%N /\ c <> 92%N) (pi_type p)
     end) /\
  (pi_intern p = false -> v = V40 ->
     text_ok (pi_url p) = true /\ ~ ambiguous (pi_url p) /\ find_sub (B "data:") (to_utf8 (pi_url p)) = None).
Definition sound_fits (s : sound) : Prop := so_intern s = true -> is_bytes (so_data s) = true.
Definition key_fits (k : key) : Prop :=
  (ke_isbin k = true -> is_bytes (ke_bin k) = true) /\ (ke_type k = KCustom -> value_chars (ke_custom k)).

Record fits (T : Tool) (v : version) (a : addressee) : Prop := {
  fit_params : Forall plain_params (all_params a);
  fit_groups : Forall (fun f => group_name (fg_name f)) (a_fgroups a);
  fit_customs : Forall (fun e => wf_name (fst e)) (a_customs a);
  fit_pictures : Forall (picture_fits T v) (a_logo a :: a_photo a :: a_xlogos a ++ a_xphotos a);
  fit_sounds : Forall sound_fits (a_sound a :: a_xsounds a);
  fit_keys : Forall key_fits (a_keys a);
  (** version 4.0 writes the label and position of an address, the sort string and
      the name of the spouse as parameters *)
  fit_40 : v = V40 ->
    Forall (fun x => quoted_chars (ad_label x) /\
                     (geo_valid (ad_geo x) = true -> quoted_chars (t_fmt6 T (g_lat (ad_geo x))) /\ quoted_chars (t_fmt6 T (g_lon (ad_geo x)))))
           (a_addresses a) /\
    value_chars (a_sortstring a) /\
    Forall (fun e => to_lower (fst e) = B "kaddressbook-x-spousesname" -> value_chars (snd e)) (a_customs a);
  (** version 2.1 encodes other texts as quoted-printable; the type of an e-mail
      address is written in a different way *)
  fit_21 : v = V21 ->
    Forall (fun s => needs_encoding s = false)
      ([a_formatted a; a_mailer a; a_family a; a_given a; a_additional a; a_prefix a; a_suffix a; a_name a; a_note a; a_department a]
       ++ flat_map (fun x => [ad_pobox x; ad_extended x; ad_street x; ad_locality x; ad_region x; ad_postal x; ad_country x; ad_label x]) (a_addresses a)
       ++ map pt_text (a_orgs a ++ a_roles a ++ a_titles a) ++ map snd (a_customs a)) /\
    Forall (fun e => ~ In (B "type") (map fst (em_params e))) (a_emails a)
}.

(** ** Version 2.1 and the codec *)

(** The value of a property of version 2.1 that needs encoding: the bytes the codec
    makes of it, and the text it makes of bytes. *)
Definition written21 (E : Ext) (s : ustring) : bytes :=
  qp_encode E (match charset_encode E (B "UTF-8") with Some enc => enc s | None => to_utf8 s end).
Definition read21 (E : Ext) (r : bytes) : ustring :=
  match charset_decode E (B "utf-8") with Some dec => dec (qp_decode E r) | None => from_utf8 (qp_decode E r) end.
(** The codec brings the text back.  The encoded form is not confused by the escapes
    of the card (see C01), and does not end as a line that goes on. *)
Definition quotable (E : Ext) (s : ustring) : Prop :=
  read21 E (written21 E s) = s /\ written21 E s <> [] /\ ~ ambiguous (written21 E s) /\ ~ (exists r, written21 E s = r ++ [61%N]).
(** The values of a contact that version 2.1 encodes where necessary. *)
Definition texts21 (a : addressee) : list ustring :=
  [a_formatted a; a_mailer a; join_components cSEMI [a_family a; a_given a; a_additional a; a_prefix a; a_suffix a]; a_name a; a_note a]
  ++ flat_map (fun x => [join_components cSEMI [ad_pobox x; ad_extended x; ad_street x; ad_locality x; ad_region x; ad_postal x; ad_country x]; ad_label x]) (a_addresses a)
  ++ map snd (a_customs a).
(** The values of those properties that are read together with their parameters. *)
Definition ptexts21 (a : addressee) : list ustring :=
  map (fun o => join_components cSEMI (pt_text o :: (if isnil (a_department a) then [] else [a_department a]))) (a_orgs a)
  ++ map pt_text (a_roles a ++ a_titles a).

(** Version 2.1 writes the types of an e-mail address as parameters without a value
    (EMAIL;HOME;PREF:...): the types are words, different from each other without
    regard to case, from the names of other parameters and of codings. *)
Definition bare_types (m : pmap) : Prop :=
  forall vs, In (B "type", vs) m ->
    Forall (fun s => Forall (fun c => (32 <= c < 127)%N /\ ~ In c [34; 44; 58; 59; 61]%N) s /\
                     ~ In (to_lower s) [B "encoding"; B "charset"; B "quoted-printable"; B "base64"] /\ ~ In s (map fst m)) vs /\
    NoDup (map to_upper vs).
(** the parameters [m'] read for the parameters [m] of an e-mail address: the types
    are in upper case, in some order *)
Definition types_upper (m m' : pmap) : Prop :=
  increasing (map fst m') /\
  (forall k, k <> B "type" -> find_param k m' = find_param k m) /\
  match find_param (B "type") m with
  | None => find_param (B "type") m' = None
  | Some vs => exists ws, find_param (B "type") m' = Some ws /\ Permutation ws (map to_upper vs)
  end.

(** As [fits], with texts in any script and types of e-mail addresses in version 2.1. *)
Record fitting (E : Ext) (T : Tool) (v : version) (a : addressee) : Prop := {
  fq_params : Forall plain_params (all_params a);
  fq_groups : Forall (fun f => group_name (fg_name f)) (a_fgroups a);
  fq_customs : Forall (fun e => wf_name (fst e)) (a_customs a);
  fq_pictures : Forall (picture_fits T v) (a_logo a :: a_photo a :: a_xlogos a ++ a_xphotos a);
  fq_sounds : Forall sound_fits (a_sound a :: a_xsounds a);
  fq_keys : Forall key_fits (a_keys a);
  fq_40 : v = V40 ->
    Forall (fun x => quoted_chars (ad_label x) /\
                     (geo_valid (ad_geo x) = true -> quoted_chars (t_fmt6 T (g_lat (ad_geo x))) /\ quoted_chars (t_fmt6 T (g_lon (ad_geo x)))))
           (a_addresses a) /\
    value_chars (a_sortstring a) /\
    Forall (fun e => to_lower (fst e) = B "kaddressbook-x-spousesname" -> value_chars (snd e)) (a_customs a);
  fq_21 : v = V21 ->
    Forall (fun s => needs_encoding s = true -> quotable E s) (texts21 a ++ ptexts21 a) /\
    Forall (fun e => bare_types (em_params e)) (a_emails a)
}.

(** ** Texts that survive *)
Definition text_safe (u : ustring) : Prop := text_ok u = true /\ ~ ambiguous u.
(** the components of a structured value *)
Definition parts_safe (l : list ustring) : Prop := Forall text_safe l /\ separable l.

(** ** Telephone numbers and addresses *)

(** the flags that have a name in vCards: all but Undefined *)
Definition phone_vocabulary : N :=
  fold_right N.lor 0%N [tHome; tWork; tMsg; tPref; tVoice; tFax; tCell; tVideo; tBbs; tModem; tCar; tIsdn; tPcs; tPager].
Definition address_vocabulary : N := fold_right N.lor 0%N [aDom; aIntl; aPostal; aParcel; aHome; aWork; aPref].
(** the telephone number [q] read for [p] *)
Definition phone_back (p q : phone) : Prop :=
  ph_number q = simplified (ph_number p) /\
  (let t := N.land (ph_type p) phone_vocabulary in ph_type q = if N.eqb t 0 then tUndefined else t) /\
  forall k, k <> B "type" -> find_param k (ph_params q) = find_param k (ph_params p).
(** the address [y] read for [x] *)
Definition address_back (x y : address) : Prop :=
  ad_pobox y = ad_pobox x /\ ad_extended y = ad_extended x /\ ad_street y = ad_street x /\ ad_locality y = ad_locality x /\
  ad_region y = ad_region x /\ ad_postal y = ad_postal x /\ ad_country y = ad_country x /\
  ad_type y = N.land (ad_type x) address_vocabulary.
(** the identifiers given to what is read differ *)
Definition fresh_ids (T : Tool) : Prop := forall card i j, t_newid T card i = t_newid T card j -> i = j.
(** two addresses whose types have the same names *)
Definition same_kind (x y : address) : Prop := N.land (ad_type x) address_vocabulary = N.land (ad_type y) address_vocabulary.
(** an address with a label is the first one of its kind *)
Definition labels_told_apart (l : list address) : Prop :=
  forall l1 x l2, l = l1 ++ x :: l2 -> ad_label x <> [] -> Forall (fun y => ~ same_kind y x) l1.
Definition address_safe (x : address) : Prop :=
  parts_safe [ad_pobox x; ad_extended x; ad_street x; ad_locality x; ad_region x; ad_postal x; ad_country x].

(** ** Binary values *)

(** a key with something to write *)
Definition key_full (k : key) : bool := if ke_isbin k then negb (isnil (ke_bin k)) else negb (isnil (ke_text k)).
(** the type of the key survives: a type of the user has a name, without commas, that
    is not one of the two known types *)
Definition key_safe (k : key) : Prop :=
  (ke_isbin k = false -> text_safe (ke_text k)) /\
  (ke_type k = KCustom -> ke_custom k <> [] /\ ~ In cCOMMA (ke_custom k) /\ ~ In (to_lower (ke_custom k)) [B "x509"; B "pgp"]).
(** the key [q] read for [k] *)
Definition key_back (k q : key) : Prop :=
  ke_isbin q = ke_isbin k /\ ke_type q = ke_type k /\ (ke_type k = KCustom -> ke_custom q = ke_custom k) /\
  (if ke_isbin k then ke_bin q = ke_bin k else ke_text q = ke_text k).

(** a picture with something to write *)
Definition picture_full (T : Tool) (p : picture) : bool :=
  if pi_intern p then negb (isnil (pi_raw_of (env_img (t_env T)) p)) else negb (isnil (pi_url p)).
(** the type of an embedded picture has a name, without commas *)
Definition picture_safe (p : picture) : Prop :=
  if pi_intern p then pi_type p <> [] /\ ~ In cCOMMA (pi_type p) else text_safe (pi_url p).
(** the picture [q] read for [p]: an embedded picture has the same bytes and the same
    type, a linked one the same address *)
Definition picture_back (T : Tool) (p q : picture) : Prop :=
  pi_intern q = pi_intern p /\
  (if pi_intern p then pi_raw_of (env_img (t_env T)) q = pi_raw_of (env_img (t_env T)) p /\ pi_type q = pi_type p
   else pi_url q = pi_url p).

Definition sound_full (s : sound) : bool := if so_intern s then negb (isnil (so_data s)) else negb (isnil (so_url s)).
Definition sound_safe (s : sound) : Prop := so_intern s = false -> text_safe (so_url s).
(** the sound [q] read for [s] *)
Definition sound_back (s q : sound) : Prop :=
  so_intern q = so_intern s /\ (if so_intern s then so_data q = so_data s else so_url q = so_url s).

(** what is read for a main picture or sound [x] and further ones [xs]: those with
    something to write, in order; the first of them is the main one *)
Definition media_back {A} (full : A -> bool) (back : A -> A -> Prop) (none : A) (x : A) (xs : list A) (y : A) (ys : list A) : Prop :=
  match filter full (x :: xs) with
  | [] => y = none /\ ys = []
  | f :: fs => back f y /\ Forall2 back fs ys
  end.

(** ** Dates, time zone, position *)

(** no date, or a date, a time and a time specification a vCard can hold *)
Definition datetime_safe (x : datetime) : Prop :=
  x = dt_null \/ exists d t z, x = mkDt (Some d) (Some t) z /\ storable_date d /\ storable_time t /\ storable_spec z.
(** the birthday read: a birthday without time comes back at midnight, local time *)
Definition birthday_safe (x : datetime) (withTime : bool) : Prop :=
  if withTime then exists d t z, x = mkDt (Some d) (Some t) z /\ storable_date d /\ storable_time t /\ storable_spec z
  else x = dt_null \/ exists d, x = mkDt (Some d) (Some midnight) TLocal /\ storable_date d.
Definition tz_safe (z : tzone) : Prop := if tz_valid z then (-6000 < tz_offset z < 6000)%Z else z = tz_new.
(** numbers are written with digits, minus and decimal point *)
Definition number_text (s : ustring) : Prop := Forall (fun c => (48 <= c <= 57)%N \/ c = 45%N \/ c = 46%N) s.
Definition geo_text_ok (T : Tool) (g : geo) : Prop := number_text (t_fmt6 T (g_lat g)) /\ number_text (t_fmt6 T (g_lon g)).
(** the position after its coordinates have been written with six decimals *)
Definition geo_rounded (T : Tool) (g : geo) : geo :=
  if geo_valid g then geo_of (t_float T (t_fmt6 T (g_lat g))) (t_float T (t_fmt6 T (g_lon g))) else geo_new.

(** ** Custom fields, messaging addresses, calendars, field groups *)

(** a name made of an application and a field name, that the reader does not take for
    a different spelling of a name it knows; [messaging/] names are treated apart *)
Definition custom_name (n : ustring) : Prop :=
  (exists app name, n = app ++ [45%N] ++ name /\ app <> [] /\ name <> [] /\ ~ In 45%N app) /\
  starts_with (B "messaging/") n = false /\
  forall s, In (to_lower (B "X-" ++ n), s) import_names -> s = B "X-" ++ n.
(** version 4.0 has properties of its own for these two *)
Definition own_property (n : ustring) : Prop :=
  In (to_lower n) [B "kaddressbook-x-anniversary"; B "kaddressbook-x-spousesname"].
Definition special_free (v : version) (a : addressee) : Prop := v = V40 -> Forall (fun e => ~ own_property (fst e)) (a_customs a).
(** the service [s] of a messaging name: [messaging/s-rest] *)
Definition messaging_name (n s : ustring) : Prop :=
  exists rest, n = B "messaging/" ++ s ++ [45%N] ++ rest /\ ~ In 45%N s.
Definition is_messaging (e : ustring * ustring) : bool := starts_with (B "messaging/") (fst e).
(** the addresses in the value of a messaging field, separated by U+E000 *)
Definition messaging_urls (T : Tool) (s value : ustring) : list impp :=
  filter (impp_valid (env_url (t_env T)))
    (map (fun p => mkImpp [] (t_set_path T p (t_set_scheme T (normalize_impp s) [])))
         (filter (fun p => negb (isnil p)) (split 57344%N value))).
(** a messaging address without the parameter that only helps reading *)
Definition impp_written (i : impp) : impp := mkImpp (filter (fun pv => negb (leqb (fst pv) (B "x-service-type"))) (im_params i)) (im_address i).
(** setting the path of an address replaces the path it had *)
Definition paths_replace (T : Tool) : Prop := forall p q u, t_set_path T p (t_set_path T q u) = t_set_path T p u.

(** ** Whole contacts in version 3.0 *)

(** what can be read back from a 3.0 vCard *)
Record safe30 (T : Tool) (a : addressee) : Prop := {
  s_texts : Forall text_safe [a_formatted a; a_name a; a_mailer a; a_note a; a_prodid a; a_uid a; a_sortstring a];
  s_uid : a_uid a <> [];
  s_n : parts_safe [a_family a; a_given a; a_additional a; a_prefix a; a_suffix a];
  s_nicks : Forall (fun t => text_safe (pt_text t) /\ pt_text t <> []) (a_nicks a);
  s_titles : Forall (fun t => text_safe (pt_text t) /\ pt_text t <> []) (a_titles a);
  s_roles : Forall (fun t => text_safe (pt_text t) /\ pt_text t <> []) (a_roles a);
  s_categories : parts_safe (a_categories a) /\ a_categories a <> [[]];
  (** the department is written with the organisation *)
  s_orgs : Forall (fun o => pt_text o <> [] /\ parts_safe (pt_text o :: (if isnil (a_department a) then [] else [a_department a])) /\
                            ~ In (B "sort-as") (map fst (pt_params o))) (a_orgs a);
  s_department : a_orgs a = [] -> a_department a = [];
  s_birthday : birthday_safe (a_birthday a) (a_bdaytime a);
  s_revision : datetime_safe (a_revision a);
  s_tz : tz_safe (a_tz a);
  s_urls : Forall (fun u => text_safe (ru_url u) /\ ru_url u <> [] /\ url_parse (env_url (t_env T)) (ru_url u) = ru_url u /\
                            rurl_valid (env_url (t_env T)) u = true) (a_urls a);
  (** at most the first e-mail address is preferred *)
  s_emails : Forall (fun e => text_safe (em_mail e) /\ em_mail e <> []) (a_emails a) /\ NoDup (map em_mail (a_emails a)) /\
             Forall (fun e => email_preferred e = false) (tl (a_emails a));
  s_phones : Forall (fun p => text_safe (ph_number p) /\ simplified (ph_number p) = ph_number p /\ ph_number p <> [] /\
                              N.land (ph_type p) phone_vocabulary = ph_type p /\ ph_type p <> 0%N) (a_phones a);
  s_addresses : Forall (fun x => address_safe x /\ address_blank x = false /\ text_safe (ad_label x) /\
                                 N.land (ad_type x) address_vocabulary = ad_type x) (a_addresses a) /\ labels_told_apart (a_addresses a);
  s_customs : increasing (map fst (a_customs a)) /\ Forall (fun e => text_safe (snd e) /\ snd e <> [] /\ custom_name (fst e)) (a_customs a)
}.
(** the telephone numbers and addresses [q] and [y] are [p] and [x] but for their
    identifiers (and the case of the types in the parameters of a number) *)
Definition same_phone (p q : phone) : Prop :=
  ph_number q = ph_number p /\ ph_type q = ph_type p /\ forall k, k <> B "type" -> find_param k (ph_params q) = find_param k (ph_params p).
Definition same_address (x y : address) : Prop :=
  ad_pobox y = ad_pobox x /\ ad_extended y = ad_extended x /\ ad_street y = ad_street x /\ ad_locality y = ad_locality x /\
  ad_region y = ad_region x /\ ad_postal y = ad_postal x /\ ad_country y = ad_country x /\ ad_label y = ad_label x /\ ad_type y = ad_type x.
Record same30 (a b : addressee) : Prop := {
  e_texts : [a_formatted b; a_name b; a_mailer b; a_note b; a_prodid b; a_uid b; a_sortstring b]
          = [a_formatted a; a_name a; a_mailer a; a_note a; a_prodid a; a_uid a; a_sortstring a];
  e_n : [a_family b; a_given b; a_additional b; a_prefix b; a_suffix b] = [a_family a; a_given a; a_additional a; a_prefix a; a_suffix a];
  e_nicks : a_nicks b = a_nicks a;
  e_titles : a_titles b = a_titles a;
  e_roles : a_roles b = a_roles a;
  e_categories : a_categories b = a_categories a;
  e_orgs : a_orgs b = a_orgs a /\ a_department b = a_department a;
  e_birthday : a_birthday b = a_birthday a /\ a_bdaytime b = a_bdaytime a;
  e_revision : a_revision b = a_revision a;
  e_tz : a_tz b = a_tz a;
  e_secrecy : a_secrecy b = a_secrecy a;
  e_urls : a_urls b = a_urls a;
  e_emails : a_emails b = a_emails a;
  e_phones : Forall2 same_phone (a_phones a) (a_phones b);
  e_addresses : Forall2 same_address (a_addresses a) (a_addresses b);
  e_customs : a_customs b = a_customs a
}.
