(** Specification for C28: what an LDIF export and import keeps of a contact. *)
From Verif Require Import Base Utf8 QtText M_ParamMap M_Values M_Date M_Addressee M_ContactGroup M_Ldif S_Ldif.
Local Open Scope list_scope.

(** ** Which contacts *)

(** every value written is well-formed UTF-16 and does not start with a byte order mark *)
Definition writable (E : LdifExt) (a : addressee) : Prop := forallb (fun p => text_ok (snd p)) (contact_pairs E a) = true.
(** the import keeps only contacts with one of these *)
Definition named (a : addressee) : bool := negb (isnil (simplified (a_formatted a))) || negb (isnil (a_family a)).
(** dates that QDate and QTime can hold, in four digits *)
Definition revision_ok (a : addressee) : Prop :=
  match dt_date (a_revision a), dt_time (a_revision a) with
  | Some d, Some t => date_ok (d_year d) (d_month d) (d_day d) = true /\ (0 < d_year d < 10000)%Z
                      /\ time_ok (t_hour t) (t_min t) (t_sec t) (t_msec t) = true
  | _, _ => True
  end.
Definition birthday_ok (a : addressee) : Prop :=
  match dt_date (a_birthday a) with
  | Some d => date_ok (d_year d) (d_month d) (d_day d) = true /\ (d_year d < 2147483648)%Z
  | None => True
  end.
Definition exportable (E : LdifExt) (a : addressee) : Prop := writable E a /\ revision_ok a /\ birthday_ok a.

(** ** Assumptions about the environment *)
Record sane (E : LdifExt) : Prop := {
  sane_char : le_signed E = true;
  sane_id : forall i j, le_newid E i = le_newid E j -> i = j;
  sane_country : forall c, le_country E (le_country E c) = le_country E c;
  sane_url : url_valid (env_url (le_env E)) [] = false
}.

(** ** What comes back *)

(** the non-empty texts of a list, each once *)
Fixpoint distinct (l : list ustring) : list ustring :=
  match l with
  | [] => []
  | x :: r => if isnil x then distinct r else x :: filter (fun y => negb (leqb y x)) (distinct r)
  end.

(** one number of each of these types; cell and pager numbers come back twice *)
Definition carried_phones (a : addressee) : list (N * ustring) :=
  flat_map (fun t => let n := simplified (ph_number (phone_number [] t a)) in if isnil n then [] else [(t, n)])
    [tWork; tFax; tHome; tCell; tCell; tPager; tPager].

(** the street: the first line, and the second one if it is not empty; the whole
    text if the first line is empty *)
Definition carried_street (s : ustring) : ustring :=
  (if isnil (first_line s) then s else first_line s) ++ (if isnil (second_line s) then [] else cLF :: second_line s).

(** post office box, extended, street, locality, region, postal code, country, label *)
Definition parts_of (x : address) : list ustring :=
  [ad_pobox x; ad_extended x; ad_street x; ad_locality x; ad_region x; ad_postal x; ad_country x; ad_label x].
Definition carried_address (E : LdifExt) (pobox : ustring) (x : address) : list ustring :=
  [pobox; []; carried_street (ad_street x); ad_locality x; ad_region x; ad_postal x; le_country E (ad_country x); []].
(** the post office box of the home address is not carried *)
Definition carried_addresses (E : LdifExt) (a : addressee) : list (N * list ustring) :=
  filter (fun p => existsb (fun v => negb (isnil v)) (snd p))
    [(aHome, carried_address E [] (address_of [] aHome a));
     (aWork, carried_address E (ad_pobox (address_of [] aWork a)) (address_of [] aWork a))].

Definition carried_url (E : LdifExt) (a : addressee) : list rurl :=
  let u := url_parse (env_url (le_env E)) (url_text E a) in
  if negb (isnil (url_text E a)) && url_valid (env_url (le_env E)) u then [mkRurl [] u] else [].

Definition carried_department (a : addressee) : ustring :=
  if isnil (a_department a) then custom vendor_id (B "X-Department") a else a_department a.

(** the revision: its wall-clock time, taken as local time, without milliseconds;
    the given date if the contact has none *)
Definition carried_revision (rev : datetime) (a : addressee) : datetime :=
  match dt_date (a_revision a), dt_time (a_revision a) with
  | Some d, Some t => mkDt (Some d) (Some (mkTime (t_hour t) (t_min t) (t_sec t) 0)) TLocal
  | _, _ => rev
  end.

(** [b] is what is read back of [a], apart from the birthday; [rev]: the date given to
    the import *)
Record came_back (E : LdifExt) (rev : datetime) (a b : addressee) : Prop := {
  cb_given : a_given b = a_given a;
  cb_family : a_family b = a_family a;
  cb_formatted : a_formatted b = simplified (a_formatted a);
  cb_uid : a_uid a <> [] -> a_uid b = a_uid a;
  cb_prefix : a_prefix b = a_prefix a;
  cb_nickname : nickname b = nickname a;
  cb_title : title b = title a;
  cb_role : role b = role a;
  cb_organization : organization b = organization a;
  cb_department : a_department b = carried_department a;
  cb_note : a_note b = a_note a;
  cb_emails : emails_of b = distinct (emails_of a);
  cb_phones : map (fun p => (ph_type p, ph_number p)) (a_phones b) = carried_phones a;
  cb_addresses : map (fun x => (ad_type x, parts_of x)) (a_addresses b) = carried_addresses E a;
  cb_url : a_urls b = carried_url E a;
  cb_revision : dt_eq (le_env E) (a_revision b) (carried_revision rev a) = true;
  cb_stamp : dt_eq (le_env E) (carried_revision rev a) rev = false -> a_revision b = carried_revision rev a;
  cb_filled : a_empty b = false
}.
(** the other members are those of a new contact *)
Record nothing_else (b : addressee) : Prop := {
  ne_names : (a_name b, a_additional b, a_suffix b, a_sortstring b) = ([], [], [], []);
  ne_texts : (a_mailer b, a_prodid b, a_kind b) = ([], [], []);
  ne_values : (a_tz b, a_geo b, a_secrecy b, a_gender b, a_deathdate b) = (tz_new, geo_new, SInvalid, gender_new, dt_null);
  ne_media : (a_logo b, a_photo b, a_sound b, a_xlogos b, a_xphotos b, a_xsounds b)
             = (picture_new, picture_new, sound_new, [], [], []);
  ne_lists : (a_keys b, a_langs b, a_impps b, a_categories b, a_customs b, a_calurls b, a_sources b, a_members b,
              a_related b, a_fgroups b, a_pidmaps b) = ([], [], [], [], [], [], [], [], [], [], [])
}.

(** ** Birthdays *)

(** day, month and year after the lines of a contact; [b]: before them *)
Definition birth_after (b : Z * Z * Z) (a : addressee) : Z * Z * Z :=
  match dt_date (a_birthday a) with
  | None => b
  | Some d => (d_day d, d_month d, if (0 <? d_year d)%Z then d_year d else snd b)
  end.
Definition birth_date (b : Z * Z * Z) : option date := mk_date (snd b) (snd (fst b)) (fst (fst b)).
(** the birthdays of the contacts read back from the export of a list *)
Fixpoint birthdays_after (b : Z * Z * Z) (l : list addressee) : list (option date) :=
  match l with
  | [] => []
  | a :: r => (if named a then [birth_date (birth_after b a)] else []) ++ birthdays_after (birth_after b a) r
  end.

(** ** Groups *)

(** the members have well-formed texts without commas *)
Definition group_exportable (g : cgroup) : Prop :=
  Forall (fun d => text_ok (cn_mail (cd_name d) (cd_email d)) = true /\ ~ In cCOMMA (cd_name d) /\ ~ In cCOMMA (cd_email d)) (cg_data g).
(** name and e-mail address of a member: without outer blanks; the address in angle
    brackets if both are there *)
Definition carried_member (d : cdata) : ustring * ustring :=
  let n := utrimmed (cd_name d) in
  let m := utrimmed (cd_email d) in
  (n, if isnil n || isnil m then m else B " <" ++ m ++ B ">").
(** [h] is what is read back of [g]: the members, but neither name nor references *)
Record group_back (g h : cgroup) : Prop := {
  gb_members : map (fun d => (cd_name d, cd_email d)) (cg_data h) = map carried_member (cg_data g);
  gb_customs : Forall (fun d => cd_customs d = []) (cg_data h);
  gb_rest : (cg_name h, cg_refs h, cg_grefs h) = ([], [], [])
}.
