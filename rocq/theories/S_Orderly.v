(** Specification vocabulary for C58: contacts in order. *)
From Verif Require Import Base QtText M_ParamMap M_VCard S_Card M_Values M_Date M_Addressee M_VCardTool S_Contact.

(** every name at most once, in increasing order, with a value, and no value twice *)
Definition params_orderly (m : pmap) : Prop :=
  increasing (map fst m) /\ Forall (fun e => snd e <> [] /\ NoDup (snd e)) m.

(** What a program that shows or searches a contact may take for granted.  [Q]: what
    is known about titles, roles, organisations, nick names and pid maps. *)
Record orderly_with (Q : ptext -> Prop) (V : Env) (a : addressee) : Prop := {
  (** no e-mail address twice *)
  o_emails : NoDup (map em_mail (a_emails a));
  (** no language twice, and none that is only white space *)
  o_langs : NoDup (map pt_text (a_langs a)) /\ Forall (fun x => simplified (pt_text x) <> []) (a_langs a);
  (** phone numbers, addresses and keys are told apart by their identifiers; no
      empty phone number and no empty address *)
  o_phones : NoDup (map ph_id (a_phones a)) /\
             Forall (fun p => ph_number p <> [] /\ simplified (ph_number p) = ph_number p) (a_phones a);
  o_addresses : NoDup (map ad_id (a_addresses a)) /\ Forall (fun x => ad_empty x = false) (a_addresses a);
  o_keys : NoDup (map ke_id (a_keys a));
  (** no member and no relation twice *)
  o_members : NoDup (a_members a);
  o_related : NoDup (a_related a);
  (** custom entries: sorted by name, each name once, APP-NAME with a value *)
  o_customs : increasing (map fst (a_customs a)) /\
              Forall (fun e => snd e <> [] /\ exists app name, app <> [] /\ name <> [] /\ fst e = app ++ [45%N] ++ name) (a_customs a);
  o_texts : Forall Q (a_titles a ++ a_roles a ++ a_orgs a ++ a_nicks a ++ a_pidmaps a);
  (** no invalid URL, calendar URL or messaging address, no field group without a name *)
  o_urls : Forall (fun u => url_valid (env_url V) (ru_url u) = true) (a_urls a);
  o_calurls : Forall (fun u => cu_type u <> CalUnknown /\ url_valid (env_url V) (cu_url u) = true) (a_calurls a);
  o_impps : Forall (fun i => im_address i <> [] /\ url_scheme (env_url V) (im_address i) <> []) (a_impps a);
  o_fgroups : Forall (fun f => fg_name f <> []) (a_fgroups a);
  o_params : Forall params_orderly (all_params a)
}.
(** no empty title, role, organisation, nick name, pid map *)
Definition filled (x : ptext) : Prop := pt_text x <> [].
Definition orderly : Env -> addressee -> Prop := orderly_with filled.

(** ** The calls of the API that insert, remove or set a single value *)
Inductive edit :=
| EText (put : ustring -> addressee -> addressee) (v : ustring)
| EBirthday (d : datetime) (t : bool) | EBirthdayDate (d : option date) | EDeathdate (d : datetime) | ERevision (d : datetime)
| ETz (z : tzone) | EGeo (g : geo) | ESecrecy (s : secrecy) | ELogo (p : picture) | EPhoto (p : picture) | ESound (s : sound)
| EGender (g : gender) | EXlogo (p : picture) | EXphoto (p : picture) | EXsound (s : sound)
| EUrl (u : rurl) | ESource (u : qurl) | EFgroup (f : fgroup) | EPidmap (p : ptext) | EImpp (i : impp) | ECalurl (c : calurl)
| ETitle (t : ptext) | ERole (t : ptext) | EOrg (t : ptext) | ENick (t : ptext)
| EEmail (e : email) | ENoEmail (m : ustring) | ELang (t : ptext) | ENoLang (m : ustring)
| EPhone (p : phone) | ENoPhone (p : phone) | EAddress (x : address) | ENoAddress (x : address)
| EKey (k : key) | ENoKey (k : key)
| ECategory (c : ustring) | ENoCategory (c : ustring) | ECategories (l : list ustring)
| EMember (m : ustring) | ERelated (r : ptext) | ECustom (app name value : ustring) | ENoCustom (app name : ustring).

Definition do_edit (V : Env) (e : edit) (a : addressee) : addressee :=
  match e with
  | EText set v => set v a
  | EBirthday d t => set_birthday V d t a | EBirthdayDate d => set_birthday_date d a
  | EDeathdate d => set_deathdate V d a | ERevision d => set_revision V d a
  | ETz z => set_tz z a | EGeo g => set_geo g a | ESecrecy s => set_secrecy s a
  | ELogo p => set_logo V p a | EPhoto p => set_photo V p a | ESound s => set_sound s a | EGender g => set_gender g a
  | EXlogo p => insert_xlogo p a | EXphoto p => insert_xphoto p a | EXsound s => insert_xsound s a
  | EUrl u => insert_url V u a | ESource u => insert_source u a | EFgroup f => insert_fgroup f a
  | EPidmap p => insert_pidmap p a | EImpp i => insert_impp V i a | ECalurl c => insert_calurl V c a
  | ETitle t => insert_title t a | ERole t => insert_role t a | EOrg t => insert_org t a | ENick t => insert_nick t a
  | EEmail x => add_email x a | ENoEmail m => remove_email m a
  | ELang t => insert_lang t a | ENoLang m => remove_lang m a
  | EPhone p => insert_phone p a | ENoPhone p => remove_phone p a
  | EAddress x => insert_address x a | ENoAddress x => remove_address x a
  | EKey k => insert_key k a | ENoKey k => remove_key k a
  | ECategory c => insert_category c a | ENoCategory c => remove_category c a | ECategories l => set_categories l a
  | EMember m => insert_member m a | ERelated r => insert_related r a
  | ECustom p n v => insert_custom p n v a | ENoCustom p n => remove_custom p n a
  end.

Definition text_setters : list (ustring -> addressee -> addressee) :=
  [set_uid; set_name; set_kind; set_formatted; set_family; set_given; set_additional; set_prefix; set_suffix; set_mailer;
   set_department; set_note; set_prodid; set_sortstring].

(** The arguments: parameters without gaps, and a phone number that is not blank. *)
Definition edit_ok (e : edit) : Prop :=
  match e with
  | EText set _ => In set text_setters
  | EUrl u => params_orderly (ru_params u) | EFgroup f => params_orderly (fg_params f) | EImpp i => params_orderly (im_params i)
  | ECalurl c => params_orderly (cu_params c)
  | EPidmap t | ETitle t | ERole t | EOrg t | ENick t | ELang t | ERelated t => params_orderly (pt_params t)
  | EEmail x => params_orderly (em_params x)
  | EPhone p => params_orderly (ph_params p) /\ ph_number p <> [] /\ simplified (ph_number p) = ph_number p
  | _ => True
  end.
