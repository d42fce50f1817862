(** Specification of copying (C21): a program means the same as if every variable
    held its own complete value. *)
From Verif Require Import Base M_ParamMap M_Values M_Date M_Addressee M_Copy.
Local Open Scope list_scope.
Local Open Scope nat_scope.

Section Values.
Context {T : Type}.
(** one value per variable *)
Definition vexec (s : stmt T) (vs : list T) : list T :=
  match s with
  | New v => vs ++ [v]
  | Copy j => match nth_error vs j with Some v => vs ++ [v] | None => vs end
  | Assign i j => match nth_error vs j with Some v => set_at i v vs | None => vs end
  | Call i f => match nth_error vs i with Some v => set_at i (f v) vs | None => vs end
  end.
Definition vexec_all (p : list (stmt T)) : list T := fold_left (fun vs s => vexec s vs) p [].

(** every member function called in the program satisfies [P] *)
Definition calls (P : (T -> T) -> Prop) (p : list (stmt T)) : Prop :=
  Forall (fun s => match s with Call _ f => P f | _ => True end) p.
(** what a member function makes of the visible part [obs] depends on the visible part *)
Definition respects {O} (obs : T -> O) (f : T -> T) : Prop := forall v w, obs v = obs w -> obs (f v) = obs (f w).
(** a copy constructor keeps [obs] *)
Definition keeps {O} (obs : T -> O) (detach : T -> T) : Prop := forall v, obs (detach v) = obs v.
End Values.

(** Modifying member functions of a contact that do not concern the members the copy
    constructor forgets. *)
Inductive contact_call :=
| KUid (s : ustring) | KName (s : ustring) | KFormatted (s : ustring) | KFamily (s : ustring) | KGiven (s : ustring)
| KAdditional (s : ustring) | KPrefix (s : ustring) | KSuffix (s : ustring) | KMailer (s : ustring)
| KDepartment (s : ustring) | KNote (s : ustring) | KProdid (s : ustring) | KSortString (s : ustring)
| KBirthday (V : Env) (d : datetime) (t : bool) | KDeath (V : Env) (d : datetime) | KRevision (V : Env) (d : datetime)
| KTz (t : tzone) | KGeo (g : geo) | KSecrecy (s : secrecy) | KLogo (V : Env) (p : picture) | KPhoto (V : Env) (p : picture)
| KSound (s : sound) | KGender (g : gender) | KEmail (e : email) | KNoEmail (s : ustring) | KEmails (l : list email)
| KLang (l : ptext) | KNoLang (s : ustring) | KPhone (p : phone) | KNoPhone (p : phone)
| KAddress (a : address) | KNoAddress (a : address) | KKey (k : key) | KNoKey (k : key)
| KImpp (V : Env) (i : impp) | KUrl (V : Env) (u : rurl) | KTitle (s : ustring) | KRole (s : ustring) | KOrg (s : ustring)
| KCategory (s : ustring) | KNoCategory (s : ustring) | KCategories (l : list ustring)
| KCustom (app name value : ustring) | KNoCustom (app name : ustring) | KCustoms (l : list ustring)
| KMember (s : ustring) | KRelated (r : ptext) | KCalendar (V : Env) (c : calurl) | KSource (u : qurl).
Definition contact_do (c : contact_call) : addressee -> addressee :=
  match c with
  | KUid s => set_uid s | KName s => set_name s | KFormatted s => set_formatted s | KFamily s => set_family s
  | KGiven s => set_given s | KAdditional s => set_additional s | KPrefix s => set_prefix s | KSuffix s => set_suffix s
  | KMailer s => set_mailer s | KDepartment s => set_department s | KNote s => set_note s | KProdid s => set_prodid s
  | KSortString s => set_sortstring s
  | KBirthday V d t => set_birthday V d t | KDeath V d => set_deathdate V d | KRevision V d => set_revision V d
  | KTz t => set_tz t | KGeo g => set_geo g | KSecrecy s => set_secrecy s | KLogo V p => set_logo V p
  | KPhoto V p => set_photo V p | KSound s => set_sound s | KGender g => set_gender g
  | KEmail e => add_email e | KNoEmail s => remove_email s | KEmails l => set_email_list l
  | KLang l => insert_lang l | KNoLang s => remove_lang s | KPhone p => insert_phone p | KNoPhone p => remove_phone p
  | KAddress a => insert_address a | KNoAddress a => remove_address a | KKey k => insert_key k | KNoKey k => remove_key k
  | KImpp V i => insert_impp V i | KUrl V u => insert_url V u | KTitle s => set_title s | KRole s => set_role s
  | KOrg s => set_organization s | KCategory s => insert_category s | KNoCategory s => remove_category s
  | KCategories l => set_categories l | KCustom a n v => insert_custom a n v | KNoCustom a n => remove_custom a n
  | KCustoms l => set_customs l | KMember s => insert_member s | KRelated r => insert_related r
  | KCalendar V c => insert_calurl V c | KSource u => insert_source u
  end.

(** a contact without its kind, field groups, nick names and client PID maps *)
Definition others (a : addressee) : addressee :=
  put_pidmaps [] (put_nicks [] (put_fgroups [] (put_kind [] a))).
