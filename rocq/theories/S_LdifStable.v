(** Specification for C90: which contacts an LDIF export keeps as they are written. *)
From Verif Require Import Base Utf8 QtText M_ParamMap M_Values M_Date M_Addressee M_ContactGroup M_Ldif S_Ldif S_LdifContact.
Local Open Scope list_scope.

(** nothing, one line, or two lines; none of the lines empty *)
Definition two_lines (s : ustring) : Prop :=
  s = [] \/ (s <> [] /\ ~ In cLF s) \/ (exists x y, s = x ++ cLF :: y /\ x <> [] /\ y <> [] /\ ~ In cLF x /\ ~ In cLF y).

(** A contact that the import takes and of which the export writes nothing that the
    import changes; [dt]: the date given to the import. *)
Record tidy (E : LdifExt) (dt : datetime) (a : addressee) : Prop := {
  ti_filled : a_empty a = false;
  ti_named : named a = true;
  ti_uid : a_uid a <> [];
  ti_emails : NoDup (emails_of a) /\ ~ In [] (emails_of a);
  ti_phones : forall t, In t [tWork; tFax; tHome; tCell; tPager] ->
              simplified (ph_number (phone_number [] t a)) = ph_number (phone_number [] t a);
  ti_streets : two_lines (ad_street (address_of [] aHome a)) /\ two_lines (ad_street (address_of [] aWork a));
  ti_url : url_text E a <> [] ->
           let u := url_parse (env_url (le_env E)) (url_text E a) in
           url_valid (env_url (le_env E)) u = true /\ le_display E u = url_text E a;
  ti_revision : dt_valid (a_revision a) = true /\ dt_eq (le_env E) (carried_revision dt a) dt = false;
  ti_birthday : forall d, dt_date (a_birthday a) = Some d -> (0 < d_year d)%Z
}.
(** No contact without birthday after one with a birthday, see [C28_birthday_refuted]. *)
Definition birthdays_last (l : list addressee) : Prop :=
  ForallOrdPairs (fun a b => dt_date (a_birthday b) = None -> dt_date (a_birthday a) = None) l.
(** A list of contacts to be exported. *)
Definition steady (E : LdifExt) (dt : datetime) (l : list addressee) : Prop :=
  Forall (exportable E) l /\ Forall (tidy E dt) l /\ birthdays_last l.

(** A member of a group with a name or an address, without outer blanks; see
    [C52_email_refuted] for members with both. *)
Definition tidy_member (d : cdata) : Prop :=
  utrimmed (cd_name d) = cd_name d /\ utrimmed (cd_email d) = cd_email d /\ (cd_name d = [] \/ cd_email d = []).
Definition tidy_group (g : cgroup) : Prop := cg_data g <> [] /\ Forall tidy_member (cg_data g).
Definition steady_groups (gs : list cgroup) : Prop := Forall group_exportable gs /\ Forall tidy_group gs.

(** [(r, hs)] is what is left of the contacts [l] and the groups [gs] after [n] exports
    and imports. *)
Inductive ldif_trips (E : LdifExt) (dt : datetime) : nat -> list addressee -> list cgroup -> list addressee -> list cgroup -> Prop :=
| trips_0 : forall l gs, ldif_trips E dt 0 l gs l gs
| trips_S : forall n l gs m ks r hs, ldif_to_addressee E (snd (all_to_ldif E l gs [])) dt [] [] = Some (m, ks) ->
                            ldif_trips E dt n m ks r hs -> ldif_trips E dt (S n) l gs r hs.
