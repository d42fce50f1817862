(** Specification for C81: what the attributes of an LDIF entry say about a contact or a
    group.  Nothing here mentions the writer. *)
From Verif Require Import Base Utf8 QtText M_ParamMap M_Values M_Date M_Addressee M_ContactGroup M_Ldif S_Ldif S_LdifContact S_DateText.
Local Open Scope list_scope.
Local Open Scope nat_scope.

(** ** Entries of a text *)

(** The attributes of the entries reported; what follows the last end of an entry belongs
    to none. *)
Fixpoint entries_of (cur : list (ustring * bytes)) (es : list event) : list (list (ustring * bytes)) :=
  match es with
  | [] => []
  | (PItem, f, v) :: r => entries_of (cur ++ [(f, v)]) r
  | (PEndEntry, _, _) :: r => cur :: entries_of [] r
  | _ :: r => entries_of cur r
  end.
(** names in lower case, values as texts *)
Definition attrs : Type := list (ustring * ustring).
Definition attributes (e : list (ustring * bytes)) : attrs := map (fun p => (to_lower (fst p), from_utf8 (snd p))) e.

(** ** Values of attributes *)

Definition called (names : list string) (p : ustring * ustring) : bool := existsb (fun n => leqb (fst p) (B n)) names.
(** all values of the attributes with one of these names, in order *)
Definition all_of (names : list string) (ps : attrs) : list ustring := map snd (filter (called names) ps).
(** the last one; the empty text if there is none *)
Definition last_of (names : list string) (ps : attrs) : ustring := last (all_of names ps) [].

(** the texts of a list, each once *)
Fixpoint once (l : list ustring) : list ustring :=
  match l with
  | [] => []
  | x :: r => x :: filter (fun y => negb (leqb y x)) (once r)
  end.
(** The first name, then the others on lines of their own; an attribute without name
    continues what is there. *)
Definition note_names : list string :=
  ["description"; "mozillacustom1"; "mozillacustom2"; "mozillacustom3"; "mozillacustom4"; "custom1"; "custom2"; "custom3"; "custom4"]%string.
Definition note_of (ps : attrs) : ustring :=
  fold_left (fun n p => if called note_names p || isnil (fst p) && negb (isnil n)
                        then (if isnil n then snd p else n ++ cLF :: snd p) else n) ps [].

(** telephone numbers: which attribute is which kind *)
Definition phone_kinds : list (string * N) :=
  [("homephone", tHome); ("telephonenumber", tWork); ("xmozillaanyphone", tWork); ("mobile", tCell); ("cellphone", tCell);
   ("pager", tPager); ("pagerphone", tPager); ("facsimiletelephonenumber", tFax)]%string.
Definition phones_said (ps : attrs) : list (N * ustring) :=
  flat_map (fun p => flat_map (fun k => if leqb (fst p) (B (fst k)) && negb (isnil (simplified (snd p)))
                                        then [(snd k, simplified (snd p))] else []) phone_kinds) ps.

(** ** Addresses *)

(** the last text given for the street, with the lines added since *)
Definition street_said (whole line : list string) (ps : attrs) : ustring :=
  fold_left (fun s p => if called whole p then snd p else if called line p then s ++ cLF :: snd p else s) ps [].
(** a country of at most two letters is a code *)
Definition country_said (E : LdifExt) (names : list string) (ps : attrs) : ustring :=
  last (map (fun v => if length v <=? 2 then le_country E v else v) (all_of names ps)) [].
Definition home_said (E : LdifExt) (ps : attrs) : list ustring :=
  [[]; [];
   street_said ["streethomeaddress"; "mozillahomestreet"; "homepostaladdress"]%string ["mozillahomepostaladdress2"]%string ps;
   last_of ["mozillahomelocalityname"]%string ps; last_of ["mozillahomestate"]%string ps;
   last_of ["mozillahomepostalcode"]%string ps; country_said E ["mozillahomecountryname"]%string ps; []].
Definition home_names : list string :=
  ["streethomeaddress"; "mozillahomestreet"; "homepostaladdress"; "mozillahomepostaladdress2"; "mozillahomelocalityname";
   "mozillahomestate"; "mozillahomepostalcode"; "mozillahomecountryname"]%string.
Definition work_said (E : LdifExt) (ps : attrs) : list ustring :=
  [last_of ["postofficebox"]%string ps; [];
   street_said ["street"; "postaladdress"; "streetaddress"]%string ["mozillapostaladdress2"; "mozillaworkstreet2"]%string ps;
   last_of ["l"; "locality"]%string ps; last_of ["st"]%string ps;
   last_of ["postalcode"]%string ps; country_said E ["c"; "countryname"]%string ps; []].
Definition work_names : list string :=
  ["postofficebox"; "street"; "postaladdress"; "streetaddress"; "mozillapostaladdress2"; "mozillaworkstreet2"; "l"; "locality";
   "st"; "postalcode"; "c"; "countryname"]%string.
(** an address that is mentioned; the one at home first *)
Definition addresses_said (E : LdifExt) (ps : attrs) : list (N * list ustring) :=
  (if isnil (all_of home_names ps) then [] else [(aHome, home_said E ps)])
  ++ (if isnil (all_of work_names ps) then [] else [(aWork, work_said E ps)]).

(** ** Dates *)

(** a time stamp: digits, or with separators; something may follow *)
Definition stamp (d : date) (t : time) (tail v : ustring) : Prop :=
  (0 <= d_year d < 10000)%Z /\ date_ok (d_year d) (d_month d) (d_day d) = true
  /\ time_ok (t_hour t) (t_min t) (t_sec t) (t_msec t) = true /\ t_msec t = 0%Z /\
  ( v = four (d_year d) ++ two (d_month d) ++ two (d_day d) ++ B "T" ++ two (t_hour t) ++ two (t_min t) ++ two (t_sec t) ++ tail
  \/ v = four (d_year d) ++ B "-" ++ two (d_month d) ++ B "-" ++ two (d_day d) ++ B "T"
         ++ two (t_hour t) ++ B ":" ++ two (t_min t) ++ B ":" ++ two (t_sec t) ++ tail).
(** a value of the time of the last change: a time stamp, taken as local time, or [0Z],
    which says nothing *)
Definition stamp_says (v : ustring) (o : option datetime) : Prop :=
  v = B "0Z" /\ o = None \/ exists d t tail, stamp d t tail v /\ o = Some (mkDt (Some d) (Some t) TLocal).
Fixpoint last_some {A : Type} (l : list (option A)) (x : A) : A :=
  match l with [] => x | Some y :: r => last_some r y | None :: r => last_some r x end.

(** the number that QString::toInt sees; without one: 0, for the year -1 *)
Definition last_number (bad : Z) (names : list string) (ps : attrs) (old : Z) : Z :=
  match all_of names ps with
  | [] => old
  | vs => match to_int_ok (last vs []) with Some n => n | None => bad end
  end.
(** day, month and year after an entry; [b]: before it *)
Definition birth_said (b : Z * Z * Z) (ps : attrs) : Z * Z * Z :=
  (last_number 0 ["birthday"]%string ps (fst (fst b)), last_number 0 ["birthmonth"]%string ps (snd (fst b)),
   last_number (-1) ["birthyear"]%string ps (snd b)).
(** The Bat!: year, month and day in eight characters *)
Definition eight (v : ustring) : option date :=
  mk_date (to_int (firstn 4 v)) (to_int (firstn 2 (skipn 4 v))) (to_int (firstn 2 (skipn 6 v))).
Definition bat_birthday (ps : attrs) : option date :=
  last (flat_map (fun v => match eight v with Some d => [Some d] | None => [] end) (all_of ["xbatbirthday"]%string ps)) None.
Definition birthday_said (b : Z * Z * Z) (ps : attrs) : option date :=
  match birth_date (birth_said b ps) with Some d => Some d | None => bat_birthday ps end.

(** ** Contacts *)

Definition uses_name (ps : attrs) : bool := negb (isnil (last_of ["cn"]%string ps)) || negb (isnil (last_of ["sn"]%string ps)).
Definition has_member (ps : attrs) : bool := negb (isnil (all_of ["member"]%string ps)).
Definition is_contact (e : list (ustring * bytes)) : bool := negb (has_member (attributes e)) && uses_name (attributes e).
Definition is_group (e : list (ustring * bytes)) : bool := has_member (attributes e).

Record says_contact (E : LdifExt) (rev : datetime) (ps : attrs) (b : addressee) : Prop := {
  sc_given : a_given b = last_of ["givenname"]%string ps;
  sc_family : a_family b = last_of ["sn"]%string ps;
  sc_formatted : a_formatted b = last_of ["cn"]%string ps;
  sc_prefix : a_prefix b = last_of ["vocation"]%string ps;
  sc_uid : match all_of ["uid"]%string ps with [] => exists k, a_uid b = le_newid E k | vs => a_uid b = last vs [] end;
  sc_nickname : nickname b = last_of ["nickname"; "xmozillanickname"; "mozillanickname"]%string ps;
  sc_title : title b = last_of ["title"]%string ps;
  sc_role : role b = last_of ["ou"]%string ps;
  sc_organization : organization b = last_of ["o"; "organization"; "organizationname"]%string ps;
  sc_department : a_department b = last_of ["department"]%string ps;
  sc_note : a_note b = note_of ps;
  sc_emails : emails_of b = once (all_of ["mail"; "mozillasecondemail"; "othermailbox"]%string ps);
  sc_phones : map (fun p => (ph_type p, ph_number p)) (a_phones b) = phones_said ps;
  sc_addresses : map (fun x => (ad_type x, parts_of x)) (a_addresses b) = addresses_said E ps;
  sc_urls : a_urls b = match filter (url_valid (env_url (le_env E)))
                                (map (url_parse (env_url (le_env E))) (all_of ["homeurl"; "workurl"; "mozillahomeurl"]%string ps)) with
                       | u :: _ => [mkRurl [] u]
                       | [] => []
                       end;
  sc_revision : forall os, Forall2 stamp_says (all_of ["modifytimestamp"]%string ps) os ->
                dt_eq (le_env E) (a_revision b) (last_some os rev) = true
}.
(** the birthdays of the contacts of a text; the parts go from one entry to the next *)
Fixpoint birthdays_said (b : Z * Z * Z) (l : list (list (ustring * bytes))) : list (option date) :=
  match l with
  | [] => []
  | e :: r => (if is_contact e then [birthday_said b (attributes e)] else []) ++ birthdays_said (birth_said b (attributes e)) r
  end.

(** ** Groups *)

(** the text after [cn=] or [mail=] in the last part that begins so *)
Definition part_said (k : string) (v : ustring) : ustring :=
  last (flat_map (fun s => if starts_with (B k) s then [utrimmed (skipn (length (B k)) s)] else []) (split cCOMMA v)) [].
Definition member_said (v : ustring) : ustring * ustring :=
  let n := part_said "cn=" v in
  let m := part_said "mail=" v in
  (n, if isnil n || isnil m then m else B " <" ++ m ++ B ">").
Record says_group (ps : attrs) (g : cgroup) : Prop := {
  sg_name : cg_name g = last_of ["display-name"]%string ps;
  sg_members : map (fun d => (cd_name d, cd_email d)) (cg_data g) = map member_said (all_of ["member"]%string ps);
  sg_rest : Forall (fun d => cd_customs d = []) (cg_data g) /\ (cg_refs g, cg_grefs g) = ([], [])
}.
