(** Specification for C82: what the LDIF text of a contact or a group says to a reader of
    RFC 2849.  Nothing here mentions the reader of this library. *)
From Verif Require Import Base Utf8 QtText M_ParamMap M_Values M_Date M_Addressee M_ContactGroup M_Ldif S_Ldif S_DateText S_LdifMeaning.
Local Open Scope list_scope.
Local Open Scope nat_scope.

(** ** Lines *)

(** SAFE-STRING: no NUL, LF, CR, no byte above 127; does not begin with a blank, a colon
    or a less-than sign *)
Definition rfc_safe (v : bytes) : bool :=
  forallb (fun c => N.ltb 0 c && N.ltb c 128 && negb (N.eqb c 10) && negb (N.eqb c 13)) v
  && match v with c :: _ => negb (N.eqb c 32) && negb (N.eqb c 58) && negb (N.eqb c 60) | [] => true end.
(** an attribute-value line, continuation lines joined: the value as it is if it is safe,
    in base64 otherwise *)
Definition rfc_line (p : ustring * ustring) : bytes :=
  let v := to_utf8 (snd p) in
  if rfc_safe v then fst p ++ B ": " ++ v else fst p ++ B ":: " ++ to_base64 v.
(** the lines of a text, continuation lines joined *)
Definition logical_lines (text : ustring) : list bytes := split cLF (unfolded (to_latin1 text)).
Definition no_blank (v : ustring) : bool := match v with c :: _ => negb (N.eqb c 32) | [] => true end.
(** text in UTF-16 that does not begin with a blank *)
Definition fine (v : ustring) : bool := valid_utf16 v && no_blank v.
Definition ascii_text (s : ustring) : bool := forallb (fun c => N.ltb c 128) s.

(** ** The attributes of a contact *)

(** the name of the entry *)
Definition dn_text (a : addressee) : ustring := B "cn=" ++ simplified (a_formatted a) ++ B ",mail=" ++ hd [] (emails_of a).

Definition nth_line (n : nat) (s : ustring) : ustring := nth n (split cLF s) [].
Definition rows (E : LdifExt) (a : addressee) : list (list string * ustring) :=
  let home := address_of [] aHome a in
  let work := address_of [] aWork a in
  let phone t := ph_number (phone_number [] t a) in
  let birth f := match dt_date (a_birthday a) with Some d => decimal (Z.to_N (f d)) | None => [] end in
  let url := match a_urls a with u :: _ => le_display E (ru_url u) | [] => [] end in
  [ (["givenname"], a_given a); (["sn"], a_family a); (["cn"], simplified (a_formatted a)); (["uid"], a_uid a);
    (["nickname"; "xmozillanickname"; "mozillanickname"], nickname a); (["title"], title a); (["vocation"], a_prefix a); (["ou"], role a);
    (["o"; "organization"; "organizationname"], organization a);
    (["department"], if isnil (a_department a) then custom (B "KADDRESSBOOK") (B "X-Department") a else a_department a);
    (["description"], a_note a);
    (["mail"], hd [] (emails_of a)); (["mozillasecondemail"], nth 1 (emails_of a) []);
    (["homephone"], phone tHome); (["telephonenumber"], phone tWork); (["mobile"; "cellphone"], phone tCell); (["pager"; "pagerphone"], phone tPager);
    (["facsimiletelephonenumber"], phone tFax);
    (["streethomeaddress"], ad_street home); (["homepostaladdress"], nth_line 0 (ad_street home)); (["mozillahomepostaladdress2"], nth_line 1 (ad_street home));
    (["mozillahomelocalityname"], ad_locality home); (["mozillahomestate"], ad_region home); (["mozillahomepostalcode"], ad_postal home);
    (["mozillahomecountryname"], le_country E (ad_country home));
    (["postofficebox"], ad_pobox work); (["streetaddress"], ad_street work); (["street"], nth_line 0 (ad_street work)); (["mozillaworkstreet2"], nth_line 1 (ad_street work));
    (["l"; "locality"], ad_locality work); (["st"], ad_region work); (["postalcode"], ad_postal work); (["c"; "countryname"], le_country E (ad_country work));
    (["workurl"; "homeurl"; "mozillahomeurl"], url);
    (["birthday"], birth d_day); (["birthmonth"], birth d_month);
    (["birthyear"], match dt_date (a_birthday a) with Some d => if (0 <? d_year d)%Z then decimal (Z.to_N (d_year d)) else [] | None => [] end)
  ]%string.
(** the texts of a contact that are written *)
Definition texts (E : LdifExt) (a : addressee) : list ustring := map snd (rows E a) ++ emails_of a.
Definition given (v : ustring) : list ustring := if isnil v then [] else [v].
(** every row under each of its names, once, if there is something to say; the other
    e-mail addresses; nothing under other names; the time of the last change *)
Record tells_contact (E : LdifExt) (a : addressee) (ps : attrs) : Prop := {
  tc_rows : Forall (fun row => forall n, In n (fst row) -> all_of [n] ps = given (snd row)) (rows E a);
  tc_mails : all_of ["othermailbox"%string] ps = filter (fun v => negb (isnil v)) (skipn 2 (emails_of a));
  tc_revision : forall d t, dt_date (a_revision a) = Some d -> dt_time (a_revision a) = Some t -> (0 <= d_year d < 10000)%Z ->
                date_ok (d_year d) (d_month d) (d_day d) = true -> time_ok (t_hour t) (t_min t) (t_sec t) (t_msec t) = true ->
                all_of ["modifytimestamp"%string] ps = [four (d_year d) ++ two (d_month d) ++ two (d_day d) ++ B "T" ++ two (t_hour t) ++ two (t_min t) ++ two (t_sec t) ++ B "Z"];
  tc_others : forall p, In p ps -> exists n, fst p = B n /\ In n ("othermailbox" :: "modifytimestamp" :: flat_map fst (rows E a))%string
}.

(** ** A group *)

(** one line per member with data of its own *)
Definition member_rows (g : cgroup) : attrs :=
  map (fun d => (B "member", B "cn=" ++ cd_name d ++ B ",mail=" ++ cd_email d)) (cg_data g).
