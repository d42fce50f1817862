(** C81: what the attributes of LDIF entries, whoever wrote them, say. *)
From Verif Require Import Base BaseFacts Utf8 Utf8Facts QtText M_ParamMap M_Values M_Date M_Addressee M_ContactGroup M_Ldif S_Ldif S_LdifContact P_LdifBack S_DateText S_LdifMeaning P_LdifMeaning3 P_LdifConv Prop_Ldif Prop_Ldif2 Prop_Api.
Local Open Scope list_scope.
Local Open Scope nat_scope.

(** Every text: the contacts and groups appended to the lists are those of the entries, in
    order.  An entry with members is a group; another one is a contact if it has a name. *)
Theorem C81_text :
  forall (E : LdifExt) (dt : datetime) (str : ustring) (cs : list addressee) (gs : list cgroup),
    (forall i j, le_newid E i = le_newid E j -> i = j) -> url_valid (env_url (le_env E)) [] = false ->
    dt_valid dt = true \/ dt_valid (le_now E) = true ->
    let rev := if dt_valid dt then dt else le_now E in
    exists es bs hs, all_reports (to_latin1 str) = Some es
      /\ ldif_to_addressee E str dt cs gs = Some (cs ++ bs, gs ++ hs)
      /\ Forall2 (fun e b => says_contact E rev (attributes e) b /\ nothing_else b) (filter is_contact (entries_of [] es)) bs
      /\ map (fun b => dt_date (a_birthday b)) bs = birthdays_said no_birth (entries_of [] es)
      /\ Forall (fun b => a_bdaytime b = false) bs
      /\ Forall2 (fun e g => says_group (attributes e) g) (filter is_group (entries_of [] es)) hs.
Proof. exact text_means. Qed.
Print Assumptions C81_text.

(** The text of a list of entries, each a name and attributes; values may be encoded and
    lines folded. *)
Theorem C81_entries :
  forall (E : LdifExt) (dt : datetime) (sc : bool) (len : nat) (es : list entry) (str : ustring),
    (forall i j, le_newid E i = le_newid E j -> i = j) -> url_valid (env_url (le_env E)) [] = false ->
    dt_valid dt = true \/ dt_valid (le_now E) = true ->
    forallb entry_ok es = true -> to_latin1 str = flat_map (entry_text sc len) es ->
    let rev := if dt_valid dt then dt else le_now E in
    exists bs hs, ldif_to_addressee E str dt [] [] = Some (bs, hs)
      /\ Forall2 (fun e b => says_contact E rev (attributes e) b /\ nothing_else b) (filter is_contact (map snd es)) bs
      /\ map (fun b => dt_date (a_birthday b)) bs = birthdays_said no_birth (map snd es)
      /\ Forall2 (fun e g => says_group (attributes e) g) (filter is_group (map snd es)) hs.
Proof.
  intros E dt sc len es str I NU D OK T rev. destruct (text_means E dt str [] [] I NU D) as (ev & bs & hs & R & L & F & M & _ & G).
  exists bs, hs. rewrite all_reports_evs, T, (evs_entries sc len es OK) in R. injection R as <-. rewrite entries_events in *.
  split; [exact L|]. split; [exact F|]. split; [exact M|exact G].
Qed.
Print Assumptions C81_entries.

(** Three numbers in decimal digits that are a date: the birthday. *)
Theorem C81_birthday :
  forall (ps : attrs) (b : Z * Z * Z) (d : date),
    date_ok (d_year d) (d_month d) (d_day d) = true -> (0 < d_year d < 2147483648)%Z ->
    last_of ["birthyear"]%string ps = decimal (Z.to_N (d_year d)) -> last_of ["birthmonth"]%string ps = decimal (Z.to_N (d_month d)) ->
    last_of ["birthday"]%string ps = decimal (Z.to_N (d_day d)) -> birthday_said b ps = Some d.
Proof.
  intros ps b d D Y HY HM HD. assert (D' := D). unfold date_ok in D'. rewrite !andb_true_iff, !Z.leb_le in D'. destruct D' as ((((Y0 & M1) & M2) & D1) & D2).
  assert (month_days (d_year d) (d_month d) <= 31)%Z by apply month_days_le.
  assert (L : forall bad names old z, (0 <= z < 2147483648)%Z -> last_of names ps = decimal (Z.to_N z) -> last_number bad names ps old = z).
  { intros bad names old z Hz H1. unfold last_number, last_of in *. destruct (all_of names ps) as [|x l].
    - pose proof (P_LdifRead.decimal_nonnil (Z.to_N z)) as NN. rewrite <- H1 in NN. discriminate.
    - rewrite H1. rewrite (proj2 (decimal_int z Hz)). reflexivity. }
  unfold birthday_said, birth_said, birth_date. cbn [fst snd]. 
  assert (YR : (0 <= d_year d < 2147483648)%Z) by lia. assert (MR : (0 <= d_month d < 2147483648)%Z) by lia. assert (DR : (0 <= d_day d < 2147483648)%Z) by lia.
  rewrite (L _ _ _ _ YR HY), (L _ _ _ _ MR HM), (L _ _ _ _ DR HD).
  unfold mk_date. rewrite D. destruct d; reflexivity.
Qed.
Print Assumptions C81_birthday.

(** The text is turned into Latin-1 bytes before the values are decoded from UTF-8: a letter
    that is not ASCII and not encoded is lost. *)
Theorem C81_letters_refuted :
  exists str name, str = B "dn: x" ++ nl ++ B "cn: " ++ name ++ nl /\ valid_utf16 name = true /\
    option_map (fun p => map a_formatted (fst p)) (ldif_to_addressee ex_ldif str ex_now [] []) <> Some [name].
Proof. exists (B "dn: x" ++ nl ++ B "cn: " ++ [77; 252; 108]%N ++ nl), [77; 252; 108]%N. split; [reflexivity|]. split; [reflexivity|]. vm_compute. congruence. Qed.
Print Assumptions C81_letters_refuted.
(** An attribute without value makes an address of nothing. *)
Theorem C81_address_refuted :
  exists str, option_map (fun p => map (fun a => map parts_of (a_addresses a)) (fst p)) (ldif_to_addressee ex_ldif str ex_now [] [])
    = Some [[[[]; []; []; []; []; []; []; []]]].
Proof. exists (B "dn: x" ++ nl ++ B "cn: A" ++ nl ++ B "st:" ++ nl). vm_compute. reflexivity. Qed.
Print Assumptions C81_address_refuted.

(** The letter Z says that the time is in UTC; it is taken as local time. *)
Definition two_ahead : LdifExt :=
  {| le_signed := true; le_env := noV; le_now := dt_null; le_newid := le_newid ex_ldif; le_country := le_country ex_ldif; le_display := le_display ex_ldif |}.
Theorem C81_zone_refuted :
  exists E str, str = B "dn: x" ++ nl ++ B "cn: A" ++ nl ++ B "modifytimestamp: 20200228T120000Z" ++ nl /\
    option_map (fun p => map (fun a => dt_eq (le_env E) (a_revision a) (mkDt (Some (mkDate 2020 2 28)) (Some (mkTime 12 0 0 0)) TUtc)) (fst p))
      (ldif_to_addressee E str ex_now [] []) = Some [false].
Proof. exists two_ahead. eexists. split; [reflexivity|]. vm_compute. reflexivity. Qed.
Print Assumptions C81_zone_refuted.

(** ** A text of two contacts and a group *)

Definition C81_es : list entry :=
  [(B "cn=Ann", [(B "objectClass", B "person"); (B "CN", B "Ann M."); (B "sn", to_utf8 [77; 252; 108]%N); (B "givenName", B "Ann");
     (B "Mail", B "a@kde.org"); (B "mozillaSecondEmail", B "b@kde.org"); (B "mail", B "a@kde.org"); (B "telephoneNumber", B " 1  2"); (B "mobile", B "3");
     (B "street", B "Main 1"); (B "mozillaWorkStreet2", B "Back"); (B "l", B "Berlin"); (B "c", B "DE"); (B "description", B "x"); (B "custom1", B "y");
     (B "birthyear", B "1999"); (B "birthmonth", B "12"); (B "birthday", B "31"); (B "modifytimestamp", B "20200229T235958Z");
     (B "workurl", B "https://kde.org"); (B "ou", B "boss"); (B "o", B "KDE")]);
   (B "cn=all", [(B "objectclass", B "groupOfNames"); (B "member", B "cn=Ann M.,mail=a@kde.org"); (B "Member", B "mail=c@kde.org"); (B "display-name", B "All")]);
   (B "cn=B", [(B "cn", B "Bob"); (B "xbatbirthday", B "20010203"); (B "homepostaladdress", B "Home 2")])].
Example C81_case :
  forallb entry_ok C81_es = true
  /\ (forall i j, le_newid ex_ldif i = le_newid ex_ldif j -> i = j) /\ url_valid (env_url (le_env ex_ldif)) [] = false /\ dt_valid ex_now = true
  /\ length (filter is_contact (map snd C81_es)) = 2 /\ length (filter is_group (map snd C81_es)) = 1
  /\ to_latin1 (flat_map (entry_text true 30) C81_es) = flat_map (entry_text true 30) C81_es
  /\ phones_said (attributes (snd (hd ([], []) C81_es))) = [(tWork, B "1 2"); (tCell, B "3")]
  /\ addresses_said ex_ldif (attributes (snd (hd ([], []) C81_es))) = [(aWork, [[]; []; B "Main 1" ++ nl ++ B "Back"; B "Berlin"; []; []; B "DE"; []])]
  /\ note_of (attributes (snd (hd ([], []) C81_es))) = B "x" ++ nl ++ B "y"
  /\ birthdays_said no_birth (map snd C81_es) = [Some (mkDate 1999 12 31); Some (mkDate 1999 12 31)]
  /\ stamp (mkDate 2020 2 29) (mkTime 23 59 58 0) (B "Z") (B "20200229T235958Z")
  /\ stamp (mkDate 2020 2 29) (mkTime 23 59 58 0) [] (B "2020-02-29T23:59:58").
Proof.
  split; [vm_compute; reflexivity|]. split; [exact (sane_id _ ex_sane)|]. split; [reflexivity|]. split; [reflexivity|].
  repeat (split; [vm_compute; reflexivity|]).
  split; [split; [cbn; lia|split; [reflexivity|split; [reflexivity|split; [reflexivity|left; reflexivity]]]]|].
  split; [cbn; lia|split; [reflexivity|split; [reflexivity|split; [reflexivity|right; reflexivity]]]].
Qed.
Example C81_members :
  map member_said (all_of ["member"]%string (attributes (snd (nth 1 C81_es ([], []))))) = [(B "Ann M.", B " <a@kde.org>"); ([], B "c@kde.org")].
Proof. vm_compute. reflexivity. Qed.
Example C81_birthday_case :
  let ps := attributes (snd (hd ([], []) C81_es)) in
  last_of ["birthyear"]%string ps = decimal 1999 /\ last_of ["birthmonth"]%string ps = decimal 12 /\ last_of ["birthday"]%string ps = decimal 31 /\ date_ok 1999 12 31 = true.
Proof. vm_compute. auto. Qed.
