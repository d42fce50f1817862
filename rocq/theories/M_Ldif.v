(** Model of the LDIF reader and line writer (ldif.cpp) and of the LDIF converter
    (converter/ldifconverter.cpp). *)
From Verif Require Import Base Utf8 QtText M_ParamMap M_Values M_Date M_Addressee M_ContactGroup.
Local Open Scope list_scope.
Local Open Scope nat_scope.

(** ** Lines *)

(** [char] is signed on some processors and unsigned on others; [sc] says which.
    The comparison [c > 0] of a byte, ldif.cpp:71, 82. *)
Definition char_pos (sc : bool) (c : N) : bool :=
  (N.ltb 0 c && (negb sc || N.ltb c 128))%bool.
(** SAFE-INIT-CHAR, ldif.cpp:71-74 *)
Definition safe_init (sc : bool) (c : N) : bool :=
  char_pos sc c && negb (N.eqb c cLF) && negb (N.eqb c cCR) && negb (N.eqb c cCOLON) && negb (N.eqb c 60%N).
(** SAFE-CHAR, ldif.cpp:80-85 *)
Definition safe_char (sc isdn : bool) (c : N) : bool :=
  negb ((isdn && N.eqb c 0) || (negb isdn && negb (char_pos sc c)) || N.eqb c cCR || N.eqb c cLF).
Definition safe_value (sc isdn : bool) (v : bytes) : bool :=
  match v with [] => true | c :: r => safe_init sc c && forallb (safe_char sc isdn) r end.

(** the folding loop, ldif.cpp:101-107.  Every round brings [i] nearer to the end
    ([step] is larger than the two inserted characters), so [length r] rounds are
    always enough (lemma [fold_loop_fuel]). *)
Fixpoint fold_loop (fuel i step : nat) (r : bytes) : bytes :=
  match fuel with
  | O => r
  | S f => if i <? length r then fold_loop f (i + step) step (firstn i r ++ cLF :: cSP :: skipn i r)
           else r
  end.

(** [Ldif::assembleLine], ldif.cpp:60-112.  Simplifications: line lengths above
    [INT_MAX] are not considered; [toLower] of the field name changes ASCII letters
    only. *)
Definition assemble_line (sc : bool) (field : ustring) (value : bytes) (linelen : nat) (url : bool) : bytes :=
  if url then to_utf8 field ++ [cCOLON; 60%N; cSP] ++ value
  else
    let isdn := leqb (to_lower field) (B "dn") in
    let r := if safe_value sc isdn value then to_utf8 field ++ [cCOLON; cSP] ++ value
             else to_utf8 field ++ [cCOLON; cCOLON; cSP] ++ to_base64 value in
    if Nat.eqb linelen 0 then r
    else fold_loop (length r) (Nat.max (length field + 2) linelen) (linelen + 2) r.

(** [Ldif::splitLine], ldif.cpp:119-159: whether the value is a URL, the field name
    and the value *)
Definition split_line (line : bytes) : bool * ustring * bytes :=
  match index_of cCOLON line with
  | None => (false, [], trimmed line)
  | Some p =>
      let field := from_utf8 (trimmed (firstn p line)) in
      match nth_error line (p + 1) with
      | Some c =>
          if N.eqb c cCOLON then
            (false, field, if length line <=? p + 3 then [] else from_base64 (mid (p + 3) line))
          else if N.eqb c 60%N then
            if length line <=? p + 3 then (false, field, [])
            else (true, field, from_base64 (mid (p + 3) line))
          else (false, field, if length line <=? p + 2 then [] else mid (p + 2) line)
      | None => (false, field, [])
      end
  end.

(** [QString::chop] *)
Definition chop (n : nat) (s : ustring) : ustring := firstn (length s - n) s.
(** [Ldif::splitControl], ldif.cpp:161-181: URL, identifier, criticality, value *)
Definition split_control (line : bytes) : bool * ustring * bool * bytes :=
  let '(url, tmp, value) := split_line line in
  let '(tmp, value) := if isnil tmp then (from_utf8 value, []) else (tmp, value) in
  if ends_with (B "true") tmp then (url, chop 5 tmp, true, value)
  else if ends_with (B "false") tmp then (url, chop 6 tmp, false, value)
  else (url, tmp, false, value).

(** ** The reader *)

(** ldif_p.h:28-32 *)
Inductive pval := PNone | PNewEntry | PEndEntry | PItem | PControl | PErr | PMore.
Inductive etype := ENone | EAdd | EDel | EMod | EModrdn.
Inductive mtype := MNone | MAdd | MReplace | MDel.

(** [Ldif::LdifPrivate], ldif.cpp:14-28.  [l_rest] is the text not yet read
    ([mLdif] from [mPos] on); the line counter, which nothing depends on, is left out. *)
Record lstate := mkL {
  l_etype : etype; l_mod : mtype; l_delold : bool; l_url : bool; l_dn : bytes;
  l_attr : ustring; l_newrdn : ustring; l_newsup : ustring; l_oid : ustring;
  l_critical : bool; l_value : bytes; l_last : pval;
  l_newline : bool; l_comment : bool; l_line : bytes; l_rest : bytes
}.
(** [startParsing], ldif.cpp:356-368, [setLdif], ldif.cpp:370-374.  ([mUrl] and
    [mCritical] are not initialised by the code; they are assigned before the
    accessors that return them are meaningful.) *)
Definition ldif_start (text : bytes) : lstate :=
  mkL ENone MNone false false [] [] [] [] [] false [] PNone false false [] text.

(** assignments to members *)
Definition w_etype (e : etype) (s : lstate) : lstate :=
  mkL e (l_mod s) (l_delold s) (l_url s) (l_dn s) (l_attr s) (l_newrdn s) (l_newsup s) (l_oid s)
    (l_critical s) (l_value s) (l_last s) (l_newline s) (l_comment s) (l_line s) (l_rest s).
Definition w_mod (m : mtype) (s : lstate) : lstate :=
  mkL (l_etype s) m (l_delold s) (l_url s) (l_dn s) (l_attr s) (l_newrdn s) (l_newsup s) (l_oid s)
    (l_critical s) (l_value s) (l_last s) (l_newline s) (l_comment s) (l_line s) (l_rest s).
Definition w_delold (b : bool) (s : lstate) : lstate :=
  mkL (l_etype s) (l_mod s) b (l_url s) (l_dn s) (l_attr s) (l_newrdn s) (l_newsup s) (l_oid s)
    (l_critical s) (l_value s) (l_last s) (l_newline s) (l_comment s) (l_line s) (l_rest s).
Definition w_dn (d : bytes) (s : lstate) : lstate :=
  mkL (l_etype s) (l_mod s) (l_delold s) (l_url s) d (l_attr s) (l_newrdn s) (l_newsup s) (l_oid s)
    (l_critical s) (l_value s) (l_last s) (l_newline s) (l_comment s) (l_line s) (l_rest s).
Definition w_item (u : bool) (f : ustring) (v : bytes) (s : lstate) : lstate :=
  mkL (l_etype s) (l_mod s) (l_delold s) u (l_dn s) f (l_newrdn s) (l_newsup s) (l_oid s)
    (l_critical s) v (l_last s) (l_newline s) (l_comment s) (l_line s) (l_rest s).
Definition w_newrdn (v : ustring) (s : lstate) : lstate :=
  mkL (l_etype s) (l_mod s) (l_delold s) (l_url s) (l_dn s) (l_attr s) v (l_newsup s) (l_oid s)
    (l_critical s) (l_value s) (l_last s) (l_newline s) (l_comment s) (l_line s) (l_rest s).
Definition w_newsup (v : ustring) (s : lstate) : lstate :=
  mkL (l_etype s) (l_mod s) (l_delold s) (l_url s) (l_dn s) (l_attr s) (l_newrdn s) v (l_oid s)
    (l_critical s) (l_value s) (l_last s) (l_newline s) (l_comment s) (l_line s) (l_rest s).
Definition w_control (u : bool) (o : ustring) (c : bool) (v : bytes) (s : lstate) : lstate :=
  mkL (l_etype s) (l_mod s) (l_delold s) u (l_dn s) (l_attr s) (l_newrdn s) (l_newsup s) o
    c v (l_last s) (l_newline s) (l_comment s) (l_line s) (l_rest s).
(** the members of the character loop *)
Definition w_scan (last : pval) (newline comment : bool) (line : bytes) (s : lstate) : lstate :=
  mkL (l_etype s) (l_mod s) (l_delold s) (l_url s) (l_dn s) (l_attr s) (l_newrdn s) (l_newsup s) (l_oid s)
    (l_critical s) (l_value s) last newline comment line (l_rest s).
Definition w_rest (r : bytes) (s : lstate) : lstate :=
  mkL (l_etype s) (l_mod s) (l_delold s) (l_url s) (l_dn s) (l_attr s) (l_newrdn s) (l_newsup s) (l_oid s)
    (l_critical s) (l_value s) (l_last s) (l_newline s) (l_comment s) (l_line s) r.

Definition first_is (c : N) (v : bytes) : bool := match v with x :: _ => N.eqb x c | [] => false end.

(** [Ldif::processLine], ldif.cpp:183-307 *)
Definition process_line (s : lstate) : pval * lstate :=
  if l_comment s then (PNone, s)
  else
    let e := match l_last s with PEndEntry => ENone | _ => l_etype s end in
    let '(url, attr, value) := split_line (l_line s) in
    let s := w_item url attr value (w_etype e s) in
    let low := to_lower attr in
    let blank := isnil attr && isnil value in
    match e with
    | ENone =>
        if leqb low (B "version") then (if isnil (l_dn s) then PNone else PErr, s)
        else if leqb low (B "dn") then (PNewEntry, w_mod MNone (w_dn value s))
        else if leqb low (B "changetype") then
          if isnil (l_dn s) then (PErr, s)
          else
            let t := from_utf8 value in
            if leqb t (B "add") then (PNone, w_etype EAdd s)
            else if leqb t (B "delete") then (PNone, w_etype EDel s)
            else if leqb t (B "modrdn") || leqb t (B "moddn")
            then (PNone, w_etype EModrdn (w_delold true (w_newsup [] (w_newrdn [] s))))
            else if leqb t (B "modify") then (PNone, w_etype EMod s)
            else (PErr, s)
        else if leqb low (B "control") then
          let '(u, o, c, v) := split_control value in (PControl, w_control u o c v s)
        else if negb (isnil attr) && negb (isnil value) then (PItem, w_etype EAdd s)
        else (PNone, s)
    | EAdd => (if blank then PEndEntry else PItem, s)
    | EDel => (if blank then PEndEntry else PErr, s)
    | EMod =>
        match l_mod s with
        | MNone =>
            if blank then (PEndEntry, s)
            else if leqb low (B "add") then (PNone, w_mod MAdd s)
            else if leqb low (B "replace") then (PItem, w_item url (from_utf8 value) [] (w_mod MReplace s))
            else if leqb low (B "delete") then (PItem, w_item url (from_utf8 value) [] (w_mod MDel s))
            else (PErr, s)
        | _ =>
            if isnil attr then
              if leqb (from_utf8 value) (B "-") then (PNone, w_mod MNone s)
              else if isnil value then (PEndEntry, s) else (PErr, s)
            else (PItem, s)
        end
    | EModrdn =>
        if blank then (PEndEntry, s)
        else if leqb low (B "newrdn") then (PNone, w_newrdn (from_utf8 value) s)
        else if leqb low (B "newsuperior") then (PNone, w_newsup (from_utf8 value) s)
        else if leqb low (B "deleteoldrdn") then
          if first_is 48%N value then (PNone, w_delold false s)
          else if first_is 49%N value then (PNone, w_delold true s)
          else (PErr, s)
        else (PErr, s)
    end.

Definition is_none (p : pval) : bool := match p with PNone => true | _ => false end.

(** one round of the loop of [Ldif::nextItem] with the character [c],
    ldif.cpp:314-343: the value of [retval] after it *)
Definition scan_char (c : N) (s : lstate) : pval * lstate :=
  if l_newline s && N.eqb c cCR then (PNone, s)
  else if l_newline s && (N.eqb c cSP || N.eqb c cTAB)
  then (PNone, w_scan (l_last s) false (l_comment s) (l_line s) s)
  else
    let '(ret, s1) :=
      if l_newline s then
        let '(v, t) := process_line (w_scan (l_last s) false (l_comment s) (l_line s) s) in
        (v, w_scan v false (N.eqb c 35%N) [] t)
      else (PNone, s) in
    (ret,
     if N.eqb c cLF || N.eqb c cCR then w_scan (l_last s1) true (l_comment s1) (l_line s1) s1
     else if l_comment s1 then s1
     else w_scan (l_last s1) (l_newline s1) (l_comment s1) (l_line s1 ++ [c]) s1).
(** [Ldif::nextItem], ldif.cpp:309-347 *)
Fixpoint next_loop (text : bytes) (s : lstate) : pval * lstate :=
  match text with
  | [] => (PMore, w_rest [] s)
  | c :: r => let '(ret, s1) := scan_char c s in
              if is_none ret then next_loop r s1 else (ret, w_rest r s1)
  end.
Definition next_item (s : lstate) : pval * lstate := next_loop (l_rest s) s.
(** [Ldif::endLdif], ldif.cpp:349-354 *)
Definition end_ldif (s : lstate) : lstate := w_rest [cLF; cLF; cLF] s.

(** ** Writing contacts *)

(** What the converter uses from elsewhere: the environment of a contact,
    [QUrl::toDisplayString] of a non-empty URL, [countryName] (KCountry),
    ldifconverter.cpp:124-128, the signedness of [char], the current time and the
    random identifiers in the order in which they are drawn. *)
Record LdifExt := {
  le_env : Env;
  le_display : qurl -> ustring;
  le_country : ustring -> ustring;
  le_signed : bool;
  le_now : datetime;
  le_newid : nat -> ustring
}.

(** [ldif_out], ldifconverter.cpp:71-82 *)
Definition ldif_out (E : LdifExt) (field value : ustring) : ustring :=
  if isnil value then []
  else from_utf8 (assemble_line (le_signed E) field (to_utf8 value) 72 false) ++ [cLF].

(** the display text of [addr.url().url()]; [Addressee::url], addressee.cpp:1327-1334 *)
Definition url_text (E : LdifExt) (a : addressee) : ustring :=
  match a_urls a with [] => [] | u :: _ => le_display E (ru_url u) end.

(** [dateToVCardString(QDateTime)], vcardconverter.cpp:92-95: format
    yyyyMMddThhmmssZ; the wall-clock time of the value whatever its time zone.
    The field yyyy of a negative year is a minus sign and four digits. *)
Definition year4 (y : Z) : ustring := if (y <? 0)%Z then 45%N :: zpad 4 (- y) else zpad 4 y.
Definition date_to_string (x : datetime) : ustring :=
  match dt_date x, dt_time x with
  | Some d, Some t => year4 (d_year d) ++ zpad 2 (d_month d) ++ zpad 2 (d_day d) ++ [84%N]
                      ++ zpad 2 (t_hour t) ++ zpad 2 (t_min t) ++ zpad 2 (t_sec t) ++ [90%N]
  | _, _ => []
  end.

Definition emails_pairs (l : list ustring) : list (ustring * ustring) :=
  match l with
  | _ :: e :: r => (B "mozillasecondemail", e) :: map (fun x => (B "othermailbox", x)) r
  | _ => []
  end.

(** the second line of a street, if there is one *)
Definition second_line (s : ustring) : ustring := match split cLF s with _ :: x :: _ => x | _ => [] end.
Definition first_line (s : ustring) : ustring := match split cLF s with x :: _ => x | [] => [] end.

Definition cn_mail (name mail : ustring) : ustring := B "cn=" ++ name ++ B ",mail=" ++ mail.

(** The calls of [ldif_out] after the object classes, ldifconverter.cpp:146-255, in
    order: field name and value.  The value empty means that no line is written. *)
Definition contact_pairs (E : LdifExt) (a : addressee) : list (ustring * ustring) :=
  let home := address_of [] aHome a in
  let work := address_of [] aWork a in
  let phone t := ph_number (phone_number [] t a) in
  [(B "givenname", a_given a); (B "sn", a_family a); (B "cn", simplified (a_formatted a));
   (B "uid", a_uid a); (B "nickname", nickname a); (B "xmozillanickname", nickname a);
   (B "mozillanickname", nickname a); (B "mail", preferred_email a)]
  ++ emails_pairs (emails_of a)
  ++ [(B "telephonenumber", phone tWork); (B "facsimiletelephonenumber", phone tFax);
      (B "homephone", phone tHome); (B "mobile", phone tCell); (B "cellphone", phone tCell);
      (B "pager", phone tPager); (B "pagerphone", phone tPager);
      (B "streethomeaddress", ad_street home); (B "postalcode", ad_postal work);
      (B "postofficebox", ad_pobox work);
      (B "homepostaladdress", first_line (ad_street home));
      (B "mozillahomepostaladdress2", second_line (ad_street home));
      (B "mozillahomelocalityname", ad_locality home); (B "mozillahomestate", ad_region home);
      (B "mozillahomepostalcode", ad_postal home);
      (B "mozillahomecountryname", le_country E (ad_country home));
      (B "locality", ad_locality work); (B "streetaddress", ad_street work);
      (B "street", first_line (ad_street work)); (B "mozillaworkstreet2", second_line (ad_street work));
      (B "countryname", le_country E (ad_country work)); (B "l", ad_locality work);
      (B "c", le_country E (ad_country work)); (B "st", ad_region work);
      (B "title", title a); (B "vocation", a_prefix a); (B "ou", role a);
      (B "o", organization a); (B "organization", organization a); (B "organizationname", organization a);
      (B "department", if negb (isnil (a_department a)) then a_department a
                       else custom vendor_id (B "X-Department") a);
      (B "workurl", url_text E a); (B "homeurl", url_text E a); (B "mozillahomeurl", url_text E a);
      (B "description", a_note a);
      (B "modifytimestamp", if dt_valid (a_revision a) then date_to_string (a_revision a) else [])]
  ++ match dt_date (a_birthday a) with
     | None => []
     | Some d => (if (0 <? d_year d)%Z then [(B "birthyear", decimal (Z.to_N (d_year d)))] else [])
                 ++ [(B "birthmonth", decimal (Z.to_N (d_month d))); (B "birthday", decimal (Z.to_N (d_day d)))]
     end.

(** [addresseeToLDIF(addr, str)], ldifconverter.cpp:130-261: the text appended, or
    [None] when the result is [false] and nothing is appended *)
Definition addressee_to_ldif (E : LdifExt) (a : addressee) : option ustring :=
  if a_empty a then None
  else Some (ldif_out E (B "dn") (cn_mail (simplified (a_formatted a)) (preferred_email a))
             ++ B "objectclass: top" ++ [cLF] ++ B "objectclass: person" ++ [cLF]
             ++ B "objectclass: organizationalPerson" ++ [cLF]
             ++ flat_map (fun p => ldif_out E (fst p) (snd p)) (contact_pairs E a)
             ++ [cLF]).
Definition or_nothing (o : option ustring) : ustring := match o with Some s => s | None => [] end.
(** [addresseeToLDIF(list, str)], ldifconverter.cpp:125-136 *)
Definition addressees_to_ldif (E : LdifExt) (l : list addressee) (str : ustring) : bool * ustring :=
  (negb (isnil l), str ++ flat_map (fun a => or_nothing (addressee_to_ldif E a)) l).
(** [contactGroupToLDIF(group, str)], ldifconverter.cpp:92-110 *)
Definition group_to_ldif (E : LdifExt) (g : cgroup) : option ustring :=
  if isnil (cg_data g) then None
  else Some (B "objectclass: top" ++ [cLF] ++ B "objectclass: groupOfNames" ++ [cLF]
             ++ flat_map (fun d => ldif_out E (B "member") (cn_mail (cd_name d) (cd_email d))) (cg_data g)
             ++ [cLF]).
(** [contactGroupToLDIF(list, str)], ldifconverter.cpp:112-122 *)
Definition groups_to_ldif (E : LdifExt) (l : list cgroup) (str : ustring) : bool * ustring :=
  (negb (isnil l), str ++ flat_map (fun g => or_nothing (group_to_ldif E g)) l).
(** [addresseeAndContactGroupToLDIF], ldifconverter.cpp:83-90 *)
Definition all_to_ldif (E : LdifExt) (l : list addressee) (gs : list cgroup) (str : ustring) : bool * ustring :=
  let '(b, s) := addressees_to_ldif E l str in
  if isnil gs then (b, s) else let '(b', s') := groups_to_ldif E gs s in (b' || b, s').

(** ** Reading contacts *)

(** [QString::toInt(&ok)]: [None] when [ok] is false *)
Definition to_int_ok (s : ustring) : option Z :=
  let t := utrimmed s in
  let '(neg, body) := match t with
                      | c :: r => if N.eqb c 45 then (true, r) else if N.eqb c 43 then (false, r) else (false, t)
                      | [] => (false, [])
                      end in
  if all_digits body then
    let v := if neg : bool then (- digits_value body)%Z else digits_value body in
    if ((-2147483648 <=? v) && (v <=? 2147483647))%Z then Some v else None
  else None.

(** [VCardStringToDate], vcardconverter.cpp:102-120 ([toUInt] of pieces of at most
    four characters without a minus sign is [toInt]) *)
Definition string_to_date (s : ustring) : datetime :=
  let d := remove_ch cCOLON (remove_ch 45%N s) in
  let date := if 8 <=? length d
              then mk_date (to_int (mid_len 0 4 d)) (to_int (mid_len 4 2 d)) (to_int (mid_len 6 2 d)) else None in
  let time := if (9 <? length d) && match nth_error d 8 with Some c => N.eqb (upper1 c) 84 | None => false end
              then mk_time (to_int (mid_len 9 2 d)) (to_int (mid_len 11 2 d)) (to_int (mid_len 13 2 d)) 0 else None in
  mk_dt date time TLocal.

(** the local variables of [LDIFToAddressee] and the two result lists;
    [r_k]: the number of identifiers drawn so far *)
Record rstate := mkR {
  r_a : addressee; r_home : address; r_work : address;
  r_bday : Z; r_bmon : Z; r_byear : Z;
  r_group : cgroup; r_k : nat;
  r_contacts : list addressee; r_groups : list cgroup
}.
Definition r_set_a (a : addressee) (r : rstate) : rstate :=
  mkR a (r_home r) (r_work r) (r_bday r) (r_bmon r) (r_byear r) (r_group r) (r_k r) (r_contacts r) (r_groups r).
Definition r_set_home (h : address) (r : rstate) : rstate :=
  mkR (r_a r) h (r_work r) (r_bday r) (r_bmon r) (r_byear r) (r_group r) (r_k r) (r_contacts r) (r_groups r).
Definition r_set_work (w : address) (r : rstate) : rstate :=
  mkR (r_a r) (r_home r) w (r_bday r) (r_bmon r) (r_byear r) (r_group r) (r_k r) (r_contacts r) (r_groups r).
Definition r_set_birth (d m y : Z) (r : rstate) : rstate :=
  mkR (r_a r) (r_home r) (r_work r) d m y (r_group r) (r_k r) (r_contacts r) (r_groups r).
Definition r_set_group (g : cgroup) (r : rstate) : rstate :=
  mkR (r_a r) (r_home r) (r_work r) (r_bday r) (r_bmon r) (r_byear r) g (r_k r) (r_contacts r) (r_groups r).
Definition r_set_k (k : nat) (r : rstate) : rstate :=
  mkR (r_a r) (r_home r) (r_work r) (r_bday r) (r_bmon r) (r_byear r) (r_group r) k (r_contacts r) (r_groups r).
Definition r_set_lists (c : list addressee) (g : list cgroup) (r : rstate) : rstate :=
  mkR (r_a r) (r_home r) (r_work r) (r_bday r) (r_bmon r) (r_byear r) (r_group r) (r_k r) c g.

(** is the name one of these? *)
Definition one_of (l : list string) (f : ustring) : bool := existsb (fun n => leqb f (B n)) l.

(** a phone number with a new identifier *)
Definition r_phone (E : LdifExt) (v : ustring) (t : N) (r : rstate) : rstate :=
  r_set_k (S (r_k r)) (r_set_a (insert_phone (phone_of (le_newid E (r_k r)) v t) (r_a r)) r).

(** one part of a member value, ldifconverter.cpp:590-596 *)
Definition member_part (nm : ustring * ustring) (s : ustring) : ustring * ustring :=
  if starts_with (B "cn=") s then (utrimmed (mid 3 s), snd nm)
  else if starts_with (B "mail=") s then (fst nm, utrimmed (mid 5 s))
  else nm.
(** ldifconverter.cpp:580-605 *)
Definition member_data (v : ustring) : cdata :=
  let '(name, mail) := fold_left member_part (split cCOMMA v) ([], []) in
  let mail := if negb (isnil name) && negb (isnil mail) then B " <" ++ mail ++ [62%N] else mail in
  cd_set_name name (cd_set_email mail cdata_new).

(** the country value, ldifconverter.cpp:519-522, 540-543 *)
Definition read_country (E : LdifExt) (v : ustring) : ustring := if length v <=? 2 then le_country E v else v.

(** The rest of [evaluatePair] after the URL fields, ldifconverter.cpp:442-651 (a URL
    that is not stored falls through to here and is not recognised) *)
Definition evaluate_rest (E : LdifExt) (f v : ustring) (r : rstate) : rstate :=
  let a := r_a r in
  if one_of ["homephone"%string] f then r_phone E v tHome r
  else if one_of ["telephonenumber"%string] f then r_phone E v tWork r
  else if one_of ["mobile"; "cellphone"]%string f then r_phone E v tCell r
  else if one_of ["pager"; "pagerphone"]%string f then r_phone E v tPager r
  else if one_of ["facsimiletelephonenumber"]%string f then r_phone E v tFax r
  else if one_of ["xmozillaanyphone"]%string f then r_phone E v tWork r
  else if one_of ["streethomeaddress"; "mozillahomestreet"]%string f then r_set_home (ad_set_street v (r_home r)) r
  else if one_of ["street"; "postaladdress"]%string f then r_set_work (ad_set_street v (r_work r)) r
  else if one_of ["mozillapostaladdress2"; "mozillaworkstreet2"]%string f
  then r_set_work (ad_set_street (ad_street (r_work r) ++ cLF :: v) (r_work r)) r
  else if one_of ["postalcode"]%string f then r_set_work (ad_set_postal v (r_work r)) r
  else if one_of ["postofficebox"]%string f then r_set_work (ad_set_pobox v (r_work r)) r
  else if one_of ["homepostaladdress"]%string f then r_set_home (ad_set_street v (r_home r)) r
  else if one_of ["mozillahomepostaladdress2"]%string f
  then r_set_home (ad_set_street (ad_street (r_home r) ++ cLF :: v) (r_home r)) r
  else if one_of ["mozillahomelocalityname"]%string f then r_set_home (ad_set_locality v (r_home r)) r
  else if one_of ["mozillahomestate"]%string f then r_set_home (ad_set_region v (r_home r)) r
  else if one_of ["mozillahomepostalcode"]%string f then r_set_home (ad_set_postal v (r_home r)) r
  else if one_of ["mozillahomecountryname"]%string f then r_set_home (ad_set_country (read_country E v) (r_home r)) r
  else if one_of ["locality"]%string f then r_set_work (ad_set_locality v (r_work r)) r
  else if one_of ["streetaddress"]%string f then r_set_work (ad_set_street v (r_work r)) r
  else if one_of ["countryname"; "c"]%string f then r_set_work (ad_set_country (read_country E v) (r_work r)) r
  else if one_of ["l"]%string f then r_set_work (ad_set_locality v (r_work r)) r
  else if one_of ["st"]%string f then r_set_work (ad_set_region v (r_work r)) r
  else if one_of ["ou"]%string f then r_set_a (set_role v a) r
  else if one_of ["department"]%string f then r_set_a (set_department v a) r
  else if one_of ["member"]%string f then r_set_group (cg_append_data (member_data v) (r_group r)) r
  else if one_of ["modifytimestamp"]%string f then
    if leqb v (B "0Z") then r
    else if dt_valid (string_to_date v) then r_set_a (set_revision (le_env E) (string_to_date v) a) r
    else r
  else if one_of ["display-name"]%string f then r_set_group (cg_set_name v (r_group r)) r
  else if one_of ["objectclass"]%string f then r
  else if one_of ["birthyear"]%string f
  then r_set_birth (r_bday r) (r_bmon r) (match to_int_ok v with Some y => y | None => (-1)%Z end) r
  else if one_of ["birthmonth"]%string f then r_set_birth (r_bday r) (to_int v) (r_byear r) r
  else if one_of ["birthday"]%string f then r_set_birth (to_int v) (r_bmon r) (r_byear r) r
  else if one_of ["xbatbirthday"]%string f then
    match mk_date (to_int (mid_len 0 4 v)) (to_int (mid_len 4 2 v)) (to_int (mid_len 6 2 v)) with
    | Some d => r_set_a (set_birthday_date (Some d) a) r
    | None => r
    end
  else r.

(** [evaluatePair], ldifconverter.cpp:340-651 *)
Definition evaluate_pair (E : LdifExt) (f v : ustring) (r : rstate) : rstate :=
  let a := r_a r in
  if one_of ["dn"]%string f then r
  else if first_is 35%N f then r
  else if isnil f && negb (isnil (a_note a)) then r_set_a (set_note (a_note a ++ cLF :: v) a) r
  else if one_of ["givenname"]%string f then r_set_a (set_given v a) r
  else if one_of ["xmozillanickname"; "nickname"; "mozillanickname"]%string f then r_set_a (set_nickname v a) r
  else if one_of ["sn"]%string f then r_set_a (set_family v a) r
  else if one_of ["uid"]%string f then r_set_a (set_uid v a) r
  else if one_of ["mail"; "mozillasecondemail"; "othermailbox"]%string f then
    if contains v (emails_of a) then r else r_set_a (add_email (email_of v) a) r
  else if one_of ["title"]%string f then r_set_a (set_title v a) r
  else if one_of ["vocation"]%string f then r_set_a (set_prefix v a) r
  else if one_of ["cn"]%string f then r_set_a (set_formatted v a) r
  else if one_of ["o"; "organization"; "organizationname"]%string f then r_set_a (set_organization v a) r
  else if one_of ["description"; "mozillacustom1"; "mozillacustom2"; "mozillacustom3"; "mozillacustom4";
                  "custom1"; "custom2"; "custom3"; "custom4"]%string f then
    let a1 := if isnil (a_note a) then a else set_note (a_note a ++ [cLF]) a in
    r_set_a (set_note (a_note a1 ++ v) a1) r
  else if one_of ["homeurl"; "workurl"; "mozillahomeurl"]%string f
          && isnil (match a_urls a with [] => [] | u :: _ => ru_url u end)
  then r_set_a (insert_url (le_env E) (mkRurl [] (url_parse (env_url (le_env E)) v)) a) r
  else evaluate_rest E f v r.

(** a new contact, group and pair of addresses, ldifconverter.cpp:273-289, 322-326 *)
Definition r_reset (E : LdifExt) (rev : datetime) (r : rstate) : rstate :=
  let k := r_k r in
  mkR (set_revision (le_env E) rev (addressee_new (le_newid E k)))
    (address_new (le_newid E (k + 1)) aHome) (address_new (le_newid E (k + 2)) aWork)
    (r_bday r) (r_bmon r) (r_byear r) (cgroup_new (le_newid E (k + 3))) (k + 4)
    (r_contacts r) (r_groups r).
(** the variables before the loop; [b]: the initial values of the birthday parts
    (-1 in the code); [k]: the number of identifiers drawn before *)
Definition r_start (E : LdifExt) (rev : datetime) (k : nat) (b : Z * Z * Z)
    (cs : list addressee) (gs : list cgroup) : rstate :=
  r_reset E rev (mkR (addressee_new []) (address_new [] 0) (address_new [] 0)
                   (fst (fst b)) (snd (fst b)) (snd b) (cgroup_new []) k cs gs).

(** the end of an entry, ldifconverter.cpp:304-327 *)
Definition end_entry (E : LdifExt) (rev : datetime) (r : rstate) : rstate :=
  let r1 :=
    if Nat.eqb (cg_count (r_group r)) 0 then
      let a := match mk_date (r_byear r) (r_bmon r) (r_bday r) with
               | Some d => set_birthday_date (Some d) (r_a r)
               | None => r_a r
               end in
      if negb (isnil (a_formatted a)) || negb (isnil (a_name a)) || negb (isnil (a_family a)) then
        let a := if ad_empty (r_home r) then a else insert_address (r_home r) a in
        let a := if ad_empty (r_work r) then a else insert_address (r_work r) a in
        r_set_lists (r_contacts r ++ [a]) (r_groups r) r
      else r
    else r_set_lists (r_contacts r) (r_groups r ++ [r_group r]) r in
  r_reset E rev r1.

(** the loop, ldifconverter.cpp:291-334; [fuel]: the number of rounds ([None]:
    exceeded) *)
Fixpoint read_loop (fuel : nat) (E : LdifExt) (rev : datetime) (ended : bool) (s : lstate) (r : rstate)
  : option rstate :=
  match fuel with
  | O => None
  | S f =>
      let '(ret, s1) := next_item s in
      match ret with
      | PItem => read_loop f E rev ended s1 (evaluate_pair E (to_lower (l_attr s1)) (from_utf8 (l_value s1)) r)
      | PEndEntry => read_loop f E rev ended s1 (end_entry E rev r)
      | PMore => if ended then Some r else read_loop f E rev true (end_ldif s1) r
      | _ => read_loop f E rev ended s1 r
      end
  end.
(** [LDIFToAddressee], ldifconverter.cpp:263-338: the final lists.  The number of
    rounds is enough for every input (theorem [C26_import]). *)
Definition ldif_to_addressee (E : LdifExt) (str : ustring) (dt : datetime)
    (cs : list addressee) (gs : list cgroup) : option (list addressee * list cgroup) :=
  if isnil str then Some (cs, gs)
  else
    let rev := if dt_valid dt then dt else le_now E in
    match read_loop (length str + 6) E rev false (ldif_start (to_latin1 str))
            (r_start E rev 0 ((-1), (-1), (-1))%Z cs gs) with
    | Some r => Some (r_contacts r, r_groups r)
    | None => None
    end.
