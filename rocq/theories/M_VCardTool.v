(** Model of [/repo/src/vcardtool.cpp]: contacts to cards of property lines and
    back.  The text layer below is [M_VCardText]; dates are in [M_Date], structured
    values in [M_Split]. *)
From Verif Require Import Base QtText Utf8 M_ParamMap M_VCard M_VCardText M_Split M_Values M_Date M_Addressee.
Local Open Scope list_scope.
Local Open Scope nat_scope.

(** External operations.  A [qurl] is the text [QUrl::url()] gives, so [url()] is
    the identity; numbers with a decimal point are formatted and read by the C
    library and Qt.  [t_newid card k] is the [k]-th random identifier drawn while the
    given card is read (the first one is that of the contact itself). *)
Record Tool := {
  t_env : Env;
  t_set_scheme : ustring -> qurl -> qurl;       (* QUrl::setScheme *)
  t_set_path : ustring -> qurl -> qurl;         (* QUrl::setPath *)
  t_display : qurl -> ustring;                  (* QUrl::toDisplayString *)
  t_fmt6 : flt -> ustring;                      (* printf "%.6f" *)
  t_float : ustring -> flt;                     (* QString::toFloat *)
  t_double : ustring -> flt;                    (* QString::toDouble, converted to float *)
  t_date_iso : option date -> ustring;          (* QDate::toString(Qt::ISODate) *)
  t_iso_date : ustring -> option date;          (* QDate::fromString(.., Qt::ISODate) *)
  t_newid : nat -> nat -> ustring
}.

(** ** Helpers *)

(** [needsEncoding], vcardtool.cpp:25-36 (a character outside Latin-1 becomes 0, a
    byte from 128 on is negative) *)
Definition needs_encoding (s : ustring) : bool :=
  existsb (fun c => negb ((33 <=? c)%N && (c <=? 126)%N) && negb (N.eqb c 32) && negb (N.eqb c 61)) s.

(** the two parameters added to lines of version 2.1, e.g. vcardtool.cpp:146-149 *)
Definition encode21 (v : version) (s : ustring) (l : vline) : vline :=
  match v with
  | V21 => if needs_encoding s
           then vl_add_param (B "encoding") (B "QUOTED-PRINTABLE") (vl_add_param (B "charset") (B "UTF-8") l)
           else l
  | _ => l
  end.
Definition text_line (id s : ustring) : vline := vline_new id (QStr s).
Definition line21 (v : version) (id s : ustring) : vline := encode21 v s (text_line id s).

(** [s_addressTypes], vcardtool.cpp:43-51, and [stringToAddressType], 53-59 *)
Definition address_types : list (ustring * N) :=
  [(B "dom", aDom); (B "home", aHome); (B "intl", aIntl); (B "parcel", aParcel);
   (B "postal", aPostal); (B "pref", aPref); (B "work", aWork)].
Definition address_type (s : ustring) : N := lookup_type (fun n => leqb s n) address_types.
(** [s_phoneTypes], vcardtool.cpp:66-81, and [stringToPhoneType], 83-89 *)
Definition phone_types : list (ustring * N) :=
  [(B "BBS", tBbs); (B "CAR", tCar); (B "CELL", tCell); (B "FAX", tFax); (B "HOME", tHome);
   (B "ISDN", tIsdn); (B "MODEM", tModem); (B "MSG", tMsg); (B "PAGER", tPager); (B "PCS", tPcs);
   (B "PREF", tPref); (B "VIDEO", tVideo); (B "VOICE", tVoice); (B "WORK", tWork)].
Definition phone_type (s : ustring) : N := lookup_type (fun n => leqb s n) phone_types.

(** names of the flags of a type, e.g. vcardtool.cpp:156-165, 254-264 *)
Definition type_names (tab : list (ustring * N)) (t : N) : list ustring :=
  map fst (filter (fun e => negb (N.eqb (N.land (snd e) t) 0)) tab).
(** the loops at vcardtool.cpp:758-761 and 1055-1059 *)
Definition join_types (of_name : ustring -> N) (l : list ustring) : N :=
  fold_left (fun t s => N.lor t (of_name s)) l 0%N.

(** [addParameter], vcardtool.cpp:105-120 *)
Definition tool_param (v : version) (key : ustring) (vs : list ustring) (l : vline) : vline :=
  match v with
  | V21 => fold_left (fun acc s => vl_add_param s [] acc) vs l
  | V30 => vl_add_param key (join [cCOMMA] vs) l
  | V40 => if length vs <? 2 then vl_add_param key (join [cCOMMA] vs) l
           else vl_add_param key ([cDQ] ++ join [cCOMMA] vs ++ [cDQ]) l
  end.

(** ** Writing *)

(** [processAddresses], vcardtool.cpp:122-191: the lines for one address *)
Definition address_value (x : address) : ustring :=
  join_components cSEMI [ad_pobox x; ad_extended x; ad_street x; ad_locality x; ad_region x; ad_postal x; ad_country x].
Definition address_blank (x : address) : bool :=
  isnil (ad_pobox x) && isnil (ad_extended x) && isnil (ad_street x) && isnil (ad_locality x)
  && isnil (ad_region x) && isnil (ad_postal x) && isnil (ad_country x).
Definition address_lines (T : Tool) (v : version) (x : address) : list vline :=
  let value := address_value x in
  let types := type_names address_types (ad_type x) in
  let has_label := negb (isnil (ad_label x)) in
  let adr := line21 v (B "ADR") value in
  let label :=
    match v with
    | V40 => []
    | _ => if has_label then [tool_param v (B "TYPE") types (line21 v (B "LABEL") (ad_label x))] else []
    end in
  let adr :=
    match v with
    | V40 =>
        let adr := if has_label then vl_add_param (B "LABEL") ([cDQ] ++ ad_label x ++ [cDQ]) adr else adr in
        if geo_valid (ad_geo x)
        then vl_add_param (B "GEO") (B """geo:" ++ t_fmt6 T (g_lat (ad_geo x)) ++ [cCOMMA] ++ t_fmt6 T (g_lon (ad_geo x)) ++ [cDQ]) adr
        else adr
    | _ => adr
    end in
  label ++ (if address_blank x then [] else [tool_param v (B "TYPE") types adr]).

(** [processEmailList], vcardtool.cpp:193-222 *)
Definition email_param (v : version) (l : vline) (pv : ustring * list ustring) : vline :=
  match v with
  | V21 =>
      if leqb (to_lower (fst pv)) (B "type") then
        let rest := remove_all (B "PREF") (snd pv) in
        let l := if isnil rest then l else tool_param v (fst pv) rest l in
        if contains (B "PREF") (snd pv) then vl_add_param (B "PREF") [] l else l
      else vl_add_param (fst pv) (join [cCOMMA] (snd pv)) l
  | _ => vl_add_param (fst pv) (join [cCOMMA] (snd pv)) l
  end.
Definition email_line (v : version) (e : email) : vline :=
  fold_left (email_param v) (em_params e) (text_line (B "EMAIL") (em_mail e)).

(** [processOrganizations], vcardtool.cpp:224-241 *)
Definition org_line (v : version) (dept : ustring) (o : ptext) : vline :=
  let s := join_components cSEMI (pt_text o :: (if isnil dept then [] else [dept])) in
  vl_add_params (pt_params o) (line21 v (B "ORG") s).

(** [processPhoneNumbers], vcardtool.cpp:243-271 *)
Definition phone_line (v : version) (p : phone) : vline :=
  let l := fold_left (fun acc (pv : ustring * list ustring) =>
                        if leqb (to_upper (fst pv)) (B "TYPE") then acc
                        else vl_add_param (fst pv) (join [cCOMMA] (snd pv)) acc)
                     (ph_params p) (text_line (B "TEL") (ph_number p)) in
  let names := type_names phone_types (ph_type p) in
  let names := match v with V40 => map to_lower names | _ => names end in
  if isnil names then l else tool_param v (B "TYPE") names l.

(** names replaced when exporting, vcardtool.cpp:283-312 *)
Definition export_names : list (ustring * ustring) :=
  [(B "X-messaging/aim-All", B "X-AIM"); (B "X-messaging/icq-All", B "X-ICQ");
   (B "X-messaging/xmpp-All", B "X-JABBER"); (B "X-messaging/msn-All", B "X-MSN");
   (B "X-messaging/yahoo-All", B "X-YAHOO"); (B "X-messaging/gadu-All", B "X-GADUGADU");
   (B "X-messaging/skype-All", B "X-SKYPE"); (B "X-messaging/groupwise-All", B "X-GROUPWISE");
   (B "X-messaging/sms-All", B "X-SMS"); (B "X-messaging/meanwhile-All", B "X-MEANWHILE");
   (B "X-messaging/irc-All", B "X-IRC"); (B "X-messaging/googletalk-All", B "X-GTALK");
   (B "X-messaging/twitter-All", B "X-TWITTER")].
Fixpoint renamed (tab : list (ustring * ustring)) (id : ustring) : ustring :=
  match tab with
  | [] => id
  | (a, b) :: r => if leqb id a then b else renamed r id
  end.
(** [processCustoms], vcardtool.cpp:273-336.  (An entry of [customs()] always
    contains a colon.  [toLower] is applied to ASCII letters only.) *)
Definition custom_lines (T : Tool) (v : version) (export : bool) (c : ustring) : list vline :=
  match index_of cCOLON c with
  | None => []
  | Some i =>
      let value := skipn (S i) c in
      if isnil value then []
      else
        let id := B "X-" ++ firstn i c in
        let id := if export then renamed export_names id else id in
        match v with
        | V40 =>
            if leqb (to_lower id) (B "x-kaddressbook-x-anniversary") then
              [vl_set_value (QStr (create_datetime (mk_dt (t_iso_date T value) None TLocal) v true))
                 (vl_add_param (B "VALUE") (B "DATE") (vline_new (B "ANNIVERSARY") QInvalid))]
            else if leqb (to_lower id) (B "x-kaddressbook-x-spousesname") then
              [vl_add_param (B "VALUE") value (vl_add_param (B "TYPE") (B "spouse") (text_line (B "RELATED") (B ";")))]
            else [text_line id value]
        | _ => [line21 v id value]
        end
  end.

(** [createPicturev4], vcardtool.cpp:1383-1397 *)
Definition picture_line4 (T : Tool) (id : ustring) (p : picture) : vline :=
  if pi_intern p then
    vl_set_b64 (to_base64 (pi_raw_of (env_img (t_env T)) p))
      (vl_add_param (B "type") (pi_type p) (vline_new (id ++ B ":data:image/" ++ pi_type p) QInvalid))
  else text_line id (pi_url p).
(** [createPicture], vcardtool.cpp:1399-1428 (called for versions 2.1 and 3.0) *)
Definition picture_line (T : Tool) (v : version) (id : ustring) (p : picture) : vline :=
  match v with
  | V40 => picture_line4 T id p
  | _ =>
      if picture_empty p then vline_new id QInvalid
      else if pi_intern p then
        let l := vline_new id (QBytes (pi_raw_of (env_img (t_env T)) p)) in
        match v with
        | V21 => vl_add_param (pi_type p) [] (vl_add_param (B "ENCODING") (B "BASE64") l)
        | _ => vl_add_param (B "type") (pi_type p) (vl_add_param (B "encoding") (B "b") l)
        end
      else vl_add_param (B "value") (B "URI") (text_line id (pi_url p))
  end.
Definition enc_param (v : version) (l : vline) : vline :=
  match v with
  | V21 => vl_add_param (B "ENCODING") (B "BASE64") l
  | _ => vl_add_param (B "encoding") (B "b") l
  end.
(** [createSound], vcardtool.cpp:1453-1471 *)
Definition sound_line (v : version) (s : sound) : vline :=
  if so_intern s then
    if isnil (so_data s) then vline_new (B "SOUND") QInvalid
    else enc_param v (vline_new (B "SOUND") (QBytes (so_data s)))
  else if isnil (so_url s) then vline_new (B "SOUND") QInvalid
  else vl_add_param (B "value") (B "URI") (text_line (B "SOUND") (so_url s)).
(** [createKey], vcardtool.cpp:1509-1544 *)
Definition key_line (v : version) (k : key) : vline :=
  let l :=
    if ke_isbin k then
      if isnil (ke_bin k) then vline_new (B "KEY") QInvalid
      else enc_param v (vline_new (B "KEY") (QBytes (ke_bin k)))
    else if isnil (ke_text k) then vline_new (B "KEY") QInvalid
    else text_line (B "KEY") (ke_text k) in
  match v with
  | V40 => vl_add_param (B "MEDIATYPE")
             match ke_type k with KX509 => B "application/x-x509-ca-cert" | KPGP => B "application/pgp-keys"
                                | KCustom => ke_custom k end l
  | _ => vl_add_param (B "type")
             match ke_type k with KX509 => B "X509" | KPGP => B "PGP" | KCustom => ke_custom k end l
  end.
(** [createSecrecy], vcardtool.cpp:1562-1577 *)
Definition secrecy_line (s : secrecy) : vline :=
  match s with
  | SPublic => text_line (B "CLASS") (B "PUBLIC")
  | SPrivate => text_line (B "CLASS") (B "PRIVATE")
  | SConfidential => text_line (B "CLASS") (B "CONFIDENTIAL")
  | SInvalid => vline_new (B "CLASS") QInvalid
  end.

Definition params_line (id : ustring) (t : ptext) : vline := vl_add_params (pt_params t) (text_line id (pt_text t)).
Definition is40 (v : version) : bool := match v with V40 => true | _ => false end.
Definition is21 (v : version) : bool := match v with V21 => true | _ => false end.
Definition is30 (v : version) : bool := match v with V30 => true | _ => false end.
Definition when {A} (b : bool) (l : list A) : list A := if b then l else [].
Definition version_text (v : version) : ustring := match v with V21 => B "2.1" | V30 => B "3.0" | V40 => B "4.0" end.

(** the value of BDAY, vcardtool.cpp:360-371 *)
Definition bday_line (v : version) (a : addressee) : vline :=
  let s := create_datetime (a_birthday a) v (a_bdaytime a) in
  match v with
  | V40 => vl_set_value (QStr s) (vl_add_param (B "VALUE") (B "DATE") (vline_new (B "BDAY") QInvalid))
  | _ => text_line (B "BDAY") s
  end.
(** vcardtool.cpp:454-464 *)
Definition geo_lines (T : Tool) (v : version) (g : geo) : list vline :=
  if geo_valid g then
    [text_line (B "GEO")
       match v with
       | V40 => B "geo:" ++ t_fmt6 T (g_lat g) ++ [cCOMMA] ++ t_fmt6 T (g_lon g)
       | _ => t_fmt6 T (g_lat g) ++ [cSEMI] ++ t_fmt6 T (g_lon g)
       end]
  else [].
(** vcardtool.cpp:497-512 *)
Definition n_line (v : version) (a : addressee) : vline :=
  let l := line21 v (B "N") (join_components cSEMI [a_family a; a_given a; a_additional a; a_prefix a; a_suffix a]) in
  match v with
  | V40 => if isnil (a_sortstring a) then l else vl_add_param (B "SORT-AS") (a_sortstring a) l
  | _ => l
  end.
(** vcardtool.cpp:632-645 *)
Definition gender_text (g : gender) : ustring :=
  ge_gender g ++ (if isnil (ge_comment g) then [] else [cSEMI] ++ ge_comment g).
(** vcardtool.cpp:652-677 *)
Definition calurl_lines (T : Tool) (c : calurl) : list vline :=
  if calurl_valid (env_url (t_env T)) c then
    let mk id := [vl_add_params (cu_params c) (text_line id (t_display T (cu_url c)))] in
    match cu_type c with
    | CalFBUrl => mk (B "FBURL")
    | CalCALUri => mk (B "CALURI")
    | CalCALADRUri => mk (B "CALADRURI")
    | _ => []
    end
  else [].
(** vcardtool.cpp:688-698 *)
Definition impp_line (i : impp) : vline :=
  fold_left (fun acc (pv : ustring * list ustring) =>
               if leqb (to_lower (fst pv)) (B "x-service-type") then acc
               else vl_add_param (fst pv) (join [cCOMMA] (snd pv)) acc)
            (im_params i) (text_line (B "IMPP") (im_address i)).

(** the lines of a contact in the order in which they are added,
    vcardtool.cpp:342-700 *)
Definition contact_lines (T : Tool) (v : version) (export : bool) (a : addressee) : list vline :=
  [text_line (B "VERSION") (version_text v)]
  ++ flat_map (address_lines T v) (a_addresses a)
  ++ [bday_line v a]
  ++ when (is40 v) [vl_set_value (QStr (create_datetime (a_deathdate a) v true)) (vline_new (B "DEATHDATE") QInvalid)]
  ++ when (negb (is21 v)) [text_line (B "CATEGORIES") (join_components cCOMMA (a_categories a))]
  ++ when (is40 v && leqb (to_lower (a_kind a)) (B "group")) (map (text_line (B "MEMBER")) (a_members a))
  ++ map (text_line (B "SOURCE")) (a_sources a)
  ++ map (params_line (B "RELATED")) (a_related a)
  ++ when (is30 v) [secrecy_line (a_secrecy a)]
  ++ when (is40 v) (map (params_line (B "LANG")) (a_langs a) ++ map (params_line (B "CLIENTPIDMAP")) (a_pidmaps a))
  ++ map (email_line v) (a_emails a)
  ++ [line21 v (B "FN") (a_formatted a)]
  ++ geo_lines T v (a_geo a)
  ++ map (key_line v) (a_keys a)
  ++ picture_line T v (B "LOGO") (a_logo a) :: map (picture_line T v (B "LOGO")) (a_xlogos a)
  ++ when (negb (is40 v)) [line21 v (B "MAILER") (a_mailer a)]
  ++ [n_line v a]
  ++ when (negb (is40 v)) [line21 v (B "NAME") (a_name a)]
  ++ when (negb (is21 v)) (map (params_line (B "NICKNAME")) (a_nicks a))
  ++ [line21 v (B "NOTE") (a_note a)]
  ++ map (org_line v (a_department a)) (a_orgs a)
  ++ picture_line T v (B "PHOTO") (a_photo a) :: map (picture_line T v (B "PHOTO")) (a_xphotos a)
  ++ when (negb (is21 v)) [text_line (B "PRODID") (a_prodid a)]
  ++ [text_line (B "REV") (create_datetime (a_revision a) v true)]
  ++ map (fun t => vl_add_params (pt_params t) (line21 v (B "ROLE") (pt_text t))) (a_roles a)
  ++ when (is30 v) [text_line (B "SORT-STRING") (a_sortstring a)]
  ++ when (negb (is40 v)) (sound_line v (a_sound a) :: map (sound_line v) (a_xsounds a))
  ++ map (phone_line v) (a_phones a)
  ++ map (fun t => vl_add_params (pt_params t) (line21 v (B "TITLE") (pt_text t))) (a_titles a)
  ++ when (tz_valid (a_tz a)) [text_line (B "TZ") (create_tz (tz_offset (a_tz a)))]
  ++ [text_line (B "UID") (a_uid a)]
  ++ map (fun u => vl_add_params (ru_params u) (text_line (B "URL") (ru_url u))) (a_urls a)
  ++ when (is40 v)
       (when (gender_valid (a_gender a)) [text_line (B "GENDER") (gender_text (a_gender a))]
        ++ when (negb (isnil (a_kind a))) [text_line (B "KIND") (a_kind a)]
        ++ flat_map (calurl_lines T) (a_calurls a))
  ++ map (fun f => vl_add_params (fg_params f) (text_line (fg_name f) (fg_value f))) (a_fgroups a)
  ++ map impp_line (a_impps a)
  ++ flat_map (custom_lines T v export) (customs_of a).

(** the card of a contact: [card.addLine] for each line *)
Definition create_card (T : Tool) (v : version) (export : bool) (a : addressee) : vcard :=
  fold_left (fun c l => add_line l c) (contact_lines T v export a) [].

(** [VCardTool::createVCards], vcardtool.cpp:338-704, with [createVCards] (export
    false) and [exportVCards] (export true), 95-103, and the converter functions of
    the same names, converter/vcardconverter.cpp:22-72 *)
Definition create_text (T : Tool) (E : Ext) (v : version) (export : bool) (l : list addressee) : bytes :=
  create_vcards E (map (create_card T v export) l).

(** ** Reading *)

(** position of a subsequence ([QByteArray::indexOf]) *)
Fixpoint find_sub (p s : list N) : option nat :=
  if starts_with p s then Some 0
  else match s with [] => None | _ :: t => option_map S (find_sub p t) end.
(** [QString::remove(const QString &)]: all occurrences, left to right *)
Fixpoint remove_sub (fuel : nat) (p s : list N) : list N :=
  match fuel with
  | O => s
  | S f => match s with
           | [] => []
           | c :: t => if starts_with p s then remove_sub f p (skipn (length p) s) else c :: remove_sub f p t
           end
  end.
Definition remove_str (p s : list N) : list N := remove_sub (S (length s)) p s.

(** [QVariant::toByteArray] *)
Definition variant_bytes (v : qvariant) : bytes :=
  match v with QInvalid => [] | QStr s => to_utf8 s | QBytes b => b end.
Definition lvalue (l : vline) : ustring := variant_string (vl_value l).

(** [parsePicture], vcardtool.cpp:1346-1381.  [None]: [QByteArray::last] is called
    with a negative length, which is undefined. *)
Definition parse_picture (l : vline) : option picture :=
  if isnil (vl_param_list l) then
    match vl_value l with
    | QInvalid => Some picture_new
    | _ =>
        let value := variant_bytes (vl_value l) in
        match find_sub (B "data:") value with
        | None => Some (pi_set_url (lvalue l) picture_new)
        | Some _ =>
            match find_sub (B ";base64,") value with
            | None => Some picture_new
            | Some i =>
                if length value <? 22 then None
                else
                  let type := if i <? 4 then mid 5 value else mid_len 5 (i - 4) value in
                  Some (pi_set_raw (from_base64 (skipn 22 value)) type picture_new)
            end
        end
    end
  else
    let type := if contains (B "type") (vl_param_list l) then vl_parameter (B "type") l else [] in
    if contains (B "encoding") (vl_param_list l)
    then Some (pi_set_raw (variant_bytes (vl_value l)) type picture_new)
    else if contains (B "value") (vl_param_list l) && leqb (to_lower (vl_parameter (B "value") l)) (B "uri")
    then Some (pi_set_url (lvalue l) picture_new)
    else Some picture_new.

(** [parseSound], vcardtool.cpp:1430-1451 *)
Definition parse_sound (l : vline) : sound :=
  if contains (B "encoding") (vl_param_list l) then so_set_data (variant_bytes (vl_value l)) sound_new
  else if contains (B "value") (vl_param_list l) && leqb (to_lower (vl_parameter (B "value") l)) (B "uri")
  then so_set_url (lvalue l) sound_new
  else sound_new.

(** [parseKey], vcardtool.cpp:1473-1507 *)
Definition parse_key (id : ustring) (l : vline) : key :=
  let k := key_of id [] KPGP in
  let k := if contains (B "encoding") (vl_param_list l) then ke_set_bin (variant_bytes (vl_value l)) k
           else ke_set_text (lvalue l) k in
  let type := vl_parameter (B "type") l in
  let media := to_lower (vl_parameter (B "mediatype") l) in
  if contains (B "type") (vl_param_list l) then
    if leqb (to_lower type) (B "x509") then ke_set_type KX509 k
    else if leqb (to_lower type) (B "pgp") then ke_set_type KPGP k
    else ke_set_custom type (ke_set_type KCustom k)
  else if contains (B "mediatype") (vl_param_list l) then
    if leqb media (B "application/x-x509-ca-cert") then ke_set_type KX509 k
    else if leqb media (B "application/pgp-keys") then ke_set_type KPGP k
    else ke_set_custom type (ke_set_type KCustom k)
  else k.

(** [parseSecrecy], vcardtool.cpp:1546-1560 *)
Definition parse_secrecy (l : vline) : secrecy :=
  let s := to_lower (lvalue l) in
  if leqb s (B "public") then SPublic
  else if leqb s (B "private") then SPrivate
  else if leqb s (B "confidential") then SConfidential
  else SInvalid.

(** vcardtool.cpp:867-882; [None]: an empty value changes nothing *)
Definition parse_gender (s : ustring) : option gender :=
  match s with
  | [] => None
  | c :: r =>
      if N.eqb c cSEMI then Some (mkGender [] r)
      else match r with
           | d :: (_ :: _) as q => if N.eqb d cSEMI then Some (mkGender [c] (skipn 2 s)) else Some (mkGender [c] [])
           | _ => Some (mkGender [c] [])
           end
  end.

(** [normalizeImppServiceType], vcardtool.cpp:1614-1626 *)
Definition normalize_impp (s : ustring) : ustring :=
  if leqb s (B "jabber") then B "xmpp"
  else if leqb s (B "yahoo") then B "ymsgr"
  else if leqb s (B "gadugadu") then B "gg"
  else s.

(** ADR, vcardtool.cpp:733-790 *)
Definition set_part (i : nat) (set : ustring -> address -> address) (parts : list ustring) (x : address) : address :=
  match nth_error parts i with Some s => set s x | None => x end.
Definition unquote (s : ustring) : ustring :=
  if (1 <? length s) && N.eqb (nth 0 s 0%N) cDQ && N.eqb (nth (length s - 1) s 0%N) cDQ
  then mid_len 1 (length s - 2) s else s.
Definition line_types (l : vline) : list ustring := vl_parameters (B "type") l.
Definition address_type_of (l : vline) : N := join_types (fun s => address_type (to_lower s)) (line_types l).
Definition parse_address (T : Tool) (id : ustring) (l : vline) : option address :=
  match split_string cSEMI (lvalue l) with
  | None => None
  | Some parts =>
      let x := address_new id 0 in
      let x := set_part 0 ad_set_pobox parts x in
      let x := set_part 1 ad_set_extended parts x in
      let x := set_part 2 ad_set_street parts x in
      let x := set_part 3 ad_set_locality parts x in
      let x := set_part 4 ad_set_region parts x in
      let x := set_part 5 ad_set_postal parts x in
      let x := set_part 6 ad_set_country parts x in
      let x := ad_set_type (address_type_of l) x in
      let label := vl_parameter (B "label") l in
      let x := if isnil label then x else ad_set_label (unquote label) x in
      let geo := remove_str (B "geo:") (remove_ch cDQ (vl_parameter (B "geo") l)) in
      let x := if negb (isnil (vl_parameter (B "geo") l)) && mem cCOMMA geo
               then match split cCOMMA geo with
                    | lat :: lon :: _ => ad_set_geo (geo_set_lon (t_double T lon) (geo_set_lat (t_double T lat) geo_new)) x
                    | _ => x
                    end
               else x in
      Some x
  end.
(** LABEL, vcardtool.cpp:923-948.  [addressList] is a copy of the list of the contact,
    so [setLabel] is called on a shared address and detaches it. *)
Definition read_label (id : ustring) (l : vline) (a : addressee) : addressee :=
  let t := address_type_of l in
  match find (fun x => N.eqb (ad_type x) t) (a_addresses a) with
  | Some x => insert_address (ad_set_label (lvalue l) (address_detach x)) a
  | None => insert_address (ad_set_label (lvalue l) (address_new id t)) a
  end.
(** GEO, vcardtool.cpp:903-920 *)
Definition read_geo (T : Tool) (l : vline) (a : addressee) : addressee :=
  let s := lvalue l in
  let parts := if starts_with (B "geo:") s then split cCOMMA (remove_str (B "geo:") s) else split cSEMI s in
  match parts with
  | lat :: lon :: _ => set_geo (geo_set_lon (t_float T lon) (geo_set_lat (t_float T lat) geo_new)) a
  | _ => a
  end.
(** TEL, vcardtool.cpp:1046-1065 *)
Definition parse_phone (id : ustring) (l : vline) : phone :=
  let types := line_types l in
  mkPhone id (simplified (lvalue l))
    (if isnil types then tUndefined else join_types (fun s => phone_type (to_upper s)) types)
    (vl_params l).

(** names with a fixed spelling, vcardtool.cpp:1130-1186.  ([identifier] is lower
    case, so the case insensitive comparisons compare lower-case texts.) *)
Definition import_names : list (ustring * ustring) :=
  [(B "x-evolution-spouse", B "X-KADDRESSBOOK-X-SpousesName"); (B "x-spouse", B "X-KADDRESSBOOK-X-SpousesName");
   (B "x-evolution-blog-url", B "X-KADDRESSBOOK-BlogFeed"); (B "x-kaddressbook-blogfeed", B "X-KADDRESSBOOK-BlogFeed");
   (B "x-evolution-assistant", B "X-KADDRESSBOOK-X-AssistantsName"); (B "x-assistant", B "X-KADDRESSBOOK-X-AssistantsName");
   (B "x-kaddressbook-x-assistantsname", B "X-KADDRESSBOOK-X-AssistantsName");
   (B "x-evolution-anniversary", B "X-KADDRESSBOOK-X-Anniversary"); (B "x-anniversary", B "X-KADDRESSBOOK-X-Anniversary");
   (B "x-kaddressbook-x-anniversary", B "X-KADDRESSBOOK-X-Anniversary");
   (B "x-evolution-manager", B "X-KADDRESSBOOK-X-ManagersName"); (B "x-manager", B "X-KADDRESSBOOK-X-ManagersName");
   (B "x-kaddressbook-x-managersname", B "X-KADDRESSBOOK-X-ManagersName");
   (B "x-kaddressbook-x-profession", B "X-KADDRESSBOOK-X-Profession");
   (B "x-kaddressbook-x-office", B "X-KADDRESSBOOK-X-Office");
   (B "x-kaddressbook-x-spousesname", B "X-KADDRESSBOOK-X-SpousesName");
   (B "x-aim", B "X-messaging/aim-All"); (B "x-icq", B "X-messaging/icq-All");
   (B "x-jabber", B "X-messaging/xmpp-All"); (B "x-msn", B "X-messaging/msn-All");
   (B "x-yahoo", B "X-messaging/yahoo-All"); (B "x-gadugadu", B "X-messaging/gadu-All");
   (B "x-skype", B "X-messaging/skype-All"); (B "x-groupwise", B "X-messaging/groupwise-All");
   (B "x-sms", B "X-messaging/sms-All"); (B "x-meanwhile", B "X-messaging/meanwhile-All");
   (B "x-irc", B "X-messaging/irc-All"); (B "x-gtalk", B "X-messaging/googletalk-All");
   (B "x-twitter", B "X-messaging/twitter-All")].
Fixpoint spelled (tab : list (ustring * ustring)) (lower given : ustring) : ustring :=
  match tab with
  | [] => given
  | (a, b) :: r => if leqb lower a then b else spelled r lower given
  end.
(** X- lines, vcardtool.cpp:1123-1205.  [key.left(-1)] and [key.mid(0)] are the
    whole key if it has no dash. *)
Definition read_custom (T : Tool) (l : vline) (a : addressee) : addressee :=
  let key := skipn 2 (spelled import_names (to_lower (vl_id l)) (vl_id l)) in
  let dash := index_of 45%N key in
  if starts_with (B "messaging/") key then
    let service := match dash with Some d => mid_len 10 (d - 10) key | None => mid 10 key end in
    let url := t_set_scheme T (normalize_impp service) [] in
    fst (fold_left (fun (acc : addressee * qurl) value =>
                      let url := t_set_path T value (snd acc) in
                      (insert_impp (t_env T) (mkImpp (vl_params l) url) (fst acc), url))
                   (filter (fun s => negb (isnil s)) (split 57344%N (lvalue l))) (a, url))
  else
    match dash with
    | Some d => insert_custom (firstn d key) (skipn (S d) key) (lvalue l) a
    | None => insert_custom key key (lvalue l) a
    end.

(** the branches of the loop body, vcardtool.cpp:725-1207 *)
Inductive lkind :=
| LGroup | LAdr | LAnniversary | LBday | LDeathdate | LCategories | LFburl | LCaladruri | LCaluri | LImpp
| LClass | LGender | LLang | LEmail | LKind | LFn | LGeo | LKey | LLabel | LLogo | LMailer | LN | LName
| LNickname | LNote | LOrg | LPhoto | LProdid | LRev | LRole | LSortstring | LSound | LTel | LTitle | LTz
| LUid | LUrl | LSource | LMember | LRelated | LClientpidmap | LX | LOther.
Definition kind_table : list (ustring * lkind) :=
  [(B "adr", LAdr); (B "anniversary", LAnniversary); (B "bday", LBday); (B "deathdate", LDeathdate);
   (B "categories", LCategories); (B "fburl", LFburl); (B "caladruri", LCaladruri); (B "caluri", LCaluri);
   (B "impp", LImpp); (B "class", LClass); (B "gender", LGender); (B "lang", LLang); (B "email", LEmail);
   (B "kind", LKind); (B "fn", LFn); (B "geo", LGeo); (B "key", LKey); (B "label", LLabel); (B "logo", LLogo);
   (B "mailer", LMailer); (B "n", LN); (B "name", LName); (B "nickname", LNickname); (B "note", LNote);
   (B "org", LOrg); (B "photo", LPhoto); (B "prodid", LProdid); (B "rev", LRev); (B "role", LRole);
   (B "sort-string", LSortstring); (B "sound", LSound); (B "tel", LTel); (B "title", LTitle); (B "tz", LTz);
   (B "uid", LUid); (B "url", LUrl); (B "source", LSource); (B "member", LMember); (B "related", LRelated);
   (B "clientpidmap", LClientpidmap)].
Fixpoint kind_of (tab : list (ustring * lkind)) (id : ustring) : lkind :=
  match tab with
  | [] => if starts_with (B "x-") id then LX else LOther
  | (n, k) :: r => if leqb id n then k else kind_of r id
  end.
Definition line_kind (l : vline) : lkind :=
  let id := to_lower (vl_id l) in
  if negb (isnil (vl_group l)) && negb (leqb id (B "adr")) then LGroup else kind_of kind_table id.

(** [if (!parameter("sort-as").isEmpty()) setSortString(..)] *)
Definition read_sort_as (l : vline) (a : addressee) : addressee :=
  let s := vl_parameter (B "sort-as") l in if isnil s then a else set_sortstring s a.
Definition line_ptext (l : vline) : ptext := mkPtext (vl_params l) (lvalue l).
Definition read_calurl (T : Tool) (t : caltype) (l : vline) (a : addressee) : addressee :=
  insert_calurl (t_env T) (mkCalurl (vl_params l) t (url_parse (env_url (t_env T)) (lvalue l))) a.
Definition set_part_of (i : nat) (set : ustring -> addressee -> addressee) (parts : list ustring) (a : addressee) : addressee :=
  match nth_error parts i with Some s => set s a | None => a end.

(** One line of a card; [id] is the identifier a new address, phone number or key
    gets.  [None]: undefined behaviour (see [parse_picture]). *)
Definition read_line (T : Tool) (id : ustring) (l : vline) (a : addressee) : option addressee :=
  let V := t_env T in
  let url := url_parse (env_url V) (lvalue l) in
  match line_kind l with
  | LGroup => Some (insert_fgroup (mkFgroup (vl_params l) (vl_group l ++ [cDOT] ++ vl_id l) (lvalue l)) a)
  | LAdr => option_map (fun x => insert_address x a) (parse_address T id l)
  | LAnniversary => Some (insert_custom vendor_id x_anniversary (t_date_iso T (dt_date (fst (parse_datetime (lvalue l))))) a)
  | LBday => let (b, t) := parse_datetime (lvalue l) in Some (set_birthday V b t a)
  | LDeathdate => Some (set_deathdate V (fst (parse_datetime (lvalue l))) a)
  | LCategories => option_map (fun cs => set_categories cs a) (split_string cCOMMA (lvalue l))
  | LFburl => Some (read_calurl T CalFBUrl l a)
  | LCaladruri => Some (read_calurl T CalCALADRUri l a)
  | LCaluri => Some (read_calurl T CalCALUri l a)
  | LImpp =>
      let service := vl_parameter (B "x-service-type") l in
      let url := if negb (isnil service) && isnil (url_scheme (env_url V) url)
                 then t_set_scheme T (normalize_impp (to_lower service)) url else url in
      Some (insert_impp V (mkImpp (vl_params l) url) a)
  | LClass => Some (set_secrecy (parse_secrecy l) a)
  | LGender => Some match parse_gender (lvalue l) with Some g => set_gender g a | None => a end
  | LLang => Some (insert_lang (line_ptext l) a)
  | LEmail => Some (add_email (mkEmail (vl_params l) (lvalue l)) a)
  | LKind => Some (set_kind (lvalue l) a)
  | LFn => Some (set_formatted (lvalue l) a)
  | LGeo => Some (read_geo T l a)
  | LKey => Some (insert_key (parse_key id l) a)
  | LLabel => Some (read_label id l a)
  | LLogo => option_map (fun p => if picture_empty (a_logo a) then set_logo V p a else insert_xlogo p a) (parse_picture l)
  | LMailer => Some (set_mailer (lvalue l) a)
  | LN => option_map (fun parts =>
            read_sort_as l (set_part_of 4 set_suffix parts (set_part_of 3 set_prefix parts
              (set_part_of 2 set_additional parts (set_part_of 1 set_given parts (set_part_of 0 set_family parts a))))))
            (split_string cSEMI (lvalue l))
  | LName => Some (set_name (lvalue l) a)
  | LNickname => Some (insert_nick (line_ptext l) a)
  | LNote => Some (set_note (lvalue l) a)
  | LOrg => option_map (fun parts =>
            read_sort_as l (set_part_of 1 set_department parts
              (set_part_of 0 (fun s => insert_org (mkPtext (vl_params l) s)) parts a)))
            (split_string cSEMI (lvalue l))
  | LPhoto => option_map (fun p => if picture_empty (a_photo a) then set_photo V p a else insert_xphoto p a) (parse_picture l)
  | LProdid => Some (set_prodid (lvalue l) a)
  | LRev => Some (set_revision V (fst (parse_datetime (lvalue l))) a)
  | LRole => Some (insert_role (line_ptext l) a)
  | LSortstring => Some (set_sortstring (lvalue l) a)
  | LSound => Some (if sound_empty (a_sound a) then set_sound (parse_sound l) a else insert_xsound (parse_sound l) a)
  | LTel => Some (insert_phone (parse_phone id l) a)
  | LTitle => Some (insert_title (line_ptext l) a)
  | LTz => Some match parse_tz (lvalue l) with Some o => set_tz (tz_set o) a | None => a end
  | LUid => Some (set_uid (lvalue l) a)
  | LUrl => Some (insert_url V (mkRurl (vl_params l) url) a)
  | LSource => Some (insert_source url a)
  | LMember => Some (insert_member (lvalue l) a)
  | LRelated => Some (insert_related (line_ptext l) a)
  | LClientpidmap => Some (insert_pidmap (line_ptext l) a)
  | LX => Some (read_custom T l a)
  | LOther => Some a
  end.

(** the lines of a card, identifier by identifier; the [k]-th line uses the [k]-th
    random identifier *)
Fixpoint read_lines (T : Tool) (card k : nat) (ls : list vline) (a : addressee) : option addressee :=
  match ls with
  | [] => Some a
  | l :: r => match read_line T (t_newid T card k) l a with
              | None => None
              | Some a' => read_lines T card (S k) r a'
              end
  end.
(** one card, vcardtool.cpp:716-1210 *)
Definition read_card (T : Tool) (card : nat) (c : vcard) : option addressee :=
  read_lines T card 1 (flat_map (fun id => card_lines id c) (identifiers c)) (addressee_new (t_newid T card 0)).
Fixpoint read_cards (T : Tool) (n : nat) (l : list vcard) : option (list addressee) :=
  match l with
  | [] => Some []
  | c :: r => match read_card T n c, read_cards T (S n) r with
              | Some a, Some s => Some (a :: s)
              | _, _ => None
              end
  end.

(** Outcomes of reading: still running after the given number of rounds of the
    card parser, undefined behaviour, or a result. *)
Inductive outcome (A : Type) := Running | Undefined | Done (x : A).
Arguments Running {A}. Arguments Undefined {A}. Arguments Done {A} x.
(** [VCardTool::parseVCards], vcardtool.cpp:706-1214, and
    [VCardConverter::parseVCards], converter/vcardconverter.cpp:81-86 *)
Definition parse_text (T : Tool) (E : Ext) (fuel : nat) (text : bytes) : outcome (list addressee) :=
  match parse_vcards E fuel text with
  | None => Running
  | Some cards => match read_cards T 0 cards with None => Undefined | Some l => Done l end
  end.
(** [VCardConverter::parseVCard], converter/vcardconverter.cpp:74-79; the identifier
    of a default contact is an argument *)
Definition parse_one (T : Tool) (E : Ext) (fuel : nat) (uid : ustring) (text : bytes) : outcome addressee :=
  match parse_text T E fuel text with
  | Running => Running
  | Undefined => Undefined
  | Done l => Done match l with [] => addressee_new uid | a :: _ => a end
  end.
