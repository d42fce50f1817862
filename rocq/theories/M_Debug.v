(** Model of the debug texts: [toString] of every class, with [QString::arg]. *)
From Verif Require Import Base Utf8 QtText M_ParamMap M_Values M_Date M_Addressee M_Access.
Local Open Scope list_scope.

(** ** [QString::arg] (Qt, trusted base)

    A place marker is a percent sign, perhaps the letter L, and one or two digits.
    [arg] replaces every marker with the lowest number; if there is none the text
    stays as it is. *)
Inductive piece := Ch (c : N) | Mark (n : N) (raw : list N).
Definition dval (c : N) : N := (c - 48)%N.
Fixpoint pieces (s : ustring) : list piece :=
  match s with
  | [] => []
  | c :: t =>
      if N.eqb c 37 then
        match t with
        | [] => [Ch c]
        | d :: u =>
            if is_digit d then
              match u with
              | [] => [Mark (dval d) [c; d]]
              | e :: w => if is_digit e then Mark (10 * dval d + dval e) [c; d; e] :: pieces w
                          else Mark (dval d) [c; d] :: pieces u
              end
            else if N.eqb d 76 then
              match u with
              | [] => [Ch c; Ch d]
              | e :: w =>
                  if is_digit e then
                    match w with
                    | [] => [Mark (dval e) [c; d; e]]
                    | f :: v => if is_digit f then Mark (10 * dval e + dval f) [c; d; e; f] :: pieces v
                                else Mark (dval e) [c; d; e] :: pieces w
                    end
                  else Ch c :: pieces t
              end
            else Ch c :: pieces t
        end
      else Ch c :: pieces t
  end.
Definition lowest (ps : list piece) : option N :=
  fold_left (fun o p => match p, o with
                        | Ch _, _ => o
                        | Mark n _, None => Some n
                        | Mark n _, Some m => Some (N.min n m)
                        end) ps None.
Definition arg (s x : ustring) : ustring :=
  match lowest (pieces s) with
  | None => s
  | Some m => flat_map (fun p => match p with
                                 | Ch c => [c]
                                 | Mark n raw => if N.eqb n m then x else raw
                                 end) (pieces s)
  end.

(** a template that ends its line: [QStringLiteral("...\n")] *)
Definition ln (s : string) : ustring := B s ++ [cLF].
(** [x ? "true" : "false"] *)
Definition truth (b : bool) : ustring := if b then B "true" else B "false".
(** [QString::arg(int)] *)
Definition int_text (z : Z) : ustring := if (z <? 0)%Z then 45%N :: decimal (Z.to_N (- z)) else decimal (Z.to_N z).

(** What the texts take from elsewhere: translation, [QString::arg(double)],
    [QDateTime::toString], the URL and image functions. *)
Record DebugExt := {
  dx_tr : ustring -> ustring;
  dx_num : flt -> ustring;
  dx_time : datetime -> ustring;
  dx_env : Env
}.

(** [ParameterMap::toString], parametermap_p.h:57-69 ([arg] with two arguments
    replaces both markers at once) *)
Definition params_string (m : pmap) : ustring :=
  if isnil m then []
  else B "    parameters: " ++ flat_map (fun e => fst e ++ [cSP] ++ join [cCOMMA] (snd e)) m ++ [cLF].

(** [Geo::toString], geo.cpp:129-138 *)
Definition geo_string (X : DebugExt) (g : geo) : ustring :=
  ln "Geo {" ++ arg (ln "  Valid: %1") (truth (geo_valid g)) ++ arg (ln "  Latitude: %1") (dx_num X (g_lat g))
  ++ arg (ln "  Longitude: %1") (dx_num X (g_lon g)) ++ ln "}".
(** [TimeZone::toString], timezone.cpp:99-106 *)
Definition tz_string (z : tzone) : ustring := ln "TimeZone {" ++ arg (ln "  Offset: %1") (int_text (tz_offset z)) ++ ln "}".
(** [Gender::toString], gender.cpp:70-77 *)
Definition gender_string (g : gender) : ustring :=
  ln "Gender {" ++ arg (ln "    gender: %1") (ge_gender g) ++ arg (ln "    comment: %1") (ge_comment g) ++ ln "}".
(** [Secrecy::toString], secrecy.cpp:110-117 *)
Definition secrecy_string (X : DebugExt) (s : secrecy) : ustring :=
  ln "Secrecy {" ++ arg (ln "  Type: %1") (secrecy_label (dx_tr X) s) ++ ln "}".
(** [Address::toString], address.cpp:382-400 *)
Definition address_string (X : DebugExt) (a : address) : ustring :=
  ln "Address {" ++ arg (ln "  IsEmpty: %1") (truth (ad_empty a)) ++ arg (ln "  Id: %1") (ad_id a)
  ++ arg (ln "  Type: %1") (address_type_label (dx_tr X) (ad_type a)) ++ arg (ln "  Post office box: %1") (ad_pobox a)
  ++ arg (ln "  Extended: %1") (ad_extended a) ++ arg (ln "  Street: %1") (ad_street a)
  ++ arg (ln "  Locality: %1") (ad_locality a) ++ arg (ln "  Region: %1") (ad_region a)
  ++ arg (ln "  Postal code: %1") (ad_postal a) ++ arg (ln "  Country: %1") (ad_country a)
  ++ arg (ln "  Label: %1") (ad_label a) ++ arg (ln "  Geo: %1") (geo_string X (ad_geo a)) ++ ln "}".
(** [Email::toString], email.cpp:74-81 *)
Definition email_string (e : email) : ustring :=
  ln "Email {" ++ arg (ln "    mail: %1") (em_mail e) ++ params_string (em_params e) ++ ln "}".
(** [PhoneNumber::toString], phonenumber.cpp:258-268: the third assignment is [=], not [+=] *)
Definition phone_string (X : DebugExt) (p : phone) : ustring :=
  let str := ln "PhoneNumber {" in
  let str := str ++ arg (ln "    Id: %1") (ph_id p) in
  let str := str ++ arg (ln "    Type: %1") (phone_type_label (dx_tr X) (ph_type p)) in
  let str := params_string (ph_params p) in
  let str := str ++ arg (ln "    Number: %1") (ph_number p) in
  str ++ ln "}".
(** [Key::toString], key.cpp:162-179 *)
Definition key_string (X : DebugExt) (k : key) : ustring :=
  ln "Key {" ++ arg (ln "  Id: %1") (ke_id k) ++ arg (ln "  Type: %1") (key_type_label (dx_tr X) (ke_type k))
  ++ match ke_type k with KCustom => arg (ln "  CustomType: %1") (ke_custom k) | _ => [] end
  ++ arg (ln "  IsBinary: %1") (truth (ke_isbin k))
  ++ (if ke_isbin k then arg (ln "  Binary: %1") (to_base64 (ke_bin k)) else arg (ln "  Text: %1") (ke_text k)) ++ ln "}".
(** [Picture::toString], picture.cpp:200-213 *)
Definition picture_string (X : DebugExt) (p : picture) : ustring :=
  ln "Picture {" ++ arg (ln "  Type: %1") (pi_type p) ++ arg (ln "  IsIntern: %1") (truth (pi_intern p))
  ++ (if pi_intern p then arg (ln "  Data: %1") (to_base64 (pi_raw_of (env_img (dx_env X)) p)) else arg (ln "  Url: %1") (pi_url p))
  ++ ln "}".
(** [Sound::toString], sound.cpp:138-151 *)
Definition sound_string (s : sound) : ustring :=
  ln "Sound {" ++ arg (ln "  Type: %1") (so_type s) ++ arg (ln "  IsIntern: %1") (truth (so_intern s))
  ++ (if so_intern s then arg (ln "  Data: %1") (to_base64 (so_data s)) else arg (ln "  Url: %1") (so_url s)) ++ ln "}".
(** Title, Role, Org, NickName, Note, Related, Lang: lines 96-103 of title.cpp,
    role.cpp, org.cpp, nickname.cpp, note.cpp, related.cpp, lang.cpp; ClientPidMap:
    clientpidmap.cpp:98-105.  The class and the template of the text are arguments. *)
Definition ptext_string (head template : string) (p : ptext) : ustring :=
  ln head ++ arg (ln template) (pt_text p) ++ params_string (pt_params p) ++ ln "}".
Definition title_string := ptext_string "Title {" "    title: %1".
Definition role_string := ptext_string "Role {" "    role: %1".
Definition org_string := ptext_string "Org {" "    organization: %1".
Definition nick_string := ptext_string "NickName {" "    nickname: %1".
Definition note_string := ptext_string "Note {" "    note: %1".
Definition related_string := ptext_string "Related {" "    relatedTo: %1".
Definition lang_string := ptext_string "Lang {" "    language: %1".
Definition pidmap_string := ptext_string "ClientPidMap {" "    clientpidmap: %1".
(** [FieldGroup::toString], fieldgroup.cpp:110-117: [arg] twice, the second time on a
    text that contains the name *)
Definition fgroup_string (f : fgroup) : ustring :=
  ln "FieldGroup {" ++ arg (arg (ln "    FieldGroupName: %1 Value %2") (fg_name f)) (fg_value f)
  ++ params_string (fg_params f) ++ ln "}".
(** [typeToString], [CalendarUrl::toString], calendarurl.cpp:39-58, 100-108 *)
Definition caltype_string (t : caltype) : ustring :=
  match t with
  | CalUnknown | CalEnd => B "Unknown" | CalFBUrl => B "FreeBusy" | CalCALUri => B "CalUri" | CalCALADRUri => B "Caladruri"
  end.
Definition calurl_string (c : calurl) : ustring :=
  ln "CalendarUrl {" ++ arg (ln "    url: %1") (cu_url c) ++ arg (ln "    type: %1") (caltype_string (cu_type c))
  ++ params_string (cu_params c) ++ ln "}".
(** [ResourceLocatorUrl::toString], resourcelocatorurl.cpp:173-180 *)
Definition rurl_string (r : rurl) : ustring :=
  ln "ResourceLocatorUrl {" ++ arg (ln "    url: %1") (ru_url r) ++ params_string (ru_params r) ++ ln "}".
(** [Impp::toString], impp.cpp:144-152 *)
Definition impp_string (X : DebugExt) (i : impp) : ustring :=
  ln "Impp {" ++ arg (ln "    type: %1") (url_scheme (env_url (dx_env X)) (im_address i))
  ++ arg (ln "    address: %1") (im_address i) ++ params_string (im_params i) ++ ln "}".

(** [Addressee::toString], addressee.cpp:1933-2004 *)
Definition contact_string (X : DebugExt) (a : addressee) : ustring :=
  ln "Addressee {" ++ arg (ln "  Uid: %1") (a_uid a)
  ++ arg (ln "  Name: %1") (a_name a) ++ arg (ln "  FormattedName: %1") (a_formatted a)
  ++ arg (ln "  FamilyName: %1") (a_family a) ++ arg (ln "  GivenName: %1") (a_given a)
  ++ arg (ln "  AdditionalName: %1") (a_additional a) ++ arg (ln "  Prefix: %1") (a_prefix a)
  ++ arg (ln "  Suffix: %1") (a_suffix a) ++ arg (ln "  NickName: %1") (nickname a)
  ++ arg (ln "  Birthday: %1") (dx_time X (a_birthday a)) ++ arg (ln "  Mailer: %1") (a_mailer a)
  ++ arg (ln "  TimeZone: %1") (tz_string (a_tz a)) ++ arg (ln "  Geo: %1") (geo_string X (a_geo a))
  ++ arg (ln "  Title: %1") (title a) ++ arg (ln "  Role: %1") (role a)
  ++ arg (ln "  Organization: %1") (organization a) ++ arg (ln "  Department: %1") (a_department a)
  ++ arg (ln "  Note: %1") (a_note a) ++ arg (ln "  ProductId: %1") (a_prodid a)
  ++ arg (ln "  Revision: %1") (dx_time X (a_revision a)) ++ arg (ln "  SortString: %1") (a_sortstring a)
  ++ arg (ln "  Url: %1") (ru_url (main_url a)) ++ arg (ln "  Secrecy: %1") (secrecy_string X (a_secrecy a))
  ++ arg (ln "  Logo: %1") (picture_string X (a_logo a)) ++ arg (ln "  Photo: %1") (picture_string X (a_photo a))
  ++ arg (ln "  Sound: %1") (sound_string (a_sound a)) ++ arg (ln "  Gender: %1") (gender_string (a_gender a))
  ++ arg (ln "  Kind: %1") (a_kind a)
  ++ ln "  Emails {" ++ flat_map email_string (a_emails a) ++ ln "  }"
  ++ ln "  Langs {" ++ flat_map lang_string (a_langs a) ++ ln "  }"
  ++ ln "  PhoneNumbers {" ++ flat_map (phone_string X) (a_phones a) ++ ln "  }"
  ++ ln "  Addresses {" ++ flat_map (address_string X) (a_addresses a) ++ ln "  }"
  ++ ln "  Keys {" ++ flat_map (key_string X) (a_keys a) ++ ln "  }"
  ++ ln "}".
