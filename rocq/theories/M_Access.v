(** Model of the labels shown for types, of [Address::geoUri], and of the remaining
    accessors of [ContactGroup] and its members.
    [tr] is the translation of the literals ([i18n], [i18nc]; the contexts are left out:
    the literals within one class are pairwise different). *)
From Verif Require Import Base QtText M_ParamMap M_Values M_Addressee M_ContactGroup M_AddressFormat.

Definition flag_set (t f : N) : bool := negb (N.eqb (N.land t f) 0).

(** ** Telephone numbers *)
(** [PhoneNumber::typeList], phonenumber.cpp:152-162 *)
Definition phone_types : list N :=
  [tHome; tWork; tMsg; tPref; tVoice; tFax; tCell; tVideo; tBbs; tModem; tCar; tIsdn; tPcs; tPager; tUndefined].
(** [PhoneNumber::typeFlagLabel], phonenumber.cpp:164-200 *)
Definition phone_flag_label (tr : ustring -> ustring) (f : N) : ustring :=
  tr (if N.eqb f tUndefined then B "Telephone number" else if N.eqb f tHome then B "Home" else if N.eqb f tWork then B "Work"
      else if N.eqb f tMsg then B "Messenger" else if N.eqb f tPref then B "Preferred" else if N.eqb f tVoice then B "Voice"
      else if N.eqb f tFax then B "Fax" else if N.eqb f tCell then B "Mobile" else if N.eqb f tVideo then B "Video"
      else if N.eqb f tBbs then B "Mailbox" else if N.eqb f tModem then B "Modem" else if N.eqb f tCar then B "Car"
      else if N.eqb f tIsdn then B "ISDN" else if N.eqb f tPcs then B "PCS" else if N.eqb f tPager then B "Pager" else B "Other").
(** the loop of [typeLabel(Type)], phonenumber.cpp:227-243: label and [first] *)
Definition phone_label_step (tr : ustring -> ustring) (t : N) (s : ustring * bool) (f : N) : ustring * bool :=
  if flag_set t f then ((if snd s then fst s else fst s ++ [47%N]) ++ phone_flag_label tr f, false) else s.
(** [PhoneNumber::typeLabel(Type)], phonenumber.cpp:202-246 *)
Definition phone_type_label (tr : ustring -> ustring) (t : N) : ustring :=
  if N.eqb t tPref then tr (B "Preferred Number")
  else
    let '(label, first, t') :=
      if flag_set t tFax then
        if flag_set t tHome then (tr (B "Home Fax"), false, N.ldiff (N.ldiff t tFax) tHome)
        else if flag_set t tWork then (tr (B "Work Fax"), false, N.ldiff (N.ldiff t tFax) tWork)
        else ([], true, t)
      else ([], true, t) in
    fst (fold_left (phone_label_step tr t') phone_types (label, first)).
(** [isPreferred], [supportsSms], phonenumber.cpp:248-256 *)
Definition phone_preferred (p : phone) : bool := flag_set (ph_type p) tPref.
Definition phone_sms (p : phone) : bool := flag_set (ph_type p) tCell.

(** ** Addresses *)
(** [Address::typeList], address.cpp:339-348 *)
Definition address_types : list N := [aDom; aIntl; aPostal; aParcel; aHome; aWork; aPref].
(** [Address::typeFlagLabel], address.cpp:350-369 *)
Definition address_flag_label (tr : ustring -> ustring) (f : N) : ustring :=
  tr (if N.eqb f aDom then B "Domestic" else if N.eqb f aIntl then B "International" else if N.eqb f aPostal then B "Postal"
      else if N.eqb f aParcel then B "Parcel" else if N.eqb f aHome then B "Home" else if N.eqb f aWork then B "Work"
      else if N.eqb f aPref then B "Preferred Address" else B "Other").
(** [typeLabel(Type)], address.cpp:173-192: every label with a slash before it; then the
    first character is removed *)
Definition address_type_label (tr : ustring -> ustring) (t : N) : ustring :=
  skipn 1 (fold_left (fun s f => if flag_set t f then s ++ 47%N :: address_flag_label tr f else s) address_types []).
(** [typeLabel()], address.cpp:194-209: without the preference *)
Definition address_label (tr : ustring -> ustring) (a : address) : ustring :=
  skipn 1 (fold_left (fun s f => if flag_set (ad_type a) f && negb (N.eqb f aPref) then s ++ 47%N :: address_type_label tr f else s) address_types []).

(** ** Keys, secrecy, URLs *)
(** [Key::typeLabel], key.cpp:192-208 *)
Definition key_type_label (tr : ustring -> ustring) (t : keytype) : ustring :=
  tr (match t with KX509 => B "X509" | KPGP => B "PGP" | KCustom => B "Custom" end).
(** [Key::typeList], key.cpp:181-190; [Secrecy::typeList], secrecy.cpp:81-90 *)
Definition key_types : list keytype := [KX509; KPGP; KCustom].
Definition secrecy_types : list secrecy := [SPublic; SPrivate; SConfidential].
(** [Secrecy::typeLabel], secrecy.cpp:92-108 *)
Definition secrecy_label (tr : ustring -> ustring) (s : secrecy) : ustring :=
  tr (match s with SPublic => B "Public" | SPrivate => B "Private" | SConfidential => B "Confidential" | SInvalid => B "Unknown type" end).
(** [ResourceLocatorUrl::resourceLabel], resourcelocatorurl.cpp:182-201; [Home], [Work],
    [Profile] are flags, and a set of several has the label of [Other] *)
Definition url_label (tr : ustring -> ustring) (r : rurl) : ustring :=
  let t := rurl_type r in
  tr (if N.eqb t 1 then B "Home" else if N.eqb t 2 then B "Work" else if N.eqb t 4 then B "Profile" else B "Other").

(** ** [Address::geoUri], address.cpp:414-433 *)
(** a URL by its parts; the query is a list of items *)
Record uri := mkUri { uri_scheme : ustring; uri_path : ustring; uri_query : list (ustring * ustring) }.
(** [num] is [QString::number(float)]; [None]: the formatter reads outside its format *)
Definition geo_uri (X : FmtExt) (num : flt -> ustring) (a : address) : option uri :=
  if geo_valid (ad_geo a) then Some (mkUri (B "geo") (num (g_lat (ad_geo a)) ++ B "," ++ num (g_lon (ad_geo a))) [])
  else if negb (ad_empty a) then
    match formatted X a GeoQuery [] [] with
    | Some q => Some (mkUri (B "geo") (B "0,0") [(B "q", q)])
    | None => None
    end
  else Some (mkUri [] [] []).

(** ** Members of contact groups *)
(** [ContactReference::custom], contactgroup.cpp:99-102 *)
Definition cr_custom (k : ustring) (r : cref) : ustring := cm_value k (cr_customs r).
(** [ContactGroupReference], contactgroup.cpp:147-180 *)
Definition gref_of (uid : ustring) : gref := mkGref uid [].
Definition gr_insert_custom (k v : ustring) (r : gref) : gref := mkGref (gr_uid r) (cm_insert k v (gr_customs r)).
Definition gr_remove_custom (k : ustring) (r : gref) : gref := mkGref (gr_uid r) (cm_remove k (gr_customs r)).
Definition gr_custom (k : ustring) (r : gref) : ustring := cm_value k (gr_customs r).
(** [Data::insertCustom], [removeCustom], [custom], contactgroup.cpp:258-271 *)
Definition cd_insert_custom (k v : ustring) (d : cdata) : cdata := mkCdata (cd_name d) (cd_email d) (cm_insert k v (cd_customs d)).
Definition cd_remove_custom (k : ustring) (d : cdata) : cdata := mkCdata (cd_name d) (cd_email d) (cm_remove k (cd_customs d)).
Definition cd_custom (k : ustring) (d : cdata) : ustring := cm_value k (cd_customs d).
(** [contactReference(i)], [contactGroupReference(i)], [data(i)],
    contactgroup.cpp:375-415: outside the list the behaviour is undefined *)
Definition cg_ref_at (i : nat) (g : cgroup) : option cref := nth_error (cg_refs g) i.
Definition cg_gref_at (i : nat) (g : cgroup) : option gref := nth_error (cg_grefs g) i.
Definition cg_data_at (i : nat) (g : cgroup) : option cdata := nth_error (cg_data g) i.

(** ** [Addressee::url], addressee.cpp:1327-1334 *)
Definition main_url (a : addressee) : rurl := match a_urls a with u :: _ => u | [] => mkRurl [] [] end.

(** ** Setters of value classes that the readers do not use *)
(** [Key::setId], key.cpp:105-108 *)
Definition ke_set_id (s : ustring) (k : key) : key := mkKey s (ke_bin k) (ke_text k) (ke_custom k) (ke_type k) (ke_isbin k).
(** [PhoneNumber::setId], [setNumber], [setType], phonenumber.cpp:105-108, 115-118, 137-140 *)
Definition ph_set_id (s : ustring) (p : phone) : phone := mkPhone s (ph_number p) (ph_type p) (ph_params p).
Definition ph_set_number (s : ustring) (p : phone) : phone := mkPhone (ph_id p) (simplified s) (ph_type p) (ph_params p).
Definition ph_set_type (t : N) (p : phone) : phone := mkPhone (ph_id p) (ph_number p) t (ph_params p).

(** ** Constructors *)
(** [Sound(url)], [Sound(data)], sound.cpp:42-53 *)
Definition sound_of_url (u : ustring) : sound := mkSound u [] [] false.
Definition sound_of_data (d : bytes) : sound := mkSound [] [] d true.
(** [Picture(url)], [Picture(image)], picture.cpp:50-60 *)
Definition picture_of_url (u : ustring) : picture := mkPicture u [] None [] false.
Definition picture_of_image (im : image) (alpha : bool) : picture := pi_set_data im alpha picture_new.
