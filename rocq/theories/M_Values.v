(** Model of the value classes a contact is made of.  The private data of each
    class becomes a record; implicit sharing is invisible for values (C++ copies
    are modelled by the detaching copy constructors in [M_Copy]). *)
From Coq Require Import QArith.
From Verif Require Import Base QtText M_ParamMap.
Local Open Scope list_scope.
Local Open Scope nat_scope.

(** ** Numbers *)

(** [float]: only comparison matters here.  Finite values are rationals; the two
    infinities and NaN are separate. *)
Inductive flt := Fin (q : Q) | PInf | NInf | NaN.
(** IEEE [<=] *)
Definition f_le (a b : flt) : bool :=
  match a, b with
  | NaN, _ | _, NaN => false
  | NInf, _ => true
  | _, PInf => true
  | Fin x, Fin y => Qle_bool x y
  | PInf, _ => false
  | _, NInf => false
  end.
(** IEEE [==] *)
Definition f_eq (a b : flt) : bool :=
  match a, b with
  | Fin x, Fin y => Qeq_bool x y
  | PInf, PInf | NInf, NInf => true
  | _, _ => false
  end.
Definition f_of_Z (z : Z) : flt := Fin (inject_Z z).

(** ** Geo, geo.cpp *)

(** [Geo::Private], geo.cpp:15-41 *)
Record geo := mkGeo { g_lat : flt; g_lon : flt; g_vlat : bool; g_vlon : bool }.
(** [Geo::Geo()], geo.cpp:18-24, 43-46 *)
Definition geo_new : geo := mkGeo (f_of_Z 91) (f_of_Z 181) false false.
(** [Geo::setLatitude], geo.cpp:62-71 *)
Definition geo_set_lat (v : flt) (g : geo) : geo :=
  if f_le (f_of_Z (-90)) v && f_le v (f_of_Z 90)
  then mkGeo v (g_lon g) true (g_vlon g)
  else mkGeo (f_of_Z 91) (g_lon g) false (g_vlon g).
(** [Geo::setLongitude], geo.cpp:78-87 *)
Definition geo_set_lon (v : flt) (g : geo) : geo :=
  if f_le (f_of_Z (-180)) v && f_le v (f_of_Z 180)
  then mkGeo (g_lat g) v (g_vlat g) true
  else mkGeo (g_lat g) (f_of_Z 181) (g_vlat g) false.
(** [Geo::Geo(float, float)], geo.cpp:48-53 *)
Definition geo_of (lat lon : flt) : geo := geo_set_lon lon (geo_set_lat lat geo_new).
(** [Geo::isValid], geo.cpp:94-97 *)
Definition geo_valid (g : geo) : bool := g_vlat g && g_vlon g.
(** [Geo::operator==], geo.cpp:99-114 *)
Definition geo_eq (a b : geo) : bool :=
  if negb (geo_valid b) && negb (geo_valid a) then true
  else if negb (geo_valid b) || negb (geo_valid a) then false
  else f_eq (g_lat b) (g_lat a) && f_eq (g_lon b) (g_lon a).
(** [Geo::clear], geo.cpp:141-145 *)
Definition geo_clear (g : geo) : geo := mkGeo (g_lat g) (g_lon g) false false.

(** ** TimeZone, timezone.cpp *)

(** [TimeZone::Private], timezone.cpp:15-33 *)
Record tzone := mkTz { tz_offset : Z; tz_valid : bool }.
(** timezone.cpp:35-38 *)
Definition tz_new : tzone := mkTz 0 false.
(** [TimeZone::setOffset], timezone.cpp:52-56 *)
Definition tz_set (o : Z) : tzone := mkTz o true.
(** [TimeZone::operator==], timezone.cpp:68-83 *)
Definition tz_eq (a b : tzone) : bool :=
  if negb (tz_valid b) && negb (tz_valid a) then true
  else if negb (tz_valid b) || negb (tz_valid a) then false
  else Z.eqb (tz_offset b) (tz_offset a).

(** ** Gender, gender.cpp *)

(** [Gender::Private], gender.cpp:13-28 *)
Record gender := mkGender { ge_gender : ustring; ge_comment : ustring }.
Definition gender_new : gender := mkGender [] [].
(** [Gender::operator==], gender.cpp:50-53 *)
Definition gender_eq (a b : gender) : bool :=
  leqb (ge_comment a) (ge_comment b) && leqb (ge_gender a) (ge_gender b).
(** [Gender::isValid], gender.cpp:98-101 *)
Definition gender_valid (g : gender) : bool := negb (isnil (ge_gender g)) || negb (isnil (ge_comment g)).

(** ** Secrecy, secrecy.h:38-43, secrecy.cpp *)
Inductive secrecy := SPublic | SPrivate | SConfidential | SInvalid.
(** [Secrecy::operator==], secrecy.cpp:57-60 *)
Definition secrecy_eq (a b : secrecy) : bool :=
  match a, b with
  | SPublic, SPublic | SPrivate, SPrivate | SConfidential, SConfidential | SInvalid, SInvalid => true
  | _, _ => false
  end.

(** ** Text with parameters: Title, Role, Org, NickName, Note, Related, Lang,
    ClientPidMap (title.cpp, role.cpp, org.cpp, nickname.cpp, note.cpp,
    related.cpp, lang.cpp, clientpidmap.cpp; all at lines 13-116 and identical up
    to the name of the text member). *)
Record ptext := mkPtext { pt_params : pmap; pt_text : ustring }.
(** e.g. [Title::Title(const QString &)], title.cpp:45-49 *)
Definition ptext_of (s : ustring) : ptext := mkPtext [] s.
(** e.g. [Title::setTitle], title.cpp:51-54 *)
Definition ptext_set (s : ustring) (p : ptext) : ptext := mkPtext (pt_params p) s.
(** e.g. [Title::isValid], title.cpp:62-65 *)
Definition ptext_valid (p : ptext) : bool := negb (isnil (pt_text p)).
(** e.g. [Title::operator==], title.cpp:77-80 *)
Definition ptext_eq (a b : ptext) : bool :=
  pmap_eqb (pt_params a) (pt_params b) && leqb (pt_text a) (pt_text b).

(** ** FieldGroup, fieldgroup.cpp:13-98 *)
Record fgroup := mkFgroup { fg_params : pmap; fg_name : ustring; fg_value : ustring }.
(** fieldgroup.cpp:66-69 *)
Definition fgroup_valid (f : fgroup) : bool := negb (isnil (fg_name f)).
(** fieldgroup.cpp:91-94 *)
Definition fgroup_eq (a b : fgroup) : bool :=
  pmap_eqb (fg_params a) (fg_params b) && leqb (fg_name a) (fg_name b) && leqb (fg_value a) (fg_value b).

(** ** URLs.  A [QUrl] is represented by its normalised text ([QUrl::url()]); the
    external operations on it are collected in [UrlExt]. *)
Definition qurl := ustring.
Record UrlExt := {
  url_parse : ustring -> qurl;        (* QUrl(const QString &) *)
  url_valid : qurl -> bool;           (* QUrl::isValid *)
  url_scheme : qurl -> ustring;       (* QUrl::scheme *)
}.

(** [CalendarUrl], calendarurl.h:48-54, calendarurl.cpp:15-84, 120-123 *)
Inductive caltype := CalUnknown | CalFBUrl | CalCALUri | CalCALADRUri | CalEnd.
Definition caltype_eq (a b : caltype) : bool :=
  match a, b with
  | CalUnknown, CalUnknown | CalFBUrl, CalFBUrl | CalCALUri, CalCALUri
  | CalCALADRUri, CalCALADRUri | CalEnd, CalEnd => true
  | _, _ => false
  end.
Record calurl := mkCalurl { cu_params : pmap; cu_type : caltype; cu_url : qurl }.
Definition calurl_eq (a b : calurl) : bool :=
  pmap_eqb (cu_params a) (cu_params b) && caltype_eq (cu_type a) (cu_type b) && leqb (cu_url a) (cu_url b).
Definition calurl_valid (U : UrlExt) (c : calurl) : bool :=
  negb (caltype_eq (cu_type c) CalUnknown) && url_valid U (cu_url c).

(** [ResourceLocatorUrl], resourcelocatorurl.cpp:17-34, 154-157, 208-211 *)
Record rurl := mkRurl { ru_params : pmap; ru_url : qurl }.
Definition rurl_eq (a b : rurl) : bool :=
  pmap_eqb (ru_params a) (ru_params b) && leqb (ru_url a) (ru_url b).
Definition rurl_valid (U : UrlExt) (r : rurl) : bool := url_valid U (ru_url r).

(** [Impp], impp.cpp:21-33, 52-56, 113-116 *)
Record impp := mkImpp { im_params : pmap; im_address : qurl }.
Definition impp_eq (a b : impp) : bool :=
  pmap_eqb (im_params a) (im_params b) && leqb (im_address a) (im_address b).
Definition impp_valid (U : UrlExt) (i : impp) : bool :=
  negb (isnil (im_address i)) && negb (isnil (url_scheme U (im_address i))).

(** ** Email, email.cpp:17-53, 60-63, 101-104 *)
Record email := mkEmail { em_params : pmap; em_mail : ustring }.
Definition email_of (s : ustring) : email := mkEmail [] s.
Definition email_eq (a b : email) : bool :=
  pmap_eqb (em_params a) (em_params b) && leqb (em_mail a) (em_mail b).

(** Type flags, email.h:112-117 and the table email.cpp:113-117 *)
Definition email_type_names : list (ustring * N) :=
  [(B "HOME", 1%N); (B "WORK", 2%N); (B "OTHER", 4%N)].

(** the flag of the first table entry whose name satisfies the test *)
Fixpoint lookup_type (test : ustring -> bool) (tab : list (ustring * N)) : N :=
  match tab with
  | [] => 0%N
  | (n, f) :: r => if test n then f else lookup_type test r
  end.

Definition kTYPE : ustring := B "type".
Definition kPREF : ustring := B "pref".
Definition vPREF : ustring := B "PREF".
Definition vONE : ustring := B "1".

(** [Email::type], email.cpp:119-137 (comparison with [s.toUpper()]) *)
Definition types_of (up : ustring -> ustring) (tab : list (ustring * N)) (vs : list ustring) : N :=
  fold_left (fun t s => N.lor t (lookup_type (fun n => leqb n (up s)) tab)) vs 0%N.
Definition pm_type (up : ustring -> ustring) (tab : list (ustring * N)) (m : pmap) : N :=
  match find_param kTYPE m with None => 0%N | Some vs => types_of up tab vs end.

(** [Email::setType], email.cpp:139-165, and [ResourceLocatorUrl::setType],
    resourcelocatorurl.cpp:82-105 (the same code) *)
Definition set_types (tab : list (ustring * N)) (old new : N) (vs : list ustring) : list ustring :=
  fold_left (fun ws (nf : ustring * N) =>
               if N.eqb (N.land (N.lxor new old) (snd nf)) 0 then ws
               else if negb (N.eqb (N.land new (snd nf)) 0) then ws ++ [fst nf]
               else remove_all (fst nf) ws) tab vs.
Definition pm_set_type (up : ustring -> ustring) (tab : list (ustring * N)) (t : N) (m : pmap) : pmap :=
  let old := pm_type up tab m in
  let m1 := match find_param kTYPE m with Some _ => m | None => insert_param kTYPE [] m end in
  match find_param kTYPE m1 with
  | Some vs => update_param kTYPE (set_types tab old t vs) m1
  | None => m1
  end.

(** [Email::isPreferred], email.cpp:167-180; the same in
    resourcelocatorurl.cpp:107-120 *)
Definition pm_preferred (m : pmap) : bool :=
  match find_param kPREF m with
  | Some vs => match vs with v :: _ => leqb v vONE | [] => false end
  | None => match find_param kTYPE m with
            | Some vs => contains_ci vPREF vs
            | None => false
            end
  end.
(** [Email::setPreferred], email.cpp:182-212; the same in
    resourcelocatorurl.cpp:122-152 *)
Definition pm_set_preferred (p : bool) (m : pmap) : pmap :=
  if Bool.eqb p (pm_preferred m) then m
  else
    let types := match find_param kTYPE m with Some vs => vs | None => [] end in
    let '(m1, types1) := if negb p then (erase_param kPREF m, remove_all vPREF types)
                         else (m, types ++ [vPREF]) in
    match find_param kTYPE m1 with
    | Some _ => update_param kTYPE types1 m1
    | None => insert_param kTYPE types1 m1
    end.

Definition email_type (e : email) : N := pm_type to_upper email_type_names (em_params e).
Definition email_set_type (t : N) (e : email) : email :=
  mkEmail (pm_set_type to_upper email_type_names t (em_params e)) (em_mail e).
Definition email_preferred (e : email) : bool := pm_preferred (em_params e).
Definition email_set_preferred (p : bool) (e : email) : email :=
  mkEmail (pm_set_preferred p (em_params e)) (em_mail e).

(** resourcelocatorurl.h:93-102, resourcelocatorurl.cpp:53-61: note that names are
    compared without changing case. *)
Definition url_type_names : list (ustring * N) :=
  [(B "HOME", 1%N); (B "WORK", 2%N); (B "OTHER", 64%N); (B "PROFILE", 4%N);
   (B "FTP", 8%N); (B "RESERVATION", 16%N); (B "APPINSTALLPAGE", 32%N)].
Definition rurl_type (r : rurl) : N := pm_type (fun s => s) url_type_names (ru_params r).
Definition rurl_set_type (t : N) (r : rurl) : rurl :=
  mkRurl (pm_set_type (fun s => s) url_type_names t (ru_params r)) (ru_url r).
Definition rurl_preferred (r : rurl) : bool := pm_preferred (ru_params r).
Definition rurl_set_preferred (p : bool) (r : rurl) : rurl :=
  mkRurl (pm_set_preferred p (ru_params r)) (ru_url r).

(** [Impp::isPreferred], impp.cpp:83-90 *)
Definition impp_preferred (i : impp) : bool :=
  match find_param kPREF (im_params i) with
  | Some (v :: _) => leqb v vONE
  | _ => false
  end.
(** [Impp::setPreferred], impp.cpp:92-107 *)
Definition impp_set_preferred (p : bool) (i : impp) : impp :=
  let m := im_params i in
  mkImpp (if negb p then erase_param kPREF m
          else match find_param kPREF m with
               | Some _ => update_param kPREF [vONE] m
               | None => insert_param kPREF [vONE] m
               end) (im_address i).

(** ** PhoneNumber, phonenumber.cpp *)

(** [PhoneNumber::Private], phonenumber.cpp:24-46; flags phonenumber.h *)
Record phone := mkPhone { ph_id : ustring; ph_number : ustring; ph_type : N; ph_params : pmap }.
Definition tHome : N := 1. Definition tWork : N := 2. Definition tMsg : N := 4.
Definition tPref : N := 8. Definition tVoice : N := 16. Definition tFax : N := 32.
Definition tCell : N := 64. Definition tVideo : N := 128. Definition tBbs : N := 256.
Definition tModem : N := 512. Definition tCar : N := 1024. Definition tIsdn : N := 2048.
Definition tPcs : N := 4096. Definition tPager : N := 8192. Definition tUndefined : N := 16384.
(** [PhoneNumber::PhoneNumber(number, type)], phonenumber.cpp:53-57, with
    [cleanupNumber], phonenumber.cpp:19-22.  The random identifier is an argument. *)
Definition phone_of (id number : ustring) (t : N) : phone := mkPhone id (simplified number) t [].
(** [PhoneNumber::operator==], phonenumber.cpp:66-85 *)
Definition phone_eq (a b : phone) : bool :=
  leqb (ph_id a) (ph_id b) && leqb (ph_number a) (ph_number b) && N.eqb (ph_type a) (ph_type b)
  && pmap_eqb (ph_params a) (ph_params b).
(** [PhoneNumber::normalizedNumber], phonenumber.cpp:126-136; [isDigit] is
    [QChar::isDigit] (any decimal digit of any script), an external predicate. *)
Definition normalized (isDigit : N -> bool) (number : ustring) : ustring :=
  fold_left (fun r c => if isDigit c || (N.eqb c 43 && isnil r) then r ++ [c] else r) number [].

(** ** Address, address.cpp *)

(** [Address::Private], address.cpp:26-64 *)
Record address := mkAddress {
  ad_empty : bool; ad_id : ustring; ad_type : N; ad_geo : geo;
  ad_pobox : ustring; ad_extended : ustring; ad_street : ustring; ad_locality : ustring;
  ad_region : ustring; ad_postal : ustring; ad_country : ustring; ad_label : ustring
}.
(** address.h TypeFlag *)
Definition aDom : N := 1. Definition aIntl : N := 2. Definition aPostal : N := 4.
Definition aParcel : N := 8. Definition aHome : N := 16. Definition aWork : N := 32.
Definition aPref : N := 64.
(** [Address::Address(Type)], address.cpp:71-75.  The random identifier is an
    argument.  [Address::Address()] leaves the type unset (a default [QFlags] is 0). *)
Definition address_new (id : ustring) (t : N) : address :=
  mkAddress true id t geo_new [] [] [] [] [] [] [] [].
(** setters, address.cpp:156-333: each clears the empty flag *)
Definition ad_set_type (t : N) (a : address) : address :=
  mkAddress false (ad_id a) t (ad_geo a) (ad_pobox a) (ad_extended a) (ad_street a)
    (ad_locality a) (ad_region a) (ad_postal a) (ad_country a) (ad_label a).
Definition ad_set_pobox (s : ustring) (a : address) : address :=
  mkAddress false (ad_id a) (ad_type a) (ad_geo a) s (ad_extended a) (ad_street a)
    (ad_locality a) (ad_region a) (ad_postal a) (ad_country a) (ad_label a).
Definition ad_set_extended (s : ustring) (a : address) : address :=
  mkAddress false (ad_id a) (ad_type a) (ad_geo a) (ad_pobox a) s (ad_street a)
    (ad_locality a) (ad_region a) (ad_postal a) (ad_country a) (ad_label a).
Definition ad_set_street (s : ustring) (a : address) : address :=
  mkAddress false (ad_id a) (ad_type a) (ad_geo a) (ad_pobox a) (ad_extended a) s
    (ad_locality a) (ad_region a) (ad_postal a) (ad_country a) (ad_label a).
Definition ad_set_locality (s : ustring) (a : address) : address :=
  mkAddress false (ad_id a) (ad_type a) (ad_geo a) (ad_pobox a) (ad_extended a) (ad_street a)
    s (ad_region a) (ad_postal a) (ad_country a) (ad_label a).
Definition ad_set_region (s : ustring) (a : address) : address :=
  mkAddress false (ad_id a) (ad_type a) (ad_geo a) (ad_pobox a) (ad_extended a) (ad_street a)
    (ad_locality a) s (ad_postal a) (ad_country a) (ad_label a).
Definition ad_set_postal (s : ustring) (a : address) : address :=
  mkAddress false (ad_id a) (ad_type a) (ad_geo a) (ad_pobox a) (ad_extended a) (ad_street a)
    (ad_locality a) (ad_region a) s (ad_country a) (ad_label a).
Definition ad_set_country (s : ustring) (a : address) : address :=
  mkAddress false (ad_id a) (ad_type a) (ad_geo a) (ad_pobox a) (ad_extended a) (ad_street a)
    (ad_locality a) (ad_region a) (ad_postal a) s (ad_label a).
Definition ad_set_label (s : ustring) (a : address) : address :=
  mkAddress false (ad_id a) (ad_type a) (ad_geo a) (ad_pobox a) (ad_extended a) (ad_street a)
    (ad_locality a) (ad_region a) (ad_postal a) (ad_country a) s.
Definition ad_set_geo (g : geo) (a : address) : address :=
  mkAddress false (ad_id a) (ad_type a) g (ad_pobox a) (ad_extended a) (ad_street a)
    (ad_locality a) (ad_region a) (ad_postal a) (ad_country a) (ad_label a).
Definition ad_set_id (s : ustring) (a : address) : address :=
  mkAddress false s (ad_type a) (ad_geo a) (ad_pobox a) (ad_extended a) (ad_street a)
    (ad_locality a) (ad_region a) (ad_postal a) (ad_country a) (ad_label a).
(** [Address::operator==], address.cpp:97-136 (the empty flag is not compared) *)
Definition address_eq (a b : address) : bool :=
  leqb (ad_id a) (ad_id b) && N.eqb (ad_type a) (ad_type b)
  && leqb (ad_pobox a) (ad_pobox b) && leqb (ad_extended a) (ad_extended b)
  && leqb (ad_street a) (ad_street b) && leqb (ad_locality a) (ad_locality b)
  && leqb (ad_region a) (ad_region b) && leqb (ad_postal a) (ad_postal b)
  && leqb (ad_country a) (ad_country b) && leqb (ad_label a) (ad_label b)
  && geo_eq (ad_geo a) (ad_geo b).

(** The copy of the private data that a non-const call on a shared address makes,
    address.cpp:35-50: [mGeo] is not copied (see [M_Copy]). *)
Definition address_detach (a : address) : address :=
  mkAddress (ad_empty a) (ad_id a) (ad_type a) geo_new (ad_pobox a) (ad_extended a) (ad_street a)
    (ad_locality a) (ad_region a) (ad_postal a) (ad_country a) (ad_label a).

(** ** Key, key.cpp *)
Inductive keytype := KX509 | KPGP | KCustom.
Definition keytype_eq (a b : keytype) : bool :=
  match a, b with KX509, KX509 | KPGP, KPGP | KCustom, KCustom => true | _, _ => false end.
(** [Key::Private], key.cpp:18-44 *)
Record key := mkKey {
  ke_id : ustring; ke_bin : bytes; ke_text : ustring; ke_custom : ustring;
  ke_type : keytype; ke_isbin : bool
}.
(** [Key::Key(text, type)], key.cpp:46-52 *)
Definition key_of (id text : ustring) (t : keytype) : key := mkKey id [] text [] t false.
(** [Key::operator==], key.cpp:61-90 *)
Definition key_eq (a b : key) : bool :=
  leqb (ke_id a) (ke_id b) && keytype_eq (ke_type a) (ke_type b) && Bool.eqb (ke_isbin a) (ke_isbin b)
  && (if ke_isbin a then leqb (ke_bin a) (ke_bin b) else leqb (ke_text a) (ke_text b))
  && leqb (ke_custom a) (ke_custom b).
(** key.cpp:117-121, 128-132, 144-152 *)
Definition ke_set_bin (b : bytes) (k : key) : key := mkKey (ke_id k) b (ke_text k) (ke_custom k) (ke_type k) true.
Definition ke_set_text (s : ustring) (k : key) : key := mkKey (ke_id k) (ke_bin k) s (ke_custom k) (ke_type k) false.
Definition ke_set_type (t : keytype) (k : key) : key := mkKey (ke_id k) (ke_bin k) (ke_text k) (ke_custom k) t (ke_isbin k).
Definition ke_set_custom (s : ustring) (k : key) : key := mkKey (ke_id k) (ke_bin k) (ke_text k) s (ke_type k) (ke_isbin k).

(** ** Sound, sound.cpp:15-40 *)
Record sound := mkSound { so_url : ustring; so_type : ustring; so_data : bytes; so_intern : bool }.
Definition sound_new : sound := mkSound [] [] [] false.
(** [Sound::operator==], sound.cpp:72-93 *)
Definition sound_eq (a b : sound) : bool :=
  Bool.eqb (so_intern a) (so_intern b) && leqb (so_type a) (so_type b)
  && (if so_intern a then leqb (so_data a) (so_data b) else leqb (so_url a) (so_url b)).
(** [Sound::setUrl], [setData], sound.cpp:100-110 *)
Definition so_set_url (u : ustring) (s : sound) : sound := mkSound u (so_type s) (so_data s) false.
Definition so_set_data (d : bytes) (s : sound) : sound := mkSound (so_url s) (so_type s) d true.
(** [Sound::isEmpty], sound.cpp:117-120 *)
Definition sound_empty (s : sound) : bool :=
  (so_intern s && isnil (so_data s)) || (negb (so_intern s) && isnil (so_url s)).

(** ** Picture, picture.cpp *)

(** A [QImage] is an opaque value; [None] is the null image. *)
Definition image := option (list N).
Definition image_eq (a b : image) : bool :=
  match a, b with None, None => true | Some x, Some y => leqb x y | _, _ => false end.
(** [PicturePrivate], picture.cpp:17-41 *)
Record picture := mkPicture {
  pi_url : ustring; pi_type : ustring; pi_data : image; pi_raw : bytes; pi_intern : bool
}.
Definition picture_new : picture := mkPicture [] [] None [] false.
(** external: decoding and encoding of image files *)
Record ImgExt := {
  img_load : bytes -> image;                      (* QImage::loadFromData *)
  img_save : list N -> ustring -> bytes;          (* QImage::save(buffer, format) *)
}.
(** [Picture::data], picture.cpp:170-177 (the cache update is not visible) *)
Definition pi_data_of (I : ImgExt) (p : picture) : image :=
  match pi_data p with
  | None => if isnil (pi_raw p) then None else img_load I (pi_raw p)
  | Some _ => pi_data p
  end.
(** [Picture::rawData], picture.cpp:179-190 *)
Definition pi_raw_of (I : ImgExt) (p : picture) : bytes :=
  match pi_raw p, pi_data p with
  | [], Some im => img_save I im (to_upper (pi_type p))
  | r, _ => r
  end.
Definition isnull (i : image) : bool := match i with None => true | _ => false end.
(** [Picture::operator==], picture.cpp:78-114 *)
Definition picture_eq (I : ImgExt) (a b : picture) : bool :=
  Bool.eqb (pi_intern a) (pi_intern b) && leqb (pi_type a) (pi_type b)
  && (if pi_intern a then
        if negb (isnull (pi_data a)) && negb (isnull (pi_data b)) then image_eq (pi_data a) (pi_data b)
        else if negb (isnil (pi_raw a)) && negb (isnil (pi_raw b)) then leqb (pi_raw a) (pi_raw b)
        else if (negb (isnull (pi_data a)) || negb (isnil (pi_raw a)))
                && (negb (isnull (pi_data b)) || negb (isnil (pi_raw b)))
        then image_eq (pi_data_of I a) (pi_data_of I b)
        else false
      else leqb (pi_url a) (pi_url b)).
(** [Picture::isEmpty], picture.cpp:121-125 *)
Definition picture_empty (p : picture) : bool :=
  (negb (pi_intern p) && isnil (pi_url p))
  || (pi_intern p && isnull (pi_data p) && isnil (pi_raw p)).
(** [Picture::setUrl(url)], [setUrl(url,type)], picture.cpp:127-139;
    [setRawData], picture.cpp:155-161 *)
Definition pi_set_url (u : ustring) (p : picture) : picture := mkPicture u [] (pi_data p) (pi_raw p) false.
Definition pi_set_url_type (u t : ustring) (p : picture) : picture := mkPicture u t (pi_data p) (pi_raw p) false.
Definition pi_set_raw (d : bytes) (t : ustring) (p : picture) : picture := mkPicture (pi_url p) t None d true.
(** [Picture::setData], picture.cpp:141-153; [alpha] is [QImage::hasAlphaChannel] *)
Definition pi_set_data (im : image) (alpha : bool) (p : picture) : picture :=
  mkPicture (pi_url p) (if alpha then B "png" else B "jpeg") im [] true.
(** the state after a call of [data()] or [rawData()], which fill mutable members,
    picture.cpp:170-190 *)
Definition pi_after_data (I : ImgExt) (p : picture) : picture :=
  mkPicture (pi_url p) (pi_type p) (pi_data_of I p) (pi_raw p) (pi_intern p).
Definition pi_after_raw (I : ImgExt) (p : picture) : picture :=
  mkPicture (pi_url p) (pi_type p) (pi_data p) (pi_raw_of I p) (pi_intern p).
