(** Model of the data stream operators ([QDataStream << ] and [ >> ]) of a contact
    and of its value classes.

    The first part models [QDataStream] itself (trusted base): big endian numbers,
    strings, byte arrays, lists, URLs.  The encodings of [float], [QDateTime] and
    [QImage] are Qt's own and are parameters.  The second part models the operators
    of the repository. *)
From Verif Require Import Base M_ParamMap M_Values M_Date M_Addressee.
Local Open Scope list_scope.
Local Open Scope N_scope.

(** ** QDataStream *)

(** A stream open for reading: the bytes not read yet and whether the status is
    still [QDataStream::Ok]. *)
Definition source := (bytes * bool)%type.
Definition reader (A : Type) := source -> A * source.
Definition got {A} (r : A * source) : A := fst r.
Definition rest_of {A} (r : A * source) : bytes := fst (snd r).
Definition ok_after {A} (r : A * source) : bool := snd (snd r).

Definition ret {A} (x : A) : reader A := fun s => (x, s).
Definition bind {A C} (r : reader A) (k : A -> reader C) : reader C :=
  fun s => let '(x, s1) := r s in k x s1.
Notation "x <- r ;; k" := (bind r (fun x => k)) (at level 61, r at next level, right associativity).

(** [readBlock] of [n] bytes: what is there is consumed; [None] and the status
    [ReadPastEnd] if there was not enough. *)
Definition rd_block (n : nat) : reader (option bytes) := fun s =>
  if (n <=? length (fst s))%nat then (Some (firstn n (fst s)), (skipn n (fst s), snd s))
  else (None, ([], false)).
(** a corrupt or missing value: the status is no longer [Ok] *)
Definition fail {A} (x : A) : reader A := fun s => (x, (fst s, false)).

(** big endian numbers *)
Definition be (b : bytes) : N := fold_left (fun a x => a * 256 + x) b 0.
Definition wr_u32 (n : N) : bytes :=
  [n / 16777216 mod 256; n / 65536 mod 256; n / 256 mod 256; n mod 256].
(** [operator>>(quint32 &)]: 0 if there are not four bytes *)
Definition rd_u32 : reader N :=
  o <- rd_block 4 ;; ret (match o with Some b => be b | None => 0 end).
(** [qint32], two's complement *)
Definition wr_i32 (z : Z) : bytes := wr_u32 (Z.to_N (z mod 4294967296)).
Definition rd_i32 : reader Z :=
  n <- rd_u32 ;; ret (if n <? 2147483648 then Z.of_N n else (Z.of_N n - 4294967296)%Z).
(** [bool]: one byte *)
Definition wr_bool (b : bool) : bytes := [if b then 1 else 0].
Definition rd_bool : reader bool :=
  o <- rd_block 1 ;; ret (match o with Some [x] => negb (x =? 0) | _ => false end).

(** [QByteArray]: the length in four bytes and the bytes.  A null array is written
    with the length 0xffffffff; null and empty arrays are not distinguished here,
    and an empty one is written with the length 0.  (Arrays and strings of
    0xfffffffe bytes and more use another format; they are left out.) *)
Definition wr_bytes (b : bytes) : bytes := wr_u32 (N.of_nat (length b)) ++ b.
Definition rd_bytes : reader bytes :=
  n <- rd_u32 ;;
  if n =? 4294967295 then ret []
  else o <- rd_block (N.to_nat n) ;; ret (match o with Some b => b | None => [] end).

(** [QString]: the number of bytes and the UTF-16 units, high byte first; an odd
    number of bytes is [ReadCorruptData]. *)
Definition units (s : ustring) : bytes := flat_map (fun u => [u / 256; u mod 256]) s.
Fixpoint of_units (b : bytes) : ustring :=
  match b with h :: l :: r => h * 256 + l :: of_units r | _ => [] end.
Definition wr_string (s : ustring) : bytes := wr_u32 (2 * N.of_nat (length s)) ++ units s.
Definition rd_string : reader ustring :=
  n <- rd_u32 ;;
  if n =? 4294967295 then ret []
  else if N.odd n then fail []
  else o <- rd_block (N.to_nat n) ;; ret (match o with Some b => of_units b | None => [] end).

(** [QList<T>], [QStringList]: the number of elements and the elements.  If an
    element cannot be read the list is cleared and the loop ends.  The status is
    reset before and, if it was not [Ok], restored after ([StreamStateSaver]). *)
Definition wr_list {A} (w : A -> bytes) (l : list A) : bytes :=
  wr_u32 (N.of_nat (length l)) ++ flat_map w l.
Fixpoint rd_items {A} (r : reader A) (n : nat) (acc : list A) : reader (list A) :=
  match n with
  | O => ret acc
  | S m => fun s => let '(x, s1) := r s in
                    if snd s1 then rd_items r m (acc ++ [x]) s1 else ([], s1)
  end.
Definition rd_list {A} (r : reader A) : reader (list A) := fun s =>
  let '(l, s1) := bind rd_u32 (fun n => rd_items r (N.to_nat n) []) (fst s, true) in
  (l, (fst s1, snd s && snd s1)).

(** Encodings that belong to Qt *)
Record StreamExt := {
  se_url_encoded : qurl -> bytes;             (* QUrl::toEncoded *)
  se_dt_write : datetime -> bytes;            (* operator<<(QDataStream &, const QDateTime &) *)
  se_dt_read : reader datetime;
  se_flt_write : flt -> bytes;                (* QDataStream::operator<<(float) *)
  se_flt_read : reader flt;
  se_img_write : image -> bytes;              (* operator<<(QDataStream &, const QImage &) *)
  se_img_read : reader image
}.

(** [QUrl]: the encoded form as a byte array, empty if the URL is not valid; read
    with [QUrl::setUrl]. *)
Definition wr_url (U : UrlExt) (E : StreamExt) (u : qurl) : bytes :=
  wr_bytes (if url_valid U u then se_url_encoded E u else []).
Definition rd_url (U : UrlExt) : reader qurl := b <- rd_bytes ;; ret (url_parse U b).

(** ** The operators of the repository *)

(** [operator<<(QDataStream &, const ParameterMap &)], parametermap_p.h:96-103 *)
Definition wr_pmap (m : pmap) : bytes :=
  wr_u32 (N.of_nat (length m))
  ++ flat_map (fun e => wr_string (fst e) ++ wr_list wr_string (snd e)) m.
(** [operator>>(QDataStream &, ParameterMap &)], parametermap_p.h:105-122 *)
Fixpoint rd_pmap_loop (n : nat) (m : pmap) : reader pmap :=
  match n with
  | O => ret m
  | S k => fun s =>
      let '(p, s1) := rd_string s in
      let '(vs, s2) := rd_list rd_string s1 in
      if snd s2 then rd_pmap_loop k (m ++ [(p, vs)]) s2 else ([], s2)
  end.
Definition rd_pmap : reader pmap := n <- rd_u32 ;; rd_pmap_loop (N.to_nat n) [].

(** phonenumber.cpp:280-292 *)
Definition wr_phone (p : phone) : bytes :=
  wr_string (ph_id p) ++ wr_u32 (ph_type p) ++ wr_string (ph_number p) ++ wr_pmap (ph_params p).
Definition rd_phone : reader phone :=
  i <- rd_string ;; t <- rd_u32 ;; n <- rd_string ;; m <- rd_pmap ;; ret (mkPhone i n t m).

(** geo.cpp:147-159 *)
Definition wr_geo (E : StreamExt) (g : geo) : bytes :=
  se_flt_write E (g_lat g) ++ wr_bool (g_vlat g) ++ se_flt_write E (g_lon g) ++ wr_bool (g_vlon g).
Definition rd_geo (E : StreamExt) : reader geo :=
  a <- se_flt_read E ;; va <- rd_bool ;; o <- se_flt_read E ;; vo <- rd_bool ;; ret (mkGeo a o va vo).

(** address.cpp:436-455 *)
Definition wr_address (E : StreamExt) (a : address) : bytes :=
  wr_string (ad_id a) ++ wr_u32 (ad_type a) ++ wr_string (ad_pobox a) ++ wr_string (ad_extended a)
  ++ wr_string (ad_street a) ++ wr_string (ad_locality a) ++ wr_string (ad_region a)
  ++ wr_string (ad_postal a) ++ wr_string (ad_country a) ++ wr_string (ad_label a)
  ++ wr_bool (ad_empty a) ++ wr_geo E (ad_geo a).
Definition rd_address (E : StreamExt) : reader address :=
  i <- rd_string ;; t <- rd_u32 ;; po <- rd_string ;; ex <- rd_string ;;
  st <- rd_string ;; lo <- rd_string ;; re <- rd_string ;;
  pc <- rd_string ;; co <- rd_string ;; la <- rd_string ;;
  em <- rd_bool ;; g <- rd_geo E ;; ret (mkAddress em i t g po ex st lo re pc co la).

(** email.cpp:212-221 *)
Definition wr_email (e : email) : bytes := wr_pmap (em_params e) ++ wr_string (em_mail e).
Definition rd_email : reader email := m <- rd_pmap ;; t <- rd_string ;; ret (mkEmail m t).

(** the enumerators of [Key::Type], key.h:43-47.  (A number that is none of them
    is cast to the enumeration by the code; here it becomes the last one.) *)
Definition keytype_num (t : keytype) : N := match t with KX509 => 0 | KPGP => 1 | KCustom => 2 end.
Definition keytype_of (n : N) : keytype := if n =? 0 then KX509 else if n =? 1 then KPGP else KCustom.
(** key.cpp:211-226 *)
Definition wr_key (k : key) : bytes :=
  wr_string (ke_id k) ++ wr_u32 (keytype_num (ke_type k)) ++ wr_bool (ke_isbin k)
  ++ wr_bytes (ke_bin k) ++ wr_string (ke_text k) ++ wr_string (ke_custom k).
Definition rd_key : reader key :=
  i <- rd_string ;; t <- rd_u32 ;; ib <- rd_bool ;; b <- rd_bytes ;; x <- rd_string ;;
  c <- rd_string ;; ret (mkKey i b x c (keytype_of t) ib).

(** sound.cpp:153-163 *)
Definition wr_sound (o : sound) : bytes :=
  wr_bool (so_intern o) ++ wr_string (so_url o) ++ wr_bytes (so_data o) ++ wr_string (so_type o).
Definition rd_sound : reader sound :=
  i <- rd_bool ;; u <- rd_string ;; d <- rd_bytes ;; t <- rd_string ;; ret (mkSound u t d i).

(** picture.cpp:215-225: the decoded image is written, the raw data is not; what
    is read is stored in the object [p], whose raw data is not assigned.  (The
    object is not shared; the copy made for a shared one has no raw data.) *)
Definition wr_picture (I : ImgExt) (E : StreamExt) (p : picture) : bytes :=
  wr_bool (pi_intern p) ++ wr_string (pi_url p) ++ wr_string (pi_type p)
  ++ se_img_write E (pi_data_of I p).
Definition rd_picture (E : StreamExt) (p : picture) : reader picture :=
  i <- rd_bool ;; u <- rd_string ;; t <- rd_string ;; d <- se_img_read E ;;
  ret (mkPicture u t d (pi_raw p) i).

(** timezone.cpp:108-118 *)
Definition wr_tz (z : tzone) : bytes := wr_i32 (tz_offset z) ++ wr_bool (tz_valid z).
Definition rd_tz : reader tzone := o <- rd_i32 ;; v <- rd_bool ;; ret (mkTz o v).

(** gender.cpp:104-113 *)
Definition wr_gender (g : gender) : bytes := wr_string (ge_comment g) ++ wr_string (ge_gender g).
Definition rd_gender : reader gender := c <- rd_string ;; g <- rd_string ;; ret (mkGender g c).

(** secrecy.cpp:119-145, enumerators secrecy.h:38-43 *)
Definition secrecy_num (s : secrecy) : N :=
  match s with SPublic => 0 | SPrivate => 1 | SConfidential => 2 | SInvalid => 3 end.
Definition wr_secrecy (s : secrecy) : bytes := wr_u32 (secrecy_num s).
Definition rd_secrecy : reader secrecy :=
  t <- rd_u32 ;; ret (if t =? 0 then SPublic else if t =? 1 then SPrivate
                      else if t =? 2 then SConfidential else SInvalid).

(** Title, Role, Org, NickName, Note, Related, Lang, ClientPidMap: lines 105-114 of
    title.cpp, role.cpp, org.cpp, nickname.cpp, note.cpp, related.cpp, lang.cpp and
    107-116 of clientpidmap.cpp, the same code *)
Definition wr_ptext (p : ptext) : bytes := wr_pmap (pt_params p) ++ wr_string (pt_text p).
Definition rd_ptext : reader ptext := m <- rd_pmap ;; t <- rd_string ;; ret (mkPtext m t).

(** the enumerators of [CalendarUrl::CalendarType], calendarurl.h:48-54.  (A number
    that is none of them is cast by the code; here it becomes the last one.) *)
Definition caltype_num (t : caltype) : N :=
  match t with CalUnknown => 0 | CalFBUrl => 1 | CalCALUri => 2 | CalCALADRUri => 3 | CalEnd => 4 end.
Definition caltype_of (n : N) : caltype :=
  if n =? 0 then CalUnknown else if n =? 1 then CalFBUrl else if n =? 2 then CalCALUri
  else if n =? 3 then CalCALADRUri else CalEnd.
(** calendarurl.cpp:145-156 *)
Definition wr_calurl (U : UrlExt) (E : StreamExt) (c : calurl) : bytes :=
  wr_pmap (cu_params c) ++ wr_u32 (caltype_num (cu_type c)) ++ wr_url U E (cu_url c).
Definition rd_calurl (U : UrlExt) : reader calurl :=
  m <- rd_pmap ;; t <- rd_u32 ;; u <- rd_url U ;; ret (mkCalurl m (caltype_of t) u).

(** fieldgroup.cpp:119-128 *)
Definition wr_fgroup (f : fgroup) : bytes :=
  wr_pmap (fg_params f) ++ wr_string (fg_name f) ++ wr_string (fg_value f).
Definition rd_fgroup : reader fgroup :=
  m <- rd_pmap ;; n <- rd_string ;; v <- rd_string ;; ret (mkFgroup m n v).

(** resourcelocatorurl.cpp:228-237 *)
Definition wr_rurl (U : UrlExt) (E : StreamExt) (r : rurl) : bytes :=
  wr_pmap (ru_params r) ++ wr_url U E (ru_url r).
Definition rd_rurl (U : UrlExt) : reader rurl :=
  m <- rd_pmap ;; u <- rd_url U ;; ret (mkRurl m u).

(** impp.cpp:154-164: a number that is not used follows *)
Definition wr_impp (U : UrlExt) (E : StreamExt) (i : impp) : bytes :=
  wr_pmap (im_params i) ++ wr_url U E (im_address i) ++ wr_u32 0.
Definition rd_impp (U : UrlExt) : reader impp :=
  m <- rd_pmap ;; u <- rd_url U ;; i <- rd_i32 ;; ret (mkImpp m u).

(** [operator<<(QDataStream &, const Addressee &)], addressee.cpp:2535-2587 *)
Definition wr_addressee (V : Env) (E : StreamExt) (a : addressee) : bytes :=
  let U := env_url V in
  let I := env_img V in
  wr_string (a_uid a) ++ wr_string (a_name a) ++ wr_string (a_formatted a) ++ wr_string (a_family a)
  ++ wr_string (a_given a) ++ wr_string (a_additional a) ++ wr_string (a_prefix a)
  ++ wr_string (a_suffix a) ++ se_dt_write E (a_birthday a) ++ wr_bool (a_bdaytime a)
  ++ wr_string (a_mailer a) ++ wr_tz (a_tz a) ++ wr_geo E (a_geo a) ++ wr_string (a_department a)
  ++ wr_string (a_note a) ++ wr_string (a_prodid a) ++ se_dt_write E (a_revision a)
  ++ wr_string (a_sortstring a) ++ wr_secrecy (a_secrecy a) ++ wr_picture I E (a_logo a)
  ++ wr_picture I E (a_photo a) ++ wr_sound (a_sound a) ++ wr_list wr_phone (a_phones a)
  ++ wr_list (wr_address E) (a_addresses a) ++ wr_list wr_email (a_emails a)
  ++ wr_list wr_string (a_categories a) ++ wr_list wr_string (customs_of a)
  ++ wr_list wr_key (a_keys a) ++ wr_list wr_ptext (a_langs a) ++ wr_gender (a_gender a)
  ++ wr_string (a_kind a) ++ wr_list (wr_calurl U E) (a_calurls a) ++ wr_list wr_sound (a_xsounds a)
  ++ wr_list (wr_picture I E) (a_xphotos a) ++ wr_list (wr_picture I E) (a_xlogos a)
  ++ wr_list (wr_rurl U E) (a_urls a) ++ wr_list wr_string (a_members a)
  ++ wr_list wr_ptext (a_related a) ++ wr_list (wr_url U E) (a_sources a)
  ++ wr_list (wr_impp U E) (a_impps a) ++ wr_list wr_fgroup (a_fgroups a)
  ++ wr_list wr_ptext (a_titles a) ++ wr_list wr_ptext (a_roles a) ++ wr_list wr_ptext (a_orgs a)
  ++ wr_list wr_ptext (a_nicks a) ++ wr_list wr_ptext (a_pidmaps a) ++ se_dt_write E (a_deathdate a).

(** [operator>>(QDataStream &, Addressee &)], addressee.cpp:2589-2644, into the
    object [a].  Every member read is assigned, whatever the status; the members are
    assigned together at the end here, which makes no difference because no read
    depends on them, except that the two main pictures are read into the ones of
    [a].  [setCustoms] is [set_customs].  Not assigned: [mChanged]. *)
Definition rd_addressee (V : Env) (E : StreamExt) (a : addressee) : reader addressee :=
  let U := env_url V in
  v_uid <- rd_string ;; v_name <- rd_string ;; v_formatted <- rd_string ;; v_family <- rd_string ;;
  v_given <- rd_string ;; v_additional <- rd_string ;; v_prefix <- rd_string ;;
  v_suffix <- rd_string ;; v_birthday <- se_dt_read E ;; v_bdaytime <- rd_bool ;;
  v_mailer <- rd_string ;; v_tz <- rd_tz ;; v_geo <- rd_geo E ;; v_department <- rd_string ;;
  v_note <- rd_string ;; v_prodid <- rd_string ;; v_revision <- se_dt_read E ;;
  v_sortstring <- rd_string ;; v_secrecy <- rd_secrecy ;; v_logo <- rd_picture E (a_logo a) ;;
  v_photo <- rd_picture E (a_photo a) ;; v_sound <- rd_sound ;; v_phones <- rd_list rd_phone ;;
  v_addresses <- rd_list (rd_address E) ;; v_emails <- rd_list rd_email ;;
  v_categories <- rd_list rd_string ;; v_customs <- rd_list rd_string ;;
  v_keys <- rd_list rd_key ;; v_langs <- rd_list rd_ptext ;; v_gender <- rd_gender ;;
  v_kind <- rd_string ;; v_calurls <- rd_list (rd_calurl U) ;; v_xsounds <- rd_list rd_sound ;;
  v_xphotos <- rd_list (rd_picture E picture_new) ;; v_xlogos <- rd_list (rd_picture E picture_new) ;;
  v_urls <- rd_list (rd_rurl U) ;; v_members <- rd_list rd_string ;;
  v_related <- rd_list rd_ptext ;; v_sources <- rd_list (rd_url U) ;;
  v_impps <- rd_list (rd_impp U) ;; v_fgroups <- rd_list rd_fgroup ;;
  v_titles <- rd_list rd_ptext ;; v_roles <- rd_list rd_ptext ;; v_orgs <- rd_list rd_ptext ;;
  v_nicks <- rd_list rd_ptext ;; v_pidmaps <- rd_list rd_ptext ;; v_deathdate <- se_dt_read E ;;
  ret (set_customs v_customs
         (mkAddressee v_uid v_name v_formatted v_family v_given v_additional v_prefix v_suffix
            v_birthday v_mailer v_tz v_geo v_department v_note v_prodid v_revision v_sortstring
            v_secrecy v_logo v_photo v_sound v_deathdate v_phones v_addresses v_keys v_emails
            v_langs v_impps v_gender v_kind v_categories [] v_calurls v_xsounds v_xphotos v_xlogos
            v_urls v_sources v_members v_related v_fgroups v_titles v_roles v_orgs v_nicks v_pidmaps
            false (a_changed a) v_bdaytime)).

(** a list of contacts ([AddresseeList] is a [QList<Addressee>], addresseelist.h):
    each element is read into a new contact, whose random identifier is the
    argument *)
Definition wr_contacts (V : Env) (E : StreamExt) (l : list addressee) : bytes :=
  wr_list (wr_addressee V E) l.
Definition rd_contacts (V : Env) (E : StreamExt) (uid : ustring) : reader (list addressee) :=
  rd_list (rd_addressee V E (addressee_new uid)).
