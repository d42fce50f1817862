(** Vocabulary for the claims about data streams: which values have a
    representation at all, and what is expected of Qt's own encodings. *)
From Verif Require Import Base M_ParamMap M_Values M_Date M_Addressee M_Stream S_Card.
Local Open Scope list_scope.
Local Open Scope N_scope.

(** What is written for a value is read back as that value, whatever follows, and
    nothing else is consumed. *)
Definition restored {A} (w : A -> bytes) (r : reader A) (x : A) : Prop :=
  forall rest, r (w x ++ rest, true) = (x, (rest, true)).
(** The reader notices that the end of what was written for [x] is missing. *)
Definition cut_noticed {A} (w : A -> bytes) (r : reader A) (x : A) : Prop :=
  forall p q, w x = p ++ q -> q <> [] -> ok_after (r (p, true)) = false.
(** A stream that is not in order stays so. *)
Definition stays_bad {A} (r : reader A) : Prop := forall b, ok_after (r (b, false)) = false.
Definition codec {A} (w : A -> bytes) (r : reader A) : Prop :=
  (forall x, restored w r x) /\ (forall x, cut_noticed w r x) /\ stays_bad r.

(** Assumptions on Qt's encodings of dates, floats, images and URLs *)
Record sane_stream (U : UrlExt) (E : StreamExt) : Prop := {
  ss_dt : codec (se_dt_write E) (se_dt_read E);
  ss_flt : codec (se_flt_write E) (se_flt_read E);
  ss_img : codec (se_img_write E) (se_img_read E);
  ss_url : forall u, url_valid U u = true -> url_parse U (se_url_encoded E u) = u;
  ss_url_empty : url_parse U [] = []
}.

(** Strings of UTF-16 units, byte arrays and lists whose length fits the four bytes
    that hold it; numbers of 32 bits. *)
Definition str_ok (s : ustring) : Prop :=
  Forall (fun u => u < 65536) s /\ 2 * N.of_nat (length s) < 4294967294.
Definition data_ok (b : bytes) : Prop := N.of_nat (length b) < 4294967294.
Definition list_ok {A} (P : A -> Prop) (l : list A) : Prop :=
  Forall P l /\ N.of_nat (length l) < 4294967296.
Definition flags_ok (n : N) : Prop := n < 4294967296.
Definition params_ok (m : pmap) : Prop :=
  list_ok (fun e : ustring * list ustring => str_ok (fst e) /\ list_ok str_ok (snd e)) m.
(** a valid URL or none *)
Definition url_ok (U : UrlExt) (E : StreamExt) (u : qurl) : Prop :=
  (url_valid U u = true /\ data_ok (se_url_encoded E u)) \/ (url_valid U u = false /\ u = []).

Definition phone_ok (p : phone) : Prop :=
  str_ok (ph_id p) /\ flags_ok (ph_type p) /\ str_ok (ph_number p) /\ params_ok (ph_params p).
Definition address_ok (a : address) : Prop :=
  str_ok (ad_id a) /\ flags_ok (ad_type a) /\
  Forall str_ok [ad_pobox a; ad_extended a; ad_street a; ad_locality a; ad_region a; ad_postal a;
                 ad_country a; ad_label a].
Definition email_ok (e : email) : Prop := params_ok (em_params e) /\ str_ok (em_mail e).
Definition key_ok (k : key) : Prop :=
  str_ok (ke_id k) /\ data_ok (ke_bin k) /\ str_ok (ke_text k) /\ str_ok (ke_custom k).
Definition sound_ok (s : sound) : Prop := str_ok (so_url s) /\ data_ok (so_data s) /\ str_ok (so_type s).
Definition picture_ok (p : picture) : Prop := str_ok (pi_url p) /\ str_ok (pi_type p).
Definition tz_ok (z : tzone) : Prop := (-2147483648 <= tz_offset z < 2147483648)%Z.
Definition gender_ok (g : gender) : Prop := str_ok (ge_gender g) /\ str_ok (ge_comment g).
Definition ptext_ok (p : ptext) : Prop := params_ok (pt_params p) /\ str_ok (pt_text p).
Definition calurl_ok U E (c : calurl) : Prop := params_ok (cu_params c) /\ url_ok U E (cu_url c).
Definition fgroup_ok (f : fgroup) : Prop := params_ok (fg_params f) /\ str_ok (fg_name f) /\ str_ok (fg_value f).
Definition rurl_ok U E (r : rurl) : Prop := params_ok (ru_params r) /\ url_ok U E (ru_url r).
Definition impp_ok U E (i : impp) : Prop := params_ok (im_params i) /\ url_ok U E (im_address i).

(** A contact all of whose members can be written; the custom entries are sorted by
    name, as the class keeps them, and no name contains a colon. *)
Record streamable (V : Env) (E : StreamExt) (a : addressee) : Prop := {
  st_texts : Forall str_ok [a_uid a; a_name a; a_formatted a; a_family a; a_given a; a_additional a;
                            a_prefix a; a_suffix a; a_mailer a; a_department a; a_note a; a_prodid a;
                            a_sortstring a; a_kind a];
  st_tz : tz_ok (a_tz a);
  st_pictures : picture_ok (a_logo a) /\ picture_ok (a_photo a);
  st_sound : sound_ok (a_sound a);
  st_gender : gender_ok (a_gender a);
  st_phones : list_ok phone_ok (a_phones a);
  st_addresses : list_ok address_ok (a_addresses a);
  st_emails : list_ok email_ok (a_emails a);
  st_keys : list_ok key_ok (a_keys a);
  st_impps : list_ok (impp_ok (env_url V) E) (a_impps a);
  st_calurls : list_ok (calurl_ok (env_url V) E) (a_calurls a);
  st_xsounds : list_ok sound_ok (a_xsounds a);
  st_xphotos : list_ok picture_ok (a_xphotos a);
  st_xlogos : list_ok picture_ok (a_xlogos a);
  st_urls : list_ok (rurl_ok (env_url V) E) (a_urls a);
  st_sources : list_ok (url_ok (env_url V) E) (a_sources a);
  st_categories : list_ok str_ok (a_categories a);
  st_members : list_ok str_ok (a_members a);
  st_ptexts : Forall (list_ok ptext_ok) [a_langs a; a_related a; a_titles a; a_roles a; a_orgs a;
                                         a_nicks a; a_pidmaps a];
  st_fgroups : list_ok fgroup_ok (a_fgroups a);
  st_customs : list_ok str_ok (customs_of a);
  st_sorted : increasing (map fst (a_customs a));
  st_names : Forall (fun e => ~ In 58 (fst e)) (a_customs a)
}.

(** What is left of a picture [p] read into the object [old]: the decoded image
    instead of the raw data, and the raw data of [old]. *)
Definition picture_back (I : ImgExt) (old p : picture) : picture :=
  mkPicture (pi_url p) (pi_type p) (pi_data_of I p) (pi_raw old) (pi_intern p).

(** The contact [b] read into the object [old] from what was written for [a] *)
Record streamed (V : Env) (old a b : addressee) : Prop := {
  sd_uid : a_uid b = a_uid a;
  sd_name : a_name b = a_name a;
  sd_formatted : a_formatted b = a_formatted a;
  sd_family : a_family b = a_family a;
  sd_given : a_given b = a_given a;
  sd_additional : a_additional b = a_additional a;
  sd_prefix : a_prefix b = a_prefix a;
  sd_suffix : a_suffix b = a_suffix a;
  sd_birthday : a_birthday b = a_birthday a;
  sd_bdaytime : a_bdaytime b = a_bdaytime a;
  sd_mailer : a_mailer b = a_mailer a;
  sd_tz : a_tz b = a_tz a;
  sd_geo : a_geo b = a_geo a;
  sd_department : a_department b = a_department a;
  sd_note : a_note b = a_note a;
  sd_prodid : a_prodid b = a_prodid a;
  sd_revision : a_revision b = a_revision a;
  sd_sortstring : a_sortstring b = a_sortstring a;
  sd_secrecy : a_secrecy b = a_secrecy a;
  sd_logo : a_logo b = picture_back (env_img V) (a_logo old) (a_logo a);
  sd_photo : a_photo b = picture_back (env_img V) (a_photo old) (a_photo a);
  sd_sound : a_sound b = a_sound a;
  sd_deathdate : a_deathdate b = a_deathdate a;
  sd_phones : a_phones b = a_phones a;
  sd_addresses : a_addresses b = a_addresses a;
  sd_keys : a_keys b = a_keys a;
  sd_emails : a_emails b = a_emails a;
  sd_langs : a_langs b = a_langs a;
  sd_impps : a_impps b = a_impps a;
  sd_gender : a_gender b = a_gender a;
  sd_kind : a_kind b = a_kind a;
  sd_categories : a_categories b = a_categories a;
  sd_customs : a_customs b = a_customs a;
  sd_calurls : a_calurls b = a_calurls a;
  sd_xsounds : a_xsounds b = a_xsounds a;
  sd_xphotos : a_xphotos b = map (picture_back (env_img V) picture_new) (a_xphotos a);
  sd_xlogos : a_xlogos b = map (picture_back (env_img V) picture_new) (a_xlogos a);
  sd_urls : a_urls b = a_urls a;
  sd_sources : a_sources b = a_sources a;
  sd_members : a_members b = a_members a;
  sd_related : a_related b = a_related a;
  sd_fgroups : a_fgroups b = a_fgroups a;
  sd_titles : a_titles b = a_titles a;
  sd_roles : a_roles b = a_roles a;
  sd_orgs : a_orgs b = a_orgs a;
  sd_nicks : a_nicks b = a_nicks a;
  sd_pidmaps : a_pidmaps b = a_pidmaps a;
  sd_empty : a_empty b = false;
  sd_changed : a_changed b = a_changed old
}.

(** A picture that is the same (in the sense of [Picture::operator==]) after it was
    written and read: one given by URL, or one that has an image. *)
Definition has_image (I : ImgExt) (p : picture) : Prop :=
  pi_intern p = true -> pi_data_of I p <> None.
