(** What a program using Qt may write for a value: an empty string or byte array that is
    null is written as 0xffffffff, one that is not null as the length 0.  The writers of
    M_Stream write the length 0 always; here every empty text may take either form, each
    independently of the others. *)
From Verif Require Import Base M_ParamMap M_Values M_Date M_Addressee M_Stream.
Local Open Scope list_scope.
Local Open Scope N_scope.

(** the set of the byte strings a value may be written as *)
Definition forms := bytes -> Prop.
Definition only (b : bytes) : forms := fun c => c = b.
(** one form of each, one after the other *)
Fixpoint cat (l : list forms) : forms :=
  match l with
  | [] => only []
  | f :: r => match r with [] => f | _ => fun c => exists a b, c = a ++ b /\ f a /\ cat r b end
  end.
Definition null_mark : bytes := [255; 255; 255; 255].
Definition fm_string (s : ustring) : forms := fun c => c = wr_string s \/ (s = [] /\ c = null_mark).
Definition fm_bytes (d : bytes) : forms := fun c => c = wr_bytes d \/ (d = [] /\ c = null_mark).
Definition fm_items {A} (w : A -> forms) (l : list A) : forms := fun c => exists bs, c = concat bs /\ Forall2 w l bs.
Definition fm_list {A} (w : A -> forms) (l : list A) : forms := cat [only (wr_u32 (N.of_nat (length l))); fm_items w l].
Definition fm_url (U : UrlExt) (E : StreamExt) (u : qurl) : forms := fm_bytes (if url_valid U u then se_url_encoded E u else []).
Definition fm_pmap (m : pmap) : forms :=
  cat [only (wr_u32 (N.of_nat (length m))); fm_items (fun e => cat [fm_string (fst e); fm_list fm_string (snd e)]) m].

Definition fm_phone (p : phone) : forms :=
  cat [fm_string (ph_id p); only (wr_u32 (ph_type p)); fm_string (ph_number p); fm_pmap (ph_params p)].
Definition fm_address (E : StreamExt) (a : address) : forms :=
  cat [fm_string (ad_id a); only (wr_u32 (ad_type a)); fm_string (ad_pobox a); fm_string (ad_extended a); fm_string (ad_street a);
       fm_string (ad_locality a); fm_string (ad_region a); fm_string (ad_postal a); fm_string (ad_country a); fm_string (ad_label a);
       only (wr_bool (ad_empty a)); only (wr_geo E (ad_geo a))].
Definition fm_email (e : email) : forms := cat [fm_pmap (em_params e); fm_string (em_mail e)].
Definition fm_key (k : key) : forms :=
  cat [fm_string (ke_id k); only (wr_u32 (keytype_num (ke_type k))); only (wr_bool (ke_isbin k)); fm_bytes (ke_bin k);
       fm_string (ke_text k); fm_string (ke_custom k)].
Definition fm_sound (o : sound) : forms :=
  cat [only (wr_bool (so_intern o)); fm_string (so_url o); fm_bytes (so_data o); fm_string (so_type o)].
Definition fm_picture (I : ImgExt) (E : StreamExt) (p : picture) : forms :=
  cat [only (wr_bool (pi_intern p)); fm_string (pi_url p); fm_string (pi_type p); only (se_img_write E (pi_data_of I p))].
Definition fm_gender (g : gender) : forms := cat [fm_string (ge_comment g); fm_string (ge_gender g)].
Definition fm_ptext (p : ptext) : forms := cat [fm_pmap (pt_params p); fm_string (pt_text p)].
Definition fm_calurl (U : UrlExt) (E : StreamExt) (c : calurl) : forms :=
  cat [fm_pmap (cu_params c); only (wr_u32 (caltype_num (cu_type c))); fm_url U E (cu_url c)].
Definition fm_fgroup (f : fgroup) : forms := cat [fm_pmap (fg_params f); fm_string (fg_name f); fm_string (fg_value f)].
Definition fm_rurl (U : UrlExt) (E : StreamExt) (r : rurl) : forms := cat [fm_pmap (ru_params r); fm_url U E (ru_url r)].
Definition fm_impp (U : UrlExt) (E : StreamExt) (i : impp) : forms := cat [fm_pmap (im_params i); fm_url U E (im_address i); only (wr_u32 0)].
Definition fm_contact (V : Env) (E : StreamExt) (a : addressee) : forms :=
  let U := env_url V in
  let I := env_img V in
  cat [fm_string (a_uid a); fm_string (a_name a); fm_string (a_formatted a); fm_string (a_family a); fm_string (a_given a);
       fm_string (a_additional a); fm_string (a_prefix a); fm_string (a_suffix a); only (se_dt_write E (a_birthday a));
       only (wr_bool (a_bdaytime a)); fm_string (a_mailer a); only (wr_tz (a_tz a)); only (wr_geo E (a_geo a)); fm_string (a_department a);
       fm_string (a_note a); fm_string (a_prodid a); only (se_dt_write E (a_revision a)); fm_string (a_sortstring a);
       only (wr_secrecy (a_secrecy a)); fm_picture I E (a_logo a); fm_picture I E (a_photo a); fm_sound (a_sound a);
       fm_list fm_phone (a_phones a); fm_list (fm_address E) (a_addresses a); fm_list fm_email (a_emails a);
       fm_list fm_string (a_categories a); fm_list fm_string (customs_of a); fm_list fm_key (a_keys a); fm_list fm_ptext (a_langs a);
       fm_gender (a_gender a); fm_string (a_kind a); fm_list (fm_calurl U E) (a_calurls a); fm_list fm_sound (a_xsounds a);
       fm_list (fm_picture I E) (a_xphotos a); fm_list (fm_picture I E) (a_xlogos a); fm_list (fm_rurl U E) (a_urls a);
       fm_list fm_string (a_members a); fm_list fm_ptext (a_related a); fm_list (fm_url U E) (a_sources a); fm_list (fm_impp U E) (a_impps a);
       fm_list fm_fgroup (a_fgroups a); fm_list fm_ptext (a_titles a); fm_list fm_ptext (a_roles a); fm_list fm_ptext (a_orgs a);
       fm_list fm_ptext (a_nicks a); fm_list fm_ptext (a_pidmaps a); only (se_dt_write E (a_deathdate a))].
