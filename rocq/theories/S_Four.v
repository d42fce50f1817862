(** Specification vocabulary for what version 4.0 keeps beyond [safe40] (C59, C60). *)
From Verif Require Import Base Utf8 QtText M_ParamMap M_VCard M_VCardText S_Escape S_Card S_RoundTrip S_Split S_Date
  M_Split M_Values M_Date M_Addressee M_VCardTool S_Contact.

(** the position of an address after its coordinates have been written with six
    decimals and read as numbers of double precision *)
Definition address_geo (T : Tool) (g : geo) : geo :=
  if geo_valid g then geo_of (t_double T (t_fmt6 T (g_lat g))) (t_double T (t_fmt6 T (g_lon g))) else geo_new.

(** what [safe40] does not speak about: positions, the sort string, keys, pictures,
    calendar addresses, relations, field groups and messaging addresses.  Embedded
    pictures get a longer type each time (C37_photo40), and the type of a key with a
    type of its own is lost (C60_custom_key_refuted). *)
Record rest_in40 (T : Tool) (a : addressee) : Prop := {
  f_geo : geo_text_ok T (a_geo a) /\
          (geo_valid (a_geo a) = true ->
             geo_valid (geo_rounded T (a_geo a)) = true /\
             t_fmt6 T (g_lat (geo_rounded T (a_geo a))) = t_fmt6 T (g_lat (a_geo a)) /\
             t_fmt6 T (g_lon (geo_rounded T (a_geo a))) = t_fmt6 T (g_lon (a_geo a)));
  f_places : Forall (fun x => geo_valid (ad_geo x) = true -> geo_text_ok T (ad_geo x) /\
             geo_valid (address_geo T (ad_geo x)) = true /\
             t_fmt6 T (g_lat (address_geo T (ad_geo x))) = t_fmt6 T (g_lat (ad_geo x)) /\
             t_fmt6 T (g_lon (address_geo T (ad_geo x))) = t_fmt6 T (g_lon (ad_geo x))) (a_addresses a);
  f_sort : ~ In cCOMMA (a_sortstring a) /\ Forall (fun o => ~ In (B "sort-as") (map fst (pt_params o))) (a_orgs a);
  f_keys : Forall (fun k => ke_type k <> KCustom /\ (ke_isbin k = false -> text_safe (ke_text k))) (a_keys a);
  f_logo : pi_intern (a_logo a) = false /\ a_xlogos a = [];
  f_photo : pi_intern (a_photo a) = false /\ a_xphotos a = [];
  f_calurls : Forall (fun c => text_safe (t_display T (cu_url c)) /\ t_display T (cu_url c) <> [] /\ calurl_valid (env_url (t_env T)) c = true /\
                               url_parse (env_url (t_env T)) (t_display T (cu_url c)) = cu_url c) (a_calurls a);
  f_related : Forall (fun t => text_safe (pt_text t)) (a_related a) /\ NoDup (a_related a);
  f_fgroups : Forall (fun f => text_safe (fg_value f)) (a_fgroups a) /\ NoDup (map fg_name (a_fgroups a));
  f_impps : Forall (fun i => text_safe (im_address i) /\ impp_valid (env_url (t_env T)) i = true /\
                             url_parse (env_url (t_env T)) (im_address i) = im_address i) (a_impps a)
}.

(** the two custom fields of KAddressBook for which version 4.0 has properties *)
Definition is_anniversary (e : ustring * ustring) : bool := leqb (to_lower (fst e)) (B "kaddressbook-x-anniversary").
Definition is_spouse (e : ustring * ustring) : bool := leqb (to_lower (fst e)) (B "kaddressbook-x-spousesname").
(** an anniversary is a date in ISO form, as Addressee::setAnniversary stores it *)
Definition iso_custom (T : Tool) (e : ustring * ustring) : Prop :=
  exists d, t_iso_date T (snd e) = Some d /\ storable_date d /\ t_date_iso T (Some d) = snd e.
(** what becomes of the name of the spouse: a relation with the text [;], its name as a parameter *)
Definition spouse_related (e : ustring * ustring) : ptext :=
  mkPtext [(B "type", [B "spouse"]); (B "value", [snd e])] (B ";").
