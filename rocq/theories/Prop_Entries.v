(** C78: the entries of a contact keep the parameters of the properties they come from; C77 for GEO. *)
From Verif Require Import Base BaseFacts QtText Utf8 M_ParamMap M_VCard M_VCardText M_Values M_Date M_Addressee M_VCardTool S_Contact S_Escape S_Parse P_Parse P_Parse2 S_Soft P_Soft P_SoftLoop
  Prop_Soft P_ContactCase S_Order P_CardOrder P_Unknown Prop_Order S_Case P_Case S_Coding P_Coding Prop_Coding S_Split S_DateText S_Meaning P_Meaning P_Meaning2 Prop_Meaning S_Entries P_Entries.

(** Lists of texts. *)
Theorem C78_texts :
  forall (T : Tool) (E : Ext) (ps : list said), reads_as_contact T E ps (fun a =>
    let entries f xs := alike_in_case f ps ->
      Forall2 (fun p x => pt_text x = sd_text p /\ carries p (pt_params x)) (filter (fun p => not_empty (sd_text p)) (of_name f ps)) xs in
    entries "nickname"%string (a_nicks a) /\ entries "title"%string (a_titles a) /\ entries "role"%string (a_roles a) /\ entries "clientpidmap"%string (a_pidmaps a)).
Proof. exact texts_carry. Qed.
Print Assumptions C78_texts.

(** Organisations. *)
Theorem C78_organisations :
  forall (T : Tool) (E : Ext) (ps : list said) (ls : list (list ustring)),
    alike_in_case "org" ps -> Forall2 (fun p l => in_parts 59 l (sd_text p)) (of_name "org" ps) ls ->
    reads_as_contact T E ps (fun a =>
      Forall2 (fun pl x => pt_text x = hd [] (snd pl) /\ carries (fst pl) (pt_params x))
        (filter (fun pl => not_empty (hd [] (snd pl))) (combine (of_name "org" ps) ls)) (a_orgs a)).
Proof. exact orgs_carry. Qed.
Print Assumptions C78_organisations.

(** Telephone numbers. *)
Theorem C78_phones :
  forall (T : Tool) (E : Ext) (ps : list said), fresh_ids T -> alike_in_case "tel" ps -> reads_as_contact T E ps (fun a =>
    Forall2 (fun p x => ph_number x = simplified (sd_text p) /\ carries p (ph_params x)) (filter (fun p => visible (sd_text p)) (of_name "tel" ps)) (a_phones a)).
Proof. exact phones_carry. Qed.
Print Assumptions C78_phones.

(** Addresses on the web and calendars; a URL is preferred when it is marked so, and has the
    types written in capitals. *)
Theorem C78_urls :
  forall (T : Tool) (E : Ext) (ps : list said), reads_as_contact T E ps (fun a =>
    let U := env_url (t_env T) in
    let url p := url_parse U (sd_text p) in
    let entries f := filter (fun p => url_valid U (url p)) (of_name f ps) in
    let calendars t := filter (fun c => caltype_eq (cu_type c) t) (a_calurls a) in
    (alike_in_case "url" ps -> Forall2 (fun p x => ru_url x = url p /\ carries p (ru_params x) /\ (rurl_preferred x = true <-> marked_preferred p) /\ exact_flags url_flags p (rurl_type x))
       (entries "url"%string) (a_urls a)) /\
    (alike_in_case "fburl" ps -> Forall2 (fun p x => cu_url x = url p /\ carries p (cu_params x)) (entries "fburl"%string) (calendars CalFBUrl)) /\
    (alike_in_case "caluri" ps -> Forall2 (fun p x => cu_url x = url p /\ carries p (cu_params x)) (entries "caluri"%string) (calendars CalCALUri)) /\
    (alike_in_case "caladruri" ps -> Forall2 (fun p x => cu_url x = url p /\ carries p (cu_params x)) (entries "caladruri"%string) (calendars CalCALADRUri))).
Proof. exact urls_carry. Qed.
Print Assumptions C78_urls.

(** E-mail addresses and languages: one entry for each text, from the last property with it. *)
Theorem C78_emails :
  forall (T : Tool) (E : Ext) (ps : list said), alike_in_case "email" ps -> reads_as_contact T E ps (fun a =>
    NoDup (emails_of a) /\
    forall e, In e (a_emails a) -> exists p, last_with_text "email" ps p /\
      em_mail e = sd_text p /\ carries p (em_params e) /\ (email_preferred e = true <-> marked_preferred p) /\ flags_of email_flags p (email_type e)).
Proof. exact emails_carry. Qed.
Print Assumptions C78_emails.
Theorem C78_languages :
  forall (T : Tool) (E : Ext) (ps : list said), alike_in_case "lang" ps -> reads_as_contact T E ps (fun a =>
    NoDup (map pt_text (a_langs a)) /\
    forall x, In x (a_langs a) -> exists p, last_with_text "lang" ps p /\ pt_text x = sd_text p /\ carries p (pt_params x)).
Proof. exact langs_carry. Qed.
Print Assumptions C78_languages.

(** The preferred e-mail address is that of the last property marked as preferred, or else of
    the first property. *)
Theorem C78_preferred :
  forall (T : Tool) (E : Ext) (ps : list said), alike_in_case "email" ps -> reads_as_contact T E ps (fun a =>
    forall qs p rs, of_name "email" ps = qs ++ p :: rs -> Forall (fun q => ~ marked_preferred q) rs ->
      (marked_preferred p \/ (qs = [] /\ ~ marked_preferred p)) -> preferred_email a = sd_text p).
Proof. exact preferred_said. Qed.
Print Assumptions C78_preferred.

(** Related contacts. *)
Theorem C78_related :
  forall (T : Tool) (E : Ext) (ps : list said), reads_as_contact T E ps (fun a =>
    (forall p, In p (of_name "related" ps) -> exists x, In x (a_related a) /\ pt_text x = sd_text p /\ carries p (pt_params x)) /\
    (forall x, In x (a_related a) -> exists p, In p (of_name "related" ps) /\ pt_text x = sd_text p /\ carries p (pt_params x)) /\
    NoDup (a_related a)).
Proof. exact related_carry. Qed.
Print Assumptions C78_related.

(** Messengers: the address in the property, or with the scheme of its service. *)
Theorem C78_messengers :
  forall (T : Tool) (E : Ext) (ps : list said), reads_as_contact T E ps (fun a =>
    let U := env_url (t_env T) in
    forall p u, In p (of_name "impp" ps) -> u <> [] -> url_scheme U u <> [] ->
      ((url_parse U (sd_text p) = u) \/
       (exists service vs, parameter p (B "x-service-type") (service :: vs) /\ service <> [] /\ url_scheme U (url_parse U (sd_text p)) = [] /\
          u = t_set_scheme T (service_scheme (to_lower service)) (url_parse U (sd_text p)))) ->
      exists x, In x (a_impps a) /\ im_address x = u /\ carries p (im_params x) /\ (impp_preferred x = true <-> exists vs, parameter p (B "pref") (B "1" :: vs))).
Proof. exact impps_carry. Qed.
Print Assumptions C78_messengers.

(** Keys. *)
Theorem C78_keys :
  forall (T : Tool) (E : Ext) (ps : list said), fresh_ids T -> alike_in_case "key" ps ->
    reads_as_contact T E ps (fun a => Forall2 key_kind (of_name "key" ps) (a_keys a)).
Proof. exact keys_said. Qed.
Print Assumptions C78_keys.

(** C77, GEO: latitude and longitude in both forms. *)
Theorem C77_position :
  forall (T : Tool) (E : Ext) (ps : list said), reads_as_contact T E ps (fun a =>
    forall p lat lon, of_name "geo" ps = [p] -> S_Contact.number_text lat -> S_Contact.number_text lon ->
      sd_text p = lat ++ 59%N :: lon \/ sd_text p = B "geo:" ++ lat ++ 44%N :: lon ->
      between (-90) (t_float T lat) 90 -> between (-180) (t_float T lon) 180 -> a_geo a = mkGeo (t_float T lat) (t_float T lon) true true).
Proof. exact geo_said. Qed.
Print Assumptions C77_position.

(** ** Cases *)
Definition C78_ps : list said :=
  [mkSaid (B "EMAIL") [B "TYPE=work"; B "X-A=1"] (B "a@x"); mkSaid (B "EMAIL") [B "PREF=1"] (B "b@x"); mkSaid (B "EMAIL") [B "TYPE=Home,Pref,home"] (B "a@x"); mkSaid (B "EMAIL") [B "PREF=2"; B "TYPE=pref"] (B "c@x");
   mkSaid (B "ORG") [B "LANGUAGE=de,en"; B "LANGUAGE=en,fr"] (B "KDE;PIM"); mkSaid (B "URL") [B "TYPE=WORK,FTP"; B "pref"] (B "http:y");
   mkSaid (B "RELATED") [B "TYPE=friend"] (B "Jo"); mkSaid (B "RELATED") [B "TYPE=kin"] (B "Jo"); mkSaid (B "IMPP") [B "X-SERVICE-TYPE=Jabber"; B "PREF=1"] (B ":j@z");
   mkSaid (B "KEY") [B "TYPE=x509"] (B "abc"); mkSaid (B "KEY") [B "TYPE=other"] (B "def"); mkSaid (B "GEO") [] (B "geo:48.2,16.37"); mkSaid (B "TITLE") [B "ALTID=1"] (B "Dr")].
Lemma C78_expressed : Forall2 (expressed exQ) (map C77_block C78_ps) C78_ps.
Proof. apply all_expressed. vm_compute. reflexivity. Qed.
Example C78_case : exists a, read_of C78_ps = Done [a] /\
  map (fun e => (em_mail e, email_preferred e, email_type e)) (a_emails a) = [(B "a@x", true, 1%N); (B "b@x", true, 0%N); (B "c@x", false, 0%N)] /\
  preferred_email a = B "a@x" /\ map (fun o => held (B "language") (pt_params o)) (a_orgs a) = [[B "de"; B "en"; B "fr"]] /\
  map (fun r => (rurl_preferred r, rurl_type r)) (a_urls a) = [(true, 10%N)] /\ map (fun r => (pt_text r, held (B "type") (pt_params r))) (a_related a) = [(B "Jo", [B "friend"]); (B "Jo", [B "kin"])] /\
  map (fun i => (im_address i, impp_preferred i)) (a_impps a) = [(B "xmpp:j@z", true)] /\ map (fun k => (ke_type k, ke_custom k)) (a_keys a) = [(KX509, []); (KCustom, B "other")] /\
  a_geo a = mkGeo (Fin (QArith_base.Qmake 3 2)) (Fin (QArith_base.Qmake 3 2)) true true /\ map (fun t => held (B "altid") (pt_params t)) (a_titles a) = [[B "1"]].
Proof. eexists. split; [vm_compute; reflexivity|]. repeat (split; [reflexivity|]). reflexivity. Qed.
(** the hypotheses on these properties *)
Lemma a_param q k v vs p kvs : q = k ++ 61%N :: v -> ~ In 61%N k -> ~ In 34%N v -> vs = split 44%N v ->
  sd_params p = [q] -> kvs = [(to_lower k, vs)] -> Forall2 reads_param (sd_params p) kvs.
Proof. intros -> H1 H2 -> -> ->. constructor; [|constructor]. right. left. exists k, v. auto. Qed.
Example C78_marked :
  marked_preferred (mkSaid (B "EMAIL") [B "PREF=1"] (B "b@x")) /\ marked_preferred (mkSaid (B "EMAIL") [B "TYPE=Home,Pref,home"] (B "a@x")) /\
  parameter (mkSaid (B "ORG") [B "LANGUAGE=de,en"; B "LANGUAGE=en,fr"] (B "KDE;PIM")) (B "language") [B "de"; B "en"; B "fr"] /\
  alike_in_case "email" C78_ps /\ between (-90) (t_float exT (B "48.2")) 90.
Proof.
  split; [|split; [|split; [|split]]].
  - left. exists []. exists [(B "pref", [B "1"])]. split; [|reflexivity]. apply (a_param (B "PREF=1") (B "PREF") (B "1") [B "1"]); try reflexivity; not_in.
  - right. split.
    + exists [(B "type", [B "Home"; B "Pref"; B "home"])]. split; [|reflexivity]. apply (a_param (B "TYPE=Home,Pref,home") (B "TYPE") (B "Home,Pref,home") [B "Home"; B "Pref"; B "home"]); try reflexivity; not_in.
    + exists (B "Pref"). split; [|reflexivity]. exists (B "TYPE=Home,Pref,home"). split; [left; reflexivity|]. right. left. exists (B "TYPE"), (B "Home,Pref,home").
      split; [reflexivity|]. split; [not_in|]. split; [reflexivity|]. right. left. reflexivity.
  - exists [(B "language", [B "de"; B "en"]); (B "language", [B "en"; B "fr"])]. split; [|reflexivity].
    constructor; [|constructor; [|constructor]]; right; left.
    + exists (B "LANGUAGE"), (B "de,en"). repeat split; not_in.
    + exists (B "LANGUAGE"), (B "en,fr"). repeat split; not_in.
  - intros p q Hp Hq. vm_compute in Hp, Hq. intuition (subst; reflexivity).
  - split; reflexivity.
Qed.

(** ** What does not hold *)
(** The types of a URL are recognised in capitals only. *)
Theorem C78_url_types_refuted :
  ~ (forall (T : Tool) (E : Ext) (ps : list said), reads_as_contact T E ps (fun a =>
       forall p x, of_name "url" ps = [p] -> a_urls a = [x] -> type_value (B "home") p -> N.testbit (rurl_type x) 0 = true)).
Proof.
  intros H. pose (p := mkSaid (B "URL") [B "TYPE=home"] (B "http:y")).
  destruct (read_of_case [p] _ (H exT exQ [p]) eq_refl) as [X|(a & (k & Ha) & P)]; [destruct (X eq_refl)|].
  vm_compute in Ha. injection Ha as <-. assert (K : false = true); [|discriminate K]. apply (P p _ eq_refl eq_refl).
  exists (B "TYPE=home"). split; [left; reflexivity|]. right. left. exists (B "TYPE"), (B "home"). split; [reflexivity|]. split; [not_in|]. split; [reflexivity|left; reflexivity].
Qed.
Print Assumptions C78_url_types_refuted.

(** Of a key with another media type the type is not kept. *)
Theorem C78_media_refuted :
  ~ (forall (T : Tool) (E : Ext) (ps : list said), reads_as_contact T E ps (fun a =>
       forall p k v, of_name "key" ps = [p] -> a_keys a = [k] -> parameter p (B "mediatype") [v] -> ke_type k = KCustom -> ke_custom k = v)).
Proof.
  intros H. pose (p := mkSaid (B "KEY") [B "MEDIATYPE=text/x-key"] (B "abc")).
  destruct (read_of_case [p] _ (H exT exQ [p]) eq_refl) as [X|(a & (k & Ha) & P)]; [destruct (X eq_refl)|].
  vm_compute in Ha. injection Ha as <-. assert (K : ([] : ustring) = B "text/x-key"); [|discriminate K].
  apply (P p _ (B "text/x-key") eq_refl eq_refl); [|reflexivity].
  exists [(B "mediatype", [B "text/x-key"])]. split; [|reflexivity]. apply (a_param (B "MEDIATYPE=text/x-key") (B "MEDIATYPE") (B "text/x-key") [B "text/x-key"]); try reflexivity; not_in.
Qed.
Print Assumptions C78_media_refuted.

(** A longitude followed by a parameter of the geo URI is not read. *)
Definition exG : Tool := {|
  t_env := t_env exT; t_set_scheme := t_set_scheme exT; t_set_path := t_set_path exT; t_display := t_display exT; t_fmt6 := t_fmt6 exT;
  t_float := fun s => f_of_Z (if leqb s (B "48") then 48 else if leqb s (B "16") then 16 else 0);
  t_double := t_double exT; t_date_iso := t_date_iso exT; t_iso_date := t_iso_date exT; t_newid := t_newid exT |}.
Theorem C77_position_refuted :
  ~ (forall (T : Tool) (E : Ext) (ps : list said), reads_as_contact T E ps (fun a =>
       forall p lat lon r, of_name "geo" ps = [p] -> S_Contact.number_text lat -> S_Contact.number_text lon ->
         sd_text p = B "geo:" ++ lat ++ 44%N :: lon ++ 59%N :: r -> ~ In 44%N r ->
         between (-90) (t_float T lat) 90 -> between (-180) (t_float T lon) 180 -> g_lon (a_geo a) = t_float T lon)).
Proof.
  intros H. pose (p := mkSaid (B "GEO") [] (B "geo:48,16;u=40")).
  destruct (H exG exQ [p] crlf (B "BEGIN:VCARD") (map C77_block [p]) (B "END:VCARD")) as (k & K).
  - right. reflexivity.
  - split; not_in.
  - split; not_in.
  - exists (B "BEGIN:VCARD"), []. split; reflexivity.
  - exists (B "END:VCARD"), []. split; reflexivity.
  - apply all_expressed. reflexivity.
  - destruct (K (40 + k)) as [(_ & X)|(a & Ha & P)]; [lia|exact (X eq_refl)|].
    vm_compute in Ha. injection Ha as <-. specialize (P p (B "48") (B "16") (B "u=40") eq_refl). 
    assert (N1 : S_Contact.number_text (B "48")) by (repeat (constructor; [left; cbv; split; discriminate|]); constructor).
    assert (N2 : S_Contact.number_text (B "16")) by (repeat (constructor; [left; cbv; split; discriminate|]); constructor).
    specialize (P N1 N2 eq_refl ltac:(not_in) ltac:(split; reflexivity) ltac:(split; reflexivity)). vm_compute in P. discriminate P.
Qed.
Print Assumptions C77_position_refuted.
