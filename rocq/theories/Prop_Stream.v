(** C36, C53: data streams. *)
From Verif Require Import Base M_ParamMap M_Values M_Date M_Addressee M_Stream S_Card S_Addressee S_Stream P_Stream P_StreamBack P_StreamCase.
Local Open Scope list_scope.
Local Open Scope N_scope.

(** Every value class: what is written is read back as the same value, and exactly
    the bytes written are consumed.  A picture comes back as its decoded image, in
    the object [o] it is read into. *)
Theorem C36_values :
  forall (V : Env) (E : StreamExt), let U := env_url V in sane_stream U E ->
    (forall x, params_ok x -> restored wr_pmap rd_pmap x) /\
    (forall x, phone_ok x -> restored wr_phone rd_phone x) /\
    (forall x, address_ok x -> restored (wr_address E) (rd_address E) x) /\
    (forall x, email_ok x -> restored wr_email rd_email x) /\
    (forall x, key_ok x -> restored wr_key rd_key x) /\
    (forall x, sound_ok x -> restored wr_sound rd_sound x) /\
    (forall x, restored (wr_geo E) (rd_geo E) x) /\
    (forall x, tz_ok x -> restored wr_tz rd_tz x) /\
    (forall x, gender_ok x -> restored wr_gender rd_gender x) /\
    (forall x, restored wr_secrecy rd_secrecy x) /\
    (forall x, ptext_ok x -> restored wr_ptext rd_ptext x) /\
    (forall x, fgroup_ok x -> restored wr_fgroup rd_fgroup x) /\
    (forall x, calurl_ok U E x -> restored (wr_calurl U E) (rd_calurl U) x) /\
    (forall x, rurl_ok U E x -> restored (wr_rurl U E) (rd_rurl U) x) /\
    (forall x, impp_ok U E x -> restored (wr_impp U E) (rd_impp U) x) /\
    (forall o x rest, picture_ok x ->
       rd_picture E o (wr_picture (env_img V) E x ++ rest, true) = (picture_back (env_img V) o x, (rest, true))).
Proof.
  intros V E U S. repeat match goal with |- _ /\ _ => split end; intros; try apply reads_restored.
  all: first [apply reads_pmap; assumption | apply reads_phone; assumption | apply (reads_address U E); assumption
             | apply reads_email; assumption | apply reads_key; assumption | apply reads_sound; assumption
             | apply (reads_geo U E); assumption | apply reads_tz; assumption | apply reads_gender; assumption
             | apply reads_secrecy | apply reads_ptext; assumption | apply reads_fgroup; assumption
             | apply reads_calurl; assumption | apply reads_rurl; assumption | apply reads_impp; assumption
             | apply (proj1 (reads_picture U (env_img V) E o x S H))].
Qed.
Print Assumptions C36_values.

(** Every contact, read into any object [old] and followed by anything: all members
    come back as [streamed] says and exactly the bytes written are consumed. *)
Theorem C36_contact :
  forall (V : Env) (E : StreamExt) (old a : addressee) (rest : bytes),
    sane_stream (env_url V) E -> streamable V E a ->
    exists b, rd_addressee V E old (wr_addressee V E a ++ rest, true) = (b, (rest, true)) /\ streamed V old a b.
Proof.
  intros V E old a rest S H. exists (back V old a). split; [apply (proj1 (reads_addressee V E old a S H))|exact (back_streamed V E old a H)].
Qed.
Print Assumptions C36_contact.

(** Contacts one after the other, in a list. *)
Theorem C36_contacts :
  forall (V : Env) (E : StreamExt) (uid : ustring) (l : list addressee) (rest : bytes),
    sane_stream (env_url V) E -> list_ok (streamable V E) l ->
    exists l', rd_contacts V E uid (wr_contacts V E l ++ rest, true) = (l', (rest, true))
      /\ Forall2 (streamed V (addressee_new uid)) l l'.
Proof.
  intros V E uid l rest S H. destruct (streamed_list V E uid l S H) as (l' & [R _] & F). exists l'. split; [apply R|exact F].
Qed.
Print Assumptions C36_contacts.

(** The contact read into a new object is equal to the one written, if its pictures
    can be decoded. *)
Theorem C36_equal :
  forall (V : Env) (E : StreamExt) (uid : ustring) (a : addressee) (rest : bytes),
    sane_stream (env_url V) E -> streamable V E a ->
    Forall (has_image (env_img V)) (a_logo a :: a_photo a :: a_xphotos a ++ a_xlogos a) ->
    proper_geo (a_geo a) -> Forall (fun x => proper_geo (ad_geo x)) (a_addresses a) ->
    addressee_eq V a (got (rd_addressee V E (addressee_new uid) (wr_addressee V E a ++ rest, true))) = true.
Proof.
  intros V E uid a rest S H HP Hg Ha. destruct (C36_contact V E (addressee_new uid) a rest S H) as (b & -> & Hb).
  exact (streamed_equal V (addressee_new uid) a b Hb HP eq_refl eq_refl Hg Ha).
Qed.
Print Assumptions C36_equal.

(** A contact with values of every kind *)
Definition ex_streamed : addressee :=
  mkAddressee (B "uid") (B "name") (B "Ann Lee") (B "Lee") (B "Ann") [] (B "Dr.") [8364; 55357; 56832]
    (mkDt (mk_date 1990 2 3) (mk_time 1 2 3 4) (TOffset 3600)) (B "mailer") (mkTz (-300) true)
    (geo_of (f_of_Z 12) (f_of_Z (-34))) (B "dep") (B "note") (B "prod") (mkDt (mk_date 2024 5 6) (Some midnight) TUtc) (B "sort")
    SConfidential (mkPicture [] (B "png") None [9; 8; 7] true) (mkPicture (B "http://x") (B "jpeg") None [] false)
    (mkSound [] (B "wav") [1; 0; 255] true) (mkDt (mk_date 2050 1 1) (Some midnight) TLocal)
    [mkPhone (B "p1") (B "123") 66 [(B "x", [B "y"; B "z"])]]
    [mkAddress false (B "a1") 48 (geo_of (f_of_Z 1) (f_of_Z 2)) (B "po") (B "ext") (B "str") (B "loc") (B "reg") (B "pc") (B "co") (B "lab")]
    [mkKey (B "k1") [1; 2] (B "text") (B "cust") KCustom true]
    [mkEmail [(B "type", [B "WORK"])] (B "a@b.org"); mkEmail [] (B "c@d.org")]
    [mkPtext [] (B "de")] [mkImpp [(B "pref", [B "1"])] (B "xmpp:a")] (mkGender (B "F") (B "her")) (B "individual")
    [B "friends"; B "work"] [(B "KADDRESSBOOK-X-Office", B "12:3"); (B "a-b", [])]
    [mkCalurl [] CalCALADRUri (B "http://cal")] [mkSound (B "file") (B "mp3") [] false]
    [mkPicture [] (B "gif") (Some [5; 5]) [] true] [mkPicture [] [] None [] false]
    [mkRurl [(B "type", [B "HOME"])] (B "http://home"); mkRurl [] []] [B "http://src"] [B "urn:1"]
    [mkPtext [(B "type", [B "friend"])] (B "bob")] [mkFgroup [] (B "G.X") (B "v")]
    [mkPtext [] (B "title")] [mkPtext [] (B "role")] [mkPtext [] (B "org"); mkPtext [] (B "org2")] [mkPtext [] (B "nick")] [mkPtext [] (B "1;urn")]
    false true true.

Ltac okay :=
  repeat lazymatch goal with
         | |- str_ok _ => apply str_okb_ok; reflexivity
         | |- data_ok _ => reflexivity
         | |- url_ok _ _ _ => first [left; split; reflexivity | right; split; reflexivity]
         | |- list_ok _ _ => split; [|reflexivity]
         | |- Forall _ [] => constructor
         | |- Forall _ (_ :: _) => constructor
         | |- (_ <= _ < _)%Z => cbn; lia
         | |- _ < _ => reflexivity
         | |- _ /\ _ => split
         | _ => first [progress unfold phone_ok, address_ok, email_ok, key_ok, sound_ok, picture_ok, tz_ok, gender_ok, ptext_ok, calurl_ok,
                         fgroup_ok, rurl_ok, impp_ok, params_ok, flags_ok
                      | progress cbn [ph_id ph_type ph_number ph_params ad_empty ad_id ad_type ad_geo ad_pobox ad_extended ad_street ad_locality
                          ad_region ad_postal ad_country ad_label em_params em_mail ke_id ke_bin ke_text ke_custom so_url so_data so_type
                          pi_url pi_type ge_gender ge_comment pt_params pt_text cu_params cu_url fg_params fg_name fg_value ru_params ru_url
                          im_params im_address fst snd tz_offset]]
         end.
Lemma ex_streamable : streamable ex_senv ex_stream ex_streamed.
Proof.
  constructor.
  all: match goal with
       | |- increasing _ => repeat constructor
       | |- Forall (fun e => ~ In _ _) _ => repeat constructor; intros H; cbn in H; repeat destruct H as [H|H]; try discriminate H; exact H
       | _ => cbn [ex_streamed a_uid a_name a_formatted a_family a_given a_additional a_prefix a_suffix a_birthday a_mailer a_tz a_geo a_department
                   a_note a_prodid a_revision a_sortstring a_secrecy a_logo a_photo a_sound a_deathdate a_phones a_addresses a_keys a_emails a_langs
                   a_impps a_gender a_kind a_categories a_customs a_calurls a_xsounds a_xphotos a_xlogos a_urls a_sources a_members a_related
                   a_fgroups a_titles a_roles a_orgs a_nicks a_pidmaps a_empty a_changed a_bdaytime customs_of map]; okay
       end.
Qed.
(** computed: the members are back, the bytes behind are left, and the contacts are
    equal *)
Example C36_case :
  streamable ex_senv ex_stream ex_streamed /\ sane_stream (env_url ex_senv) ex_stream /\
  let '(b, s) := rd_addressee ex_senv ex_stream (addressee_new (B "new")) (wr_addressee ex_senv ex_stream ex_streamed ++ B "more", true) in
  s = (B "more", true) /\ a_suffix b = [8364; 55357; 56832] /\ a_phones b = a_phones ex_streamed /\ a_customs b = a_customs ex_streamed
  /\ pi_data (a_logo b) = Some [9; 8; 7] /\ pi_raw (a_logo b) = [] /\ addressee_eq ex_senv ex_streamed b = true.
Proof. split; [exact ex_streamable|]. split; [exact ex_sane|]. vm_compute. repeat split. Qed.

(** "Every member is restored" is false of the raw data of pictures: data that Qt
    cannot decode is lost ... *)
Theorem C36_raw_refuted :
  exists (a : addressee), streamable ex_senv ex_stream a /\ pi_raw (a_photo a) <> [] /\
    let b := got (rd_addressee ex_senv ex_stream (addressee_new []) (wr_addressee ex_senv ex_stream a, true)) in
    picture_empty (a_photo a) = false /\ picture_empty (a_photo b) = true /\ addressee_eq ex_senv a b = false.
Proof.
  exists (put_photo (mkPicture [] (B "odd") None [0; 1; 2] true) (addressee_new (B "u"))). split.
  - constructor; try solve [repeat constructor]. all: cbn; okay.
  - split; [discriminate|]. vm_compute. auto.
Qed.
Print Assumptions C36_raw_refuted.
(** ... and when a contact is read into an object that was used before, the raw data
    of the old picture stays: [rawData] of the picture read is that of the old one. *)
Theorem C36_used_object_refuted :
  exists (a old : addressee), streamable ex_senv ex_stream a /\
    let b := got (rd_addressee ex_senv ex_stream old (wr_addressee ex_senv ex_stream a, true)) in
    pi_raw_of (env_img ex_senv) (a_photo a) = [1; 1] /\ pi_raw_of (env_img ex_senv) (a_photo old) = [2; 2] /\
    pi_raw_of (env_img ex_senv) (a_photo b) = [2; 2] /\ addressee_eq ex_senv a b = false.
Proof.
  exists (put_photo (mkPicture [] (B "png") None [1; 1] true) (addressee_new (B "u"))),
         (put_photo (mkPicture [] (B "png") None [2; 2] true) (addressee_new (B "v"))). split.
  - constructor; try solve [repeat constructor]. all: cbn; okay.
  - vm_compute. auto.
Qed.
Print Assumptions C36_used_object_refuted.
(** A URL that is not valid is lost (its text is in the contact, it is written as
    nothing). *)
Theorem C36_invalid_url_refuted :
  exists (r : rurl), params_ok (ru_params r) /\ ru_url r <> [] /\
    rd_rurl (env_url ex_senv) (wr_rurl (env_url ex_senv) ex_stream r, true) = (mkRurl (ru_params r) [], ([], true)).
Proof. exists (mkRurl [] (B " bad")). repeat split; [constructor|discriminate]. Qed.
Print Assumptions C36_invalid_url_refuted.
(** A custom entry whose name contains a colon comes back under another name. *)
Theorem C36_colon_refuted :
  exists (a : addressee), custom (B "APP") (B "a:b") a = B "value" /\
    let b := got (rd_addressee ex_senv ex_stream (addressee_new []) (wr_addressee ex_senv ex_stream a, true)) in
    custom (B "APP") (B "a:b") b = [] /\ custom (B "APP") (B "a") b = B "b:value".
Proof. exists (insert_custom (B "APP") (B "a:b") (B "value") (addressee_new (B "u"))). vm_compute. auto. Qed.
Print Assumptions C36_colon_refuted.

(** ** C53: streams that end too early *)

(** If any part of the end of a written contact is missing, the status of the stream
    says so after reading; the same for a list of contacts and each value class. *)
Theorem C53_contact :
  forall (V : Env) (E : StreamExt) (old a : addressee) (p q : bytes),
    sane_stream (env_url V) E -> streamable V E a -> wr_addressee V E a = p ++ q -> q <> [] ->
    ok_after (rd_addressee V E old (p, true)) = false.
Proof. intros V E old a p q S H. apply (proj2 (reads_addressee V E old a S H)). Qed.
Print Assumptions C53_contact.
Theorem C53_contacts :
  forall (V : Env) (E : StreamExt) (uid : ustring) (l : list addressee) (p q : bytes),
    sane_stream (env_url V) E -> list_ok (streamable V E) l -> wr_contacts V E l = p ++ q -> q <> [] ->
    rd_contacts V E uid (p, true) = ([], (rest_of (rd_contacts V E uid (p, true)), false)).
Proof.
  intros V E uid l p q S H Hp Hq. destruct (streamed_list V E uid l S H) as (l' & [_ C] & _). specialize (C p q Hp Hq).
  exact (bad_result _ _ C (list_bad _ _ C)).
Qed.
Print Assumptions C53_contacts.
Theorem C53_values :
  forall (V : Env) (E : StreamExt), let U := env_url V in sane_stream U E ->
    (forall x, params_ok x -> cut_noticed wr_pmap rd_pmap x) /\
    (forall x, phone_ok x -> cut_noticed wr_phone rd_phone x) /\
    (forall x, address_ok x -> cut_noticed (wr_address E) (rd_address E) x) /\
    (forall x, email_ok x -> cut_noticed wr_email rd_email x) /\
    (forall x, key_ok x -> cut_noticed wr_key rd_key x) /\
    (forall x, sound_ok x -> cut_noticed wr_sound rd_sound x) /\
    (forall x, cut_noticed (wr_geo E) (rd_geo E) x) /\
    (forall x, tz_ok x -> cut_noticed wr_tz rd_tz x) /\
    (forall x, gender_ok x -> cut_noticed wr_gender rd_gender x) /\
    (forall x, cut_noticed wr_secrecy rd_secrecy x) /\
    (forall x, ptext_ok x -> cut_noticed wr_ptext rd_ptext x) /\
    (forall x, fgroup_ok x -> cut_noticed wr_fgroup rd_fgroup x) /\
    (forall x, calurl_ok U E x -> cut_noticed (wr_calurl U E) (rd_calurl U) x) /\
    (forall x, rurl_ok U E x -> cut_noticed (wr_rurl U E) (rd_rurl U) x) /\
    (forall x, impp_ok U E x -> cut_noticed (wr_impp U E) (rd_impp U) x).
Proof.
  intros V E U S. repeat match goal with |- _ /\ _ => split end; intros; try apply reads_cut.
  all: first [apply reads_pmap; assumption | apply reads_phone; assumption | apply (reads_address U E); assumption
             | apply reads_email; assumption | apply reads_key; assumption | apply reads_sound; assumption
             | apply (reads_geo U E); assumption | apply reads_tz; assumption | apply reads_gender; assumption
             | apply reads_secrecy | apply reads_ptext; assumption | apply reads_fgroup; assumption
             | apply reads_calurl; assumption | apply reads_rurl; assumption | apply reads_impp; assumption].
Qed.
Print Assumptions C53_values.
(** From any bytes at all: a list or a parameter map that could not be read
    completely is empty, never cut short; a stream that was not in order before the
    read is not in order after it. *)
Theorem C53_failed_lists_empty :
  (forall A (r : reader A) b, ok_after (rd_list r (b, true)) = false -> got (rd_list r (b, true)) = []) /\
  (forall s, ok_after (rd_pmap s) = false -> got (rd_pmap s) = []).
Proof. split; [intros; apply list_bad; assumption|exact pmap_bad]. Qed.
Print Assumptions C53_failed_lists_empty.
Theorem C53_stays_bad :
  forall (V : Env) (E : StreamExt) (old : addressee), sane_stream (env_url V) E -> stays_bad (rd_addressee V E old).
Proof. exact stays_addressee. Qed.
Print Assumptions C53_stays_bad.

(** the parameters of a phone number cut in the middle: none are left *)
Example C53_case :
  let w := wr_pmap [(B "type", [B "WORK"]); (B "x", [B "y"; B "zz"])] in
  length w = 56%nat /\
  rd_pmap (firstn 56 w, true) = ([(B "type", [B "WORK"]); (B "x", [B "y"; B "zz"])], ([], true)) /\
  rd_pmap (firstn 55 w, true) = ([], ([], false)) /\ rd_pmap (firstn 3 w, true) = ([], ([], false)).
Proof. vm_compute. auto. Qed.
