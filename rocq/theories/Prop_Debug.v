(** C84: the debug texts ([toString]).

    [one_line], [row], [sheet], [yes_no], [params_row], [data_row], [address_shown],
    [contact_all], [all_one_line] (S_Debug). *)
From Verif Require Import Base BaseFacts Utf8 Utf8Facts QtText M_ParamMap M_Values M_Date M_Addressee M_Access M_Debug S_Debug P_Date P_Debug P_ContactCase.
Import ListNotations.

(** The text of a value is the name of its class and one row for each part, in braces,
    whatever the values contain: a percent sign in a value is copied, not expanded. *)
Theorem C84_layout :
  forall X : DebugExt,
    (forall g, geo_string X g = sheet "Geo" [row "  Valid" (yes_no (geo_valid g)); row "  Latitude" (dx_num X (g_lat g)); row "  Longitude" (dx_num X (g_lon g))]) /\
    (forall z, tz_string z = sheet "TimeZone" [row "  Offset" (int_text (tz_offset z))]) /\
    (forall g, gender_string g = sheet "Gender" [row "    gender" (ge_gender g); row "    comment" (ge_comment g)]) /\
    (forall s, secrecy_string X s = sheet "Secrecy" [row "  Type" (secrecy_label (dx_tr X) s)]) /\
    (forall a, address_string X a = sheet "Address"
       [row "  IsEmpty" (yes_no (ad_empty a)); row "  Id" (ad_id a); row "  Type" (address_type_label (dx_tr X) (ad_type a));
        row "  Post office box" (ad_pobox a); row "  Extended" (ad_extended a); row "  Street" (ad_street a);
        row "  Locality" (ad_locality a); row "  Region" (ad_region a); row "  Postal code" (ad_postal a);
        row "  Country" (ad_country a); row "  Label" (ad_label a); row "  Geo" (geo_string X (ad_geo a))]) /\
    (forall e, email_string e = sheet "Email" (row "    mail" (em_mail e) :: params_row (em_params e))) /\
    (forall k, key_string X k = sheet "Key"
       ([row "  Id" (ke_id k); row "  Type" (key_type_label (dx_tr X) (ke_type k))]
        ++ match ke_type k with KCustom => [row "  CustomType" (ke_custom k)] | _ => [] end
        ++ [row "  IsBinary" (yes_no (ke_isbin k)); if ke_isbin k then row "  Binary" (to_base64 (ke_bin k)) else row "  Text" (ke_text k)])) /\
    (forall p, picture_string X p = sheet "Picture"
       [row "  Type" (pi_type p); row "  IsIntern" (yes_no (pi_intern p)); data_row (pi_intern p) (pi_raw_of (env_img (dx_env X)) p) (pi_url p)]) /\
    (forall s, sound_string s = sheet "Sound"
       [row "  Type" (so_type s); row "  IsIntern" (yes_no (so_intern s)); data_row (so_intern s) (so_data s) (so_url s)]) /\
    (forall c, calurl_string c = sheet "CalendarUrl" (row "    url" (cu_url c) :: row "    type" (caltype_string (cu_type c)) :: params_row (cu_params c))) /\
    (forall r, rurl_string r = sheet "ResourceLocatorUrl" (row "    url" (ru_url r) :: params_row (ru_params r))) /\
    (forall i, impp_string X i = sheet "Impp"
       (row "    type" (url_scheme (env_url (dx_env X)) (im_address i)) :: row "    address" (im_address i) :: params_row (im_params i))).
Proof.
  intros X. split; [apply geo_layout|]. split; [apply tz_layout|]. split; [apply gender_layout|]. split; [apply secrecy_layout|].
  split; [apply address_layout|]. split; [apply email_layout|]. split; [apply key_layout|]. split; [apply picture_layout|].
  split; [apply sound_layout|]. split; [apply calurl_layout|]. split; [apply rurl_layout|]. apply impp_layout.
Qed.
(** The same for the eight classes that hold a text with parameters. *)
Theorem C84_layout_texts :
  forall p : ptext,
    title_string p = sheet "Title" (row "    title" (pt_text p) :: params_row (pt_params p)) /\
    role_string p = sheet "Role" (row "    role" (pt_text p) :: params_row (pt_params p)) /\
    org_string p = sheet "Org" (row "    organization" (pt_text p) :: params_row (pt_params p)) /\
    nick_string p = sheet "NickName" (row "    nickname" (pt_text p) :: params_row (pt_params p)) /\
    note_string p = sheet "Note" (row "    note" (pt_text p) :: params_row (pt_params p)) /\
    related_string p = sheet "Related" (row "    relatedTo" (pt_text p) :: params_row (pt_params p)) /\
    lang_string p = sheet "Lang" (row "    language" (pt_text p) :: params_row (pt_params p)) /\
    pidmap_string p = sheet "ClientPidMap" (row "    clientpidmap" (pt_text p) :: params_row (pt_params p)).
Proof. exact ptext_layouts. Qed.
(** The type of a calendar address is shown by its name. *)
Theorem C84_calendar :
  forall c : calurl, calurl_string c = sheet "CalendarUrl" (row "    url" (cu_url c) ::
    row "    type" (B (match cu_type c with CalFBUrl => "FreeBusy" | CalCALUri => "CalUri" | CalCALADRUri => "Caladruri" | _ => "Unknown" end)) :: params_row (cu_params c)).
Proof. intros c. rewrite calurl_layout. destruct (cu_type c); reflexivity. Qed.
Print Assumptions C84_calendar.
(** The offset of a time zone is shown as a decimal number of minutes, with a minus sign if it is negative. *)
Theorem C84_offset :
  forall z : tzone, exists ds, ds <> [] /\ Forall (fun d => 48 <= d <= 57)%N ds /\ decimal_number 0 ds = Z.abs (tz_offset z) /\
    tz_string z = sheet "TimeZone" [row "  Offset" ((if (tz_offset z <? 0)%Z then B "-" else []) ++ ds)].
Proof.
  intros z. destruct (decimal_spec (Z.to_N (Z.abs (tz_offset z)))) as (D & V & L). exists (decimal (Z.to_N (Z.abs (tz_offset z)))).
  assert (Q : forall ds v, decimal_number v ds = fold_left (fun v d => v * 10 + (Z.of_N d - 48))%Z ds v)
    by (induction ds as [|d ds IH]; intros v; [reflexivity|cbn [decimal_number fold_left]; rewrite IH; f_equal; lia]).
  split; [|split; [|split]].
  - unfold decimal. cbn [digits]. destruct (N.ltb _ 10); [discriminate|]. intros E. apply app_eq_nil in E. destruct E as [_ E]. discriminate.
  - apply Forall_forall. intros d Hd. rewrite forallb_forall in D. specialize (D d Hd). unfold is_digit in D. lia.
  - rewrite Q. unfold digits_value in V. rewrite V. lia.
  - rewrite tz_layout. unfold int_text. destruct (tz_offset z <? 0)%Z eqn:E.
    + replace (Z.abs (tz_offset z)) with (- tz_offset z)%Z by lia. reflexivity.
    + replace (Z.abs (tz_offset z)) with (tz_offset z)%Z by lia. reflexivity.
Qed.
Example C84_offset_case : tz_string (tz_set (-90)) = B "TimeZone {" ++ [cLF] ++ B "  Offset: -90" ++ [cLF] ++ B "}" ++ [cLF].
Proof. vm_compute. reflexivity. Qed.
(** A field group whose name has no percent sign. *)
Theorem C84_layout_group :
  forall f : fgroup, ~ In 37%N (fg_name f) ->
    fgroup_string f = sheet "FieldGroup" (row "    FieldGroupName" (fg_name f ++ B " Value " ++ fg_value f) :: params_row (fg_params f)).
Proof. exact fgroup_layout. Qed.
(** If the name contains one place marker, such as %1 or %02, the value gets into the name instead (number below 2), into both
    places (2), or only where it belongs (above 2). *)
Theorem C84_group_marker :
  forall (f : fgroup) (p m q : ustring) (n : N), place_marker m n -> ~ In 37%N p -> ~ In 37%N q ->
    match q with c :: _ => is_digit c = false | [] => True end -> fg_name f = p ++ m ++ q ->
    exists shown, fgroup_string f = sheet "FieldGroup" (row "    FieldGroupName" shown :: params_row (fg_params f)) /\
      ((n < 2)%N -> shown = p ++ fg_value f ++ q ++ B " Value %2") /\
      (n = 2%N -> shown = p ++ fg_value f ++ q ++ B " Value " ++ fg_value f) /\
      ((2 < n)%N -> shown = fg_name f ++ B " Value " ++ fg_value f).
Proof. intros f p m q n. exact (fgroup_marker f p m n q). Qed.
Example C84_marker_case : place_marker (B "%L12") 12 /\ place_marker (B "%0") 0 /\ ~ In 37%N (B "50") /\
  fgroup_string (mkFgroup [] (B "50%0 off") (B "tax")) = B "FieldGroup {" ++ [cLF] ++ B "    FieldGroupName: 50tax off Value %2" ++ [cLF] ++ B "}" ++ [cLF].
Proof.
  split; [exact (marker_two [76%N] 1 2 (or_intror eq_refl) eq_refl eq_refl)|]. split; [exact (marker_one [] 0 (or_introl eq_refl) eq_refl)|].
  split; [vm_compute; intuition discriminate|vm_compute; reflexivity].
Qed.
(** A contact: 28 rows, then its e-mail addresses, languages, phone numbers, addresses and
    keys in the order stored. *)
Theorem C84_layout_contact :
  forall (X : DebugExt) (a : addressee), contact_string X a = sheet "Addressee"
    [row "  Uid" (a_uid a); row "  Name" (a_name a); row "  FormattedName" (a_formatted a); row "  FamilyName" (a_family a);
     row "  GivenName" (a_given a); row "  AdditionalName" (a_additional a); row "  Prefix" (a_prefix a); row "  Suffix" (a_suffix a);
     row "  NickName" (nickname a); row "  Birthday" (dx_time X (a_birthday a)); row "  Mailer" (a_mailer a);
     row "  TimeZone" (tz_string (a_tz a)); row "  Geo" (geo_string X (a_geo a)); row "  Title" (title a); row "  Role" (role a);
     row "  Organization" (organization a); row "  Department" (a_department a); row "  Note" (a_note a);
     row "  ProductId" (a_prodid a); row "  Revision" (dx_time X (a_revision a)); row "  SortString" (a_sortstring a);
     row "  Url" (ru_url (main_url a)); row "  Secrecy" (secrecy_string X (a_secrecy a)); row "  Logo" (picture_string X (a_logo a));
     row "  Photo" (picture_string X (a_photo a)); row "  Sound" (sound_string (a_sound a)); row "  Gender" (gender_string (a_gender a));
     row "  Kind" (a_kind a);
     B "  Emails {" ++ [cLF] ++ concat (map email_string (a_emails a)) ++ B "  }" ++ [cLF];
     B "  Langs {" ++ [cLF] ++ concat (map lang_string (a_langs a)) ++ B "  }" ++ [cLF];
     B "  PhoneNumbers {" ++ [cLF] ++ concat (map (phone_string X) (a_phones a)) ++ B "  }" ++ [cLF];
     B "  Addresses {" ++ [cLF] ++ concat (map (address_string X) (a_addresses a)) ++ B "  }" ++ [cLF];
     B "  Keys {" ++ [cLF] ++ concat (map (key_string X) (a_keys a)) ++ B "  }" ++ [cLF]].
Proof. exact contact_layout. Qed.
(** The text of a phone number has neither its identifier nor its type, and no class name:
    the third assignment overwrites what was there. *)
Theorem C84_phone_refuted :
  (forall (X : DebugExt) (p : phone), phone_string X p = concat (params_row (ph_params p)) ++ row "    Number" (ph_number p) ++ B "}" ++ [cLF]) /\
  exists p q : phone, ph_id p <> ph_id q /\ ph_type p <> ph_type q /\ forall X, phone_string X p = phone_string X q.
Proof.
  split; [exact phone_layout|]. exists (mkPhone (B "i") (B "1") tHome []), (mkPhone (B "j") (B "1") tWork []).
  split; [discriminate|]. split; [discriminate|]. intros X. rewrite !phone_layout. reflexivity.
Qed.

(** Two contacts with the same text show the same values, if no value shown has a line break:
    every row, and every list entry by entry. *)
Theorem C84_apart :
  forall (X : DebugExt) (a b : addressee), all_one_line (contact_all X a) -> all_one_line (contact_all X b) ->
    contact_string X a = contact_string X b -> contact_all X a = contact_all X b.
Proof. exact contact_apart. Qed.
(** Two addresses with the same text; the text part of an address, spelled out. *)
Theorem C84_address_apart :
  forall (X : DebugExt) (a b : address), Forall one_line (address_shown X a) -> Forall one_line (address_shown X b) ->
    address_string X a = address_string X b ->
    ad_id a = ad_id b /\ ad_pobox a = ad_pobox b /\ ad_extended a = ad_extended b /\ ad_street a = ad_street b /\
    ad_locality a = ad_locality b /\ ad_region a = ad_region b /\ ad_postal a = ad_postal b /\
    ad_country a = ad_country b /\ ad_label a = ad_label b /\ ad_empty a = ad_empty b /\
    geo_valid (ad_geo a) = geo_valid (ad_geo b).
Proof.
  intros X a b Ha Hb E. rewrite <- (app_nil_r (address_string X a)), <- (app_nil_r (address_string X b)) in E.
  apply address_reads in E as [E _]; [|exact Ha|exact Hb]. unfold address_shown in E. injection E as E1 E2 E3 E4 E5 E6 E7 E8 E9 E10 E11 E12 E13 E14.
  repeat split; auto; [revert E1; generalize (ad_empty a) (ad_empty b)|revert E12; generalize (geo_valid (ad_geo a)) (geo_valid (ad_geo b))];
    intros [] []; (reflexivity || discriminate).
Qed.
(** Binary data: two sounds with the same text have the same data or the same URL. *)
Theorem C84_sound_apart :
  forall a b : sound, one_line (so_type a) -> one_line (so_type b) -> one_line (so_url a) -> one_line (so_url b) ->
    is_bytes (so_data a) = true -> is_bytes (so_data b) = true ->
    sound_string a = sound_string b ->
    so_type a = so_type b /\ so_intern a = so_intern b /\ if so_intern a then so_data a = so_data b else so_url a = so_url b.
Proof.
  intros a b T1 T2 U1 U2 D1 D2 E. rewrite !sound_layout in E. unfold sheet in E. do 3 apply app_inv_head in E. cbn [concat] in E.
  repeat rewrite <- app_assoc in E. apply row_inv in E as [E0 E]; [|exact T1|exact T2]. split; [exact E0|].
  destruct (so_intern a), (so_intern b); try discriminate E; (split; [reflexivity|]); apply app_inv_head in E; unfold data_row, row in E;
    repeat rewrite <- app_assoc in E; do 2 apply app_inv_head in E.
  - change ([cLF] ++ [] ++ B "}" ++ [cLF]) with ([cLF] ++ (B "}" ++ [cLF])) in E. apply app_inv_tail in E.
    rewrite <- (base64_roundtrip _ D1), <- (base64_roundtrip _ D2), E. reflexivity.
  - apply line_inv in E as [E _]; auto.
Qed.

(** Without the condition on line breaks the claim is false: a value can look like a row. *)
Theorem C84_line_break_refuted :
  exists a b : address, ad_locality a <> ad_locality b /\ ad_region a <> ad_region b /\ forall X, address_string X a = address_string X b.
Proof.
  exists (mkAddress false [] 0 geo_new [] [] [] (B "L" ++ [cLF] ++ B "  Region: R") [] [] [] []),
         (mkAddress false [] 0 geo_new [] [] [] (B "L") (B "R" ++ [cLF] ++ B "  Region: ") [] [] []).
  split; [discriminate|]. split; [discriminate|]. intros X. rewrite !address_layout. reflexivity.
Qed.
(** The values of a field group cannot be told apart if the name has a percent sign. *)
Theorem C84_group_refuted :
  exists f g : fgroup, fg_name f <> fg_name g /\ fg_value f <> fg_value g /\ fgroup_string f = fgroup_string g.
Proof.
  exists (mkFgroup [] (B "%1") (B "a")), (mkFgroup [] (B "a") (B "%2")). split; [discriminate|]. split; [discriminate|]. vm_compute. reflexivity.
Qed.
(** Nor can parameters: nothing separates one parameter from the next. *)
Theorem C84_parameters_refuted :
  exists e f : email, em_mail e = em_mail f /\ length (em_params e) <> length (em_params f) /\ email_string e = email_string f.
Proof.
  exists (mkEmail [(B "a", [B "b"]); (B "c", [B "d"])] (B "a@b")), (mkEmail [(B "a", [B "bc d"])] (B "a@b")).
  split; [reflexivity|]. split; [discriminate|]. vm_compute. reflexivity.
Qed.
(** The text of a contact leaves out categories, custom fields, related people and more. *)
Theorem C84_silent_refuted :
  exists a b : addressee, a_categories a <> a_categories b /\ a_customs a <> a_customs b /\ forall X, contact_string X a = contact_string X b.
Proof.
  exists (set_categories [B "friends"] (put_customs [(B "X-A", B "1")] (addressee_new (B "u")))), (addressee_new (B "u")).
  split; [discriminate|]. split; [discriminate|]. intros X. rewrite !contact_layout. reflexivity.
Qed.

(** Cases. *)
Definition exX : DebugExt := {| dx_tr := fun s => s; dx_num := fun _ => B "0"; dx_time := fun _ => B "now"; dx_env := ex_env |}.
Example C84_layout_case : gender_string (mkGender (B "%1") (B "100% %2")) = sheet "Gender" [B "    gender: %1" ++ [cLF]; B "    comment: 100% %2" ++ [cLF]].
Proof. vm_compute. reflexivity. Qed.
Example C84_group_case : fgroup_string (mkFgroup [] (B "Tel") (B "%1"))= sheet "FieldGroup" [B "    FieldGroupName: Tel Value %1" ++ [cLF]].
Proof. vm_compute. reflexivity. Qed.
Example C84_phone_case : phone_string exX (mkPhone (B "id") (B "123") tCell [(B "type", [B "cell"; B "work"])]) = B "    parameters: type cell,work" ++ [cLF] ++ B "    Number: 123" ++ [cLF] ++ B "}" ++ [cLF].
Proof. vm_compute. reflexivity. Qed.
Definition exC : addressee := put_note (B "100 %1") (put_addresses [ad_set_label (B "Label") ex_address; address_new (B "i") 0] ex_contact).
Example C84_apart_case : all_one_line (contact_all exX exC) /\ length (sh_emails (contact_all exX exC)) = 2%nat /\ length (sh_keys (contact_all exX exC)) = 1%nat.
Proof.
  split; [|split; vm_compute; reflexivity]. unfold all_one_line.
  assert (K : forall l, forallb (fun s => forallb (fun c => negb (N.eqb c cLF)) s) l = true -> Forall one_line l).
  { intros l H. apply Forall_forall. intros s I J. rewrite forallb_forall in H. specialize (H s I). rewrite forallb_forall in H. specialize (H _ J). discriminate H. }
  assert (K2 : forall l, forallb (forallb (fun s => forallb (fun c => negb (N.eqb c cLF)) s)) l = true -> Forall (Forall one_line) l).
  { intros l H. apply Forall_forall. intros s I. apply K. rewrite forallb_forall in H. exact (H s I). }
  split; [apply K; vm_compute; reflexivity|]. repeat split; apply K2; vm_compute; reflexivity.
Qed.
Example C84_sound_case : sound_string (mkSound [] (B "audio/x") [1%N; 2%N; 255%N] true) = sheet "Sound" [B "  Type: audio/x" ++ [cLF]; B "  IsIntern: true" ++ [cLF]; B "  Data: AQL/" ++ [cLF]].
Proof. vm_compute. reflexivity. Qed.

Print Assumptions C84_group_marker. Print Assumptions C84_offset. Print Assumptions C84_layout. Print Assumptions C84_layout_texts. Print Assumptions C84_layout_group. Print Assumptions C84_layout_contact.
Print Assumptions C84_phone_refuted. Print Assumptions C84_apart. Print Assumptions C84_address_apart. Print Assumptions C84_sound_apart.
Print Assumptions C84_line_break_refuted. Print Assumptions C84_group_refuted. Print Assumptions C84_parameters_refuted. Print Assumptions C84_silent_refuted.
