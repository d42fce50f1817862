(** The project's tests that build a contact through its setters and export
    it: the same calls on the model give the text the tests expect.  Tests of
    the model, not proofs of the claims (see Cases_Files). *)
From Verif Require Import Base BaseFacts QtText Utf8 M_ParamMap M_VCard M_VCardText
  M_Split M_Values M_Date M_Addressee M_Api M_Access M_VCardTool Cases_World.
From Coq Require Import String.
Open Scope string_scope.
Open Scope list_scope.


(** [AddressTest::shouldExportVcard3], autotests/addresstest.cpp:269 *)
Example Test_AddressTest_shouldExportVcard3 :
  create_text T1 E1 V30 true
  [let address := address_new (B "id") 0 in
   let address := ad_set_id (B "My Id") address in
   let address := ad_set_type aHome address in
   let address := ad_set_pobox (B "1234") address in
   let address := ad_set_extended (B "My Extended Label") address in
   let address := ad_set_street (B "My Street") address in
   let address := ad_set_locality (B "My Locality") address in
   let address := ad_set_region (B "My Region") address in
   let address := ad_set_postal (B "My Postalcode") address in
   let address := ad_set_country (B "My country") address in
   let address := ad_set_label (B "My Label") address in
   let addr := addressee_new (B "uid") in
   let addr := set_emails [(B "foo@kde.org")] addr in
   let addr := set_uid (B "testuid") addr in
   let addr := insert_address address addr in addr] =
  (crlf ["BEGIN:VCARD";
    "VERSION:3.0";
    "ADR;TYPE=home:1234;My Extended Label;My Street;My Locality;My Region;My Pos";
    " talcode;My country";
    "EMAIL:foo@kde.org";
    "LABEL;TYPE=home:My Label";
    "N:;;;;";
    "UID:testuid";
    "END:VCARD";
    ""]).
Proof. vm_compute. reflexivity. Qed.

(** [AddressTest::shouldExportVCard4WithGeoPosition], autotests/addresstest.cpp:390 *)
Example Test_AddressTest_shouldExportVCard4WithGeoPosition :
  create_text T1 E1 V40 true
  [let address := address_new (B "id") 0 in
   let address := ad_set_id (B "My Id") address in
   let address := ad_set_type aHome address in
   let address := ad_set_pobox (B "1234") address in
   let address := ad_set_extended (B "My Extended Label") address in
   let address := ad_set_street (B "My Street") address in
   let address := ad_set_locality (B "My Locality") address in
   let address := ad_set_region (B "My Region") address in
   let address := ad_set_postal (B "My Postalcode") address in
   let address := ad_set_country (B "My country") address in
   let address := ad_set_label (B "My Label") address in
   let geo := geo_new in
   let geo := geo_set_lat (Fin (w_single (w_number (B "22.5")))) geo in
   let geo := geo_set_lon (Fin (w_single (w_number (B "45.1")))) geo in
   let address := ad_set_geo geo address in
   let addr := addressee_new (B "uid") in
   let addr := set_emails [(B "foo@kde.org")] addr in
   let addr := set_uid (B "testuid") addr in
   let addr := insert_address address addr in addr] =
  (crlf ["BEGIN:VCARD";
    "VERSION:4.0";
    "ADR;GEO=""geo:22.500000,45.099998"";LABEL=""My Label"";TYPE=home:1234;My Extend";
    " ed Label;My Street;My Locality;My Region;My Postalcode;My country";
    "EMAIL:foo@kde.org";
    "N:;;;;";
    "UID:testuid";
    "END:VCARD";
    ""]).
Proof. vm_compute. reflexivity. Qed.

(** [AddressTest::shouldExportVcard4], autotests/addresstest.cpp:432 *)
Example Test_AddressTest_shouldExportVcard4 :
  create_text T1 E1 V40 true
  [let address := address_new (B "id") 0 in
   let address := ad_set_id (B "My Id") address in
   let address := ad_set_type aHome address in
   let address := ad_set_pobox (B "1234") address in
   let address := ad_set_extended (B "My Extended Label") address in
   let address := ad_set_street (B "My Street") address in
   let address := ad_set_locality (B "My Locality") address in
   let address := ad_set_region (B "My Region") address in
   let address := ad_set_postal (B "My Postalcode") address in
   let address := ad_set_country (B "My country") address in
   let address := ad_set_label (B "My Label") address in
   let addr := addressee_new (B "uid") in
   let addr := set_emails [(B "foo@kde.org")] addr in
   let addr := set_uid (B "testuid") addr in
   let addr := insert_address address addr in addr] =
  (crlf ["BEGIN:VCARD";
    "VERSION:4.0";
    "ADR;LABEL=""My Label"";TYPE=home:1234;My Extended Label;My Street;My Locality";
    " ;My Region;My Postalcode;My country";
    "EMAIL:foo@kde.org";
    "N:;;;;";
    "UID:testuid";
    "END:VCARD";
    ""]).
Proof. vm_compute. reflexivity. Qed.

(** [BirthDayTest::shouldExportVcard4], autotests/birthdaytest.cpp:84 *)
Example Test_BirthDayTest_shouldExportVcard4 :
  create_text T1 E1 V40 true
  [let addr := addressee_new (B "uid") in
   let addr := set_emails [(B "foo@kde.org"); (B "bla@kde.org")] addr in
   let addr := set_uid (B "testuid") addr in
   let dt := mk_dt (mk_date 1976 5 5) (mk_time 12 5 5 0) TLocal in
   let addr := set_birthday Env1 dt true addr in addr] =
  (crlf ["BEGIN:VCARD";
    "VERSION:4.0";
    "BDAY;VALUE=DATE:19760505T120505";
    "EMAIL:foo@kde.org";
    "EMAIL:bla@kde.org";
    "N:;;;;";
    "UID:testuid";
    "END:VCARD";
    ""]).
Proof. vm_compute. reflexivity. Qed.

(** [BirthDayTest::shouldExportVcard4WithoutTime], autotests/birthdaytest.cpp:108 *)
Example Test_BirthDayTest_shouldExportVcard4WithoutTime :
  create_text T1 E1 V40 true
  [let addr := addressee_new (B "uid") in
   let addr := set_emails [(B "foo@kde.org"); (B "bla@kde.org")] addr in
   let addr := set_uid (B "testuid") addr in
   let d := mk_date (1976) 5 5 in
   let addr := set_birthday_date d addr in addr] =
  (crlf ["BEGIN:VCARD";
    "VERSION:4.0";
    "BDAY;VALUE=DATE:19760505";
    "EMAIL:foo@kde.org";
    "EMAIL:bla@kde.org";
    "N:;;;;";
    "UID:testuid";
    "END:VCARD";
    ""]).
Proof. vm_compute. reflexivity. Qed.

(** [BirthDayTest::shouldExportVcard4WithoutTimeAndWithoutYear], autotests/birthdaytest.cpp:132 *)
Example Test_BirthDayTest_shouldExportVcard4WithoutTimeAndWithoutYear :
  create_text T1 E1 V40 true
  [let addr := addressee_new (B "uid") in
   let addr := set_emails [(B "foo@kde.org"); (B "bla@kde.org")] addr in
   let addr := set_uid (B "testuid") addr in
   let d := mk_date (-1) 5 5 in
   let addr := set_birthday_date d addr in addr] =
  (crlf ["BEGIN:VCARD";
    "VERSION:4.0";
    "BDAY;VALUE=DATE:--0505";
    "EMAIL:foo@kde.org";
    "EMAIL:bla@kde.org";
    "N:;;;;";
    "UID:testuid";
    "END:VCARD";
    ""]).
Proof. vm_compute. reflexivity. Qed.

(** [BirthDayTest::shouldExportVcard3], autotests/birthdaytest.cpp:156 *)
Example Test_BirthDayTest_shouldExportVcard3 :
  create_text T1 E1 V30 true
  [let addr := addressee_new (B "uid") in
   let addr := set_emails [(B "foo@kde.org"); (B "bla@kde.org")] addr in
   let addr := set_uid (B "testuid") addr in
   let dt := mk_dt (mk_date 1976 5 5) (mk_time 12 5 5 0) TLocal in
   let addr := set_birthday Env1 dt true addr in addr] =
  (crlf ["BEGIN:VCARD";
    "VERSION:3.0";
    "BDAY:1976-05-05T12:05:05";
    "EMAIL:foo@kde.org";
    "EMAIL:bla@kde.org";
    "N:;;;;";
    "UID:testuid";
    "END:VCARD";
    ""]).
Proof. vm_compute. reflexivity. Qed.

(** [BirthDayTest::shouldExportVcard3WithoutTimeAndWithoutYear], autotests/birthdaytest.cpp:180 *)
Example Test_BirthDayTest_shouldExportVcard3WithoutTimeAndWithoutYear :
  create_text T1 E1 V30 true
  [let addr := addressee_new (B "uid") in
   let addr := set_emails [(B "foo@kde.org"); (B "bla@kde.org")] addr in
   let addr := set_uid (B "testuid") addr in
   let d := mk_date (-1) 5 5 in
   let addr := set_birthday_date d addr in addr] =
  (crlf ["BEGIN:VCARD";
    "VERSION:3.0";
    "BDAY:--05-05";
    "EMAIL:foo@kde.org";
    "EMAIL:bla@kde.org";
    "N:;;;;";
    "UID:testuid";
    "END:VCARD";
    ""]).
Proof. vm_compute. reflexivity. Qed.

(** [BirthDayTest::shouldExportVcard3WithoutTime], autotests/birthdaytest.cpp:204 *)
Example Test_BirthDayTest_shouldExportVcard3WithoutTime :
  create_text T1 E1 V30 true
  [let addr := addressee_new (B "uid") in
   let addr := set_emails [(B "foo@kde.org"); (B "bla@kde.org")] addr in
   let addr := set_uid (B "testuid") addr in
   let d := mk_date (1976) 5 5 in
   let addr := set_birthday_date d addr in addr] =
  (crlf ["BEGIN:VCARD";
    "VERSION:3.0";
    "BDAY:1976-05-05";
    "EMAIL:foo@kde.org";
    "EMAIL:bla@kde.org";
    "N:;;;;";
    "UID:testuid";
    "END:VCARD";
    ""]).
Proof. vm_compute. reflexivity. Qed.

(** [CalendarUrlTest::shouldGenerateVCardWithParameter], autotests/calendarurltest.cpp:212 *)
Example Test_CalendarUrlTest_shouldGenerateVCardWithParameter :
  create_text T1 E1 V40 true
  [let addr := addressee_new (B "uid") in
   let addr := set_emails [(B "foo@kde.org")] addr in
   let addr := set_uid (B "testuid") addr in
   let url := mkCalurl [] CalUnknown [] in
   let url := mkCalurl (cu_params url) CalCALUri (cu_url url) in
   let url := mkCalurl (cu_params url) (cu_type url) (B "https://sherlockholmes.com/calendar/sherlockholmes") in
   let params := ([] : pmap) in
   let params := params ++ [((B "Foo2"), [(B "bla2"); (B "blo2")])] in
   let url := mkCalurl params (cu_type url) (cu_url url) in
   let addr := insert_calurl Env1 url addr in addr] =
  (crlf ["BEGIN:VCARD";
    "VERSION:4.0";
    "CALURI;FOO2=bla2,blo2:https://sherlockholmes.com/calendar/sherlockholmes";
    "EMAIL:foo@kde.org";
    "N:;;;;";
    "UID:testuid";
    "END:VCARD";
    ""]).
Proof. vm_compute. reflexivity. Qed.

(** [CalendarUrlTest::shouldNotGeneratedAttributeForVcard3], autotests/calendarurltest.cpp:239 *)
Example Test_CalendarUrlTest_shouldNotGeneratedAttributeForVcard3 :
  create_text T1 E1 V30 true
  [let addr := addressee_new (B "uid") in
   let addr := set_emails [(B "foo@kde.org")] addr in
   let addr := set_uid (B "testuid") addr in
   let url := mkCalurl [] CalUnknown [] in
   let url := mkCalurl (cu_params url) CalCALUri (cu_url url) in
   let url := mkCalurl (cu_params url) (cu_type url) (B "https://sherlockholmes.com/calendar/sherlockholmes") in
   let params := ([] : pmap) in
   let params := params ++ [((B "Foo2"), [(B "bla2"); (B "blo2")])] in
   let url := mkCalurl params (cu_type url) (cu_url url) in
   let addr := insert_calurl Env1 url addr in addr] =
  (crlf ["BEGIN:VCARD";
    "VERSION:3.0";
    "EMAIL:foo@kde.org";
    "N:;;;;";
    "UID:testuid";
    "END:VCARD";
    ""]).
Proof. vm_compute. reflexivity. Qed.

(** [CalendarUrlTest::shouldGenerateMultiCalendarUrl], autotests/calendarurltest.cpp:265 *)
Example Test_CalendarUrlTest_shouldGenerateMultiCalendarUrl :
  create_text T1 E1 V40 true
  [let addr := addressee_new (B "uid") in
   let addr := set_emails [(B "foo@kde.org")] addr in
   let addr := set_uid (B "testuid") addr in
   let url := mkCalurl [] CalUnknown [] in
   let url := mkCalurl (cu_params url) CalCALUri (cu_url url) in
   let url := mkCalurl (cu_params url) (cu_type url) (B "https://sherlockholmes.com/calendar/sherlockholmes") in
   let params := ([] : pmap) in
   let params := params ++ [((B "Foo2"), [(B "bla2"); (B "blo2")])] in
   let url := mkCalurl params (cu_type url) (cu_url url) in
   let addr := insert_calurl Env1 url addr in
   let url := mkCalurl (cu_params url) CalFBUrl (cu_url url) in
   let url := mkCalurl (cu_params url) (cu_type url) (B "https://sherlockholmes.com/calendar/sherlockholmes2") in
   let params := ([] : pmap) in
   let params := params ++ [((B "Foo1"), [(B "bla1"); (B "blo1")])] in
   let url := mkCalurl params (cu_type url) (cu_url url) in
   let addr := insert_calurl Env1 url addr in addr] =
  (crlf ["BEGIN:VCARD";
    "VERSION:4.0";
    "CALURI;FOO2=bla2,blo2:https://sherlockholmes.com/calendar/sherlockholmes";
    "EMAIL:foo@kde.org";
    "FBURL;FOO1=bla1,blo1:https://sherlockholmes.com/calendar/sherlockholmes2";
    "N:;;;;";
    "UID:testuid";
    "END:VCARD";
    ""]).
Proof. vm_compute. reflexivity. Qed.

(** [ClientPidMapTest::shouldCreateVCard], autotests/clientpidmaptest.cpp:127 *)
Example Test_ClientPidMapTest_shouldCreateVCard :
  create_text T1 E1 V40 true
  [let addr := addressee_new (B "uid") in
   let addr := set_emails [(B "foo@kde.org")] addr in
   let addr := set_uid (B "testuid") addr in
   let lstClientPidMap := [] in
   let clientpidmap := ptext_of (B "fr") in
   let lstClientPidMap := lstClientPidMap ++ [clientpidmap] in
   let addr := set_pidmaps lstClientPidMap addr in addr] =
  (crlf ["BEGIN:VCARD";
    "VERSION:4.0";
    "CLIENTPIDMAP:fr";
    "EMAIL:foo@kde.org";
    "N:;;;;";
    "UID:testuid";
    "END:VCARD";
    ""]).
Proof. vm_compute. reflexivity. Qed.

(** [ClientPidMapTest::shouldCreateVCardWithTwoClientPidMap], autotests/clientpidmaptest.cpp:152 *)
Example Test_ClientPidMapTest_shouldCreateVCardWithTwoClientPidMap :
  create_text T1 E1 V40 true
  [let addr := addressee_new (B "uid") in
   let addr := set_emails [(B "foo@kde.org")] addr in
   let addr := set_uid (B "testuid") addr in
   let lstClientPidMap := [] in
   let clientpidmap := ptext_of (B "fr") in
   let clientpidmap2 := ptext_of (B "fr2") in
   let lstClientPidMap := lstClientPidMap ++ [clientpidmap; clientpidmap2] in
   let addr := set_pidmaps lstClientPidMap addr in addr] =
  (crlf ["BEGIN:VCARD";
    "VERSION:4.0";
    "CLIENTPIDMAP:fr";
    "CLIENTPIDMAP:fr2";
    "EMAIL:foo@kde.org";
    "N:;;;;";
    "UID:testuid";
    "END:VCARD";
    ""]).
Proof. vm_compute. reflexivity. Qed.

(** [ClientPidMapTest::shouldCreateVCardWithParameters], autotests/clientpidmaptest.cpp:179 *)
Example Test_ClientPidMapTest_shouldCreateVCardWithParameters :
  create_text T1 E1 V40 true
  [let addr := addressee_new (B "uid") in
   let addr := set_emails [(B "foo@kde.org")] addr in
   let addr := set_uid (B "testuid") addr in
   let lstClientPidMap := [] in
   let clientpidmap := ptext_of (B "fr") in
   let params := ([] : pmap) in
   let params := params ++ [((B "Foo1"), [(B "bla1"); (B "blo1")])] in
   let params := params ++ [((B "Foo2"), [(B "bla2"); (B "blo2")])] in
   let clientpidmap := mkPtext params (pt_text clientpidmap) in
   let lstClientPidMap := lstClientPidMap ++ [clientpidmap] in
   let addr := set_pidmaps lstClientPidMap addr in addr] =
  (crlf ["BEGIN:VCARD";
    "VERSION:4.0";
    "CLIENTPIDMAP;FOO1=bla1,blo1;FOO2=bla2,blo2:fr";
    "EMAIL:foo@kde.org";
    "N:;;;;";
    "UID:testuid";
    "END:VCARD";
    ""]).
Proof. vm_compute. reflexivity. Qed.

(** [ClientPidMapTest::shouldGenerateClientPidMapForVCard3], autotests/clientpidmaptest.cpp:207 *)
Example Test_ClientPidMapTest_shouldGenerateClientPidMapForVCard3 :
  create_text T1 E1 V30 true
  [let addr := addressee_new (B "uid") in
   let addr := set_emails [(B "foo@kde.org")] addr in
   let addr := set_uid (B "testuid") addr in
   let lstClientPidMap := [] in
   let clientpidmap := ptext_of (B "fr") in
   let params := ([] : pmap) in
   let params := params ++ [((B "Foo1"), [(B "bla1"); (B "blo1")])] in
   let params := params ++ [((B "Foo2"), [(B "bla2"); (B "blo2")])] in
   let clientpidmap := mkPtext params (pt_text clientpidmap) in
   let lstClientPidMap := lstClientPidMap ++ [clientpidmap] in
   let addr := set_pidmaps lstClientPidMap addr in addr] =
  (crlf ["BEGIN:VCARD";
    "VERSION:3.0";
    "EMAIL:foo@kde.org";
    "N:;;;;";
    "UID:testuid";
    "END:VCARD";
    ""]).
Proof. vm_compute. reflexivity. Qed.

(** [CustomIdentifierTest::shouldExportVcard3], autotests/customidentifiertest.cpp:30 *)
Example Test_CustomIdentifierTest_shouldExportVcard3 :
  create_text T1 E1 V30 true
  [let addr := addressee_new (B "uid") in
   let addr := set_emails [(B "foo@kde.org"); (B "bla@kde.org")] addr in
   let addr := set_uid (B "testuid") addr in
   let addr := insert_custom (B "KADDRESSBOOK") (B "X-SpousesName") (B "foo") addr in addr] =
  (crlf ["BEGIN:VCARD";
    "VERSION:3.0";
    "EMAIL:foo@kde.org";
    "EMAIL:bla@kde.org";
    "N:;;;;";
    "UID:testuid";
    "X-KADDRESSBOOK-X-SpousesName:foo";
    "END:VCARD";
    ""]).
Proof. vm_compute. reflexivity. Qed.

(** [CustomIdentifierTest::shouldExportVcard3], autotests/customidentifiertest.cpp:30 *)
Example Test_CustomIdentifierTest_shouldExportVcard3_2 :
  create_text T1 E1 V30 true
  [let addr := addressee_new (B "uid") in
   let addr := set_emails [(B "foo@kde.org"); (B "bla@kde.org")] addr in
   let addr := set_uid (B "testuid") addr in
   let addr := insert_custom (B "KADDRESSBOOK") (B "X-SpousesName") (B "foo") addr in
   let addr := insert_custom (B "KADDRESSBOOK") (B "X-ANNIVERSARY") (B "19960415") addr in addr] =
  (crlf ["BEGIN:VCARD";
    "VERSION:3.0";
    "EMAIL:foo@kde.org";
    "EMAIL:bla@kde.org";
    "N:;;;;";
    "UID:testuid";
    "X-KADDRESSBOOK-X-ANNIVERSARY:19960415";
    "X-KADDRESSBOOK-X-SpousesName:foo";
    "END:VCARD";
    ""]).
Proof. vm_compute. reflexivity. Qed.

(** [CustomIdentifierTest::shouldExportVcard4], autotests/customidentifiertest.cpp:70 *)
Example Test_CustomIdentifierTest_shouldExportVcard4 :
  create_text T1 E1 V40 true
  [let addr := addressee_new (B "uid") in
   let addr := set_emails [(B "foo@kde.org"); (B "bla@kde.org")] addr in
   let addr := set_uid (B "testuid") addr in
   let addr := insert_custom (B "KADDRESSBOOK") (B "X-SpousesName") (B "foo") addr in addr] =
  (crlf ["BEGIN:VCARD";
    "VERSION:4.0";
    "EMAIL:foo@kde.org";
    "EMAIL:bla@kde.org";
    "N:;;;;";
    "RELATED;TYPE=spouse;VALUE=foo:;";
    "UID:testuid";
    "END:VCARD";
    ""]).
Proof. vm_compute. reflexivity. Qed.

(** [CustomIdentifierTest::shouldExportVcard4], autotests/customidentifiertest.cpp:70 *)
Example Test_CustomIdentifierTest_shouldExportVcard4_2 :
  create_text T1 E1 V40 true
  [let addr := addressee_new (B "uid") in
   let addr := set_emails [(B "foo@kde.org"); (B "bla@kde.org")] addr in
   let addr := set_uid (B "testuid") addr in
   let addr := insert_custom (B "KADDRESSBOOK") (B "X-SpousesName") (B "foo") addr in
   let dt := mkDate 12 9 3 in
   let addr := insert_custom (B "KADDRESSBOOK") (B "X-ANNIVERSARY") (w_iso dt) addr in addr] =
  (crlf ["BEGIN:VCARD";
    "VERSION:4.0";
    "ANNIVERSARY;VALUE=DATE:00120903T000000";
    "EMAIL:foo@kde.org";
    "EMAIL:bla@kde.org";
    "N:;;;;";
    "RELATED;TYPE=spouse;VALUE=foo:;";
    "UID:testuid";
    "END:VCARD";
    ""]).
Proof. vm_compute. reflexivity. Qed.

(** [EmailTest::shouldExportVcard], autotests/emailtest.cpp:160 *)
Example Test_EmailTest_shouldExportVcard :
  create_text T1 E1 V40 true
  [let addr := addressee_new (B "uid") in
   let addr := set_emails [(B "foo@kde.org"); (B "bla@kde.org")] addr in
   let addr := set_uid (B "testuid") addr in addr] =
  (crlf ["BEGIN:VCARD";
    "VERSION:4.0";
    "EMAIL:foo@kde.org";
    "EMAIL:bla@kde.org";
    "N:;;;;";
    "UID:testuid";
    "END:VCARD";
    ""]).
Proof. vm_compute. reflexivity. Qed.

(** [EmailTest::shouldExportVcard], autotests/emailtest.cpp:160 *)
Example Test_EmailTest_shouldExportVcard_2 :
  create_text T1 E1 V40 true
  [let addr := addressee_new (B "uid") in
   let addr := set_emails [(B "foo@kde.org"); (B "bla@kde.org")] addr in
   let addr := set_uid (B "testuid") addr in
   let addr2 := addressee_new (B "uid") in
   let addr2 := set_uid (B "testuid") addr2 in
   let email1 := email_of [] in
   let email2 := email_of [] in
   let email1 := mkEmail (em_params email1) (B "foo@kde.org") in
   let email1 := email_set_type 2%N email1 in
   let email1 := email_set_preferred true email1 in
   let email2 := mkEmail (em_params email2) (B "bla@kde.org") in
   let email2 := email_set_type 1%N email2 in
   let addr2 := set_email_list [email1; email2] addr2 in addr2] =
  (crlf ["BEGIN:VCARD";
    "VERSION:4.0";
    "EMAIL;TYPE=WORK,PREF:foo@kde.org";
    "EMAIL;TYPE=HOME:bla@kde.org";
    "N:;;;;";
    "UID:testuid";
    "END:VCARD";
    ""]).
Proof. vm_compute. reflexivity. Qed.

(** [FieldGroupTest::shouldCreateVCard], autotests/fieldgrouptest.cpp:139 *)
Example Test_FieldGroupTest_shouldCreateVCard :
  create_text T1 E1 V40 true
  [let addr := addressee_new (B "uid") in
   let addr := set_emails [(B "foo@kde.org")] addr in
   let addr := set_uid (B "testuid") addr in
   let lstFieldGroup := [] in
   let fieldGroup := mkFgroup [] (B "fr") [] in
   let value := (B "bla") in
   let fieldGroup := mkFgroup (fg_params fieldGroup) (fg_name fieldGroup) value in
   let lstFieldGroup := lstFieldGroup ++ [fieldGroup] in
   let addr := set_fgroups lstFieldGroup addr in addr] =
  (crlf ["BEGIN:VCARD";
    "VERSION:4.0";
    "EMAIL:foo@kde.org";
    "N:;;;;";
    "UID:testuid";
    "fr:bla";
    "END:VCARD";
    ""]).
Proof. vm_compute. reflexivity. Qed.

(** [FieldGroupTest::shouldCreateVCardWithTwoLang], autotests/fieldgrouptest.cpp:166 *)
Example Test_FieldGroupTest_shouldCreateVCardWithTwoLang :
  create_text T1 E1 V40 true
  [let addr := addressee_new (B "uid") in
   let addr := set_emails [(B "foo@kde.org")] addr in
   let addr := set_uid (B "testuid") addr in
   let lstFieldGroup := [] in
   let fieldGroup1 := mkFgroup [] (B "fr") [] in
   let value := (B "bla") in
   let fieldGroup1 := mkFgroup (fg_params fieldGroup1) (fg_name fieldGroup1) value in
   let fieldGroup2 := mkFgroup [] (B "fr2") [] in
   let fieldGroup2 := mkFgroup (fg_params fieldGroup2) (fg_name fieldGroup2) value in
   let lstFieldGroup := lstFieldGroup ++ [fieldGroup1; fieldGroup2] in
   let addr := set_fgroups lstFieldGroup addr in addr] =
  (crlf ["BEGIN:VCARD";
    "VERSION:4.0";
    "EMAIL:foo@kde.org";
    "N:;;;;";
    "UID:testuid";
    "fr:bla";
    "fr2:bla";
    "END:VCARD";
    ""]).
Proof. vm_compute. reflexivity. Qed.

(** [FieldGroupTest::shouldCreateVCardWithParameters], autotests/fieldgrouptest.cpp:197 *)
Example Test_FieldGroupTest_shouldCreateVCardWithParameters :
  create_text T1 E1 V40 true
  [let addr := addressee_new (B "uid") in
   let addr := set_emails [(B "foo@kde.org")] addr in
   let addr := set_uid (B "testuid") addr in
   let value := (B "bla") in
   let lstFieldGroup := [] in
   let fieldGroup := mkFgroup [] (B "fr") [] in
   let params := ([] : pmap) in
   let params := params ++ [((B "Foo1"), [(B "bla1"); (B "blo1")])] in
   let params := params ++ [((B "Foo2"), [(B "bla2"); (B "blo2")])] in
   let fieldGroup := mkFgroup params (fg_name fieldGroup) (fg_value fieldGroup) in
   let fieldGroup := mkFgroup (fg_params fieldGroup) (fg_name fieldGroup) value in
   let lstFieldGroup := lstFieldGroup ++ [fieldGroup] in
   let addr := set_fgroups lstFieldGroup addr in addr] =
  (crlf ["BEGIN:VCARD";
    "VERSION:4.0";
    "EMAIL:foo@kde.org";
    "N:;;;;";
    "UID:testuid";
    "fr;FOO1=bla1,blo1;FOO2=bla2,blo2:bla";
    "END:VCARD";
    ""]).
Proof. vm_compute. reflexivity. Qed.

(** [FieldGroupTest::shouldNotGenerateFieldGroupForVCard3], autotests/fieldgrouptest.cpp:227 *)
Example Test_FieldGroupTest_shouldNotGenerateFieldGroupForVCard3 :
  create_text T1 E1 V30 true
  [let addr := addressee_new (B "uid") in
   let addr := set_emails [(B "foo@kde.org")] addr in
   let addr := set_uid (B "testuid") addr in
   let lstFieldGroup := [] in
   let fieldGroup := mkFgroup [] (B "fr") [] in
   let params := ([] : pmap) in
   let params := params ++ [((B "Foo1"), [(B "bla1"); (B "blo1")])] in
   let params := params ++ [((B "Foo2"), [(B "bla2"); (B "blo2")])] in
   let fieldGroup := mkFgroup params (fg_name fieldGroup) (fg_value fieldGroup) in
   let value := (B "bla") in
   let fieldGroup := mkFgroup (fg_params fieldGroup) (fg_name fieldGroup) value in
   let lstFieldGroup := lstFieldGroup ++ [fieldGroup] in
   let addr := set_fgroups lstFieldGroup addr in addr] =
  (crlf ["BEGIN:VCARD";
    "VERSION:3.0";
    "EMAIL:foo@kde.org";
    "N:;;;;";
    "UID:testuid";
    "fr;FOO1=bla1,blo1;FOO2=bla2,blo2:bla";
    "END:VCARD";
    ""]).
Proof. vm_compute. reflexivity. Qed.

(** [GenderTest::shouldExportEmptyGender], autotests/gendertest.cpp:165 *)
Example Test_GenderTest_shouldExportEmptyGender :
  create_text T1 E1 V40 true
  [let addr := addressee_new (B "uid") in
   let addr := set_emails [(B "foo@kde.org")] addr in
   let addr := set_uid (B "testuid") addr in addr] =
  (crlf ["BEGIN:VCARD";
    "VERSION:4.0";
    "EMAIL:foo@kde.org";
    "N:;;;;";
    "UID:testuid";
    "END:VCARD";
    ""]).
Proof. vm_compute. reflexivity. Qed.

(** [GenderTest::shouldExportOnlyGenderWithoutCommentGender], autotests/gendertest.cpp:178 *)
Example Test_GenderTest_shouldExportOnlyGenderWithoutCommentGender :
  create_text T1 E1 V40 true
  [let addr := addressee_new (B "uid") in
   let addr := set_emails [(B "foo@kde.org")] addr in
   let addr := set_uid (B "testuid") addr in
   let gender := gender_new in
   let gender := mkGender (B "H") (ge_comment gender) in
   let addr := set_gender gender addr in addr] =
  (crlf ["BEGIN:VCARD";
    "VERSION:4.0";
    "EMAIL:foo@kde.org";
    "GENDER:H";
    "N:;;;;";
    "UID:testuid";
    "END:VCARD";
    ""]).
Proof. vm_compute. reflexivity. Qed.

(** [GenderTest::shouldExportOnlyGenderWithCommentGender], autotests/gendertest.cpp:194 *)
Example Test_GenderTest_shouldExportOnlyGenderWithCommentGender :
  create_text T1 E1 V40 true
  [let addr := addressee_new (B "uid") in
   let addr := set_emails [(B "foo@kde.org")] addr in
   let addr := set_uid (B "testuid") addr in
   let gender := gender_new in
   let gender := mkGender (B "H") (ge_comment gender) in
   let gender := mkGender (ge_gender gender) (B "comment") in
   let addr := set_gender gender addr in addr] =
  (crlf ["BEGIN:VCARD";
    "VERSION:4.0";
    "EMAIL:foo@kde.org";
    "GENDER:H;comment";
    "N:;;;;";
    "UID:testuid";
    "END:VCARD";
    ""]).
Proof. vm_compute. reflexivity. Qed.

(** [GenderTest::shouldExportOnlyGenderWithoutTypeCommentGender], autotests/gendertest.cpp:211 *)
Example Test_GenderTest_shouldExportOnlyGenderWithoutTypeCommentGender :
  create_text T1 E1 V40 true
  [let addr := addressee_new (B "uid") in
   let addr := set_emails [(B "foo@kde.org")] addr in
   let addr := set_uid (B "testuid") addr in
   let gender := gender_new in
   let gender := mkGender (ge_gender gender) (B "comment") in
   let addr := set_gender gender addr in addr] =
  (crlf ["BEGIN:VCARD";
    "VERSION:4.0";
    "EMAIL:foo@kde.org";
    "GENDER:;comment";
    "N:;;;;";
    "UID:testuid";
    "END:VCARD";
    ""]).
Proof. vm_compute. reflexivity. Qed.

(** [GenderTest::shouldNotExportInVcard3], autotests/gendertest.cpp:227 *)
Example Test_GenderTest_shouldNotExportInVcard3 :
  create_text T1 E1 V30 true
  [let addr := addressee_new (B "uid") in
   let addr := set_emails [(B "foo@kde.org")] addr in
   let addr := set_uid (B "testuid") addr in
   let gender := gender_new in
   let gender := mkGender (ge_gender gender) (B "comment") in
   let addr := set_gender gender addr in addr] =
  (crlf ["BEGIN:VCARD";
    "VERSION:3.0";
    "EMAIL:foo@kde.org";
    "N:;;;;";
    "UID:testuid";
    "END:VCARD";
    ""]).
Proof. vm_compute. reflexivity. Qed.

(** [GeoTest::shouldGenerateVCard3], autotests/geotest.cpp:127 *)
Example Test_GeoTest_shouldGenerateVCard3 :
  create_text T1 E1 V30 true
  [let addr := addressee_new (B "uid") in
   let addr := set_emails [(B "foo@kde.org")] addr in
   let addr := set_uid (B "testuid") addr in
   let geo := geo_new in
   let geo := geo_set_lon (Fin (w_single (w_number (B "180.0")))) geo in
   let geo := geo_set_lat (Fin (w_single (w_number (B "22.5")))) geo in
   let addr := set_geo geo addr in addr] =
  (crlf ["BEGIN:VCARD";
    "VERSION:3.0";
    "EMAIL:foo@kde.org";
    "GEO:22.500000;180.000000";
    "N:;;;;";
    "UID:testuid";
    "END:VCARD";
    ""]).
Proof. vm_compute. reflexivity. Qed.

(** [GeoTest::shouldGenerateVCard4], autotests/geotest.cpp:153 *)
Example Test_GeoTest_shouldGenerateVCard4 :
  create_text T1 E1 V40 true
  [let addr := addressee_new (B "uid") in
   let addr := set_emails [(B "foo@kde.org")] addr in
   let addr := set_uid (B "testuid") addr in
   let geo := geo_new in
   let geo := geo_set_lon (Fin (w_single (w_number (B "180.0")))) geo in
   let geo := geo_set_lat (Fin (w_single (w_number (B "22.5")))) geo in
   let addr := set_geo geo addr in addr] =
  (crlf ["BEGIN:VCARD";
    "VERSION:4.0";
    "EMAIL:foo@kde.org";
    "GEO:geo:22.500000,180.000000";
    "N:;;;;";
    "UID:testuid";
    "END:VCARD";
    ""]).
Proof. vm_compute. reflexivity. Qed.

(** [GeoTest::shouldGenerateWithoutGeo], autotests/geotest.cpp:179 *)
Example Test_GeoTest_shouldGenerateWithoutGeo :
  create_text T1 E1 V40 true
  [let addr := addressee_new (B "uid") in
   let addr := set_emails [(B "foo@kde.org")] addr in
   let addr := set_uid (B "testuid") addr in addr] =
  (crlf ["BEGIN:VCARD";
    "VERSION:4.0";
    "EMAIL:foo@kde.org";
    "N:;;;;";
    "UID:testuid";
    "END:VCARD";
    ""]).
Proof. vm_compute. reflexivity. Qed.

(** [ImppTest::shouldExportEmptyType], autotests/impptest.cpp:213 *)
Example Test_ImppTest_shouldExportEmptyType :
  create_text T1 E1 V40 true
  [let addr := addressee_new (B "uid") in
   let addr := set_emails [(B "foo@kde.org")] addr in
   let addr := set_uid (B "testuid") addr in addr] =
  (crlf ["BEGIN:VCARD";
    "VERSION:4.0";
    "EMAIL:foo@kde.org";
    "N:;;;;";
    "UID:testuid";
    "END:VCARD";
    ""]).
Proof. vm_compute. reflexivity. Qed.

(** [ImppTest::shouldExportWithParameters], autotests/impptest.cpp:258 *)
Example Test_ImppTest_shouldExportWithParameters :
  create_text T1 E1 V40 true
  [let addr := addressee_new (B "uid") in
   let addr := set_emails [(B "foo@kde.org")] addr in
   let addr := set_uid (B "testuid") addr in
   let params := ([] : pmap) in
   let params := params ++ [((B "Foo1"), [(B "bla1"); (B "blo1")])] in
   let params := params ++ [((B "Foo2"), [(B "bla2"); (B "blo2")])] in
   let impp := mkImpp [] [] in
   let impp := mkImpp (im_params impp) (B "skype:address") in
   let impp := mkImpp params (im_address impp) in
   let impp := impp_set_preferred false impp in
   let addr := insert_impp Env1 impp addr in addr] =
  (crlf ["BEGIN:VCARD";
    "VERSION:4.0";
    "EMAIL:foo@kde.org";
    "IMPP;FOO1=bla1,blo1;FOO2=bla2,blo2:skype:address";
    "N:;;;;";
    "UID:testuid";
    "END:VCARD";
    ""]).
Proof. vm_compute. reflexivity. Qed.

(** [ImppTest::shouldShouldNotExportTwiceServiceType], autotests/impptest.cpp:287 *)
Example Test_ImppTest_shouldShouldNotExportTwiceServiceType :
  create_text T1 E1 V40 true
  [let addr := addressee_new (B "uid") in
   let addr := set_emails [(B "foo@kde.org")] addr in
   let addr := set_uid (B "testuid") addr in
   let params := ([] : pmap) in
   let params := params ++ [((B "Foo1"), [(B "bla1"); (B "blo1")])] in
   let params := params ++ [((B "Foo2"), [(B "bla2"); (B "blo2")])] in
   let params := params ++ [((B "X-SERVICE-TYPE"), [(B "aim")])] in
   let impp := mkImpp [] [] in
   let impp := mkImpp (im_params impp) (B "skype:address") in
   let impp := mkImpp params (im_address impp) in
   let impp := impp_set_preferred true impp in
   let addr := insert_impp Env1 impp addr in addr] =
  (crlf ["BEGIN:VCARD";
    "VERSION:4.0";
    "EMAIL:foo@kde.org";
    "IMPP;FOO1=bla1,blo1;FOO2=bla2,blo2;PREF=1:skype:address";
    "N:;;;;";
    "UID:testuid";
    "END:VCARD";
    ""]).
Proof. vm_compute. reflexivity. Qed.

(** [KeyTest::shouldExportVCard3], autotests/keytest.cpp:93 *)
Example Test_KeyTest_shouldExportVCard3 :
  create_text T1 E1 V30 true
  [let addr := addressee_new (B "uid") in
   let addr := set_emails [(B "foo@kde.org")] addr in
   let addr := set_uid (B "testuid") addr in
   let key1 := key_of (B "id") (B "https://foo.org/sherlock-holmes.pub.asc") KPGP in
   let addr := set_keys [key1] addr in addr] =
  (crlf ["BEGIN:VCARD";
    "VERSION:3.0";
    "EMAIL:foo@kde.org";
    "KEY;TYPE=PGP:https://foo.org/sherlock-holmes.pub.asc";
    "N:;;;;";
    "UID:testuid";
    "END:VCARD";
    ""]).
Proof. vm_compute. reflexivity. Qed.

(** [KeyTest::shouldExportVCard4], autotests/keytest.cpp:116 *)
Example Test_KeyTest_shouldExportVCard4 :
  create_text T1 E1 V40 true
  [let addr := addressee_new (B "uid") in
   let addr := set_emails [(B "foo@kde.org")] addr in
   let addr := set_uid (B "testuid") addr in
   let key1 := key_of (B "id") (B "https://foo.org/sherlock-holmes.pub.asc") KPGP in
   let addr := set_keys [key1] addr in addr] =
  (crlf ["BEGIN:VCARD";
    "VERSION:4.0";
    "EMAIL:foo@kde.org";
    "KEY;MEDIATYPE=application/pgp-keys:https://foo.org/sherlock-holmes.pub.asc";
    "N:;;;;";
    "UID:testuid";
    "END:VCARD";
    ""]).
Proof. vm_compute. reflexivity. Qed.

(** [LangTest::shouldCreateVCard], autotests/langtest.cpp:127 *)
Example Test_LangTest_shouldCreateVCard :
  create_text T1 E1 V40 true
  [let addr := addressee_new (B "uid") in
   let addr := set_emails [(B "foo@kde.org")] addr in
   let addr := set_uid (B "testuid") addr in
   let lstLang := [] in
   let lang := ptext_of (B "fr") in
   let lstLang := lstLang ++ [lang] in
   let addr := set_langs lstLang addr in addr] =
  (crlf ["BEGIN:VCARD";
    "VERSION:4.0";
    "EMAIL:foo@kde.org";
    "LANG:fr";
    "N:;;;;";
    "UID:testuid";
    "END:VCARD";
    ""]).
Proof. vm_compute. reflexivity. Qed.

(** [LangTest::shouldCreateVCardWithTwoLang], autotests/langtest.cpp:152 *)
Example Test_LangTest_shouldCreateVCardWithTwoLang :
  create_text T1 E1 V40 true
  [let addr := addressee_new (B "uid") in
   let addr := set_emails [(B "foo@kde.org")] addr in
   let addr := set_uid (B "testuid") addr in
   let lstLang := [] in
   let lang := ptext_of (B "fr") in
   let lang2 := ptext_of (B "fr2") in
   let lstLang := lstLang ++ [lang; lang2] in
   let addr := set_langs lstLang addr in addr] =
  (crlf ["BEGIN:VCARD";
    "VERSION:4.0";
    "EMAIL:foo@kde.org";
    "LANG:fr";
    "LANG:fr2";
    "N:;;;;";
    "UID:testuid";
    "END:VCARD";
    ""]).
Proof. vm_compute. reflexivity. Qed.

(** [LangTest::shouldCreateVCardWithParameters], autotests/langtest.cpp:179 *)
Example Test_LangTest_shouldCreateVCardWithParameters :
  create_text T1 E1 V40 true
  [let addr := addressee_new (B "uid") in
   let addr := set_emails [(B "foo@kde.org")] addr in
   let addr := set_uid (B "testuid") addr in
   let lstLang := [] in
   let lang := ptext_of (B "fr") in
   let params := ([] : pmap) in
   let params := params ++ [((B "Foo1"), [(B "bla1"); (B "blo1")])] in
   let params := params ++ [((B "Foo2"), [(B "bla2"); (B "blo2")])] in
   let lang := mkPtext params (pt_text lang) in
   let lstLang := lstLang ++ [lang] in
   let addr := set_langs lstLang addr in addr] =
  (crlf ["BEGIN:VCARD";
    "VERSION:4.0";
    "EMAIL:foo@kde.org";
    "LANG;FOO1=bla1,blo1;FOO2=bla2,blo2:fr";
    "N:;;;;";
    "UID:testuid";
    "END:VCARD";
    ""]).
Proof. vm_compute. reflexivity. Qed.

(** [LangTest::shouldNotGenerateLangForVCard3], autotests/langtest.cpp:207 *)
Example Test_LangTest_shouldNotGenerateLangForVCard3 :
  create_text T1 E1 V30 true
  [let addr := addressee_new (B "uid") in
   let addr := set_emails [(B "foo@kde.org")] addr in
   let addr := set_uid (B "testuid") addr in
   let lstLang := [] in
   let lang := ptext_of (B "fr") in
   let params := ([] : pmap) in
   let params := params ++ [((B "Foo1"), [(B "bla1"); (B "blo1")])] in
   let params := params ++ [((B "Foo2"), [(B "bla2"); (B "blo2")])] in
   let lang := mkPtext params (pt_text lang) in
   let lstLang := lstLang ++ [lang] in
   let addr := set_langs lstLang addr in addr] =
  (crlf ["BEGIN:VCARD";
    "VERSION:3.0";
    "EMAIL:foo@kde.org";
    "N:;;;;";
    "UID:testuid";
    "END:VCARD";
    ""]).
Proof. vm_compute. reflexivity. Qed.

(** [NickNameTest::shouldCreateVCard], autotests/nicknametest.cpp:129 *)
Example Test_NickNameTest_shouldCreateVCard :
  create_text T1 E1 V40 true
  [let addr := addressee_new (B "uid") in
   let addr := set_emails [(B "foo@kde.org")] addr in
   let addr := set_uid (B "testuid") addr in
   let lstNickName := [] in
   let title := ptext_of (B "blo") in
   let lstNickName := lstNickName ++ [title] in
   let addr := set_nicks lstNickName addr in addr] =
  (crlf ["BEGIN:VCARD";
    "VERSION:4.0";
    "EMAIL:foo@kde.org";
    "N:;;;;";
    "NICKNAME:blo";
    "UID:testuid";
    "END:VCARD";
    ""]).
Proof. vm_compute. reflexivity. Qed.

(** [NickNameTest::shouldCreateVCardWithTwoNickName], autotests/nicknametest.cpp:154 *)
Example Test_NickNameTest_shouldCreateVCardWithTwoNickName :
  create_text T1 E1 V40 true
  [let addr := addressee_new (B "uid") in
   let addr := set_emails [(B "foo@kde.org")] addr in
   let addr := set_uid (B "testuid") addr in
   let lstNickName := [] in
   let title := ptext_of (B "fr") in
   let title2 := ptext_of (B "fr2") in
   let lstNickName := lstNickName ++ [title; title2] in
   let addr := set_nicks lstNickName addr in addr] =
  (crlf ["BEGIN:VCARD";
    "VERSION:4.0";
    "EMAIL:foo@kde.org";
    "N:;;;;";
    "NICKNAME:fr";
    "NICKNAME:fr2";
    "UID:testuid";
    "END:VCARD";
    ""]).
Proof. vm_compute. reflexivity. Qed.

(** [NickNameTest::shouldCreateVCardWithParameters], autotests/nicknametest.cpp:181 *)
Example Test_NickNameTest_shouldCreateVCardWithParameters :
  create_text T1 E1 V40 true
  [let addr := addressee_new (B "uid") in
   let addr := set_emails [(B "foo@kde.org")] addr in
   let addr := set_uid (B "testuid") addr in
   let lstNickName := [] in
   let title := ptext_of (B "fr") in
   let params := ([] : pmap) in
   let params := params ++ [((B "Foo1"), [(B "bla1"); (B "blo1")])] in
   let params := params ++ [((B "Foo2"), [(B "bla2"); (B "blo2")])] in
   let title := mkPtext params (pt_text title) in
   let lstNickName := lstNickName ++ [title] in
   let addr := set_nicks lstNickName addr in addr] =
  (crlf ["BEGIN:VCARD";
    "VERSION:4.0";
    "EMAIL:foo@kde.org";
    "N:;;;;";
    "NICKNAME;FOO1=bla1,blo1;FOO2=bla2,blo2:fr";
    "UID:testuid";
    "END:VCARD";
    ""]).
Proof. vm_compute. reflexivity. Qed.

(** [NickNameTest::shouldGenerateNickNameForVCard3], autotests/nicknametest.cpp:209 *)
Example Test_NickNameTest_shouldGenerateNickNameForVCard3 :
  create_text T1 E1 V30 true
  [let addr := addressee_new (B "uid") in
   let addr := set_emails [(B "foo@kde.org")] addr in
   let addr := set_uid (B "testuid") addr in
   let lstNickName := [] in
   let title := ptext_of (B "fr") in
   let params := ([] : pmap) in
   let params := params ++ [((B "Foo1"), [(B "bla1"); (B "blo1")])] in
   let params := params ++ [((B "Foo2"), [(B "bla2"); (B "blo2")])] in
   let title := mkPtext params (pt_text title) in
   let lstNickName := lstNickName ++ [title] in
   let addr := set_nicks lstNickName addr in addr] =
  (crlf ["BEGIN:VCARD";
    "VERSION:3.0";
    "EMAIL:foo@kde.org";
    "N:;;;;";
    "NICKNAME;FOO1=bla1,blo1;FOO2=bla2,blo2:fr";
    "UID:testuid";
    "END:VCARD";
    ""]).
Proof. vm_compute. reflexivity. Qed.

(** [OrgTest::shouldCreateVCardWithSemiColon], autotests/orgtest.cpp:132 *)
Example Test_OrgTest_shouldCreateVCardWithSemiColon :
  create_text T1 E1 V40 true
  [let addr := addressee_new (B "uid") in
   let addr := set_emails [(B "foo@kde.org")] addr in
   let addr := set_uid (B "testuid") addr in
   let lstOrg := [] in
   let org := ptext_of (B "fr;bla") in
   let lstOrg := lstOrg ++ [org] in
   let addr := set_orgs lstOrg addr in addr] =
  (crlf ["BEGIN:VCARD";
    "VERSION:4.0";
    "EMAIL:foo@kde.org";
    "N:;;;;";
    "ORG:fr\\;bla";
    "UID:testuid";
    "END:VCARD";
    ""]).
Proof. vm_compute. reflexivity. Qed.

(** [OrgTest::shouldCreateVCard], autotests/orgtest.cpp:174 *)
Example Test_OrgTest_shouldCreateVCard :
  create_text T1 E1 V40 true
  [let addr := addressee_new (B "uid") in
   let addr := set_emails [(B "foo@kde.org")] addr in
   let addr := set_uid (B "testuid") addr in
   let lstOrg := [] in
   let org := ptext_of (B "fr") in
   let lstOrg := lstOrg ++ [org] in
   let addr := set_orgs lstOrg addr in addr] =
  (crlf ["BEGIN:VCARD";
    "VERSION:4.0";
    "EMAIL:foo@kde.org";
    "N:;;;;";
    "ORG:fr";
    "UID:testuid";
    "END:VCARD";
    ""]).
Proof. vm_compute. reflexivity. Qed.

(** [OrgTest::shouldCreateVCardWithTwoOrg], autotests/orgtest.cpp:199 *)
Example Test_OrgTest_shouldCreateVCardWithTwoOrg :
  create_text T1 E1 V40 true
  [let addr := addressee_new (B "uid") in
   let addr := set_emails [(B "foo@kde.org")] addr in
   let addr := set_uid (B "testuid") addr in
   let lstOrg := [] in
   let org := ptext_of (B "fr") in
   let org2 := ptext_of (B "fr2") in
   let lstOrg := lstOrg ++ [org; org2] in
   let addr := set_orgs lstOrg addr in addr] =
  (crlf ["BEGIN:VCARD";
    "VERSION:4.0";
    "EMAIL:foo@kde.org";
    "N:;;;;";
    "ORG:fr";
    "ORG:fr2";
    "UID:testuid";
    "END:VCARD";
    ""]).
Proof. vm_compute. reflexivity. Qed.

(** [OrgTest::shouldCreateVCardWithParameters], autotests/orgtest.cpp:226 *)
Example Test_OrgTest_shouldCreateVCardWithParameters :
  create_text T1 E1 V40 true
  [let addr := addressee_new (B "uid") in
   let addr := set_emails [(B "foo@kde.org")] addr in
   let addr := set_uid (B "testuid") addr in
   let lstOrg := [] in
   let org := ptext_of (B "fr") in
   let params := ([] : pmap) in
   let params := params ++ [((B "Foo1"), [(B "bla1"); (B "blo1")])] in
   let params := params ++ [((B "Foo2"), [(B "bla2"); (B "blo2")])] in
   let org := mkPtext params (pt_text org) in
   let lstOrg := lstOrg ++ [org] in
   let addr := set_orgs lstOrg addr in addr] =
  (crlf ["BEGIN:VCARD";
    "VERSION:4.0";
    "EMAIL:foo@kde.org";
    "N:;;;;";
    "ORG;FOO1=bla1,blo1;FOO2=bla2,blo2:fr";
    "UID:testuid";
    "END:VCARD";
    ""]).
Proof. vm_compute. reflexivity. Qed.

(** [OrgTest::shouldGenerateOrgForVCard3], autotests/orgtest.cpp:254 *)
Example Test_OrgTest_shouldGenerateOrgForVCard3 :
  create_text T1 E1 V30 true
  [let addr := addressee_new (B "uid") in
   let addr := set_emails [(B "foo@kde.org")] addr in
   let addr := set_uid (B "testuid") addr in
   let lstOrg := [] in
   let org := ptext_of (B "fr") in
   let params := ([] : pmap) in
   let params := params ++ [((B "Foo1"), [(B "bla1"); (B "blo1")])] in
   let params := params ++ [((B "Foo2"), [(B "bla2"); (B "blo2")])] in
   let org := mkPtext params (pt_text org) in
   let lstOrg := lstOrg ++ [org] in
   let addr := set_orgs lstOrg addr in addr] =
  (crlf ["BEGIN:VCARD";
    "VERSION:3.0";
    "EMAIL:foo@kde.org";
    "N:;;;;";
    "ORG;FOO1=bla1,blo1;FOO2=bla2,blo2:fr";
    "UID:testuid";
    "END:VCARD";
    ""]).
Proof. vm_compute. reflexivity. Qed.

(** [PhoneNumberTest::shouldExportVCard21], autotests/phonenumbertest.cpp:199 *)
Example Test_PhoneNumberTest_shouldExportVCard21 :
  create_text T1 E1 V21 true
  [let addr := addressee_new (B "uid") in
   let addr := set_emails [(B "foo@kde.org")] addr in
   let addr := set_uid (B "testuid") addr in
   let number1 := phone_of (B "id") [] 0 in
   let number1 := ph_set_id (B "My Id") number1 in
   let number1 := ph_set_type (N.lor tWork tCell) number1 in
   let number1 := ph_set_number (B "+1-919-676-9564") number1 in
   let addr := set_phones [number1] addr in addr] =
  (crlf ["BEGIN:VCARD";
    "VERSION:2.1";
    "EMAIL:foo@kde.org";
    "N:;;;;";
    "TEL;CELL;WORK:+1-919-676-9564";
    "UID:testuid";
    "END:VCARD";
    ""]).
Proof. vm_compute. reflexivity. Qed.

(** [PhoneNumberTest::shouldExportVCard3], autotests/phonenumbertest.cpp:227 *)
Example Test_PhoneNumberTest_shouldExportVCard3 :
  create_text T1 E1 V30 true
  [let addr := addressee_new (B "uid") in
   let addr := set_emails [(B "foo@kde.org")] addr in
   let addr := set_uid (B "testuid") addr in
   let number1 := phone_of (B "id") [] 0 in
   let number1 := ph_set_id (B "My Id") number1 in
   let number1 := ph_set_type (N.lor tWork tCell) number1 in
   let number1 := ph_set_number (B "+1-919-676-9564") number1 in
   let addr := set_phones [number1] addr in addr] =
  (crlf ["BEGIN:VCARD";
    "VERSION:3.0";
    "EMAIL:foo@kde.org";
    "N:;;;;";
    "TEL;TYPE=CELL,WORK:+1-919-676-9564";
    "UID:testuid";
    "END:VCARD";
    ""]).
Proof. vm_compute. reflexivity. Qed.

(** [PhoneNumberTest::shouldExportVCard4], autotests/phonenumbertest.cpp:255 *)
Example Test_PhoneNumberTest_shouldExportVCard4 :
  create_text T1 E1 V40 true
  [let addr := addressee_new (B "uid") in
   let addr := set_emails [(B "foo@kde.org")] addr in
   let addr := set_uid (B "testuid") addr in
   let number1 := phone_of (B "id") [] 0 in
   let number1 := ph_set_id (B "My Id") number1 in
   let number1 := ph_set_type (N.lor tWork tCell) number1 in
   let number1 := ph_set_number (B "+1-919-676-9564") number1 in
   let addr := set_phones [number1] addr in addr] =
  (crlf ["BEGIN:VCARD";
    "VERSION:4.0";
    "EMAIL:foo@kde.org";
    "N:;;;;";
    "TEL;TYPE=""cell,work"":+1-919-676-9564";
    "UID:testuid";
    "END:VCARD";
    ""]).
Proof. vm_compute. reflexivity. Qed.

(** [RelatedTest::shouldCreateVCard4], autotests/relatedtest.cpp:151 *)
Example Test_RelatedTest_shouldCreateVCard4 :
  create_text T1 E1 V40 true
  [let addr := addressee_new (B "uid") in
   let addr := set_emails [(B "foo@kde.org")] addr in
   let addr := set_uid (B "testuid") addr in
   let lstRelated := [] in
   let related := ptext_of (B "friend") in
   let lstRelated := lstRelated ++ [related] in
   let addr := set_relateds lstRelated addr in addr] =
  (crlf ["BEGIN:VCARD";
    "VERSION:4.0";
    "EMAIL:foo@kde.org";
    "N:;;;;";
    "RELATED:friend";
    "UID:testuid";
    "END:VCARD";
    ""]).
Proof. vm_compute. reflexivity. Qed.

(** [RelatedTest::shouldCreateVCardWithTwoRelated], autotests/relatedtest.cpp:176 *)
Example Test_RelatedTest_shouldCreateVCardWithTwoRelated :
  create_text T1 E1 V40 true
  [let addr := addressee_new (B "uid") in
   let addr := set_emails [(B "foo@kde.org")] addr in
   let addr := set_uid (B "testuid") addr in
   let lstRelated := [] in
   let related := ptext_of (B "friend") in
   let related2 := ptext_of (B "kde") in
   let lstRelated := lstRelated ++ [related; related2] in
   let addr := set_relateds lstRelated addr in addr] =
  (crlf ["BEGIN:VCARD";
    "VERSION:4.0";
    "EMAIL:foo@kde.org";
    "N:;;;;";
    "RELATED:friend";
    "RELATED:kde";
    "UID:testuid";
    "END:VCARD";
    ""]).
Proof. vm_compute. reflexivity. Qed.

(** [RelatedTest::shouldCreateVCardWithParameters], autotests/relatedtest.cpp:203 *)
Example Test_RelatedTest_shouldCreateVCardWithParameters :
  create_text T1 E1 V40 true
  [let addr := addressee_new (B "uid") in
   let addr := set_emails [(B "foo@kde.org")] addr in
   let addr := set_uid (B "testuid") addr in
   let lstRelated := [] in
   let related := ptext_of (B "friend") in
   let params := ([] : pmap) in
   let params := params ++ [((B "Foo1"), [(B "bla1"); (B "blo1")])] in
   let params := params ++ [((B "Foo2"), [(B "bla2"); (B "blo2")])] in
   let related := mkPtext params (pt_text related) in
   let lstRelated := lstRelated ++ [related] in
   let addr := set_relateds lstRelated addr in addr] =
  (crlf ["BEGIN:VCARD";
    "VERSION:4.0";
    "EMAIL:foo@kde.org";
    "N:;;;;";
    "RELATED;FOO1=bla1,blo1;FOO2=bla2,blo2:friend";
    "UID:testuid";
    "END:VCARD";
    ""]).
Proof. vm_compute. reflexivity. Qed.

(** [RelatedTest::shouldNotExportInVcard3], autotests/relatedtest.cpp:231 *)
Example Test_RelatedTest_shouldNotExportInVcard3 :
  create_text T1 E1 V30 true
  [let addr := addressee_new (B "uid") in
   let addr := set_emails [(B "foo@kde.org")] addr in
   let addr := set_uid (B "testuid") addr in
   let lstRelated := [] in
   let related := ptext_of (B "friend") in
   let params := ([] : pmap) in
   let params := params ++ [((B "Foo1"), [(B "bla1"); (B "blo1")])] in
   let params := params ++ [((B "Foo2"), [(B "bla2"); (B "blo2")])] in
   let related := mkPtext params (pt_text related) in
   let lstRelated := lstRelated ++ [related] in
   let addr := set_relateds lstRelated addr in addr] =
  (crlf ["BEGIN:VCARD";
    "VERSION:3.0";
    "EMAIL:foo@kde.org";
    "N:;;;;";
    "RELATED;FOO1=bla1,blo1;FOO2=bla2,blo2:friend";
    "UID:testuid";
    "END:VCARD";
    ""]).
Proof. vm_compute. reflexivity. Qed.

(** [ResourceLocatorUrlTest::shouldGenerateVCard4], autotests/resourcelocatorurltest.cpp:118 *)
Example Test_ResourceLocatorUrlTest_shouldGenerateVCard4 :
  create_text T1 E1 V40 true
  [let addr := addressee_new (B "uid") in
   let addr := set_emails [(B "foo@kde.org")] addr in
   let addr := set_uid (B "testuid") addr in
   let webpage := mkRurl [] [] in
   let webpage := mkRurl (ru_params webpage) (B "https://www.kde.org") in
   let addr := insert_url Env1 webpage addr in
   let url := mkRurl [] [] in
   let url := mkRurl (ru_params url) (B "https://sherlockholmes.com/calendar/sherlockholmes") in
   let addr := insert_url Env1 url addr in
   let url := mkRurl (ru_params url) (B "https://foo.kde.org") in
   let addr := insert_url Env1 url addr in addr] =
  (crlf ["BEGIN:VCARD";
    "VERSION:4.0";
    "EMAIL:foo@kde.org";
    "N:;;;;";
    "UID:testuid";
    "URL:https://www.kde.org";
    "URL:https://sherlockholmes.com/calendar/sherlockholmes";
    "URL:https://foo.kde.org";
    "END:VCARD";
    ""]).
Proof. vm_compute. reflexivity. Qed.

(** [ResourceLocatorUrlTest::shouldGenerateVCardWithParameter], autotests/resourcelocatorurltest.cpp:150 *)
Example Test_ResourceLocatorUrlTest_shouldGenerateVCardWithParameter :
  create_text T1 E1 V40 true
  [let addr := addressee_new (B "uid") in
   let addr := set_emails [(B "foo@kde.org")] addr in
   let addr := set_uid (B "testuid") addr in
   let webpage := mkRurl [] [] in
   let webpage := mkRurl (ru_params webpage) (B "https://www.kde.org") in
   let addr := insert_url Env1 webpage addr in
   let url := mkRurl [] [] in
   let url := mkRurl (ru_params url) (B "https://sherlockholmes.com/calendar/sherlockholmes") in
   let params := ([] : pmap) in
   let params := params ++ [((B "Foo2"), [(B "bla2"); (B "blo2")])] in
   let url := mkRurl params (ru_url url) in
   let addr := insert_url Env1 url addr in
   let url := mkRurl (ru_params url) (B "https://foo.kde.org") in
   let params2 := ([] : pmap) in
   let url := mkRurl params2 (ru_url url) in
   let addr := insert_url Env1 url addr in addr] =
  (crlf ["BEGIN:VCARD";
    "VERSION:4.0";
    "EMAIL:foo@kde.org";
    "N:;;;;";
    "UID:testuid";
    "URL:https://www.kde.org";
    "URL;FOO2=bla2,blo2:https://sherlockholmes.com/calendar/sherlockholmes";
    "URL:https://foo.kde.org";
    "END:VCARD";
    ""]).
Proof. vm_compute. reflexivity. Qed.

(** [ResourceLocatorUrlTest::shouldGenerateVCard3], autotests/resourcelocatorurltest.cpp:187 *)
Example Test_ResourceLocatorUrlTest_shouldGenerateVCard3 :
  create_text T1 E1 V30 true
  [let addr := addressee_new (B "uid") in
   let addr := set_emails [(B "foo@kde.org")] addr in
   let addr := set_uid (B "testuid") addr in
   let webpage := mkRurl [] [] in
   let webpage := mkRurl (ru_params webpage) (B "https://www.kde.org") in
   let addr := insert_url Env1 webpage addr in
   let url := mkRurl [] [] in
   let url := mkRurl (ru_params url) (B "https://sherlockholmes.com/calendar/sherlockholmes") in
   let params := ([] : pmap) in
   let params := params ++ [((B "Foo2"), [(B "bla2"); (B "blo2")])] in
   let url := mkRurl params (ru_url url) in
   let addr := insert_url Env1 url addr in
   let url := mkRurl (ru_params url) (B "https://foo.kde.org") in
   let params2 := ([] : pmap) in
   let url := mkRurl params2 (ru_url url) in
   let url := rurl_set_type 2%N url in
   let url := rurl_set_preferred true url in
   let addr := insert_url Env1 url addr in addr] =
  (crlf ["BEGIN:VCARD";
    "VERSION:3.0";
    "EMAIL:foo@kde.org";
    "N:;;;;";
    "UID:testuid";
    "URL:https://www.kde.org";
    "URL;FOO2=bla2,blo2:https://sherlockholmes.com/calendar/sherlockholmes";
    "URL;TYPE=WORK,PREF:https://foo.kde.org";
    "END:VCARD";
    ""]).
Proof. vm_compute. reflexivity. Qed.

(** [RoleTest::shouldCreateVCard], autotests/roletest.cpp:129 *)
Example Test_RoleTest_shouldCreateVCard :
  create_text T1 E1 V40 true
  [let addr := addressee_new (B "uid") in
   let addr := set_emails [(B "foo@kde.org")] addr in
   let addr := set_uid (B "testuid") addr in
   let lstRole := [] in
   let role := ptext_of (B "fr") in
   let lstRole := lstRole ++ [role] in
   let addr := set_roles lstRole addr in addr] =
  (crlf ["BEGIN:VCARD";
    "VERSION:4.0";
    "EMAIL:foo@kde.org";
    "N:;;;;";
    "ROLE:fr";
    "UID:testuid";
    "END:VCARD";
    ""]).
Proof. vm_compute. reflexivity. Qed.

(** [RoleTest::shouldCreateVCardWithTwoRole], autotests/roletest.cpp:154 *)
Example Test_RoleTest_shouldCreateVCardWithTwoRole :
  create_text T1 E1 V40 true
  [let addr := addressee_new (B "uid") in
   let addr := set_emails [(B "foo@kde.org")] addr in
   let addr := set_uid (B "testuid") addr in
   let lstRole := [] in
   let role := ptext_of (B "fr") in
   let role2 := ptext_of (B "fr2") in
   let lstRole := lstRole ++ [role; role2] in
   let addr := set_roles lstRole addr in addr] =
  (crlf ["BEGIN:VCARD";
    "VERSION:4.0";
    "EMAIL:foo@kde.org";
    "N:;;;;";
    "ROLE:fr";
    "ROLE:fr2";
    "UID:testuid";
    "END:VCARD";
    ""]).
Proof. vm_compute. reflexivity. Qed.

(** [RoleTest::shouldCreateVCardWithParameters], autotests/roletest.cpp:181 *)
Example Test_RoleTest_shouldCreateVCardWithParameters :
  create_text T1 E1 V40 true
  [let addr := addressee_new (B "uid") in
   let addr := set_emails [(B "foo@kde.org")] addr in
   let addr := set_uid (B "testuid") addr in
   let lstRole := [] in
   let role := ptext_of (B "fr") in
   let params := ([] : pmap) in
   let params := params ++ [((B "Foo1"), [(B "bla1"); (B "blo1")])] in
   let params := params ++ [((B "Foo2"), [(B "bla2"); (B "blo2")])] in
   let role := mkPtext params (pt_text role) in
   let lstRole := lstRole ++ [role] in
   let addr := set_roles lstRole addr in addr] =
  (crlf ["BEGIN:VCARD";
    "VERSION:4.0";
    "EMAIL:foo@kde.org";
    "N:;;;;";
    "ROLE;FOO1=bla1,blo1;FOO2=bla2,blo2:fr";
    "UID:testuid";
    "END:VCARD";
    ""]).
Proof. vm_compute. reflexivity. Qed.

(** [RoleTest::shouldGenerateRoleForVCard3], autotests/roletest.cpp:209 *)
Example Test_RoleTest_shouldGenerateRoleForVCard3 :
  create_text T1 E1 V30 true
  [let addr := addressee_new (B "uid") in
   let addr := set_emails [(B "foo@kde.org")] addr in
   let addr := set_uid (B "testuid") addr in
   let lstRole := [] in
   let role := ptext_of (B "fr") in
   let params := ([] : pmap) in
   let params := params ++ [((B "Foo1"), [(B "bla1"); (B "blo1")])] in
   let params := params ++ [((B "Foo2"), [(B "bla2"); (B "blo2")])] in
   let role := mkPtext params (pt_text role) in
   let lstRole := lstRole ++ [role] in
   let addr := set_roles lstRole addr in addr] =
  (crlf ["BEGIN:VCARD";
    "VERSION:3.0";
    "EMAIL:foo@kde.org";
    "N:;;;;";
    "ROLE;FOO1=bla1,blo1;FOO2=bla2,blo2:fr";
    "UID:testuid";
    "END:VCARD";
    ""]).
Proof. vm_compute. reflexivity. Qed.

(** [SoundTest::shouldGenerateVCard3WithData], autotests/soundtest.cpp:212 *)
Example Test_SoundTest_shouldGenerateVCard3WithData :
  create_text T1 E1 V30 true
  [let addr := addressee_new (B "uid") in
   let addr := set_emails [(B "foo@kde.org")] addr in
   let addr := set_uid (B "testuid") addr in
   let sound1 := sound_new in
   let sound1 := so_set_url (B "http://myhomepage.com/sound.wav") sound1 in
   let sound1 := so_set_data (map N.of_nat (seq 0 20)) sound1 in
   let addr := set_sound sound1 addr in addr] =
  (crlf ["BEGIN:VCARD";
    "VERSION:3.0";
    "EMAIL:foo@kde.org";
    "N:;;;;";
    "SOUND;ENCODING=b:AAECAwQFBgcICQoLDA0ODxAREhM=";
    "UID:testuid";
    "END:VCARD";
    ""]).
Proof. vm_compute. reflexivity. Qed.

(** [SoundTest::shouldGenerateVCard3WithUrl], autotests/soundtest.cpp:240 *)
Example Test_SoundTest_shouldGenerateVCard3WithUrl :
  create_text T1 E1 V30 true
  [let addr := addressee_new (B "uid") in
   let addr := set_emails [(B "foo@kde.org")] addr in
   let addr := set_uid (B "testuid") addr in
   let sound1 := sound_new in
   let sound1 := so_set_url (B "http://myhomepage.com/sound.wav") sound1 in
   let addr := set_sound sound1 addr in addr] =
  (crlf ["BEGIN:VCARD";
    "VERSION:3.0";
    "EMAIL:foo@kde.org";
    "N:;;;;";
    "SOUND;VALUE=URI:http://myhomepage.com/sound.wav";
    "UID:testuid";
    "END:VCARD";
    ""]).
Proof. vm_compute. reflexivity. Qed.

(** [TimeZoneTest::shouldGenerateVCard3], autotests/timezonetest.cpp:79 *)
Example Test_TimeZoneTest_shouldGenerateVCard3 :
  create_text T1 E1 V30 true
  [let addr := addressee_new (B "uid") in
   let addr := set_emails [(B "foo@kde.org")] addr in
   let addr := set_uid (B "testuid") addr in
   let timezone := tz_new in
   let timezone := tz_set 2 in
   let addr := set_tz timezone addr in addr] =
  (crlf ["BEGIN:VCARD";
    "VERSION:3.0";
    "EMAIL:foo@kde.org";
    "N:;;;;";
    "TZ:+00:02";
    "UID:testuid";
    "END:VCARD";
    ""]).
Proof. vm_compute. reflexivity. Qed.

(** [TimeZoneTest::shouldGenerateVCard4], autotests/timezonetest.cpp:105 *)
Example Test_TimeZoneTest_shouldGenerateVCard4 :
  create_text T1 E1 V40 true
  [let addr := addressee_new (B "uid") in
   let addr := set_emails [(B "foo@kde.org")] addr in
   let addr := set_uid (B "testuid") addr in
   let timezone := tz_new in
   let timezone := tz_set 2 in
   let addr := set_tz timezone addr in addr] =
  (crlf ["BEGIN:VCARD";
    "VERSION:4.0";
    "EMAIL:foo@kde.org";
    "N:;;;;";
    "TZ:+00:02";
    "UID:testuid";
    "END:VCARD";
    ""]).
Proof. vm_compute. reflexivity. Qed.

(** [TitleTest::shouldCreateVCard], autotests/titletest.cpp:151 *)
Example Test_TitleTest_shouldCreateVCard :
  create_text T1 E1 V40 true
  [let addr := addressee_new (B "uid") in
   let addr := set_emails [(B "foo@kde.org")] addr in
   let addr := set_uid (B "testuid") addr in
   let lstTitle := [] in
   let title := ptext_of (B "fr") in
   let lstTitle := lstTitle ++ [title] in
   let addr := set_titles lstTitle addr in addr] =
  (crlf ["BEGIN:VCARD";
    "VERSION:4.0";
    "EMAIL:foo@kde.org";
    "N:;;;;";
    "TITLE:fr";
    "UID:testuid";
    "END:VCARD";
    ""]).
Proof. vm_compute. reflexivity. Qed.

(** [TitleTest::shouldCreateVCardWithTwoTitle], autotests/titletest.cpp:176 *)
Example Test_TitleTest_shouldCreateVCardWithTwoTitle :
  create_text T1 E1 V40 true
  [let addr := addressee_new (B "uid") in
   let addr := set_emails [(B "foo@kde.org")] addr in
   let addr := set_uid (B "testuid") addr in
   let lstTitle := [] in
   let title := ptext_of (B "fr") in
   let title2 := ptext_of (B "fr2") in
   let lstTitle := lstTitle ++ [title; title2] in
   let addr := set_titles lstTitle addr in addr] =
  (crlf ["BEGIN:VCARD";
    "VERSION:4.0";
    "EMAIL:foo@kde.org";
    "N:;;;;";
    "TITLE:fr";
    "TITLE:fr2";
    "UID:testuid";
    "END:VCARD";
    ""]).
Proof. vm_compute. reflexivity. Qed.

(** [TitleTest::shouldCreateVCardWithParameters], autotests/titletest.cpp:203 *)
Example Test_TitleTest_shouldCreateVCardWithParameters :
  create_text T1 E1 V40 true
  [let addr := addressee_new (B "uid") in
   let addr := set_emails [(B "foo@kde.org")] addr in
   let addr := set_uid (B "testuid") addr in
   let lstTitle := [] in
   let title := ptext_of (B "fr") in
   let params := ([] : pmap) in
   let params := params ++ [((B "Foo1"), [(B "bla1"); (B "blo1")])] in
   let params := params ++ [((B "Foo2"), [(B "bla2"); (B "blo2")])] in
   let title := mkPtext params (pt_text title) in
   let lstTitle := lstTitle ++ [title] in
   let addr := set_titles lstTitle addr in addr] =
  (crlf ["BEGIN:VCARD";
    "VERSION:4.0";
    "EMAIL:foo@kde.org";
    "N:;;;;";
    "TITLE;FOO1=bla1,blo1;FOO2=bla2,blo2:fr";
    "UID:testuid";
    "END:VCARD";
    ""]).
Proof. vm_compute. reflexivity. Qed.

(** [TitleTest::shouldGenerateTitleForVCard3], autotests/titletest.cpp:231 *)
Example Test_TitleTest_shouldGenerateTitleForVCard3 :
  create_text T1 E1 V30 true
  [let addr := addressee_new (B "uid") in
   let addr := set_emails [(B "foo@kde.org")] addr in
   let addr := set_uid (B "testuid") addr in
   let lstTitle := [] in
   let title := ptext_of (B "fr") in
   let params := ([] : pmap) in
   let params := params ++ [((B "Foo1"), [(B "bla1"); (B "blo1")])] in
   let params := params ++ [((B "Foo2"), [(B "bla2"); (B "blo2")])] in
   let title := mkPtext params (pt_text title) in
   let lstTitle := lstTitle ++ [title] in
   let addr := set_titles lstTitle addr in addr] =
  (crlf ["BEGIN:VCARD";
    "VERSION:3.0";
    "EMAIL:foo@kde.org";
    "N:;;;;";
    "TITLE;FOO1=bla1,blo1;FOO2=bla2,blo2:fr";
    "UID:testuid";
    "END:VCARD";
    ""]).
Proof. vm_compute. reflexivity. Qed.
