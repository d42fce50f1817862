(** autotests/ldifconvertertest.cpp on the model.  Tests of the model, not
    proofs of the claims (see Cases_Files). *)
From Verif Require Import Base BaseFacts QtText Utf8 M_Values M_Date M_Addressee M_ContactGroup
  M_Ldif Cases_World.
From Coq Require Import String ZArith.
Open Scope string_scope.
Open Scope list_scope.

Definition L1 : LdifExt := {|
  le_env := Env1; le_display := fun u => u; le_country := fun s => s; le_signed := true;
  le_now := mk_dt (mk_date 2020 1 1) (mk_time 0 0 0 0) TUtc;
  le_newid := fun i => B "id" ++ w_decimal 5 (N.of_nat i) |}.
(** [LDIFToAddressee(str, lst, contactGroup)], then what the test looks at *)
Definition import_with {A} (f : list addressee -> list cgroup -> A) (s : ustring) : option A :=
  match ldif_to_addressee L1 s dt_null [] [] with Some (cs, gs) => Some (f cs gs) | None => None end.
Definition the_contact (mails : list string) : addressee :=
  set_uid (B "testuid") (set_emails (map B mails) (addressee_new (B "uid"))).

(** [LDifConverterTest::shouldImportEmail], autotests/ldifconvertertest.cpp:22 *)
Example Test_LDif_shouldImportEmail :
  import_with (fun cs gs => (map emails_of cs, List.length gs))
  (lf ["dn: cn=laurent,mail=foo@kde.org";
    "sn: laurent";
    "cn: laurent";
    "uid: d1d5cdd4-7d5d-484b-828d-58864d8efe74";
    "mail: foo@kde.org";
    "objectclass: top_nobjectclass: person"] ++ B "objectclass: organizationalPerson")
  = Some ([[B "foo@kde.org"]], 0%nat).
Proof. vm_compute. reflexivity. Qed.

(** [LDifConverterTest::shouldImportMultiEmails], autotests/ldifconvertertest.cpp:43 *)
Example Test_LDif_shouldImportMultiEmails :
  import_with (fun cs gs => (map emails_of cs, List.length gs))
  (lf ["dn: cn=laurent,mail=foo@kde.org";
    "sn: laurent";
    "cn: laurent";
    "uid: d1d5cdd4-7d5d-484b-828d-58864d8efe74";
    "mail: foo@kde.org";
    "mail: foo2@kde.org";
    "objectclass: top_nobjectclass: person"] ++ B "objectclass: organizationalPerson")
  = Some ([[B "foo@kde.org"; B "foo2@kde.org"]], 0%nat).
Proof. vm_compute. reflexivity. Qed.

(** [LDifConverterTest::shouldImportTheBatsEmails], autotests/ldifconvertertest.cpp:138 *)
Example Test_LDif_shouldImportTheBatsEmails :
  import_with (fun cs gs => (map emails_of cs, List.length gs))
  (lf ["dn: cn=laurent,mail=foo@kde.org";
    "sn: laurent";
    "cn: laurent";
    "uid: d1d5cdd4-7d5d-484b-828d-58864d8efe74";
    "mail: foo@kde.org";
    "othermailbox: foo2@kde.org";
    "othermailbox: foo3@kde.org";
    "objectclass: top_nobjectclass: person"] ++ B "objectclass: organizationalPerson")
  = Some ([[B "foo@kde.org"; B "foo2@kde.org"; B "foo3@kde.org"]], 0%nat).
Proof. vm_compute. reflexivity. Qed.

(** [LDifConverterTest::shouldImportMultiEntries], autotests/ldifconvertertest.cpp:230 *)
Example Test_LDif_shouldImportMultiEntries :
  import_with (fun cs gs => (map emails_of cs, List.length gs))
  (lf ["dn: cn=test1,mail=test1@test.test";
    "sn: test1";
    "cn: test1";
    "uid: jpgdf2NrLQ";
    "mail: test1@test.test";
    "modifytimestamp: 20121219T140848Z";
    "objectclass: top";
    "objectclass: person";
    "objectclass: organizationalPerson";
    "";
    "dn: cn=test2,mail=test2@test.test";
    "sn: test2";
    "cn: test2";
    "uid: ow2mwdUb6A";
    "mail: test2@test.test";
    "objectclass: top";
    "objectclass: person";
    "objectclass: organizationalPerson"])
  = Some ([[B "test1@test.test"]; [B "test2@test.test"]], 0%nat).
Proof. vm_compute. reflexivity. Qed.

(** [LDifConverterTest::shouldImportStandardBirthday], autotests/ldifconvertertest.cpp:66 *)
Example Test_LDif_shouldImportStandardBirthday :
  import_with (fun cs gs => (map (fun a => (dt_date (a_birthday a), a_bdaytime a)) cs, List.length gs))
  (lf ["dn: cn=laurent,mail=foo@kde.org";
    "sn: laurent";
    "cn: laurent";
    "uid: d1d5cdd4-7d5d-484b-828d-58864d8efe74";
    "birthyear: 2015";
    "birthmonth: 3";
    "birthday: 19";
    "mail: foo@kde.org";
    "objectclass: top_nobjectclass: person"] ++ B "objectclass: organizationalPerson")
  = Some ([(mk_date 2015 3 19, false)], 0%nat).
Proof. vm_compute. reflexivity. Qed.

(** [LDifConverterTest::shouldImportStandardBirthdayWithoutYear], autotests/ldifconvertertest.cpp:91 *)
Example Test_LDif_shouldImportStandardBirthdayWithoutYear :
  import_with (fun cs gs => (map (fun a => (dt_date (a_birthday a), a_bdaytime a)) cs, List.length gs))
  (lf ["dn: cn=laurent,mail=foo@kde.org";
    "sn: laurent";
    "cn: laurent";
    "uid: d1d5cdd4-7d5d-484b-828d-58864d8efe74";
    "birthmonth: 3";
    "birthday: 19";
    "mail: foo@kde.org";
    "objectclass: top_nobjectclass: person"] ++ B "objectclass: organizationalPerson")
  = Some ([(mk_date (-1) 3 19, false)], 0%nat).
Proof. vm_compute. reflexivity. Qed.

(** [LDifConverterTest::shouldImportTheBatsBirthday], autotests/ldifconvertertest.cpp:115 *)
Example Test_LDif_shouldImportTheBatsBirthday :
  import_with (fun cs gs => (map (fun a => (dt_date (a_birthday a), a_bdaytime a)) cs, List.length gs))
  (lf ["dn: cn=laurent,mail=foo@kde.org";
    "sn: laurent";
    "cn: laurent";
    "uid: d1d5cdd4-7d5d-484b-828d-58864d8efe74";
    "xbatBirthday: 20150319";
    "mail: foo@kde.org";
    "objectclass: top_nobjectclass: person"] ++ B "objectclass: organizationalPerson")
  = Some ([(mk_date 2015 3 19, false)], 0%nat).
Proof. vm_compute. reflexivity. Qed.

(** [LDifConverterTest::shouldImportTitle], autotests/ldifconvertertest.cpp:163 *)
Example Test_LDif_shouldImportTitle :
  import_with (fun cs gs => (map (fun a => map pt_text (a_titles a)) cs, List.length gs))
  (lf ["dn: cn=laurent,mail=foo@kde.org";
    "sn: laurent";
    "cn: laurent";
    "uid: d1d5cdd4-7d5d-484b-828d-58864d8efe74";
    "title: foo";
    "mail: foo@kde.org";
    "objectclass: top_nobjectclass: person"] ++ B "objectclass: organizationalPerson")
  = Some ([[B "foo"]], 0%nat).
Proof. vm_compute. reflexivity. Qed.

(** [LDifConverterTest::shouldImportWorkStreet], autotests/ldifconvertertest.cpp:184 *)
Example Test_LDif_shouldImportWorkStreet :
  import_with (fun cs gs => (map (fun a => ad_street (address_of (B "new") aWork a)) cs, List.length gs))
  (lf ["dn: cn=laurent,mail=foo@kde.org";
    "sn: laurent";
    "cn: laurent";
    "uid: d1d5cdd4-7d5d-484b-828d-58864d8efe74";
    "title: foo";
    "mail: foo@kde.org";
    "street: work address";
    "mozillaWorkStreet2: work address next";
    "objectclass: top_nobjectclass: person"] ++ B "objectclass: organizationalPerson")
  = Some ([B "work address" ++ [cLF] ++ B "work address next"], 0%nat).
Proof. vm_compute. reflexivity. Qed.

(** [LDifConverterTest::shouldImportContactGroup], autotests/ldifconvertertest.cpp:207 *)
Example Test_LDif_shouldImportContactGroup :
  import_with (fun cs gs => (List.length cs, map (fun g => (cg_name g, (List.length (cg_refs g) + List.length (cg_grefs g) + List.length (cg_data g))%nat)) gs))
  (lf ["dn: cn=test,mail=";
    "cn: test";
    "modifyTimeStamp: 20080526T234914Z";
    "display-name: Test";
    "objectclass: top";
    "objectclass: groupOfNames";
    "member: cn=Jim Doe,mail=jim.doe@foobar.com";
    "member: cn=Jane Doe,mail=jane.doe@foobar.com";
    "member: cn=John Doe,mail=john.doe@foobar.com"])
  = Some (0%nat, [(B "Test", 3%nat)]).
Proof. vm_compute. reflexivity. Qed.

(** [LDifConverterTest::shouldImportGroupAndAddress], autotests/ldifconvertertest.cpp:261 *)
Example Test_LDif_shouldImportGroupAndAddress :
  import_with (fun cs gs => (List.length cs, List.length gs))
  (lf ["dn: cn=laurent,mail=foo@kde.org";
    "sn: laurent";
    "cn: laurent";
    "uid: d1d5cdd4-7d5d-484b-828d-58864d8efe74";
    "title: foo";
    "mail: foo@kde.org";
    "street: work address";
    "mozillaWorkStreet2: work address next";
    "objectclass: top_nobjectclass: person";
    "objectclass: organizationalPerson";
    "";
    "dn: cn=test,mail=";
    "cn: test";
    "modifyTimeStamp: 20080526T234914Z";
    "display-name: Test";
    "objectclass: top";
    "objectclass: groupOfNames";
    "member: cn=Jim Doe,mail=jim.doe@foobar.com";
    "member: cn=Jane Doe,mail=jane.doe@foobar.com";
    "member: cn=John Doe,mail=john.doe@foobar.com"])
  = Some (1%nat, 1%nat).
Proof. vm_compute. reflexivity. Qed.

(** [LDifConverterTest::shouldExportEmail], autotests/ldifconvertertest.cpp:294 *)
Example Test_LDif_shouldExportEmail :
  all_to_ldif L1 [the_contact ["foo@kde.org"]] [] []
  = (true, (lf ["dn: cn=,mail=foo@kde.org";
    "objectclass: top";
    "objectclass: person";
    "objectclass: organizationalPerson";
    "uid: testuid";
    "mail: foo@kde.org";
    ""])).
Proof. vm_compute. reflexivity. Qed.

(** [LDifConverterTest::shouldExportMultiEmails], autotests/ldifconvertertest.cpp:316 *)
Example Test_LDif_shouldExportMultiEmails :
  all_to_ldif L1 [the_contact ["foo@kde.org"; "foo2@kde.org"; "foo3@kde.org"]] [] []
  = (true, (lf ["dn: cn=,mail=foo@kde.org";
    "objectclass: top";
    "objectclass: person";
    "objectclass: organizationalPerson";
    "uid: testuid";
    "mail: foo@kde.org";
    "mozillasecondemail: foo2@kde.org";
    "othermailbox: foo3@kde.org";
    ""])).
Proof. vm_compute. reflexivity. Qed.

(** [LDifConverterTest::shouldExportBirthday], autotests/ldifconvertertest.cpp:341 *)
Example Test_LDif_shouldExportBirthday :
  all_to_ldif L1 [set_birthday_date (mk_date 2015 3 3) (the_contact ["foo@kde.org"])] [] []
  = (true, (lf ["dn: cn=,mail=foo@kde.org";
    "objectclass: top";
    "objectclass: person";
    "objectclass: organizationalPerson";
    "uid: testuid";
    "mail: foo@kde.org";
    "birthyear: 2015";
    "birthmonth: 3";
    "birthday: 3";
    ""])).
Proof. vm_compute. reflexivity. Qed.

(** [LDifConverterTest::shouldExportBirthdayWithoutYear], autotests/ldifconvertertest.cpp:369 *)
Example Test_LDif_shouldExportBirthdayWithoutYear :
  all_to_ldif L1 [set_birthday_date (mk_date (-1) 3 3) (the_contact ["foo@kde.org"])] [] []
  = (true, (lf ["dn: cn=,mail=foo@kde.org";
    "objectclass: top";
    "objectclass: person";
    "objectclass: organizationalPerson";
    "uid: testuid";
    "mail: foo@kde.org";
    "birthmonth: 3";
    "birthday: 3";
    ""])).
Proof. vm_compute. reflexivity. Qed.

(** [LDifConverterTest::shouldExportTitle], autotests/ldifconvertertest.cpp:396 *)
Example Test_LDif_shouldExportTitle :
  all_to_ldif L1 [set_title (B "foo") (the_contact ["foo@kde.org"])] [] []
  = (true, (lf ["dn: cn=,mail=foo@kde.org";
    "objectclass: top";
    "objectclass: person";
    "objectclass: organizationalPerson";
    "uid: testuid";
    "mail: foo@kde.org";
    "title: foo";
    ""])).
Proof. vm_compute. reflexivity. Qed.

(** [LDifConverterTest::shouldExportMultiEntries], autotests/ldifconvertertest.cpp:421 *)
Example Test_LDif_shouldExportMultiEntries :
  all_to_ldif L1 [set_title (B "foo") (the_contact ["foo@kde.org"]);
    set_birthday_date (mk_date 2015 3 3) (the_contact ["foo@kde.org"])] [] []
  = (true, (lf ["dn: cn=,mail=foo@kde.org";
    "objectclass: top";
    "objectclass: person";
    "objectclass: organizationalPerson";
    "uid: testuid";
    "mail: foo@kde.org";
    "title: foo";
    "";
    "dn: cn=,mail=foo@kde.org";
    "objectclass: top";
    "objectclass: person";
    "objectclass: organizationalPerson";
    "uid: testuid";
    "mail: foo@kde.org";
    "birthyear: 2015";
    "birthmonth: 3";
    "birthday: 3";
    ""])).
Proof. vm_compute. reflexivity. Qed.

(** [LDifConverterTest::shouldExportGroup], autotests/ldifconvertertest.cpp:464 *)
Example Test_LDif_shouldExportGroup :
  all_to_ldif L1 [] [cg_append_data (cd_set_name (B "foo2") (cd_set_email (B "foo2@kde.org") cdata_new))
     (cg_append_data (cd_set_name (B "foo") (cd_set_email (B "foo@kde.org") cdata_new)) (cgroup_new (B "g")))] []
  = (true, (lf ["objectclass: top";
    "objectclass: groupOfNames";
    "member: cn=foo,mail=foo@kde.org";
    "member: cn=foo2,mail=foo2@kde.org";
    ""])).
Proof. vm_compute. reflexivity. Qed.

(** [LDifConverterTest::shouldExportWorkStreet], autotests/ldifconvertertest.cpp:492 *)
Example Test_LDif_shouldExportWorkStreet :
  all_to_ldif L1 [insert_address (ad_set_postal (B "postal") (ad_set_street (B "work address") (address_new (B "a") aWork))) (the_contact ["foo@kde.org"])] [] []
  = (true, (lf ["dn: cn=,mail=foo@kde.org";
    "objectclass: top";
    "objectclass: person";
    "objectclass: organizationalPerson";
    "uid: testuid";
    "mail: foo@kde.org";
    "postalcode: postal";
    "streetaddress: work address";
    "street: work address";
    ""])).
Proof. vm_compute. reflexivity. Qed.

(** [LDifConverterTest::shouldExportFullName], autotests/ldifconvertertest.cpp:523 *)
Example Test_LDif_shouldExportFullName :
  all_to_ldif L1 [set_family (B "familyname") (set_nickname (B "nickname") (set_name (B "name") (the_contact ["foo@kde.org"])))] [] []
  = (true, (lf ["dn: cn=,mail=foo@kde.org";
    "objectclass: top";
    "objectclass: person";
    "objectclass: organizationalPerson";
    "sn: familyname";
    "uid: testuid";
    "nickname: nickname";
    "xmozillanickname: nickname";
    "mozillanickname: nickname";
    "mail: foo@kde.org";
    ""])).
Proof. vm_compute. reflexivity. Qed.

(** [LDifConverterTest::testGarbage], autotests/ldifconvertertest.cpp:555 *)
Example Test_LDif_testGarbage :
  fst (all_to_ldif L1 [] [] []) = false /\ fst (groups_to_ldif L1 [] []) = false
  /\ fst (addressees_to_ldif L1 [] []) = false /\ addressee_to_ldif L1 (addressee_new (B "u")) = None.
Proof. vm_compute. repeat split; reflexivity. Qed.