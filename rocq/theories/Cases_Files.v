(** The model run on the data of the project's own tests: what it writes is
    the text the tests expect, byte for byte.  These are tests of the model,
    not proofs of the claims; they show that the definitions the theorems
    speak about compute what the code computes on this data.

    [RoundtripTest::testVCardRoundtrip], autotests/testroundtrip.cpp: the
    comparisons the project runs (versions 3.0 and 2.1; those for 4.0 are
    disabled there).  Left out: vcard5.vcf, for its size (a photo). *)
From Verif Require Import Base BaseFacts QtText Utf8 M_ParamMap M_VCard M_VCardText
  M_Split M_Values M_Date M_Addressee M_VCardTool Cases_World.
From Coq Require Import String.
Open Scope string_scope.
Open Scope list_scope.


(** autotests/data/vcard1.vcf *)
Definition in_vcard1 : bytes :=
  (lf ["BEGIN:vCard";
    "VERSION:3.0";
    "UID:gDVbA6LY3t";
    "FN:Frank Dawson";
    "ORG:Lotus Development Corporation";
    "ADR;TYPE=WORK,POSTAL,PARCEL:;;6544 Battleford Drive";
    " ;Raleigh;NC;27613-3502;U.S.A.";
    "TEL;TYPE=VOICE,MSG,WORK:+1-919-676-9515";
    "TEL;TYPE=FAX,WORK:+1-919-676-9564";
    "EMAIL;TYPE=INTERNET,PREF:Frank_Dawson@Lotus.com";
    "EMAIL;TYPE=INTERNET:fdawson@earthlink.net";
    "URL:http://home.earthlink.net/~fdawson";
    "END:vCard";
    ""]).
(** autotests/data/vcard1.vcf.ref *)
Example Test_roundtrip_vcard1_30 :
  roundtrip V30 false in_vcard1 = Done
  (crlf ["BEGIN:VCARD";
    "VERSION:3.0";
    "ADR;TYPE=parcel,postal,work:;;6544 Battleford Drive;Raleigh;NC;27613-3502;U";
    " .S.A.";
    "EMAIL;TYPE=INTERNET,PREF:Frank_Dawson@Lotus.com";
    "EMAIL;TYPE=INTERNET:fdawson@earthlink.net";
    "FN:Frank Dawson";
    "N:;;;;";
    "ORG:Lotus Development Corporation";
    "TEL;TYPE=MSG,VOICE,WORK:+1-919-676-9515";
    "TEL;TYPE=FAX,WORK:+1-919-676-9564";
    "UID:gDVbA6LY3t";
    "URL:http://home.earthlink.net/~fdawson";
    "END:VCARD";
    ""]).
Proof. vm_compute. reflexivity. Qed.

(** autotests/data/vcard1.vcf.2_1ref *)
Example Test_roundtrip_vcard1_21 :
  roundtrip V21 false in_vcard1 = Done
  (crlf ["BEGIN:VCARD";
    "VERSION:2.1";
    "ADR;PARCEL;POSTAL;WORK:;;6544 Battleford Drive;Raleigh;NC;27613-3502;U.S.A.";
    "EMAIL;INTERNET;PREF:Frank_Dawson@Lotus.com";
    "EMAIL;INTERNET:fdawson@earthlink.net";
    "FN:Frank Dawson";
    "N:;;;;";
    "ORG:Lotus Development Corporation";
    "TEL;MSG;VOICE;WORK:+1-919-676-9515";
    "TEL;FAX;WORK:+1-919-676-9564";
    "UID:gDVbA6LY3t";
    "URL:http://home.earthlink.net/~fdawson";
    "END:VCARD";
    ""]).
Proof. vm_compute. reflexivity. Qed.

(** autotests/data/vcard10.vcf *)
Definition in_vcard10 : bytes :=
  (crlf ["BEGIN:VCARD";
    "VERSION:2.1";
    "UID:bfa5fdc5-fbfc-4ce2-8196-29ca0deb3bd3";
    "ADR;WORK;CHARSET=UTF-8;ENCODING=QUOTED-PRINTABLE:;;=44=44=44=44=44=44=44=44=44=44=44=44=44=44=44=2D=53=74=61=C3=9F=65=20=";
    "=32=0A=30=30=30=30=30=20=44=44=44=44=44=44=44=44=44=44;;;;";
    "ORG:Bike Shop";
    "Note:This one has a funny character at the end in the contact list";
    "END:VCARD";
    "BEGIN:VCARD";
    "VERSION:2.1";
    "UID:f8361311-b25c-4237-a94e-3015d8fe19de";
    "N:;Broken;;;";
    "FN:Field after Address broken";
    "ADR;HOME;CHARSET=UTF-8;ENCODING=QUOTED-PRINTABLE:;;=41=41=41=41=41=41=41=2D=41=C3=A4=41=41=41=41=41=20=";
    "=31=31;=55=72=74;;=30=30=30=30=30;";
    "URL:http://some-webseite.com";
    "NOTE:This one's URL field is truncated (see contact's edit form). Remove the linebreak in the VCF's address field and the URL will will be correct.";
    "END:VCARD";
    "BEGIN:VCARD";
    "VERSION:2.1";
    "UID:462269fd-607c-4284-998b-6771143b63a7";
    "N:;Broken;;;";
    "FN:Field after Address not broken";
    "ADR;HOME;CHARSET=UTF-8;ENCODING=QUOTED-PRINTABLE:;;=41=41=41=41=41=41=41=2D=41=C3=A4=41=41=41=41=41=20=";
    "=31=31;=55=72=74;;=30=30=30=30=30;";
    "NOTE:this is identical to ""Website broken"", but with Note and URL swapped. The Note field does not get truncated as the URL field does.";
    "URL:http://some-webseite.com";
    "END:VCARD";
    "BEGIN:VCARD";
    "VERSION:2.1";
    "UID:b4fc4930-043f-446a-9a76-cf0b548368d8";
    "N:Name;Surname;;Dr. med.;";
    "FN:Dr. med. Surname Name";
    "TITLE;CHARSET=UTF-8;ENCODING=QUOTED-PRINTABLE:=46=61=63=68=61=72=7A=74=20=66=C3=BC=72=20=41=6C=6C=67=65=6D=65=69=6E=";
    "=6D=65=64=69=7A=69=6E";
    "NOTE;CHARSET=UTF-8;ENCODING=QUOTED-PRINTABLE:=53=70=72=65=63=68=7A=65=69=74=65=6E=3A=0A=4D=6F=20=20=20=38=E2=80=93=";
    "=31=32=2C=20=31=35=E2=80=93=31=38=0A=44=69=20=20=20=20=20=38=E2=80=93=";
    "=31=32=0A=4D=69=20=20=20=20=38=E2=80=93=31=32=2C=20=31=34=E2=80=93=31=";
    "=35=0A=44=6F=20=31=34=E2=80=93=31=39=0A=46=72=20=20=20=20=20=38=E2=80=";
    "=93=31=32";
    "END:VCARD";
    "BEGIN:VCARD";
    "VERSION:2.1";
    "UID:941b057d-e959-4644-b41f-e122b26c3807";
    "N:Doctor;Second;;;";
    "FN:Second Doctor";
    "ADR;WORK;CHARSET=UTF-8;ENCODING=QUOTED-PRINTABLE:;;=44=44=44=44=44=44=44=44=44=44=44=73=74=72=61=C3=9F=65=20=32=36=0A=30=";
    "=30=30=30=30=20=44=44=44=44=44=44=44=44=44=44=44=44=44=44=44=44=44;;;;";
    "ORG:";
    "TITLE:Dentist";
    "NOTE;CHARSET=UTF-8;ENCODING=QUOTED-PRINTABLE:=53=70=72=65=63=68=7A=65=69=74=65=6E=3A=0A=4D=6F=20=20=20=38=E2=80=93=";
    "=31=33=0A=44=69=20=20=20=31=30=E2=80=93=31=32=2C=20=31=33=E2=80=93=31=";
    "=38=0A=4D=69=20=20=31=30=E2=80=93=31=32=2C=20=31=33=E2=80=93=31=38=0A=";
    "=44=6F=20=20=31=33=E2=80=93=31=38=0A=46=72=20=20=20=20=20=20=38=E2=80=";
    "=93=31=32";
    "END:VCARD"]).
(** autotests/data/vcard10.vcf.ref *)
Example Test_roundtrip_vcard10_30 :
  roundtrip V30 false in_vcard10 = Done
  (crlf ["BEGIN:VCARD";
    "VERSION:3.0";
    "ADR;TYPE=work:;;DDDDDDDDDDDDDDD-Staße 2\n00000 DDDDDDDDDD;;;;";
    "N:;;;;";
    "NOTE:This one has a funny character at the end in the contact list";
    "ORG:Bike Shop";
    "UID:bfa5fdc5-fbfc-4ce2-8196-29ca0deb3bd3";
    "END:VCARD";
    "";
    "BEGIN:VCARD";
    "VERSION:3.0";
    "ADR;TYPE=home:;;AAAAAAA-AäAAAAA 11;Urt;;00000;";
    "FN:Field after Address broken";
    "N:;Broken;;;";
    "NOTE:This one's URL field is truncated (see contact's edit form). Remove th";
    " e linebreak in the VCF's address field and the URL will will be correct.";
    "UID:f8361311-b25c-4237-a94e-3015d8fe19de";
    "URL:http://some-webseite.com";
    "END:VCARD";
    "";
    "BEGIN:VCARD";
    "VERSION:3.0";
    "ADR;TYPE=home:;;AAAAAAA-AäAAAAA 11;Urt;;00000;";
    "FN:Field after Address not broken";
    "N:;Broken;;;";
    "NOTE:this is identical to ""Website broken""\, but with Note and URL swapped.";
    "  The Note field does not get truncated as the URL field does.";
    "UID:462269fd-607c-4284-998b-6771143b63a7";
    "URL:http://some-webseite.com";
    "END:VCARD";
    "";
    "BEGIN:VCARD";
    "VERSION:3.0";
    "FN:Dr. med. Surname Name";
    "N:Name;Surname;;Dr. med.;";
    "NOTE:Sprechzeiten:\nMo   8–12\, 15–18\nDi     8–12\nMi    8–12\, 14";
    " –15\nDo 14–19\nFr     8–12";
    "TITLE;CHARSET=UTF-8;ENCODING=QUOTED-PRINTABLE:=46acharzt f=C3=BCr Allgemein";
    " medizin";
    "UID:b4fc4930-043f-446a-9a76-cf0b548368d8";
    "END:VCARD";
    "";
    "BEGIN:VCARD";
    "VERSION:3.0";
    "ADR;TYPE=work:;;DDDDDDDDDDDstraße 26\n00000 DDDDDDDDDDDDDDDDD;;;;";
    "FN:Second Doctor";
    "N:Doctor;Second;;;";
    "NOTE:Sprechzeiten:\nMo   8–13\nDi   10–12\, 13–18\nMi  10–12\, 13";
    " –18\nDo  13–18\nFr      8–12";
    "TITLE:Dentist";
    "UID:941b057d-e959-4644-b41f-e122b26c3807";
    "END:VCARD";
    ""]).
Proof. vm_compute. reflexivity. Qed.

(** autotests/data/vcard11.vcf *)
Definition in_vcard11 : bytes :=
  (lf ["BEGIN:VCARD";
    "CLASS:PUBLIC";
    "EMAIL;TYPE=HOME;X-EVOLUTION-UI-SLOT=2:thejoe@abc.com";
    "EMAIL;TYPE=WORK;X-EVOLUTION-UI-SLOT=1:johndoe@abc.com";
    "FN:Test User";
    "N:User;Test;;;";
    "UID:uJTkVqH5Qt";
    "VERSION:3.0";
    "END:VCARD";
    ""]).
(** autotests/data/vcard11.vcf.ref *)
Example Test_roundtrip_vcard11_30 :
  roundtrip V30 false in_vcard11 = Done
  (crlf ["BEGIN:VCARD";
    "VERSION:3.0";
    "CLASS:PUBLIC";
    "EMAIL;TYPE=HOME;X-EVOLUTION-UI-SLOT=2:thejoe@abc.com";
    "EMAIL;TYPE=WORK;X-EVOLUTION-UI-SLOT=1:johndoe@abc.com";
    "FN:Test User";
    "N:User;Test;;;";
    "UID:uJTkVqH5Qt";
    "END:VCARD";
    ""]).
Proof. vm_compute. reflexivity. Qed.

(** autotests/data/vcard12.vcf *)
Definition in_vcard12 : bytes :=
  (crlf ["BEGIN:VCARD";
    "VERSION:3.0";
    "UID:pas-id-54B2522600000001";
    "FN:Good Looking";
    "N:Looking;Good;;;";
    "PHOTO;TYPE=WORK;ENCODING=b:iVBORw0KGgoAAAANSUhEUgAAAAMAAAADCAIAAADZSiLoAAAA";
    " CXBIWXMAAAsTAAALEwEAmpwYAAAAB3RJTUUH3wELCiUrjAUGmgAAABl0RVh0Q29tbWVudABDcm";
    " VhdGVkIHdpdGggR0lNUFeBDhcAAAAZSURBVAjXY/zPAAVMDAwMDP//MzAwMMLFAEMrBAHo3Yr/";
    " AAAAAElFTkSuQmCC";
    "PHOTO;TYPE=HOME;ENCODING=b:iVBORw0KGgoAAAANSUhEUgAAAAMAAAADCAIAAADZSiLoAAAA";
    " CXBIWXMAAAsTAAALEwEAmpwYAAAAB3RJTUUH3wELCiQG0MFrrgAAABl0RVh0Q29tbWVudABDcm";
    " VhdGVkIHdpdGggR0lNUFeBDhcAAAAUSURBVAjXY/j//z8DAwOEhAG4GACzagv1unIx3wAAAABJ";
    " RU5ErkJggg==";
    "EMAIL;TYPE=WORK;X-EVOLUTION-UI-SLOT=1:goodlooking@example.com";
    "END:VCARD"]).
(** autotests/data/vcard12.vcf.ref *)
Example Test_roundtrip_vcard12_30 :
  roundtrip V30 false in_vcard12 = Done
  (crlf ["BEGIN:VCARD";
    "VERSION:3.0";
    "EMAIL;TYPE=WORK;X-EVOLUTION-UI-SLOT=1:goodlooking@example.com";
    "FN:Good Looking";
    "N:Looking;Good;;;";
    "PHOTO;ENCODING=b;TYPE=WORK:iVBORw0KGgoAAAANSUhEUgAAAAMAAAADCAIAAADZSiLoAAAA";
    " CXBIWXMAAAsTAAALEwEAmpwYAAAAB3RJTUUH3wELCiUrjAUGmgAAABl0RVh0Q29tbWVudABDcmV";
    " hdGVkIHdpdGggR0lNUFeBDhcAAAAZSURBVAjXY/zPAAVMDAwMDP//MzAwMMLFAEMrBAHo3Yr/AA";
    " AAAElFTkSuQmCC";
    "PHOTO;ENCODING=b;TYPE=HOME:iVBORw0KGgoAAAANSUhEUgAAAAMAAAADCAIAAADZSiLoAAAA";
    " CXBIWXMAAAsTAAALEwEAmpwYAAAAB3RJTUUH3wELCiQG0MFrrgAAABl0RVh0Q29tbWVudABDcmV";
    " hdGVkIHdpdGggR0lNUFeBDhcAAAAUSURBVAjXY/j//z8DAwOEhAG4GACzagv1unIx3wAAAABJRU";
    " 5ErkJggg==";
    "UID:pas-id-54B2522600000001";
    "END:VCARD";
    ""]).
Proof. vm_compute. reflexivity. Qed.

(** autotests/data/vcard12.vcf.2_1ref *)
Example Test_roundtrip_vcard12_21 :
  roundtrip V21 false in_vcard12 = Done
  [66;69;71;73;78;58;86;67;65;82;68;13;10;86;69;82;83;73;79;78;58;50;46;49;13;10;69;77;65;73;76;59;87;79;82;75;59;88;45;69;86;79;76;85;84;73;79;78;45;85;73;45;83;76;79;84;61;49;58;103;111;111;100;108;111;111;107;105;110;103;64;101;120;97;109;112;108;101;46;99;111;109;13;10;70;78;58;71;111;111;100;32;76;111;111;107;105;110;103;13;10;78;58;76;111;111;107;105;110;103;59;71;111;111;100;59;59;59;13;10;80;72;79;84;79;59;69;78;67;79;68;73;78;71;61;66;65;83;69;54;52;59;87;79;82;75;58;137;80;78;71;92;114;92;110;26;92;110;0;0;0;92;114;73;72;68;82;0;0;0;3;0;0;0;3;8;2;0;0;0;217;74;34;232;0;0;0;9;112;72;89;115;0;0;11;13;10;32;19;0;0;11;19;1;0;154;156;24;0;0;0;7;116;73;77;69;7;223;1;11;92;110;37;43;140;5;6;154;0;0;0;25;116;69;88;116;67;111;109;109;101;110;116;0;67;114;101;97;116;101;100;32;119;105;116;104;32;71;73;77;80;87;129;14;23;0;0;0;25;73;68;65;84;13;10;32;8;215;99;252;207;0;5;76;12;12;12;12;255;255;51;48;48;48;194;197;0;67;43;4;1;232;221;138;255;0;0;0;0;73;69;78;68;174;66;96;130;13;10;80;72;79;84;79;59;69;78;67;79;68;73;78;71;61;66;65;83;69;54;52;59;72;79;77;69;58;137;80;78;71;92;114;92;110;26;92;110;0;0;0;92;114;73;72;68;82;0;0;0;3;0;0;0;3;8;2;0;0;0;217;74;34;232;0;0;0;9;112;72;89;115;0;0;11;13;10;32;19;0;0;11;19;1;0;154;156;24;0;0;0;7;116;73;77;69;7;223;1;11;92;110;36;6;208;193;107;174;0;0;0;25;116;69;88;116;67;111;109;109;101;110;116;0;67;114;101;97;116;101;100;32;119;105;116;104;32;71;73;77;80;87;129;14;23;0;0;0;20;73;68;65;84;13;10;32;8;215;99;248;255;255;63;3;3;3;132;132;1;184;24;0;179;106;11;245;186;114;49;223;0;0;0;0;73;69;78;68;174;66;96;130;13;10;85;73;68;58;112;97;115;45;105;100;45;53;52;66;50;53;50;50;54;48;48;48;48;48;48;48;49;13;10;69;78;68;58;86;67;65;82;68;13;10;13;10]%N.
Proof. vm_compute. reflexivity. Qed.

(** autotests/data/vcard13.vcf *)
Definition in_vcard13 : bytes :=
  (lf ["BEGIN:VCARD";
    "CLASS:PUBLIC";
    "EMAIL;TYPE=HOME;X-EVOLUTION-UI-SLOT=2:thejoe@abc.com";
    "EMAIL;TYPE=WORK;X-EVOLUTION-UI-SLOT=1:johndoe@abc.com";
    "FN:Test User";
    "N:User;Test;;;";
    "UID:uJTkVqH5Qt";
    "URL:test1.url";
    "URL:test2.url";
    "VERSION:3.0";
    "END:VCARD";
    ""]).
(** autotests/data/vcard13.vcf.ref *)
Example Test_roundtrip_vcard13_30 :
  roundtrip V30 false in_vcard13 = Done
  (crlf ["BEGIN:VCARD";
    "VERSION:3.0";
    "CLASS:PUBLIC";
    "EMAIL;TYPE=HOME;X-EVOLUTION-UI-SLOT=2:thejoe@abc.com";
    "EMAIL;TYPE=WORK;X-EVOLUTION-UI-SLOT=1:johndoe@abc.com";
    "FN:Test User";
    "N:User;Test;;;";
    "UID:uJTkVqH5Qt";
    "URL:test1.url";
    "URL:test2.url";
    "END:VCARD";
    ""]).
Proof. vm_compute. reflexivity. Qed.

(** autotests/data/vcard14.vcf *)
Definition in_vcard14 : bytes :=
  (crlf ["BEGIN:VCARD";
    "VERSION:3.0";
    "CLASS:PUBLIC";
    "EMAIL;TYPE=HOME,PREF;X-EVOLUTION-UI-SLOT=2:thejoe@abc.com";
    "EMAIL;TYPE=WORK;X-EVOLUTION-UI-SLOT=1:johndoe@abc.com";
    "FN:Test User";
    "N:User;Test;;;";
    "UID:uJTkVqH5Qt";
    "SOURCE:http://www.kde.org";
    "SOURCE:http://www.kde1.org";
    "END:VCARD";
    ""]).
(** autotests/data/vcard14.vcf.ref *)
Example Test_roundtrip_vcard14_30 :
  roundtrip V30 false in_vcard14 = Done
  (crlf ["BEGIN:VCARD";
    "VERSION:3.0";
    "CLASS:PUBLIC";
    "EMAIL;TYPE=HOME,PREF;X-EVOLUTION-UI-SLOT=2:thejoe@abc.com";
    "EMAIL;TYPE=WORK;X-EVOLUTION-UI-SLOT=1:johndoe@abc.com";
    "FN:Test User";
    "N:User;Test;;;";
    "SOURCE:http://www.kde.org";
    "SOURCE:http://www.kde1.org";
    "UID:uJTkVqH5Qt";
    "END:VCARD";
    ""]).
Proof. vm_compute. reflexivity. Qed.

(** autotests/data/vcard14.vcf.2_1ref *)
Example Test_roundtrip_vcard14_21 :
  roundtrip V21 false in_vcard14 = Done
  (crlf ["BEGIN:VCARD";
    "VERSION:2.1";
    "EMAIL;HOME;PREF;X-EVOLUTION-UI-SLOT=2:thejoe@abc.com";
    "EMAIL;WORK;X-EVOLUTION-UI-SLOT=1:johndoe@abc.com";
    "FN:Test User";
    "N:User;Test;;;";
    "SOURCE:http://www.kde.org";
    "SOURCE:http://www.kde1.org";
    "UID:uJTkVqH5Qt";
    "END:VCARD";
    ""]).
Proof. vm_compute. reflexivity. Qed.

(** autotests/data/vcard15.vcf *)
Definition in_vcard15 : bytes :=
  (crlf ["BEGIN:VCARD";
    "VERSION:3.0";
    "FN:Test Tester";
    "N:Tester;Test;;;";
    "RELATED;TYPE=child;VALUE=text:Child Tester";
    "item1.URL:http://www.example.com";
    "item1.X-ABLABEL:random_label";
    "TEL;TYPE=home:+1-800-123456";
    "UID:40f8971c-1d3a-466f-8cf5-55aad2021e1a";
    "END:VCARD"]).
(** autotests/data/vcard15.vcf.ref *)
Example Test_roundtrip_vcard15_30 :
  roundtrip V30 false in_vcard15 = Done
  (crlf ["BEGIN:VCARD";
    "VERSION:3.0";
    "FN:Test Tester";
    "N:Tester;Test;;;";
    "RELATED;TYPE=child;VALUE=text:Child Tester";
    "TEL;TYPE=HOME:+1-800-123456";
    "UID:40f8971c-1d3a-466f-8cf5-55aad2021e1a";
    "item1.URL:http://www.example.com";
    "item1.X-ABLABEL:random_label";
    "END:VCARD";
    ""]).
Proof. vm_compute. reflexivity. Qed.

(** autotests/data/vcard2.vcf *)
Definition in_vcard2 : bytes :=
  (lf ["BEGIN:vCard";
    "VERSION:3.0";
    "UID:1UgvYejJMs";
    "FN:Tim Howes";
    "ORG:Netscape Communications Corp.";
    "ADR;TYPE=WORK:;;501 E. Middlefield Rd.;Mountain View;";
    " CA; 94043;U.S.A.";
    "TEL;TYPE=VOICE,MSG,WORK:+1-415-937-3419";
    "TEL;TYPE=FAX,WORK:+1-415-528-4164";
    "EMAIL;TYPE=INTERNET:howes@netscape.com";
    "END:vCard";
    ""]).
(** autotests/data/vcard2.vcf.ref *)
Example Test_roundtrip_vcard2_30 :
  roundtrip V30 false in_vcard2 = Done
  (crlf ["BEGIN:VCARD";
    "VERSION:3.0";
    "ADR;TYPE=work:;;501 E. Middlefield Rd.;Mountain View;CA; 94043;U.S.A.";
    "EMAIL;TYPE=INTERNET:howes@netscape.com";
    "FN:Tim Howes";
    "N:;;;;";
    "ORG:Netscape Communications Corp.";
    "TEL;TYPE=MSG,VOICE,WORK:+1-415-937-3419";
    "TEL;TYPE=FAX,WORK:+1-415-528-4164";
    "UID:1UgvYejJMs";
    "END:VCARD";
    ""]).
Proof. vm_compute. reflexivity. Qed.

(** autotests/data/vcard2.vcf.2_1ref *)
Example Test_roundtrip_vcard2_21 :
  roundtrip V21 false in_vcard2 = Done
  (crlf ["BEGIN:VCARD";
    "VERSION:2.1";
    "ADR;WORK:;;501 E. Middlefield Rd.;Mountain View;CA; 94043;U.S.A.";
    "EMAIL;INTERNET:howes@netscape.com";
    "FN:Tim Howes";
    "N:;;;;";
    "ORG:Netscape Communications Corp.";
    "TEL;MSG;VOICE;WORK:+1-415-937-3419";
    "TEL;FAX;WORK:+1-415-528-4164";
    "UID:1UgvYejJMs";
    "END:VCARD";
    ""]).
Proof. vm_compute. reflexivity. Qed.

(** autotests/data/vcard3.vcf *)
Definition in_vcard3 : bytes :=
  (lf ["begin:vcard";
    "uid:ebvq9Wo9rO";
    "n:geiser;ian";
    "x-mozilla-html:FALSE";
    "org:Source eXtreme";
    "version:2.1";
    "email;internet:geiseri@yahoo.com";
    "title:VP of Engineering";
    "x-mozilla-cpt:;0";
    "fn:ian geiser";
    "end:vcard";
    ""]).
(** autotests/data/vcard3.vcf.ref *)
Example Test_roundtrip_vcard3_30 :
  roundtrip V30 false in_vcard3 = Done
  (crlf ["BEGIN:VCARD";
    "VERSION:3.0";
    "EMAIL;TYPE=internet:geiseri@yahoo.com";
    "FN:ian geiser";
    "N:geiser;ian;;;";
    "ORG:Source eXtreme";
    "TITLE:VP of Engineering";
    "UID:ebvq9Wo9rO";
    "X-mozilla-cpt:;0";
    "X-mozilla-html:FALSE";
    "END:VCARD";
    ""]).
Proof. vm_compute. reflexivity. Qed.

(** autotests/data/vcard3.vcf.2_1ref *)
Example Test_roundtrip_vcard3_21 :
  roundtrip V21 false in_vcard3 = Done
  (crlf ["BEGIN:VCARD";
    "VERSION:2.1";
    "EMAIL;INTERNET:geiseri@yahoo.com";
    "FN:ian geiser";
    "N:geiser;ian;;;";
    "ORG:Source eXtreme";
    "TITLE:VP of Engineering";
    "UID:ebvq9Wo9rO";
    "X-mozilla-cpt:;0";
    "X-mozilla-html:FALSE";
    "END:VCARD";
    ""]).
Proof. vm_compute. reflexivity. Qed.

(** autotests/data/vcard4.vcf *)
Definition in_vcard4 : bytes :=
  (lf ["BEGIN:VCARD";
    "X-EVOLUTION-FILE-AS:Ximian, Inc.";
    "FN";
    "N:";
    "LABEL;QUOTED-PRINTABLE;WORK:401 Park Drive  3 West=0ABoston, MA 02215=0AUSA";
    "TEL;WORK;VOICE:(617) 236-0442";
    "TEL;WORK;FAX:(617) 236-8630";
    "EMAIL;INTERNET:hello@ximian.com";
    "URL:www.ximian.com/";
    "ORG:Ximian, Inc.";
    "NOTE:Welcome to the Ximian Addressbook.";
    "UID:pas-id-3E136F9B00000000";
    "END:VCARD";
    ""]).
(** autotests/data/vcard4.vcf.ref *)
Example Test_roundtrip_vcard4_30 :
  roundtrip V30 false in_vcard4 = Done
  (crlf ["BEGIN:VCARD";
    "VERSION:3.0";
    "EMAIL;TYPE=INTERNET:hello@ximian.com";
    "LABEL;TYPE=work:401 Park Drive  3 West\nBoston\, MA 02215\nUSA";
    "N:;;;;";
    "NOTE:Welcome to the Ximian Addressbook.";
    "ORG:Ximian\, Inc.";
    "TEL;TYPE=VOICE,WORK:(617) 236-0442";
    "TEL;TYPE=FAX,WORK:(617) 236-8630";
    "UID:pas-id-3E136F9B00000000";
    "URL:www.ximian.com/";
    "X-EVOLUTION-FILE-AS:Ximian\, Inc.";
    "END:VCARD";
    ""]).
Proof. vm_compute. reflexivity. Qed.

(** autotests/data/vcard6.vcf *)
Definition in_vcard6 : bytes :=
  (lf ["BEGIN:VCARD";
    "CLASS:PUBLIC";
    "EMAIL;TYPE=PREF:email1@abc.de";
    "EMAIL:email2@abc.de";
    "FN:Test User";
    "N:User;Test;;;";
    "UID:uJTkVqH5Qt";
    "VERSION:3.0";
    "END:VCARD";
    ""]).
(** autotests/data/vcard6.vcf.ref *)
Example Test_roundtrip_vcard6_30 :
  roundtrip V30 false in_vcard6 = Done
  (crlf ["BEGIN:VCARD";
    "VERSION:3.0";
    "CLASS:PUBLIC";
    "EMAIL;TYPE=PREF:email1@abc.de";
    "EMAIL:email2@abc.de";
    "FN:Test User";
    "N:User;Test;;;";
    "UID:uJTkVqH5Qt";
    "END:VCARD";
    ""]).
Proof. vm_compute. reflexivity. Qed.

(** autotests/data/vcard6.vcf.2_1ref *)
Example Test_roundtrip_vcard6_21 :
  roundtrip V21 false in_vcard6 = Done
  (crlf ["BEGIN:VCARD";
    "VERSION:2.1";
    "EMAIL;PREF:email1@abc.de";
    "EMAIL:email2@abc.de";
    "FN:Test User";
    "N:User;Test;;;";
    "UID:uJTkVqH5Qt";
    "END:VCARD";
    ""]).
Proof. vm_compute. reflexivity. Qed.

(** autotests/data/vcard7.vcf *)
Definition in_vcard7 : bytes :=
  (lf ["BEGIN:VCARD";
    "N:";
    "LABEL;QUOTED-PRINTABLE;WORK:401 Park Drive  3 West=0ABoston, MA 02215=0AUSA=0A=";
    "Herecomesyetanotherline";
    "UID:pas-id-3E136F9B00000000";
    "END:VCARD";
    ""]).
(** autotests/data/vcard7.vcf.ref *)
Example Test_roundtrip_vcard7_30 :
  roundtrip V30 false in_vcard7 = Done
  (crlf ["BEGIN:VCARD";
    "VERSION:3.0";
    "LABEL;TYPE=work:401 Park Drive  3 West\nBoston\, MA 02215\nUSA\nHerecomesye";
    " tanotherline";
    "N:;;;;";
    "UID:pas-id-3E136F9B00000000";
    "END:VCARD";
    ""]).
Proof. vm_compute. reflexivity. Qed.

(** autotests/data/vcard7.vcf.2_1ref *)
Example Test_roundtrip_vcard7_21 :
  roundtrip V21 false in_vcard7 = Done
  (crlf ["BEGIN:VCARD";
    "VERSION:2.1";
    "LABEL;CHARSET=UTF-8;ENCODING=QUOTED-PRINTABLE;WORK:401 Park Drive  3 West\n";
    " Boston\, MA 02215\nUSA\nHerecomesyetanotherline";
    "N:;;;;";
    "UID:pas-id-3E136F9B00000000";
    "END:VCARD";
    ""]).
Proof. vm_compute. reflexivity. Qed.

(** autotests/data/vcard8.vcf *)
Definition in_vcard8 : bytes :=
  (crlf ["BEGIN:VCARD";
    "FN:test";
    "N:test;;;;";
    "NOTE:line one\Nline two\Nline three\N";
    "UID:8OD165Pope";
    "VERSION:3.0";
    "END:VCARD";
    ""]).
(** autotests/data/vcard8.vcf.ref *)
Example Test_roundtrip_vcard8_30 :
  roundtrip V30 false in_vcard8 = Done
  (crlf ["BEGIN:VCARD";
    "VERSION:3.0";
    "FN:test";
    "N:test;;;;";
    "NOTE:line one\nline two\nline three\n";
    "UID:8OD165Pope";
    "END:VCARD";
    ""]).
Proof. vm_compute. reflexivity. Qed.

(** autotests/data/vcard9.vcf *)
Definition in_vcard9 : bytes :=
  [66;69;71;73;78;58;86;67;65;82;68;13;10;70;78;58;206;178;206;179;206;180;206;181;206;177;206;178;206;179;206;180;49;206;178;206;179;206;180;206;181;206;177;206;178;206;179;206;180;49;206;178;206;179;206;180;206;181;206;177;206;178;206;179;206;180;49;206;178;206;179;206;180;206;181;206;177;206;178;206;179;206;180;49;206;178;206;179;13;10;32;206;180;206;181;206;177;206;178;206;179;206;180;49;206;178;206;179;206;180;206;181;206;177;206;178;206;179;206;180;49;206;178;206;179;206;180;206;181;206;177;206;178;206;179;206;180;49;206;178;206;179;206;180;206;181;206;177;206;178;206;179;206;180;49;206;178;206;179;206;180;206;181;206;177;13;10;32;206;178;206;179;206;180;49;206;178;206;179;206;180;206;181;206;177;206;178;206;179;206;180;49;206;178;206;179;206;180;206;181;206;177;206;178;206;179;206;180;49;13;10;78;58;49;50;51;227;132;147;227;132;149;227;132;150;98;99;100;101;206;177;206;178;206;179;206;180;206;177;206;178;206;179;206;180;206;177;206;178;206;179;206;180;206;177;206;178;206;179;206;180;206;177;206;178;206;179;206;180;206;177;206;178;206;179;206;180;206;177;206;178;227;132;164;13;10;32;227;132;147;227;132;149;227;132;150;59;59;59;59;13;10;78;79;84;69;58;208;148;208;187;208;184;208;189;208;189;209;139;208;185;32;208;186;208;190;208;188;208;188;208;181;208;189;209;130;208;176;209;128;208;184;208;185;32;208;189;208;176;32;209;128;209;131;209;129;209;129;208;186;208;190;208;188;32;209;143;208;183;209;139;208;186;208;181;92;44;13;10;32;32;209;135;209;130;208;190;208;177;209;139;32;208;178;32;209;128;208;181;208;183;209;131;208;187;209;140;209;130;208;176;209;130;208;181;32;208;191;208;190;208;187;209;131;209;135;208;184;208;187;208;176;209;129;209;140;32;209;129;209;130;209;128;208;190;208;186;208;176;32;208;177;208;190;208;13;10;32;187;208;181;208;181;32;55;48;32;209;129;208;184;208;188;208;178;208;190;208;187;208;190;208;178;46;13;10;80;82;79;68;73;68;58;45;47;47;111;119;110;67;108;111;117;100;47;47;78;79;78;83;71;77;76;32;67;111;110;116;97;99;116;115;32;48;46;51;47;47;69;78;13;10;85;73;68;58;50;48;49;52;48;51;49;54;84;49;53;53;48;49;57;46;56;55;55;101;51;55;48;99;49;49;64;109;97;114;116;105;110;13;10;86;69;82;83;73;79;78;58;51;46;48;13;10;69;78;68;58;86;67;65;82;68;13;10;13;10]%N.
(** autotests/data/vcard9.vcf.ref *)
Example Test_roundtrip_vcard9_30 :
  roundtrip V30 false in_vcard9 = Done
  (crlf ["BEGIN:VCARD";
    "VERSION:3.0";
    "FN:βγδεαβγδ1βγδεαβγδ1βγδεαβγδ1βγδεαβγδ1βγ";
    " δεαβγδ1βγδεαβγδ1βγδεαβγδ1βγδεαβγδ1βγδεα";
    " βγδ1βγδεαβγδ1βγδεαβγδ1";
    "N:123ㄓㄕㄖbcdeαβγδαβγδαβγδαβγδαβγδαβγδαβㄤ";
    " ㄓㄕㄖ;;;;";
    "NOTE:Длинный комментарий на русском языке\,";
    "  чтобы в результате получилась строка бо";
    " лее 70 символов.";
    "PRODID:-//ownCloud//NONSGML Contacts 0.3//EN";
    "UID:20140316T155019.877e370c11@martin";
    "END:VCARD";
    ""]).
Proof. vm_compute. reflexivity. Qed.

(** autotests/data/vcard_extension_case_normalization.vcf *)
Definition in_vcard_extension_case_normalization : bytes :=
  (lf ["BEGIN:VCARD";
    "VERSION:3.0";
    "FN:My Name";
    "N:Name;My;;;";
    "UID:628d6072-5385-41d3-ad45-cb79a3afa987";
    "X-KADDRESSBOOK-BLOGFEED:https://my.blog/";
    "X-KADDRESSBOOK-CRYPTOENCRYPTPREF:askAlways";
    "X-KADDRESSBOOK-CRYPTOPROTOPREF:inline openpgp\,openpgp/mime\,s/mime\,s/mime";
    "  opaque\,any s/mime\,any openpgp";
    "X-KADDRESSBOOK-CRYPTOSIGNPREF:always";
    "X-KADDRESSBOOK-X-ANNIVERSARY:1970-01-01";
    "X-KADDRESSBOOK-X-ASSISTANTSNAME:Mycroft";
    "X-KADDRESSBOOK-X-MANAGERSNAME:My Boss";
    "X-KADDRESSBOOK-X-OFFICE:My Office";
    "X-KADDRESSBOOK-X-PROFESSION:My Job";
    "X-KADDRESSBOOK-X-SPOUSESNAME:My Spouse";
    "END:VCARD";
    ""]).
(** autotests/data/vcard_extension_case_normalization.vcf.ref *)
Example Test_roundtrip_vcard_extension_case_normalization_30 :
  roundtrip V30 false in_vcard_extension_case_normalization = Done
  (crlf ["BEGIN:VCARD";
    "VERSION:3.0";
    "FN:My Name";
    "N:Name;My;;;";
    "UID:628d6072-5385-41d3-ad45-cb79a3afa987";
    "X-KADDRESSBOOK-BlogFeed:https://my.blog/";
    "X-KADDRESSBOOK-CRYPTOENCRYPTPREF:askAlways";
    "X-KADDRESSBOOK-CRYPTOPROTOPREF:inline openpgp\,openpgp/mime\,s/mime\,s/mime";
    "  opaque\,any s/mime\,any openpgp";
    "X-KADDRESSBOOK-CRYPTOSIGNPREF:always";
    "X-KADDRESSBOOK-X-Anniversary:1970-01-01";
    "X-KADDRESSBOOK-X-AssistantsName:Mycroft";
    "X-KADDRESSBOOK-X-ManagersName:My Boss";
    "X-KADDRESSBOOK-X-Office:My Office";
    "X-KADDRESSBOOK-X-Profession:My Job";
    "X-KADDRESSBOOK-X-SpousesName:My Spouse";
    "END:VCARD";
    ""]).
Proof. vm_compute. reflexivity. Qed.

(** autotests/data/vcard_legacy_messaging_fields.vcf *)
Definition in_vcard_legacy_messaging_fields : bytes :=
  (lf ["BEGIN:VCARD";
    "VERSION:3.0";
    "FN:My Name";
    "N:Name;My;;;";
    "UID:12345";
    "X-messaging/twitter-All:kdecommunity";
    "X-messaging/irc-All:konqui";
    "X-messaging/xmpp-All:one@test.orgtwo@test.org";
    "END:VCARD"]).
(** autotests/data/vcard_legacy_messaging_fields.vcf.ref *)
Example Test_roundtrip_vcard_legacy_messaging_fields_30 :
  roundtrip V30 false in_vcard_legacy_messaging_fields = Done
  (crlf ["BEGIN:VCARD";
    "VERSION:3.0";
    "FN:My Name";
    "IMPP:irc:konqui";
    "IMPP:twitter:kdecommunity";
    "IMPP:xmpp:one@test.org";
    "IMPP:xmpp:two@test.org";
    "N:Name;My;;;";
    "UID:12345";
    "END:VCARD";
    ""]).
Proof. vm_compute. reflexivity. Qed.

(** [ImportExportVCardTest::shouldExportFullTestVcard4], autotests/importexportvcardtest.cpp:43 *)
Example Test_shouldExportFullTestVcard4 :
  roundtrip V40 true
  (crlf ["BEGIN:VCARD";
    "VERSION:4.0";
    "FN:Sherlock Holmes";
    "TEL;VALUE=uri;PREF=1;TYPE=""voice,home"":tel:+44-555-555-5555;ext=5555";
    "TEL;VALUE=uri;TYPE=""voice,cell,text"":tel:+44-555-555-6666";
    "TEL;VALUE=uri;TYPE=""voice,work"":tel:+44-555-555-7777";
    "N:Holmes;Sherlock;;Mr;;";
    "KIND:individual";
    "NICKNAME:Shirley";
    "PHOTO:";
    "BDAY:19531015T231000Z";
    "ANNIVERSARY:19960415";
    "GENDER:M";
    "ADR;GEO=""geo:51.5237,0.1585"";LABEL=""Mr Sherlock Holmes, 221B Baker Street, London NW1, England, United Kingdom"":;;221B Baker Street;London;;NW1;United Kingdom";
    "EMAIL;TYPE=home:sherlock.holmes@gmail.com";
    "EMAIL;PREF=1;TYPE=work:detective@sherlockholmes.com";
    "IMPP;PREF=1:xmpp:detective@sherlockholmes.com";
    "LANG;TYPE=work;PREF=1:en";
    "LANG;TYPE=work;PREF=2:fr";
    "TZ:London/Europe";
    "GEO:geo:51.5237,0.1585";
    "TITLE;ALTID=1;LANGUAGE=fr:Patron";
    "TITLE;ALTID=2;LANGUAGE=en:Boss";
    "ROLE:Detective";
    "UID:urn:uuid:b8767877-b4a1-4c70-9acc-505d3819e519";
    "CATEGORIES:FICTION,LITERATURE";
    "PRODID:-//KADDRESSBOOK//NONSGML Version 1//EN";
    "REV:20140722T222710Z";
    "URL;TYPE=home:https://sherlockholmes.com";
    "KEY;MEDIATYPE=application/pgp-keys:https://sherlockholmes.com/sherlock-holmes.pub.asc";
    "CALURI;PREF=1:https://sherlockholmes.com/calendar/sherlockholmes";
    "FBURL;PREF=1:https://sherlockholmes.com/busy/detective";
    "CALADRURI;PREF=1:mailto:detective@sherlockholmes.com";
    "END:VCARD";
    ""]) = Done
  (crlf ["BEGIN:VCARD";
    "VERSION:4.0";
    "ADR;GEO=""geo:51.523701,0.158500"";LABEL=""Mr Sherlock Holmes, 221B Baker Stre";
    " et, London NW1, England, United Kingdom"";TYPE:;;221B Baker Street;London;;";
    " NW1;United Kingdom";
    "ANNIVERSARY;VALUE=DATE:19960415T000000";
    "BDAY;VALUE=DATE:19531015T231000Z";
    "CALADRURI;PREF=1:mailto:detective@sherlockholmes.com";
    "CALURI;PREF=1:https://sherlockholmes.com/calendar/sherlockholmes";
    "CATEGORIES:FICTION,LITERATURE";
    "EMAIL;PREF=1;TYPE=work:detective@sherlockholmes.com";
    "EMAIL;TYPE=home:sherlock.holmes@gmail.com";
    "FBURL;PREF=1:https://sherlockholmes.com/busy/detective";
    "FN:Sherlock Holmes";
    "GENDER:M";
    "GEO:geo:51.523701,0.158500";
    "IMPP;PREF=1:xmpp:detective@sherlockholmes.com";
    "KEY;MEDIATYPE=application/pgp-keys:https://sherlockholmes.com/sherlock-holm";
    " es.pub.asc";
    "KIND:individual";
    "LANG;PREF=1;TYPE=work:en";
    "LANG;PREF=2;TYPE=work:fr";
    "N:Holmes;Sherlock;;Mr;";
    "NICKNAME:Shirley";
    "PRODID:-//KADDRESSBOOK//NONSGML Version 1//EN";
    "REV:20140722T222710Z";
    "ROLE:Detective";
    "TEL;TYPE=""home,voice"";PREF=1;VALUE=uri:tel:+44-555-555-5555;ext=5555";
    "TEL;TYPE=""cell,voice"";VALUE=uri:tel:+44-555-555-6666";
    "TEL;TYPE=""voice,work"";VALUE=uri:tel:+44-555-555-7777";
    "TITLE;ALTID=1;LANGUAGE=fr:Patron";
    "TITLE;ALTID=2;LANGUAGE=en:Boss";
    "TZ:+00:00";
    "UID:urn:uuid:b8767877-b4a1-4c70-9acc-505d3819e519";
    "URL;TYPE=home:https://sherlockholmes.com";
    "END:VCARD";
    ""]).
Proof. vm_compute. reflexivity. Qed.

(** [ImportExportVCardTest::shouldExportMiscElementVcard4], autotests/importexportvcardtest.cpp:125 *)
Example Test_shouldExportMiscElementVcard4 :
  roundtrip V40 true
  (crlf ["BEGIN:VCARD";
    "VERSION:4.0";
    "UID:urn:uuid:4fbe8971-0bc3-424c-9c26-36c3e1eff6b1";
    "FN;PID=1.1:J. Doe";
    "N:Doe;J.;;;";
    "EMAIL;PID=1.1:jdoe@example.com";
    "EMAIL;PID=2.1:boss@example.com";
    "TEL;PID=1.1;VALUE=uri:tel:+1-555-555-5555";
    "TEL;PID=2.1;VALUE=uri:tel:+1-666-666-6666";
    "CLIENTPIDMAP:1;urn:uuid:53e374d9-337e-4727-8803-a1e9c14e0556";
    "END:VCARD";
    ""]) = Done
  (crlf ["BEGIN:VCARD";
    "VERSION:4.0";
    "CLIENTPIDMAP:1;urn:uuid:53e374d9-337e-4727-8803-a1e9c14e0556";
    "EMAIL;PID=1.1:jdoe@example.com";
    "EMAIL;PID=2.1:boss@example.com";
    "FN:J. Doe";
    "N:Doe;J.;;;";
    "TEL;PID=1.1;VALUE=uri:tel:+1-555-555-5555";
    "TEL;PID=2.1;VALUE=uri:tel:+1-666-666-6666";
    "UID:urn:uuid:4fbe8971-0bc3-424c-9c26-36c3e1eff6b1";
    "END:VCARD";
    ""]).
Proof. vm_compute. reflexivity. Qed.

(** [ImportExportVCardTest::shouldExportMemberElementVcard4], autotests/importexportvcardtest.cpp:159 *)
Example Test_shouldExportMemberElementVcard4 :
  roundtrip V40 true
  (crlf ["BEGIN:VCARDVERSION:4.0";
    "KIND:group";
    "FN:Funky distribution list";
    "MEMBER:mailto:subscriber1@example.com";
    "MEMBER:xmpp:subscriber2@example.com";
    "MEMBER:sip:subscriber3@example.com";
    "MEMBER:tel:+1-418-555-5555";
    "UID:c80cf296-0825-4eb0-ab16-1fac1d522a33@xxxxxx.xx";
    "END:VCARD"]) = Done
  (crlf ["BEGIN:VCARD";
    "VERSION:4.0";
    "FN:Funky distribution list";
    "KIND:group";
    "MEMBER:mailto:subscriber1@example.com";
    "MEMBER:xmpp:subscriber2@example.com";
    "MEMBER:sip:subscriber3@example.com";
    "MEMBER:tel:+1-418-555-5555";
    "N:;;;;";
    "UID:c80cf296-0825-4eb0-ab16-1fac1d522a33@xxxxxx.xx";
    "END:VCARD";
    ""]).
Proof. vm_compute. reflexivity. Qed.

(** [ImportExportVCardTest::shouldExportMissingNewlineVcard4], autotests/importexportvcardtest.cpp:193 *)
Example Test_shouldExportMissingNewlineVcard4 :
  roundtrip V40 true
  (crlf ["BEGIN:VCARDVERSION:4.0";
    "KIND:group";
    "FN:Funky distribution list";
    "UID:c80cf296-0825-4eb0-ab16-1fac1d522a33@xxxxxx.xx"] ++ B "END:VCARD") = Done
  (crlf ["BEGIN:VCARD";
    "VERSION:4.0";
    "FN:Funky distribution list";
    "KIND:group";
    "N:;;;;";
    "UID:c80cf296-0825-4eb0-ab16-1fac1d522a33@xxxxxx.xx";
    "END:VCARD";
    ""]).
Proof. vm_compute. reflexivity. Qed.
