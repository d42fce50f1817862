(** The address formats that come with the library, src/addressformatrc, one entry per
    country, in the order of the file.  Made by tools/formats.py.  The patterns for postal
    codes are left out. *)
From Verif Require Import Base.
Import ListNotations.

Definition shipped : list (ustring * list (ustring * ustring)) := [
  (B "AD", [(B "AddressFormat", B "%N%n%O%n%A%n%Z %C")]) (* addressformatrc:1 *);
  (B "AE", [(B "AddressFormat", B "%N%n%O%n%A%n%S"); (B "LatinAddressFormat", B "%N%n%O%n%A%n%S"); (B "Required", B "AS")]) (* addressformatrc:5 *);
  (B "AF", [(B "AddressFormat", B "%N%n%O%n%A%n%C%n%Z")]) (* addressformatrc:10 *);
  (B "AI", [(B "AddressFormat", B "%N%n%O%n%A%n%C%n%Z")]) (* addressformatrc:14 *);
  (B "AL", [(B "AddressFormat", B "%N%n%O%n%A%n%Z%n%C")]) (* addressformatrc:18 *);
  (B "AM", [(B "AddressFormat", B "%N%n%O%n%A%n%Z%n%C%n%S"); (B "LatinAddressFormat", B "%N%n%O%n%A%n%Z%n%C%n%S")]) (* addressformatrc:22 *);
  (B "AR", [(B "AddressFormat", B "%N%n%O%nCasilla de Correo %P%n%A%n%Z %C%n%S"); (B "Upper", B "ACZ")]) (* addressformatrc:27 *);
  (B "AS", [(B "AddressFormat", B "%N%n%O%n%A%n%C %S %Z"); (B "Upper", B "ACNOS"); (B "Required", B "ACSZ")]) (* addressformatrc:32 *);
  (B "AT", [(B "AddressFormat", B "%O%n%N%nPostfach %P%n%A%n%Z %C"); (B "BusinessAddressFormat", B "%O%nz.Hd. %N%nPostfach %P%n%A%n%Z %C")]) (* addressformatrc:38 *);
  (B "AU", [(B "AddressFormat", B "%O%n%N%n%A%nPO BOX %P%n%C %S %Z"); (B "Upper", B "CSR"); (B "Required", B "ACSZ")]) (* addressformatrc:43 *);
  (B "AX", [(B "AddressFormat", B "%O%n%N%nPB %P%n%A%nAX-%Z %C%n%R"); (B "Required", B "ACZ"); (B "Upper", B "R")]) (* addressformatrc:49 *);
  (B "AZ", [(B "AddressFormat", B "%N%n%O%n%A%nAZ %Z %C")]) (* addressformatrc:55 *);
  (B "BA", [(B "AddressFormat", B "%N%n%O%n%A%n%Z %C")]) (* addressformatrc:59 *);
  (B "BB", [(B "AddressFormat", B "%N%n%O%n%A%n%C, %S %Z")]) (* addressformatrc:63 *);
  (B "BD", [(B "AddressFormat", B "%N%n%O%n%A%n%C - %Z")]) (* addressformatrc:67 *);
  (B "BE", [(B "AddressFormat", B "%O%n%N%n%A%nPO Box %P%n%Z %C"); (B "AddressFormat[de]", B "%O%n%N%n%A%nPostfach %P%n%Z %C"); (B "AddressFormat[fr]", B "%O%n%N%n%A%nBP %P%n%Z %C"); (B "AddressFormat[nl]", B "%O%n%N%n%A%nPostbus %P%n%Z %C"); (B "Upper", B "R"); (B "Required", B "ACZ")]) (* addressformatrc:71 *);
  (B "BF", [(B "AddressFormat", B "%N%n%O%n%A%n%C %X")]) (* addressformatrc:80 *);
  (B "BG", [(B "AddressFormat", B "%N%n%O%n%A%n%Z %C")]) (* addressformatrc:83 *);
  (B "BH", [(B "AddressFormat", B "%N%n%O%n%A%n%C %Z")]) (* addressformatrc:87 *);
  (B "BL", [(B "AddressFormat", B "%O%n%N%n%A%nBP %P%n%Z %C %X"); (B "Upper", B "ACXR"); (B "Required", B "ACZ")]) (* addressformatrc:91 *);
  (B "BM", [(B "AddressFormat", B "%N%n%O%n%A%n%C %Z")]) (* addressformatrc:97 *);
  (B "BN", [(B "AddressFormat", B "%N%n%O%n%A%n%C %Z")]) (* addressformatrc:101 *);
  (B "BR", [(B "AddressFormat", B "%O%n%N%nCaixa Postal %P%n%A%n%D%n%C-%S%n%Z"); (B "Upper", B "CS"); (B "Required", B "ASCZ")]) (* addressformatrc:105 *);
  (B "BS", [(B "AddressFormat", B "%N%n%O%n%A%n%C, %S")]) (* addressformatrc:111 *);
  (B "BT", [(B "AddressFormat", B "%N%n%O%n%A%n%C %Z")]) (* addressformatrc:114 *);
  (B "BY", [(B "AddressFormat", B "%O%n%N%n%A%n%Z, %C%n%S")]) (* addressformatrc:118 *);
  (B "CA", [(B "AddressFormat", B "%N%n%O%n%A%nPO BOX %P%n%C %S %Z"); (B "Upper", B "ACNOSZR"); (B "Required", B "ACSZ")]) (* addressformatrc:122 *);
  (B "CC", [(B "AddressFormat", B "%O%n%N%n%A%n%C %S %Z"); (B "Upper", B "CS")]) (* addressformatrc:128 *);
  (B "CH", [(B "AddressFormat", B "%O%n%N%nP.O. Box %P%n%A%n%Z %C"); (B "AddressFormat[de]", B "%O%n%N%nPostfach %P%n%A%n%Z %C"); (B "AddressFormat[fr]", B "%O%n%N%nCase postale %P%n%A%n%Z %C"); (B "AddressFormat[it]", B "%O%n%N%nCasella postale %P%n%A%n%Z %C"); (B "Upper", B "R"); (B "Required", B "ACZ")]) (* addressformatrc:133 *);
  (B "CI", [(B "AddressFormat", B "%N%n%O%n%X %A %C %X")]) (* addressformatrc:142 *);
  (B "CL", [(B "AddressFormat", B "%N%n%O%n%A%n%Z %C%n%S")]) (* addressformatrc:145 *);
  (B "CN", [(B "AddressFormat", B "%Z%n%S%C%D%n%A%n%O%n%N"); (B "LatinAddressFormat", B "%N%n%O%n%A%n%D%n%C%n%S, %Z"); (B "Upper", B "S"); (B "Required", B "ACSZ")]) (* addressformatrc:149 *);
  (B "CO", [(B "AddressFormat", B "%N%n%O%n%A%n%C, %S, %Z"); (B "Required", B "AS")]) (* addressformatrc:156 *);
  (B "CR", [(B "AddressFormat", B "%N%n%O%n%A%n%S, %C%n%Z"); (B "Required", B "ACS")]) (* addressformatrc:161 *);
  (B "CU", [(B "AddressFormat", B "%N%n%O%n%A%n%C %S%n%Z")]) (* addressformatrc:166 *);
  (B "CV", [(B "AddressFormat", B "%N%n%O%n%A%n%Z %C%n%S")]) (* addressformatrc:170 *);
  (B "CX", [(B "AddressFormat", B "%O%n%N%n%A%n%C %S %Z"); (B "Upper", B "CS")]) (* addressformatrc:174 *);
  (B "CY", [(B "AddressFormat", B "%N%n%O%n%A%n%Z %C")]) (* addressformatrc:179 *);
  (B "CZ", [(B "AddressFormat", B "%N%np." ++ [8201%N] ++ B "p. %P%n%O%n%A%n%Z %C"); (B "Upper", B "R"); (B "Required", B "ACZ")]) (* addressformatrc:183 *);
  (B "DE", [(B "AddressFormat", B "%N%n%O%nPostfach %P%n%A%n%Z %C"); (B "AddressFormat[nds]", B "%N%n- %O -%nPostfach %P%n%A%n%Z %C"); (B "Upper", B "R"); (B "Required", B "ACZ")]) (* addressformatrc:189 *);
  (B "DK", [(B "AddressFormat", B "%N%n%O%n%A%nPostboks %P%n%Z %C"); (B "Required", B "ACZ")]) (* addressformatrc:196 *);
  (B "DO", [(B "AddressFormat", B "%N%n%O%n%A%n%Z %C")]) (* addressformatrc:201 *);
  (B "DZ", [(B "AddressFormat", B "%N%n%O%n%A%n%Z %C")]) (* addressformatrc:205 *);
  (B "EC", [(B "AddressFormat", B "%N%n%O%n%A%n%Z%n%C"); (B "Upper", B "CZ")]) (* addressformatrc:209 *);
  (B "EE", [(B "AddressFormat", B "%N%n%O%n%A%n%Z %C"); (B "Required", B "ACZ")]) (* addressformatrc:214 *);
  (B "EG", [(B "AddressFormat", B "%N%n%O%n%A%n%C%n%S%n%Z"); (B "LatinAddressFormat", B "%N%n%O%n%A%n%C%n%S%n%Z")]) (* addressformatrc:219 *);
  (B "EH", [(B "AddressFormat", B "%N%n%O%n%A%n%Z %C")]) (* addressformatrc:224 *);
  (B "ES", [(B "AddressFormat", B "%N%n%O%nApartado Postal %P%n%A%n%Z %C %S"); (B "Upper", B "CS"); (B "Required", B "ACSZ")]) (* addressformatrc:228 *);
  (B "ET", [(B "AddressFormat", B "%N%n%O%n%A%n%Z %C")]) (* addressformatrc:234 *);
  (B "FI", [(B "AddressFormat", B "%O%n%N%nPB %P%n%A%nFI-%Z %C"); (B "Upper", B "R"); (B "Required", B "ACZ")]) (* addressformatrc:238 *);
  (B "FK", [(B "AddressFormat", B "%N%n%O%n%A%n%C%n%Z"); (B "Upper", B "CZ"); (B "Required", B "ACZ")]) (* addressformatrc:244 *);
  (B "FM", [(B "AddressFormat", B "%N%n%O%n%A%n%C %S %Z"); (B "Upper", B "ACNOS"); (B "Required", B "ACSZ")]) (* addressformatrc:250 *);
  (B "FO", [(B "AddressFormat", B "%N%n%O%n%A%nFO%Z %C")]) (* addressformatrc:256 *);
  (B "FR", [(B "AddressFormat", B "%O%n%N%n%A%nBP %P%n%Z %C"); (B "Upper", B "CR"); (B "Required", B "ACZ")]) (* addressformatrc:260 *);
  (B "GB", [(B "AddressFormat", B "%N%n%O%nPO Box %P%n%A%n%C%n%Z"); (B "Upper", B "CZR"); (B "Required", B "ACZ")]) (* addressformatrc:266 *);
  (B "GE", [(B "AddressFormat", B "%N%n%O%n%A%n%Z %C")]) (* addressformatrc:272 *);
  (B "GF", [(B "AddressFormat", B "%O%n%N%n%A%n%Z %C %X"); (B "Upper", B "ACX"); (B "Required", B "ACZ")]) (* addressformatrc:276 *);
  (B "GG", [(B "AddressFormat", B "%N%n%O%n%A%n%C%nGUERNSEY%n%Z"); (B "Upper", B "CZ"); (B "Required", B "ACZ")]) (* addressformatrc:282 *);
  (B "GI", [(B "AddressFormat", B "%N%n%O%n%A%nGIBRALTAR%n%Z"); (B "Required", B "A")]) (* addressformatrc:288 *);
  (B "GL", [(B "AddressFormat", B "%N%n%O%n%A%n(Postboks %P%n%Z %C"); (B "Required", B "ACZ")]) (* addressformatrc:293 *);
  (B "GN", [(B "AddressFormat", B "%N%n%O%n%Z %A %C")]) (* addressformatrc:298 *);
  (B "GP", [(B "AddressFormat", B "%O%n%N%n%A%n%Z %C %X"); (B "Upper", B "ACX"); (B "Required", B "ACZ")]) (* addressformatrc:302 *);
  (B "GR", [(B "AddressFormat", B "%N%n%O%n%A%nP.O. BOX %P%n%Z %C"); (B "Upper", B "R"); (B "Required", B "ACZ")]) (* addressformatrc:308 *);
  (B "GS", [(B "AddressFormat", B "%N%n%O%n%A%n%n%C%n%Z"); (B "Upper", B "CZ"); (B "Required", B "ACZ")]) (* addressformatrc:314 *);
  (B "GT", [(B "AddressFormat", B "%N%n%O%n%A%n%Z- %C")]) (* addressformatrc:320 *);
  (B "GU", [(B "AddressFormat", B "%N%n%O%n%A%n%C %Z"); (B "Upper", B "ACNO"); (B "Required", B "ACZ")]) (* addressformatrc:324 *);
  (B "GW", [(B "AddressFormat", B "%N%n%O%n%A%n%Z %C")]) (* addressformatrc:330 *);
  (B "HK", [(B "AddressFormat", B "%S%n%C%n%A%n%O%n%N"); (B "LatinAddressFormat", B "%N%n%O%n%A%n%C%n%S"); (B "Upper", B "S"); (B "Required", B "AS")]) (* addressformatrc:334 *);
  (B "HM", [(B "AddressFormat", B "%O%n%N%n%A%n%C %S %Z"); (B "Upper", B "CS")]) (* addressformatrc:340 *);
  (B "HN", [(B "AddressFormat", B "%N%n%O%n%A%n%C, %S%n%Z"); (B "Required", B "ACS")]) (* addressformatrc:345 *);
  (B "HR", [(B "AddressFormat", B "%N%n%O%n%A%nHR-%Z %C")]) (* addressformatrc:350 *);
  (B "HT", [(B "AddressFormat", B "%N%n%O%n%A%nHT%Z %C")]) (* addressformatrc:354 *);
  (B "HU", [(B "AddressFormat", B "%N%n%O%n%C%n%A%nPF. %P%n%Z"); (B "Upper", B "ACNO"); (B "Required", B "ACZ")]) (* addressformatrc:358 *);
  (B "ID", [(B "AddressFormat", B "%N%n%O%n%A%n%C%n%S %Z"); (B "Required", B "AS")]) (* addressformatrc:364 *);
  (B "IE", [(B "AddressFormat", B "%N%n%O%n%A%n%D%n%C%n%S%n%Z")]) (* addressformatrc:369 *);
  (B "IL", [(B "AddressFormat", B "%N%n%O" ++ [1514%N] ++ B "." ++ [1491%N] ++ B ". %P%n%n%A%n%C %Z"); (B "Upper", B "R")]) (* addressformatrc:373 *);
  (B "IM", [(B "AddressFormat", B "%N%n%O%n%A%n%C%n%Z"); (B "Upper", B "CZ"); (B "Required", B "ACZ")]) (* addressformatrc:378 *);
  (B "IN", [(B "AddressFormat", B "%N%n%O%n%A%n%C %Z%n%S"); (B "Required", B "ACSZ")]) (* addressformatrc:384 *);
  (B "IO", [(B "AddressFormat", B "%N%n%O%n%A%n%C%n%Z"); (B "Upper", B "CZ"); (B "Required", B "ACZ")]) (* addressformatrc:389 *);
  (B "IQ", [(B "AddressFormat", B "%O%n%N%n%A%n%C, %S%n%Z"); (B "Upper", B "CS"); (B "Required", B "ACS")]) (* addressformatrc:395 *);
  (B "IR", [(B "AddressFormat", B "%O%n%N%n%S%n%C, %D%n%A%n%Z")]) (* addressformatrc:401 *);
  (B "IS", [(B "AddressFormat", B "%N%n%O%n%A%n%Z %C")]) (* addressformatrc:405 *);
  (B "IT", [(B "AddressFormat", B "%N%n%O%n%A%nCASELLA POSTALE %P%n%Z %C %S"); (B "Upper", B "CSR"); (B "Required", B "ACSZ")]) (* addressformatrc:409 *);
  (B "JE", [(B "AddressFormat", B "%N%n%O%n%A%n%C%nJERSEY%n%Z"); (B "Upper", B "CZ")]) (* addressformatrc:415 *);
  (B "JM", [(B "AddressFormat", B "%N%n%O%n%A%n%C%n%S %X"); (B "Required", B "ACS")]) (* addressformatrc:420 *);
  (B "JO", [(B "AddressFormat", B "%N%n%O%n%A%n%C %Z")]) (* addressformatrc:424 *);
  (B "JP", [(B "AddressFormat", B "%R%n" ++ [12306%N] ++ B "%Z%n%S%C%A%n%O%n%N"); (B "LatinAddressFormat", B "%N%n%O%n%A, %C%n%S %Z"); (B "Upper", B "SR"); (B "Required", B "ASZ")]) (* addressformatrc:428 *);
  (B "KE", [(B "AddressFormat", B "%N%n%O%n%A%n%C%n%Z")]) (* addressformatrc:435 *);
  (B "KG", [(B "AddressFormat", B "%N%n%O%n%A%n%Z %C")]) (* addressformatrc:439 *);
  (B "KH", [(B "AddressFormat", B "%N%n%O%n%A%nP.O. Box %P%n%C %Z"); (B "Upper", B "R")]) (* addressformatrc:443 *);
  (B "KI", [(B "AddressFormat", B "%N%n%O%n%A%n%S%n%C"); (B "Upper", B "ACNOS")]) (* addressformatrc:448 *);
  (B "KN", [(B "AddressFormat", B "%N%n%O%n%A%n%C, %S"); (B "Required", B "ACS")]) (* addressformatrc:452 *);
  (B "KR", [(B "AddressFormat", B "%R%n%S %C%D%n%A%n%O%n%N%n%Z"); (B "LatinAddressFormat", B "%N%n%O%n%A%n%D%n%C%n%S%n%Z"); (B "Upper", B "Z"); (B "Required", B "ACSZ")]) (* addressformatrc:456 *);
  (B "KW", [(B "AddressFormat", B "%N%n%O%n%A%n%Z %C")]) (* addressformatrc:463 *);
  (B "KY", [(B "AddressFormat", B "%N%n%O%n%A%n%S %Z"); (B "Required", B "AS")]) (* addressformatrc:467 *);
  (B "KZ", [(B "AddressFormat", B "%Z%n%S%n%C%n%A%n%O%n%N")]) (* addressformatrc:472 *);
  (B "LA", [(B "AddressFormat", B "%N%n%O%n%A%n%Z %C")]) (* addressformatrc:476 *);
  (B "LB", [(B "AddressFormat", B "%N%n%O%n%A%n%C %Z")]) (* addressformatrc:480 *);
  (B "LI", [(B "AddressFormat", B "%O%n%N%n%A%nFL-%Z %C"); (B "Required", B "ACZ")]) (* addressformatrc:484 *);
  (B "LK", [(B "AddressFormat", B "%N%n%O%n%A%n%C%n%Z")]) (* addressformatrc:489 *);
  (B "LR", [(B "AddressFormat", B "%N%n%O%n%A%n%Z %C")]) (* addressformatrc:493 *);
  (B "LS", [(B "AddressFormat", B "%N%n%O%n%A%n%C %Z")]) (* addressformatrc:497 *);
  (B "LT", [(B "AddressFormat", B "%O%n%N%n%A%nLT-%Z %C"); (B "Required", B "ACZ")]) (* addressformatrc:501 *);
  (B "LU", [(B "AddressFormat", B "%O%n%N%nPO Box %P%n%A%nL-%Z %C"); (B "AddressFormat[fr]", B "%O%n%N%nBP %P%n%A%nL-%Z %C"); (B "AddressFormat[de]", B "%O%n%N%nPostfach %P%n%A%nL-%Z %C"); (B "Upper", B "R"); (B "Required", B "ACZ")]) (* addressformatrc:506 *);
  (B "LV", [(B "AddressFormat", B "%N%n%O%n%A%n%C, %Z"); (B "Required", B "ACZ")]) (* addressformatrc:514 *);
  (B "MA", [(B "AddressFormat", B "%N%n%O%n%A%n%Z %C")]) (* addressformatrc:519 *);
  (B "MC", [(B "AddressFormat", B "%N%n%O%n%A%nMC-%Z %C %X")]) (* addressformatrc:523 *);
  (B "MD", [(B "AddressFormat", B "%N%n%O%n%A%nMD-%Z %C")]) (* addressformatrc:527 *);
  (B "ME", [(B "AddressFormat", B "%N%n%O%n%A%npo" ++ [353%N] ++ B "tanski fah %P%n%Z %C"); (B "AddressFormat[sr]", B "%N%n%O%n%A%n" ++ [1087%N] ++ [1086%N] ++ [1096%N] ++ [1090%N] ++ [1072%N] ++ [1085%N] ++ [1089%N] ++ [1082%N] ++ [1080%N] ++ B " " ++ [1092%N] ++ [1072%N] ++ [1093%N] ++ B " %P%n%Z %C"); (B "Upper", B "R"); (B "Required", B "ACZ")]) (* addressformatrc:531 *);
  (B "MF", [(B "AddressFormat", B "%O%n%N%n%A%nBP %P%n%Z %C %X"); (B "Upper", B "ACXR")]) (* addressformatrc:538 *);
  (B "MG", [(B "AddressFormat", B "%N%n%O%n%A%n%Z %C")]) (* addressformatrc:543 *);
  (B "MH", [(B "AddressFormat", B "%N%n%O%n%A%n%C %S %Z"); (B "Upper", B "ACNOS"); (B "Required", B "ACSZ")]) (* addressformatrc:547 *);
  (B "MK", [(B "AddressFormat", B "%N%n%O%n%A%n%Z %C")]) (* addressformatrc:553 *);
  (B "MM", [(B "AddressFormat", B "%N%n%O%n%A%n%C, %Z")]) (* addressformatrc:557 *);
  (B "MN", [(B "AddressFormat", B "%N%n%O%n%A%n%C%n%S %Z")]) (* addressformatrc:561 *);
  (B "MO", [(B "AddressFormat", B "%A%n%O%n%N"); (B "LatinAddressFormat", B "%N%n%O%n%A"); (B "Required", B "A")]) (* addressformatrc:565 *);
  (B "MP", [(B "AddressFormat", B "%N%n%O%n%A%nPO BOX %P%n%C %S %Z"); (B "Upper", B "ACNOSR"); (B "Required", B "ACSZ")]) (* addressformatrc:570 *);
  (B "MQ", [(B "AddressFormat", B "%O%n%N%n%A%n%Z %C %X"); (B "Upper", B "ACX"); (B "Required", B "ACZ")]) (* addressformatrc:576 *);
  (B "MT", [(B "AddressFormat", B "%N%n%O%n%A%n%C %Z"); (B "Upper", B "CZ")]) (* addressformatrc:582 *);
  (B "MU", [(B "AddressFormat", B "%N%n%O%n%A%n%Z%n%C"); (B "Upper", B "CZ")]) (* addressformatrc:587 *);
  (B "MV", [(B "AddressFormat", B "%N%n%O%n%A%n%C %Z")]) (* addressformatrc:592 *);
  (B "MW", [(B "AddressFormat", B "%N%n%O%n%A%n%C %X")]) (* addressformatrc:596 *);
  (B "MX", [(B "AddressFormat", B "%N%n%O%n%A%n%D%n%Z %C, %S"); (B "Upper", B "CSZ"); (B "Required", B "ACSZ")]) (* addressformatrc:599 *);
  (B "MZ", [(B "AddressFormat", B "%N%n%O%n%A%n%Z %C%S")]) (* addressformatrc:605 *);
  (B "NA", [(B "AddressFormat", B "%N%n%O%n%A%n%C%nP.O. Box %P%n%Z")]) (* addressformatrc:609 *);
  (B "NC", [(B "AddressFormat", B "%O%n%N%n%A%n%Z %C %X"); (B "Upper", B "ACX"); (B "Required", B "ACZ")]) (* addressformatrc:613 *);
  (B "NE", [(B "AddressFormat", B "%N%n%O%n%A%n%Z %C")]) (* addressformatrc:619 *);
  (B "NF", [(B "AddressFormat", B "%O%n%N%n%A%n%C %S %Z"); (B "Upper", B "CS")]) (* addressformatrc:623 *);
  (B "NG", [(B "AddressFormat", B "%N%n%O%n%A%n%D%n%C %Z%n%S"); (B "Upper", B "CS")]) (* addressformatrc:628 *);
  (B "NI", [(B "AddressFormat", B "%N%n%O%n%A%n%Z%n%C, %S"); (B "Upper", B "CS")]) (* addressformatrc:633 *);
  (B "NL", [(B "AddressFormat", B "%O%n%N%nPostbus %P%n%A%n%Z %C"); (B "Required", B "ACZ")]) (* addressformatrc:638 *);
  (B "NO", [(B "AddressFormat", B "%N%n%O%nPostboks %P%n%A%n%Z %C"); (B "Upper", B "R"); (B "Required", B "ACZ")]) (* addressformatrc:643 *);
  (B "NP", [(B "AddressFormat", B "%N%n%O%n%A%n%C %Z")]) (* addressformatrc:649 *);
  (B "NR", [(B "AddressFormat", B "%N%n%O%n%A%n%S"); (B "Required", B "AS")]) (* addressformatrc:653 *);
  (B "NZ", [(B "AddressFormat", B "%N%n%O%nPO Box %P%n%A%n%D%n%C %Z"); (B "Upper", B "R"); (B "Required", B "ACZ")]) (* addressformatrc:657 *);
  (B "OM", [(B "AddressFormat", B "%N%n%O%n%A%n%Z%n%C")]) (* addressformatrc:663 *);
  (B "PA", [(B "AddressFormat", B "%N%n%O%n%A%n%C%n%S"); (B "Upper", B "CS")]) (* addressformatrc:667 *);
  (B "PE", [(B "AddressFormat", B "%N%n%O%n%A%n%C %Z%n%S")]) (* addressformatrc:671 *);
  (B "PF", [(B "AddressFormat", B "%N%n%O%n%A%n%Z %C %S"); (B "Upper", B "CS"); (B "Required", B "ACSZ")]) (* addressformatrc:675 *);
  (B "PG", [(B "AddressFormat", B "%N%n%O%n%A%n%C %Z %S"); (B "Required", B "ACS")]) (* addressformatrc:681 *);
  (B "PH", [(B "AddressFormat", B "%N%n%O%n%A%n%D, %C%n%Z %S")]) (* addressformatrc:686 *);
  (B "PK", [(B "AddressFormat", B "%N%n%O%n%A%n%C-%Z")]) (* addressformatrc:690 *);
  (B "PL", [(B "AddressFormat", B "%N%n%O%n%A%n%Z %C"); (B "Required", B "ACZ")]) (* addressformatrc:694 *);
  (B "PM", [(B "AddressFormat", B "%O%n%N%n%A%n%Z %C %X"); (B "Upper", B "ACX"); (B "Required", B "ACZ")]) (* addressformatrc:699 *);
  (B "PN", [(B "AddressFormat", B "%N%n%O%n%A%n%C%n%Z"); (B "Upper", B "CZ"); (B "Required", B "ACZ")]) (* addressformatrc:705 *);
  (B "PR", [(B "AddressFormat", B "%N%n%O%n%A%n%C PR %Z"); (B "Upper", B "ACNO"); (B "Required", B "ACZ")]) (* addressformatrc:711 *);
  (B "PT", [(B "AddressFormat", B "%N%n%O%n%A%n%Z %C"); (B "Required", B "ACZ")]) (* addressformatrc:717 *);
  (B "PW", [(B "AddressFormat", B "%N%n%O%n%A%n%C %S %Z"); (B "Upper", B "ACNOS"); (B "Required", B "ACSZ")]) (* addressformatrc:722 *);
  (B "PY", [(B "AddressFormat", B "%N%n%O%n%A%n%Z %C")]) (* addressformatrc:728 *);
  (B "RE", [(B "AddressFormat", B "%O%n%N%n%A%n%Z %C %X"); (B "Upper", B "ACX"); (B "Required", B "ACZ")]) (* addressformatrc:732 *);
  (B "RO", [(B "AddressFormat", B "%N%n%O%n%A%n%Z %C"); (B "Upper", B "AC"); (B "Required", B "ACZ")]) (* addressformatrc:738 *);
  (B "RS", [(B "AddressFormat", B "%N%n%O%n%A%n" ++ [1087%N] ++ [1086%N] ++ [1096%N] ++ [1090%N] ++ [1072%N] ++ [1085%N] ++ [1089%N] ++ [1082%N] ++ [1080%N] ++ B " " ++ [1092%N] ++ [1072%N] ++ [1093%N] ++ B " %P%n%Z %C"); (B "AddressFormat[sr@latin]", B "%N%n%O%n%A%npo" ++ [353%N] ++ B "tanski fah %P%n%Z %C"); (B "Upper", B "R"); (B "Required", B "ACZ")]) (* addressformatrc:744 *);
  (B "RU", [(B "AddressFormat", B "%N%n%O%n%A%n%C%n%S%n%Z"); (B "LatinAddressFormat", B "%N%n%O%n%A%n%C%n%S%n%Z"); (B "Upper", B "AC")]) (* addressformatrc:751 *);
  (B "SA", [(B "AddressFormat", B "%N%n%O%n%A%n%C %Z")]) (* addressformatrc:757 *);
  (B "SC", [(B "AddressFormat", B "%N%n%O%n%A%n%C%n%S"); (B "Upper", B "S")]) (* addressformatrc:761 *);
  (B "SD", [(B "AddressFormat", B "%N%n%O%n%A%n%C%n%Z")]) (* addressformatrc:765 *);
  (B "SE", [(B "AddressFormat", B "%O%n%N%nBox %P%n%A%nSE-%Z %C"); (B "Required", B "ACZ")]) (* addressformatrc:769 *);
  (B "SG", [(B "AddressFormat", B "%N%n%O%n%A%nSINGAPORE %Z"); (B "Required", B "AZ")]) (* addressformatrc:774 *);
  (B "SH", [(B "AddressFormat", B "%N%n%O%n%A%n%C%n%Z"); (B "Upper", B "CZ"); (B "Required", B "ACZ")]) (* addressformatrc:779 *);
  (B "SI", [(B "AddressFormat", B "%N%n%O%n%A%np.p. %P%nSI-%Z %C")]) (* addressformatrc:785 *);
  (B "SJ", [(B "AddressFormat", B "%N%n%O%n%A%n%Z %C"); (B "Required", B "ACZ")]) (* addressformatrc:789 *);
  (B "SK", [(B "AddressFormat", B "%N%n%O%n%A%n%Z %C"); (B "Required", B "ACZ")]) (* addressformatrc:794 *);
  (B "SM", [(B "AddressFormat", B "%N%n%O%n%A%n%Z %C"); (B "Required", B "AZ")]) (* addressformatrc:799 *);
  (B "SN", [(B "AddressFormat", B "%N%n%O%n%A%n%Z %C")]) (* addressformatrc:804 *);
  (B "SO", [(B "AddressFormat", B "%N%n%O%n%A%n%C, %S %Z"); (B "Upper", B "ACS"); (B "Required", B "ACS")]) (* addressformatrc:808 *);
  (B "SR", [(B "AddressFormat", B "%N%n%O%n%A%n%C%n%S"); (B "Upper", B "AS")]) (* addressformatrc:814 *);
  (B "SV", [(B "AddressFormat", B "%N%n%O%n%A%n%Z-%C%n%S"); (B "Upper", B "CSZ"); (B "Required", B "ACS")]) (* addressformatrc:818 *);
  (B "SZ", [(B "AddressFormat", B "%N%n%O%n%A%n%C%n%Z"); (B "Upper", B "ACZ")]) (* addressformatrc:824 *);
  (B "TC", [(B "AddressFormat", B "%N%n%O%n%A%n%C%n%Z"); (B "Upper", B "CZ"); (B "Required", B "ACZ")]) (* addressformatrc:829 *);
  (B "TH", [(B "AddressFormat", B "%N%n%O%n%A%n%D %C%n%S %Z"); (B "LatinAddressFormat", B "%N%n%O%n%A%n%D, %C%n%S %Z"); (B "Upper", B "S")]) (* addressformatrc:835 *);
  (B "TJ", [(B "AddressFormat", B "%N%n%O%n%A%n%Z %C")]) (* addressformatrc:841 *);
  (B "TM", [(B "AddressFormat", B "%N%n%O%n%A%n%Z %C")]) (* addressformatrc:845 *);
  (B "TN", [(B "AddressFormat", B "%N%n%O%n%A%n%Z %C")]) (* addressformatrc:849 *);
  (B "TR", [(B "AddressFormat", B "%N%n%O%n%A%n%Z %C/%S"); (B "Required", B "ACZ")]) (* addressformatrc:853 *);
  (B "TV", [(B "AddressFormat", B "%N%n%O%n%A%n%C%n%S"); (B "Upper", B "ACS")]) (* addressformatrc:858 *);
  (B "TW", [(B "AddressFormat", B "%Z%n%S%C%n%A%n%O%n%N"); (B "LatinAddressFormat", B "%N%n%O%n%A%n%C, %S %Z"); (B "Required", B "ACSZ")]) (* addressformatrc:862 *);
  (B "TZ", [(B "AddressFormat", B "%N%n%O%n%A%n%Z %C")]) (* addressformatrc:868 *);
  (B "UA", [(B "AddressFormat", B "%N%n%O%n%A%n%C%n%S%n%Z"); (B "LatinAddressFormat", B "%N%n%O%n%A%n%C%n%S%n%Z"); (B "Required", B "ACZ")]) (* addressformatrc:872 *);
  (B "UM", [(B "AddressFormat", B "%N%n%O%n%A%n%C %S %Z"); (B "Upper", B "ACNOS"); (B "Required", B "ACS")]) (* addressformatrc:878 *);
  (B "US", [(B "AddressFormat", B "%N%n%O%n%A%nPO BOX %P%n%C, %S %Z"); (B "Upper", B "CSR"); (B "Required", B "ACSZ")]) (* addressformatrc:884 *);
  (B "UY", [(B "AddressFormat", B "%N%n%O%n%A%n%Z %C %S"); (B "Upper", B "CS")]) (* addressformatrc:890 *);
  (B "UZ", [(B "AddressFormat", B "%N%n%O%n%A%n%Z %C%n%S"); (B "Upper", B "CS")]) (* addressformatrc:895 *);
  (B "VA", [(B "AddressFormat", B "%N%n%O%n%A%n%Z %C")]) (* addressformatrc:900 *);
  (B "VC", [(B "AddressFormat", B "%N%n%O%n%A%n%C %Z")]) (* addressformatrc:904 *);
  (B "VE", [(B "AddressFormat", B "%N%n%O%n%A%n%C %Z, %S"); (B "Upper", B "CS"); (B "Required", B "ACS")]) (* addressformatrc:908 *);
  (B "VG", [(B "AddressFormat", B "%N%n%O%n%A%n%C%n%Z"); (B "Required", B "A")]) (* addressformatrc:914 *);
  (B "VI", [(B "AddressFormat", B "%N%n%O%n%A%n%C %S %Z"); (B "Upper", B "ACNOS"); (B "Required", B "ACSZ")]) (* addressformatrc:919 *);
  (B "VN", [(B "AddressFormat", B "%N%n%O%n%A%n%C%n%S %Z"); (B "LatinAddressFormat", B "%N%n%O%n%A%n%C%n%S %Z")]) (* addressformatrc:925 *);
  (B "WF", [(B "AddressFormat", B "%O%n%N%n%A%n%Z %C %X"); (B "Upper", B "ACX"); (B "Required", B "ACZ")]) (* addressformatrc:930 *);
  (B "YT", [(B "AddressFormat", B "%O%n%N%n%A%n%Z %C %X"); (B "Upper", B "ACX"); (B "Required", B "ACZ")]) (* addressformatrc:936 *);
  (B "ZA", [(B "AddressFormat", B "%N%n%O%n%A%n%D%n%C%n%Z"); (B "Required", B "ACZ")]) (* addressformatrc:942 *);
  (B "ZM", [(B "AddressFormat", B "%N%n%O%n%A%n%Z %C")]) (* addressformatrc:947 *)
].

(** [QMap]-like lookup of a section or an entry *)
Fixpoint entry {A} (k : ustring) (l : list (ustring * A)) : option A :=
  match l with [] => None | (q, v) :: r => if leqb q k then Some v else entry k r end.
(** [KConfigGroup::readEntry] on the file: the entry for the language of the user, if there
    is one, else the entry without language, addressformat.cpp:112-133 *)
Definition shipped_config (lang country key : ustring) : option ustring :=
  match entry country shipped with
  | None => None
  | Some es => match entry (key ++ B "[" ++ lang ++ B "]") es with Some v => Some v | None => entry key es end
  end.
