(** The address formats that the library ships, addressformatrc:1-949: the groups of the
    file in its order, each with its entries.  The entries [PostalCodeFormat] are left out
    (nothing modelled reads them).  Texts are UTF-8, as in the file; no entry kept here
    contains a backslash, so the escapes of the file format do not matter. *)
From Verif Require Import Base Utf8 M_AddressFormat.
From Coq Require Import String.
Open Scope string_scope.

Definition bundled : list (string * list (string * string)) := [
  ("AD", [("AddressFormat", "%N%n%O%n%A%n%Z %C")]);
  ("AE", [("AddressFormat", "%N%n%O%n%A%n%S"); ("LatinAddressFormat", "%N%n%O%n%A%n%S"); ("Required", "AS")]);
  ("AF", [("AddressFormat", "%N%n%O%n%A%n%C%n%Z")]);
  ("AI", [("AddressFormat", "%N%n%O%n%A%n%C%n%Z")]);
  ("AL", [("AddressFormat", "%N%n%O%n%A%n%Z%n%C")]);
  ("AM", [("AddressFormat", "%N%n%O%n%A%n%Z%n%C%n%S"); ("LatinAddressFormat", "%N%n%O%n%A%n%Z%n%C%n%S")]);
  ("AR", [("AddressFormat", "%N%n%O%nCasilla de Correo %P%n%A%n%Z %C%n%S"); ("Upper", "ACZ")]);
  ("AS", [("AddressFormat", "%N%n%O%n%A%n%C %S %Z"); ("Upper", "ACNOS"); ("Required", "ACSZ")]);
  ("AT", [("AddressFormat", "%O%n%N%nPostfach %P%n%A%n%Z %C"); ("BusinessAddressFormat", "%O%nz.Hd. %N%nPostfach %P%n%A%n%Z %C")]);
  ("AU", [("AddressFormat", "%O%n%N%n%A%nPO BOX %P%n%C %S %Z"); ("Upper", "CSR"); ("Required", "ACSZ")]);
  ("AX", [("AddressFormat", "%O%n%N%nPB %P%n%A%nAX-%Z %C%n%R"); ("Required", "ACZ"); ("Upper", "R")]);
  ("AZ", [("AddressFormat", "%N%n%O%n%A%nAZ %Z %C")]);
  ("BA", [("AddressFormat", "%N%n%O%n%A%n%Z %C")]);
  ("BB", [("AddressFormat", "%N%n%O%n%A%n%C, %S %Z")]);
  ("BD", [("AddressFormat", "%N%n%O%n%A%n%C - %Z")]);
  ("BE", [("AddressFormat", "%O%n%N%n%A%nPO Box %P%n%Z %C"); ("AddressFormat[de]", "%O%n%N%n%A%nPostfach %P%n%Z %C"); ("AddressFormat[fr]", "%O%n%N%n%A%nBP %P%n%Z %C"); ("AddressFormat[nl]", "%O%n%N%n%A%nPostbus %P%n%Z %C"); ("Upper", "R"); ("Required", "ACZ")]);
  ("BF", [("AddressFormat", "%N%n%O%n%A%n%C %X")]);
  ("BG", [("AddressFormat", "%N%n%O%n%A%n%Z %C")]);
  ("BH", [("AddressFormat", "%N%n%O%n%A%n%C %Z")]);
  ("BL", [("AddressFormat", "%O%n%N%n%A%nBP %P%n%Z %C %X"); ("Upper", "ACXR"); ("Required", "ACZ")]);
  ("BM", [("AddressFormat", "%N%n%O%n%A%n%C %Z")]);
  ("BN", [("AddressFormat", "%N%n%O%n%A%n%C %Z")]);
  ("BR", [("AddressFormat", "%O%n%N%nCaixa Postal %P%n%A%n%D%n%C-%S%n%Z"); ("Upper", "CS"); ("Required", "ASCZ")]);
  ("BS", [("AddressFormat", "%N%n%O%n%A%n%C, %S")]);
  ("BT", [("AddressFormat", "%N%n%O%n%A%n%C %Z")]);
  ("BY", [("AddressFormat", "%O%n%N%n%A%n%Z, %C%n%S")]);
  ("CA", [("AddressFormat", "%N%n%O%n%A%nPO BOX %P%n%C %S %Z"); ("Upper", "ACNOSZR"); ("Required", "ACSZ")]);
  ("CC", [("AddressFormat", "%O%n%N%n%A%n%C %S %Z"); ("Upper", "CS")]);
  ("CH", [("AddressFormat", "%O%n%N%nP.O. Box %P%n%A%n%Z %C"); ("AddressFormat[de]", "%O%n%N%nPostfach %P%n%A%n%Z %C"); ("AddressFormat[fr]", "%O%n%N%nCase postale %P%n%A%n%Z %C"); ("AddressFormat[it]", "%O%n%N%nCasella postale %P%n%A%n%Z %C"); ("Upper", "R"); ("Required", "ACZ")]);
  ("CI", [("AddressFormat", "%N%n%O%n%X %A %C %X")]);
  ("CL", [("AddressFormat", "%N%n%O%n%A%n%Z %C%n%S")]);
  ("CN", [("AddressFormat", "%Z%n%S%C%D%n%A%n%O%n%N"); ("LatinAddressFormat", "%N%n%O%n%A%n%D%n%C%n%S, %Z"); ("Upper", "S"); ("Required", "ACSZ")]);
  ("CO", [("AddressFormat", "%N%n%O%n%A%n%C, %S, %Z"); ("Required", "AS")]);
  ("CR", [("AddressFormat", "%N%n%O%n%A%n%S, %C%n%Z"); ("Required", "ACS")]);
  ("CU", [("AddressFormat", "%N%n%O%n%A%n%C %S%n%Z")]);
  ("CV", [("AddressFormat", "%N%n%O%n%A%n%Z %C%n%S")]);
  ("CX", [("AddressFormat", "%O%n%N%n%A%n%C %S %Z"); ("Upper", "CS")]);
  ("CY", [("AddressFormat", "%N%n%O%n%A%n%Z %C")]);
  ("CZ", [("AddressFormat", "%N%np. p. %P%n%O%n%A%n%Z %C"); ("Upper", "R"); ("Required", "ACZ")]);
  ("DE", [("AddressFormat", "%N%n%O%nPostfach %P%n%A%n%Z %C"); ("AddressFormat[nds]", "%N%n- %O -%nPostfach %P%n%A%n%Z %C"); ("Upper", "R"); ("Required", "ACZ")]);
  ("DK", [("AddressFormat", "%N%n%O%n%A%nPostboks %P%n%Z %C"); ("Required", "ACZ")]);
  ("DO", [("AddressFormat", "%N%n%O%n%A%n%Z %C")]);
  ("DZ", [("AddressFormat", "%N%n%O%n%A%n%Z %C")]);
  ("EC", [("AddressFormat", "%N%n%O%n%A%n%Z%n%C"); ("Upper", "CZ")]);
  ("EE", [("AddressFormat", "%N%n%O%n%A%n%Z %C"); ("Required", "ACZ")]);
  ("EG", [("AddressFormat", "%N%n%O%n%A%n%C%n%S%n%Z"); ("LatinAddressFormat", "%N%n%O%n%A%n%C%n%S%n%Z")]);
  ("EH", [("AddressFormat", "%N%n%O%n%A%n%Z %C")]);
  ("ES", [("AddressFormat", "%N%n%O%nApartado Postal %P%n%A%n%Z %C %S"); ("Upper", "CS"); ("Required", "ACSZ")]);
  ("ET", [("AddressFormat", "%N%n%O%n%A%n%Z %C")]);
  ("FI", [("AddressFormat", "%O%n%N%nPB %P%n%A%nFI-%Z %C"); ("Upper", "R"); ("Required", "ACZ")]);
  ("FK", [("AddressFormat", "%N%n%O%n%A%n%C%n%Z"); ("Upper", "CZ"); ("Required", "ACZ")]);
  ("FM", [("AddressFormat", "%N%n%O%n%A%n%C %S %Z"); ("Upper", "ACNOS"); ("Required", "ACSZ")]);
  ("FO", [("AddressFormat", "%N%n%O%n%A%nFO%Z %C")]);
  ("FR", [("AddressFormat", "%O%n%N%n%A%nBP %P%n%Z %C"); ("Upper", "CR"); ("Required", "ACZ")]);
  ("GB", [("AddressFormat", "%N%n%O%nPO Box %P%n%A%n%C%n%Z"); ("Upper", "CZR"); ("Required", "ACZ")]);
  ("GE", [("AddressFormat", "%N%n%O%n%A%n%Z %C")]);
  ("GF", [("AddressFormat", "%O%n%N%n%A%n%Z %C %X"); ("Upper", "ACX"); ("Required", "ACZ")]);
  ("GG", [("AddressFormat", "%N%n%O%n%A%n%C%nGUERNSEY%n%Z"); ("Upper", "CZ"); ("Required", "ACZ")]);
  ("GI", [("AddressFormat", "%N%n%O%n%A%nGIBRALTAR%n%Z"); ("Required", "A")]);
  ("GL", [("AddressFormat", "%N%n%O%n%A%n(Postboks %P%n%Z %C"); ("Required", "ACZ")]);
  ("GN", [("AddressFormat", "%N%n%O%n%Z %A %C")]);
  ("GP", [("AddressFormat", "%O%n%N%n%A%n%Z %C %X"); ("Upper", "ACX"); ("Required", "ACZ")]);
  ("GR", [("AddressFormat", "%N%n%O%n%A%nP.O. BOX %P%n%Z %C"); ("Upper", "R"); ("Required", "ACZ")]);
  ("GS", [("AddressFormat", "%N%n%O%n%A%n%n%C%n%Z"); ("Upper", "CZ"); ("Required", "ACZ")]);
  ("GT", [("AddressFormat", "%N%n%O%n%A%n%Z- %C")]);
  ("GU", [("AddressFormat", "%N%n%O%n%A%n%C %Z"); ("Upper", "ACNO"); ("Required", "ACZ")]);
  ("GW", [("AddressFormat", "%N%n%O%n%A%n%Z %C")]);
  ("HK", [("AddressFormat", "%S%n%C%n%A%n%O%n%N"); ("LatinAddressFormat", "%N%n%O%n%A%n%C%n%S"); ("Upper", "S"); ("Required", "AS")]);
  ("HM", [("AddressFormat", "%O%n%N%n%A%n%C %S %Z"); ("Upper", "CS")]);
  ("HN", [("AddressFormat", "%N%n%O%n%A%n%C, %S%n%Z"); ("Required", "ACS")]);
  ("HR", [("AddressFormat", "%N%n%O%n%A%nHR-%Z %C")]);
  ("HT", [("AddressFormat", "%N%n%O%n%A%nHT%Z %C")]);
  ("HU", [("AddressFormat", "%N%n%O%n%C%n%A%nPF. %P%n%Z"); ("Upper", "ACNO"); ("Required", "ACZ")]);
  ("ID", [("AddressFormat", "%N%n%O%n%A%n%C%n%S %Z"); ("Required", "AS")]);
  ("IE", [("AddressFormat", "%N%n%O%n%A%n%D%n%C%n%S%n%Z")]);
  ("IL", [("AddressFormat", "%N%n%Oת.ד. %P%n%n%A%n%C %Z"); ("Upper", "R")]);
  ("IM", [("AddressFormat", "%N%n%O%n%A%n%C%n%Z"); ("Upper", "CZ"); ("Required", "ACZ")]);
  ("IN", [("AddressFormat", "%N%n%O%n%A%n%C %Z%n%S"); ("Required", "ACSZ")]);
  ("IO", [("AddressFormat", "%N%n%O%n%A%n%C%n%Z"); ("Upper", "CZ"); ("Required", "ACZ")]);
  ("IQ", [("AddressFormat", "%O%n%N%n%A%n%C, %S%n%Z"); ("Upper", "CS"); ("Required", "ACS")]);
  ("IR", [("AddressFormat", "%O%n%N%n%S%n%C, %D%n%A%n%Z")]);
  ("IS", [("AddressFormat", "%N%n%O%n%A%n%Z %C")]);
  ("IT", [("AddressFormat", "%N%n%O%n%A%nCASELLA POSTALE %P%n%Z %C %S"); ("Upper", "CSR"); ("Required", "ACSZ")]);
  ("JE", [("AddressFormat", "%N%n%O%n%A%n%C%nJERSEY%n%Z"); ("Upper", "CZ")]);
  ("JM", [("AddressFormat", "%N%n%O%n%A%n%C%n%S %X"); ("Required", "ACS")]);
  ("JO", [("AddressFormat", "%N%n%O%n%A%n%C %Z")]);
  ("JP", [("AddressFormat", "%R%n〒%Z%n%S%C%A%n%O%n%N"); ("LatinAddressFormat", "%N%n%O%n%A, %C%n%S %Z"); ("Upper", "SR"); ("Required", "ASZ")]);
  ("KE", [("AddressFormat", "%N%n%O%n%A%n%C%n%Z")]);
  ("KG", [("AddressFormat", "%N%n%O%n%A%n%Z %C")]);
  ("KH", [("AddressFormat", "%N%n%O%n%A%nP.O. Box %P%n%C %Z"); ("Upper", "R")]);
  ("KI", [("AddressFormat", "%N%n%O%n%A%n%S%n%C"); ("Upper", "ACNOS")]);
  ("KN", [("AddressFormat", "%N%n%O%n%A%n%C, %S"); ("Required", "ACS")]);
  ("KR", [("AddressFormat", "%R%n%S %C%D%n%A%n%O%n%N%n%Z"); ("LatinAddressFormat", "%N%n%O%n%A%n%D%n%C%n%S%n%Z"); ("Upper", "Z"); ("Required", "ACSZ")]);
  ("KW", [("AddressFormat", "%N%n%O%n%A%n%Z %C")]);
  ("KY", [("AddressFormat", "%N%n%O%n%A%n%S %Z"); ("Required", "AS")]);
  ("KZ", [("AddressFormat", "%Z%n%S%n%C%n%A%n%O%n%N")]);
  ("LA", [("AddressFormat", "%N%n%O%n%A%n%Z %C")]);
  ("LB", [("AddressFormat", "%N%n%O%n%A%n%C %Z")]);
  ("LI", [("AddressFormat", "%O%n%N%n%A%nFL-%Z %C"); ("Required", "ACZ")]);
  ("LK", [("AddressFormat", "%N%n%O%n%A%n%C%n%Z")]);
  ("LR", [("AddressFormat", "%N%n%O%n%A%n%Z %C")]);
  ("LS", [("AddressFormat", "%N%n%O%n%A%n%C %Z")]);
  ("LT", [("AddressFormat", "%O%n%N%n%A%nLT-%Z %C"); ("Required", "ACZ")]);
  ("LU", [("AddressFormat", "%O%n%N%nPO Box %P%n%A%nL-%Z %C"); ("AddressFormat[fr]", "%O%n%N%nBP %P%n%A%nL-%Z %C"); ("AddressFormat[de]", "%O%n%N%nPostfach %P%n%A%nL-%Z %C"); ("Upper", "R"); ("Required", "ACZ")]);
  ("LV", [("AddressFormat", "%N%n%O%n%A%n%C, %Z"); ("Required", "ACZ")]);
  ("MA", [("AddressFormat", "%N%n%O%n%A%n%Z %C")]);
  ("MC", [("AddressFormat", "%N%n%O%n%A%nMC-%Z %C %X")]);
  ("MD", [("AddressFormat", "%N%n%O%n%A%nMD-%Z %C")]);
  ("ME", [("AddressFormat", "%N%n%O%n%A%npoštanski fah %P%n%Z %C"); ("AddressFormat[sr]", "%N%n%O%n%A%nпоштански фах %P%n%Z %C"); ("Upper", "R"); ("Required", "ACZ")]);
  ("MF", [("AddressFormat", "%O%n%N%n%A%nBP %P%n%Z %C %X"); ("Upper", "ACXR")]);
  ("MG", [("AddressFormat", "%N%n%O%n%A%n%Z %C")]);
  ("MH", [("AddressFormat", "%N%n%O%n%A%n%C %S %Z"); ("Upper", "ACNOS"); ("Required", "ACSZ")]);
  ("MK", [("AddressFormat", "%N%n%O%n%A%n%Z %C")]);
  ("MM", [("AddressFormat", "%N%n%O%n%A%n%C, %Z")]);
  ("MN", [("AddressFormat", "%N%n%O%n%A%n%C%n%S %Z")]);
  ("MO", [("AddressFormat", "%A%n%O%n%N"); ("LatinAddressFormat", "%N%n%O%n%A"); ("Required", "A")]);
  ("MP", [("AddressFormat", "%N%n%O%n%A%nPO BOX %P%n%C %S %Z"); ("Upper", "ACNOSR"); ("Required", "ACSZ")]);
  ("MQ", [("AddressFormat", "%O%n%N%n%A%n%Z %C %X"); ("Upper", "ACX"); ("Required", "ACZ")]);
  ("MT", [("AddressFormat", "%N%n%O%n%A%n%C %Z"); ("Upper", "CZ")]);
  ("MU", [("AddressFormat", "%N%n%O%n%A%n%Z%n%C"); ("Upper", "CZ")]);
  ("MV", [("AddressFormat", "%N%n%O%n%A%n%C %Z")]);
  ("MW", [("AddressFormat", "%N%n%O%n%A%n%C %X")]);
  ("MX", [("AddressFormat", "%N%n%O%n%A%n%D%n%Z %C, %S"); ("Upper", "CSZ"); ("Required", "ACSZ")]);
  ("MZ", [("AddressFormat", "%N%n%O%n%A%n%Z %C%S")]);
  ("NA", [("AddressFormat", "%N%n%O%n%A%n%C%nP.O. Box %P%n%Z")]);
  ("NC", [("AddressFormat", "%O%n%N%n%A%n%Z %C %X"); ("Upper", "ACX"); ("Required", "ACZ")]);
  ("NE", [("AddressFormat", "%N%n%O%n%A%n%Z %C")]);
  ("NF", [("AddressFormat", "%O%n%N%n%A%n%C %S %Z"); ("Upper", "CS")]);
  ("NG", [("AddressFormat", "%N%n%O%n%A%n%D%n%C %Z%n%S"); ("Upper", "CS")]);
  ("NI", [("AddressFormat", "%N%n%O%n%A%n%Z%n%C, %S"); ("Upper", "CS")]);
  ("NL", [("AddressFormat", "%O%n%N%nPostbus %P%n%A%n%Z %C"); ("Required", "ACZ")]);
  ("NO", [("AddressFormat", "%N%n%O%nPostboks %P%n%A%n%Z %C"); ("Upper", "R"); ("Required", "ACZ")]);
  ("NP", [("AddressFormat", "%N%n%O%n%A%n%C %Z")]);
  ("NR", [("AddressFormat", "%N%n%O%n%A%n%S"); ("Required", "AS")]);
  ("NZ", [("AddressFormat", "%N%n%O%nPO Box %P%n%A%n%D%n%C %Z"); ("Upper", "R"); ("Required", "ACZ")]);
  ("OM", [("AddressFormat", "%N%n%O%n%A%n%Z%n%C")]);
  ("PA", [("AddressFormat", "%N%n%O%n%A%n%C%n%S"); ("Upper", "CS")]);
  ("PE", [("AddressFormat", "%N%n%O%n%A%n%C %Z%n%S")]);
  ("PF", [("AddressFormat", "%N%n%O%n%A%n%Z %C %S"); ("Upper", "CS"); ("Required", "ACSZ")]);
  ("PG", [("AddressFormat", "%N%n%O%n%A%n%C %Z %S"); ("Required", "ACS")]);
  ("PH", [("AddressFormat", "%N%n%O%n%A%n%D, %C%n%Z %S")]);
  ("PK", [("AddressFormat", "%N%n%O%n%A%n%C-%Z")]);
  ("PL", [("AddressFormat", "%N%n%O%n%A%n%Z %C"); ("Required", "ACZ")]);
  ("PM", [("AddressFormat", "%O%n%N%n%A%n%Z %C %X"); ("Upper", "ACX"); ("Required", "ACZ")]);
  ("PN", [("AddressFormat", "%N%n%O%n%A%n%C%n%Z"); ("Upper", "CZ"); ("Required", "ACZ")]);
  ("PR", [("AddressFormat", "%N%n%O%n%A%n%C PR %Z"); ("Upper", "ACNO"); ("Required", "ACZ")]);
  ("PT", [("AddressFormat", "%N%n%O%n%A%n%Z %C"); ("Required", "ACZ")]);
  ("PW", [("AddressFormat", "%N%n%O%n%A%n%C %S %Z"); ("Upper", "ACNOS"); ("Required", "ACSZ")]);
  ("PY", [("AddressFormat", "%N%n%O%n%A%n%Z %C")]);
  ("RE", [("AddressFormat", "%O%n%N%n%A%n%Z %C %X"); ("Upper", "ACX"); ("Required", "ACZ")]);
  ("RO", [("AddressFormat", "%N%n%O%n%A%n%Z %C"); ("Upper", "AC"); ("Required", "ACZ")]);
  ("RS", [("AddressFormat", "%N%n%O%n%A%nпоштански фах %P%n%Z %C"); ("AddressFormat[sr@latin]", "%N%n%O%n%A%npoštanski fah %P%n%Z %C"); ("Upper", "R"); ("Required", "ACZ")]);
  ("RU", [("AddressFormat", "%N%n%O%n%A%n%C%n%S%n%Z"); ("LatinAddressFormat", "%N%n%O%n%A%n%C%n%S%n%Z"); ("Upper", "AC")]);
  ("SA", [("AddressFormat", "%N%n%O%n%A%n%C %Z")]);
  ("SC", [("AddressFormat", "%N%n%O%n%A%n%C%n%S"); ("Upper", "S")]);
  ("SD", [("AddressFormat", "%N%n%O%n%A%n%C%n%Z")]);
  ("SE", [("AddressFormat", "%O%n%N%nBox %P%n%A%nSE-%Z %C"); ("Required", "ACZ")]);
  ("SG", [("AddressFormat", "%N%n%O%n%A%nSINGAPORE %Z"); ("Required", "AZ")]);
  ("SH", [("AddressFormat", "%N%n%O%n%A%n%C%n%Z"); ("Upper", "CZ"); ("Required", "ACZ")]);
  ("SI", [("AddressFormat", "%N%n%O%n%A%np.p. %P%nSI-%Z %C")]);
  ("SJ", [("AddressFormat", "%N%n%O%n%A%n%Z %C"); ("Required", "ACZ")]);
  ("SK", [("AddressFormat", "%N%n%O%n%A%n%Z %C"); ("Required", "ACZ")]);
  ("SM", [("AddressFormat", "%N%n%O%n%A%n%Z %C"); ("Required", "AZ")]);
  ("SN", [("AddressFormat", "%N%n%O%n%A%n%Z %C")]);
  ("SO", [("AddressFormat", "%N%n%O%n%A%n%C, %S %Z"); ("Upper", "ACS"); ("Required", "ACS")]);
  ("SR", [("AddressFormat", "%N%n%O%n%A%n%C%n%S"); ("Upper", "AS")]);
  ("SV", [("AddressFormat", "%N%n%O%n%A%n%Z-%C%n%S"); ("Upper", "CSZ"); ("Required", "ACS")]);
  ("SZ", [("AddressFormat", "%N%n%O%n%A%n%C%n%Z"); ("Upper", "ACZ")]);
  ("TC", [("AddressFormat", "%N%n%O%n%A%n%C%n%Z"); ("Upper", "CZ"); ("Required", "ACZ")]);
  ("TH", [("AddressFormat", "%N%n%O%n%A%n%D %C%n%S %Z"); ("LatinAddressFormat", "%N%n%O%n%A%n%D, %C%n%S %Z"); ("Upper", "S")]);
  ("TJ", [("AddressFormat", "%N%n%O%n%A%n%Z %C")]);
  ("TM", [("AddressFormat", "%N%n%O%n%A%n%Z %C")]);
  ("TN", [("AddressFormat", "%N%n%O%n%A%n%Z %C")]);
  ("TR", [("AddressFormat", "%N%n%O%n%A%n%Z %C/%S"); ("Required", "ACZ")]);
  ("TV", [("AddressFormat", "%N%n%O%n%A%n%C%n%S"); ("Upper", "ACS")]);
  ("TW", [("AddressFormat", "%Z%n%S%C%n%A%n%O%n%N"); ("LatinAddressFormat", "%N%n%O%n%A%n%C, %S %Z"); ("Required", "ACSZ")]);
  ("TZ", [("AddressFormat", "%N%n%O%n%A%n%Z %C")]);
  ("UA", [("AddressFormat", "%N%n%O%n%A%n%C%n%S%n%Z"); ("LatinAddressFormat", "%N%n%O%n%A%n%C%n%S%n%Z"); ("Required", "ACZ")]);
  ("UM", [("AddressFormat", "%N%n%O%n%A%n%C %S %Z"); ("Upper", "ACNOS"); ("Required", "ACS")]);
  ("US", [("AddressFormat", "%N%n%O%n%A%nPO BOX %P%n%C, %S %Z"); ("Upper", "CSR"); ("Required", "ACSZ")]);
  ("UY", [("AddressFormat", "%N%n%O%n%A%n%Z %C %S"); ("Upper", "CS")]);
  ("UZ", [("AddressFormat", "%N%n%O%n%A%n%Z %C%n%S"); ("Upper", "CS")]);
  ("VA", [("AddressFormat", "%N%n%O%n%A%n%Z %C")]);
  ("VC", [("AddressFormat", "%N%n%O%n%A%n%C %Z")]);
  ("VE", [("AddressFormat", "%N%n%O%n%A%n%C %Z, %S"); ("Upper", "CS"); ("Required", "ACS")]);
  ("VG", [("AddressFormat", "%N%n%O%n%A%n%C%n%Z"); ("Required", "A")]);
  ("VI", [("AddressFormat", "%N%n%O%n%A%n%C %S %Z"); ("Upper", "ACNOS"); ("Required", "ACSZ")]);
  ("VN", [("AddressFormat", "%N%n%O%n%A%n%C%n%S %Z"); ("LatinAddressFormat", "%N%n%O%n%A%n%C%n%S %Z")]);
  ("WF", [("AddressFormat", "%O%n%N%n%A%n%Z %C %X"); ("Upper", "ACX"); ("Required", "ACZ")]);
  ("YT", [("AddressFormat", "%O%n%N%n%A%n%Z %C %X"); ("Upper", "ACX"); ("Required", "ACZ")]);
  ("ZA", [("AddressFormat", "%N%n%O%n%A%n%D%n%C%n%Z"); ("Required", "ACZ")]);
  ("ZM", [("AddressFormat", "%N%n%O%n%A%n%Z %C")])
].

Open Scope list_scope.
(** [KConfig::group], [KConfigGroup::readEntry]: the entry for the language of the user,
    if there is one, else the one without a language. *)
Definition bundled_group (c : ustring) : list (string * string) :=
  match find (fun g => leqb (B (fst g)) c) bundled with Some g => snd g | None => [] end.
Definition group_entry (g : list (string * string)) (k : ustring) : option ustring :=
  match find (fun p => leqb (B (fst p)) k) g with Some p => Some (from_utf8 (B (snd p))) | None => None end.
Definition in_language (k lang : ustring) : ustring := k ++ B "[" ++ lang ++ B "]".
Definition bundled_config (lang c k : ustring) : option ustring :=
  match group_entry (bundled_group c) (in_language k lang) with
  | Some v => Some v
  | None => group_entry (bundled_group c) k
  end.
