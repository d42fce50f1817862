(** Specification vocabulary for C64: what the shipped address formats show. *)
From Verif Require Import Base M_Values M_AddressFormat S_AddressFormat M_AddressData.
Import ListNotations.

(** the formatter uses the formats that come with the library, for a user of some language *)
Definition uses_shipped (X : FmtExt) : Prop := exists lang, forall c k, fx_config X c k = shipped_config lang c k.
(** the countries with an entry *)
Definition countries : list ustring := map fst shipped.
(** the field occurs in the format *)
Definition mentions (fmt : aformat) (f : N) : Prop := exists e, In e (af_elements fmt) /\ e_field e = f.
(** countries whose addresses have no locality (emirate, island or city state instead) *)
Definition no_locality : list ustring := map B ["AE"; "GI"; "KY"; "MO"; "NR"; "SG"]%string.
Definition no_postal_code : list ustring :=
  map B ["AE"; "BF"; "BS"; "CI"; "HK"; "JM"; "KI"; "KN"; "MO"; "MW"; "NR"; "PA"; "SC"; "SR"; "TV"]%string.
Definition with_region : list ustring :=
  map B ["AE"; "AM"; "AR"; "AS"; "AU"; "BB"; "BR"; "BS"; "BY"; "CA"; "CC"; "CL"; "CN"; "CO"; "CR"; "CU"; "CV"; "CX"; "EG"; "ES"; "FM"; "HK"; "HM"; "HN"; "ID"; "IE"; "IN"; "IQ"; "IR"; "IT"; "JM"; "JP"; "KI"; "KN"; "KR"; "KY"; "KZ"; "MH"; "MN"; "MP"; "MX"; "MZ"; "NF"; "NG"; "NI"; "NR"; "PA"; "PE"; "PF"; "PG"; "PH"; "PW"; "RU"; "SC"; "SO"; "SR"; "SV"; "TH"; "TR"; "TV"; "TW"; "UA"; "UM"; "US"; "UY"; "UZ"; "VE"; "VI"; "VN"]%string.
Definition with_pobox : list ustring :=
  map B ["AR"; "AT"; "AU"; "AX"; "BE"; "BL"; "BR"; "CA"; "CH"; "CZ"; "DE"; "DK"; "ES"; "FI"; "FR"; "GB"; "GL"; "GR"; "HU"; "IL"; "IT"; "KH"; "LU"; "ME"; "MF"; "MP"; "NA"; "NL"; "NO"; "NZ"; "RS"; "SE"; "SI"; "US"]%string.
(** countries with a line that does not depend on the address, or a blank line *)
Definition fixed_lines : list ustring := map B ["GG"; "GI"; "JE"]%string.
Definition blank_lines : list ustring := map B ["GS"; "IL"]%string.
