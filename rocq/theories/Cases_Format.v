(** autotests/addressformattest.cpp on the model, with the formats that come with the
    library.  Tests of the model, not proofs of the claims (see Cases_Files). *)
From Verif Require Import Base BaseFacts Utf8 M_Values M_AddressFormat M_Formats.
From Coq Require Import String.
Open Scope string_scope.
Open Scope list_scope.
Open Scope N_scope.

Definition T (s : string) : ustring := from_utf8 (B s).
(** The scripts of the characters in the test: Arabic, Han, Hangul. *)
Definition F1 : FmtExt := {|
  fx_config := bundled_config (B "en"); fx_alpha2 := fun s => s; fx_byname := fun _ => []; fx_own := B "US";
  fx_name := fun c => if leqb c (B "DE") then B "Germany" else if leqb c (B "KR") then B "South Korea" else c;
  fx_upper := map (fun c => if (97 <=? c) && (c <=? 122) then c - 32 else c);
  fx_script := fun c => if (0x600 <=? c) && (c <=? 0x6FF) then 1%nat
                        else if (0x3400 <=? c) && (c <=? 0x9FFF) then 2%nat
                        else if (0xAC00 <=? c) && (c <=? 0xD7A3) then 3%nat else 0%nat |}.
(** [AddressFormatTest::parseFormat], lines 31-39 *)
Definition parse_format (f u c : string) : aformat :=
  mkFormat (parse_elements (T f)) (parse_fields (T u)) 0 (T c).
Definition new_address : address := address_new (B "id") 0.

(** [AddressFormatTest::testRepostory], autotests/addressformattest.cpp:42-78 *)
Example Test_AddressFormat_repository :
  let fmt := format_for_country F1 (B "CA") Local Generic in
  af_required fmt = fold_left N.lor [fStreet; fLocality; fPostal; fRegion] 0
  /\ af_upper fmt = fold_left N.lor [fStreet; fLocality; fPostal; fRegion; fName; fOrg; fCountry] 0
  /\ used_fields (af_elements fmt) = fold_left N.lor [fStreet; fLocality; fPostal; fRegion; fName; fOrg; fPobox] 0
  /\ List.length (af_elements fmt) = 14%nat
  /\ map (fun i => option_map e_field (nth_error (af_elements fmt) i)) [0; 2; 9; 11; 13]%nat
     = map Some [fName; fOrg; fLocality; fRegion; fPostal]
  /\ map (fun i => option_map is_sep (nth_error (af_elements fmt) i)) [1; 3]%nat = [Some true; Some true]
  /\ map (fun i => option_map e_lit (nth_error (af_elements fmt) i)) [6; 10; 12]%nat
     = [Some (B "PO BOX "); Some (B " "); Some (B " ")]
  /\ af_country fmt = B "CA".
Proof. vm_compute. repeat split; reflexivity. Qed.

Definition all_styles : list fstyle :=
  [Postal; MultiInternational; MultiDomestic; SingleInternational; SingleDomestic; GeoQuery].
Definition in_berlin : address :=
  ad_set_extended (T "East wing") (ad_set_street (T "Prinzenstraße 85 F") (ad_set_postal (B "10969")
    (ad_set_locality (B "Berlin") (ad_set_region (B "BE") (ad_set_country (B "DE") new_address))))).
Definition german : aformat := parse_format "%O%n%N%nPostfach %P%n%A%n%Z %C" "R" "DE".
Definition for_konqi (a : address) : list (option ustring) :=
  map (format_address F1 a (B "Dr. Konqi") (B "KDE e.V.") german) all_styles.
Definition lines (l : list string) : option ustring := Some (join [cLF] (map T l)).
(** [AddressFormatTest::testFormatStyles], autotests/addressformattest.cpp:80-132 *)
Example Test_AddressFormat_styles_1 :
  for_konqi in_berlin =
  [lines ["KDE e.V."; "Dr. Konqi"; "East wing"; "Prinzenstraße 85 F"; "10969 Berlin"; ""; "GERMANY"];
   lines ["KDE e.V."; "Dr. Konqi"; "East wing"; "Prinzenstraße 85 F"; "10969 Berlin"; "Germany"];
   lines ["KDE e.V."; "Dr. Konqi"; "East wing"; "Prinzenstraße 85 F"; "10969 Berlin"];
   lines ["KDE e.V., Dr. Konqi, East wing, Prinzenstraße 85 F, 10969 Berlin, Germany"];
   lines ["KDE e.V., Dr. Konqi, East wing, Prinzenstraße 85 F, 10969 Berlin"];
   lines ["Prinzenstraße 85 F,10969 Berlin,DE"]].
Proof. vm_compute. reflexivity. Qed.
Example Test_AddressFormat_styles_2 :
  for_konqi (ad_set_extended [] in_berlin) =
  [lines ["KDE e.V."; "Dr. Konqi"; "Prinzenstraße 85 F"; "10969 Berlin"; ""; "GERMANY"];
   lines ["KDE e.V."; "Dr. Konqi"; "Prinzenstraße 85 F"; "10969 Berlin"; "Germany"];
   lines ["KDE e.V."; "Dr. Konqi"; "Prinzenstraße 85 F"; "10969 Berlin"];
   lines ["KDE e.V., Dr. Konqi, Prinzenstraße 85 F, 10969 Berlin, Germany"];
   lines ["KDE e.V., Dr. Konqi, Prinzenstraße 85 F, 10969 Berlin"];
   lines ["Prinzenstraße 85 F,10969 Berlin,DE"]].
Proof. vm_compute. reflexivity. Qed.
Example Test_AddressFormat_styles_3 :
  for_konqi (ad_set_street [] (ad_set_pobox (B "42") (ad_set_extended [] in_berlin))) =
  [lines ["KDE e.V."; "Dr. Konqi"; "Postfach 42"; "10969 Berlin"; ""; "GERMANY"];
   lines ["KDE e.V."; "Dr. Konqi"; "Postfach 42"; "10969 Berlin"; "Germany"];
   lines ["KDE e.V."; "Dr. Konqi"; "Postfach 42"; "10969 Berlin"];
   lines ["KDE e.V., Dr. Konqi, Postfach 42, 10969 Berlin, Germany"];
   lines ["KDE e.V., Dr. Konqi, Postfach 42, 10969 Berlin"];
   lines ["10969 Berlin,DE"]].
Proof. vm_compute. reflexivity. Qed.

(** [AddressFormatTest::testFormatScript], autotests/addressformattest.cpp:134-178 *)
Example Test_AddressFormat_script_jp :
  format_address F1
    (ad_set_street (T "南麻布 4-6-28") (ad_set_postal (B "106-0047") (ad_set_locality (T "都港区")
      (ad_set_region (T "東京") (ad_set_country (B "JP") new_address))))) [] []
    (parse_format "〒%Z%n%S%C%A%n%O%n%N" "SR" "JP") SingleDomestic
  = lines ["〒106-0047東京都港区南麻布 4-6-28"].
Proof. vm_compute. reflexivity. Qed.
Example Test_AddressFormat_script_eg :
  format_address F1
    (ad_set_street (T "2005ج كورنيش النيل، رملة بولاق")
      (ad_set_locality (T "القاهرة") (ad_set_country (B "EG") new_address))) [] []
    (parse_format "%N%n%O%n%A%n%C%n%S%n%Z" "" "EG") SingleDomestic
  = lines ["2005ج كورنيش النيل، رملة بولاق، القاهرة"].
Proof. vm_compute. reflexivity. Qed.
Definition in_seoul : address :=
  ad_set_street (T "한강대로 416") (ad_set_postal (B "04637") (ad_set_locality (T "중구")
    (ad_set_region (T "서울특별시") (ad_set_country (B "KR") new_address)))).
Definition korean : aformat := parse_format "%R%n%S %C%D%n%A%n%O%n%N%n%Z" "Z" "KR".
Example Test_AddressFormat_script_kr :
  map (format_address F1 in_seoul [] [] korean) [SingleDomestic; MultiDomestic; SingleInternational; MultiInternational]
  = [lines ["서울특별시 중구 한강대로 416 04637"];
     lines ["서울특별시 중구"; "한강대로 416"; "04637"];
     lines ["South Korea 서울특별시 중구 한강대로 416 04637"];
     lines ["South Korea"; "서울특별시 중구"; "한강대로 416"; "04637"]].
Proof. vm_compute. reflexivity. Qed.
Example Test_AddressFormat_script_kr_reverse :
  map (format_address F1 (ad_set_extended (T "서울스퀘어 11층") in_seoul) [] [] korean) [SingleDomestic; MultiDomestic]
  = [lines ["서울특별시 중구 한강대로 416 서울스퀘어 11층 04637"];
     lines ["서울특별시 중구"; "한강대로 416"; "서울스퀘어 11층"; "04637"]].
Proof. vm_compute. reflexivity. Qed.

(** [AddressFormatTest::testIncompleteAddress], autotests/addressformattest.cpp:180-189 *)
Example Test_AddressFormat_incomplete :
  format_address F1 (ad_set_postal (B "XX 12345") (ad_set_locality (B "City") new_address)) [] []
    (parse_format "%C, %S %Z" "" "US") MultiDomestic = lines ["City XX 12345"].
Proof. vm_compute. reflexivity. Qed.
