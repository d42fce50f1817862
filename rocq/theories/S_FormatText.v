(** The text of a formatted address (C75), stated without the functions of the formatter. *)
From Verif Require Import Base M_Values M_AddressFormat S_AddressFormat.
Open Scope N_scope.

(** the first text that is not empty *)
Fixpoint first_text (l : list ustring) : ustring := match l with [] => [] | s :: r => if isnil s then first_text r else s end.
Definition entry (X : FmtExt) (country key : ustring) : ustring := match fx_config X country key with Some s => s | None => [] end.

(** The format of a country: the most special entry that there is; [latin]: for an
    address in Latin letters, [business]: for an organisation. *)
Definition chosen (X : FmtExt) (country : ustring) (latin business : bool) : ustring :=
  first_text ((if latin && business then [entry X country (B "LatinBusinessAddressFormat")] else [])
              ++ (if latin then [entry X country (B "LatinAddressFormat")] else [])
              ++ (if business then [entry X country (B "BusinessAddressFormat")] else [])
              ++ [match fx_config X country (B "AddressFormat") with Some s => s | None => B "%N%n%O%n%A%nPO BOX %P%n%C %S %Z" end]).

(** [k] is the number of the script of the address: that of the first character whose script is known, the larger one
    of street and locality. *)
Definition first_script (X : FmtExt) (s : ustring) : nat :=
  match find (fun c => negb (Nat.eqb (fx_script X c) 0)) s with Some c => fx_script X c | None => 0%nat end.
Definition script_of (X : FmtExt) (a : address) : nat := Nat.max (first_script X (ad_street a)) (first_script X (ad_locality a)).

(** The country of an address: its country as a two letter code, or by its name, or the
    country of the user. *)
Definition country_code (X : FmtExt) (a : address) : ustring :=
  first_text [if Nat.eqb (length (ad_country a)) 2 then fx_alpha2 X (ad_country a) else []; fx_byname X (ad_country a); fx_own X].

Section Text.
  Variables (X : FmtExt) (a : address) (name org : ustring) (style : fstyle).
  (** the elements of the format *)
  Variable es : list elem.

  Definition single : bool := match style with SingleDomestic | SingleInternational => true | _ => false end.
  Definition map_query : bool := match style with GeoQuery => true | _ => false end.
  (** what the styles include *)
  Definition included (f : N) : bool :=
    match style with
    | MultiInternational | SingleInternational => true
    | MultiDomestic | SingleDomestic | Postal => negb (f =? fCountry)
    | GeoQuery => existsb (N.eqb f) [fCountry; fRegion; fLocality; fDependent; fPostal; fStreet]
    end.
  (** capital letters: only on envelopes and in map queries, and only the fields that the
      country [c] wants to have in capital letters *)
  Definition capital (c : ustring) (f : N) (v : ustring) : ustring :=
    if match style with Postal | GeoQuery => true | _ => false end && existsb (N.eqb (letter f)) (entry X c (B "Upper"))
    then fx_upper X v else v.
  Definition country_text : ustring :=
    if isnil (ad_country a) then [] else if map_query then country_code X a else fx_name X (country_code X a).

  Definition lookup {A : Type} (d : A) (f : N) (t : list (N * A)) : A := match find (fun p => fst p =? f) t with Some p => snd p | None => d end.
  (** the text of a field; without a street the extended address takes its place *)
  Definition text_of (f : N) : ustring :=
    if included f then
      capital (country_code X a) f (lookup [] f
        [(fName, name); (fOrg, org); (fPobox, ad_pobox a); (fStreet, first_text [ad_street a; ad_extended a]);
         (fPostal, ad_postal a); (fLocality, ad_locality a); (fRegion, ad_region a); (fCountry, country_text)])
    else [].
  (** whether the address has something for a field *)
  Definition filled (f : N) : bool :=
    included f && lookup false f
      [(fName, negb (isnil name)); (fOrg, negb (isnil org)); (fPobox, negb (isnil (ad_pobox a)));
       (fStreet, negb (isnil (ad_street a)) || (negb (isnil (ad_extended a)) && negb map_query));
       (fPostal, negb (isnil (ad_postal a))); (fLocality, negb (isnil (ad_locality a)));
       (fRegion, negb (isnil (ad_region a))); (fCountry, negb (isnil (ad_country a)))].

  (** A line: the texts of its fields; a literal stands at the start of the line or if a
      field before it is filled, but not before a field that is not. *)
  Fixpoint line_from (first seen : bool) (g : list elem) : ustring :=
    match g with
    | [] => []
    | e :: r =>
        (if is_field e then text_of (e_field e)
         else if (first || seen) && negb match r with x :: _ => is_field x && negb (filled (e_field x)) | [] => false end
              then e_lit e else [])
        ++ line_from false (seen || (is_field e && filled (e_field e))) r
    end.
  (** the country comes first *)
  Definition country_first (l : list elem) : bool := match l with e :: _ => e_field e =? fCountry | [] => false end.
  (** the extended address, if there is a street too *)
  Definition extended : list ustring :=
    if negb (isnil (ad_street a)) && negb (isnil (ad_extended a)) && negb map_query then [ad_extended a] else [].
  (** The lines for one line of the format: the extended address stands before the line
      with the street, or after it if the country comes first. *)
  Definition lines_of (keep_blank : bool) (g : list elem) : list ustring :=
    let t := line_from true false g in
    let text := if isnil t then (if keep_blank && isnil g then [[]] else []) else [t] in
    let streets := filter (fun e => e_field e =? fStreet) g in
    if country_first es then text ++ (if isnil streets then [] else extended)
    else flat_map (fun _ => extended) streets ++ text.
  (** blank lines of the format are kept between other lines, in styles of several lines *)
  Fixpoint lines_from (gs : list (list elem)) : list ustring :=
    match gs with
    | [] => []
    | [g] => lines_of false g
    | g :: r => lines_of (negb single && negb map_query) g ++ lines_from r
    end.
  Definition all_lines : list ustring :=
    match segments es with [] => [] | g :: r => lines_of false g ++ lines_from r end.

  (** The country is added at the end if the format does not mention it; on an envelope
      always, after a blank line, and first if that is the custom in the country of the
      user, whose format has the elements [home]. *)
  Definition with_country (home : list elem) (l : list ustring) : list ustring :=
    if isnil (ad_country a) then l
    else match style with
         | MultiDomestic | SingleDomestic => l
         | Postal =>
             let c := capital (fx_own X) fCountry country_text in
             if country_first home then c :: (if isnil l then [] else [[]] ++ l)
             else (if isnil l then [] else l ++ [[]]) ++ [c]
         | _ => if existsb (fun e => e_field e =? fCountry) es then l else l ++ [capital (country_code X a) fCountry country_text]
         end.

  (** between lines; in a single line it depends on the script *)
  Definition between (s : ustring) : Prop :=
    if single then nth_error [B ", "; [1548; 32]; []; B " "] (script_of X a) = Some s
    else if map_query then s = B "," else s = [10].
End Text.

(** The text of the address in the style. *)
Definition address_text (X : FmtExt) (a : address) (style : fstyle) (name org : ustring) (t : ustring) : Prop :=
  exists es home sep,
    let latin := Nat.eqb (script_of X a) 0 in
    let business := match style with Postal => negb (isnil org) | _ => false end in
    parse_elements (chosen X (country_code X a) latin business) = es /\
    parse_elements (chosen X (fx_own X) false false) = home /\
    between X a style sep /\
    t = join sep (with_country X a style es home (all_lines X a name org style es)).
