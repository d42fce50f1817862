(** Model of address formats and of the address formatter:
    addressformatparser.cpp, addressformat.cpp, addressformatscript.cpp,
    addressformatter.cpp and [Address::formatted] of address.cpp. *)
From Verif Require Import Base M_Values.
Open Scope N_scope.

(** ** Fields and elements *)

(** [enum class AddressFormatField], namespace.h:70-84 *)
Definition fNone : N := 0.
Definition fCountry : N := 1.
Definition fRegion : N := 2.
Definition fLocality : N := 4.
Definition fDependent : N := 8.
Definition fSorting : N := 16.
Definition fPostal : N := 32.
Definition fStreet : N := 64.
Definition fOrg : N := 128.
Definition fName : N := 256.
Definition fPobox : N := 512.

(** [flags & f] used as a truth value ([QFlags]) *)
Definition has (flags f : N) : bool := negb (N.land flags f =? 0).

(** [AddressFormatElementPrivate], addressformat_p.h: a field and a literal *)
Record elem := mkElem { e_field : N; e_lit : ustring }.
(** addressformat.cpp:30-53 *)
Definition is_field (e : elem) : bool := negb (e_field e =? fNone).
Definition is_lit (e : elem) : bool := negb (isnil (e_lit e)).
Definition is_sep (e : elem) : bool := negb (is_field e) && negb (is_lit e).

(** ** The format parser *)

(** [field_map], addressformatparser.cpp:13-28 *)
Definition field_map : list (N * N) :=
  [ (65, fStreet); (67, fLocality); (68, fDependent); (78, fName); (79, fOrg);
    (80, fPobox); (82, fCountry); (83, fRegion); (88, fSorting); (90, fPostal) ].

(** [std::lower_bound] with [lhs.c < rhs]: the first entry that is not smaller
    (the table is sorted, so the binary search finds this one). *)
Fixpoint lower_bound (c : N) (t : list (N * N)) : option (N * N) :=
  match t with
  | [] => None
  | (x, f) :: t' => if x <? c then lower_bound c t' else Some (x, f)
  end.

(** [AddressFormatParser::parseField], addressformatparser.cpp:30-39 *)
Definition parse_field (c : N) : N :=
  let cell := c mod 256 in
  let row := c / 256 in
  match lower_bound cell field_map with
  | None => fNone
  | Some (x, f) => if negb (x =? cell) || negb (row =? 0) then fNone else f
  end.

(** [AddressFormatParser::parseFields], addressformatparser.cpp:41-48 *)
Definition parse_fields (s : ustring) : N :=
  fold_left (fun acc c => N.lor acc (parse_field c)) s 0.

Definition cPERCENT : N := 37.
Definition cNN : N := 110.

(** appending the pending literal, addressformatparser.cpp:56-61 and 80-85 *)
Definition flush (lit : ustring) (es : list elem) : list elem :=
  if isnil lit then es else es ++ [mkElem fNone lit].

(** [AddressFormatParser::parseElements], addressformatparser.cpp:50-87:
    [lit] is the pending literal, [es] the vector so far. *)
Fixpoint parse_elements_from (s : ustring) (lit : ustring) (es : list elem) : list elem :=
  match s with
  | [] => flush lit es
  | c :: s' =>
      match s' with
      | d :: s'' =>
          if c =? cPERCENT then
            let es1 := flush lit es in
            if d =? cNN then parse_elements_from s'' [] (es1 ++ [mkElem fNone []])
            else
              let f := parse_field d in
              if f =? fNone then parse_elements_from s'' [] es1
              else parse_elements_from s'' [] (es1 ++ [mkElem f []])
          else parse_elements_from s' (lit ++ [c]) es
      | [] => parse_elements_from s' (lit ++ [c]) es
      end
  end.
Definition parse_elements (s : ustring) : list elem := parse_elements_from s [] [].

(** ** Formats *)

(** [AddressFormatPrivate], addressformat_p.h (without the postal code pattern,
    which nothing modelled here reads) *)
Record aformat := mkFormat {
  af_elements : list elem; af_upper : N; af_required : N; af_country : ustring }.

(** [AddressFormat::usedFields], addressformat.cpp:73-78 *)
Definition used_fields (es : list elem) : N :=
  fold_left (fun acc e => N.lor acc (e_field e)) es fNone.

(** ** Scripts *)

(** [AddressFormatScript::ScriptType] as 0..3; the classification of a single
    character, [QChar::script], is a parameter of the model
    (0 for every script that the switch does not name). *)
Definition detect_text (script : N -> nat) : ustring -> nat :=
  fix go s := match s with
              | [] => 0%nat
              | c :: s' => match script c with O => go s' | k => k end
              end.
(** addressformatscript.cpp:29-32 *)
Definition detect (script : N -> nat) (a : address) : nat :=
  Nat.max (detect_text script (ad_street a)) (detect_text script (ad_locality a)).

(** ** Everything outside the repository that formatting asks for *)

Record FmtExt := {
  (** entry of the bundled configuration, [None] when absent:
      [group(country).readEntry(key, default)] *)
  fx_config : ustring -> ustring -> option ustring;
  (** [KCountry::fromAlpha2(s)] and [KCountry::fromName(s)]: the two letter code
      of the country found, empty when invalid *)
  fx_alpha2 : ustring -> ustring;
  fx_byname : ustring -> ustring;
  (** code of the country of the current locale *)
  fx_own : ustring;
  (** [KCountry::fromAlpha2(code).name()] *)
  fx_name : ustring -> ustring;
  (** [QString::toUpper] *)
  fx_upper : ustring -> ustring;
  (** [QChar::script] *)
  fx_script : N -> nat
}.

(** preferences, namespace.h:98-112 *)
Inductive scriptpref := Local | Latin.
Inductive formatpref := Generic | Business.

Definition default_format : ustring := B "%N%n%O%n%A%nPO BOX %P%n%C %S %Z".

(** [readEntry(key, default)] *)
Definition read_entry (X : FmtExt) (country key def : ustring) : ustring :=
  match fx_config X country key with Some v => v | None => def end.

(** [AddressFormatRepository::formatForCountry], addressformat.cpp:105-136 *)
Definition format_string (X : FmtExt) (country : ustring) (sp : scriptpref) (fp : formatpref) : ustring :=
  let latin := match sp with Latin => true | Local => false end in
  let business := match fp with Business => true | Generic => false end in
  let s := if latin && business then read_entry X country (B "LatinBusinessAddressFormat") [] else [] in
  let s := if isnil s && latin then read_entry X country (B "LatinAddressFormat") [] else s in
  let s := if isnil s && business then read_entry X country (B "BusinessAddressFormat") [] else s in
  if isnil s then read_entry X country (B "AddressFormat") default_format else s.

Definition format_for_country (X : FmtExt) (country : ustring) (sp : scriptpref) (fp : formatpref) : aformat :=
  mkFormat (parse_elements (format_string X country sp fp))
           (parse_fields (read_entry X country (B "Upper") []))
           (parse_fields (read_entry X country (B "Required") []))
           country.

(** [AddressFormatRepository::formatForAddress], addressformat.cpp:138-155 *)
Definition country_of_address (X : FmtExt) (a : address) : ustring :=
  let c := if Nat.eqb (length (ad_country a)) 2 then fx_alpha2 X (ad_country a) else [] in
  let c := if isnil c then fx_byname X (ad_country a) else c in
  if isnil c then fx_own X else c.
Definition format_for_address (X : FmtExt) (a : address) (fp : formatpref) : aformat :=
  let sp := match detect (fx_script X) a with O => Latin | _ => Local end in
  format_for_country X (country_of_address X a) sp fp.

(** ** Styles *)

(** [AddressFormatStyle], namespace.h:35-42 *)
Inductive fstyle := Postal | MultiDomestic | MultiInternational | SingleDomestic | SingleInternational | GeoQuery.
(** [enum Separator], addressformatter.cpp:28 *)
Inductive sepkind := Newline | Comma | Native.

(** field sets, addressformatter.cpp:21-26 *)
Definition all_fields : N := 1023.
Definition domestic_fields : N := 1022.
Definition geo_fields : N := 111.

(** [style_map], addressformatter.cpp:31-43 *)
Definition st_sep (s : fstyle) : sepkind :=
  match s with
  | Postal | MultiDomestic | MultiInternational => Newline
  | SingleDomestic | SingleInternational => Native
  | GeoQuery => Comma
  end.
Definition st_upper (s : fstyle) : bool := match s with Postal | GeoQuery => true | _ => false end.
Definition st_force (s : fstyle) : bool := match s with MultiDomestic | SingleDomestic => false | _ => true end.
Definition st_fields (s : fstyle) : N :=
  match s with
  | Postal | MultiDomestic | SingleDomestic => domestic_fields
  | MultiInternational | SingleInternational => all_fields
  | GeoQuery => geo_fields
  end.
Definition is_newline (s : fstyle) : bool := match st_sep s with Newline => true | _ => false end.
Definition is_geo (s : fstyle) : bool := match s with GeoQuery => true | _ => false end.

(** [separator_map], [native_separator_map], addressformatter.cpp:45-46 (the
    second Arabic separator starts with U+060C).  Reading past the table is
    undefined: [None]. *)
Definition native_separators : list ustring := [ B ", "; [1548; 32]; []; B " " ].

(** ** The formatter, addressformatter.cpp:53-214 *)

Section Formatter.
  Variable X : FmtExt.
  Variable a : address.
  Variables name org : ustring.
  Variable fmt : aformat.
  Variable style : fstyle.

  Let es := af_elements fmt.

  (** [isFieldEmpty], lines 57-86 *)
  Definition field_empty (f : N) : bool :=
    if negb (has (st_fields style) f) then true
    else if f =? fName then isnil name
    else if f =? fOrg then isnil org
    else if f =? fPobox then isnil (ad_pobox a)
    else if f =? fStreet then isnil (ad_street a) && (isnil (ad_extended a) || is_geo style)
    else if f =? fPostal then isnil (ad_postal a)
    else if f =? fLocality then isnil (ad_locality a)
    else if f =? fRegion then isnil (ad_region a)
    else if f =? fCountry then isnil (ad_country a)
    else true.

  (** [countryName], lines 87-94 *)
  Definition country_name : ustring :=
    if isnil (ad_country a) then []
    else if is_geo style then af_country fmt else fx_name X (af_country fmt).

  (** [isReverseOrder], lines 48-51 *)
  Definition reverse_order (l : list elem) : bool :=
    match l with e :: _ => e_field e =? fCountry | [] => false end.

  (** the value [v] of a field, lines 134-168 *)
  Definition field_value (f : N) : ustring :=
    if f =? fName then name
    else if f =? fOrg then org
    else if f =? fPobox then ad_pobox a
    else if f =? fStreet then (if isnil (ad_street a) then ad_extended a else ad_street a)
    else if f =? fPostal then ad_postal a
    else if f =? fLocality then ad_locality a
    else if f =? fRegion then ad_region a
    else if f =? fCountry then country_name
    else [].

  (** lines 169-171 *)
  Definition cased (f : N) (v : ustring) : ustring :=
    if st_upper style && has (af_upper fmt) f then fx_upper X v else v.

  Record fstate := mkF { f_lines : list ustring; f_line : ustring; f_second : ustring }.

  (** [*std::prev(it)] is a separator (only looked at when [it] is not the
      beginning), line 103.  [None]: outside the vector. *)
  Definition prev_sep (i : nat) : option bool :=
    match i with O => Some false | S j => option_map is_sep (nth_error es j) end.

  (** the backward loop, lines 119-127, from position [i]; [None]: outside *)
  Fixpoint back_content (i : nat) : option bool :=
    match nth_error es i with
    | None => None
    | Some e =>
        if is_sep e then Some false
        else if is_field e && negb (field_empty (e_field e)) then Some true
        else match i with O => Some false | S j => back_content j end
    end.

  (** line 128 *)
  Definition following_empty (i : nat) : option bool :=
    if Nat.eqb (S i) (length es) then Some false
    else option_map (fun e => is_field e && field_empty (e_field e)) (nth_error es (S i)).

  (** one round of the main loop, lines 99-173 *)
  Definition fmt_step (i : nat) (st : fstate) : option fstate :=
    match nth_error es i, prev_sep i with
    | Some e, Some psep =>
        if is_sep e && (negb (isnil (f_line st)) || (psep && is_newline style)) then
          Some (mkF (f_lines st ++ [f_line st] ++ (if isnil (f_second st) then [] else [f_second st])) [] [])
        else
          match back_content i, following_empty i with
          | Some bc, Some fe =>
              let preceding := Nat.eqb i 0 || psep || bc in
              if is_lit e && preceding && negb fe then
                Some (mkF (f_lines st) (f_line st ++ e_lit e) (f_second st))
              else if is_field e && has (st_fields style) (e_field e) then
                let both := (e_field e =? fStreet) && negb (isnil (ad_street a))
                            && negb (isnil (ad_extended a)) && negb (is_geo style) in
                let lines := if both && negb (reverse_order es) then f_lines st ++ [ad_extended a] else f_lines st in
                let second := if both && reverse_order es then ad_extended a else f_second st in
                Some (mkF lines (f_line st ++ cased (e_field e) (field_value (e_field e))) second)
              else Some st
          | _, _ => None
          end
    | _, _ => None
    end.

  Fixpoint fmt_loop (n i : nat) (st : fstate) : option fstate :=
    match n with
    | O => Some st
    | S n' => match fmt_step i st with None => None | Some st' => fmt_loop n' (S i) st' end
    end.

  (** lines 175-180 *)
  Definition final_lines (st : fstate) : list ustring :=
    f_lines st ++ (if isnil (f_line st) then [] else [f_line st])
               ++ (if isnil (f_second st) then [] else [f_second st]).

  (** lines 182-206 *)
  Definition force_country (lines : list ustring) : list ustring :=
    if st_force style && negb (has (N.land (used_fields es) fCountry) (st_fields style))
       && negb (isnil (ad_country a)) then
      match style with
      | Postal =>
          let src := format_for_country X (fx_own X) Local Generic in
          let c := if st_upper style && has (af_upper src) fCountry then fx_upper X country_name else country_name in
          if reverse_order (af_elements src)
          then c :: (if isnil lines then lines else [] :: lines)
          else (if isnil lines then lines else lines ++ [[]]) ++ [c]
      | _ =>
          lines ++ [cased fCountry country_name]
      end
    else lines.

  (** lines 208-213; [None]: outside the separator table *)
  Definition separator : option ustring :=
    match st_sep style with
    | Native => nth_error native_separators (detect (fx_script X) a)
    | Newline => Some [cLF]
    | Comma => Some [cCOMMA]
    end.

  (** [AddressFormatter::format] *)
  Definition format_lines : option (list ustring) :=
    option_map (fun st => force_country (final_lines st)) (fmt_loop (length es) 0 (mkF [] [] [])).
  Definition format_address : option ustring :=
    match format_lines, separator with
    | Some l, Some sep => Some (join sep l)
    | _, _ => None
    end.
End Formatter.

(** [Address::formatted], address.cpp:402-407 *)
Definition formatted (X : FmtExt) (a : address) (style : fstyle) (name org : ustring) : option ustring :=
  let fp := match style with Postal => if isnil org then Generic else Business | _ => Generic end in
  format_address X a name org (format_for_address X a fp) style.
(** [Address::formattedPostalAddress], address.cpp:409-412 *)
Definition formatted_postal (X : FmtExt) (a : address) : option ustring := formatted X a Postal [] [].
