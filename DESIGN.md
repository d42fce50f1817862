# Formal model of KContacts: design

## 1. Method

The C++ sources under `/repo/src` are read as text and transcribed, function by
function, into total computable Gallina functions (Coq 8.16.1, standard library
only).  Every definition of the model cites the file and lines it transcribes
and says where it simplifies.  Theorems are about this model; the tie to the
code is the transcription.

Layout of `rocq/theories`:

| kind | files | content |
|---|---|---|
| library | `Base`, `Qt*`, `Utf8`, `Base64` | list lemmas; models of the Qt string functions the code calls |
| model | `M_*.v` | transcription of the code, no proofs |
| spec | `S_*.v` | small independent specifications, in terms a user of the API knows |
| proofs | `P_*.v` | lemmas |
| tests of the model | `Cases_*.v` | the project's own tests run on the model (below) |
| properties | `Prop_*.v` | only `Theorem ... exact lemma.`, `Print Assumptions`, and `Example`s showing the hypotheses are met |

Conventions

* Bytes (`char` of a `QByteArray`) and UTF-16 code units (`QChar`) are numbers
  of type `N`; `QByteArray` and `QString` are lists of them.
* `QList`, `std::vector` are lists; `QSet` is a list used through membership.
* Loops are structural recursion or recursion on explicit fuel; running out of
  fuel is a distinct outcome (`None`), never a normal-looking value.
* Undefined behaviour (out-of-range access, negative lengths) is a distinct
  outcome (`UB`/`None`), never totalised away.
* Implicit sharing (`QSharedDataPointer`) is modelled by reference counts and
  explicit "detach" functions that transcribe the hand-written copy
  constructors, because several of those constructors forget fields.
* External libraries (charset codecs, KCodecs quoted-printable, QUrl,
  QUuid, QImage, KConfig, KCountry, KLocalizedString) are parameters of the
  model: theorems quantify over them, with the assumed behaviour stated as
  hypotheses in the theorem where one is needed.
* A property that the code violates gets a theorem with suffix `_refuted`
  (a witness), next to the strongest positive theorem found.  If the positive
  theorem covers only part of the property it is called `..._partial`.

## 2. Trusted base

* Coq's kernel (with `vm_compute`).
* What `Print Assumptions` prints below each theorem in `Prop_*.v`: "Closed under
  the global context" for every one of them (section 5).
* The faithfulness of the transcription in `M_*.v` (section 2.1).
* The models of Qt functions in the library files (`QByteArray::replace`,
  `mid`, `indexOf`, `trimmed`, `toLower` on ASCII, `QString::split/join`,
  `fromUtf8/toUtf8`, `fromLatin1/toLatin1`, base64, `std::lower_bound`,
  `std::find_if`), written from the Qt 6 documentation and sources.
* `int` positions and lengths are unbounded: inputs are assumed to be shorter
  than 2^31 bytes.

### 2.0 How the transcription was checked

The tie between code and model is the transcription, so the model is run on the project's
own tests.  `Cases_World` gives the parameters of the model concrete values that behave as
Qt and KCodecs do on the test data; `Cases_Files`, `Cases_Contacts`, `Cases_Dates`,
`Cases_Ldif` and `Cases_Format` then state, as `Example`s named `Test_*`, that the model gives the outputs the
tests expect, byte for byte: every enabled comparison of `testroundtrip.cpp` (3.0 and 2.1;
all files but `vcard5.vcf`), the four tests of `importexportvcardtest.cpp`, the setter-and-export
tests of the value classes (74 comparisons), `datetimetest.cpp`,
`ldifconvertertest.cpp` and `addressformattest.cpp`.  No difference between model and expected output was found.  These
are tests; no claim in `MANIFEST.json` rests on them.

### 2.1 What is modelled where

| module | code |
|---|---|
| `M_ParamMap` | `parametermap_p.h` |
| `M_VCard` | `vcardparser/vcard.cpp`, `vcardline.cpp` |
| `M_VCardText` | `vcardparser/vcardparser.cpp`: escapes, folding, line parser, card parser and writer |
| `M_Split` | `VCardTool::splitString` |
| `M_Date` | the used parts of `QDate`, `QTime`, `QDateTime`; date and time zone readers and writers of `vcardtool.cpp` |
| `M_Values` | the value classes: geo, timezone, gender, secrecy, title/role/org/nickname/note/related/lang/clientpidmap, fieldgroup, calendarurl, resourcelocatorurl, impp, email, phonenumber, address, key, sound, picture |
| `M_Addressee` | `addressee.cpp`: members, setters, lists, e-mails, customs, `==` |
| `M_Copy` | implicit sharing and the hand-written copy constructors |
| `M_VCardTool` | `vcardtool.cpp`, `converter/vcardconverter.cpp` |
| `M_Name` | `setNameFromString`, `fullEmail`, `parseEmailAddress` |
| `M_NameWords` | `AddresseeHelper` (`addresseehelper.cpp`): the word sets built from translations and settings |
| `M_ContactGroup` | `contactgroup.cpp`, `contactgrouptool.cpp` over XML tokens |
| `M_GroupError` | `contactgrouptool.cpp`: the error text after reading, `convertFromXml`, `convertToXml`; the message of the XML library for a malformed document is a parameter |
| `M_AddressFormat` | `addressformat.cpp`, `addressformatparser.cpp`, `addressformatter.cpp`, `addressformatscript.cpp`, `Address::formatted` |
| `M_Formats` | `addressformatrc`: all groups, without the postal code patterns; an entry in a language stands before the one without |
| `M_AddressData` | `addressformatrc` without the patterns for postal codes (made by `tools/formats.py`) |
| `M_Ldif` | `ldif.cpp`, `converter/ldifconverter.cpp` |
| `M_Stream` | the `QDataStream` operators of all classes |
| `M_Convert` | `vcarddrag.cpp`, the helper functions of `vcardconverter.cpp`, the service functions of `impp.cpp` |
| `M_Services` | `src/improtocols/*.desktop` (names and icons, without translations), `Impp::serviceIcon` |
| `M_Api` | the list setters, the custom-backed properties and the property `birthday` of `addressee.cpp` |
| `M_Access` | labels of types, `Address::geoUri`, accessors of group members, `Addressee::url` |
| `M_Debug` | `toString` of every class, `QString::arg` |

### 2.2 External behaviour as parameters

Theorems quantify over these records; what is assumed of them is a hypothesis of
the theorem that needs it, and each is shown to be satisfiable by an example.

| record | stands for | assumptions used |
|---|---|---|
| `Ext` | quoted-printable codec, charset codecs | inverse on the texts concerned (C06, C44) |
| `UrlExt`, `Tool` | `QUrl`, number formatting, ISO dates, new identifiers | parse/print inverse on the values concerned |
| `ImgExt` | image decoding and encoding | none |
| `Env` | the above and the instant of a `QDateTime` | none |
| `NameExt` | word sets and switches of `AddresseeHelper`, `toLower` | stated per theorem |
| `NameWorld` | translations (`i18n`), the entries of kabcrc read by `AddresseeHelper`, `toLower` | none; reading the file is not modelled |
| `FmtExt` | address format configuration, `KCountry`, `toUpper`, scripts | `toUpper` maps only the empty string to the empty string |
| `LdifExt` | signedness of `char`, country names, display form of URLs, current time, new identifiers | record `sane`: identifiers are fresh, country lookup is idempotent, the empty URL is invalid |
| `StreamExt` | Qt's stream encodings of dates, floats, images, URLs | record `sane_stream`: they round-trip and notice truncation |
| `ImExt` | directories and desktop files of messaging services, `QChar::toUpper` | none |
| `Lib` | `Env` and the ISO form of dates | ISO dates read back what was written (only for the anniversary in C61) |
| `DebugExt` | translation, text of floating-point numbers and of `QDateTime`, `Env` | none |

### 2.3 Simplifications

* The lexical layer of XML (`QXmlStreamReader`/`Writer`) is replaced by token lists.
* `toLower`/`toUpper` in the vCard and LDIF code act on ASCII letters only.
* A `QUrl` is its normalised text.  A `float` is a rational, an infinity or NaN.
* Local times skipped by a daylight-saving change are not moved.
* Null and empty strings are not distinguished.  (In data streams a null text is written
  differently; `fm_contact` admits both forms for every empty text, see `C36_null_contact`.)
* LDIF: the line counter is left out; members the code leaves uninitialised
  (`mUrl`, `mCritical`) start as `false`; line lengths are below `INT_MAX`.
* Streams: strings and lists of 0xfffffffe bytes or elements and more are left out;
  numbers outside an enumeration become its last enumerator.

## 3. Per-property plan

| id | what is modelled | how it is proved |
|---|---|---|
| C01 | `addEscapes`, `removeEscapes` as sequences of whole-buffer replacements | both directions by induction on the text with a small set of invariants on backslash runs; iff |
| C02 | `parseVCards` loop with integer positions, incl. `fetchAnotherLine` | step-indexed loop; bound by induction on the remaining text; refutation: loop invariant "restarts at 0" for every fuel; with soft line breaks: a line machine with a mode for joining, simulated by the position loop |
| C03 | `fixLineSize` both branches | loop invariant on the current column |
| C04 | `fixLineSize`, unfolding | loop invariant "unfold(output) = consumed input" |
| C05 | `fixLineSize` multibyte branch, UTF-8 encoder | loop invariant: position is at a character boundary; refutation by a 4-byte character at column 73 |
| C06 | `createVCards`, `parseVCards`, `parseLine`, `VCard::addLine`, `VCardLine::addParameter` | composition of C01, C04, UTF-8/base64 inverses, state machine run on rendered header; induction over lines and cards |
| C07 | `parseVCards` | equivalence of the position loop with a fold over lines; fold over append |
| C08 | `addParameter`, `insertParam`, `findParam` | invariant over `fold_left`; refinement to a function name -> values |
| C09 | `VCard::addLine`, `lines`, `identifiers` | as C08 |
| C10 | `splitString`, `replace(';', "\;")`, `join` | characterisation of the split loop; iff |
| C11 | N/ADR/ORG writers and readers of `VCardTool` | C10 + field-position lemmas |
| C12 | CATEGORIES writer and reader | C10-like for ',' |
| C13 | type tables, writers, readers | finite sweep over all flag sets lifted with `forallb_forall` (domain is genuinely finite) |
| C14 | `parseDateTime`, `createDateTime/Date/Time` over a calendar model | decimal printing/parsing lemmas |
| C15 | TZ writer and reader | `lia` with div/mod |
| C16 | `addEmail`, `emails`, `preferredEmail` | invariant over operations |
| C17 | `removeEmail` index loop | induction; refutation witness |
| C18 | insert/find/remove of phone numbers, addresses, keys | refinement to an association map |
| C19 | `phoneNumber(type)` etc. with `matchBinaryPattern` | induction over the list |
| C20 | custom field vector with `lower_bound` insertion | refinement to a map; collision characterisation |
| C21 | copy constructors of the private classes, detach | per-field theorems + refutations |
| C22 | `listEquals` | counting argument; refutation |
| C23 | `setNameFromString` with UB outcome | induction over words; iff for the comma form |
| C24 | `fullEmail`, `parseEmailAddress` | run of the state machine on the composed text |
| C25 | `assembleLine`, `splitLine`, `nextItem` folding | invariant of the fold loop; base64 inverse |
| C26 | `nextItem`, `processLine` | decreasing position |
| C27 | `LDIFToAddressee` loop state | state-reset argument field by field; refutation for birthday |
| C28 | `addresseeToLDIF`, `evaluatePair` | composition |
| C29 | `ContactGroup` lists | induction |
| C30 | reader/writer as functions on XML token lists | induction over groups; the XML lexical layer (QXmlStreamReader/Writer) is trusted |
| C31 | `normalizedNumber` | induction |
| C32 | `parseElements`, `parseField` | induction; `lower_bound` on the sorted table |
| C33 | `AddressFormatter::format` | loop invariant on emitted lines |
| C34 | `Email` parameter functions | case analysis on parameter maps; refutation |
| C35 | `ResourceLocatorUrl`, `Impp` parameter functions | same |
| C36 | `QDataStream` operators over a byte-level stream model | composition of encoder/decoder laws |
| C37 | picture/sound/key writers and readers | base64 inverse; refutations |
| C38 | secrecy/gender/version | case analysis |
| C39 | `processCustoms` and the X- branch of `parseVCards` | string lemmas |
| C40 | `VCardConverter`, card loop | corollary of C06/C44 |
| C41 | single value setters | induction over setter calls |
| C42 | category operations | invariant |
| C43 | `Geo` over rationals with NaN | invariant |
| C44 | composition of all of the above, versions 2.1, 3.0 and 4.0 | composition |
| C45 | equality operators | case analysis; refutation |
| C46 | the remaining text properties of a card, all versions | field-by-field composition with C06 |
| C47 | order of e-mails after reading | exact result of the fold of `addEmail` |
| C48 | list properties (members, sources, relations, languages, pid maps) | field-by-field composition |
| C49 | field groups, calendar addresses, labels | permutation argument; refutations |
| C50 | LDIF line ends | state machine of `nextItem` under a change of line ends |
| C51 | LDIF line lengths | invariant of the fold loop |
| C52 | groups through LDIF | C28 plus the group part of the converter |
| C53 | truncated data streams | prefix lemma for every reader, composed along `bind` |
| C54 | drag and drop | C44 composed with a model of `QMimeData` |
| C55 | vCard date helpers | reader applied to the written digits |
| C56 | `adaptIMAttributes` | sequential replacement = one-pass relation, by induction over the table; names start with their only X and none begins another |
| C57 | messaging services | sorting and removing duplicates; file names |
| C58 | contacts in order | invariant of the scanner (parameters), the card loop, the lines and the calls |
| C59 | the text written from what was read | the text of a card depends only on what is said under each name; property by property with C44 and C58 |
| C60 | the lines and parameters of version 4.0 | as C44, with the reader of each property; custom fields by an invariant over the list of lines |
| C61 | getter/setter pairs as variables | one table of properties; independence by case analysis, call sequences by induction |
| C62 | the same for addresses, pictures, group members, keys, sounds and phone numbers | as C61; for pictures the reads preserve what is shown |
| C63 | labels are injective | a label is a list of words joined by slashes; which set a list of words stands for, checked for every set |
| C64 | the shipped formats | a check of every entry lifted to every country code and language, then C33 |
| C65 | `parseLine` with `fetchAnotherLine` inside `parseVCards` | the joining line machine reaches the same mode after the pieces and after the joined line; induction over the pieces |
| C66 | `parseVCards`, `parsePicture`, `splitString` | every branch of the line reader is total but the picture; `splitString` is total for separators other than the backslash |
| C67 | the line machine on one card of a text; `addLine` | a card depends on the lines of each name only (`card_of_ext`) |
| C68 | `parseVCards` of the tool, on top of C67's line machine | simulation: the lines in order with the ignored ones left out, identifiers renumbered by an increasing function |
| C69 | the line parser from the end of the name on; order of lines in a card; `parseVCards` of the tool | the parser commutes with a change of the name; lines are read in the order of a stable sort by name, which depends on comparisons only |
| C70 | the line machine of C02/C65 | simulation: states outside of a card that differ in the assembled line only behave the same |
| C71 | `parseVCards` (contacts): import of other names, messaging extensions | induction over the sorted properties; exchange of names that the loop treats alike (shared with C69) |
| C72 | `parseEmailAddress` on UTF-8 bytes with its levels of quotes, brackets and comments | every text is a sequence of parts (induction over its length); the scanner run over one part (induction over the part, its state an invariant) |
| C73 | `parseDateTime` and the Qt calls it makes | case analysis over the forms of dates, times and offsets; for the converse the digits read are traced back to the text |
| C74 | `nextItem`, `processLine`, `splitControl` with all accessors of the reader | the run over a text becomes a run over its unfolded lines; then induction over records, controls, modifications and values, the phase of the reader as invariant |
| C75 | `Address::formatted` down to the format entries | C33_lines plus: every helper of the formatter equals an independently written one on the fields of the table |
| C76 | `parseLine`'s scanner, `addParameter`, the decoding of values, `parseVCards`' loop, the loop of `parseVCards` over lines in vcardtool.cpp | the scanner is a fold over the parameters; parameters that do not speak about coding and character set act alike on two lines, the others only change coding and character set; then a congruence through sorting and reading of the lines |
| C77 | `VCardTool::parseVCards` (the branch of every property named in the claim), the parser below it, the type tables of vcardtool.cpp:30-90 | each line of a card is a name, parameters and a text (C76); sorting keeps the order of equal names; the fold over the lines is projected to one field, which only the branches of one name change; then per field: last value, list of values, flags by bits, components by the split theorem (C05), dates by C73; entries of programs by an invariant on the sorted list of custom entries |
| C78 | the parameters of `ParameterMap` in `Email`, `ResourceLocatorUrl`, `Impp`, `PhoneNumber`, `Title`, `Role`, `Org`, `NickName`, `Lang`, `Related`, `CalendarUrl`; `isPreferred`, `type`; `VCardTool::parseKey`; `Addressee::addEmail` | the parser's parameters are computed per key (`meant`); lists that are appended to are mapped entry by entry, lists keyed by text by an invariant on the last line of each text, messengers by monotonicity of the list |
| C79 | `ContactGroupTool::read`, `write` on the tokens of `QXmlStreamReader` | documents as lists of elements with attributes; the loop of `readGroup` by induction on the members (each states a member or ends the loop), the loop of `read` by induction on the groups with its round count; the written text is exhibited as such a document |
| C80 | `VCardTool::createVCards` with `VCardParser::createVCards`; the reader is not used | each line of the contact as a property (`put_of`), its text as a folded block; the lines of one name are selected from the sorted card (`P_Chunks`), then one lemma per field; pictures, fields of the user and grouped properties up to their order; components without the separator, since the writer does not escape it (refuted otherwise) |
| C81 | `LDIFToAddressee`, `evaluatePair`, `Ldif::nextItem` on any text | the reader's state after each attribute is written as one record of updates (`SU`), folded over the attributes of an entry; each field is then a function of the attributes of its names only (`over_*`), compared with the table of S_LdifMeaning; entries by induction over the reports |
| C82 | `addresseeToLDIF`, `contactGroupToLDIF`, `ldif_out`, `Ldif::assembleLine`; the reader is not used | the folded text of each line unfolds to a line of RFC 2849 (`raw_rfc`), the whole text to the list of these lines (`lines_raw`); each row of the table is selected from the list of written attributes |
| C83 | `createVCard` / `parseVCard` of version 2.1 with values that need quoted-printable; the codec is a parameter of which the hypothesis `quotable` asks only that it undoes itself on the values written | `fitting` (per value: safe without coding, or `quotable`) replaces `fits` in the field lemmas; `whole_coded` joins the fields; types of e-mail addresses are items without value (`email_kvs_perm`, `email_out_types`); `C83_codec` shows that a codec of RFC 2045 meets `quotable` for every text of well-formed code points |
| C84 | `toString` of all classes; markers of `QString::arg` have ASCII digits only | `arg_row`: a template with one marker is completed by the value, whatever the value contains; the text of a contact is a weaving of fixed labels and values on one line (`weave_inv`), lists are read off entry by entry (`reads_list`) |
| C85 | `setNameFromString` with `AddresseeHelper` | the loops are described by list decompositions (`first_parts`, `last_parts`), which are shown to be unique; sets by membership |
| C86 | `addressformatrc` with `AddressFormatRepository` and `AddressFormatter` | every entry of the file is checked by computation; the entry chosen, for any country, language, script and preference, is one of them or the default; then C33 |
| C87 | `ContactGroupTool::convertFromXml` with an error message | the message function has the shape of the reading function; the first fault of a text is a relation of its own; induction over the tokens for the statement about every document |
| C88 | `Addressee::assembledName`, `realName`, with `setNameFromString` | the words of a text as a relation; `simplified` joins them; the pieces between spaces of C23 are split further at other white space |
| C89 | `src/improtocols/*.desktop` with `Impp::serviceTypes`, `serviceLabel`, `serviceIcon` and the reading of messaging extensions | every file is checked by computation, the world around them is arbitrary; then C57 and C71 |
| C90 | `LDIFConverter::addresseeAndContactGroupToLDIF` after `LDIFToAddressee` | from C28: what comes back gives the same lines, and is steady again; induction on the number of trips |
| C91 | `VCardTool::createVCards` and `parseVCards` in one version after the other | C44 in each version; what a contact must satisfy depends only on what C44 keeps; induction on the steps |
| C92 | `LDIFConverter::addresseeToLDIF` after `VCardTool::createVCards` and `parseVCards` | what the export takes of a contact is part of what C44 keeps; a contact read with a name does not have the empty flag, its addresses are not empty (invariants of `read_lines`) |

## 4. Not modelled

Memory allocation failure, performance, translations, the loading of icons, QImage decoding, D-Bus/QML glue (`src/qml`), the MIME database.

## 5. Assumptions printed

Every theorem in `Prop_*.v` prints "Closed under the global context": no axioms, not
even of the standard library.

## 6. Findings

Where the code does not do what a reader of the API would expect there is a theorem
with suffix `_refuted` with a concrete witness:

| theorem | finding |
|---|---|
| `C01_escape_roundtrip_refuted` | a text such as `C:\new` is not restored by `removeEscapes(addEscapes(x))` |
| `C02_parse_terminates_refuted` | `parseVCards` never returns on a 58-byte text: a quoted-printable note that ends in the soft break `=`, followed by `END:VCARD` |
| `C65_space_refuted` | a quoted-printable value broken by a soft line break before a space: the decoder is given `abc=def` instead of `abc def` |
| `C07_soft_refuted` | two complete cards, the first with a soft line break directly before its `END:VCARD`: only the second is read (and the first card alone is never read to the end) |
| `C03_binary_75_refuted` | when binary data is folded a line can have 76 bytes |
| `C05_four_byte_characters_refuted` | folding can cut a character of four UTF-8 bytes |
| `C10_split_join_refuted` | a component that ends in a backslash swallows the separator behind it |
| `C11_backslash_refuted` | so a family name that ends in a backslash swallows the given name (3.0) |
| `C12_version21_refuted` | categories are not written in version 2.1 |
| `C14_datetime_roundtrip_refuted` | five-digit years, offsets with seconds and milliseconds are not restored |
| `C17_unconditional_refuted` | `removeEmail(m)` leaves the second of two adjacent equal addresses |
| `C20_distinct_keys_refuted` | the pairs (`a-b`, `c`) and (`a`, `b-c`) are the same custom entry |
| `C20_copy_refuted` | `setCustoms(customs())` changes an entry whose name contains a colon |
| `C21_contact_refuted` | a copy that is then modified loses the kind and the nick names |
| `C22_symmetry_refuted` | `==` is not symmetric if a category occurs twice, and `==` and `!=` can both be true |
| `C23_safe_refuted` | `setNameFromString("Jr., John")` reads outside the list of words |
| `C23_comma_words_refuted` | of `Smith Jones, Ann` words before the comma are lost |
| `C23_last_word_refuted` | without the family name switch, `John Smith` loses its last word |
| `C24_quotes_refuted` | a name with a quote comes back with a backslash before it |
| `C24_backslash_refuted` | with a name that ends in a backslash neither name nor address come back |
| `C25_url_refuted` | LDIF: a URL value is written as it is but decoded as base64 |
| `C27_birthday_refuted` | LDIF: a contact without birthday gets that of the contact read before it |
| `C27_name_first_refuted` | LDIF: `changetype: delete` before `dn` is obeyed only if an entry was read before |
| `C28_given_only_refuted` | LDIF: a contact with only a given name is written but not read |
| `C28_blanks_refuted` | LDIF: repeated blanks in the formatted name become one |
| `C28_cell_refuted` | LDIF: a cell phone number comes back as two numbers |
| `C28_street_refuted` | LDIF: the third line of a street is lost |
| `C28_birthday_refuted` | LDIF: the exported birthday of one contact is given to the next one without |
| `C28_unsigned_refuted` | LDIF: where `char` is unsigned, a family name with a non-ASCII letter is not restored |
| `C29_remove_reference_refuted` | `remove` of a reference can remove another one that differs only in the GID |
| `C30_every_group_refuted` | a group without a name is written as XML but cannot be read |
| `C32_unknown_formatted_refuted` | an unknown format letter cuts a literal in two and the second part is not printed |
| `C33_unknown_country_refuted` | an unrecognised country is replaced by the own country of the user |
| `C34_unconditional_refuted` | `Email`: `setType(0)` does not clear the type `home`; `setPreferred(true)` does nothing if `pref` is 2; `setPreferred(false)` does not undo the type `pref` |
| `C36_raw_refuted` | data stream: raw data of a picture that Qt cannot decode is lost |
| `C36_used_object_refuted` | data stream: reading into a used object keeps the raw data of its old picture |
| `C36_invalid_url_refuted` | data stream: the text of an invalid URL is lost |
| `C36_colon_refuted` | data stream: a custom entry with a colon in its name comes back under another name |
| `C37_version21_refuted` | an embedded photo is not restored in version 2.1 |
| `C37_version40_refuted` | an embedded photo of type `svg+xml` comes back with other data and type (4.0) |
| `C37_short_data_refuted` | reading `PHOTO:data:a;base64,` has no defined behaviour |
| `C37_order40_refuted` | in 4.0 a linked extra photo is written before the embedded main photo and replaces it |
| `C37_only_extra_refuted` | a contact without main photo but with one extra photo: that is read as the main photo (3.0) |
| `C38_long_gender_refuted` | the gender `female` comes back as `f` |
| `C39_no_dash_refuted` | the custom entry `FOO` comes back as `FOO-FOO` |
| `C45_observable_refuted` | keys that compare equal can differ in their text |
| `C45_picture_transitive_refuted` | `Picture::operator==` is not transitive (with an encoder that loses information) |
| `C45_picture_reading_changes_equality_refuted` | calling `rawData()` can make two unequal pictures equal (with such an encoder) |
| `C46_sort_as_refuted` | SORT-AS of an organization is read as the sort string of the contact |
| `C47_order_refuted` | two preferred e-mail addresses come back in the other order |
| `C48_members_lost_refuted` | members of a contact that is not a group are not restored |
| `C49_group_names_refuted` | 4.0: a field group with the name `NOTE` comes back as the note, `X-LABEL` as the custom field `LABEL-LABEL`, `g.a.b` as a field group with the name `a.b` |
| `C49_label_refuted` | two labelled addresses of the same kind do not get their labels back (3.0) |
| `C49_label_injection_refuted` | in 4.0 the text of a label can add other properties to the contact |
| `C49_label_position_refuted` | in a card with an ADR line that has a GEO parameter and a LABEL line of the same type, the LABEL line takes away the geo position of the address it belongs to |
| `C50_crlf_refuted` | LDIF with CR LF line ends gives other contacts than with LF |
| `C50_crlf_fold_refuted` | LDIF with CR LF: continuation lines are not joined |
| `C51_limit_refuted` | LDIF: a folded line can be one longer than the limit |
| `C52_name_refuted` | LDIF: the name of a group is lost |
| `C52_email_refuted` | LDIF: the e-mail address of a group member changes at every export and import |
| `C52_comma_refuted` | LDIF: a member name is cut at a comma |
| `C52_references_refuted` | LDIF: a group with references only is lost |
| `C54_refused_keeps_refuted` | drag and drop: `fromMimeData` returns false for data without contacts, but the list is empty afterwards |
| `C55_zone_refuted` | a UTC time written by `dateToVCardString` comes back as a local time; times of other zones are also written with a `Z` |
| `C55_years_refuted` | 15 March 44 BC comes back as AD 44, 2 January 12341 as 10 October 1234 |
| `C56_values_refuted` | `adaptIMAttributes` also changes a note that mentions one of the names |
| `C57_two_dots_refuted` | a file `my.own.desktop` makes `my` a service, for which there is no file |
| `C58_setters_refuted` | `setTitle("")` (and role, organisation, nick name) leaves an empty first title, `setEmails` stores an address twice, `setCustoms` an empty value, and `insertPhoneNumber` with a known identifier and no number an empty number |
| `C58_ldif_refuted` | in LDIF a second, empty `title:` replaces the first, so the contact has an empty title |
| `C58_empty_values_refuted` | `EMAIL:` and `MEMBER:` without a value are stored as an empty address and an empty member |
| `C59_preferred_refuted` | a contact with two preferred e-mail addresses: each export and import swaps the two, so the text alternates and never settles |
| `C59_picture40_refuted` | version 4.0: the type of an embedded picture is `png`, after one trip `image/png;`, and the text changes |
| `C60_custom_key_refuted` | version 4.0: the type of a key with a type of its own (`MyKey`) is lost, the data stays |
| `C60_position_refuted` | version 3.0: an address loses its position |
| `C60_sort_refuted` | version 4.0: the sort string `Doe, Jane` comes back as `Doe` |
| `C60_spouse_refuted` | version 4.0: the custom field with the name of the spouse is gone, there is a relation with the text `;` instead |
| `C61_zone_refuted` | a contact with a revision in local time keeps it when the same instant is set in UTC |
| `C61_birthday_refuted` | a contact born on the 2nd (local time, two hours ahead of UTC) given the birthday 1st 22:00 UTC without time: the date read stays the 2nd |
| `C61_url_refuted` | `setUrl` on a contact with a home page appends; `url()` goes on to return the old one |
| `C63_address_member_refuted` | `Address::typeLabel()` is the same with and without the preference, and empty for an address that is only preferred |
| `C63_url_label_refuted` | the labels of the URL types FTP and Reservation are the same |
| `C64_lost_refuted` | in a country whose format does not mention it, a locality (same script), postal code, region or PO box makes no difference to the formatted text |
| `C64_gibraltar_refuted` | an address without content of a user in Gibraltar is formatted as `GIBRALTAR` |
| `C64_israel_refuted` | an address in Israel with an organisation has a blank line before the street |
| `C09_set_version_refuted` | `VCard::setVersion` does not set the version: afterwards `version()` is 4.0 if the card had none, and what it was otherwise |
| `C69_mixed_refuted` | a card with `adr` in lower case and `LABEL` in upper case is read with two addresses, as LABEL is then read first; with both in upper case it has one |
| `C70_stray_end_refuted` | a text without BEGIN line but with an `END:VCARD` line is read into one (empty) contact |
| `C71_gadu_refuted` | `X-GADUGADU:123` is read as the address `gadu:123`, `IMPP;X-SERVICE-TYPE=GaduGadu:123` as `gg:123` |
| `C73_incomplete_refuted` | `1985-04`, `1985`, `--04`, `---12` are read as no date |
| `C73_nonsense_time_refuted` | `1985-04-12Tnoon` is read as 12 April 1985 at midnight, marked as having a time |
| `C74_root_refuted` | LDIF: `changetype: delete` for the entry with the empty name is reported as an error, and no end of the entry |
| `C74_kind_case_refuted` | LDIF: `changetype: Modify` is an error, and the lines after it are reported as an entry to add |
| `C74_fill_refuted` | LDIF: in `cn:Jane` (no blank after the colon, allowed by RFC 2849) the first letter of the value is lost |
| `C76_export_refuted` | vCard: a title (likewise role, nickname, ...) read from a property with `ENCODING=BASE64` or `ENCODING=8BIT` keeps that parameter; the writer knows only `b` and `quoted-printable` and writes nothing, so the title is lost in an export (vcardparser.cpp:465-484) |
| `C77_zone_refuted` | vCard: a time zone in the form of version 4 without colon is read without its minutes, `TZ:-0530` as −5:00 (vcardtool.cpp:1083-1086) |
| `C77_units_refuted` | vCard: of `ORG:KDE;PIM;contacts` the third part is kept nowhere in the contact (vcardtool.cpp:1000-1010) |
| `C77_quotes_refuted` | vCard: of several parameter values in quotes (`X="a","b:c"`, `TYPE="home","work"`) the second is not read; a colon in it ends the parameters, so the rest of it becomes part of the value (vcardparser.cpp:176-192) |
| `C77_semicolons_refuted` | vCard: `NOTE:a\;b`, which RFC 6350 (3.4) allows for the text `a;b`, is read as `a\;b` (vcardparser.cpp:50-64) |
| `C77_commas_refuted` | vCard: `CATEGORIES:a\,b`, one category with a comma, is read as the two categories `a` and `b`: the escape is removed before the list is split (vcardparser.cpp:50-64, 208, vcardtool.cpp:814-816) |
| `C77_position_refuted` | A longitude followed by a parameter of the geo URI is not read: `GEO:geo:48,16;u=40` gives the longitude `toFloat("16;u=40")`, which is 0 (vcardtool.cpp:901-908). |
| `C78_url_types_refuted` | `URL;TYPE=home` does not give the type Home: `ResourceLocatorUrl::type` compares with the names in capitals (resourcelocatorurl.cpp:62-80), unlike `Email::type`. |
| `C78_media_refuted` | `KEY;MEDIATYPE=text/x-key` becomes a key of the kind Custom with an empty type string: the branch for MEDIATYPE reads the parameter TYPE, which is absent there (vcardtool.cpp:1499-1502). |
| `C80_separators_refuted` | A separator in a component is not told apart from the separators: the family name `a;b` is written `N:a\\;b;c;;;` and the category `d,e` as `CATEGORIES:d\\,e`. The backslash put before the separator is itself escaped by the writer of lines, so that a program following the standard finds the components `a\`, `b`, `c` and the categories `d\`, `e` (vcardtool.cpp:378-382, 486-493, vcardparser.cpp:40-48, 479). |
| `C80_types_refuted` | An address without types gets the bare word `TYPE` as a parameter in version 3.0: `ADR;TYPE:;;S;;;;` (vcardtool.cpp:152-187: an empty list of types is joined and added). |
| `C80_value_date_refuted` | Version 4.0 declares every birthday to be a date, also one with a time: `BDAY;VALUE=DATE:19700228T235958Z` (vcardtool.cpp:358-363). |
| `C81_letters_refuted` | LDIF: the text is turned into Latin-1 before it is decoded as UTF-8, so the name in `cn: Mül` is not read as written (ldifconverter.cpp:280) |
| `C81_address_refuted` | LDIF: an attribute without value (`st:`) gives the contact an address of eight empty parts |
| `C81_zone_refuted` | LDIF: `modifytimestamp: 20200228T120000Z`, a time in UTC, is taken as local time |
| `C82_blank_refuted` | LDIF: a note beginning with a blank is written as it is (`description:  x`); RFC 2849 wants base64, since blanks after the colon are not part of the value (ldif.cpp:71-74) |
| `C82_dn_refuted` | LDIF: the name of an entry with a letter that is not ASCII is written without encoding (ldif.cpp:80-82) |
| `C82_group_dn_refuted` | LDIF: the entry of a group has no line `dn:` at all |
| `C82_zone_refuted` | LDIF: the revision 12:00 local time (10:00 UTC) is written as `modifytimestamp: 20200228T120000Z` |
| `C82_success_refuted` | LDIF: exporting a list with one empty contact reports success and writes nothing |
| `C83_equal_refuted` | version 2.1: a title that needs quoted-printable comes back with the parameters `charset` and `encoding`, which it did not have (the reader keeps all parameters of TITLE, ROLE and ORG) |
| `C84_phone_refuted` | the text of a phone number lacks its class, its identifier and its type (`=` instead of `+=` in `PhoneNumber::toString`): two numbers that differ in both have the same text |
| `C84_line_break_refuted` | two addresses with different localities and regions have the same text: a locality with a line break can look like a row |
| `C84_group_refuted` | field group named `%1` with value `a` and field group named `a` with value `%2` have the same text (`arg` is applied to a text that contains the name) |
| `C84_parameters_refuted` | the parameters a=b, c=d and the single parameter a with value `bc d` have the same text |
| `C84_silent_refuted` | two contacts that differ in categories and custom fields have the same text |
| `C85_inclusions_refuted` | with `Del` configured among Inclusions, `Anna Maria Del Toro` has the family name `Toro`: words are looked up in lower case, so an inclusion configured with a capital never matches |
| `C86_everything_refuted` | the formats do not show everything: an address in the United Arab Emirates with the city `Dubai` and one in Poland with the post office box `4711` have texts in all six styles, none of which contains the city or the box |
| `C89_icons_refuted` | of the 28 messaging services of the library five have no icon: matrix, rocketchat, signal, telegram, threema |
| `C89_gadu_refuted` | an address read from `X-GADUGADU` has the service `gadu`, which is not among the services of the library (`gg`), and is labelled `Gadu` instead of `Gadu-Gadu` |
| `C90_street_refuted` | LDIF: a street with an empty first line gets longer with every export and import |
| `C90_revision_refuted` | LDIF: a contact without date of revision gets that of the import, so the next export differs |
| `C91_nicknames_refuted` | nicknames survive a conversion to 4.0 and back, but not one to 2.1 and back: version 2.1 does not write them |
| `C92_nickname_refuted` | a contact that went through vCard 2.1 is exported to LDIF without its nickname |
| `C83_coding_stays` | such a title is then written to cards of version 3.0 and 4.0 with `ENCODING=QUOTED-PRINTABLE`, which these versions do not define (a positive theorem about the defect) |
