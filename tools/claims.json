{
 "C01": [
  "proved",
  "iff for every byte string and both comma modes; the excluded class is witnessed by C01_escape_roundtrip_refuted. C01_decoder: escapes written by other programs."
 ],
 "C02": [
  "proved",
  "positive for all texts without soft line breaks and for all texts whose last line but one has none; refuted by a concrete text and for every text of the form in C02_never_returns"
 ],
 "C03": [
  "proved",
  "whole files at most 76 octets per line, plain text properties at most 75; binary folding reaches 76"
 ],
 "C04": [
  "proved",
  "both folding modes"
 ],
 "C05": [
  "proved",
  "for characters of at most three bytes, refuted for four"
 ],
 "C06": [
  "proved",
  "all lists of well-formed cards (S_RoundTrip.v); text, binary, quoted-printable and charset values"
 ],
 "C07": [
  "proved",
  "all pairs of texts, first one complete, no soft line breaks"
 ],
 "C08": [
  "proved",
  "all sequences of addParameter"
 ],
 "C09": [
  "proved",
  "all sequences of addLine"
 ],
 "C10": [
  "proved",
  "splitString modelled as its index loop; the equivalence is an iff over all component lists; refutation witness included."
 ],
 "C11": [
  "proved",
  "For every version and every contact whose components are separable (no component but the last ends in a backslash) and escape-safe; 3.0/2.1 addresses need distinguishable labels. Failure with a trailing backslash is refuted with a witness."
 ],
 "C12": [
  "proved",
  "3.0 and 4.0, every list of non-empty categories; 2.1 does not write categories (refuted)."
 ],
 "C13": [
  "proved",
  "Exact type set read back for every type value; the vocabulary is characterised as all flags except Undefined."
 ],
 "C14": [
  "proved",
  "All three versions; dates with years 1..9999 and year-less dates, with and without time, local/UTC/whole-minute offsets. Refuted outside (five-digit years, offsets with seconds)."
 ],
 "C15": [
  "proved",
  "Every offset below 100 hours; the bound is shown to be exact."
 ],
 "C16": [
  "proved",
  "Over all sequences of addEmail/removeEmail on a new contact, and per call on any contact."
 ],
 "C17": [
  "proved",
  "Exact condition for every list (e-mails and languages); the unconditional claim is refuted."
 ],
 "C18": [
  "proved",
  "Refinement of an abstract map for phones, addresses and keys, plus positions and removal."
 ],
 "C19": [
  "proved",
  "Phones and addresses: existence, preference, default, which entry, and the list variants."
 ],
 "C20": [
  "proved",
  "Refinement of a map keyed by the joined name; distinct keys may collide (refuted); setCustoms(customs()) exact if names have no colon."
 ],
 "C21": [
  "proved",
  "Sharing machine with reference counts for arbitrary programs; complete classes have value semantics; the forgotten members are proved lost by the first modification of a copy."
 ],
 "C22": [
  "proved",
  "List comparison for any element equality, whole contacts under stated conditions; symmetry in general refuted."
 ],
 "C23": [
  "proved",
  "All strings and word sets. Three refutations recorded: read outside the word list for 'Jr., John', words before the comma lost, last word lost when the family name switch is off; 'f, g' never fills the given name (C23_space_after_comma)."
 ],
 "C24": [
  "proved",
  "Lower-casing is a parameter. Refuted for names with quotes or ending in a backslash."
 ],
 "C25": [
  "proved",
  "For both signedness of char, every attribute name of printable ASCII without colon, every byte string, every line length; whole texts through the reader. URL lines refuted."
 ],
 "C26": [
  "proved",
  "From every reader state; at most one report per line end; end of input is reported again; the import loop of the converter never exceeds its bound."
 ],
 "C27": [
  "proved",
  "The claim as stated is false for birthdays (refuted) and for entries that do not begin with dn (refuted); proved: concatenation at an empty line followed by dn is sequential reading with only birthday parts and the identifier counter carried over, and the birthday parts influence nothing but birthdays."
 ],
 "C28": [
  "proved",
  "Proved for lists of any length on platforms with signed char; the assumptions on the environment are in the record sane (fresh identifiers, country name lookup idempotent, empty URL invalid). Refuted with witnesses: contacts with a given name only are lost, repeated blanks in the formatted name, doubled cell numbers, third street lines, a birthday handed to the next contact, non-ASCII texts where char is unsigned."
 ],
 "C29": [
  "proved",
  "All sequences of operations; equality of contact references ignores the GID (refutation of exact removal)."
 ],
 "C30": [
  "proved",
  "Over the token stream of the XML reader and writer (lexical layer trusted); success and result characterised for acceptable and unacceptable groups."
 ],
 "C31": [
  "proved",
  "Digit predicate is a parameter."
 ],
 "C32": [
  "proved",
  "Full statement. That the formatted address does not change with an unknown letter is refuted (C32_unknown_formatted_refuted)."
 ],
 "C33": [
  "proved",
  "Total for every format; exact line specification; completeness, non-interference and empty-address theorems for formats of proper elements (all formats the repository returns) and an upper-casing function that maps only the empty string to the empty string. The unrecognised-country case is stated as C33_unknown_country_refuted. KCountry, KConfig, toUpper and QChar::script are parameters."
 ],
 "C34": [
  "proved",
  "For every call history on a new object, and exact conditions for arbitrary parameters; unconditional claim refuted."
 ],
 "C35": [
  "proved",
  "URL types unconditionally; messaging preference for parameter maps with distinct names; URL preference with the exact condition."
 ],
 "C36": [
  "proved",
  "Under sane_stream (Qt's own encodings of QDateTime, float, QImage and URLs round-trip). Refuted of the full wording: undecodable raw picture data, raw data left over in a used target object, invalid URLs, custom names with a colon."
 ],
 "C37": [
  "proved",
  "3.0: byte for byte with type. 2.1: only linked media survive (refuted for data). 4.0: a single picture with a three-letter type keeps its bytes, the type comes back as image/xxx; (with a semicolon); refuted for other lengths and for the order of several pictures; short foreign data is undefined behaviour."
 ],
 "C38": [
  "proved",
  "Secrecy (3.0), gender (4.0), version (all). Multi-letter sex component refuted."
 ],
 "C39": [
  "proved",
  "All versions; names with an application part and a dash; a name without dash is refuted."
 ],
 "C40": [
  "proved",
  "Same number and order, uid by uid, for every list of contacts that fit; the result is unique."
 ],
 "C41": [
  "proved",
  "Text setters; the object overloads append (stated as a theorem)."
 ],
 "C42": [
  "proved",
  "Over all histories."
 ],
 "C43": [
  "proved",
  "Over all histories and all floating point values as rationals, infinities and NaN."
 ],
 "C44": [
  "proved",
  "3.0: safe30; 4.0: safe40; 2.1: safe21. Equality of all listed fields for every list of contacts satisfying these."
 ],
 "C45": [
  "proved",
  "Equivalences and exact characterisations; three parts of the informal claim are refuted."
 ],
 "C46": [
  "proved",
  "All versions where the property is written; the SORT-AS case is refuted."
 ],
 "C47": [
  "proved",
  "Exact resulting order for every list; the naive claim (order unchanged) is refuted."
 ],
 "C48": [
  "proved",
  "Each property for every list; members of non-groups refuted."
 ],
 "C49": [
  "proved",
  "Field groups up to permutation, calendar addresses in order per type; two label defects refuted with witnesses."
 ],
 "C50": [
  "proved",
  "LF CR: all texts. CR LF: every list of unfolded entries of ordinary attributes splits into one entry per attribute; imports and folding refuted by example."
 ],
 "C51": [
  "proved",
  "Bound on every physical line; limit itself refuted."
 ],
 "C52": [
  "proved",
  "Proved for lists of any length. Refuted with witnesses: the group name is lost, the member address changes on every trip, names with commas are cut, groups with references only are lost."
 ],
 "C53": [
  "proved",
  "Under sane_stream, which includes that Qt's encodings of dates, floats and images notice truncation."
 ],
 "C54": [
  "proved",
  "All inputs, composed with C44 (3.0). A drop that fails after a format was accepted has emptied the target list: refuted theorem."
 ],
 "C55": [
  "proved",
  "Years 1 to 9999. Zone lost and other years changed: refuted theorems."
 ],
 "C56": [
  "proved",
  "Equivalence with an independent one-pass relation; consequences; names inside values are changed too: refuted theorem."
 ],
 "C57": [
  "proved",
  "Directory and desktop file lookup are parameters. A file name with two dots offers a service without a file of its own: refuted theorem."
 ],
 "C58": [
  "proved",
  "Invariant over the scanner, the card loop, the lines of a card and the API calls. The setters that replace a whole list or the text of the first title do not keep it (C58_setters_refuted), a second empty title in LDIF leaves an empty title (C58_ldif_refuted), and an e-mail address or member can be empty (C58_empty_values_refuted)."
 ],
 "C59": [
  "proved",
  "Versions 3.0, 2.1 (without binary data, which it does not keep) and 4.0 (pictures linked, not embedded). Refuted for two preferred e-mail addresses, which change places each time, and for embedded pictures in 4.0, whose type grows each time."
 ],
 "C60": [
  "proved",
  "Refuted for a key type of one's own, a sort string with a comma, the custom field for the spouse, and (in 3.0) the position of an address."
 ],
 "C61": [
  "proved",
  "51 properties; the exceptions are the theorems C61_zone_refuted, C61_birthday_refuted and C61_url_refuted."
 ],
 "C62": [
  "proved",
  ""
 ],
 "C63": [
  "proved",
  "C63_address_member_refuted and C63_url_label_refuted are the exceptions."
 ],
 "C64": [
  "proved",
  "The data file is transcribed by tools/formats.py; exceptions: C64_lost_refuted, C64_gibraltar_refuted, C64_israel_refuted."
 ],
 "C65": [
  "proved",
  "C65_joined for every surrounding text; C65_space_refuted shows that the condition on the first character of a piece is needed"
 ],
 "C66": [
  "proved",
  "An exact characterisation, for texts the parser gets to the end of (C02 says which)."
 ],
 "C67": [
  "proved",
  "For texts that settle (C02) and properties without soft line breaks."
 ],
 "C68": [
  "proved",
  "For texts that settle (C02) and properties without soft line breaks. The random identifiers are an external input; the theorem says how they move."
 ],
 "C69": [
  "proved",
  "For texts that settle (C02) and properties without soft line breaks. The condition on the alphabetical order is needed: C69_mixed_refuted."
 ],
 "C70": [
  "proved",
  "Lines outside of cards and unfinished cards: for texts that settle (C02), without '=' at the end of the lines before. An END line without BEGIN line makes an empty card: C70_stray_end_refuted."
 ],
 "C71": [
  "proved",
  "Exchange of names: for texts that settle (C02). Values: printable ASCII without backslash, property without parameters. The scheme of Gadu-Gadu differs between X-GADUGADU and IMPP: C71_gadu_refuted."
 ],
 "C72": [
  "proved",
  "Texts that begin with a byte order mark are excluded (decoding drops it)."
 ],
 "C73": [
  "proved",
  "Incomplete dates and texts that are no times: C73_incomplete_refuted, C73_nonsense_time_refuted."
 ],
 "C74": [
  "proved",
  "Records with names; the exceptions are C74_root_refuted, C74_kind_case_refuted, C74_fill_refuted."
 ],
 "C75": [
  "proved",
  "Format strings are taken apart as in C32. Upper-casing is assumed not to make a text empty."
 ],
 "C76": [
  "proved",
  "C76_coding and C76_values. The properties that keep their parameters (title, role, nickname, e-mail, ...) are covered by C76_values only: the coding parameter is kept in the contact, and C76_export_refuted shows that a title read with ENCODING=BASE64 or ENCODING=8BIT is not written any more, so it is lost in an export."
 ],
 "C77": [
  "proved",
  "Parameters with at most one value in quotes, the last (several are refuted separately); for each name all properties of the card write the name in the same case (otherwise the order between spellings is that of the sorted names, C69). TZ in the form without colon and ORG with more than two parts are refuted separately. Pictures may make reading undefined (C66) and are the only exception. GEO with parameters of the URI is refuted separately. KEY and IMPP are in C78; LABEL, pictures and sounds are treated elsewhere (C03, C46, C66)."
 ],
 "C78": [
  "proved",
  "For each name all properties of the card write the name in the same case (not needed for RELATED and IMPP). The types of a URL count in capitals only (refuted otherwise), and of a key with another media type the type is lost (refuted). The picture exception is that of C77."
 ],
 "C79": [
  "proved",
  "The vocabulary of documents (elements, attributes, what an element states) is in S_GroupDoc.v and names every element and attribute by its text. Tokenising XML is QXmlStreamReader's and is not modelled; custom entries of members have no place in the document."
 ],
 "C80": [
  "proved",
  "The properties of the written text, independent of the reader; `laid_out`, `decodes` and `holds_*` in S_Written are the reading of the standard. Components with separators are excluded and refuted; version 2.1 is covered for texts that need no quoted-printable encoding and data that is not embedded."
 ],
 "C81": [
  "proved",
  "C81_text for every text, C81_entries for the text of a given list of entries; the meaning (S_LdifMeaning) is a table from attribute names to fields, independent of the order in which the reader handles them. Three findings: letters that are not ASCII and not encoded, attributes without value, times in UTC."
 ],
 "C82": [
  "proved",
  "The attributes of the written text against a table (rows in S_LdifWritten) and the lines against the grammar of RFC 2849, without the library's reader. Values beginning with a blank are excluded and refuted; so are letters that are not ASCII in the name of the entry. char is signed (C28_unsigned_refuted covers the other case)."
 ],
 "C83": [
  "proved",
  "Codec a parameter with the hypothesis quotable on the values written; C83_codec shows it for a quoted-printable codec of RFC 2045 defined in Gallina. C83_equal_refuted: titles do not come back equal. C83_coding_stays: a coded title is written with ENCODING=QUOTED-PRINTABLE to 3.0 and 4.0 cards. Values which 2.1 cannot write at all (safe21) are those of C44. C83_email_kinds: types of e-mail addresses, written as parameters without value in 2.1, keep their meaning."
 ],
 "C84": [
  "proved",
  "layout of all classes, injectivity on one-line values; the five refuted parts are recorded in DESIGN.md"
 ],
 "C85": [
  "proved",
  "distribution with and without comma, uniqueness of it, the word sets; the refuted part is recorded in DESIGN.md"
 ],
 "C86": [
  "proved",
  "required parts, parts always shown, no repetition, capitals; the refuted part is recorded in DESIGN.md"
 ],
 "C87": [
  "proved",
  "message for every faulty text, for other documents and for malformed ones; every document, with and without a place for the message"
 ],
 "C88": [
  "proved",
  "assembled name, real name, and both after setNameFromString with the family name switch on"
 ],
 "C89": [
  "proved",
  "a language without translations; reading desktop files is KDesktopFile's (hypothesis services_installed)"
 ],
 "C90": [
  "proved",
  "what must hold of a contact is in S_LdifStable.v (tidy, birthdays_last); chars signed, as in C28"
 ],
 "C91": [
  "proved",
  "that the contacts in between can be written (fits) is part of the relation converted; it is decidable, see the example"
 ],
 "C92": [
  "proved",
  "that the contacts in between can be written (fits) is part of the relation converted"
 ]
}