{"id": "C01", "title": "Escaping of text values is undone by reading, exactly outside one defect class", "statement": "Writing a text value into a vCard property and reading the property back yields the same bytes if and only if the text contains no backslash that is immediately followed by 'n', 'N' or 'r'. (For the excluded texts, e.g. the Windows path C:\\new, the value read back is different: a defect of the sequential un-escaping.)", "quantifier": "every byte string, with and without the comma exception used for CATEGORIES and GEO", "why_tests_cant": "The failing texts are a thin, unbounded subset of all byte strings; a test can only try some, and only a proof shows the set of failures is exactly this one.", "anchors": ["src/vcardparser/vcardparser.cpp: addEscapes", "src/vcardparser/vcardparser.cpp: removeEscapes"]}
{"id": "C02", "title": "Parsing vCard text always finishes", "statement": "VCardParser::parseVCards returns after a number of loop rounds bounded by the number of lines of the input, for every input in which no quoted-printable value ends in a soft line break '=', and for every input that ends in a line feed and whose last line but one is not blank and does not end in '='. The unrestricted claim is false: every text whose last card has a quoted-printable property with a soft break directly before END:VCARD makes the parser restart from offset 0 for ever.", "quantifier": "every byte string and every number of loop iterations", "why_tests_cant": "Non-termination cannot be observed by a finite run, and termination for all inputs is not testable.", "anchors": ["src/vcardparser/vcardparser.cpp: VCardParser::parseVCards", "src/vcardparser/vcardparser.cpp: VCardLineParser::parseLine"]}
{"id": "C03", "title": "Written vCard lines respect the 75 octet limit", "statement": "Every physical line (text between CRLFs) that VCardParser::createVCards emits for a property with a value has at most 75 octets, the leading fold space excepted where binary (base64/quoted-printable) data is folded, in which case it has at most 76.", "quantifier": "every property line, of any length and content", "why_tests_cant": "The boundary arithmetic depends on the position of multi-byte characters modulo the width; the space of lines is unbounded.", "anchors": ["src/vcardparser/vcardparser.cpp: fixLineSize", "src/vcardparser/vcardparser.cpp: VCardParser::createVCards"]}
{"id": "C04", "title": "Folding is transparent", "statement": "Folding a property line and then unfolding it the way the parser does (dropping each CRLF + one space) gives back exactly the original line; nothing is lost, duplicated or reordered at fold points.", "quantifier": "every property line without CR or LF, both folding modes", "why_tests_cant": "Off-by-one errors show up only for particular lengths and character positions; the set of lines is infinite.", "anchors": ["src/vcardparser/vcardparser.cpp: fixLineSize", "src/vcardparser/vcardparser.cpp: VCardParser::parseVCards"]}
{"id": "C05", "title": "Folding never splits a multi-octet character", "statement": "When a UTF-8 property line is folded, no fold is inserted inside the encoding of a character, for lines all of whose characters are encoded in at most three bytes. For four-byte characters (e.g. emoji) the claim is false: the length computation treats them as three bytes.", "quantifier": "every valid UTF-8 line", "why_tests_cant": "Depends on the alignment of each character with the fold column.", "anchors": ["src/vcardparser/vcardparser.cpp: fixLineSize"]}
{"id": "C06", "title": "Line-level vCard round trip", "statement": "Serialising a list of well-formed cards and parsing the bytes again yields the same list of cards: same identifiers, same groups, same parameters, same values and same order of lines below each identifier.", "quantifier": "every list of cards whose identifiers, groups and parameters use the vCard token alphabet and whose values are valid text outside the defect class of C01 or binary data with encoding=b", "why_tests_cant": "A round trip over unbounded lists of unbounded lines interacting with folding, escaping and character encoding.", "anchors": ["src/vcardparser/vcardparser.cpp: VCardParser::createVCards", "src/vcardparser/vcardparser.cpp: VCardParser::parseVCards", "src/vcardparser/vcard.cpp: VCard::addLine", "src/vcardparser/vcardline.cpp: VCardLine::addParameter"]}
{"id": "C07", "title": "Cards in one file do not influence one another", "statement": "If a text consists of complete cards (ends with an END:VCARD line) followed by any further text, the cards read from the concatenation are the cards of the first text followed by the cards of the second, provided no quoted-printable soft break occurs.", "quantifier": "all pairs of texts", "why_tests_cant": "Isolation between records is a statement about all histories of the parser state.", "anchors": ["src/vcardparser/vcardparser.cpp: VCardParser::parseVCards"]}
{"id": "C08", "title": "Parameter maps stay sorted and free of duplicates", "statement": "After any sequence of parameter additions to a property line, parameter names are strictly increasing and no parameter lists the same value twice; a lookup returns exactly the distinct values added under that name in order of first addition.", "quantifier": "every sequence of additions", "why_tests_cant": "Invariant over unbounded operation histories.", "anchors": ["src/vcardparser/vcardline.cpp: VCardLine::addParameter", "src/parametermap_p.h: ParameterMap::insertParam"]}
{"id": "C09", "title": "Cards keep lines in insertion order per identifier and identifiers sorted and unique", "statement": "After adding any sequence of lines to a card, lines(id) returns exactly the lines added with that identifier, in the order of addition, and identifiers() lists each used identifier once in increasing order. line(id) is the first of them. setVersion() does not set the version.", "quantifier": "every sequence of lines", "why_tests_cant": "Invariant over unbounded operation histories.", "anchors": ["src/vcardparser/vcard.cpp: VCard::addLine", "src/vcardparser/vcard.cpp: VCard::lines", "src/vcardparser/vcard.cpp: VCard::identifiers", "src/vcardparser/vcard.cpp: VCard::line", "src/vcardparser/vcard.cpp: VCard::setVersion"]}
{"id": "C10", "title": "Structured values: splitting undoes joining, exactly outside one defect class", "statement": "Joining any list of components with ';' after escaping each (as done for N, ADR and ORG) and splitting the result returns the same components if and only if no component other than the last ends in a backslash.", "quantifier": "every non-empty list of component texts of any length", "why_tests_cant": "Unbounded lists of unbounded strings; the escape character interacts with the separator.", "anchors": ["src/vcardtool.cpp: VCardTool::splitString", "src/vcardtool.cpp: processAddresses", "src/vcardtool.cpp: processOrganizations", "src/vcardtool.cpp: VCardTool::createVCards"]}
{"id": "C11", "title": "Name, address and organisation fields survive the vCard form", "statement": "For a contact whose components do not end in a backslash, the five name fields, the seven address fields and the organisation with department written to N, ADR and ORG are read back unchanged and never end up in another field.", "quantifier": "all values of all fields", "why_tests_cant": "Cross-field leakage depends on arbitrary content (semicolons, commas, empty fields).", "anchors": ["src/vcardtool.cpp: VCardTool::createVCards", "src/vcardtool.cpp: VCardTool::parseVCards", "src/vcardtool.cpp: processAddresses", "src/vcardtool.cpp: processOrganizations"]}
{"id": "C12", "title": "Categories survive the vCard form", "statement": "The category list written to CATEGORIES is read back as the same list for every list of non-empty category names without backslashes; commas inside a category do not split it.", "quantifier": "every list of category names", "why_tests_cant": "Unbounded lists and contents.", "anchors": ["src/vcardtool.cpp: VCardTool::createVCards", "src/vcardtool.cpp: VCardTool::parseVCards"]}
{"id": "C13", "title": "Phone and address type sets survive the vCard form", "statement": "The set of types of a phone number or postal address written as TYPE parameters is recovered exactly when the parameters are read (types outside the vCard vocabulary excepted).", "quantifier": "every subset of type flags", "why_tests_cant": "Needs all combinations of flags and the interaction of the preference flag with the v4 PREF parameter.", "anchors": ["src/vcardtool.cpp: processPhoneNumbers", "src/vcardtool.cpp: processAddresses", "src/vcardtool.cpp: stringToPhoneType", "src/vcardtool.cpp: stringToAddressType"]}
{"id": "C14", "title": "Dates and times survive the vCard form", "statement": "A valid date, or date and time, with a year from 1 to 9999 formatted for a vCard in either version and parsed again gives the same date, time and UTC flag.", "quantifier": "every valid date, every time of day, both vCard versions, with and without time", "why_tests_cant": "All calendar dates times all times of day; leap years and zero padding.", "anchors": ["src/vcardtool.cpp: VCardTool::parseDateTime", "src/vcardtool.cpp: VCardTool::createDateTime", "src/vcardtool.cpp: createDate", "src/vcardtool.cpp: createTime"]}
{"id": "C15", "title": "Time zone offsets survive the vCard form", "statement": "A valid UTC offset in minutes whose magnitude is below 100 hours is read back unchanged from the TZ property.", "quantifier": "every offset", "why_tests_cant": "Sign and remainder handling over the whole range.", "anchors": ["src/vcardtool.cpp: VCardTool::createVCards", "src/vcardtool.cpp: VCardTool::parseVCards"]}
{"id": "C16", "title": "E-mail list: no duplicates, preferred first", "statement": "Starting from an empty contact, after any sequence of addEmail calls no address occurs twice; after adding an address as preferred it is the first one; adding changes the relative order of the other addresses in no way and drops none.", "quantifier": "every sequence of additions", "why_tests_cant": "Invariant over unbounded histories.", "anchors": ["src/addressee.cpp: Addressee::addEmail", "src/addressee.cpp: Addressee::preferredEmail", "src/addressee.cpp: Addressee::emails"]}
{"id": "C17", "title": "Removing an e-mail address removes it and only it", "statement": "After removeEmail(a) the address a does not occur exactly if it did not occur twice in a row before, and then all other addresses remain in order; in particular this holds for lists without duplicates. With adjacent duplicates (which setEmailList permits) one copy survives, so the unrestricted claim is false. The same for removeLang.", "quantifier": "every e-mail list and address", "why_tests_cant": "Depends on adjacency patterns in unbounded lists.", "anchors": ["src/addressee.cpp: Addressee::removeEmail", "src/addressee.cpp: Addressee::setEmailList"]}
{"id": "C18", "title": "Phone numbers, addresses and keys behave as maps from identifier to value", "statement": "insert replaces the entry with the same identifier in place and otherwise appends; find returns the last inserted value for an identifier; remove deletes exactly that identifier; identifiers stay pairwise distinct; all under any sequence of operations.", "quantifier": "every sequence of insert and remove operations", "why_tests_cant": "Refinement over unbounded operation histories.", "anchors": ["src/addressee.cpp: Addressee::insertPhoneNumber", "src/addressee.cpp: Addressee::removePhoneNumber", "src/addressee.cpp: Addressee::findPhoneNumber", "src/addressee.cpp: Addressee::insertAddress", "src/addressee.cpp: Addressee::removeAddress", "src/addressee.cpp: Addressee::findAddress", "src/addressee.cpp: Addressee::insertKey", "src/addressee.cpp: Addressee::removeKey"]}
{"id": "C19", "title": "Selection by type returns the preferred match, else a match", "statement": "phoneNumber(type) returns an entry having all the requested type bits whenever one exists; if a matching entry carries the preferred flag, the entry returned carries it; the default value is returned only if nothing matches. The same for address(type). phoneNumbers(type)/addresses(type) return exactly the matching entries in order. keys(type, custom) returns exactly the keys of that type (and custom type) in order, key(type, custom) the first of them.", "quantifier": "every list and every type mask", "why_tests_cant": "All list contents and masks.", "anchors": ["src/addressee.cpp: Addressee::phoneNumber", "src/addressee.cpp: Addressee::phoneNumbers", "src/addressee.cpp: Addressee::address", "src/addressee.cpp: Addressee::addresses", "src/addressee.cpp: Addressee::key", "src/addressee.cpp: Addressee::keys"]}
{"id": "C20", "title": "Custom fields behave as a map keyed by application and name", "statement": "Under any sequence of insertCustom/removeCustom, custom(app,name) returns the last value inserted for that qualified name and an empty string if it was removed or never inserted; entries stay sorted and unique; other keys are not affected. Distinct (app,name) pairs are distinct keys if and only if they differ in the joined text app-name.", "quantifier": "every sequence of operations and all keys", "why_tests_cant": "Refinement over unbounded histories.", "anchors": ["src/addressee.cpp: Addressee::insertCustom", "src/addressee.cpp: Addressee::removeCustom", "src/addressee.cpp: Addressee::custom", "src/addressee.cpp: Addressee::customs", "src/addressee.cpp: Addressee::setCustoms"]}
{"id": "C21", "title": "Changing a copy leaves the rest of the copy equal to the original", "statement": "After copying a contact (or phone number, address, messaging address, picture, contact reference) and changing one field of the copy, the original is unchanged and every other field of the copy still equals the original's, in every program of constructions, copies, assignments and modifications. This holds for exactly the fields the detaching copy constructor copies; it is false for the contact kind, vCard field groups, nick names and client PID maps, for a phone number's parameters, an address' geo position, a messaging address' URL, a picture's raw data, and a contact reference's GID.", "quantifier": "every object, every sequence of copies and mutations", "why_tests_cant": "The failures need a specific sharing history; a universal claim ranges over all fields and histories.", "anchors": ["src/addressee.cpp: Addressee::Private", "src/phonenumber.cpp: PhoneNumber::Private", "src/address.cpp: Address::Private", "src/impp.cpp: Impp::Private", "src/picture.cpp: PicturePrivate", "src/contactgroup.cpp: ContactReferencePrivate"]}
{"id": "C22", "title": "Contact equality is an equivalence on list contents", "statement": "Comparing list-valued fields of two contacts is reflexive and transitive for all lists and independent of element order; it is symmetric on lists without duplicates; it is not symmetric in general ([a,a] equals [a,b] but not conversely). Whole contacts inherit this: == is reflexive for contacts whose embedded pictures have data, symmetric and the negation of != for contacts without duplicate list entries; otherwise a == b and a != b can both hold. The revision date is not compared.", "quantifier": "all pairs of lists over any element type with decidable equality", "why_tests_cant": "Universally quantified algebraic law.", "anchors": ["src/addressee.cpp: listEquals", "src/addressee.cpp: Addressee::operator=="]}
{"id": "C23", "title": "Parsing a name string never reads outside its word list and loses no word", "statement": "setNameFromString on a string without a comma is memory safe, sets name and formatted name to the string (enclosing quotes removed), touches only the name fields, and distributes every word, in order, over prefix, given, additional, family name and suffix (with the family name switch off one word can get lost). With a comma it is memory safe if and only if not every word before the comma is a known suffix; the words after the comma are distributed without loss over prefix, given and additional names, and family name and suffix are the end of the words before it.", "quantifier": "every string and every content of the configurable word sets", "why_tests_cant": "All strings; the crash needs a particular combination of suffix words.", "anchors": ["src/addressee.cpp: Addressee::setNameFromString", "src/addresseehelper.cpp: AddresseeHelper"]}
{"id": "C24", "title": "Composing and parsing a full e-mail address are inverse", "statement": "parseEmailAddress applied to fullEmail() gives back the contact's display name and its (lower-cased) address, for every address without special characters and every name that needs no quoting (spaces at its ends aside), and every name that needs quoting but has no quote and no open backslash at its end. A quote in the name comes back with a backslash before it.", "quantifier": "all names and addresses", "why_tests_cant": "All texts, in particular those that need quoting.", "anchors": ["src/addressee.cpp: Addressee::fullEmail", "src/addressee.cpp: Addressee::parseEmailAddress"]}
{"id": "C25", "title": "LDIF attribute lines round trip", "statement": "Ldif::assembleLine of an attribute and any byte value, at any line length limit, is read back by the LDIF reader as the same attribute and value, whether the value is written plain, folded or base64 encoded. URL-valued lines are not (they are written raw but decoded as base64).", "quantifier": "every attribute name in the LDIF alphabet, every byte string, every line length", "why_tests_cant": "Unbounded values and fold positions.", "anchors": ["src/ldif.cpp: Ldif::assembleLine", "src/ldif.cpp: Ldif::splitLine", "src/ldif.cpp: Ldif::nextItem"]}
{"id": "C26", "title": "LDIF reading terminates and consumes its input", "statement": "For every input, repeatedly calling nextItem reaches end-of-input after a number of calls bounded by the input size.", "quantifier": "every byte string", "why_tests_cant": "Termination for all inputs.", "anchors": ["src/ldif.cpp: Ldif::nextItem", "src/ldif.cpp: Ldif::processLine", "src/converter/ldifconverter.cpp: LDIFConverter::LDIFToAddressee"]}
{"id": "C27", "title": "Entries of one LDIF file do not influence one another", "statement": "The contact read from an LDIF entry depends only on that entry. This is false of the code: birthday parts read in one entry are applied to following contacts that have no birthday; it holds for every other field.", "quantifier": "every LDIF text", "why_tests_cant": "Isolation between records under all histories.", "anchors": ["src/converter/ldifconverter.cpp: LDIFConverter::LDIFToAddressee", "src/converter/ldifconverter.cpp: evaluatePair"]}
{"id": "C28", "title": "Contacts survive export to and import from LDIF", "statement": "Exporting contacts to LDIF and importing the text gives back, in order, every contact that is not empty and has a formatted or family name: given, family and prefix names, unique identifier, nick name, title, role, organisation, department, note and web address are the same, the formatted name with blanks simplified, the distinct e-mail addresses in order, one number of each exported phone type, home and work address with streets of at most two lines, revision, and for a single contact the birthday; all other members are those of a new contact.", "quantifier": "every list of contacts with well-formed texts and dates, every environment (URL parser, country table, identifier source, signed char)", "why_tests_cant": "All field contents.", "anchors": ["src/converter/ldifconverter.cpp: LDIFConverter::addresseeToLDIF", "src/converter/ldifconverter.cpp: LDIFConverter::LDIFToAddressee", "src/converter/ldifconverter.cpp: evaluatePair"]}
{"id": "C29", "title": "Contact group membership operations", "statement": "append/remove on references, group references and data keep insertion order; count() is the number of contact references and data objects; remove deletes exactly one occurrence (the first equal one) and nothing else, and never touches the other kinds of members. Equality is identity for group references and data, but ignores the GID for contact references, so that removing a reference can delete a different one.", "quantifier": "every sequence of operations", "why_tests_cant": "Histories of unbounded length.", "anchors": ["src/contactgroup.cpp: ContactGroup::append", "src/contactgroup.cpp: ContactGroup::remove", "src/contactgroup.cpp: ContactGroup::count"]}
{"id": "C30", "title": "Contact groups survive the XML form", "statement": "A list of contact groups whose members satisfy the reader's non-emptiness rules, written as XML and read again, gives the same groups with the same members in the same order (custom fields of members are not stored); a group violating the rules is written successfully but rejected on reading.", "quantifier": "every list of groups", "why_tests_cant": "Unbounded nesting and contents.", "anchors": ["src/contactgrouptool.cpp: XmlContactGroupWriter", "src/contactgrouptool.cpp: XmlContactGroupReader"]}
{"id": "C31", "title": "Phone number normalisation", "statement": "normalizedNumber() of any number contains only digit characters and a '+' at most in first place, contains exactly the digits of the number in the same order, and normalising is idempotent.", "quantifier": "every text", "why_tests_cant": "All texts.", "anchors": ["src/phonenumber.cpp: PhoneNumber::normalizedNumber", "src/phonenumber.cpp: PhoneNumber::setNumber"]}
{"id": "C32", "title": "Address format strings: parsing is exact", "statement": "Parsing an address format string yields the sequence of fields, literals and line separators that, printed again, is the format string, for every format string using only known field letters, and every canonical sequence of elements is what its text parses to. An unknown letter contributes nothing: the elements are those of the text before it followed by those of the text after it (it does cut a literal in two, which can change a formatted address).", "quantifier": "every format string", "why_tests_cant": "All strings.", "anchors": ["src/addressformatparser.cpp: AddressFormatParser::parseElements", "src/addressformatparser.cpp: AddressFormatParser::parseField"]}
{"id": "C33", "title": "Formatted addresses contain every included field and never read outside the format", "statement": "Formatting an address with any format and style performs no out-of-range access; the output consists of exactly the lines the format prescribes; it contains every non-empty address component that format and style include, upper-cased where asked; components that style or format leave out have no influence on it; an empty address is formatted as the empty string. A country that is not recognised is replaced by the name of the user's own country. geoUri() gives the coordinates if they are valid, otherwise the formatted address as a query, and the empty URL for an empty address.", "quantifier": "every address, format and style", "why_tests_cant": "All combinations of empty and non-empty fields and formats.", "anchors": ["src/addressformatter.cpp: AddressFormatter::format", "src/address.cpp: Address::geoUri"]}
{"id": "C34", "title": "E-mail type and preference: what is set is what is read", "statement": "For an e-mail whose parameters came from the API, type() after setType(t) returns t and isPreferred() after setPreferred(p) returns p; for parameters read from a vCard with lower-case values or a pref parameter other than 1 this is false.", "quantifier": "every parameter map and every flag value", "why_tests_cant": "All parameter maps.", "anchors": ["src/email.cpp: Email::setType", "src/email.cpp: Email::type", "src/email.cpp: Email::setPreferred", "src/email.cpp: Email::isPreferred"]}
{"id": "C35", "title": "URL type, URL preference and messaging preference: what is set is what is read", "statement": "ResourceLocatorUrl::type() after setType(t) returns t for every parameter map; Impp::isPreferred() after setPreferred(p) returns p for every parameter map with distinct names; other parameters are not changed.", "quantifier": "every parameter map and every flag value", "why_tests_cant": "All parameter maps.", "anchors": ["src/resourcelocatorurl.cpp: ResourceLocatorUrl::setType", "src/resourcelocatorurl.cpp: ResourceLocatorUrl::type", "src/resourcelocatorurl.cpp: ResourceLocatorUrl::setPreferred", "src/impp.cpp: Impp::setPreferred"]}
{"id": "C36", "title": "Binary data stream round trip", "statement": "Writing a contact (and each of its value types) to a data stream and reading it back, into any object, restores every streamed field and consumes exactly the bytes written, whatever follows; a contact read into a new object is equal to the one written. Not streamed: the raw data of pictures (the decoded image is), the changed flag of the target, URLs that are not valid. A text or byte array that is null rather than empty is written differently; it is read back as an empty one.", "quantifier": "every contact whose texts and lists have fewer than 2^32 bytes or elements and whose custom names have no colon; every target object; every list of contacts", "why_tests_cant": "Order and width of all fields for all values.", "anchors": ["src/addressee.cpp:2535-2644", "src/parametermap_p.h:96-122", "src/phonenumber.cpp:280-292", "src/address.cpp:436-455", "src/email.cpp:212-221", "src/key.cpp:211-226", "src/picture.cpp:215-225", "src/impp.cpp:154-164"]}
{"id": "C37", "title": "Pictures, sounds and keys survive the vCard form", "statement": "Binary pictures, logos, sounds and keys written to a 3.0 vCard are read back byte for byte with their type. For 2.1 output the data is not encoded (the encoding parameter is not recognised on writing), and for 4.0 the media type prefix is mis-measured unless it has exactly the length of image/png; reading such a value shorter than 22 characters accesses memory out of range.", "quantifier": "every byte string and type", "why_tests_cant": "All data lengths and media types.", "anchors": ["src/vcardtool.cpp: VCardTool::createPicture", "src/vcardtool.cpp: VCardTool::parsePicture", "src/vcardtool.cpp: VCardTool::createSound", "src/vcardtool.cpp: VCardTool::parseSound", "src/vcardtool.cpp: VCardTool::createKey", "src/vcardtool.cpp: VCardTool::parseKey"]}
{"id": "C38", "title": "Secrecy, gender and version survive the vCard form", "statement": "A valid secrecy class written to a 3.0 vCard is read back unchanged; a gender with a one-letter sex component and any comment is read back unchanged; the version written is the version detected.", "quantifier": "all values", "why_tests_cant": "All comments.", "anchors": ["src/vcardtool.cpp: VCardTool::createSecrecy", "src/vcardtool.cpp: VCardTool::parseSecrecy", "src/vcardtool.cpp: VCardTool::createVCards", "src/vcardtool.cpp: VCardTool::parseVCards", "src/vcardparser/vcard.cpp: VCard::version", "src/vcardparser/vcard.cpp: VCard::setVersion"]}
{"id": "C39", "title": "Custom fields survive the vCard form", "statement": "Custom fields written as X- properties are read back with the same qualified name and value, for every name in the vCard token alphabet and every value; extended messaging addresses exported as X-messaging become the corresponding messaging URLs.", "quantifier": "every list of custom fields", "why_tests_cant": "All names and values.", "anchors": ["src/vcardtool.cpp: processCustoms", "src/vcardtool.cpp: VCardTool::parseVCards"]}
{"id": "C40", "title": "Number and order of contacts", "statement": "Exporting a list of contacts to vCard text and parsing it gives a list of the same length in the same order; parseVCard returns the first of parseVCards.", "quantifier": "every list of contacts", "why_tests_cant": "Lists of any length.", "anchors": ["src/converter/vcardconverter.cpp: VCardConverter::exportVCards", "src/converter/vcardconverter.cpp: VCardConverter::parseVCards", "src/converter/vcardconverter.cpp: VCardConverter::parseVCard", "src/vcardtool.cpp: VCardTool::createVCards"]}
{"id": "C41", "title": "Single-value setters over list-valued properties", "statement": "nickName/title/role/organization return the last value set with the corresponding setter; setting it changes only the first element of the underlying list and keeps all extra entries. The overloads taking an object (setTitle(const Title&) etc.) append instead of setting.", "quantifier": "every history of setter calls", "why_tests_cant": "Unbounded histories.", "anchors": ["src/addressee.cpp: Addressee::setNickName", "src/addressee.cpp: Addressee::setTitle", "src/addressee.cpp: Addressee::setRole", "src/addressee.cpp: Addressee::setOrganization"]}
{"id": "C42", "title": "Category operations", "statement": "Under any sequence of insertCategory/removeCategory starting from an empty list categories are pairwise distinct, hasCategory reports exactly membership, and order of first insertion is kept.", "quantifier": "every sequence of operations", "why_tests_cant": "Unbounded histories.", "anchors": ["src/addressee.cpp: Addressee::insertCategory", "src/addressee.cpp: Addressee::removeCategory", "src/addressee.cpp: Addressee::hasCategory"]}
{"id": "C43", "title": "Geo positions are always valid or reported invalid", "statement": "After any sequence of setLatitude/setLongitude/clear, isValid() holds only if latitude is within [-90,90] and longitude within [-180,180]; equality of positions is an equivalence relation.", "quantifier": "every sequence of operations and all numbers", "why_tests_cant": "Unbounded histories.", "anchors": ["src/geo.cpp: Geo::setLatitude", "src/geo.cpp: Geo::setLongitude", "src/geo.cpp: Geo::operator=="]}
{"id": "C44", "title": "Whole-contact vCard round trip", "statement": "Converting a contact to a vCard and back with VCardConverter yields a contact with the same fields. In version 3.0: names, nick names, mailer, note, product id, uid, sort string, revision, birthday, time zone, secrecy, categories, organisations and department, roles, titles, e-mails, phone numbers, addresses with labels, URLs, customs. In version 4.0 the same without name, mailer, sort string and secrecy, but with kind, gender, death date, languages, client PID maps, sources and the members of a group. In version 2.1 the same as 3.0 without product id, nick names, categories, sort string and secrecy.", "quantifier": "every contact with contents in the class of C01/C10", "why_tests_cant": "All contents of all fields at once, through escaping, folding and encoding.", "anchors": ["src/converter/vcardconverter.cpp: VCardConverter::exportVCard", "src/vcardtool.cpp: VCardTool::createVCards", "src/vcardtool.cpp: VCardTool::parseVCards"]}
{"id": "C45", "title": "Picture, key and value class equality", "statement": "Equality of keys, sounds, time zones, secrecy, gender, phone numbers and parametrised values is an equivalence relation and implies equality of everything observable, except that a key or sound also keeps, uncompared, the representation not in use; equality of pictures is symmetric, reflexive exactly if an embedded picture has data, an equivalence on links and on images not yet encoded, and in general not transitive.", "quantifier": "all values", "why_tests_cant": "Algebraic law over all values.", "anchors": ["src/picture.cpp: Picture::operator==", "src/key.cpp: Key::operator==", "src/sound.cpp: Sound::operator==", "src/timezone.cpp: TimeZone::operator==", "src/gender.cpp: Gender::operator=="]}
{"id": "C46", "title": "Dates, time zone, position and sort string survive the vCard form", "statement": "The birthday (with or without time), the revision, the date of death (4.0), the time zone and, to six decimals, the geographical position of a contact are read back from its vCard; the sort string is read back from a 3.0 vCard. The sort string is not reliable when an organisation carries a SORT-AS parameter: reading then fills an empty sort string from it.", "quantifier": "every contact and version, all dates, times and offsets the formats can hold", "why_tests_cant": "The space of dates, offsets and combinations with other properties is unbounded; a test samples a few.", "anchors": ["src/vcardtool.cpp:1216-1345", "src/vcardtool.cpp:400-640", "src/vcardtool.cpp:760-1180"]}
{"id": "C47", "title": "Order of e-mail addresses in the vCard form", "statement": "All non-empty e-mail addresses with distinct mail texts are read back with their parameters: first the preferred ones in reverse order, then the others in their order. With at most one preferred address, placed first, the list is unchanged; with two preferred addresses their order is reversed, so preferredEmail changes.", "quantifier": "every list of e-mail addresses", "why_tests_cant": "Order depends on the number and position of preferred entries in lists of any length.", "anchors": ["src/vcardtool.cpp:290-330", "src/vcardtool.cpp:860-900", "src/addressee.cpp:1390-1480"]}
{"id": "C48", "title": "Repeatable text properties survive the vCard form", "statement": "Titles, roles, nick names (3.0, 4.0), related contacts (2.1, 3.0), URLs, sources, languages (4.0), client pid maps (4.0), kind (4.0) and, for groups, members (4.0) are read back in order with their parameters; entries with empty text are dropped. Members of a contact whose kind is not group are not written.", "quantifier": "every list of every such property", "why_tests_cant": "Lists of any length with any texts and parameters.", "anchors": ["src/vcardtool.cpp:230-640", "src/vcardtool.cpp:760-1180"]}
{"id": "C49", "title": "Field groups, calendar addresses and address labels in the vCard form", "statement": "Field groups are read back as the same collection (order may change), calendar addresses (4.0) as the same collection with the order kept within each type. Labels of two addresses of the same kind are confused in 3.0, and in 4.0 the text of a label is written raw, so that it can add properties to the contact.", "quantifier": "every list of field groups and calendar addresses; witnesses for the label defects", "why_tests_cant": "Collections of any size and content; injection depends on the content of texts.", "anchors": ["src/vcardtool.cpp:180-250", "src/vcardtool.cpp:590-640", "src/vcardtool.cpp:1000-1060"]}
{"id": "C50", "title": "LDIF line ends", "statement": "An LDIF text whose line ends are LF CR gives the same reports as with LF. With CR LF line ends every attribute is reported as an entry of its own and continuation lines are not joined, so such files are not imported as the contacts they describe.", "quantifier": "every text (LF CR); every list of entries of ordinary attributes (CR LF)", "why_tests_cant": "All texts and all entry lists; the tests only use LF files.", "anchors": ["src/ldif.cpp: Ldif::nextItem", "src/ldif.cpp: Ldif::processLine"]}
{"id": "C51", "title": "LDIF line length limit", "statement": "With a line length limit n > 0 Ldif::assembleLine writes a first line of at most max(n, length of the name + 2) characters and continuation lines of at most n + 1 characters including the leading blank; the limit n itself is not kept by continuation lines.", "quantifier": "every attribute name, byte string and limit", "why_tests_cant": "Unbounded values and limits.", "anchors": ["src/ldif.cpp: Ldif::assembleLine"]}
{"id": "C52", "title": "Groups survive export to and import from LDIF", "statement": "Exporting contacts and groups together to LDIF and importing the text gives the contacts as in C28 and, in order, every group that has members, with its members' names (without outer blanks) in order; the e-mail address of a member with a name comes back in angle brackets, and the group's name and its references are not carried.", "quantifier": "every list of contacts and every list of groups whose member texts contain no comma", "why_tests_cant": "All numbers and contents of groups, members and contacts, and every combination of contacts before groups in one text.", "anchors": ["src/converter/ldifconverter.cpp: LDIFConverter::addresseeAndContactGroupToLDIF", "src/converter/ldifconverter.cpp: LDIFConverter::contactGroupToLDIF", "src/converter/ldifconverter.cpp: LDIFConverter::LDIFToAddressee", "src/converter/ldifconverter.cpp: evaluatePair"]}
{"id": "C53", "title": "Truncated data streams are noticed", "statement": "If any number of bytes is missing at the end of what was written for a contact, a list of contacts or a value, reading it leaves the stream in an error status; lists and parameter maps that cannot be read completely are empty, never cut short, for any bytes whatever; an error status is never cleared by reading a contact. This holds as well for contacts some of whose texts are null.", "quantifier": "every contact and value, every cut; every byte sequence", "why_tests_cant": "All cut positions of all contacts.", "anchors": ["src/addressee.cpp:2589-2644", "src/parametermap_p.h:105-122", "src/impp.cpp:159-164"]}
{"id": "C54", "title": "Contacts survive drag and drop", "statement": "populateMimeData with a non-empty list returns true, and then canDecode says yes and fromMimeData gives the contacts back (as C44 says for version 3.0) whatever the mime data held before; data of other formats is not changed; an empty list puts nothing. Of several offered formats text/directory is read if offered, else the first kind of vCard; if there is none nothing is read and the target is unchanged.", "quantifier": "every list of contacts as in C44, every prior content of the mime data, every MIME database, every target", "why_tests_cant": "All combinations of offered formats, their order and prior content, and all contacts.", "anchors": ["src/vcarddrag.cpp:17-37", "src/vcarddrag.cpp:39-54", "src/vcarddrag.cpp:56-79"]}
{"id": "C55", "title": "Dates survive the vCard date helpers", "statement": "VCardStringToDate(dateToVCardString(x)) has the date and the hour, minute and second of x, as local time, for a date and time and for a date (midnight); different days and seconds have different texts; dashes and colons in a text do not matter; what is read is a date of the calendar and a time of the day or not valid.", "quantifier": "every date of the years 1 to 9999, every time of day, every time zone; every text", "why_tests_cant": "3.6 million days times 86400 seconds, and all texts.", "anchors": ["src/converter/vcardconverter.cpp:92-100", "src/converter/vcardconverter.cpp:102-121"]}
{"id": "C56", "title": "Messaging names are adapted in one consistent pass", "statement": "adaptIMAttributes replaces every occurrence of the twelve X-messaging names by the short name and changes nothing else: the twelve replacements one after the other have the effect of one pass from left to right; no name is left, applying it again changes nothing, lines do not influence each other, and a line with the short name is read into a contact like the line with the long name.", "quantifier": "every byte sequence", "why_tests_cant": "Replacements could create or destroy occurrences of later names; this takes an argument about all texts.", "anchors": ["src/converter/vcardconverter.cpp:123-137", "src/vcardtool.cpp:1123-1205"]}
{"id": "C57", "title": "The messaging services are those with a desktop file", "statement": "Impp::serviceTypes is strictly sorted and contains exactly the names before the first dot of the files that end in .desktop in any of the directories; serviceLabel of a non-empty service is not empty: the name in the located file, else in the library's own file, else the service with a capital.", "quantifier": "every content of the directories and files", "why_tests_cant": "Depends on what is installed.", "anchors": ["src/impp.cpp:166-174", "src/impp.cpp:176-192", "src/impp.cpp:201-220"]}
{"id": "C58", "title": "Contacts are in order, whatever was read", "statement": "Every contact read from a vCard text, whatever its bytes, has no e-mail address, language, member or relation twice, no two phone numbers, addresses or keys with the same identifier, no blank phone number or language, no empty address, title, role, organisation, nick name, no invalid URL or messaging address, custom entries sorted by name without duplicates and without empty values, and parameters sorted by name with non-empty value lists without duplicates. The calls that insert, remove or set single values keep all this, in any number and order. Contacts read from LDIF are in order as well, except for empty titles, roles, organisations and nick names.", "quantifier": "every byte sequence, every sequence of calls, every contact in order", "why_tests_cant": "An invariant over all inputs of the parser and all sequences of calls.", "anchors": ["src/vcardparser/vcardparser.cpp:86-247", "src/vcardtool.cpp:706-1214", "src/addressee.cpp:551-660", "src/addressee.cpp:1640-1858", "src/addressee.cpp:2006-2285", "src/converter/ldifconverter.cpp:263-651"]}
{"id": "C59", "title": "Exporting what was imported gives the same text", "statement": "For contacts whose values a vCard of version 3.0, 2.1 or 4.0 can hold, importing the exported text and exporting the result gives the same bytes again, in every property: names, dates, telephone numbers with their parameters, addresses, keys, pictures, sounds, position, relations, calendar addresses, field groups, messaging addresses, custom fields. So a second import gives exactly the contacts of the first one, and repeated synchronisation does not change a file.", "quantifier": "every list of contacts with such values, every behaviour of the external functions", "why_tests_cant": "The text depends on every property, every parameter and the order of all lines; a test sees single contacts.", "anchors": ["src/vcardtool.cpp:342-704", "src/vcardtool.cpp:706-1214", "src/vcardparser/vcardparser.cpp:387-498"]}
{"id": "C60", "title": "What version 4.0 keeps in properties and parameters of its own", "statement": "A vCard of version 4.0 keeps keys (media type and data), the position of each address to six decimals, the sort string, the anniversary, relations, and every custom field except the name of the spouse, which becomes a relation of type spouse that carries the name as a parameter.", "quantifier": "every list of contacts, every behaviour of the external functions", "why_tests_cant": "Each of these values travels in a parameter or under a different name in version 4.0, so what comes back depends on the characters in the value and on which other lines carry the same name or parameter.", "anchors": ["src/vcardtool.cpp:170-190", "src/vcardtool.cpp:300-340", "src/vcardtool.cpp:396-412", "src/vcardtool.cpp:490-502", "src/vcardtool.cpp:790-806", "src/vcardtool.cpp:970-1016", "src/vcardtool.cpp:1110-1175"]}
{"id": "C61", "title": "The properties of a contact are variables", "statement": "After any sequence of setter calls on a contact, the getter of each property returns the value of the last call of its setter (or a stored value equal to it in the sense of the class's operator==), and what it returned before if its setter was not called; no setter changes another property. This includes the properties kept among the custom entries (assistant, manager, office, profession, spouse, anniversary, blog feed). isEmpty() is true only of a contact in which nothing has ever been stored. Exceptions: a date is not replaced by the same instant in another time zone, so that a birthday can stay that of another day; setUrl() appends, so that url() keeps returning the first URL.", "quantifier": "every contact, every sequence of setter calls of 51 properties, every value", "why_tests_cant": "Independence of 51 properties over call sequences of any length.", "anchors": ["src/addressee.cpp: setters and getters of Addressee", "src/addressee.cpp: Addressee::setUrl", "src/addressee.cpp: Addressee::setBirthday"]}
{"id": "C62", "title": "Addresses, pictures, group members, keys, sounds and phone numbers are variables", "statement": "The getters of an Address return the values last set, whatever the order of calls; an address is empty exactly until the first setter call. A Picture shows what the last setting call gave it (URL, raw data or image), no matter how often data() and rawData(), which fill each other's cache, are called in between. custom(key) of a contact reference, group reference or data member is the value last inserted for that key unless removed since, and changes nothing else of the member. The fields of contact references, data members, groups, keys, sounds and phone numbers are variables: a getter returns what its setter was last given, and no other setter changes it; the exceptions are that setting text or binary data of a key, or URL or data of a sound, also sets whether it is the one or the other.", "quantifier": "every sequence of calls and all values", "why_tests_cant": "Call sequences of any length; caches filled in any order.", "anchors": ["src/address.cpp: setters and getters", "src/picture.cpp: Picture::data, Picture::rawData", "src/contactgroup.cpp: setters, insertCustom, removeCustom, custom", "src/key.cpp: setters", "src/sound.cpp: setters", "src/phonenumber.cpp: setters"]}
{"id": "C63", "title": "Type labels tell types apart", "statement": "For every translation that tells the words apart and uses no slash, two different sets of phone types have different labels, and likewise two different sets of address types; the words are the labels of the flags in the order of typeList(). Labels of key types and secrecy types are different. Exceptions: Address::typeLabel() leaves out the preference; ResourceLocatorUrl::resourceLabel() calls several types Other.", "quantifier": "all 2^15 sets of phone types, all 2^7 sets of address types, every translation", "why_tests_cant": "All pairs of sets under every translation.", "anchors": ["src/phonenumber.cpp: PhoneNumber::typeLabel", "src/address.cpp: Address::typeLabel", "src/key.cpp: Key::typeLabel", "src/secrecy.cpp: Secrecy::typeLabel", "src/resourcelocatorurl.cpp: ResourceLocatorUrl::resourceLabel"]}
{"id": "C64", "title": "The shipped address formats show the parts of an address", "statement": "With the 192 address formats that come with the library, in every language and for every country: each format mentions name, organisation and street; it mentions locality and postal code except in 6 and 15 listed countries, and region and PO box exactly in 69 and 34 listed countries (and in the format for countries without an entry); every field a country requires occurs in its format. So the formatted text of any address contains these parts. Parts the format does not mention are lost without trace. An address without content has no text and no formatted address has a blank line, with the exceptions listed (Gibraltar, Guernsey, Jersey; Israel, South Georgia).", "quantifier": "every country code, language, script and address", "why_tests_cant": "All addresses for all countries, languages, scripts and styles; the tests look at a few.", "anchors": ["src/addressformatrc", "src/addressformat.cpp: AddressFormatRepository::formatForCountry", "src/addressformatter.cpp: AddressFormatter::format"]}
{"id": "C65", "title": "Values broken by quoted-printable soft line breaks are joined", "statement": "A quoted-printable property whose value is spread over any number of lines by soft line breaks ('=' at the end of the line) is read exactly like the same property with the value on one line, wherever it stands in the text, provided every continuation starts with a character other than white space and has no backslash, and another property or END:VCARD follows. A continuation that starts with a space is taken for a folded line instead, and the decoder is given a wrong text.", "quantifier": "every text around the property, every name, parameters and value, every number of pieces, LF and CR LF line ends", "why_tests_cant": "The line reader of the parser and the line fetching of the property parser share positions; agreement for every surrounding text and every number of pieces is a statement about all states of that loop.", "anchors": ["src/vcardparser/vcardparser.cpp: VCardLineParser::parseLine", "src/vcardparser/vcardparser.cpp: VCardParser::parseVCards"]}
{"id": "C66", "title": "Exactly the texts with a short embedded picture have no defined reading", "statement": "If the parser gets to the end of a text, reading the contacts is defined and gives one contact for each card, unless some card has a PHOTO or LOGO property (in any case, without group and without parameters) whose value contains 'data:' and ';base64,' and is shorter than 22 bytes. In that case, and only then, the behaviour is undefined (QByteArray::last with a negative length).", "quantifier": "every text and every contents of the random identifiers and external functions", "why_tests_cant": "That no other property, with whatever value, reaches undefined behaviour is a statement about all texts.", "anchors": ["src/vcardtool.cpp: VCardTool::parsePicture", "src/vcardtool.cpp: VCardTool::parseVCards", "src/vcardtool.cpp: VCardTool::splitString"]}
{"id": "C67", "title": "The order of properties with different names does not matter", "statement": "Rearranging the properties of a card in a text (each with its folded lines, with or without group and parameters) such that properties with the same name keep their order gives the same cards and so the same contacts, whatever stands before and after the card.", "quantifier": "every text, every arrangement, every name, parameters, values, LF and CR LF line ends", "why_tests_cant": "All arrangements of all properties; a test sees a few orders.", "anchors": ["src/vcardparser/vcardparser.cpp: VCardParser::parseVCards", "src/vcardparser/vcard.cpp: VCard::addLine", "src/vcardtool.cpp: VCardTool::parseVCards"]}
{"id": "C68", "title": "Unknown properties are ignored", "statement": "Leaving out of a card any properties without group whose name is not one of the 40 names that are read and does not start with X- changes nothing in the contacts that are read but which of the random identifiers are used.", "quantifier": "every text, every set of such properties with any names, parameters and values", "why_tests_cant": "All names and all positions among other properties; properties of later vCard versions cannot be enumerated.", "anchors": ["src/vcardtool.cpp: VCardTool::parseVCards", "src/vcardparser/vcardparser.cpp: VCardParser::parseVCards"]}
{"id": "C69", "title": "The case of property names and parameter names does not matter", "statement": "Writing the names of the properties of a card (other than X- extensions and grouped properties) in another case, such that the names keep their alphabetical order, gives the same contacts; in particular all names can be written in lower or in upper case. Writing the name of a parameter in another case gives the same cards. (Mixing cases such that the alphabetical order changes can change the result: LABEL before adr gives two addresses.)", "quantifier": "every text, card, name, spelling, parameter, value", "why_tests_cant": "All spellings of all names in all cards; the result depends on the byte order of names, which a test with one spelling does not show.", "anchors": ["src/vcardparser/vcardparser.cpp: VCardParser::VCardParserPrivate::parseLine", "src/vcardparser/vcard.cpp: VCard::addLine", "src/vcardtool.cpp: VCardTool::parseVCards"]}
{"id": "C70", "title": "Line ends, empty lines and lines outside of cards do not matter", "statement": "A text gives the same cards whichever of its lines end in LF or CR LF, with empty lines added or removed (in texts where no line ends in '='), with lines other than BEGIN:VCARD and END:VCARD added before, between or after the cards, and with a card that has no END line left out before the next card. (An END:VCARD line on its own makes an empty card.)", "quantifier": "every text, every such line at every place", "why_tests_cant": "All texts with all kinds of surrounding lines.", "anchors": ["src/vcardparser/vcardparser.cpp: VCardParser::parseVCards"]}
{"id": "C71", "title": "Extensions of other programs are read as the fields they stand for", "statement": "A property that other programs (Evolution, Thunderbird) or this library write for spouse, assistant, manager, anniversary or blog is read into the same field whichever of its names is used, and its value is the value of the field if the card has no other property for it. The old messaging extensions (X-AIM, X-ICQ, X-JABBER, X-MSN, X-YAHOO, X-SKYPE, ...) are read as messaging addresses with the scheme of their service and the value as path. (X-GADUGADU is given the scheme gadu, whereas the IMPP property for the service gives gg.)", "quantifier": "every text with one card, every such extension in it, every plain value", "why_tests_cant": "All cards around all extensions.", "anchors": ["src/vcardtool.cpp: VCardTool::parseVCards", "src/vcardtool.cpp: normalizeImppServiceType"]}
{"id": "C72", "title": "The parts of a written e-mail address are told apart", "statement": "parseEmailAddress on a text made of plain text, quoted strings, comments in (nested) parentheses and addresses in angle brackets: if there is something in angle brackets, it is the e-mail address (in lower case), and the name is what is outside of brackets and comments, without spaces and quotes around it; without brackets the address is what is outside of the comments and the name is the text of the comments; with nothing but comments both are empty. What follows the first comma outside of these parts is ignored. If the last part is not closed, what was read so far is returned as written. Every text is of one of these forms (except those that contain a NUL or end in an open backslash).", "quantifier": "every text", "why_tests_cant": "Any number of parts in any order, any depth of nesting.", "anchors": ["src/addressee.cpp: Addressee::parseEmailAddress"]}
{"id": "C73", "title": "Which texts are read as dates and times", "statement": "Every real date, written with or without dashes, or without a year, followed or not by a time with or without colons, minutes and seconds, in local time, UTC or with an offset, is read as that date and time, and whether a time was given is remembered. Nothing else is read as a date: a text read as a date has the numbers of year, month and day in the expected places and names a day of the calendar. (Dates of RFC 6350 that lack a day or a month are read as no date; a time that is none is read as midnight, marked as having a time.)", "quantifier": "every date, time, offset and every text", "why_tests_cant": "All dates and all texts.", "anchors": ["src/vcardtool.cpp: VCardTool::parseDateTime"]}
{"id": "C74", "title": "LDIF change records are reported as what they say", "statement": "For a text of LDIF records (RFC 2849) with controls and entries, additions, deletions, modifications or renamings, in any number and order, keywords in any case, lines folded at any length and values written plain or as base64, repeated nextItem reports each record's name, its controls with identifier, criticality and value, every attribute or modification in order together with the kind of change, and at the end of a renaming the new name, the new superior and whether the old name is to be deleted. Nothing of one record is reported for another. (Not so: a change of the entry with the empty name is refused; the kind of change is case sensitive; a value without the optional blank after the colon loses its first character.)", "quantifier": "every list of records, every line length, every value", "why_tests_cant": "Any number of records, controls, modifications and values; state left from earlier records.", "anchors": ["src/ldif.cpp: Ldif::processLine", "src/ldif.cpp: Ldif::splitControl", "src/ldif.cpp: Ldif::splitLine", "src/ldif.cpp: Ldif::nextItem"]}
{"id": "C75", "title": "The text of a formatted address is determined by format, style and contents", "statement": "Address::formatted(style, name, organisation) gives exactly the text that follows from: the country of the address (its two letter code, its name, or the user's country), the most special format entry of that country for the script of the address and for organisations, the fields the style includes, the capital letters the country wants on envelopes and in map queries, literals only beside filled fields, the extended address beside the street on the side that depends on whether the format begins with the country, the country added where the style asks for it and the format lacks it (on envelopes set off by a blank line, first or last as is the custom in the user's country), and the separator of the style or script.", "quantifier": "every address, style, name, organisation and every format configuration", "why_tests_cant": "All combinations of formats, styles and filled fields.", "anchors": ["src/address.cpp: Address::formatted", "src/addressformatter.cpp: AddressFormatter::format", "src/addressformat.cpp: AddressFormatRepository::formatForAddress", "src/addressformat.cpp: AddressFormatRepository::formatForCountry", "src/addressformatscript.cpp: AddressFormatScript::detect"]}
{"id": "C76", "title": "The coding of a text value does not matter", "statement": "A text value in a vCard (formatted name, name, note, address, birthday, identifier, ...) can be written as it is, with its special characters escaped, announced as 8BIT, in base64 or quoted-printable, and in UTF-8 or in another announced character set. The contact that is read is the same, whichever coding the writer chose and wherever the coding and character set parameters stand among the other parameters; and the value of any property is the text that the coded characters stand for.", "quantifier": "all texts, all codings, all character sets, all parameter lists, all cards around the property, all newline conventions", "why_tests_cant": "A test compares a few values in a few codings; the claim is about every text, every combination of coding, character set, position and spelling of the parameters, folding and surrounding card.", "anchors": ["src/vcardparser/vcardparser.cpp:50-249", "src/vcardparser/vcardparser.cpp:259-337", "src/vcardparser/vcardparser.cpp:444-490", "src/vcardtool.cpp:725-1207"]}
{"id": "C77", "title": "What a card says is what the contact says", "statement": "In the contact read from a vCard each property means what the format says: FN, NOTE, MAILER, NAME, PRODID, KIND and UID are the texts of the contact; the parts of N are family, given and additional names, prefixes and suffixes in this order; the first part of ORG is an organisation and the second the department; TEL gives a number with exactly the flags of its known types, however types are spelled; ADR gives the seven components in their places with the flags of its types; NICKNAME, TITLE, ROLE, CLIENTPIDMAP, EMAIL, RELATED, MEMBER and LANG give the entries of the lists; CATEGORIES, CLASS, GENDER, TZ, GEO, BDAY, DEATHDATE and REV give the values their texts denote; URL, SOURCE, FBURL, CALURI and CALADRURI give the addresses. All properties are read whatever other properties stand around them. An extension X-app-name is the custom entry `name` of the program `app`, when the properties for that entry agree.", "quantifier": "all cards: all lists of properties with any names, parameters, texts and codings, any order, any newline convention and folding", "why_tests_cant": "A test reads a few cards with a few properties; the claim ties every position, type word and value form of the format to the field of the contact for every card. It also excludes errors that writer and reader share, which no round trip can show.", "anchors": ["src/vcardtool.cpp:38-90", "src/vcardtool.cpp:725-1207", "src/vcardtool.cpp:1371-1482", "src/phonenumber.h:147-164", "src/address.h:216-224"]}
{"id": "C78", "title": "Entries keep the parameters of their properties", "statement": "In the contact read from a vCard every entry of a list (nicknames, titles, roles, organisations, telephone numbers, e-mail addresses, languages, URLs, calendar addresses, related contacts, messengers) has exactly the parameters its property has in the card, each with its distinct values in their order, apart from those that describe the coding. So an e-mail address or a URL is preferred exactly when its property is marked so; the types of an e-mail address are those of the card; the preferred e-mail address of the contact is that of the last marked property, or else the first one; a key has the kind its TYPE or MEDIATYPE says; a messenger with a service type has the scheme of the service.", "quantifier": "All cards whose lines express properties with any names, parameters (including one value in quotes), texts and codings, in any order and number; all worlds.", "why_tests_cant": "The space of cards is infinite; tests use single properties with one or two parameters, while mixing of parameters between entries, lost values or a wrong preferred address would show only for combinations of properties.", "anchors": ["src/vcardtool.cpp:708-1215", "src/vcardtool.cpp:1473-1506", "src/vcardtool.cpp:1614-1626", "src/vcardparser/vcardparser.cpp:60-260", "src/email.cpp:119-180", "src/resourcelocatorurl.cpp:62-120", "src/impp.cpp:83-90", "src/addressee.cpp:1640-1662", "src/parametermap_p.h:35-75"]}
{"id": "C79", "title": "Documents of contact groups mean what they say", "statement": "For every XML document with a list of contact groups - the attributes of each element in any order and with unknown ones among them, the members of a group in any order, blanks and comments anywhere - ContactGroupTool::read adds the groups the document states, in order: identifier and name, references (uid, gid, preferredEmail), references to groups (uid) and data (name, email), each kind in the order of the document. A group without identifier or name, or with an element that is no member (a reference without uid and gid, a group reference without uid, data without email, an unknown element), makes reading fail, and the groups before it have been added; so do text that is no XML and another element among the groups. Reading a single group replaces identifier and name of the given one and adds the members. What the writer writes is such a document and states the groups written without their custom entries.", "quantifier": "all documents of these elements, of every length, all attribute lists with distinct names, all groups", "why_tests_cant": "documents by other programs order attributes and members freely; tests read what the same library wrote, so that a wrong element or attribute name used by both sides goes unnoticed", "anchors": ["src/contactgrouptool.cpp:39-124", "src/contactgrouptool.cpp:145-302"]}
{"id": "C80", "title": "A written card says what the contact holds", "statement": "The text written for a contact is one card; taken apart as the standard says (lines unfolded, name, parameters, value, escapes), without the library's own reader, its properties are those of the contact and no others: the first one is VERSION; formatted name, note, identifier, sources and the other texts, each at most once per entry, without parameters; e-mail addresses, URLs, roles, titles, nicknames, languages, messaging addresses with their parameters, in order; the five components of the name, organisation and department, the seven components of each address, with the types of addresses and telephone numbers told by exactly the words of their flags; categories, secrecy, gender, time zone, position; dates as numbers of the date with time and zone; relations, spouse and anniversary, calendars; keys, sounds and pictures as base64 data or as the address they are found at; fields of the user under X- and their name (for export the common names of messengers), grouped properties under group and name.", "quantifier": "all contacts whose names and parameters can be written (fits), all versions, with and without export names, all characters and lengths of the values", "why_tests_cant": "tests write and read with the same library, so that a value written in the wrong place or with the wrong escape is read back from there; tests against stored files cover a few contacts", "anchors": ["src/vcardtool.cpp:122-700", "src/vcardtool.cpp:1291-1428", "src/vcardtool.cpp:1451-1600", "src/vcardparser/vcardparser.cpp:387-498"]}
{"id": "C81", "title": "What the attributes of an LDIF entry say, whoever wrote it", "statement": "Reading any LDIF text appends one contact for every entry that has no member and names somebody (cn or sn), and one group for every entry with members, in order, and nothing else. The contact holds what the attributes say, whatever their order, letter case and number: the last given name, family name, formatted name, title, nickname under any of its names, organisation under any of its names; all e-mail addresses under the three names, each once; telephone numbers by kind; the home and the work address from their parts, streets in one or two lines; the notes of description and the custom attributes in lines; the first valid URL; the birthday from its three numbers or the eight digits of The Bat!; the time of the last change. A group holds name and members with their addresses.", "quantifier": "all LDIF texts: any bytes, lines, folding, encodings, order, case and repetition of attributes, any number of entries", "why_tests_cant": "tests read a few files; the meaning of an attribute depends on all other attributes of the entry (repeated, other case, other order) and on the entries before", "anchors": ["src/converter/ldifconverter.cpp:266-372", "src/converter/ldifconverter.cpp:376-686", "src/ldif.cpp:165-330"]}
{"id": "C82", "title": "What the LDIF text of a contact or group says to other programs", "statement": "The text written for a contact is one entry: its name (cn and mail), three object classes, then one line for each attribute, continuation lines joined, then an empty line. Every line is a line of RFC 2849: the value as it is if it is a safe string, in base64 otherwise. Each field of the contact is written under each of its attribute names (for example the mobile number as mobile and cellphone, the organisation as o, organization and organizationname) exactly once, if it is not empty; the other e-mail addresses in order; the date of the last change in digits; no other attribute occurs. The text of a group has one member line for each member with data of its own, in order.", "quantifier": "all contacts and groups, all characters and lengths of the values", "why_tests_cant": "tests compare a few texts or read them back with the same library; whether a value needs encoding and where a line is folded depends on its characters and length", "anchors": ["src/converter/ldifconverter.cpp:71-261", "src/ldif.cpp:60-112"]}
{"id": "C83", "title": "A version 2.1 card carries texts in any script", "statement": "A contact whose texts contain letters that are not ASCII, line breaks or characters that version 2.1 cannot write plainly is written in version 2.1 with these values in quoted-printable, and reading the card gives the contact back: formatted name, name parts, note, identifiers, dates, time zone, links, e-mail addresses, phone numbers, addresses, extensions, and the texts of titles, roles and organisations. E-mail addresses keep their kinds (home, work, other), all other types, and the mark of the preferred address, though the types are in upper case and may be in another order. The only other difference: titles, roles and organisations whose written value needed the coding have the two parameters announcing it (charset=UTF-8, encoding=QUOTED-PRINTABLE) added to their own. Those parameters stay with the entry and are written again in later cards of any version.", "quantifier": "all lists of contacts whose values are plain or survive the quoted-printable codec (every non-empty text of well-formed code points for the codec of RFC 2045), all codecs, all lengths", "why_tests_cant": "which values are coded depends on their characters, each field takes its own way through the reader, and the parameter that announces the coding interferes with the parameters of the entry", "anchors": ["src/vcardtool.cpp:142-222", "src/vcardtool.cpp:224-241", "src/vcardtool.cpp:253-640", "src/vcardparser/vcardparser.cpp:60-300", "src/vcardparser/vcardline.cpp:54-79"]}
{"id": "C84", "title": "The debug text of a value shows what it holds", "statement": "toString of a class gives the class name and one labelled row for each part in braces, in a fixed order, with values copied as they are (a percent sign in a value is not expanded); the text of a contact has 28 rows and then its e-mail addresses, languages, phone numbers, addresses and keys in the order stored. Two contacts, addresses or sounds with the same text show the same values, if the values have no line breaks. False for phone numbers (identifier, type and class name are missing), for field groups whose name contains a percent sign, for the parameters of any class, and for what the text of a contact leaves out.", "quantifier": "all values of all classes, all contacts with lists of any length, all translations and number formats", "why_tests_cant": "that no value can disturb the rows after it, and that different values never give the same text, concerns all pairs of values", "anchors": ["src/addressee.cpp:1933-2004", "src/address.cpp:382-400", "src/phonenumber.cpp:258-268", "src/key.cpp:162-179", "src/fieldgroup.cpp:110-117", "src/parametermap_p.h:57-69", "src/picture.cpp:200-213", "src/sound.cpp:138-151"]}
{"id": "C85", "title": "Words of a name go to the right part", "statement": "setNameFromString distributes the words of a text by fixed rules that leave no choice: leading titles are the prefix, the next word the given name, trailing suffixes the suffix, the word before them the family name, together with a word like van before it, and the rest the additional name; with a comma, family name and suffix are taken before it and the others after it. Titles and suffixes are the translations of the built-in words and the words configured (empty ones do not count); nobiliary words are compared in lower case with van, von, de and the configured ones. The last word is a family name unless configured otherwise. That every configured nobiliary word is recognised is false: one configured with a capital never is.", "quantifier": "every text, contact, translation and setting", "why_tests_cant": "Any number of words of every kind in every order, with any sets of known words; tests use the built-in words.", "anchors": ["src/addressee.cpp:1421-1576", "src/addresseehelper.cpp:31-91"]}
{"id": "C86", "title": "The address formats that come with the library show what a country requires", "statement": "With the address formats of the library, in any language: whatever part a country requires is in the text of every address of that country that has it, in every style that includes the part; name, organisation and street are in the text of every address in every country, and so is the locality but for six countries; no format names a part twice; and a country asks for capital letters only for parts its format names. That a text shows everything an address has is false: the city of an address in the United Arab Emirates, or a post office box in Poland, is in no text.", "quantifier": "every address, country, language, script, style, name and organisation", "why_tests_cant": "The test of the repository checks the entries without a language and not what is shown; it cannot cover all addresses.", "anchors": ["src/addressformatrc:1-949", "src/addressformat.cpp:105-156", "src/addressformatter.cpp:53-214"]}
{"id": "C87", "title": "The message about a rejected document of contact groups says what is wrong", "statement": "When reading a document of contact groups fails, the error message is the first fault of the first faulty group (missing identifier, missing name, a member without what identifies it, an element that is no member), or that the document describes something else, or the message of the XML reader where the document is no XML; the groups before that are the ones the document tells. When reading succeeds the message is left alone. Without a place for the message groups and result are the same, and no failure comes with an empty message, whatever the document.", "quantifier": "every document, of any length, with white space and comments anywhere; every previous content of the list, group and message", "why_tests_cant": "The tests read a few documents and do not look at the message; which fault is reported depends on the whole document before it.", "anchors": ["src/contactgrouptool.cpp:145-199", "src/contactgrouptool.cpp:201-302", "src/contactgrouptool.cpp:304-352"]}
{"id": "C88", "title": "The name that is shown consists of the words of the name in the order of speaking", "statement": "assembledName() is the words of prefix, given name, additional names, family name and suffix, in this order and with one space between two of them, whatever white space the parts contain; so contacts have the same assembled name exactly if they have the same words. realName() is the formatted name, without one the assembled name, then the name, then the organization, and empty only if all of these are. After setNameFromString of a text without comma, assembledName() gives the words of the text in their order; with a comma, the words behind it come first, followed by words before it, all of them if there is no space before the comma.", "quantifier": "every contact, every text, every set of known titles and suffixes", "why_tests_cant": "The tests show a few names; white space can be anywhere in five texts, and what setNameFromString does depends on sets of words configured by the user.", "anchors": ["src/addressee.cpp:1578-1609", "src/addressee.cpp:1421-1576"]}
{"id": "C89", "title": "The messaging services that come with the library", "statement": "Every messaging service of the library is among serviceTypes(), its name has the form of a URI scheme and is not changed when vCards are read; unless the user or the system overrides it, serviceLabel() and serviceIcon() give the name and the icon in its file; no two services have the same name. The services that the old vCard extensions (X-AIM, X-JABBER, ...) and the service types Jabber, Yahoo, GaduGadu stand for are services of the library, so an address read from such an extension is shown with the name of a service. Exceptions: X-GADUGADU leads to an unknown service, and five services have no icon.", "quantifier": "every service file, every set of files of user and system, every card with such an extension", "why_tests_cant": "The test looks at the machine it runs on; here the other files found, the contents of the card and the URL class are arbitrary.", "anchors": ["src/impp.cpp:166-220", "src/improtocols/xmpp.desktop", "src/CMakeLists.txt:92-124", "src/vcardtool.cpp:1614-1626"]}
{"id": "C90", "title": "Exporting to LDIF what was imported from LDIF", "statement": "Take contacts whose export contains nothing that the import changes (no repeated or empty e-mail addresses, phone numbers without extra blanks, streets of at most two non-empty lines, a URL that is valid, a date of revision other than the date of the import, birthdays after year 0 and no contact without birthday after one with a birthday). The same for groups whose members have a name or an address, without outer blanks. Then exporting all of them to LDIF, importing the text and exporting the result gives the same text, and so does any number of exports and imports; no contact or group is lost. Streets with an empty first line do not settle: they get longer every time.", "quantifier": "every list of such contacts and groups, every environment (new identifiers, URL class, country names, clock), every number of trips", "why_tests_cant": "A test makes one trip with one contact; whether data settle is a statement about all contacts and any number of trips.", "anchors": ["src/converter/ldifconverter.cpp:71-262", "src/converter/ldifconverter.cpp:263-651"]}
{"id": "C91", "title": "Converting contacts between versions of vCard", "statement": "Contacts that are saved and loaded again in vCard 2.1, 3.0 and 4.0, in any order and any number of times, have at the end the same name parts, formatted name, titles, roles, organisations, department, birthday, revision, time zone, URLs, e-mail addresses, phone numbers, postal addresses with labels, note, identifier and custom fields as at the beginning, provided their texts survive in each of these versions at the beginning and each time their parameters can be written. Nicknames, categories and the product identifier stay too if 2.1 is not among the versions, mailer and name if 4.0 is not. What a version has no place for is lost when it is passed, for example nicknames in 2.1.", "quantifier": "every list of such contacts, every sequence of versions, every environment with distinct new identifiers", "why_tests_cant": "A test converts one contact once; errors of a conversion may show only after further ones, and there are infinitely many sequences.", "anchors": ["src/converter/vcardconverter.cpp: VCardConverter::exportVCard", "src/vcardtool.cpp: VCardTool::createVCards", "src/vcardtool.cpp: VCardTool::parseVCards"]}
{"id": "C92", "title": "LDIF exports of contacts that went through vCards", "statement": "Contacts with a name that are saved as vCards in versions 3.0 and 4.0 and loaded again, any number of times, are exported to LDIF with exactly the same text as the original contacts, if their texts can be told apart in these versions; an import of that text gives of each contact what it would have given without the vCards in between. Through version 2.1 the nickname is lost.", "quantifier": "every list of such contacts, every sequence of versions 3.0 and 4.0, every environment with distinct new identifiers, every LDIF environment", "why_tests_cant": "The tests of the two formats are separate; the statement is about all contacts and all sequences of conversions, and depends on the empty flag and the order of phone numbers and addresses.", "anchors": ["src/converter/ldifconverter.cpp: LDIFConverter::addresseeToLDIF", "src/vcardtool.cpp: VCardTool::createVCards", "src/vcardtool.cpp: VCardTool::parseVCards"]}
