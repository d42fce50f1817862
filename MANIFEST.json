{
 "claims": [
  {
   "property": "C01",
   "status": "proved",
   "theorems": [
    "C01_decoder",
    "C01_escape_roundtrip_iff",
    "C01_escape_roundtrip_refuted"
   ],
   "note": "iff for every byte string and both comma modes; the excluded class is witnessed by C01_escape_roundtrip_refuted. C01_decoder: escapes written by other programs."
  },
  {
   "property": "C02",
   "status": "proved",
   "theorems": [
    "C02_never_returns",
    "C02_parse_terminates",
    "C02_parse_terminates_refuted",
    "C02_settled"
   ],
   "note": "positive for all texts without soft line breaks and for all texts whose last line but one has none; refuted by a concrete text and for every text of the form in C02_never_returns"
  },
  {
   "property": "C03",
   "status": "proved",
   "theorems": [
    "C03_binary_75_refuted",
    "C03_file_lines_at_most_76",
    "C03_fold_width",
    "C03_text_lines_at_most_75"
   ],
   "note": "whole files at most 76 octets per line, plain text properties at most 75; binary folding reaches 76"
  },
  {
   "property": "C04",
   "status": "proved",
   "theorems": [
    "C04_fold_transparent"
   ],
   "note": "both folding modes"
  },
  {
   "property": "C05",
   "status": "proved",
   "theorems": [
    "C05_fold_keeps_characters",
    "C05_four_byte_characters_refuted",
    "C05_line_keeps_characters"
   ],
   "note": "for characters of at most three bytes, refuted for four"
  },
  {
   "property": "C06",
   "status": "proved",
   "theorems": [
    "C06_card_roundtrip"
   ],
   "note": "all lists of well-formed cards (S_RoundTrip.v); text, binary, quoted-printable and charset values"
  },
  {
   "property": "C07",
   "status": "proved",
   "theorems": [
    "C07_cards_isolated",
    "C07_soft_refuted"
   ],
   "note": "all pairs of texts, first one complete, no soft line breaks"
  },
  {
   "property": "C08",
   "status": "proved",
   "theorems": [
    "C08_parameter_names",
    "C08_parameter_values",
    "C08_parameters_sorted"
   ],
   "note": "all sequences of addParameter"
  },
  {
   "property": "C09",
   "status": "proved",
   "theorems": [
    "C09_identifiers_sorted_unique",
    "C09_line",
    "C09_lines_in_insertion_order",
    "C09_set_version_refuted",
    "C09_version"
   ],
   "note": "all sequences of addLine"
  },
  {
   "property": "C10",
   "status": "proved",
   "theorems": [
    "C10_split_join_iff",
    "C10_split_join_refuted",
    "C10_split_total"
   ],
   "note": "splitString modelled as its index loop; the equivalence is an iff over all component lists; refutation witness included."
  },
  {
   "property": "C11",
   "status": "proved",
   "theorems": [
    "C11_addresses",
    "C11_backslash_refuted",
    "C11_name",
    "C11_organisation"
   ],
   "note": "For every version and every contact whose components are separable (no component but the last ends in a backslash) and escape-safe; 3.0/2.1 addresses need distinguishable labels. Failure with a trailing backslash is refuted with a witness."
  },
  {
   "property": "C12",
   "status": "proved",
   "theorems": [
    "C12_categories",
    "C12_categories_backslash",
    "C12_version21_refuted"
   ],
   "note": "3.0 and 4.0, every list of non-empty categories; 2.1 does not write categories (refuted)."
  },
  {
   "property": "C13",
   "status": "proved",
   "theorems": [
    "C13_address_types",
    "C13_phone_parameters",
    "C13_phone_types",
    "C13_vocabulary"
   ],
   "note": "Exact type set read back for every type value; the vocabulary is characterised as all flags except Undefined."
  },
  {
   "property": "C14",
   "status": "proved",
   "theorems": [
    "C14_calendar",
    "C14_clock",
    "C14_date_roundtrip",
    "C14_datetime_roundtrip",
    "C14_datetime_roundtrip_refuted",
    "C14_invalid_date_not_written"
   ],
   "note": "All three versions; dates with years 1..9999 and year-less dates, with and without time, local/UTC/whole-minute offsets. Refuted outside (five-digit years, offsets with seconds)."
  },
  {
   "property": "C15",
   "status": "proved",
   "theorems": [
    "C15_timezone_bound",
    "C15_timezone_roundtrip"
   ],
   "note": "Every offset below 100 hours; the bound is shown to be exact."
  },
  {
   "property": "C16",
   "status": "proved",
   "theorems": [
    "C16_added",
    "C16_no_duplicates",
    "C16_only_emails",
    "C16_order_kept",
    "C16_others_unchanged",
    "C16_preferred_first",
    "C16_replaced"
   ],
   "note": "Over all sequences of addEmail/removeEmail on a new contact, and per call on any contact."
  },
  {
   "property": "C17",
   "status": "proved",
   "theorems": [
    "C17_gone_iff",
    "C17_language_gone_iff",
    "C17_removes_exactly",
    "C17_unconditional_refuted"
   ],
   "note": "Exact condition for every list (e-mails and languages); the unconditional claim is refuted."
  },
  {
   "property": "C18",
   "status": "proved",
   "theorems": [
    "C18_addresses",
    "C18_keys",
    "C18_phones",
    "C18_positions",
    "C18_removal"
   ],
   "note": "Refinement of an abstract map for phones, addresses and keys, plus positions and removal."
  },
  {
   "property": "C19",
   "status": "proved",
   "theorems": [
    "C19_address",
    "C19_address_which",
    "C19_keys",
    "C19_lists",
    "C19_phone",
    "C19_phone_which"
   ],
   "note": "Phones and addresses: existence, preference, default, which entry, and the list variants."
  },
  {
   "property": "C20",
   "status": "proved",
   "theorems": [
    "C20_copy",
    "C20_copy_refuted",
    "C20_distinct_keys_refuted",
    "C20_keys",
    "C20_map",
    "C20_no_collision",
    "C20_sorted"
   ],
   "note": "Refinement of a map keyed by the joined name; distinct keys may collide (refuted); setCustoms(customs()) exact if names have no colon."
  },
  {
   "property": "C21",
   "status": "proved",
   "theorems": [
    "C21_address",
    "C21_complete_classes",
    "C21_contact",
    "C21_contact_forgets",
    "C21_contact_reference",
    "C21_contact_refuted",
    "C21_forgotten_members",
    "C21_impp",
    "C21_kept_parts_behave_like_values",
    "C21_other_variables_unchanged",
    "C21_phone",
    "C21_picture"
   ],
   "note": "Sharing machine with reference counts for arbitrary programs; complete classes have value semantics; the forgotten members are proved lost by the first modification of a copy."
  },
  {
   "property": "C22",
   "status": "proved",
   "theorems": [
    "C22_lists",
    "C22_not_equal",
    "C22_nothing_else_ignored",
    "C22_reflexive",
    "C22_revision_ignored",
    "C22_symmetric",
    "C22_symmetry_refuted",
    "C22_transitive"
   ],
   "note": "List comparison for any element equality, whole contacts under stated conditions; symmetry in general refuted."
  },
  {
   "property": "C23",
   "status": "proved",
   "theorems": [
    "C23_comma_safe",
    "C23_comma_words",
    "C23_comma_words_refuted",
    "C23_every_text",
    "C23_last_word_refuted",
    "C23_safe_refuted",
    "C23_space_after_comma",
    "C23_without_comma"
   ],
   "note": "All strings and word sets. Three refutations recorded: read outside the word list for 'Jr., John', words before the comma lost, last word lost when the family name switch is off; 'f, g' never fills the given name (C23_space_after_comma)."
  },
  {
   "property": "C24",
   "status": "proved",
   "theorems": [
    "C24_backslash_refuted",
    "C24_no_name",
    "C24_preferred",
    "C24_quoted",
    "C24_quotes_escaped",
    "C24_quotes_refuted",
    "C24_unquoted"
   ],
   "note": "Lower-casing is a parameter. Refuted for names with quotes or ending in a backslash."
  },
  {
   "property": "C25",
   "status": "proved",
   "theorems": [
    "C25_entries",
    "C25_line",
    "C25_url_refuted"
   ],
   "note": "For both signedness of char, every attribute name of printable ASCII without colon, every byte string, every line length; whole texts through the reader. URL lines refuted."
  },
  {
   "property": "C26",
   "status": "proved",
   "theorems": [
    "C26_calls",
    "C26_count",
    "C26_import",
    "C26_more"
   ],
   "note": "From every reader state; at most one report per line end; end of input is reported again; the import loop of the converter never exceeds its bound."
  },
  {
   "property": "C27",
   "status": "proved",
   "theorems": [
    "C27_birthday_only",
    "C27_birthday_refuted",
    "C27_concat",
    "C27_import",
    "C27_name_first_refuted",
    "C27_no_birthday"
   ],
   "note": "The claim as stated is false for birthdays (refuted) and for entries that do not begin with dn (refuted); proved: concatenation at an empty line followed by dn is sequential reading with only birthday parts and the identifier counter carried over, and the birthday parts influence nothing but birthdays."
  },
  {
   "property": "C28",
   "status": "proved",
   "theorems": [
    "C28_birthday_refuted",
    "C28_birthdays",
    "C28_blanks_refuted",
    "C28_cell_refuted",
    "C28_contact",
    "C28_contacts",
    "C28_emails",
    "C28_given_only_refuted",
    "C28_street",
    "C28_street_refuted",
    "C28_unsigned_refuted"
   ],
   "note": "Proved for lists of any length on platforms with signed char; the assumptions on the environment are in the record sane (fresh identifiers, country name lookup idempotent, empty URL invalid). Refuted with witnesses: contacts with a given name only are lost, repeated blanks in the formatted name, doubled cell numbers, third street lines, a birthday handed to the next contact, non-ASCII texts where char is unsigned."
  },
  {
   "property": "C29",
   "status": "proved",
   "theorems": [
    "C29_count",
    "C29_equal_groups",
    "C29_equal_members",
    "C29_expectation_is_unique",
    "C29_id_and_name",
    "C29_members",
    "C29_positions",
    "C29_remove_reference_refuted"
   ],
   "note": "All sequences of operations; equality of contact references ignores the GID (refutation of exact removal)."
  },
  {
   "property": "C30",
   "status": "proved",
   "theorems": [
    "C30_acceptable_groups_roundtrip",
    "C30_every_group_refuted",
    "C30_group_roundtrip",
    "C30_list_roundtrip",
    "C30_reading_ends"
   ],
   "note": "Over the token stream of the XML reader and writer (lexical layer trusted); success and result characterised for acceptable and unacceptable groups."
  },
  {
   "property": "C31",
   "status": "proved",
   "theorems": [
    "C31_fixed_points",
    "C31_idempotent",
    "C31_only_digits",
    "C31_plus",
    "C31_same_digits"
   ],
   "note": "Digit predicate is a parameter."
  },
  {
   "property": "C32",
   "status": "proved",
   "theorems": [
    "C32_canonical",
    "C32_exact",
    "C32_inverse",
    "C32_letters",
    "C32_unknown",
    "C32_unknown_formatted_refuted",
    "C32_unknown_text"
   ],
   "note": "Full statement. That the formatted address does not change with an unknown letter is refuted (C32_unknown_formatted_refuted)."
  },
  {
   "property": "C33",
   "status": "proved",
   "theorems": [
    "C33_contains",
    "C33_country",
    "C33_domestic",
    "C33_extended",
    "C33_geo_uri",
    "C33_lines",
    "C33_nothing",
    "C33_postal",
    "C33_repository",
    "C33_shown_only",
    "C33_styles",
    "C33_total",
    "C33_unknown_country_refuted"
   ],
   "note": "Total for every format; exact line specification; completeness, non-interference and empty-address theorems for formats of proper elements (all formats the repository returns) and an upper-casing function that maps only the empty string to the empty string. The unrecognised-country case is stated as C33_unknown_country_refuted. KCountry, KConfig, toUpper and QChar::script are parameters."
  },
  {
   "property": "C34",
   "status": "proved",
   "theorems": [
    "C34_independent",
    "C34_last_set_is_read",
    "C34_preferred_iff",
    "C34_type_iff",
    "C34_unconditional_refuted"
   ],
   "note": "For every call history on a new object, and exact conditions for arbitrary parameters; unconditional claim refuted."
  },
  {
   "property": "C35",
   "status": "proved",
   "theorems": [
    "C35_messaging_preferred",
    "C35_other_parameters",
    "C35_url_preferred_iff",
    "C35_url_type"
   ],
   "note": "URL types unconditionally; messaging preference for parameter maps with distinct names; URL preference with the exact condition."
  },
  {
   "property": "C36",
   "status": "proved",
   "theorems": [
    "C36_colon_refuted",
    "C36_contact",
    "C36_contacts",
    "C36_equal",
    "C36_invalid_url_refuted",
    "C36_null_contact",
    "C36_null_contacts",
    "C36_null_covers",
    "C36_raw_refuted",
    "C36_used_object_refuted",
    "C36_values"
   ],
   "note": "Under sane_stream (Qt's own encodings of QDateTime, float, QImage and URLs round-trip). Refuted of the full wording: undecodable raw picture data, raw data left over in a used target object, invalid URLs, custom names with a colon."
  },
  {
   "property": "C37",
   "status": "proved",
   "theorems": [
    "C37_keys",
    "C37_linked40",
    "C37_links21",
    "C37_logo40",
    "C37_logos",
    "C37_only_extra_refuted",
    "C37_order40_refuted",
    "C37_photo40",
    "C37_photos",
    "C37_short_data_refuted",
    "C37_sounds",
    "C37_version21_refuted",
    "C37_version40_refuted"
   ],
   "note": "3.0: byte for byte with type. 2.1: only linked media survive (refuted for data). 4.0: a single picture with a three-letter type keeps its bytes, the type comes back as image/xxx; (with a semicolon); refuted for other lengths and for the order of several pictures; short foreign data is undefined behaviour."
  },
  {
   "property": "C38",
   "status": "proved",
   "theorems": [
    "C38_gender",
    "C38_long_gender_refuted",
    "C38_secrecy",
    "C38_version"
   ],
   "note": "Secrecy (3.0), gender (4.0), version (all). Multi-letter sex component refuted."
  },
  {
   "property": "C39",
   "status": "proved",
   "theorems": [
    "C39_customs",
    "C39_messaging",
    "C39_no_dash_refuted"
   ],
   "note": "All versions; names with an application part and a dash; a name without dash is refuted."
  },
  {
   "property": "C40",
   "status": "proved",
   "theorems": [
    "C40_concatenated",
    "C40_first",
    "C40_one_result",
    "C40_round_trip"
   ],
   "note": "Same number and order, uid by uid, for every list of contacts that fit; the result is unique."
  },
  {
   "property": "C41",
   "status": "proved",
   "theorems": [
    "C41_extras_kept",
    "C41_object_overload_appends",
    "C41_others_unchanged",
    "C41_set_then_get"
   ],
   "note": "Text setters; the object overloads append (stated as a theorem)."
  },
  {
   "property": "C42",
   "status": "proved",
   "theorems": [
    "C42_list",
    "C42_membership"
   ],
   "note": "Over all histories."
  },
  {
   "property": "C43",
   "status": "proved",
   "theorems": [
    "C43_equality",
    "C43_setters",
    "C43_valid_in_range"
   ],
   "note": "Over all histories and all floating point values as rationals, infinities and NaN."
  },
  {
   "property": "C44",
   "status": "proved",
   "theorems": [
    "C44_whole_contact",
    "C44_whole_contact21",
    "C44_whole_contact40"
   ],
   "note": "3.0: safe30; 4.0: safe40; 2.1: safe21. Equality of all listed fields for every list of contacts satisfying these."
  },
  {
   "property": "C45",
   "status": "proved",
   "theorems": [
    "C45_equal_means_same",
    "C45_equivalences",
    "C45_key_members",
    "C45_observable_refuted",
    "C45_picture_plain",
    "C45_picture_reading_changes_equality_refuted",
    "C45_picture_reflexive_iff",
    "C45_picture_symmetric",
    "C45_picture_transitive_refuted",
    "C45_sound_members"
   ],
   "note": "Equivalences and exact characterisations; three parts of the informal claim are refuted."
  },
  {
   "property": "C46",
   "status": "proved",
   "theorems": [
    "C46_birthday",
    "C46_death_date",
    "C46_position",
    "C46_revision",
    "C46_sort_as_refuted",
    "C46_sort_string",
    "C46_time_zone"
   ],
   "note": "All versions where the property is written; the SORT-AS case is refuted."
  },
  {
   "property": "C47",
   "status": "proved",
   "theorems": [
    "C47_emails",
    "C47_order_refuted"
   ],
   "note": "Exact resulting order for every list; the naive claim (order unchanged) is refuted."
  },
  {
   "property": "C48",
   "status": "proved",
   "theorems": [
    "C48_client_pid_maps",
    "C48_kind",
    "C48_languages",
    "C48_members",
    "C48_members_lost_refuted",
    "C48_nick_names",
    "C48_related",
    "C48_roles",
    "C48_sources",
    "C48_titles",
    "C48_urls"
   ],
   "note": "Each property for every list; members of non-groups refuted."
  },
  {
   "property": "C49",
   "status": "proved",
   "theorems": [
    "C49_calendar_addresses",
    "C49_field_groups",
    "C49_group_names_refuted",
    "C49_label_injection_refuted",
    "C49_label_position_refuted",
    "C49_label_refuted"
   ],
   "note": "Field groups up to permutation, calendar addresses in order per type; two label defects refuted with witnesses."
  },
  {
   "property": "C50",
   "status": "proved",
   "theorems": [
    "C50_crlf_fold_refuted",
    "C50_crlf_refuted",
    "C50_crlf_splits",
    "C50_lfcr"
   ],
   "note": "LF CR: all texts. CR LF: every list of unfolded entries of ordinary attributes splits into one entry per attribute; imports and folding refuted by example."
  },
  {
   "property": "C51",
   "status": "proved",
   "theorems": [
    "C51_lengths",
    "C51_limit_refuted"
   ],
   "note": "Bound on every physical line; limit itself refuted."
  },
  {
   "property": "C52",
   "status": "proved",
   "theorems": [
    "C52_all",
    "C52_comma_refuted",
    "C52_email_refuted",
    "C52_name_refuted",
    "C52_references_refuted"
   ],
   "note": "Proved for lists of any length. Refuted with witnesses: the group name is lost, the member address changes on every trip, names with commas are cut, groups with references only are lost."
  },
  {
   "property": "C53",
   "status": "proved",
   "theorems": [
    "C53_contact",
    "C53_contacts",
    "C53_failed_lists_empty",
    "C53_null_contact",
    "C53_stays_bad",
    "C53_values"
   ],
   "note": "Under sane_stream, which includes that Qt's encodings of dates, floats and images notice truncation."
  },
  {
   "property": "C54",
   "status": "proved",
   "theorems": [
    "C54_choice",
    "C54_drag_drop",
    "C54_empty",
    "C54_list",
    "C54_other_formats",
    "C54_raw",
    "C54_refused_keeps_refuted"
   ],
   "note": "All inputs, composed with C44 (3.0). A drop that fails after a format was accepted has emptied the target list: refuted theorem."
  },
  {
   "property": "C55",
   "status": "proved",
   "theorems": [
    "C55_date_time",
    "C55_day",
    "C55_only_dates",
    "C55_separators",
    "C55_texts_differ",
    "C55_years_refuted",
    "C55_zone_refuted"
   ],
   "note": "Years 1 to 9999. Zone lost and other years changed: refuted theorems."
  },
  {
   "property": "C56",
   "status": "proved",
   "theorems": [
    "C56_adapt",
    "C56_again",
    "C56_gone",
    "C56_lines",
    "C56_same_reading",
    "C56_untouched",
    "C56_values_refuted"
   ],
   "note": "Equivalence with an independent one-pass relation; consequences; names inside values are changed too: refuted theorem."
  },
  {
   "property": "C57",
   "status": "proved",
   "theorems": [
    "C57_label",
    "C57_two_dots_refuted",
    "C57_types"
   ],
   "note": "Directory and desktop file lookup are parameters. A file name with two dots offers a service without a file of its own: refuted theorem."
  },
  {
   "property": "C58",
   "status": "proved",
   "theorems": [
    "C58_edits",
    "C58_empty_values_refuted",
    "C58_ldif",
    "C58_ldif_refuted",
    "C58_new",
    "C58_read",
    "C58_setters_refuted"
   ],
   "note": "Invariant over the scanner, the card loop, the lines of a card and the API calls. The setters that replace a whole list or the text of the first title do not keep it (C58_setters_refuted), a second empty title in LDIF leaves an empty title (C58_ldif_refuted), and an e-mail address or member can be empty (C58_empty_values_refuted)."
  },
  {
   "property": "C59",
   "status": "proved",
   "theorems": [
    "C59_often21",
    "C59_often30",
    "C59_often40",
    "C59_picture40_refuted",
    "C59_preferred_refuted",
    "C59_stable21",
    "C59_stable30",
    "C59_stable40"
   ],
   "note": "Versions 3.0, 2.1 (without binary data, which it does not keep) and 4.0 (pictures linked, not embedded). Refuted for two preferred e-mail addresses, which change places each time, and for embedded pictures in 4.0, whose type grows each time."
  },
  {
   "property": "C60",
   "status": "proved",
   "theorems": [
    "C60_custom_key_refuted",
    "C60_customs",
    "C60_keys",
    "C60_position",
    "C60_position_refuted",
    "C60_related",
    "C60_sort",
    "C60_sort_refuted",
    "C60_spouse_refuted"
   ],
   "note": "Refuted for a key type of one's own, a sort string with a comma, the custom field for the spouse, and (in 3.0) the position of an address."
  },
  {
   "property": "C61",
   "status": "proved",
   "theorems": [
    "C61_birthday_date",
    "C61_birthday_property",
    "C61_birthday_refuted",
    "C61_custom_entries",
    "C61_empty",
    "C61_last_write",
    "C61_untouched",
    "C61_url_refuted",
    "C61_zone_refuted"
   ],
   "note": "51 properties; the exceptions are the theorems C61_zone_refuted, C61_birthday_refuted and C61_url_refuted."
  },
  {
   "property": "C62",
   "status": "proved",
   "theorems": [
    "C62_address_empty",
    "C62_address_last_write",
    "C62_address_untouched",
    "C62_kind_of_data",
    "C62_made",
    "C62_member_customs",
    "C62_picture",
    "C62_rest",
    "C62_variables"
   ],
   "note": ""
  },
  {
   "property": "C63",
   "status": "proved",
   "theorems": [
    "C63_address_labels",
    "C63_address_member_refuted",
    "C63_address_words",
    "C63_other_labels",
    "C63_phone_labels",
    "C63_phone_questions",
    "C63_phone_words",
    "C63_type_lists",
    "C63_url_label_refuted"
   ],
   "note": "C63_address_member_refuted and C63_url_label_refuted are the exceptions."
  },
  {
   "property": "C64",
   "status": "proved",
   "theorems": [
    "C64_blank",
    "C64_gibraltar_refuted",
    "C64_israel_refuted",
    "C64_lost_refuted",
    "C64_mentions",
    "C64_nothing",
    "C64_required",
    "C64_text"
   ],
   "note": "The data file is transcribed by tools/formats.py; exceptions: C64_lost_refuted, C64_gibraltar_refuted, C64_israel_refuted."
  },
  {
   "property": "C65",
   "status": "proved",
   "theorems": [
    "C65_joined",
    "C65_space_refuted"
   ],
   "note": "C65_joined for every surrounding text; C65_space_refuted shows that the condition on the first character of a piece is needed"
  },
  {
   "property": "C66",
   "status": "proved",
   "theorems": [
    "C66_defined",
    "C66_undefined"
   ],
   "note": "An exact characterisation, for texts the parser gets to the end of (C02 says which)."
  },
  {
   "property": "C67",
   "status": "proved",
   "theorems": [
    "C67_contacts",
    "C67_order"
   ],
   "note": "For texts that settle (C02) and properties without soft line breaks."
  },
  {
   "property": "C68",
   "status": "proved",
   "theorems": [
    "C68_ignored"
   ],
   "note": "For texts that settle (C02) and properties without soft line breaks. The random identifiers are an external input; the theorem says how they move."
  },
  {
   "property": "C69",
   "status": "proved",
   "theorems": [
    "C69_mixed_refuted",
    "C69_names",
    "C69_parameters",
    "C69_upper"
   ],
   "note": "For texts that settle (C02) and properties without soft line breaks. The condition on the alphabetical order is needed: C69_mixed_refuted."
  },
  {
   "property": "C70",
   "status": "proved",
   "theorems": [
    "C70_empty_lines",
    "C70_line_ends",
    "C70_outside",
    "C70_stray_end_refuted",
    "C70_unfinished"
   ],
   "note": "Lines outside of cards and unfinished cards: for texts that settle (C02), without '=' at the end of the lines before. An END line without BEGIN line makes an empty card: C70_stray_end_refuted."
  },
  {
   "property": "C71",
   "status": "proved",
   "theorems": [
    "C71_fields",
    "C71_gadu_refuted",
    "C71_messengers",
    "C71_names"
   ],
   "note": "Exchange of names: for texts that settle (C02). Values: printable ASCII without backslash, property without parameters. The scheme of Gadu-Gadu differs between X-GADUGADU and IMPP: C71_gadu_refuted."
  },
  {
   "property": "C72",
   "status": "proved",
   "theorems": [
    "C72_brackets",
    "C72_comment",
    "C72_every_text",
    "C72_nothing",
    "C72_unfinished"
   ],
   "note": "Texts that begin with a byte order mark are excluded (decoding drops it)."
  },
  {
   "property": "C73",
   "status": "proved",
   "theorems": [
    "C73_date",
    "C73_date_and_time",
    "C73_incomplete_refuted",
    "C73_nonsense_time_refuted",
    "C73_only_dates"
   ],
   "note": "Incomplete dates and texts that are no times: C73_incomplete_refuted, C73_nonsense_time_refuted."
  },
  {
   "property": "C74",
   "status": "proved",
   "theorems": [
    "C74_fill_refuted",
    "C74_kind_case_refuted",
    "C74_records",
    "C74_root_refuted"
   ],
   "note": "Records with names; the exceptions are C74_root_refuted, C74_kind_case_refuted, C74_fill_refuted."
  },
  {
   "property": "C75",
   "status": "proved",
   "theorems": [
    "C75_every",
    "C75_text"
   ],
   "note": "Format strings are taken apart as in C32. Upper-casing is assumed not to make a text empty."
  },
  {
   "property": "C76",
   "status": "proved",
   "theorems": [
    "C76_coding",
    "C76_export_refuted",
    "C76_values"
   ],
   "note": "C76_coding and C76_values. The properties that keep their parameters (title, role, nickname, e-mail, ...) are covered by C76_values only: the coding parameter is kept in the contact, and C76_export_refuted shows that a title read with ENCODING=BASE64 or ENCODING=8BIT is not written any more, so it is lost in an export."
  },
  {
   "property": "C77",
   "status": "proved",
   "theorems": [
    "C77_addresses",
    "C77_commas_refuted",
    "C77_dates",
    "C77_extensions",
    "C77_lists",
    "C77_name",
    "C77_organisations",
    "C77_phones",
    "C77_position",
    "C77_position_refuted",
    "C77_quotes_refuted",
    "C77_semicolons_refuted",
    "C77_texts",
    "C77_units_refuted",
    "C77_urls",
    "C77_values",
    "C77_zone_refuted"
   ],
   "note": "Parameters with at most one value in quotes, the last (several are refuted separately); for each name all properties of the card write the name in the same case (otherwise the order between spellings is that of the sorted names, C69). TZ in the form without colon and ORG with more than two parts are refuted separately. Pictures may make reading undefined (C66) and are the only exception. GEO with parameters of the URI is refuted separately. KEY and IMPP are in C78; LABEL, pictures and sounds are treated elsewhere (C03, C46, C66)."
  },
  {
   "property": "C78",
   "status": "proved",
   "theorems": [
    "C78_emails",
    "C78_keys",
    "C78_languages",
    "C78_media_refuted",
    "C78_messengers",
    "C78_organisations",
    "C78_phones",
    "C78_preferred",
    "C78_related",
    "C78_texts",
    "C78_url_types_refuted",
    "C78_urls"
   ],
   "note": "For each name all properties of the card write the name in the same case (not needed for RELATED and IMPP). The types of a URL count in capitals only (refuted otherwise), and of a key with another media type the type is lost (refuted). The picture exception is that of C77."
  },
  {
   "property": "C79",
   "status": "proved",
   "theorems": [
    "C79_group",
    "C79_group_fails",
    "C79_list",
    "C79_list_fails",
    "C79_list_stops",
    "C79_one_meaning",
    "C79_written"
   ],
   "note": "The vocabulary of documents (elements, attributes, what an element states) is in S_GroupDoc.v and names every element and attribute by its text. Tokenising XML is QXmlStreamReader's and is not modelled; custom entries of members have no place in the document."
  },
  {
   "property": "C80",
   "status": "proved",
   "theorems": [
    "C80_addresses",
    "C80_data",
    "C80_dates",
    "C80_extensions",
    "C80_lists",
    "C80_name",
    "C80_names",
    "C80_organisations",
    "C80_related",
    "C80_separators_refuted",
    "C80_telephones",
    "C80_texts",
    "C80_types_refuted",
    "C80_value_date_refuted",
    "C80_values"
   ],
   "note": "The properties of the written text, independent of the reader; `laid_out`, `decodes` and `holds_*` in S_Written are the reading of the standard. Components with separators are excluded and refuted; version 2.1 is covered for texts that need no quoted-printable encoding and data that is not embedded."
  },
  {
   "property": "C81",
   "status": "proved",
   "theorems": [
    "C81_address_refuted",
    "C81_birthday",
    "C81_entries",
    "C81_letters_refuted",
    "C81_text",
    "C81_zone_refuted"
   ],
   "note": "C81_text for every text, C81_entries for the text of a given list of entries; the meaning (S_LdifMeaning) is a table from attribute names to fields, independent of the order in which the reader handles them. Three findings: letters that are not ASCII and not encoded, attributes without value, times in UTC."
  },
  {
   "property": "C82",
   "status": "proved",
   "theorems": [
    "C82_blank_refuted",
    "C82_contact",
    "C82_dn_refuted",
    "C82_group",
    "C82_group_dn_refuted",
    "C82_lists",
    "C82_success_refuted",
    "C82_zone_refuted"
   ],
   "note": "The attributes of the written text against a table (rows in S_LdifWritten) and the lines against the grammar of RFC 2849, without the library's reader. Values beginning with a blank are excluded and refuted; so are letters that are not ASCII in the name of the entry. char is signed (C28_unsigned_refuted covers the other case)."
  },
  {
   "property": "C83",
   "status": "proved",
   "theorems": [
    "C83_codec",
    "C83_coding_stays",
    "C83_contact_any_script",
    "C83_email_kinds",
    "C83_equal_refuted"
   ],
   "note": "Codec a parameter with the hypothesis quotable on the values written; C83_codec shows it for a quoted-printable codec of RFC 2045 defined in Gallina. C83_equal_refuted: titles do not come back equal. C83_coding_stays: a coded title is written with ENCODING=QUOTED-PRINTABLE to 3.0 and 4.0 cards. Values which 2.1 cannot write at all (safe21) are those of C44. C83_email_kinds: types of e-mail addresses, written as parameters without value in 2.1, keep their meaning."
  },
  {
   "property": "C84",
   "status": "proved",
   "theorems": [
    "C84_address_apart",
    "C84_apart",
    "C84_calendar",
    "C84_group_marker",
    "C84_group_refuted",
    "C84_layout",
    "C84_layout_contact",
    "C84_layout_group",
    "C84_layout_texts",
    "C84_line_break_refuted",
    "C84_offset",
    "C84_parameters_refuted",
    "C84_phone_refuted",
    "C84_silent_refuted",
    "C84_sound_apart"
   ],
   "note": "layout of all classes, injectivity on one-line values; the five refuted parts are recorded in DESIGN.md"
  },
  {
   "property": "C85",
   "status": "proved",
   "theorems": [
    "C85_comma",
    "C85_inclusions_refuted",
    "C85_lines",
    "C85_nobiliary",
    "C85_one_way",
    "C85_parts",
    "C85_suffixes",
    "C85_switch",
    "C85_titles"
   ],
   "note": "distribution with and without comma, uniqueness of it, the word sets; the refuted part is recorded in DESIGN.md"
  },
  {
   "property": "C86",
   "status": "proved",
   "theorems": [
    "C86_always",
    "C86_capitals",
    "C86_everything_refuted",
    "C86_language",
    "C86_once",
    "C86_required"
   ],
   "note": "required parts, parts always shown, no repetition, capitals; the refuted part is recorded in DESIGN.md"
  },
  {
   "property": "C87",
   "status": "proved",
   "theorems": [
    "C87_accepted",
    "C87_among_groups",
    "C87_every_document",
    "C87_faults",
    "C87_group_says_why",
    "C87_list_says_why",
    "C87_other_documents"
   ],
   "note": "message for every faulty text, for other documents and for malformed ones; every document, with and without a place for the message"
  },
  {
   "property": "C88",
   "status": "proved",
   "theorems": [
    "C88_assembled",
    "C88_from_comma",
    "C88_from_text",
    "C88_real",
    "C88_same",
    "C88_words"
   ],
   "note": "assembled name, real name, and both after setNameFromString with the family name switch on"
  },
  {
   "property": "C89",
   "status": "proved",
   "theorems": [
    "C89_distinct",
    "C89_extensions",
    "C89_gadu_refuted",
    "C89_icons_refuted",
    "C89_label",
    "C89_read",
    "C89_types"
   ],
   "note": "a language without translations; reading desktop files is KDesktopFile's (hypothesis services_installed)"
  },
  {
   "property": "C90",
   "status": "proved",
   "theorems": [
    "C90_often",
    "C90_revision_refuted",
    "C90_street_refuted",
    "C90_text"
   ],
   "note": "what must hold of a contact is in S_LdifStable.v (tidy, birthdays_last); chars signed, as in C28"
  },
  {
   "property": "C91",
   "status": "proved",
   "theorems": [
    "C91_next",
    "C91_nicknames_refuted",
    "C91_other",
    "C91_versions"
   ],
   "note": "that the contacts in between can be written (fits) is part of the relation converted; it is decidable, see the example"
  },
  {
   "property": "C92",
   "status": "proved",
   "theorems": [
    "C92_export",
    "C92_import",
    "C92_nickname_refuted"
   ],
   "note": "that the contacts in between can be written (fits) is part of the relation converted"
  }
 ]
}