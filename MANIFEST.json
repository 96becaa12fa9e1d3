{
 "claims": [
  {
   "property": "C01",
   "status": "proved",
   "theorems": [
    "C01_builtin_means_header",
    "C01_language_rule_documented"
   ],
   "note": ""
  },
  {
   "property": "C02",
   "status": "proved",
   "theorems": [
    "C02_builtin_index_in_range"
   ],
   "note": ""
  },
  {
   "property": "C03",
   "status": "proved",
   "theorems": [
    "C03_parse_sound",
    "C03_logical_conditions",
    "C03_nonlogical_refuted"
   ],
   "note": "Conditions must be 0/1-valued, as the statement says; C03_nonlogical_refuted shows the condition is needed."
  },
  {
   "property": "C04",
   "status": "proved",
   "theorems": [
    "C04_parse_complete",
    "C04_accepts_exactly",
    "C04_unambiguous"
   ],
   "note": ""
  },
  {
   "property": "C05",
   "status": "proved",
   "theorems": [
    "C05_parse_terminates"
   ],
   "note": ""
  },
  {
   "property": "C06",
   "status": "partial",
   "theorems": [
    "C06_recognition_partial",
    "C06_all_documented_headers_recognised",
    "C06_recognition_refuted",
    "C06_exactly"
   ],
   "note": "Proved for expressions that print unambiguously (plain); false in general, see C06_recognition_refuted: parentheses are dropped from the lookup key. C06_exactly: every header gets the right number of forms and the right forms, unless it has the same symbols as a built-in header and differs from it by parentheses only; then it gets the forms of that header."
  },
  {
   "property": "C07",
   "status": "partial",
   "theorems": [
    "C07_kinds",
    "C07_integer_argument_partial",
    "C07_sign_irrelevant",
    "C07_float_nearest",
    "C07_integer_exactly",
    "C07_float_exactly",
    "C07_integer_argument_refuted"
   ],
   "note": "Proved up to 2^53; false above, see C07_integer_argument_refuted (conversion through float64). C07_integer_exactly and C07_float_exactly say which integer is used for every integer and every float."
  },
  {
   "property": "C08",
   "status": "proved",
   "theorems": [
    "C08_nearest_rule"
   ],
   "note": "Tags, parents and confidences from golang.org/x/text are parameters."
  },
  {
   "property": "C09",
   "status": "partial",
   "theorems": [
    "C09_builtin_is_rule_text",
    "C09_builtin_numeral_partial",
    "C09_tolerance_refuted"
   ],
   "note": "Every built-in rule set equals its rule text on all operands clear of integers by the evaluator's tolerance, and on all numerals of at most 15 digits; C09_tolerance_refuted shows that values within 1e-6 of an integer are treated as that integer."
  },
  {
   "property": "C10",
   "status": "proved",
   "theorems": [
    "C10_category_of_language",
    "C10_parsed_category"
   ],
   "note": ""
  },
  {
   "property": "C11",
   "status": "partial",
   "theorems": [
    "C11_operands_partial",
    "C11_long_refuted",
    "C11_negative_refuted",
    "C11_long_fraction_refuted",
    "C11_exactly"
   ],
   "note": "Exact for every numeral, any sign and length (C11_exactly: accepted or refused, v w f t c as in UTS #35, n the nearest float64, i the truncation of n with the sign of the text). Right as a whole for non-negative numerals of at most 15 significant digits and 300 places (C11_operands_partial); false beyond (C11_long_refuted, C11_long_fraction_refuted) and for a leading minus (C11_negative_refuted)."
  },
  {
   "property": "C12",
   "status": "partial",
   "theorems": [
    "C12_int_sign",
    "C12_types_partial",
    "C12_string_int",
    "C12_negative_refuted",
    "C12_large_refuted",
    "C12_kinds_all",
    "C12_text_all",
    "C12_int_all",
    "C12_agreement_all",
    "C12_kinds_exactly",
    "C12_text_exactly",
    "C12_agreement"
   ],
   "note": "Exact for all integers: C12_int_all (int, int64), C12_kinds_all (the other kinds: right below a million; from there on only if the float64 of the number is that of a digit followed by zeros, otherwise refused; i keeps the sign), C12_text_all (texts), and C12_agreement_all: a kind agrees with int exactly for the non-negative numbers below a million or of one digit followed by zeros, a text exactly for the non-negative numbers that are a float64. False in general (C12_negative_refuted, C12_large_refuted)."
  },
  {
   "property": "C13",
   "status": "partial",
   "theorems": [
    "C13_order_independent",
    "C13_possible",
    "C13_order_refuted"
   ],
   "note": "Proved for rule sets in which at most one category matches; false otherwise, see C13_order_refuted. C13_possible gives for every rule set exactly the results that some order yields."
  },
  {
   "property": "C14",
   "status": "partial",
   "theorems": [
    "C14_rule_accepted_partial",
    "C14_cldr_spelling",
    "C14_spaces_refuted",
    "C14_zero_range_refuted",
    "C14_grammar",
    "C14_one_reading",
    "C14_condition",
    "C14_nothing_else"
   ],
   "note": "The accepted texts are characterised exactly (C14_grammar: words, tokens and grammar of the parser with its deviations; C14_one_reading: not ambiguous), every text that reads as a condition evaluates to its UTS #35 meaning for values below 2^53 (C14_condition), and nothing else is accepted (C14_nothing_else). The claim itself is false of the code: C14_spaces_refuted and C14_zero_range_refuted give UTS #35 texts the parser refuses."
  },
  {
   "property": "C15",
   "status": "partial",
   "theorems": [
    "C15_parse_no_panic",
    "C15_parse_terminates_partial",
    "C15_sample_range",
    "C15_parse_hang_refuted",
    "C15_eval_total_partial",
    "C15_operand_panic_refuted",
    "C15_modulus_panic_refuted",
    "C15_hangs_exactly",
    "C15_ends",
    "C15_eval_outcome",
    "C15_eval_exactly",
    "C15_eval_hang_refuted"
   ],
   "note": "Parsing never panics (C15_parse_no_panic). The texts for which it does not end are characterised exactly (C15_hangs_exactly: a sample range whose ends descend or differ in places, after a prefix that is in order); every other text ends in one rule or in an error (C15_ends). Evaluation is characterised exactly for every rule and all operands (C15_eval_outcome: it panics if and only if the first trouble met is an operand in capitals or an integer operand modulo 0, does not end if and only if it is a range up to the largest int64 entered without a match, and gives an answer otherwise). The property is false in general: C15_parse_hang_refuted, C15_operand_panic_refuted, C15_modulus_panic_refuted, C15_eval_hang_refuted."
  },
  {
   "property": "C16",
   "status": "proved",
   "theorems": [
    "C16_round_trip",
    "C16_round_trip_any"
   ],
   "note": ""
  },
  {
   "property": "C17",
   "status": "partial",
   "theorems": [
    "C17_encode_total_partial",
    "C17_panics_exactly",
    "C17_encode_total_refuted"
   ],
   "note": "False of the code: control characters without an escape letter panic (C17_encode_total_refuted); C17_panics_exactly gives the exact set of failing inputs."
  },
  {
   "property": "C18",
   "status": "partial",
   "theorems": [
    "C18_decode_total_partial",
    "C18_hangs_exactly",
    "C18_decode_total_refuted"
   ],
   "note": "False of the code: an escaped closing quote makes the loop run forever (C18_decode_total_refuted); C18_hangs_exactly gives the exact set of such inputs."
  },
  {
   "property": "C19",
   "status": "proved",
   "theorems": [
    "C19_encoding_well_formed"
   ],
   "note": ""
  },
  {
   "property": "C20",
   "status": "partial",
   "theorems": [
    "C20_layout",
    "C20_layout_unique",
    "C20_line_lengths",
    "C20_lengths_refuted",
    "C20_visible_kept",
    "C20_no_wrap",
    "C20_words_kept_partial",
    "C20_words_kept_refuted"
   ],
   "note": "The exact lines of every text and width are given by the relation laid_text (C20_layout, C20_layout_unique) and so are the lengths that occur (C20_line_lengths). Characters are kept for every text; words stay whole and lines short if no line is indented (C20_words_kept_partial), not otherwise: C20_words_kept_refuted, C20_lengths_refuted."
  },
  {
   "property": "C21",
   "status": "partial",
   "theorems": [
    "C21_round_trip_partial",
    "C21_previous_id_refuted",
    "C21_one_form_refuted",
    "C21_header_refuted",
    "C21_all_options_partial",
    "C21_sorted_partial"
   ],
   "note": "C21_all_options_partial: for every wrap width, every option of the encoder and every order of the messages, exactly what comes back (references lose columns and lines below 1, previous context and id are dropped, missing forms are filled in, headers without values are dropped if asked for), given texts without unescapable characters, plain header values and lines below 65536 bytes. C21_sorted_partial: the same with the default sort function; C21_round_trip_partial: the files that come back unchanged. False in general: C21_*_refuted."
  },
  {
   "property": "C22",
   "status": "partial",
   "theorems": [
    "C22_no_panic",
    "C22_terminates_partial",
    "C22_terminates_refuted",
    "C22_hangs_exactly",
    "C22_ends_exactly"
   ],
   "note": "No input makes the parser panic (C22_no_panic). Termination is false: C22_terminates_refuted. Which files hang is proved exactly: C22_hangs_exactly (for every fuel) and C22_ends_exactly (otherwise a result after at most as many steps as the file has bytes). The parser hangs if and only if it comes to a line that it decodes and whose string is not closed, i.e. an odd number of backslashes before the last quote. The lines before that line must be the beginning of some accepted file. A previous text (#|) directly behind a message is not decoded. What follows the line does not matter. C22_terminates_partial is the simple sufficient condition: no line of the file is unclosed."
  },
  {
   "property": "C23",
   "status": "partial",
   "theorems": [
    "C23_any_file",
    "C23_any_messages_partial",
    "C23_any_comments",
    "C23_comments_exist_partial",
    "C23_paragraphs_partial",
    "C23_form_lines_refuted",
    "C23_entries_kept_partial",
    "C23_adjacent_refuted",
    "C23_fuzzy_refuted",
    "C23_no_blank_refuted",
    "C23_any_forms",
    "C23_comment_lines_partial",
    "C23_long_lines",
    "C23_long_line_refuted"
   ],
   "note": "Exact result for paragraphs of fields in any order and number, set apart by blank or comment lines (C23_paragraphs_partial): one message per paragraph with an id, with the values given last; so nothing is lost if every entry is a paragraph of its own (C23_entries_kept_partial, C23_comment_lines_partial). False for adjacent entries, for further lines of forms out of turn, and for lines of 65536 bytes or more, after which the rest of the file is ignored without an error (C23_*_refuted, C23_long_lines). C23_any_file, C23_any_messages_partial: for every accepted file, whatever its layout (spec PoAnySpec, without tokens and regular expressions), the messages are exactly what its entries with an id say: an entry ends at a blank line or a comment that is not passed over, its values are those given last. C23_any_forms: the same line by line for every accepted file, now with the values of forms whose further lines come out of turn: they are added to form n - 1, where n is the number of forms that have a value by then. C23_any_comments: the comment of every such message, line by line: what stands directly before the entry, but for the line that ended the entry before; such comments exist for every file without previous texts whose references and flags are in the usual form (C23_comments_exist_partial)."
  },
  {
   "property": "C24",
   "status": "partial",
   "theorems": [
    "C24_any_rejected",
    "C24_paragraphs_rejected",
    "C24_paragraphs_accepted",
    "C24_duplicates_rejected_partial",
    "C24_unique_accepted",
    "C24_order_irrelevant",
    "C24_adjacent_refuted",
    "C24_comment_lines_rejected",
    "C24_comment_lines_accepted"
   ],
   "note": "For files of any layout: two entries of the same context and id are refused (C24_any_rejected), and understood, closed files whose entries differ are accepted (C83_accepted). For paragraphs of fields set apart by blank lines or comment lines with the exact result (C24_paragraphs_rejected, C24_paragraphs_accepted), every permutation of entries; entries that are adjacent are one entry, so adjacent duplicates are accepted (C24_adjacent_refuted)."
  },
  {
   "property": "C25",
   "status": "partial",
   "theorems": [
    "C25_known_fields",
    "C25_fields_partial",
    "C25_spelling_refuted",
    "C25_spellings"
   ],
   "note": "Holds for the known fields and for other fields set with one spelling. C25_spellings says exactly what Get can return for other fields however they are spelled: the last value of one of the spellings, each for some order of the map; so the property is false for them (C25_spelling_refuted). Case folding is a parameter that is only constrained on ASCII."
  },
  {
   "property": "C26",
   "status": "partial",
   "theorems": [
    "C26_flags",
    "C26_references_partial",
    "C26_self",
    "C26_texts_partial",
    "C26_nil",
    "C26_references_refuted",
    "C26_texts_refuted"
   ],
   "note": "Flags without condition; references listed twice on the left stay twice (C26_references_refuted); texts of trimmed lines, C26_texts_refuted otherwise."
  },
  {
   "property": "C27",
   "status": "partial",
   "theorems": [
    "C27_deterministic_partial",
    "C27_order_partial",
    "C27_deterministic_refuted",
    "C27_transitive_refuted",
    "C27_comparison",
    "C27_arranged_partial",
    "C27_exactly"
   ],
   "note": "C27_comparison gives the sign of the comparison for every two messages. C27_exactly: the order is the same for every order of the map if and only if different messages are always in some order and there is no cycle (arranged; C27_arranged_partial for the file and every algorithm); messages without references, or with different smallest references, are so (C27_deterministic_partial). False for others (C27_deterministic_refuted, C27_transitive_refuted). For more than twelve messages the necessity is for insertion sort, not for Go's pdqsort."
  },
  {
   "property": "C28",
   "status": "proved",
   "theorems": [
    "C28_mo_read",
    "C28_every_file"
   ],
   "note": "Every placement of tables and strings; header fields as in C25 (known fields, others with one spelling). C28_every_file says what every file of any bytes is read as: how pairs are cut into context, id, plural and forms, that the first pair of a key counts, and which header is used."
  },
  {
   "property": "C29",
   "status": "partial",
   "theorems": [
    "C29_no_panic",
    "C29_read_in_file_partial",
    "C29_head_unique",
    "C29_truncated_refuted",
    "C29_accepted",
    "C29_texts"
   ],
   "note": "No panic. C29_accepted: a file is read if and only if header and tables are complete and every row points into it, all others are errors; C29_texts: the texts are determined by the bytes. False as stated, since the length of a text is not checked (C29_truncated_refuted): missing bytes become NUL."
  },
  {
   "property": "C30",
   "status": "proved",
   "theorems": [
    "C30_catalog_of_file",
    "C30_po_lookup",
    "C30_mo_lookup",
    "C30_po_text",
    "C30_mo_file",
    "C30_returned",
    "C30_every_text",
    "C30_every_file",
    "C30_any_text"
   ],
   "note": "Lookups of the catalog built from any PO text or MO file equal a relational answer over the parsed messages; lifted to PO text and MO bytes by the grammar theorems, and by C30_any_text to PO files of any layout (fields in any order, comments anywhere); C30_every_text, C30_every_file: to every PO file whose lines are closed and whose comments have a meaning (PoFormSpec.every_po), also if forms come out of turn."
  },
  {
   "property": "C31",
   "status": "partial",
   "theorems": [
    "C31_cldr_rule",
    "C31_header_rule",
    "C31_header_exactly",
    "C31_asked_integer",
    "C31_bad_header",
    "C31_header_refuted"
   ],
   "note": "C31_cldr_rule: CLDR rules, every number. C31_header_exactly: every header and every number; the rule is the header's own, or, if the header differs from one of the recognition table by parentheses only, that one's (C06); it is asked about the integer the number rounds to as a float64 (C31_asked_integer: the absolute value up to 2^53). C31_header_refuted: a file whose header is taken for another one. C31_bad_header: rejected exactly if not of the grammar."
  },
  {
   "property": "C32",
   "status": "partial",
   "theorems": [
    "C32_gettext_panic",
    "C32_gettext_refuted",
    "C32_json",
    "C32_gettext_empty"
   ],
   "note": "JSON catalogs: proved on a memory model (contents of the copy, all of its memory new, lookups only see the catalog's own cells). Refuted for gettext catalogs: Messages() panics on every catalog with a message. Without messages it returns the contexts of the file (C32_gettext_empty)."
  },
  {
   "property": "C33",
   "status": "partial",
   "theorems": [
    "C33_accepted",
    "C33_lookup",
    "C33_order",
    "C33_categories",
    "C33_slots",
    "C33_case_refuted"
   ],
   "note": "Acceptance, lookups, fitted categories and independence of both iteration orders proved for every message map. Refuted when a message object has two member names differing in letter case only: then reading depends on the map order."
  },
  {
   "property": "C34",
   "status": "partial",
   "theorems": [
    "C34_message",
    "C34_catalog",
    "C34_written_sorted",
    "C34_written_deterministic",
    "C34_lone_category_refuted",
    "C34_lossless_message",
    "C34_empty_refuted"
   ],
   "note": "On JSON values (the text is C65): message and catalog round trip, sorted and deterministic output. Refuted: a message with a single non-Other category and no comment or context; the empty catalog."
  },
  {
   "property": "C35",
   "status": "proved",
   "theorems": [
    "C35_singular",
    "C35_plural",
    "C35_determined"
   ],
   "note": "For every localizer of every successfully created bundle (loaders keeping their contract): a unique answering language exists in the chain and text and error are its answer and the first language's error."
  },
  {
   "property": "C36",
   "status": "partial",
   "theorems": [
    "C36_singular",
    "C36_plural_partial",
    "C36_plural",
    "C36_plural_twice",
    "C36_present",
    "C36_plural_twice_refuted"
   ],
   "note": "Singular requests: exactly once per distinct language lacking the message. Plural requests: exact for every localizer (C36_plural); as stated if localizer and fallback language differ (C36_plural_partial), otherwise each miss is reported exactly twice (C36_plural_twice, C36_plural_twice_refuted); C38_callback_refuted: a number the plural rule rejects is reported although the text exists."
  },
  {
   "property": "C37",
   "status": "proved",
   "theorems": [
    "C37_singular",
    "C37_plural",
    "C37_keys",
    "C37_general",
    "C37_localize",
    "C37_message",
    "C37_error"
   ],
   "note": "All 32 variants, Localize, Message and LocalizeError."
  },
  {
   "property": "C38",
   "status": "partial",
   "theorems": [
    "C38_source",
    "C38_callback_refuted",
    "C38_error_refuted"
   ],
   "note": "Text, plural choice, no catalogs. 'No error' is refuted in two cases (C38_callback_refuted, C38_error_refuted), otherwise proved."
  },
  {
   "property": "C39",
   "status": "partial",
   "theorems": [
    "C39_settings",
    "C39_same_order",
    "C39_texts",
    "C39_outcome_refuted"
   ],
   "note": "Settings, locales and texts are independent of the order for every permutation; the outcome (success) only if the language requests keep their order: C39_outcome_refuted."
  },
  {
   "property": "C40",
   "status": "partial",
   "theorems": [
    "C40_success",
    "C40_content",
    "C40_localizer",
    "C40_required_refuted",
    "C40_contract_refuted"
   ],
   "note": "Exact characterisation of success and content; C40_required_refuted: a required language requested earlier as optional need not have all catalogs; C40_contract_refuted: loaders must not answer ErrMissingLanguage."
  },
  {
   "property": "C41",
   "status": "partial",
   "theorems": [
    "C41_resolve",
    "C41_documented_partial",
    "C41_load",
    "C41_contract",
    "C41_options",
    "C41_resolver_options",
    "C41_documented_refuted"
   ],
   "note": "First existing candidate, decoders in order, not-found iff none, other errors abort; for file systems whose read/decode/close errors are not 'does not exist'. C41_documented_refuted: without a category (the default) locale/domain is tried before locale/LC_MESSAGES/domain, against the documented order."
  },
  {
   "property": "C42",
   "status": "partial",
   "theorems": [
    "C42_members",
    "C42_no_duplicates",
    "C42_order",
    "C42_unique",
    "C42_spelling_partial",
    "C42_spelling_refuted"
   ],
   "note": "Members, order and uniqueness for every tag. Underscore spelling proved for tags of two parts; C42_spelling_refuted: zh_Hant_TW is missing."
  },
  {
   "property": "C43",
   "status": "partial",
   "theorems": [
    "C43_is_leap",
    "C43_leap_days_partial",
    "C43_leap_days_refuted",
    "C43_days_in_month",
    "C43_dates",
    "C43_day_numbers"
   ],
   "note": "Leap rule and month lengths for every year; leap-day counts for years up to 2^52, where float64 is exact. Beyond that refuted (2^60)."
  },
  {
   "property": "C44",
   "status": "partial",
   "theorems": [
    "C44_zero_time",
    "C44_zero_instant",
    "C44_shape",
    "C44_zero",
    "C44_total_partial",
    "C44_total_refuted",
    "C44_greedy_partial",
    "C44_rounded_partial",
    "C44_rounded_refuted",
    "C44_options",
    "C44_messages",
    "C44_until",
    "C44_instants"
   ],
   "note": "Shape, zero minutes, options and the behaviour for any two instants are proved. Greedy decomposition and 'never exceeds' are refuted (3599 s shows an hour): the quotient is rounded to three decimals. C44_rounded_partial gives the units shown exactly, without exception up to 1024 years, and up to 2^41 s except for intervals that lack exactly 1/2000 year (C44_rounded_refuted)."
  },
  {
   "property": "C45",
   "status": "partial",
   "theorems": [
    "C45_ordinal",
    "C45_ordinal_integers_partial",
    "C45_ordinal_integers_refuted",
    "C45_ordinal_panics",
    "C45_total_refuted",
    "C45_ordinal_negative",
    "C45_apnumber",
    "C45_filesize",
    "C45_filesize_refuted"
   ],
   "note": "Suffix classes, number words and file-size units are proved. 'None of them fails' is refuted: Ordinal panics exactly for values from 2^63 on, +Inf and NaN, which includes the largest int64; integers over 2^53 are shown rounded; the smallest int64 file size gets two minus signs."
  },
  {
   "property": "C46",
   "status": "partial",
   "theorems": [
    "C46_past",
    "C46_future",
    "C46_no_zero_partial",
    "C46_no_zero_refuted",
    "C46_quotient_refuted"
   ],
   "note": "The text for every distance is given exactly. Refuted between 59:59.5 and 1 h in the past (0 hours); in the future the number is that of the nearest second."
  },
  {
   "property": "C47",
   "status": "partial",
   "theorems": [
    "C47_numbers",
    "C47_calendar",
    "C47_years_refuted",
    "C47_iso",
    "C47_names",
    "C47_capital_month",
    "C47_half_days",
    "C47_zones",
    "C47_datetime_partial",
    "C47_datetime_refuted",
    "C47_saving_time",
    "C47_tokens",
    "C47_concat",
    "C47_literal"
   ],
   "note": "Every format character is given exactly (numbers, calendar, names, zones), and the loop over tokens and escapes. Refuted for years before 1 (signs) and for c, whose nanoseconds are not padded (C47_years_refuted, C47_datetime_refuted)."
  },
  {
   "property": "C48",
   "status": "proved",
   "theorems": [
    "C48_decode_means_escapes",
    "C48_source_unambiguous"
   ],
   "note": ""
  },
  {
   "property": "C49",
   "status": "partial",
   "theorems": [
    "C49_paragraphs_partial",
    "C49_ignore_comments_partial",
    "C49_ignore_comments_refuted",
    "C49_flag_lines_partial"
   ],
   "note": "Proved for paragraphs of fields set apart by blank lines or lines of flags (C49_paragraphs_partial); C49_ignore_comments_refuted otherwise."
  },
  {
   "property": "C50",
   "status": "partial",
   "theorems": [
    "C50_domain_refuted",
    "C50_gettext_names_partial",
    "C50_json_names_partial",
    "C50_json_id_refuted",
    "C50_category_number"
   ],
   "note": "Refuted for gettext (domain is never stored) and for JSON (the error names the map key id_ctx instead of the id asked for); everything else is named as asked."
  },
  {
   "property": "C51",
   "status": "partial",
   "theorems": [
    "C51_json_partial",
    "C51_po_partial",
    "C51_mo",
    "C51_json_null_refuted",
    "C51_po_hang_refuted"
   ],
   "note": "MO proved; PO for texts without an unclosed string line (a hang otherwise, refuted), JSON for every value but null (a nil catalog without error, refuted)."
  },
  {
   "property": "C52",
   "status": "proved",
   "theorems": [
    "C52_name",
    "C52_total"
   ],
   "note": "For every text; trimming and language.Parse are external."
  },
  {
   "property": "C53",
   "status": "partial",
   "theorems": [
    "C53_interval",
    "C53_shown",
    "C53_anniversary_refuted"
   ],
   "note": "The interval is determined exactly for all anniversaries. Refuted when the later year is a leap year, the earlier is not, another lies in between and the date is before March (2018-01-01 to 2024-01-01)."
  },
  {
   "property": "C54",
   "status": "partial",
   "theorems": [
    "C54_today",
    "C54_days",
    "C54_tomorrow_refuted",
    "C54_elapsed"
   ],
   "note": "Today and the other days are proved for every location; naming tomorrow and yesterday is refuted when a day has 23 or 25 hours (C54_tomorrow_refuted); C54_elapsed gives the exact behaviour."
  },
  {
   "property": "C55",
   "status": "partial",
   "theorems": [
    "C55_small",
    "C55_units_partial",
    "C55_units_refuted",
    "C55_gap",
    "C55_gap_refuted",
    "C55_large",
    "C55_gap_exactly"
   ],
   "note": "The unit, the multiple (relative error 2^-50) and the plural number are proved for all float64 from 10^6 to 10^36 and from 10^100; Intcomma below and above; between 10^36 and 10^100 the multiple of a googol and its plural number (1 iff above 2^-54 or at -1 up to 2^-53). Refuted for the float64 just below 10^24 (1.0 septillion) and between 10^36 and 10^100, where no unit fits and googol is used with multiples down to 0.0."
  },
  {
   "property": "C56",
   "status": "proved",
   "theorems": [
    "C56_defaults",
    "C56_keywords",
    "C56_humanizer"
   ],
   "note": "Defaults, keywords and the formats chosen by New/CreateHumanizer."
  },
  {
   "property": "C57",
   "status": "partial",
   "theorems": [
    "C57_singular",
    "C57_plural_header_partial",
    "C57_plural_header_exactly",
    "C57_plural_cldr",
    "C57_missing",
    "C57_created",
    "C57_rejected",
    "C57_plural_header_refuted",
    "C57_created_mixed"
   ],
   "note": "End to end for gettext files, on the composition of the loader, PO/MO parser, plural rule, catalog, locale and bundle models. Proved in full: singular requests, plural requests with CLDR rules (every number), missing messages (with the source language as fallback), successful creation. Plural requests with the header's own rule: C57_plural_header_exactly for every header and number, where the rule and the integer it is asked about are those of C31 (not always those of the header: C57_plural_header_refuted, a file whose header gives form 1 for 2^53+1 is answered with form 0). The file is a PO file of the line grammar of PoFileSpec, a PO file of any layout whose lines are understood and closed, whose entries differ, whose forms come in turn and which has at most one header (PoHeadSpec.any_po; an entry without id whose text is not made of fields is passed over), any other PO file that the parser accepts, if its lines are closed and its comments have a meaning (PoFormSpec.every_po, C30_every_file), or an MO file. C57_created, C57_created_mixed: creation succeeds if every requested language has such a file, or an acceptable JSON file, for every domain. C57_rejected: it fails if one has a file that its parser refuses (MO: incomplete; PO: a line that is not understood, two entries of the same context and id, an entry like a header behind the header, nothing at all) or a Plural-Forms field outside the grammar; PO files that make the parser hang (C22) are excluded."
  },
  {
   "property": "C58",
   "status": "partial",
   "theorems": [
    "C58_reading_partial",
    "C58_po_lines",
    "C58_po_refuted"
   ],
   "note": "Proved for decoders that get the data as a whole (JSON) and for the MO decoder. Refuted for PO files: the error of the line reader is dropped (catalog/po/scanner.go:202-217), so a file cut short by a read error loads as a smaller catalog and its later messages are missing. C58_po_lines says what is loaded instead: exactly the file of the lines that were complete before the error."
  },
  {
   "property": "C59",
   "status": "proved",
   "theorems": [
    "C59_gettext_file",
    "C59_cldr_file"
   ],
   "note": "The verbatim lines of both builtin_gen.go files are part of the development; a scanner, parser, type checker and evaluator for the Go subset they use (GoSpec) read them. Trusted: that PopSource.v and CldrSource.v are copies of the files (compare with a diff) and that GoSpec agrees with the Go specification on this subset."
  },
  {
   "property": "C60",
   "status": "partial",
   "theorems": [
    "C60_generated_means_header_partial",
    "C60_used_headers",
    "C60_file_is_generated",
    "C60_recognition_is_generated",
    "C60_two_forms_conditional_refuted",
    "C60_nested_conditional_refuted",
    "C60_number_as_condition_refuted",
    "C60_dropped_parentheses_refuted",
    "C60_sources_recognised"
   ],
   "note": "Proved for the class go_able (one form, or two forms and a condition, or a chain of conditions), which contains every header of the input; refuted outside of it: conditionals with two forms, nested conditionals, numbers as conditions and parentheses on the right of % give Go text that does not compile or computes another form. C60_sources_recognised: every header of the input and every additional rule is recognised by the generated switch."
  },
  {
   "property": "C61",
   "status": "partial",
   "theorems": [
    "C61_condition_partial",
    "C61_function_partial",
    "C61_file_is_generated",
    "C61_quoted_lines",
    "C61_two_ranges_refuted",
    "C61_without_samples_refuted",
    "C61_without_other_refuted"
   ],
   "note": "Proved for conditions with at most one range per relation about an integer operand (all of the CLDR data); refuted for two ranges (the written call isIntInRange does not exist), for a rule without samples (the generator panics) and for rules without Other (the function lacks its return)."
  },
  {
   "property": "C62",
   "status": "partial",
   "theorems": [
    "C62_number",
    "C62_numerals",
    "C62_syntax",
    "C62_text",
    "C62_special",
    "C62_exponent_refuted",
    "C62_refused",
    "C62_ends",
    "C62_ends_refuted",
    "C62_nil_refuted",
    "C62_plural",
    "C62_builtin_total",
    "C62_operands",
    "C62_operands_printed"
   ],
   "note": "Proved for integers up to 2^53 (larger ones round as float64), for every literal of the Go specification as a string (decimal and hexadecimal, exponents below 100000, underscores: the nearest float64, an error exactly from half a unit above the largest float64 on), for the names of infinity and not-a-number, for named types that print as an integer; every other string is refused. Refuted: a pointer to itself makes Indirect loop for ever, a nil pointer counts as 0 without an error, an exponent of six digits is not read to its end."
  },
  {
   "property": "C63",
   "status": "partial",
   "theorems": [
    "C63_time",
    "C63_nil_refuted",
    "C63_callers",
    "C63_natural_partial",
    "C63_seconds",
    "C63_natural_refuted",
    "C63_until_refuted"
   ],
   "note": "Proved; refuted: a nil pointer is 1970-01-01 without an error, and since the clock is read twice a duration of 60 seconds can be shown as 59 seconds ago or as 0 minutes."
  },
  {
   "property": "C64",
   "status": "partial",
   "theorems": [
    "C64_gettext_names",
    "C64_gettext_order_partial",
    "C64_rules_partial",
    "C64_shared",
    "C64_other_names",
    "C64_cases",
    "C64_deterministic",
    "C64_names",
    "C64_mixup_refuted",
    "C64_headers_partial",
    "C64_recognised_partial",
    "C64_forms_refuted",
    "C64_keys_refuted"
   ],
   "note": "Proved for languages whose texts, written one after the other, determine the rules (the checksum sees only that; refuted otherwise: a rule for One and the same rule for Two are taken together), with conditions of the class of C61; the sets and their order are then independent of the iteration. gettext: proved if a formula determines the number of forms and headers are of the class of C60; the rules and their order are then independent of the iteration and the names of the functions differ; refuted otherwise, and two spellings of one formula give a file that does not compile."
  },
  {
   "property": "C65",
   "status": "partial",
   "theorems": [
    "C65_read",
    "C65_strict",
    "C65_total",
    "C65_unique",
    "C65_utf8",
    "C65_deep_refuted",
    "C65_strict_refuted",
    "C65_written",
    "C65_layout",
    "C65_roundtrip",
    "C65_bytes_refuted",
    "C65_empty_refuted"
   ],
   "note": "Reading: exactly the lenient grammar of encoding/json (proved both ways, total, one value); every strict JSON text of at most 10000 levels is read as its value. Refuted: text that is not JSON (invalid UTF-8, lone surrogates) is accepted. Writing proved for every catalog; the round trip for catalogs whose texts are UTF-8 with at least one message of a built-in language; refuted for names that are not UTF-8 (they fall together), for the empty catalog and for nil. Texts nested deeper than 10000 levels are refused (C65_deep_refuted); every other strict JSON text is read."
  },
  {
   "property": "C66",
   "status": "partial",
   "theorems": [
    "C66_readings",
    "C66_every_file",
    "C66_outcomes",
    "C66_file",
    "C66_case_refuted",
    "C66_null_refuted"
   ],
   "note": "Outcomes proved for every byte sequence; C66_every_file for every file with an object: when it is refused, and that the lookups answer what the messages say that it is read as; C66_readings gives exactly the messages some order of iteration yields. In files in which no two names of one message differ in letter case only there is one reading (C66_file); otherwise the answer depends on the map iteration (C66_case_refuted). Refuted: the file null gives neither a catalog nor an error."
  },
  {
   "property": "C67",
   "status": "partial",
   "theorems": [
    "C67_keys",
    "C67_gathered",
    "C67_order_partial",
    "C67_texts_partial",
    "C67_order_refuted",
    "C67_flags",
    "C67_references",
    "C67_references_refuted",
    "C67_placeholder_partial",
    "C67_placeholder_refuted",
    "C67_message_reference",
    "C67_ref_text",
    "C67_ref_text_injective",
    "C67_ref_text_refuted",
    "C67_file_text",
    "C67_nil_file",
    "C67_placeholder_fields"
   ],
   "note": "Keys, gathered flags and references, flag and reference operations, the fields of the placeholder header and the text of references are proved for every input (a reference without line may look like another one, refuted); independence of order is proved for flags and references of messages whose own lists are sorted without repetition, and refuted for translations (the first ones win); comment texts for texts made of distinct trimmed lines; the placeholder header reads back unchanged for non-empty names without control characters and lines below 64 KiB (an empty holder loses the blank at the end of the line, refuted); AddReference keeps duplicates (refuted)."
  },
  {
   "property": "C68",
   "status": "partial",
   "theorems": [
    "C68_domain",
    "C68_asked",
    "C68_asked_plural_partial",
    "C68_files_load",
    "C68_plural_forms_partial",
    "C68_plural_forms_refuted",
    "C68_new",
    "C68_shown",
    "C68_plural_shown_partial",
    "C68_plural_shown_refuted",
    "C68_requests"
   ],
   "note": "Proved for every file, choice of packages, message and number, through a localizer of a humanizer, also as CreateHumanizer makes it and with the methods it calls (C68_domain, C68_asked, C68_asked_plural_partial); refuted for seven messages of the Hebrew file, which lack the form for most numbers (the English plural is shown): there the theorem says exactly for which numbers."
  },
  {
   "property": "C69",
   "status": "partial",
   "theorems": [
    "C69_directives_partial",
    "C69_directives_refuted",
    "C69_number_kept_partial",
    "C69_number_kept_refuted"
   ],
   "note": "Proved for all files but one text of the Belarusian file (billion, refuted) and, for the number of large numbers, the Hebrew file (refuted: plus and minus one million are shown alike). Inclusion, not equality: a translation may leave a directive out."
  },
  {
   "property": "C70",
   "status": "partial",
   "theorems": [
    "C70_language_partial",
    "C70_language_refuted",
    "C70_distinct_partial"
   ],
   "note": "Proved for all packages but lt, which registers lv (refuted: Lithuanian cannot be had, and lt takes the place of Latvian)."
  },
  {
   "property": "C71",
   "status": "partial",
   "theorems": [
    "C71_package",
    "C71_formats_partial",
    "C71_formats_refuted"
   ],
   "note": "Proved for all packages, languages and formats but the Vietnamese DateTimeFormat (refuted: times that differ in the hour are shown alike). The formats are those of the package the texts come from (C71_package)."
  },
  {
   "property": "C72",
   "status": "partial",
   "theorems": [
    "C72_accepted",
    "C72_shown_partial",
    "C72_missing_partial",
    "C72_created",
    "C72_null_refuted"
   ],
   "note": "End to end for JSON files, on the composition of the loader, JSON, CLDR, catalog, locale and bundle models. C72_shown_partial, C72_missing_partial: files in which no two names of one message differ in letter case only (for the others see C66 and C82_every_file). C72_accepted, C72_created: a bundle or a localizer of the language exists only if the file is acceptable, or null. C72_null_refuted: false as stated, a file with null gives a bundle and a localizer. Errors of the decoder are not taken for os.ErrNotExist."
  },
  {
   "property": "C73",
   "status": "partial",
   "theorems": [
    "C73_exclusive_partial",
    "C73_exponent_refuted",
    "C73_order_partial",
    "C73_builtin_partial",
    "C73_parsed_order_partial"
   ],
   "note": "Proved for exponents up to 5 and, in the languages whose conditions do not mention the exponent, for all exponents (C73_exclusive_partial, C73_order_partial). For larger exponents it is false in ca, it, lld, pt-PT, scn, vec, es, fr and pt: C73_exponent_refuted (0c6 is One and Many in French). C73_builtin_partial: the built-in category is k if and only if the condition of k holds; C73_parsed_order_partial: rules parsed from their texts in any order agree; both for numerals as in C09_builtin_numeral_partial (below 10^15, at most 5 places)."
  },
  {
   "property": "C74",
   "status": "partial",
   "theorems": [
    "C74_asked",
    "C74_table",
    "C74_names",
    "C74_distinct_refuted",
    "C74_translated_refuted",
    "C74_english"
   ],
   "note": "What is shown is proved for every choice of packages, language and code (C74_names, C74_english; C74_asked for humanizers as CreateHumanizer makes them); the table is consistent (C74_table). Refuted: the names of the table for nb and no are not those of the translation files, so that they stay English (C74_translated_refuted, shown for German); Lithuanian and Latvian have the same name in Swedish (C74_distinct_refuted)."
  },
  {
   "property": "C75",
   "status": "partial",
   "theorems": [
    "C75_bundle_domains",
    "C75_bundle_languages",
    "C75_can_localize",
    "C75_domains",
    "C75_missing_domain",
    "C75_no_locale",
    "C75_language",
    "C75_is_supported",
    "C75_default_domain",
    "C75_language_refuted",
    "C75_catalog_refuted",
    "C75_contract_refuted"
   ],
   "note": "Proved for every bundle made from loaders that keep their contract (C75_contract_refuted: a loader answering ErrMissingLanguage makes Domains list a domain without catalog). Refuted against the comments in the code: SupportedLanguages also lists the source language, which has no catalog (C75_catalog_refuted); Language is the fallback language, not Und, if no language matches (C75_language_refuted)."
  },
  {
   "property": "C76",
   "status": "partial",
   "theorems": [
    "C76_breaks",
    "C76_breaks_unique",
    "C76_written",
    "C76_words",
    "C76_lines_partial",
    "C76_width_refuted",
    "C76_text"
   ],
   "note": "The exact breaks of every text and width are given by the relation filled_text (C76_breaks, C76_breaks_unique, C76_written). C76_words, C76_text: nothing lost, no word cut. C76_lines_partial says how far lines keep the width and that every break was needed. False as stated: the last word of a paragraph is added to its line whatever its length (C76_width_refuted)."
  },
  {
   "property": "C77",
   "status": "partial",
   "theorems": [
    "C77_medium_partial",
    "C77_zero",
    "C77_outside",
    "C77_floats_refuted",
    "C77_printed",
    "C77_every_float_partial"
   ],
   "note": "For every float64 by its value: C77_printed (it prints as the shortest decimal that converts back, nearest among those; at most 17 digits), C77_every_float_partial (n is the float itself, i its integer part with the sign; from the float nearest 0.0001 up to below a million v, w, f, t are those of the shortest decimal; outside exactly the floats of one digit are accepted, with no fraction digits). C77_floats_refuted: 1234567.5 is refused and 0.00005 gets v = 0, because the number is printed with an exponent first. The same by digits: C77_medium_partial, C77_outside."
  },
  {
   "property": "C78",
   "status": "proved",
   "theorems": [
    "C78_fitted",
    "C78_nothing",
    "C78_twice",
    "C78_catalog"
   ],
   "note": "C78_fitted, C78_nothing: for every language tag (its parent chain must end) and every memory. C78_twice: for all iteration orders. C78_catalog: lookups of a catalog of fitted messages."
  },
  {
   "property": "C79",
   "status": "partial",
   "theorems": [
    "C79_text",
    "C79_object",
    "C79_error",
    "C79_others",
    "C79_leftover_refuted"
   ],
   "note": "C79_text, C79_object, C79_error, C79_others state exactly what is set: a text becomes the single translation, the members of an object replace the ones of the same name, anything else is an error. C79_leftover_refuted: categories that the text does not name stay from before, so the result is the message of the text only for a fresh message."
  },
  {
   "property": "C80",
   "status": "partial",
   "theorems": [
    "C80_written_partial",
    "C80_empty",
    "C80_written_refuted",
    "C80_catalog"
   ],
   "note": "C80_written_partial: whenever the map of translations is absent or not empty. C80_empty: the exact change otherwise. C80_written_refuted: an empty map gets an entry for Other. C80_catalog: for messages of a catalog nothing ever changes."
  },
  {
   "property": "C81",
   "status": "partial",
   "theorems": [
    "C81_listing_partial",
    "C81_cases_partial",
    "C81_order",
    "C81_endless_refuted",
    "C81_texts_refuted"
   ],
   "note": "Proved for the lists of the data format (numbers, powers of ten written with c, ranges of integers below the largest int, an omission at the end); independence of the order for every text. Refuted otherwise: a range up to the largest int never ends, a range of fractions ends the program, an omission without a blank is taken for a number."
  },
  {
   "property": "C82",
   "status": "partial",
   "theorems": [
    "C82_singular",
    "C82_plural",
    "C82_missing",
    "C82_missing_plural",
    "C82_created",
    "C82_rejected",
    "C82_null_refuted",
    "C82_every_file"
   ],
   "note": "End to end for JSON files in which no two names of one message differ in letter case only: singular and plural requests, missing texts (with the source language as fallback) with the exact reason and callbacks, creation and its failure. C82_every_file: for every file with an object the texts shown are those of one of its readings (C66_readings). Refuted: a file with null is loaded as a nil catalog, the bundle is made, and the first request for a message of the domain panics."
  },
  {
   "property": "C83",
   "status": "partial",
   "theorems": [
    "C83_entries",
    "C83_accepted",
    "C83_lines_exactly",
    "C83_lines_header",
    "C83_accepted_exactly",
    "C83_header",
    "C83_lines",
    "C83_understood",
    "C83_refused",
    "C83_one_entry",
    "C83_cut",
    "C83_long_refuted"
   ],
   "note": "C83_understood: every accepted file consists, up to the first line of 65536 bytes or more, of understood lines (spec PoLineSpec.understood, written without the scanner's regular expressions and tokens; what may continue a string depends on the line before). C83_refused: any other file is an error, unless a string is not closed (C22). C83_lines: the lines read are determined. C83_one_entry: conversely one entry of understood lines with a msgid text is accepted. C83_cut, C83_long_refuted: what stands behind a line of 65536 bytes or more is not looked at, so the full statement is false there (bufio.Scanner's limit, the error is taken as end of file). C83_entries, C83_accepted: understood and closed lines make up entries, and the file is accepted if these differ in context or id, one has an id and at most one is a header. C83_accepted_exactly: among files whose strings are closed and whose header forms are given in turn, exactly those are accepted whose lines are understood, whose entries differ and that have an entry with id or a header (an entry without id whose text consists of fields and blank lines; other entries without id are passed over in front of it and refused behind it). C83_header: the fields of that header are the ones read. C83_lines_exactly, C83_lines_header: the same without the condition on the forms of the header."
  },
  {
   "property": "C84",
   "status": "proved",
   "theorems": [
    "C84_again",
    "C84_tokens",
    "C84_setting",
    "C84_kept"
   ],
   "note": "C84_again: any parser reached from NewParser by SetIgnoreComments and Parse calls gives the same file or the same error (with the line it names) as a new one. C84_kept: earlier files and the setting are unchanged. C84_setting: what SetIgnoreComments sets holds for the next call. C84_tokens: the parser with its state (tokens put back, lines read ahead) is the parser of token lists that all other PO theorems are about, so these hold of it too. A call that never returns (C22) leaves no parser to use."
  },
  {
   "property": "C85",
   "status": "partial",
   "theorems": [
    "C85_duplicate",
    "C85_second_header",
    "C85_line",
    "C85_index",
    "C85_entries_refuted"
   ],
   "note": "C85_line, C85_index: an error of buildPosError or for the index of a form names the first line that is not understood in the sense of C83, with its number and (buildPosError) the line as it is in the file. C85_entries_refuted: the errors for a duplicate entry and for a second header are made after the parser has read on, so they name the first line of the entry behind it (parser.go:90, 108). C85_duplicate, C85_second_header: which line they name in general, for every file: with the lines up to the end of the first duplicate entry (the second header), the error names the comment behind it, or the first line that is not blank behind the blank lines, or the last line of the file; the text it has is that line, and nothing at the end of the file. Missing: the property for these two errors, which is false."
  }
 ]
}