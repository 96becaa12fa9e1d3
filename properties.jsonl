{"id": "C01", "title": "Built-in gettext plural rules compute their own Plural-Forms header", "statement": "When a Plural-Forms header is recognised as one of the library's built-in rules, the built-in function returns, for every number n, exactly the form index that the C expression in that header denotes, and the number of forms is the one the header declares.", "quantifier": "every built-in rule (all 33 recognised headers) and every integer n, negative ones included", "why_tests_cant": "Each rule is a function on 2^64 integers with moduli up to 1000000; tests sample a few hundred values.", "anchors": ["catalog/poplural/builtin_gen.go:getBuiltInForRawRule", "catalog/poplural/rule.go:Parse", "catalog/poplural/rule.go:evaluateNode"]}
{"id": "C02", "title": "Built-in plural form index is always a declared form", "statement": "Every built-in gettext rule, whether chosen by header or by language, returns an index i with 0 <= i < NPlurals for every number, so a message with all declared forms always has the requested one.", "quantifier": "every built-in rule, every language name, every integer n", "why_tests_cant": "Range safety over the whole int64 domain; a single residue class missed by the samples would index a missing form.", "anchors": ["catalog/poplural/builtin_gen.go:getBuiltInForRawRule", "catalog/poplural/builtin_gen.go:getBuiltInForLanguage"]}
{"id": "C03", "title": "A parsed Plural-Forms expression means what C means", "statement": "For every header the parser accepts, the number of forms is the declared one and the rule computed at run time gives, for every n, the value the expression has under C's precedence, associativity and operators, provided every operand of ?:, && and || is itself a comparison or logical expression. For other expressions (such as `n%10 ? 1 : 0`) the result can differ from C.", "quantifier": "every Plural-Forms header string, every integer n", "why_tests_cant": "The set of expressions is infinite (unbounded nesting, chains and parentheses).", "anchors": ["catalog/poplural/ast/parser.go:Parse", "catalog/poplural/ast/scanner.go:scan", "catalog/poplural/rule.go:evaluateNode"]}
{"id": "C04", "title": "Plural-Forms parser accepts every expression of its grammar", "statement": "Every header `nplurals=<number>; plural=<expression>;`, whose expression is built from n, decimal numbers, parentheses, %, <, <=, >, >=, ==, !=, &&, || and ?: with at most one non-parenthesised %, relational and equality operator per level, is accepted and gets the value of the expression. Expressions of the full gettext grammar outside this set (+, -, *, /, !, chained %) are rejected with an error and never misread.", "quantifier": "every expression tree of the grammar and every layout (spaces, tabs, newlines between tokens)", "why_tests_cant": "Unbounded expression size and nesting.", "anchors": ["catalog/poplural/ast/parser.go:expression", "catalog/poplural/ast/scanner.go:scan"]}
{"id": "C05", "title": "Plural-Forms parsing terminates without panic", "statement": "Parsing any byte string as a Plural-Forms header ends after finitely many steps with either a rule or an error.", "quantifier": "every byte string (invalid UTF-8, NUL bytes, truncated headers included)", "why_tests_cant": "No finite set of inputs establishes termination of a recursive-descent parser.", "anchors": ["catalog/poplural/ast/parser.go:Parse", "catalog/poplural/ast/scanner.go:scan", "catalog/poplural/ast/compile.go:CompileToString"]}
{"id": "C06", "title": "Recognising a built-in rule never changes the meaning of a header", "statement": "If two Plural-Forms headers are mapped to the same built-in rule, both denote that rule's function: replacing the interpreted expression by the built-in is unobservable.", "quantifier": "every Plural-Forms header string that the library maps to a built-in rule, every n", "why_tests_cant": "The lookup key is a re-printed string; a collision needs an adversarial header that no test contains.", "anchors": ["catalog/poplural/rule.go:Parse", "catalog/poplural/ast/compile.go:CompileToString", "catalog/poplural/builtin_gen.go:getBuiltInForRawRule"]}
{"id": "C07", "title": "Integer arguments select the plural form of exactly that number", "statement": "For an integer argument n of any integer type, the plural form used is the rule's form for |n|; negative and positive counts select the same form.", "quantifier": "every integer value of every integer type (int8..int64, uint8..uint64)", "why_tests_cant": "The conversion through float64 only misbehaves above 2^53; tests use small counts.", "anchors": ["catalog/poplural/rule.go:Evaluate", "internal/cast/number.go:ToNumber"]}
{"id": "C08", "title": "Plural rule lookup for a language always yields a rule and falls back to English", "statement": "For every language tag the library returns a plural rule; it is the rule of the nearest ancestor tag (or high-confidence base) that has one, otherwise the English rule, and the found flag is false exactly in the fallback case.", "quantifier": "every language tag and every finite parent chain", "why_tests_cant": "Quantifies over all BCP-47 tags and over an unbounded parent chain.", "anchors": ["catalog/poplural/builtin.go:ForLanguage", "catalog/cldrplural/builtin.go:ForLanguage"]}
{"id": "C09", "title": "Built-in CLDR rules agree with the CLDR rule text", "statement": "For every language, the category chosen by the built-in function equals the category defined by the CLDR rule text of that language, for every combination of operands n, i, v, w, f, t, c that a decimal number can have.", "quantifier": "every built-in rule set, every operand tuple of a decimal number (unbounded digits)", "why_tests_cant": "Operands range over unboundedly many decimals; samples in the CLDR data cover only a few dozen.", "anchors": ["catalog/cldrplural/builtin_gen.go", "catalog/cldrplural/cldr.go"]}
{"id": "C10", "title": "CLDR evaluation always returns a category of the language", "statement": "Evaluating any number with a built-in rule set yields a category listed in the set's categories; the list contains Other, has no duplicates and is ordered from Zero to Other, and the PO form index derived from it is in range and identifies the category uniquely.", "quantifier": "every language, every number", "why_tests_cant": "Range property over all operand tuples; a category outside the list would give a missing or wrong PO form.", "anchors": ["catalog/cldrplural/builtin_gen.go", "catalog/po_decoder.go:getCLDRPluralFunction"]}
{"id": "C11", "title": "CLDR operands of a decimal string follow UTS #35", "statement": "For every decimal numeral (digits, optional fraction, optional compact exponent) the derived operands are: n the absolute value, i the integer digits, v/w the number of visible fraction digits with/without trailing zeros, f/t the fraction digits with/without trailing zeros as integers, c the exponent.", "quantifier": "every decimal numeral of any length that fits the integer operand types", "why_tests_cant": "Unboundedly many digit strings.", "anchors": ["catalog/cldrplural/cldr.go:newOperandsString", "catalog/cldrplural/cldr.go:NewOperands"]}
{"id": "C12", "title": "Equal numbers get equal CLDR operands whatever Go type carries them", "statement": "An integer gives the same operands whether it is passed as int, int64, any other integer type, or as its decimal string; in particular n and -n have the same operands.", "quantifier": "every integer value and every accepted argument type", "why_tests_cant": "Type- and magnitude-dependent paths (float formatting, sign handling) differ only on values tests do not contain.", "anchors": ["catalog/cldrplural/cldr.go:NewOperands"]}
{"id": "C13", "title": "Parsed CLDR rules are independent of map iteration order", "statement": "A rule set parsed from rule texts returns the same category for the same number on every evaluation whenever at most one of its rules matches that number; with rules that overlap (including a sample-only Other rule) the outcome may depend on map order.", "quantifier": "every rule set, every number, every iteration order of the rule map", "why_tests_cant": "Go randomises map order; a test observes one order per run.", "anchors": ["catalog/cldrplural/evaluation.go:ParseRules", "catalog/cldrplural/evaluation.go"]}
{"id": "C14", "title": "CLDR rule parser and evaluator implement the CLDR rule grammar", "statement": "Every condition written in the CLDR plural syntax (or/and, =, !=, %, range lists) is accepted by the rule parser and evaluates to its UTS #35 meaning.", "quantifier": "every condition tree, every operand tuple", "why_tests_cant": "Unbounded conditions and operand values.", "anchors": ["catalog/cldrplural/ast/parser.go", "catalog/cldrplural/ast/scanner.go", "catalog/cldrplural/evaluation.go"]}
{"id": "C15", "title": "CLDR rule parsing and evaluation never panic or hang", "statement": "Parsing any text as CLDR rule returns a rule or an error after finitely many steps, and evaluating a parsed rule on any number returns a category.", "quantifier": "every rule text and every number", "why_tests_cant": "Termination and absence of panics over all inputs.", "anchors": ["catalog/cldrplural/ast/parser.go:Parse", "catalog/cldrplural/ast/parser.go:parseSampleRange", "catalog/cldrplural/evaluation.go"]}
{"id": "C16", "title": "PO string encoding round-trips", "statement": "Decoding the PO encoding of a text gives the text back, for every wrap width (or no wrapping).", "quantifier": "every valid UTF-8 text whose control characters have a PO escape, every wrap limit", "why_tests_cant": "Infinite input space with interacting escapes, line splitting and wrapping.", "anchors": ["catalog/po/po_string.go:EncodePoString", "catalog/po/po_string.go:DecodePoString", "catalog/po/wrap.go"]}
{"id": "C17", "title": "PO string encoding is total", "statement": "Encoding any text as a PO string returns a result (no panic).", "quantifier": "every Go string, every wrap limit", "why_tests_cant": "Absence of panics over all strings.", "anchors": ["catalog/po/po_string.go:EncodePoString"]}
{"id": "C18", "title": "PO string decoding is total", "statement": "Decoding any byte string as a PO string terminates with a result.", "quantifier": "every byte string", "why_tests_cant": "Termination over all inputs.", "anchors": ["catalog/po/po_string.go:DecodePoString"]}
{"id": "C19", "title": "Encoded PO strings are well-formed PO source", "statement": "The encoded text is one or more lines, each starting and ending with a double quote, with no raw newline and no unescaped quote in between, so any PO reader sees exactly those lines.", "quantifier": "every text that can be encoded, every wrap limit", "why_tests_cant": "Infinite input space.", "anchors": ["catalog/po/po_string.go:EncodePoString"]}
{"id": "C20", "title": "Word wrapping keeps the words", "statement": "Wrapping a text at any width keeps every non-space character, in order, and never splits a word; a line is longer than the limit only if it is a single word.", "quantifier": "every text, every width", "why_tests_cant": "Infinite input space.", "anchors": ["catalog/po/wrap.go:wrapString", "catalog/po/po_string.go:encodePoStringWithWrap"]}
{"id": "C21", "title": "Writing and re-reading a PO file preserves it", "statement": "Encoding a PO file and parsing the output gives a file with the same messages (context, id, plural id, translations, flags, references, comments).", "quantifier": "every file whose messages are well formed (non-empty ids, forms numbered from 0, encodable texts), every wrap width", "why_tests_cant": "Unbounded files; interacting line-based syntax.", "anchors": ["catalog/po/encoder.go", "catalog/po/parser.go", "catalog/po/scanner.go"]}
{"id": "C22", "title": "PO parsing terminates without panic", "statement": "Parsing any byte string as a PO file returns a file or an error after finitely many steps.", "quantifier": "every byte string", "why_tests_cant": "Termination over all inputs.", "anchors": ["catalog/po/parser.go:Parse", "catalog/po/scanner.go", "catalog/po/po_string.go:DecodePoString"]}
{"id": "C23", "title": "The PO parser never loses a message silently", "statement": "If parsing succeeds, every message entry of the input appears in the result with its own id, translations and flags.", "quantifier": "every PO file text", "why_tests_cant": "Depends on the layout between entries; tests always separate entries by blank lines.", "anchors": ["catalog/po/parser.go", "catalog/po/scanner.go"]}
{"id": "C24", "title": "Duplicate definitions in a PO file are an error", "statement": "A PO file that defines the same (context, id) twice is rejected; one that defines every pair once is accepted, whatever the order of the messages, and yields the same mapping.", "quantifier": "every list of messages, every permutation", "why_tests_cant": "All permutations of unbounded message lists.", "anchors": ["catalog/po/parser.go", "catalog/po/file.go:AddMessage"]}
{"id": "C25", "title": "PO header fields behave like a case-insensitive map", "statement": "After setting a header field, reading it under any upper/lower-case spelling returns the last value set, and setting one field does not change another.", "quantifier": "every sequence of Set operations, every key spelling", "why_tests_cant": "Unbounded histories and spellings; Go map order.", "anchors": ["catalog/po/file.go:Header.Set", "catalog/po/file.go:Header.Get"]}
{"id": "C26", "title": "Merging comments is a set union", "statement": "Merging the comment of one message into another keeps all flags and references of both without duplicates and in sorted order; merging twice, or merging with itself, adds nothing.", "quantifier": "every pair of comments", "why_tests_cant": "Unbounded lists; algebraic laws.", "anchors": ["catalog/po/comment.go:Merge"]}
{"id": "C27", "title": "PO output order is deterministic", "statement": "The default sort function is a total preorder on messages in which only identical (context,id) pairs tie, so encoding the same file always writes messages in the same order.", "quantifier": "every set of messages and every map iteration order", "why_tests_cant": "Go's map order is random; order anomalies show up only for particular reference patterns.", "anchors": ["catalog/po/encoder.go", "catalog/po/message.go", "catalog/po/file.go"]}
{"id": "C28", "title": "MO files round-trip in both byte orders", "statement": "Reading an MO file laid out according to the GNU format for a list of messages (contexts, plurals, header) yields exactly those messages, for little- and big-endian files and for every placement of the tables and strings.", "quantifier": "every message list with representable sizes, both byte orders, every layout", "why_tests_cant": "Unbounded binary inputs.", "anchors": ["internal/mo/parser.go"]}
{"id": "C29", "title": "MO parsing reads only what the file contains", "statement": "If an MO file is truncated or its offsets point outside the file, parsing reports an error instead of returning text that is not in the file.", "quantifier": "every byte string", "why_tests_cant": "All truncation points of all files.", "anchors": ["internal/mo/parser.go:read", "internal/mo/parser.go:parseMessage"]}
{"id": "C30", "title": "Gettext catalog lookups return exactly the stored translation", "statement": "Looking up (context, id) returns the translation stored for that pair, unchanged; if there is none it returns the id itself together with an error that tells whether the context, the message or the translation is missing. An empty or fuzzy translation counts as missing and is never returned.", "quantifier": "every catalog content, every context, id and number", "why_tests_cant": "All catalogs and all queries.", "anchors": ["catalog/po.go:Lookup", "catalog/po.go:LookupPlural", "catalog/po_decoder.go:buildGettextCatalog"]}
{"id": "C31", "title": "Plural lookup uses the form chosen by the catalog's rule", "statement": "A plural lookup returns the stored form whose index the catalog's plural rule assigns to the number; the rule is the CLDR rule when requested by decoder or header or when no Plural-Forms header exists, otherwise the header's own rule.", "quantifier": "every catalog, every header, every number", "why_tests_cant": "All combinations of headers and numbers.", "anchors": ["catalog/po_decoder.go", "catalog/po.go:LookupPlural"]}
{"id": "C32", "title": "Messages of a catalog can be exported as an independent copy", "statement": "Messages() returns all messages of the catalog, and later changes to the returned structure do not affect lookups.", "quantifier": "every catalog (gettext and JSON)", "why_tests_cant": "All catalog contents.", "anchors": ["catalog/po.go:Messages", "catalog/json.go:Messages"]}
{"id": "C33", "title": "JSON catalogs are independent of key order", "statement": "Building a JSON catalog from a set of messages succeeds or fails, and answers every lookup, independently of the iteration order of the message map; the resulting messages have exactly the plural categories of the language (or only Other for singular messages).", "quantifier": "every message map, every iteration order, every language", "why_tests_cant": "Random map order; all message maps.", "anchors": ["catalog/json.go:NewJSONCatalogWithMessages", "catalog/json.go:setMessage", "catalog/json.go:applyCategoriesToJSONMessage"]}
{"id": "C34", "title": "JSON messages survive a marshal/unmarshal round trip", "statement": "A JSON message with an Other translation is read back unchanged (comment, context, all category texts) after being written; a whole catalog written and read back answers all lookups identically.", "quantifier": "every message with any texts and any subset of categories", "why_tests_cant": "Unbounded texts; category subsets.", "anchors": ["catalog/json.go:MarshalJSON", "catalog/json.go:UnmarshalJSON"]}
{"id": "C35", "title": "Lookups follow the fallback chain and never fail", "statement": "A singular or plural lookup returns the formatted translation of the first of: the localizer's language, the fallback language, the source text. The plain Get variants therefore always return a text; the error variants report the error of the first language tried.", "quantifier": "every bundle, language, domain, context, message and argument list", "why_tests_cant": "All combinations of present/missing catalogs and messages.", "anchors": ["localizer.go", "locale.go"]}
{"id": "C36", "title": "The missing-translation callback is called once per failed catalog lookup", "statement": "For every translation request the missing callback receives exactly the errors of the languages in the fallback chain that lack the message, once each, and nothing when the translation exists.", "quantifier": "every bundle, every request", "why_tests_cant": "Counting effects over all fallback configurations (including locale = fallback).", "anchors": ["locale.go", "localizer.go", "bundle.go:WithMissingTranslationCallback"]}
{"id": "C37", "title": "All Get variants are special cases of one lookup", "statement": "Get, DGet, NGet, DNGet, PGet, DPGet, NPGet, DNPGet and their f-forms, and Localize with a corresponding message, return the same text as the most general lookup with default domain, empty context and no arguments filled in.", "quantifier": "every localizer and every argument combination", "why_tests_cant": "Relational property between all variants.", "anchors": ["localizer.go", "utils.go", "localize"]}
{"id": "C38", "title": "The source language prints the message text itself", "statement": "With the source language active, singular lookups print the given text, plural lookups print the singular for form 0 (or when no plural text is given) and the plural text otherwise; no catalog is consulted and no error is reported.", "quantifier": "every message text and every number", "why_tests_cant": "All messages and numbers.", "anchors": ["locale.go:printSourceMessage", "bundle.go"]}
{"id": "C39", "title": "Bundle options commute", "statement": "The order in which options are passed to NewBundle does not influence the source language, fallback language, loaders, printer or callbacks (each set once); languages keep their relative order.", "quantifier": "every permutation of an option list", "why_tests_cant": "All permutations of unbounded option lists.", "anchors": ["bundle.go:NewBundle"]}
{"id": "C40", "title": "NewBundle fails exactly when a required catalog cannot be loaded", "statement": "NewBundle succeeds iff all options are valid, every required language has its catalogs and every optional language's catalog either loads or does not exist; afterwards each loaded (language, domain) pair is backed by exactly one load and the source language by none.", "quantifier": "every list of required/optional languages and domains and every loader behaviour", "why_tests_cant": "All loader outcomes.", "anchors": ["bundle.go:NewBundle", "bundle.go:loadLanguages"]}
{"id": "C41", "title": "Catalog files are resolved in a fixed priority order", "statement": "The file loader opens the first existing candidate in the order given by decoder order and, within it, language expansion (most specific first) and path pattern; it reports not-found iff no candidate exists, and any other error aborts.", "quantifier": "every file system state, language, domain and category", "why_tests_cant": "All file-system states.", "anchors": ["loader.go", "utils.go:ExpandLanguage"]}
{"id": "C42", "title": "Language expansion lists are duplicate free and most specific first", "statement": "Expanding a language tag yields a list without duplicates, ordered by decreasing length (ties by text), which contains the tag in hyphen and underscore spelling and its base language.", "quantifier": "every language tag", "why_tests_cant": "All tags.", "anchors": ["utils.go:ExpandLanguage"]}
{"id": "C43", "title": "Leap-day counting is exact", "statement": "The number of leap days between two years equals the number of Gregorian leap years in the half-open interval, and days-in-month follows the Gregorian calendar.", "quantifier": "every pair of years, every month", "why_tests_cant": "All year pairs.", "anchors": ["internal/calendar/calendar.go"]}
{"id": "C44", "title": "TimeSince decomposes the interval greedily into units", "statement": "The listed units are in descending order, at most depth many, adjacent unless the check is disabled, with positive counts; their total never exceeds the interval and the remainder is smaller than the next displayed unit. An interval of less than a minute (or a negative one) shows 0 minutes.", "quantifier": "every pair of instants, every depth and option combination", "why_tests_cant": "All intervals.", "anchors": ["humanize/date.go:TimeSince"]}
{"id": "C45", "title": "Ordinals, small numbers and file sizes pick the right template", "statement": "Ordinal chooses the English suffix class of the number (11, 12, 13 special, otherwise last digit), Apnumber spells exactly 1 to 9, and FilesizeFormat uses the largest binary unit that is not larger than the size; none of them fails for any number.", "quantifier": "every integer of every size", "why_tests_cant": "All integers, including the extremes of the float64-to-int64 conversion.", "anchors": ["humanize/numbers.go:Ordinal", "humanize/numbers.go:Apnumber", "humanize/helper.go:FilesizeFormat"]}
{"id": "C46", "title": "NaturalTime never shows a count of zero", "statement": "For every past or future instant NaturalTime shows either `now` or a positive number of seconds, minutes, hours (or a longer unit), and that number is the elapsed time divided by the unit.", "quantifier": "every distance between the instant and the current time, at nanosecond resolution", "why_tests_cant": "The distances are nanosecond values around unit boundaries; tests use round numbers.", "anchors": ["humanize/date.go:NaturalTime"]}
{"id": "C47", "title": "Time format letters render exact calendar fields", "statement": "For every format string, each letter is replaced by the corresponding field of the time, escaped characters and all other characters are copied, and the rendering of a concatenation is the concatenation of the renderings unless the split falls inside an escape.", "quantifier": "every format string and every time", "why_tests_cant": "All format strings.", "anchors": ["humanize/dateformat.go:format"]}
{"id": "C48", "title": "Decoding a PO string follows the escape table", "statement": "The text decoded from quoted PO source is the one the PO escapes denote: each escape letter stands for its character, every other character for itself, and the lines are concatenated; a source has only one meaning.", "quantifier": "every sequence of quoted lines, every body", "why_tests_cant": "All strings of all lengths; an escape at a line end or next to a multi-byte character is easily missed.", "anchors": ["catalog/po/po_string.go:DecodePoString", "catalog/po/po_string.go:unescapePoBytes"]}
{"id": "C49", "title": "Ignoring comments keeps messages and flags", "statement": "Parsing a PO file with ignored comments gives the same outcome, the same messages and header fields as parsing it with comments, and keeps the flags.", "quantifier": "every PO file text", "why_tests_cant": "The scanner skips lines before the parser sees them, so every interleaving of comment and message lines matters.", "anchors": ["catalog/po/parser.go:Parse", "catalog/po/scanner.go:scan"]}
{"id": "C50", "title": "Lookup errors name what was asked for", "statement": "The error of a failed catalog lookup names the language and the domain of the catalog and the context and message id of the request (and the form or category, if the translation is missing).", "quantifier": "every catalog (gettext and JSON) and every failing lookup", "why_tests_cant": "Tests compare error types and texts for a few requests.", "anchors": ["catalog/catalog.go", "catalog/po.go:getMessage", "catalog/json.go:getTranslation"]}
{"id": "C51", "title": "Decoders return a catalog or an error", "statement": "Every decoder returns either an error or a catalog whose lookups return without panicking.", "quantifier": "every input file for every decoder", "why_tests_cant": "All file contents; a single unusual value such as a JSON null is enough to break it.", "anchors": ["catalog/json_decoder.go:Decode", "catalog/po_decoder.go:Decode"]}
{"id": "C52", "title": "Language names are read without encoding and modifier", "statement": "A language given as text is parsed from the part before the first ':', '@' or '.', without surrounding space.", "quantifier": "every text", "why_tests_cant": "Which of the three separators comes first, and how often, varies freely.", "anchors": ["utils.go:parseLanguageName"]}
{"id": "C53", "title": "Whole years between the same dates are shown as whole years", "statement": "If two instants have the same date and time of day, k years apart, TimeSince shows k years: the leap-day correction removes the leap days in between and no more.", "quantifier": "every date and every number of years", "why_tests_cant": "The correction depends on which of the two years is a leap year and on the date; tests look at a few pairs.", "anchors": ["humanize/date.go:TimeSince", "internal/calendar/calendar.go:LeapDays"]}
{"id": "C54", "title": "NaturalDay names the right day", "statement": "NaturalDay says today, tomorrow or yesterday exactly for times whose date (in the location of the time) is the current date, the next or the previous one; all other times are shown in the date format.", "quantifier": "every time, every current time, every location", "why_tests_cant": "The comparison divides a float64 number of hours by 24; all dates, offsets and days of 23 or 25 hours matter.", "anchors": ["humanize/date.go:NaturalDay"]}
{"id": "C55", "title": "Intword picks the unit that fits", "statement": "Intword shows values from a million up to the largest unit with the unit whose multiple is at least 1 and below 1000, with the plural number of that multiple; smaller values are shown with Intcomma; no input makes it panic.", "quantifier": "every number up to 10^100 and beyond, including infinities and NaN", "why_tests_cant": "The unit depends on float64 comparisons over a hundred orders of magnitude.", "anchors": ["humanize/numbers.go:Intword"]}
{"id": "C56", "title": "Predefined formats are complete and selected by language", "statement": "The predefined formats of a humanizer are never empty; the keywords select exactly their formats; the formats are those of the last locale registered for the chosen language, or the fallback.", "quantifier": "every list of locales with any formats missing, every keyword and every other format string", "why_tests_cant": "Any subset of formats may be missing and locales may be registered repeatedly.", "anchors": ["humanize/humanizer.go:New", "humanize/humanizer.go:CreateHumanizer", "humanize/humanizer.go:setDefaults", "humanize/date.go:FormatTime"]}
{"id": "C57", "title": "What the file says is what is shown", "statement": "A localizer for a language whose PO or MO file was chosen by the file loader shows exactly the translations of that file: the singular text, and for plural requests the form given by the file's own rule or by the language's CLDR rule; a message without translation is shown in the source language and reported. If every requested language has such a file, creating the bundle succeeds.", "quantifier": "every file text in the format, every layout of the directory, every set of options, every number and every message", "why_tests_cant": "It composes loader, parser, plural rules, catalog, locale and bundle; the product of all their inputs cannot be sampled.", "anchors": ["bundle.go:NewBundle", "loader.go:FilesystemLoader.Load", "catalog/po_decoder.go:Decode", "locale.go:lookupSingularTranslation", "locale.go:lookupPluralTranslation"]}
{"id": "C58", "title": "Errors while reading a file are reported", "statement": "If reading a chosen file fails before its end, loading the catalog fails; a truncated catalog is never used.", "quantifier": "every file, every position of the error and every decoder", "why_tests_cant": "I/O errors in the middle of a file are hard to provoke and every position matters.", "anchors": ["loader.go:loadFromFile", "catalog/po/scanner.go:scan", "catalog/po_decoder.go:DecodeReader"]}
{"id": "C59", "title": "The generated rule files compute the rules they quote", "statement": "The two generated source files (builtin_gen.go), read as Go, compile, and for every header and every language the function they return computes the C value of the gettext header, or the category of the CLDR conditions, that the file quotes for it.", "quantifier": "every header text, every language name, every number, every set of non-negative operands (n an integer or more than 10^-6 away from every integer)", "why_tests_cant": "The files have thousands of lines of conditions; a single wrong bound shows only for some numbers of some language.", "anchors": ["catalog/poplural/builtin_gen.go:getBuiltInForRawRule", "catalog/poplural/builtin_gen.go:getBuiltInForLanguage", "catalog/cldrplural/builtin_gen.go:getBuiltInForLanguage"]}
{"id": "C60", "title": "The gettext rule generator writes what the header says", "statement": "For every Plural-Forms header the generator accepts, the Go text it writes compiles and computes the C value of the header; the committed builtin_gen.go is what the generator writes for the headers it quotes.", "quantifier": "every header text, every number", "why_tests_cant": "The generator has only been run on the headers of one input file; headers are unbounded expressions.", "anchors": ["catalog/poplural/generator/compiler.go:compileForms", "catalog/poplural/generator/compiler.go:compileNode", "catalog/poplural/generator/compiler.go:compileBinaryPluralNode", "catalog/poplural/generator/compiler.go:newRuleData"]}
{"id": "C61", "title": "The CLDR rule generator writes what the conditions say", "statement": "For every plural rule of the CLDR grammar the generator writes a Go condition that compiles and is true exactly when the rule holds; the function written for a set of rules returns the category they choose; the committed builtin_gen.go is what the generator writes for the conditions it quotes.", "quantifier": "every rule text, every set of rules and samples, every set of non-negative operands (n an integer or more than 10^-6 away from every integer)", "why_tests_cant": "The generator has only been run on one version of the CLDR data; conditions are unbounded and parenthesisation depends on a search in the text written so far.", "anchors": ["catalog/cldrplural/generator/compiler.go:compileNode", "catalog/cldrplural/generator/main.go:ConvertToGo", "catalog/cldrplural/generator/json.go:WithoutExamples", "catalog/cldrplural/builtin_gen.go:getBuiltInForLanguage"]}
{"id": "C62", "title": "An argument of any type counts as the number it stands for", "statement": "Integers of every kind, floats, complex numbers (their real part), named types, strings in the notation of Go for floating-point numbers and pointers to all of these are converted to the number they stand for; nil and values that are no number are reported as errors; the conversion ends. Plural forms and CLDR operands are those of that number.", "quantifier": "every value, every memory of pointers of any depth, every integer up to 2^53 and every literal of any length with an exponent below 100000", "why_tests_cant": "The argument is of type any: types, pointer chains and texts are unbounded.", "anchors": ["internal/cast/number.go:ToNumber", "internal/cast/number.go:Indirect", "catalog/poplural/rule.go:Evaluate", "catalog/cldrplural/cldr.go:NewOperands"]}
{"id": "C63", "title": "An argument of any type counts as the time it stands for", "statement": "A time is itself, a duration counts from now, a number counts as Unix seconds (fractions are cut off), through any chain of pointers; nil and values that are no number are reported as errors; NaturalTime, TimeSince and TimeUntil answer for that time.", "quantifier": "every value, every memory of pointers of any depth, every clock", "why_tests_cant": "The argument is of type any, and the clock cannot be controlled by a test.", "anchors": ["internal/cast/time.go:ToTime", "humanize/date.go:NaturalTime", "humanize/date.go:TimeSince", "humanize/date.go:TimeUntil"]}
{"id": "C64", "title": "The generators give every language its own rules", "statement": "In the files written by the two generators a language, by its name in the data or by the name the language package gives it, gets the categories or number of forms and the function of its own rules; other names get nothing; no name is a case of two entries; the files do not depend on the order in which the maps of the data are iterated.", "quantifier": "every set of languages with rules, every order of iteration, every checksum without collisions, every naming of languages", "why_tests_cant": "Go randomises the order of map iteration; the generators were run on one data file that is not in the repository.", "anchors": ["catalog/cldrplural/generator/main.go:main", "catalog/cldrplural/generator/json.go:hash", "catalog/cldrplural/generator/json.go:ToData", "catalog/cldrplural/generator/json.go:Name", "catalog/poplural/generator/json.go:readJSONRules", "catalog/poplural/generator/main.go:main"]}
{"id": "C65", "title": "A JSON catalog is written as JSON and read as JSON", "statement": "The reader accepts exactly the texts of the JSON grammar and gives the value they stand for, once; everything else is an error and reading always ends. The encoder writes JSON in UTF-8 that stands for the messages of the catalog; a catalog that is written and read back answers every lookup alike.", "quantifier": "every byte sequence, every value of any depth, every catalog of a built-in language, every order of map iteration", "why_tests_cant": "Files are arbitrary bytes, values nest to any depth, and escapes, surrogates and damaged UTF-8 combine without bound.", "anchors": ["catalog/json_encoder.go:Encode", "catalog/json_decoder.go:Decode", "catalog/json.go:MarshalJSON", "catalog/json.go:UnmarshalJSON"]}
{"id": "C66", "title": "A JSON catalog answers what its file says", "statement": "Decoding any bytes ends without panic in a catalog or an error; a file is accepted exactly if it is a JSON object with at least one message whose messages are all well formed; every lookup then answers with the text the file gives for that name, context and plural category, the last member of a name counting.", "quantifier": "every byte sequence, every lookup and number, every order of map iteration", "why_tests_cant": "The bytes of the file are unbounded; decoding iterates over Go maps in random order.", "anchors": ["catalog/json_decoder.go:Decode", "catalog/json.go:UnmarshalJSON", "catalog/json.go:setMessage", "catalog/json.go:Lookup", "catalog/json.go:LookupPlural"]}
{"id": "C67", "title": "A PO file built message by message gathers what was added", "statement": "Adding messages to a new file gives one entry for every context and id; the entry has exactly the flags, references and comment lines of all messages added for it, independent of the order; flags and references of a comment stay sorted; the placeholder header has its values in the right fields and is written and read back unchanged; the text of a reference tells path, line and column.", "quantifier": "every list of messages in every order, every flag and reference, every package, holder and address without control characters", "why_tests_cant": "The extractor adds messages in the order in which packages are loaded; lists and texts are unbounded.", "anchors": ["catalog/po/file.go:AddMessage", "catalog/po/file.go:PlaceholderHeader", "catalog/po/message.go:Merge", "catalog/po/message.go:AddReference", "catalog/po/comment.go:AddFlag", "catalog/po/comment.go:AddReference", "catalog/po/encoder.go:Marshal"]}
{"id": "C68", "title": "The translations that come with humanize are found for every number", "statement": "Every PO file of the 97 locale packages is read; every choice of packages makes a collection with all their languages; a translated text is shown in its translation without a call of the missing-translation callback, a translated plural text for every number: the rule of the file never selects a form that the file does not have. The plural texts that humanize asks for are those examined.", "quantifier": "every choice and order of packages, every language, every message of every file, every number, every order of map iteration", "why_tests_cant": "The tests try a few numbers in a few languages; whether a form exists depends on the rule of the file and the number.", "anchors": ["humanize/locale.go:Load", "humanize/locale.go:newLoader", "humanize/humanizer.go:New", "humanize/locale/he/django.po"]}
{"id": "C69", "title": "The translations that come with humanize keep the directives", "statement": "A translation in the shipped PO files has only format directives of the text or plural text that it translates, none more often; the texts for large numbers keep the number.", "quantifier": "every translation of every file of the 97 packages", "why_tests_cant": "No test reads the translations; the formats are only used when the text is shown.", "anchors": ["humanize/locale/be/django.po", "humanize/locale/he/django.po", "humanize/numbers.go:Intword"]}
{"id": "C70", "title": "A locale package brings the language it is named after", "statement": "Every package registers the language after which it is named, and no two packages register the same language, so that choosing packages never hides one behind another.", "quantifier": "all packages, every choice and order of packages", "why_tests_cant": "Tests choose one or two packages; that two of them collide is only seen when both, or the wrong one, are chosen.", "anchors": ["humanize/locale/lt/locale.go:New", "humanize/locale.go:newLoader"]}
{"id": "C71", "title": "The predefined date formats show what they are named for", "statement": "For every choice of packages and every language, the seven predefined formats have letters for year, month, day, hour and minute as their names say.", "quantifier": "every choice of packages, every language, every predefined format", "why_tests_cant": "Tests format single dates in single languages.", "anchors": ["humanize/date.go:FormatTime", "humanize/humanizer.go:New", "humanize/locale/vi/locale.go:New"]}
{"id": "C72", "title": "What a localizer shows is what the JSON file says", "statement": "A bundle whose loader finds a JSON file for a language and domain shows, for a message of the file, its text as it stands there, for a plural request the text of the CLDR category of the number, without callback or error; for a text that the file lacks the source text is shown and the callback is told; NewBundle succeeds if all files are acceptable and no localizer of the language exists otherwise.", "quantifier": "every file, every file system, list of decoders and options, every language, message, context and number, every order of map iteration", "why_tests_cant": "The path leads through the file loader, the JSON reader, the CLDR rules, the catalog, the locale and the bundle; only single files are tested.", "anchors": ["bundle.go:NewBundle", "loader.go:Load", "catalog/json_decoder.go:Decode", "catalog/json.go:getTranslation", "localizer.go:lookupPluralTranslation"]}
{"id": "C73", "title": "The plural rules of a language exclude each other", "statement": "For every numeral at most one condition of a language holds, so that the category is the one whose condition holds, whatever the order in which the rules are listed, parsed or tried, and Other if and only if none holds.", "quantifier": "every built-in language, every decimal numeral, every order of the rules", "why_tests_cant": "The rules are a map whose iteration order is random; tests try samples of each category, not the overlap of two conditions.", "anchors": ["catalog/cldrplural/builtin_gen.go", "catalog/cldrplural/evaluation.go:ParseRules", "catalog/cldrplural/cldr.go"]}
{"id": "C74", "title": "Languages are named in the language of the humanizer", "statement": "For every code of the table LanguageNameByCode gives the translation of the English name, the English name if the file has none, and nothing for other codes; every known language has its name translated where the file knows it, and different languages have different names.", "quantifier": "every choice of shipped packages, every language, every code", "why_tests_cant": "The table of names and the translation files are kept separately; no test compares them.", "anchors": ["humanize/helper.go:LanguageNameByCode", "humanize/helper_table.go:LocaleInfos", "humanize/locale/sv/django.po"]}
{"id": "C75", "title": "Bundles and localizers tell the truth about themselves", "statement": "Domains, SupportedLanguages, CanLocalize and IsLanguageSupported of a bundle and HasDomain, Domains, HasLocale, Language and DefaultDomain of a localizer agree with what the loaders give and with how requests are answered: exactly the domains and languages with a catalog are listed, each once; a request is refused for its domain exactly if HasDomain says no; without a locale every request has an error; IsLanguageSupported predicts HasLocale.", "quantifier": "every list of options, every loader, every matcher, every localizer and every request", "why_tests_cant": "Options, languages, domains and requests are unbounded, and loaders and matchers are supplied by the user; map iteration order is random.", "anchors": ["bundle.go:Domains", "bundle.go:CanLocalize", "bundle.go:SupportedLanguages", "bundle.go:IsLanguageSupported", "localizer.go:HasDomain", "localizer.go:Domains", "localizer.go:HasLocale", "localizer.go:DefaultDomain", "localizer.go:Language"]}
{"id": "C76", "title": "Wrapping the texts of a PO file", "statement": "EncodePoString with a positive width writes lines that together are the text, with no word cut; no line is longer than the width unless it is a single word; a line is broken only at a line feed of the text or where the next word with its white space would not fit.", "quantifier": "every text, every positive width", "why_tests_cant": "Texts and widths are unbounded; the tests wrap a handful of sentences at one or two widths.", "anchors": ["catalog/po/po_string.go:encodePoStringWithWrap", "catalog/po/po_string.go:EncodePoString", "internal/util/string_buffer.go"]}
{"id": "C77", "title": "Floats get the CLDR operands of their decimal value", "statement": "A float argument gets the plural operands of the shortest decimal numeral that denotes it: n its absolute value, i the integer part, v and w the number of fraction digits, f and t these digits, c zero.", "quantifier": "every finite float64", "why_tests_cant": "There are 2^64 floats; the way fmt prints them (full or with an exponent) changes at magnitudes tests do not reach.", "anchors": ["catalog/cldrplural/cldr.go:NewOperands", "catalog/cldrplural/cldr.go:newOperandsString"]}
{"id": "C78", "title": "A message is fitted to the plural categories of a language", "statement": "ApplyPluralCategoriesToJSONMessage gives the message exactly the plural categories of the rules of the language (its own, those of its nearest relative, else English), keeping texts that are there and adding empty ones, and leaves a message with only the text Other as it is; comment, context and messages that do not share its translations stay; doing it again changes nothing; a catalog of fitted messages answers as one of the messages before.", "quantifier": "every language, every message in every memory, every order of map iteration", "why_tests_cant": "Which messages share a map and in which order Go iterates over it varies from run to run; languages form a tree of unbounded depth.", "anchors": ["catalog/json.go:ApplyPluralCategoriesToJSONMessage", "catalog/json.go:applyPluralCategories"]}
{"id": "C79", "title": "Reading JSON into a message gives the message of the text", "statement": "UnmarshalJSON makes a message the one that the JSON text describes, whatever it held before; a text that describes none is an error; messages that do not share its translations are not touched.", "quantifier": "every JSON value, every message in every memory, every order of map iteration", "why_tests_cant": "Reused messages, shared maps and iteration order do not show up in tests that decode into fresh values.", "anchors": ["catalog/json.go:UnmarshalJSON"]}
{"id": "C80", "title": "Writing a message as JSON does not change it", "statement": "MarshalJSON writes what the message holds and leaves the message, its translations and all other messages as they are.", "quantifier": "every message in every memory", "why_tests_cant": "Tests look at the text that is written, not at the message afterwards.", "anchors": ["catalog/json.go:MarshalJSON"]}
{"id": "C81", "title": "The generated gettext tests use exactly the examples of the data", "statement": "From the lists of examples of a language the gettext generator takes, for every plural form, exactly the numerals listed for the case of that form: single numbers, numbers with a power of ten, all numbers of a range, up to the omission at the end; whatever the order in which the cases are met.", "quantifier": "every list of examples, every list of cases, every order of iteration", "why_tests_cant": "The examples are the input of the tests; an example lost or assigned to the wrong form leaves the tests green or makes them check something else.", "anchors": ["catalog/poplural/generator/json.go:extractExamples", "catalog/poplural/generator/json.go:Name", "catalog/poplural/generator/main.go:main"]}
{"id": "C82", "title": "What the JSON file says is what is shown", "statement": "A localizer for a language whose JSON file was chosen by the file loader shows exactly the texts of that file: the text of category other for singular requests, that of the number's CLDR category for plural requests; a message without such a text is shown in the source language and reported with its reason. Creating the bundle succeeds if every requested language has an acceptable file, and fails if one has an unacceptable file.", "quantifier": "every file, every layout of the directory, every set of options, every number and every message, every order of map iteration", "why_tests_cant": "It composes loader, JSON decoder, plural rules, catalog, locale and bundle; the product of all their inputs cannot be sampled.", "anchors": ["bundle.go:NewBundle", "loader.go:FilesystemLoader.Load", "catalog/json_decoder.go:Decode", "catalog/json.go:getTranslation", "locale.go:lookupSingularTranslation", "locale.go:lookupPluralTranslation"]}
{"id": "C83", "title": "A PO file is only accepted if each of its lines is understood", "statement": "In every PO file that the parser accepts each line is blank, a comment, a keyword (msgctxt, msgid, msgid_plural, msgstr, msgstr[n]) with its string, a string that continues one, or the previous text of a #| comment or its continuation; a file with any other line is an error, so no text is dropped because of a spelling mistake.", "quantifier": "every file, every position of the line, comments read or ignored", "why_tests_cant": "Tests try some malformed lines; the combinations of malformed lines with what stands before them are unbounded.", "anchors": ["catalog/po/scanner.go:scan", "catalog/po/scanner.go:scanMessage", "catalog/po/scanner.go:scanComment", "catalog/po/parser.go:parseMessage", "catalog/po/parser.go:parseComment"]}
{"id": "C84", "title": "A PO parser can be used again", "statement": "After any number of calls of Parse, with files and with errors, and of SetIgnoreComments, a parser gives for every content the same file or the same error as a new parser with the same setting; files that it returned earlier are not changed.", "quantifier": "every history of calls, every content", "why_tests_cant": "What is left in a parser depends on all inputs it was given; tests make a new parser for each input.", "anchors": ["catalog/po/parser.go:Parse", "catalog/po/parser.go:reset", "catalog/po/parser.go:scan", "catalog/po/parser.go:unscan", "catalog/po/parser.go:parseFile", "catalog/po/scanner.go:scan", "catalog/po/scanner.go:scanWhitespace", "catalog/po/scanner.go:read"]}
{"id": "C85", "title": "Errors of the PO parser name the line they are about", "statement": "An error of the PO parser that names a line names the one it is about: a line that is not understood by its number and its text, and it is the first such line; an entry that is there already or a second header by a line of that entry.", "quantifier": "every file, comments read or ignored", "why_tests_cant": "The line named depends on what the parser has read ahead and put back; tests look at whether there is an error.", "anchors": ["catalog/po/parser.go:buildPosError", "catalog/po/parser.go:parseMessage", "catalog/po/parser.go:parseComment", "catalog/po/parser.go:parseFile", "catalog/po/scanner.go:read", "catalog/po/scanner.go:currentLine"]}
