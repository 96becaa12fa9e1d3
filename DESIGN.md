# Formal model of vorlif/spreak: design

Prover: Rocq/Coq 8.16.1, standard library only.  Everything lives in
`rocq/theories` (logical path `Verif`).  `/repo` is read as text; nothing of it
is built or run.

## Kinds of files

* `Base.v`, `Utf8Model.v`, `StrModel.v`, `ReModel.v`, `F64Model.v`,
  `FltModel.v`, `NumModel.v`: the Go substrate (byte strings, UTF-8 with Go's
  error rune, string functions, regular expressions, float64).
* `*Model.v`: the code, function by function.  Every definition cites file and
  lines and says where it simplifies.  No proofs.
* `*Builtin.v`, `CldrRules.v`: generated tables, transcribed from
  `builtin_gen.go`.
* `*Spec.v`: small specifications that do not use the functions of the model
  (C semantics of plural expressions, UTS #35 operands and rules, the line
  grammar of PO files, the MO layout, catalog answers, calendar, ...).
* `*Proofs.v`: lemmas.
* `Theorems*.v`: the property theorems `Cnn_...`, concrete instances that meet
  their hypotheses, and one `Print Assumptions` per theorem.

## Conventions

* A Go call has one of the outcomes `Ok`, `Err`, `Panic`, `OutOfFuel`.  Fuel is
  explicit: totality theorems say that the last two do not occur, or exhibit an
  input on which they do.
* Go strings are `list ascii`.  `int64` values are `Z`; wrap-around is modelled
  where it can be observed.  float64 values are exact rationals with rounding
  to nearest even made explicit.
* Go maps are association lists.  Where Go iterates over a map, the order is a
  parameter and theorems quantify over all of them.
* Pointers matter in one place only (independent copies of JSON messages);
  `JsonHeapModel.v` has an explicit memory for that.
* External code enters as Section variables or as data (see below), never as an
  axiom.
* A theorem named `..._partial` proves a part; the comment says what is missing.
  A theorem named `..._refuted` has a witness against the property as stated in
  `properties.jsonl`.  Together they say where the code departs from it.

## Properties

| id | property | method | status |
|----|----------|--------|--------|
| C01 | Built-in gettext plural rules compute their own Plural-Forms header | parse each key by computation; equality for all n by case analysis on comparisons, remainders kept abstract | proved |
| C02 | Built-in plural form index is always a declared form | case analysis over the tables | proved |
| C03 | A parsed Plural-Forms expression means what C means | soundness of the recursive-descent parser for a C grammar relation; induction on fuel | proved (with refuted corner cases) |
| C04 | Plural-Forms parser accepts every expression of its grammar | completeness by induction on the derivation, fuel monotone | proved |
| C05 | Plural-Forms parsing terminates without panic | fuel bound from the length of the input | proved |
| C06 | Recognising a built-in rule never changes the meaning of a header | printing is injective up to meaning on the plain fragment; witness outside | partial (with refuted corner cases) |
| C07 | Integer arguments select the plural form of exactly that number | float64 rounding is exact up to 2^53; witness above | partial (with refuted corner cases) |
| C08 | Plural rule lookup for a language always yields a rule and falls back to English | induction on the parent chain | proved |
| C09 | Built-in CLDR rules agree with the CLDR rule text | rule ASTs for the texts; equality for all operands | partial (with refuted corner cases) |
| C10 | CLDR evaluation always returns a category of the language | case analysis | proved |
| C11 | CLDR operands of a decimal string follow UTS #35 | induction on digit strings; case analysis over kinds of arguments | partial (with refuted corner cases) |
| C12 | Equal numbers get equal CLDR operands whatever Go type carries them | induction on digit strings; case analysis over kinds of arguments | partial (with refuted corner cases) |
| C13 | Parsed CLDR rules are independent of map iteration order | permutation argument | partial (with refuted corner cases) |
| C14 | CLDR rule parser and evaluator implement the CLDR rule grammar | scanner and parser refined to an inductive grammar of words, tokens and rules, both directions | partial (with refuted corner cases) |
| C15 | CLDR rule parsing and evaluation never panic or hang | runs of the scanner state; sound and complete for the set of hanging texts; witnesses for panics and hangs | partial (with refuted corner cases) |
| C16 | PO string encoding round-trips | induction on the text | proved |
| C17 | PO string encoding is total | induction on the text | partial (with refuted corner cases) |
| C18 | PO string decoding is total | induction on the text | partial (with refuted corner cases) |
| C19 | Encoded PO strings are well-formed PO source | induction on the text | proved |
| C20 | Word wrapping keeps the words | loop invariant over words and lines | partial (with refuted corner cases) |
| C21 | Writing and re-reading a PO file preserves it | writer produces a layout of the line grammar, reader inverts every layout | partial (with refuted corner cases) |
| C22 | PO parsing terminates without panic | induction over lines and blocks; the parser as an automaton over tokens, fuel monotonicity | partial (with refuted corner cases) |
| C23 | The PO parser never loses a message silently | induction over lines and blocks; invariant of the fields (any layout) | partial (with refuted corner cases) |
| C24 | Duplicate definitions in a PO file are an error | induction over lines and blocks; invariant of the fields (any layout) | partial (with refuted corner cases) |
| C25 | PO header fields behave like a case-insensitive map | refinement to a case-insensitive map | partial (with refuted corner cases) |
| C26 | Merging comments is a set union | list and order arguments; refuted by witnesses outside | partial (with refuted corner cases) |
| C27 | PO output order is deterministic | list and order arguments; refuted by witnesses outside | partial (with refuted corner cases) |
| C28 | MO files round-trip in both byte orders | reading at offsets refines the layout predicate | proved |
| C29 | MO parsing reads only what the file contains | reading at offsets refines the layout predicate | partial (with refuted corner cases) |
| C30 | Gettext catalog lookups return exactly the stored translation | refinement of the maps to the list of messages | proved |
| C31 | Plural lookup uses the form chosen by the catalog's rule | refinement of the maps to the list of messages | partial (with refuted corner cases) |
| C32 | Messages of a catalog can be exported as an independent copy | refinement of the maps to the list of messages | partial (with refuted corner cases) |
| C33 | JSON catalogs are independent of key order | permutation argument; round trip on values | partial (with refuted corner cases) |
| C34 | JSON messages survive a marshal/unmarshal round trip | permutation argument; round trip on values | partial (with refuted corner cases) |
| C35 | Lookups follow the fallback chain and never fail | case analysis over the language chain, with a log of events | proved |
| C36 | The missing-translation callback is called once per failed catalog lookup | case analysis over the language chain, with a log of events | partial (with refuted corner cases) |
| C37 | All Get variants are special cases of one lookup | case analysis over the language chain, with a log of events | proved |
| C38 | The source language prints the message text itself | case analysis over the language chain, with a log of events | partial (with refuted corner cases) |
| C39 | Bundle options commute | invariant over options and requests, all iteration orders | partial (with refuted corner cases) |
| C40 | NewBundle fails exactly when a required catalog cannot be loaded | invariant over options and requests, all iteration orders | partial (with refuted corner cases) |
| C41 | Catalog files are resolved in a fixed priority order | induction over candidates; text lemmas | partial (with refuted corner cases) |
| C42 | Language expansion lists are duplicate free and most specific first | induction over candidates; text lemmas | partial (with refuted corner cases) |
| C43 | Leap-day counting is exact | induction on years, float64 exactness | partial (with refuted corner cases) |
| C44 | TimeSince decomposes the interval greedily into units | loop invariant with rounded quotients | partial (with refuted corner cases) |
| C45 | Ordinals, small numbers and file sizes pick the right template | float64 bounds, case analysis | partial (with refuted corner cases) |
| C46 | NaturalTime never shows a count of zero | float64 bounds, case analysis | partial (with refuted corner cases) |
| C47 | Time format letters render exact calendar fields | induction on the format; day arithmetic | partial (with refuted corner cases) |
| C48 | Decoding a PO string follows the escape table | induction on the text | proved |
| C49 | Ignoring comments keeps messages and flags | induction over lines and blocks | partial (with refuted corner cases) |
| C50 | Lookup errors name what was asked for | case analysis | partial (with refuted corner cases) |
| C51 | Decoders return a catalog or an error | case analysis | partial (with refuted corner cases) |
| C52 | Language names are read without encoding and modifier | induction over candidates; text lemmas | proved |
| C53 | Whole years between the same dates are shown as whole years | loop invariant with rounded quotients | partial (with refuted corner cases) |
| C54 | NaturalDay names the right day | induction on the format; day arithmetic | partial (with refuted corner cases) |
| C55 | Intword picks the unit that fits | float64 bounds, case analysis | partial (with refuted corner cases) |
| C56 | Predefined formats are complete and selected by language | induction on the format; day arithmetic | proved |
| C57 | What the file says is what is shown | composition of C21-C31, C35-C42 | partial (with refuted corner cases) |
| C58 | Errors while reading a file are reported | case analysis; witness | partial (with refuted corner cases) |
| C59 | The generated rule files compute the rules they quote | computation on the source text; all numbers and operands by case analysis | proved |
| C60 | The gettext rule generator writes what the header says | induction over expressions and the written text, parsing relation for Go; computation for the file | partial (with refuted corner cases) |
| C61 | The CLDR rule generator writes what the conditions say | induction over conditions and the written text, parsing relation for Go; computation for the file | partial (with refuted corner cases) |
| C62 | An argument of any type counts as the number it stands for | induction on the chain of pointers, on the digits and on the text; witnesses | partial (with refuted corner cases) |
| C63 | An argument of any type counts as the time it stands for | induction on the chain of pointers; arithmetic; witnesses | partial (with refuted corner cases) |
| C64 | The generators give every language its own rules | invariant of the fold over the languages; uniqueness of sorted arrangements; decoding of names; witnesses | partial (with refuted corner cases) |
| C65 | A JSON catalog is written as JSON and read as JSON | inductive grammar; soundness and completeness by mutual induction with fuel bound; induction over the written text; witnesses | partial (with refuted corner cases) |
| C66 | A JSON catalog answers what its file says | composition of the grammar, the decoder and the lookup theorems; witnesses | partial (with refuted corner cases) |
| C67 | A PO file built message by message gathers what was added | invariant of the fold over the added messages; uniqueness of sorted arrangements; writer round trip; witnesses | partial (with refuted corner cases) |
| C68 | The translations that come with humanize are found for every number | verified checker run on the shipped files in the kernel: bound of a rule for all numbers, forms below the bound; composition with the lookup theorems; witnesses | partial (with refuted corner cases) |
| C69 | The translations that come with humanize keep the directives | verified checker run on the shipped files; witnesses | partial (with refuted corner cases) |
| C70 | A locale package brings the language it is named after | evaluation over all packages; induction over the chosen packages; witnesses | partial (with refuted corner cases) |
| C71 | The predefined date formats show what they are named for | evaluation over all formats, tokenizer proved right; induction over the chosen packages; witness | partial (with refuted corner cases) |
| C72 | What a localizer shows is what the JSON file says | composition of the file, loader, rule, catalog and bundle theorems | partial (with refuted corner cases) |
| C73 | The plural rules of a language exclude each other | arithmetic (residues) for every pair of conditions, lifted from integers to rational operands; induction over rule lists; witness | partial (with refuted corner cases) |
| C74 | Languages are named in the language of the humanizer | evaluation of the table and two files; composition with the loader, catalog and bundle theorems; witnesses | partial (with refuted corner cases) |
| C75 | Bundles and localizers tell the truth about themselves | invariant of bundle creation (C40); case analysis of the lookups; witnesses | partial (with refuted corner cases) |
| C76 | Wrapping the texts of a PO file | loop invariant over words, gaps and lines; witness | partial (with refuted corner cases) |
| C77 | Floats get the CLDR operands of their decimal value | case analysis on the printed form; search for the shortest decimal with grid and gap lemmas; witnesses | partial (with refuted corner cases) |
| C78 | A message is fitted to the plural categories of a language | refinement to the functional model; C11, C33 | proved |
| C79 | Reading JSON into a message gives the message of the text | case analysis on the JSON value over the memory; witness | partial (with refuted corner cases) |
| C80 | Writing a message as JSON does not change it | case analysis over the memory; witness | partial (with refuted corner cases) |
| C81 | The generated gettext tests use exactly the examples of the data | induction on the list of items and of cases; counting lemma; witnesses | partial (with refuted corner cases) |
| C82 | What the JSON file says is what is shown | composition of C10, C35-C42, C65, C66; witness | partial (with refuted corner cases) |
| C83 | A PO file is only accepted if each of its lines is understood | regular-expression semantics; induction on the lines (scanner) and on the tokens (parser); witness | partial (with refuted corner cases) |
| C84 | A PO parser can be used again | refinement of the stateful parser to the parser of token lists; simulation between parsers with different memories | proved |
| C85 | Errors of the PO parser name the line they are about | invariant linking the lines read, the tokens delivered, the lines of the last token and the position; simulation by the tokens (C84); C83; witnesses | partial (with refuted corner cases) |

## Modelled code

| model | code of /repo | simplifications |
|-------|---------------|-----------------|
| PopModel, PopCompile, PopBuiltin | `catalog/poplural` (scanner, parser, evaluator, `CompileToString`, rule lookup, all built-in functions and tables) | bytes instead of runes (all classes are ASCII); the in-place rotation of trees is functional |
| CastModel | `internal/cast` (`ToNumber`, `Indirect`, `ToTime`), `Rule.Evaluate`, `NewOperands`, `NaturalTime`, `TimeSince`, `TimeUntil` on values of any type; `strconv.ParseFloat` | memory is a map from addresses to values; of types other than numbers, strings, times, durations and pointers only what fmt prints for `%d` and `%v`; an untyped nil pointer type; a float32 prints as the float64 |
| NumModel | `internal/cast` on integers and finite floats; `Rule.Evaluate` | float64 to int64 out of range as on amd64 |
| LangModel | `ForLanguage` of both plural packages | `language.Tag` is a type with parent, name and base as variables |
| CldrModel, CldrBuiltin, CldrRules | `catalog/cldrplural` (operands, scanner, parser, samples, evaluator, all built-in functions) | `ParseFloat` for decimal texts only; `%v` of a float given by its shortest digits (computed in ShortDecModel); `FloatEqual` with exact subtraction (argued at the definition); rule texts are the comments of `builtin_gen.go` |
| ShortDecModel | `fmt.Sprintf("%v", f)` for every float64, as `NewOperands` uses it | by trying decimals of 1 to 17 digits instead of Ryu; proved to be the shortest decimal that converts back, of these the nearest; zero has no sign |
| GoSpec, PopSource, CldrSource | `catalog/poplural/builtin_gen.go`, `catalog/cldrplural/builtin_gen.go` as text | GoSpec reads the subset of Go that occurs there, from the Go specification: names with selectors are one token, only the four library functions that rules call, `ops` fields as names |
| GenModel | `catalog/poplural/generator/compiler.go`, `extra.go`, `catalog/cldrplural/generator/compiler.go`, and of its `main.go`, `json.go` the functions that write a rule | `fmt.Sprintf`, `text/template` and `gofmt` as concatenation; white space is as in the template before formatting; reading the JSON input is not modelled |
| GroupModel | `catalog/cldrplural/generator/main.go` (main, CaseExpression, the switch of the template), its `json.go` (hash, Name), `catalog/poplural/generator/json.go` (readJSONRules without the examples), `main.go`, `extra.go` | the map of languages is a list in the order of iteration; SHA-256 and `language.Parse` are arbitrary functions; in `Name` only ASCII letters are raised and the panic on an empty name is left out; `sort.Slice` is any arrangement that respects the comparison |
| ExModel | `catalog/poplural/generator/json.go` (extractExamples, Name), `main.go` (the comparison of the rules) | the maps are lists in the order of iteration; `checkError` ends the program with `Err`; the test template is not modelled; names as in GroupModel |
| AppJsonModel | `catalog/json_decoder.go` (Decode) and `catalog/json.go` (NewJSONCatalog, Lookup, LookupPlural) as the loader and the locales see them | a panic is an error value that is never taken for an answer; the nil catalog of a file with null is a catalog whose lookups panic |
| PoStrModel | `po/po_string.go`, `po/wrap.go` | output buffers are their contents |
| PoFileModel | `po/token.go`, `scanner.go`, `parser.go`, `file.go`, `message.go`, `comment.go`, `encoder.go` | `bufio.Scanner` as line splitting with its 64 KiB limit; one list of messages instead of nested maps; `SortFunc` as insertion sort; comments are sorted before instead of during sorting; `EqualFold` by a folding function that is only constrained on ASCII |
| PoStateModel | `po/scanner.go`, `parser.go` once more, statement by statement: the fields of scanner and parser, read, unread, scan, unscan, the maps made by reset, the errors with the line they name | the lines of `bufio.Scanner` as in PoFileModel; scanMessage, scanComment, the handling of one token and parseHeader are those of PoFileModel (scanMessage and scanComment only look at the line and at lastToken); an error that ends reading is not modelled here (see AppModel) |
| PoEditModel | `po/comment.go`, `message.go`, `file.go` (`Reference.String`, `AddReference`, `AddFlag`, `HasFlag`, `NewFile`, `AddMessage`, `File.String`, `PlaceholderHeader`), `encoder.go` (`Marshal`) | pointers as values: a comment or reference shared by two messages is not aliased; the time of the placeholder header is a parameter |
| MoModel | `internal/mo` | `bytes.Reader` semantics; sizes of allocations are not limited |
| GettextModel | `catalog/po.go`, `po_decoder.go`, `catalog.go` | |
| JsonModel, JsonHeapModel | `catalog/json.go`, `json_decoder.go` | `encoding/json` on values (text: JTextModel); only the six category names and the known members as keys |
| JsonMsgModel | `catalog/json.go` (`ApplyPluralCategoriesToJSONMessage`, `applyPluralCategories`, `UnmarshalJSON` and `MarshalJSON` of a single message) on a memory of messages and maps | as for JsonModel; a nil receiver does not occur |
| JTextModel | `catalog/json_encoder.go`, `json_decoder.go`, `catalog/json.go` (MarshalJSON of both types) and the text level of `encoding/json`: scanner, string and number literals, `appendString`, `Compact`, `Indent` | the limit of 10000 nested values is checked after reading instead of during it; numbers stay texts; errors of the writer are not modelled |
| LangNameModel | `humanize/helper.go` (`LanguageName`, `LanguageNameByCode`), `helper_table.go` | the map is the list of its entries |
| LocaleModel, BundleModel, SelfModel | `localizer.go`, `locale.go`, `bundle.go`, `utils.go`, `localize` | callbacks and loads are events of a log; loaders are pure functions; nil catalogs and nil print functions do not occur; `Printer.Init` is left out; the matcher is a function to an index |
| LoaderModel | `loader.go`, `ExpandLanguage`, `parseLanguageName` | the file system does not change; a file has data, an error that ends reading, an error on closing; `path.Clean` is a variable; nil decoders do not occur |
| AppModel | the decoders of `po_decoder.go` as the loader sees them, catalogs as locales see them | an error in a part of an MO file that is never read is ignored |
| CalModel | `internal/calendar`, the parts of Go's `time` that `humanize` uses | `time` from its documentation, unbounded integers, no monotonic clock |
| HumModel, IwModel | `humanize/date.go`, `dates.go`, `numbers.go`, `helper.go` | the calls of the localizer are kept as terms; x/text number printing is a term; float overflow and the sign of zero are not represented |
| HumLocModel, HumData1-10 | `humanize/locale.go`, `humanizer.go` (`LocaleData`, `WithLocale`, `WithBundleOption`, `New`), the PO files and formats of the 97 packages under `humanize/locale` | the data files are written by `tools/gen_humdata.py` from /repo and copied as they are; `language.MustParse` is a parameter; FirstDayOfWeek is left out |
| DfmtModel | `humanize/dateformat.go`, `humanizer.go`, `FormatTime`, `NaturalDay` | message lookups, upper case and the name of the local zone are variables |

## Not modelled

* `fmt` and `golang.org/x/text` printing, language matching and parsing, the
  real file system, time zone data, Unicode tables beyond the ones named above.
* `Must...` wrappers, getters, `String` methods of errors.
* `examples/`, tests.
* Concurrency: the model is functional.  That Go data are not changed after
  construction is read off the code, not proved.

## Trusted base

* Coq's kernel; `vcheck` also runs `coqchk`.
* Axioms: none.  `Print Assumptions` answers "Closed under the global context"
  for every theorem of every `Theorems*.v` (the output is part of the build).
  `coqchk` lists seven constants of `Coq.ssr.ssrunder`, which are loaded with
  the standard library (`lia`) and used by no theorem.
* The hand translation of the Go text into the `*Model.v` files, and of the
  standard library functions that they name.
* `tools/gen_humdata.py`, which copies the PO files and formats into `HumData*.v`.
* Hypotheses on external code that appear in statements: permutations for map
  iteration; `ascii_fold` for `EqualFold`; `sound_fs`, `sound_decoder` and
  "decode failures are not os.ErrNotExist" for the file loader; `contract` for
  user-written loaders; the parent chain of a language tag ends (`depth`).

## Mutation log (`seeded/LOG.jsonl`)

Each line is one edit of a definition, made in a scratch copy. Two kinds of
runs are in the file; the field `basis` says which.

- Older runs stopped at the first failing lemma of each file. Their
  `theorems_failed` are the theorems that depend on that lemma, computed from
  the dependency graph of the unedited development. Further theorems may have
  failed unseen.
- Newer runs admit a failing proof (in the scratch copy only) and go on, so all
  failing lemmas are seen.

Earlier versions of the file listed in `theorems_failed` every theorem of the
claimed property as soon as the build failed. That overstated most lines and
was corrected. Edits after which a definition or statement no longer
type-checked test nothing; they are marked `invalid` and were repeated. A line
with `outcome` is not a plain kill: read the text there.
