# Formal model of pbnjay/grate in Rocq (Coq 8.16.1)

## Layout (rocq/theories)

* `Go*.v` – the fragment of Go semantics and of the Go standard library the code relies on
  (panicking slices, little-endian readers, strconv, UTF-16/UTF-8, float64, calendar, errors).
* `M_*.v` – the model: one Gallina definition per Go function, each with the file and lines it models.
* `S_*.v` – small independent specifications (encoders, abstract grids, calendars) used in statements.
* `L_*.v` – lemmas and proofs.
* `P_*.v` – property theorems only, each closed by `exact`, with `Print Assumptions`, and the
  `Example`s showing that the hypotheses are met by concrete non-trivial inputs.

## Modelling conventions

* Go `int`, `uint16`, ... are `Z`; wherever the code can wrap (`4+rec.RecSize` in uint16, `1+sid` in uint32,
  `int64(uint)`) the wrap is written explicitly. Other `int` arithmetic is unbounded (64-bit overflow
  would need terabyte inputs).
* `[]byte` and `string` are `list Z`. A `[]byte` that is re-sliced is a pair (visible bytes, spare capacity):
  `s[a:b]` may extend up to the capacity, exactly as in Go.
* A Go function is a function to `res A` = `Ok a | Err e | Panic | NoFuel`. Every index/slice/nil/type-assertion
  panic of the code is an explicit `Panic`; `NoFuel` marks an exhausted loop bound and is excluded (or proved
  unavoidable, for divergence) by the theorems.
* `interface{}` values are the inductive `goval`. `Cell` (a `[]interface{}`) is a list of tagged fields, so a
  failed type assertion or index is a `Panic`.
* `float64` is Flocq's `binary64`. `time.Time` (UTC only) is nanoseconds since 1970 as `Z`.
* Go `map` is an association list; iteration order is universally quantified where it matters.
* Logging is not modelled.

## Groups of properties: what is modelled, how it is proved

| properties | files | modelled | proof |
|---|---|---|---|
| C01, C02, C03 | `M_grate.v` | grate.go, errs.go: the table, Register with any function meeting the contract of sort.Slice, Open over an arbitrary world with openers that may change it, error trees and errors.Is | induction over the table and over the error tree |
| C04, C05, C06, C07, C08, C09 | `M_simple.v` | simple/*.go on the bytes of the file, bufio.ScanLines with its token limit, strings.Split, strconv parsers; the map of column counts is an association list in any order; encoding/csv is an arbitrary record source | induction over lines; permutation invariance; float64 quotient compared with the exact rational |
| C10, C11, C12, C13, C14, C15, C16 | `M_sheet.v` | commonxl/sheet.go as a state machine over rows of cells with panicking indexing | invariant over all histories; refinement to a function from (row, column) to cells |
| C17, C18, C19, C20, C21, C22 | `M_value.v`, `M_cell.v` | commonxl/cell.go over tagged Go values, type assertions that panic, float64 conversions | case analysis over all tags; order laws by lia and Flocq |
| C23, C24, C25, C26, C27, C28, C29 | `M_fmt.v`, `M_formats.v` | commonxl/fmt.go, formats.go: formatter functions as a deep embedding with an evaluator, makeFormatter, Add, Get, Apply, the built-in tables | list induction, uniqueness of digit grouping, correctly rounded decimal output, witnesses |
| C30, C31, C32 | `M_dates.v` | commonxl/dates.go over binary64 and a proleptic Gregorian calendar | Flocq reasoning on reals; calendar lemmas by induction over days |
| C33 | `M_numbers.v` | commonxl/numbers.go over binary64 | loop invariant with decreasing measure; closeness by the continued-fraction recurrences over the reals with the rounding errors of the quotients carried along (L_fraction) |
| C34, C35 | `M_slicereader.v` | xls/cfb/slicereader.go | refinement to (bytes, position) over all histories |
| C36, C37, C38, C39, C40, C41 | `M_cfb.v` | xls/cfb/cfb.go, interface.go on the bytes of the file: header, DIFAT, FAT, mini FAT, directory, stream readers | an encoder of compound files as the specification; induction along chains; witnesses |
| C42, C43, C44 | `M_crypto.v`, `M_biff.v` | xls/crypto/*.go with executable RC4 and MD5, loadFromStreamWithDecryptor | block refinement, XOR involution, record-wise simulation |
| C45, C46 | `M_biff.v` | xls/xls.go: nextRecord, the splitter and the substream grouping | round trip from an encoder, by induction on records |
| C47, C48, C49 | `M_xlstr.v` | xls/strings.go, structs.go | round trips from encoders, bit arithmetic |
| C50, C51, C52, C53, C68 | `M_xls.v` | xls/xls.go loadFromStream2, xls/sheets.go parseSheet, List, ListHidden, Get | simulation of the record loop by a fold over abstract cells; end to end from stream bytes to the grid |
| C54 | `M_hlink.v` | xls/hyperlinks.go | round trip from an encoder of hyperlink objects |
| C55 | `M_xls.v`, `M_xlsx.v` | Close of both formats followed by any further calls | computation on the closed state for arbitrary workbooks |
| C56 | `M_pool.v` | xls.go Close, nextRecord and the record loops as a transition system: a shared heap of records, sync.Pool as a set handing out any member, one thread per workbook | ownership invariant over all interleavings; simulation with private records |
| C57, C58 | `M_xlsx.v` | xlsx/types.go col2int, refToIndexes | bijective base 26; exact panic condition |
| C59, C60, C61, C62, C63, C64, C69, C70, C71 | `M_xlsx.v` | xlsx/*.go over a package whose parts are lists of XML tokens; path.Join and path.Clean modelled; ZIP and XML decoding are oracles | token-stream induction; simulation of parseSheet; end to end from parts to the grid; witnesses |
| C65 | `M_tsv.v` | cmd/grate2tsv: main and runProcessor as a transition system of a producer, workers, two channels, a WaitGroup and a mutex | inductive invariant over all schedules, decreasing measure, progress |
| C66, C72, C73 | `M_tsv.v` | cmd/grate2tsv processFile and cmd/grater over the interface of an opened file | list induction, permutations of output files, witnesses |
| C74, C75, C76, C77 | `M_open.v` | xls.Open, cfb.Open, xlsx.Open, OpenTSV and OpenCSV over a file system with open handles, the four Register calls, List and Close of the three kinds of source | composition of C02, C04, C06, C36, C37, C38, C52 and C61; case analysis over the four openers |
| C78 | `M_sheet.v`, `M_formats.v` | commonxl/sheet.go Strings, Types, Formats over the rows of a sheet | invariant over the Put calls (C10) and case analysis of the stored cell |
| C79, C80, C81 | `M_fmt.v`, `M_dates.v`, `GoTime.v`, `GoFloat.v` | the built-in format table; time.Format on the layouts of the table; %E output | token-wise correspondence of layouts and format codes, calendar theorems (C30); sign and zero tests on reals; correct rounding of decimal digits with a proved exponent search |
| C82, C83 | `M_formats.v`, `M_fmt.v`, `GoTime.v` | makeFormatter on custom codes (regular expressions as functions on byte strings), Add, Apply | codes as lists of items; each textual replacement maps items to items (pieces cannot overlap by the letters they are made of); layouts then split into the chunks of the items. Number codes: positions of digits and point computed for any text around them |
| C93 | `M_disk.v`, `M_tsv.v` | the transition system of M_tsv with a disk: os.Create empties the path, the buffered writer passes on pieces of at least 4096 bytes, Flush writes the rest at the handle's offset; two handles on one path overlap; writes may fail | C65's invariant carries over to every step; a second invariant relates each created output's file to how much of its text has been written; the violations are explicit runs for all jobs of the shape |
| C94 | `M_disk.v`, `M_tsv.v` | a set of files on which processFile panics: the step that would return from it is replaced by the death of the program | a panicking file stays pending for ever, so exit is not reachable; the order of C65 with the bytes left to write makes every run finite; explicit runs for the losses |
| C95 | `M_heap.v`, `M_cell.v` | cells as slices over a heap of arrays, append in place or into a new array of any capacity; programs over cell variables; rows of text files and of sheets with the slices Strings returns | a simulation: no two variables share an array, every operation changes its own array or makes a new one, so the reads follow the value model; for rows, rows ahead of the iterator are untouched |
| C96 | `M_xlstr.v`, `M_xls.v` | the shared string table parser over any list of records; a grammar of tables written separately: strings as header, first run of characters, further runs with their width marks, runs and phonetic data, each cut into pieces at record ends | forward by simulation over the pieces; the converse by inverting every step of the parser and reading off the pieces; the workbook theorem by induction over records and substreams |
| C97 | `M_hlink.v` | the hyperlink decoder over any bytes with any memory behind them; the extent of an object computed from offsets and announced lengths alone | the decoder at offset a is the extent computation at offset a, field by field, for all bytes |
| C98 | `M_open.v`, `M_cfb.v`, `M_simple.v` | Open over any bytes and any registration order; the text shape test written separately | the errors of the compound file reader followed through the format loop; the chain walk of C36 for streams that leave the file |
| C99 | `M_cmd.v`, `M_tsv.v`, `M_xlsx.v` | the loops of the commands with each Get on the source that the one before left | a second Get of an XLSX sheet returns the collection at its end; induction over the names, and equality with the model of C66 and C90 when the names differ |
| C100 | `M_tsv.v`, `M_cmd.v`, `M_open.v`, `M_simple.v` | the text that grate2tsv writes given to Open, grater and grate2tsv | normalizing a cell twice is normalizing it once; rectangles pass the column test; then C90 and C98 for the opened file |
| C101 | `M_cfb.v`, `M_open.v`, `M_xls.v` | the first bytes of a file, and the whole file, each as a slice with its own spare capacity | whatever is read successfully from the front piece is read from the whole file too: induction over each of the loops of the compound file reader, with a relation between slices (same bytes, longer memory); for the cut last sector the chain is followed up to it |
| C102 | `M_outpool.v`, `M_tsv.v` | the goroutines of grate2tsv with the structs they pass on as addresses in a heap; Get may return any struct of the pool or a new one, and the pool may lose structs | a simulation relation with M_tsv: one step is one step there or none, and then a measure gets smaller; ownership is that no address is counted twice among workers, channel, clean-up goroutine and pool |
| C103 | `M_report.v`, `M_tsv.v`, `M_simple.v` | the text appended to the results file by the runs of M_tsv, and OpenTSV on it | the lines of a job are the records of its outcome; C65 for the runs, the round trip of C04 for the file, injectivity of the decimal notation for the converse |
| C104 | `M_xls.v`, `M_biff.v`, `M_sheet.v`, `M_xlstr.v` | what each record says is read off its bytes in S_says (fields at their offsets), with no reference to how the record was made; the text of a hyperlink object is that of the decoder | the two passes are inverted: a successful read of a record has its fields in range, and the state after it is that of the writes of S_says (invariant over the records); the framing by induction over the splitting loop, with the map of positions as part of the invariant |
| C105 | `M_xlsx.v`, `M_sheet.v` | relationships, workbook part, styles, shared strings and sheet tokens are read in S_xsays by where they stand, with no reference to how a package was made; XML decoding itself is not modelled (tokens) | induction over the tokens of each part with what was read before as the invariant; for sheets the step of C87 gives the state and the writes of S_xsays; maps kept by the reader are shown to answer like the last matching relationship; histories by C64 |
| C106 | `M_cfb.v`, `M_slicereader.v`, `M_open.v` | S_cfbsays reads FAT, DIFAT, mini FAT, directory and chains off the bytes, as relations that need not have a solution; the spare capacity behind the file is a parameter | each loop of load and Open is inverted (a successful run gives the table) and, for the converse, run along the table; uniqueness of the tables and chains gives the equality of contents; the reader by the pieces before the first empty one |
| C107 | `M_open.v`, `M_grate.v`, `M_cfb.v`, `M_xlsx.v`, `M_simple.v` | S_which says for bytes and archives which reader they are for; the archive reader is a function from bytes to parts or an error | each stage of the registered readers is shown to be left exactly for what S_which says: the compound file loops inverted for errors too, no error of loading a workbook is 'not in this format' (induction over each loop), and every step of opening a package succeeds exactly if its part is as described |
| C108 | `M_biff.v`, `M_crypto.v`, `M_xlstr.v`, `M_xls.v`, `M_open.v` | S_loads says on the records of a stream alone which can be read, how a stream is cut into records and how an enciphered one is cut into pieces and deciphered | every round of the loops is evaluated in both directions: the decrypting loop is shown equal to the cutting into pieces (with a round that leaves the buffer failing in the next one), the first pass to the cutting into records (unique), the second pass to the readability of each record, independent of the state of the workbook; FilePass by C43_rejects, string tables by C96_tables |
| C109 | `GoFloat.v`, `GoBase.v`, `M_simple.v`, `M_xlsx.v`, `M_cell.v`, `M_value.v` | numerals, the rational they denote and the nearest float64 (rounding of real numbers as in Flocq) stated alone in S_numtext; the scanners of GoFloat and GoBase | the quotient with its sticky bit is the exact quotient rounded to odd, and rounding that to nearest is rounding the exact quotient to nearest (L_round); the scanners by induction over the digits |
| C110 | `GoFloat.v`, `M_fmt.v`, `M_formats.v`, `M_value.v`, `M_simple.v` | the shortest text of a float64 and its six digit text stated on numerals and nearest float64 values (S_general); FormatFloat as a search over the number of digits | one rounding is monotone, so if the two neighbours of n digits do not read back no decimal of n digits does; seventeen digits are closer than half the gap between float64 values; the texts by induction over digits |
| C111 | `M_fault.v`, `M_open.v` | a history gives, for each of the four openings, the bytes read, the error that ended the reading and what archive/zip makes of the file; the openers are those of M_open | Open is the first answer of the four readings that is not "not in this format"; each reading by the exact theorems C106 and C107 |
| C112 | `M_tsv.v`, `M_open.v`, `M_simple.v`, `M_fmt.v`, `M_sheet.v` | composition of models already listed; the values and destinations that suit each other are a small separate spec (S_trip) | C78/C90 give the text of the cell, C110 what it is; number texts have no white space, so that they are written as they are and their row is kept; C100 reopens the file, C08 finds the row, C09 and C109 read the cell; a six-digit text of a finite float64 never rounds to infinity (an integer argument at 10^303) |
| C113 | `M_formats.v`, `M_fmt.v`, `M_simple.v`, `M_tsv.v`, `M_open.v` | composition of models already listed; an amount is a small separate spec (S_amount) | the float64 is off the amount by at most n * 2^-53 + 2^-1075, so that ten to the p times it is within 1/4 of n; the text (C67, C23, C82) is within 1/2, hence its digits spell n; C109 reads them as the nearest float64, which is the one we started from; the file as in C112 |
| C114 | `GoFloat.v`, `M_simple.v`, `M_xlsx.v`, `M_cell.v`, `M_sheet.v`, `M_formats.v` | ParseFloat is the model of GoFloat; the accepted texts are a separate grammar (S_accept) with no scanner and no flags | the scans of digits and of the exponent commute with leaving out the underscores, and what they consumed has the shape of a numeral; the check of underscores is an induction over the text with the previous character, equivalent to every underscore standing between digits; values then by C109, formats by C19 |
| C115 | `M_formats.v`, `M_fmt.v`, `M_simple.v` | composition of models already listed; amounts as in C113 (S_amount) | as C113, with one more rounding: the rounded product with 100, times ten to the p, is within 3/8 of n, and the text (C29, C82) within 1/2 of it, hence its digits spell n; the violations by computing and by C113_refused |
| C116 | `M_formats.v`, `M_fmt.v`, `M_simple.v` | composition of models already listed; the numbers and their scientific texts are a small separate spec (S_sciamount) | the float64 times ten to the p - k is within n / (9 * 10^15) + 1/1000 of n; the exponent shown (C81, C82) can be no smaller, as the digits would have to be above the largest p + 1 digits, and no larger, as a carry to a power of ten is nearest on the finer grid; with the right exponent the digits are within 1/2 and hence spell n; reading by C109 |
| C92 | `M_formats.v`, `M_fmt.v`, `M_cell.v` | the codes as lists of parts (S_custom) or tables of codes; sections joined by semicolons; the layout of Go's own time text | what makeFormatter produces for the code (brackets by induction over the code, tables by computation), then the evaluation lemmas of C82 and C83 |
| C91 | `M_xls.v`, `M_cmd.v` | the forms as records of S_xls (CSkip for Label and RString, the WsBool flags by bit position, substreams by their BOF and EOF records) | C50 and C52 with these records in place; for nested substreams and flags the two passes over the records directly |
| C90 | `M_cmd.v`, `M_tsv.v`, `M_open.v`, `M_sheet.v`, `M_simple.v` | the sources of M_open behind the interface that the commands of M_tsv use; rows are read eagerly; names listed twice: C99. The texts of a sheet are a small separate spec (S_text) | the grid that C50/C61 prove is turned into texts cell by cell (C78); Get of one sheet does not affect another (C90_independent); then C72 and C66 for the output |
| C89 | `M_xlsx.v` | inline strings use the item parts of C59 | the pieces of character data of an inline string are computed by induction over its parts, then C62_last_text; packages by the lemmas of C61_workbook |
| C88 | `M_biff.v`, `M_crypto.v`, `M_xls.v`, `M_open.v` | composition of models already listed; the plaintext groups are those of C52 with a FilePass record among the globals | C44_open for the decryption; the closing EOF that the decrypting loader drops is shown to be irrelevant to both passes over the records (induction over the records); then the argument of C52 and C74 |
| C87, C86 | `M_xlsx.v`, `M_sheet.v` | fatal tokens and the little the reader remembers between tokens are a small separate spec (S_xrobust) | induction over the tokens: either the token is fatal and the step panics, or the step succeeds, keeps the sheet reachable by Put and Resize and agrees with the spec's memory; references by C58; histories by C64's tracking invariant |
| C85, C86 | `M_biff.v`, `M_crypto.v`, `M_hlink.v`, `M_xlstr.v`, `M_xls.v`, `M_sheet.v` | the least length of each record and the counts within records are a small separate spec (S_robust); the theorems are about any bytes that the loader accepts, encrypted or not | invariants: every byte of a record is a byte (also after decryption), stored record sizes are the real ones, substream numbers are in range, number formats are 16-bit, the sheet is reachable by Put and Resize, and the cell of the last formula is filled; one lemma per record type. The refuted theorems show that the bounds are exact |
| C84 | `M_cfb.v`, `M_slicereader.v`, `M_biff.v`, `M_xlstr.v`, `M_hlink.v`, `M_xls.v`, `M_xlsx.v`, `M_open.v` | every loop of the readers whose end is not plain from its header carries a step bound in the model (sector chains, record loops, string loops, the shared string table); the outcome NoFuel means the bound was hit | measures: bytes left in the stream, records left, characters left; chains cannot go on because every step of a chain consumes a slot of a table of known length; more steps than needed do not change the outcome; the files on which this fails are characterized by their bytes (S_hang, P_hang), both directions, using classical logic |
| C67 | `M_fmt.v`, `M_formats.v` | sprintf with two decimals on float64 | round-to-nearest-even of the exact value, by Flocq |

## Per property

Status `partial` means that the full statement of properties.jsonl does not hold of the code, or holds only under the restriction given: a theorem ending in `_refuted` exhibits (on the model) the failure, and the other theorems give the strongest restriction proved.

| id | title | status | theorems | remarks |
|---|---|---|---|---|
| C01 | Open dispatches by priority and stops at the first decisive opener | proved | C01_open_first_decisive, C01_open_cases, C01_open_unknown | For every table, file name, world and openers acting on an arbitrary world. |
| C02 | The opener table is a sorted permutation, independent of registration order | proved | C02_table_sorted_permutation, C02_registration_order_irrelevant | For every function meeting sort.Slice's contract. |
| C03 | WrapErr keeps the classification of the second error | proved | C03_errors_is_chain, C03_wrap_second, C03_wrap_single, C03_wrap_text |  |
| C04 | TSV open/iterate round-trip | proved | C04_tsv_round_trip, C04_tsv_rows_are_lines |  |
| C05 | TSV/CSV column heuristic does not depend on map iteration order | proved | C05_order_independent, C05_accept_iff | The float64 comparison n/total > 0.8 is proved equal to 5n > 4total for up to 2^50 lines. |
| C06 | OpenCSV accepts well-formed CSV | partial | C06_csv_opens_refuted, C06_csv_clean_end | The code violates the property: OpenCSV fails on every input. encoding/csv is an arbitrary function here. |
| C07 | Comma-separated files are opened as comma-separated | partial | C07_commas_are_not_split_refuted | The code violates the property; the theorem says what happens instead, for every tab-free text. |
| C08 | Delimited-file cursor | proved | C08_cursor, C08_after_the_end |  |
| C09 | Delimited-file Scan | proved | C09_scan_count, C09_scan_prefix, C09_scan_values |  |
| C10 | Sheet holds exactly the last value put at each position | proved | C10_last_put_wins, C10_grid_unique | Any sequence of Put calls on a new sheet, read back through Next/Raw. |
| C11 | Sheet rows are rectangular and Strings/Types/Formats never panic while no Resize shrinks the sheet | partial | C11_rectangular, C11_strings_width, C11_shrink_panics_refuted | Proved for Put and non-shrinking Resize; the code violates it after a shrinking Resize (second part). |
| C12 | Number of records delivered by a sheet | partial | C12_extra_record_refuted, C12_records, C12_stays_at_end | The code violates the property: one extra blank record is delivered. The exact count is proved. |
| C13 | Put changes nothing else | proved | C13_put_frame | On every sheet reachable by Put, non-shrinking Resize, Next, Set and SetURL. |
| C14 | Set and SetURL act on existing cells only | partial | C14_set, C14_set_url, C14_set_panics_refuted | The frame is proved; the code panics instead of ignoring at col = NumCols and on blank cells, characterized exactly. |
| C15 | Sheet Scan type discipline | partial | C15_scan, C15_scan_too_many_refuted | Proved for at most NumCols destinations; more destinations panic. |
| C16 | IsEmpty reports whether a sheet has data | partial | C16_is_empty, C16_A1_dropped_refuted | The code violates the property for sheets filled only in A1. |
| C17 | NewCell classifies and preserves values | partial | C17_new_cell, C17_new_cell_total, C17_uint_wraps_refuted | The code violates the property for uint values above MaxInt64. |
| C18 | Coercion to a format's cell type | proved | C18_coercion, C18_same_type_unchanged, C18_total, C18_type_obeyed, C18_int_to_float, C18_float_to_int |  |
| C19 | Text survives a numeric or date format | partial | C19_exact, C19_general, C19_stored, C19_dates, C19_numbers_refuted, C19_text_lost_refuted, C19_date_text_refuted, C19_empty_text_refuted | The code violates the property. Proved: among the built-in formats exactly General and the text format leave every text as it is (and formats added as General); what a text becomes under every other format. |
| C20 | Cell.Less is a strict order on cells of one kind | partial | C20_less_means, C20_less_numbers, C20_less_false, C20_less_text, C20_less_word, C20_less_bool_text, C20_less_blank, C20_irreflexive, C20_transitive, C20_total_up_to_equal, C20_total_big_ints_refuted, C20_mixed_kinds_refuted, C20_dates_panic_refuted, C20_false_and_negative_refuted | Totality up to Equal fails for integers beyond 2^53; comparing dates panics. |
| C21 | Cell.Equal is an equivalence | partial | C21_equal_numbers, C21_equal_numbers_real, C21_reflexive, C21_symmetry_refuted, C21_blank_equals_text_refuted | The code violates symmetry and transitivity. |
| C22 | Cells built through the API never panic on Type/FormatNo/Value/URL | partial | C22_no_panic, C22_setters_total, C22_set_format, C22_set_url, C22_hyperlink_refuted | A hyperlinked cell loses its format number. Independence of a clone is about sharing: C95. |
| C23 | Thousands separators | proved | C23_commas, C23_only_commas_added, C23_grouping_unique, C23_builtin_integers, C23_builtin_floats |  |
| C24 | Negative parentheses | partial | C24_parens, C24_builtin_integers, C24_builtin_floats, C24_empty_text_refuted | Exact behaviour proved, including the panic on the empty text, which Set can store. |
| C25 | General format shows integers exactly | proved | C25_general |  |
| C26 | Section selection of multi-part formats | proved | C26_sections | For sections without brackets that are not the word General. |
| C27 | Built-in formats cannot be altered and custom formats are write-once | partial | C27_builtin_fixed, C27_rejected_unchanged, C27_first_wins, C27_general_replaces_refuted | Write-once except that a later General replaces the format but not its cell type. |
| C28 | Apply reports unknown format ids | partial | C28_unknown_panics_refuted, C28_cell_panics_refuted, C28_known_ids_render | The code violates the property: exactly the unknown ids panic; with known ids rendering is total. |
| C29 | Percent formats scale by 100 | partial | C29_decimals, C29_truncates, C29_custom_percent_refuted | Every finite number: 0.00% is right up to the float64 product (Inf beyond its range); 0% truncates; a custom 0% does not scale. |
| C30 | Date serials map to the right calendar day | proved | C30_integral_serials, C30_fractional_serials, C30_time_of_day | Serials up to 2^40; fractions from serial 61 on. |
| C31 | Date conversion is monotone | proved | C31_monotone | Serials from Julian day 0 up to 2^40, both modes, across the two branches. |
| C32 | 1904 workbooks use the 1904 epoch | partial | C32_xls_refuted, C32_xlsx_refuted | no workbook of either kind ever sets the 1904 mode |
| C33 | Fractions: termination, digit limits, and exactness where the digits suffice | partial | C33_terminates, C33_whole_terminates, C33_limits, C33_close, C33_whole_fraction, C33_text, C33_exact, C33_whole, C33_near, C33_negative_refuted, C33_carry_refuted, C33_improper_refuted | Exactly which values keep the limits (C33_limits), and how near the result is (C33_near); below 1 the result is in lowest terms and as close as a continued-fraction convergent (three digits at most), so fractions that have the digits are shown exactly. The code violates the property for negative values, for values above the numerator limit (0/1), and 2.99 under # ?/? shows 2 1/1. |
| C34 | SliceReader reads the concatenation of its slices | proved | C34_read, C34_read_all, C34_read_all_new, C34_empty_slice_refuted | All histories of Read (non-empty buffers) and in-range Seek. The slice condition in the statement is needed: C34_empty_slice_refuted shows an empty slice in the middle reads as the end. |
| C35 | Seek reaches every in-range position and terminates | proved | C35_seek, C35_terminates, C35_back_to_start_refuted, C35_to_end_refuted | Every position strictly inside is reached from every reachable state and the loop terminates on every reader; the two edge panics named in the statement are proved as well. |
| C36 | Compound-file stream extraction | proved | C36_stream_bytes, C36_read_all, C36_short_chain, C36_terminates, C36_terminates_loaded | from the bytes of the file to the bytes of the stream, header, DIFAT sectors and directory included; termination for every document that loads |
| C37 | Mini-stream extraction | proved | C37_mini_stream_bytes, C37_read_all, C37_short_mini_chain_refuted | the refuted theorem shows that, unlike C36, a mini chain ending early is not reported |
| C38 | Files that are not compound documents are rejected as not-in-format | proved | C38_not_in_format | exact characterization (iff) of the contents rejected as not in format |
| C39 | Loading a compound document terminates | partial | C39_exact, C39_terminates, C39_cyclic_difat_refuted | exactly which files never finish loading, in terms of their bytes: an accepted header that announces DIFAT sectors, listed FAT sectors all inside the file, and a chain of DIFAT sectors that goes on for ever through sectors inside the file that mention only such; every other file ends. The code violates the property on these (1024 bytes suffice) |
| C40 | Every mini-FAT sector is loaded | partial | C40_only_first_sector_refuted, C40_later_entries_panic_refuted, C37_read_all | one mini FAT sector works end to end (C37); with 2 to 128 of them only the first is loaded, and streams beyond it make Open panic |
| C41 | Directory lookup | partial | C41_list, C41_listed_is_found, C41_unlisted_not_found, C41_at_most_four, C41_fifth_entry_refuted, C41_empty_name_refuted | holds for directories of at most four entries; the fifth and later entries are never read |
| C42 | Decryption does not depend on write chunking | proved | C42_chunks, C42_chunking_irrelevant, C42_new_ready, C42_reset_ready, C42_set_password_ready | all inputs, all splits, from every block boundary; which decryptors are at a block boundary is proved too |
| C43 | Decryption inverts encryption | proved | C43_involution, C43_decrypts, C43_decrypts_password, C43_rejects | default password with its FilePass structure, and any other password set; RC4 and MD5 are modelled and executed |
| C44 | Encrypted workbook streams are restored exactly | proved | C44_decrypts, C44_open, C44_other_methods | record lists whose clear records have at most 8224 bytes (the format's limit) and whose BoundSheet8 records hold a position |
| C45 | BIFF record framing | partial | C45_framing, C45_truncated, C45_large_record_refuted | holds for payloads up to 65531 bytes; for 65532 to 65535 the reader panics (refuted theorem) |
| C46 | Substreams partition the records | partial | C46_substreams, C46_no_bof_refuted | exact for balanced streams; a stream not starting with BOF panics |
| C47 | BIFF string decoding | partial | C47_short, C47_long, C47_text, C47_roundtrip, C47_overrun_refuted | Both encodings inverted for all strings, with the byte count. Partial because a count larger than the record is not rejected (C47_overrun_refuted). |
| C48 | Shared string table across Continue records | partial | C48_shared_strings, C48_one_byte_refuted | All string lists and divisions except one: a 16-bit string followed in its record by exactly one byte of trailing data is rejected (C48_one_byte_refuted). |
| C49 | RK numbers | partial | C49_integer, C49_double, C49_double_100, C49_integer_100_refuted | Three of the four kinds of RK values are exact for all 2^32 values; integers over 100 decode to 0 (C49_integer_100_refuted). |
| C50 | Cell records are placed at their coordinates | proved | C50_cells, C52_workbook | every sequence of cell records (Number, RK, MulRk, LabelSst, BoolErr, Formula with String, MergeCells, HLink, ignored records, embedded substreams), from the bytes of the stream to the grid Get delivers; records of unsupported shape are covered by C53 and C68 |
| C51 | Merged regions are marked | proved | C51_marks, C51_xls, C51_xlsx, C51_xlsx_inside | for every merged region and every sequence of cell writes; regions that reach beyond the declared dimension of an XLSX sheet are cut there (C71 says what a missing dimension does) |
| C52 | Sheet listing and lookup | partial | C52_workbook, C52_partition, C52_position_refuted, C61_workbook | XLSX end to end by C61_workbook; XLS end to end: from the bytes of a workbook stream to List, ListHidden and Get; refuted: a sheet whose declared position starts no substream is read from the workbook globals instead of failing |
| C53 | Shared string references are bounds-checked | partial | C53_label, C53_boundary_refuted | an index above the number of strings is an error; refuted: an index equal to the number panics |
| C54 | Hyperlink decoding | proved | C54_hyperlinks, C54_trim_unique, C54_version | for every hyperlink object (all optional parts, three kinds of target); version error for every version other than 2 |
| C55 | Use after Close | partial | C55_xls_refuted, C55_xls_rest, C55_xlsx | XLSX: exact behaviour after Close. XLS: Get after Close panics for every sheet of the workbook; Close twice and the lists are fine |
| C56 | Pooled records are never shared between workbooks | proved | C56_exclusive, C56_read, C56_outcome, C56_frame | transition system of Close and the first loop of loadFromStream2 over a shared heap and pool; any number of workbooks, every interleaving, pool may hand out any record or a new one and may lose records. Each workbook used by one goroutine at a time; sync.Pool itself is not modelled below its contract |
| C57 | A1 references | proved | C57_round_trip, C57_letters_distinct | all columns and rows below 2^63-1; distinct columns have distinct letters |
| C58 | References never panic | partial | C58_panics, C58_total, C58_R1C1_refuted | exact (iff) set of texts on which it panics; total otherwise |
| C59 | XLSX shared strings | partial | C59_shared_strings, C59_phonetic_refuted, C59_space_refuted | texts and rich text runs; phonetic hints and white space between runs are added to the string |
| C60 | XLSX styles | partial | C60_styles, C60_style_number, C60_large_refuted | format ids below 32768; larger ids become 32767 |
| C61 | XLSX cell placement | proved | C61_sheet, C61_workbook | from the parts of a package to the grid Get delivers |
| C62 | Whitespace between XLSX elements is ignored | partial | C62_last_text, C62_trailing_refuted, C62_shared_refuted | every text in a cell element replaces the previous one; white space before the value is harmless, after it replaces the value |
| C63 | XLSX hyperlinks | partial | C63_link, C63_text_lost_refuted, C63_unknown_refuted, C63_range_refuted |  |
| C64 | XLSX Get is idempotent and shares one cursor | partial | C64_history, C64_missing, C64_exhausted_refuted, C64_opened_fresh | all histories of Get and Next; the shared cursor means that a sheet can be read only once |
| C65 | grate2tsv processes every file exactly once under every schedule | partial | C65_exit, C65_no_deadlock, C65_terminates, C65_exits, C65_no_workers_refuted | all schedules, any number of files and workers; proved for at least one worker, and refuted for NumCPU = 1, where nothing can happen as soon as there is a file. What processing one file comes to is a parameter (instantiated by tsv_job); a panic in it ends the program, which is C94 |
| C66 | grate2tsv row output | proved | C66_cell, C66_blank, C66_rows, C66_lines, C66_reopen, C66_files | C66_rows and C66_files for all flags, C66_cell, C66_blank, C66_lines and C66_reopen for the default ones. Workbooks are seen through the interface (names, rows) |
| C67 | Two-decimal formats show the correctly rounded value | proved | C67_two_decimals |  |
| C68 | Formula text results of XLS files | partial | C68_text, C68_latin1_refuted, C68_surrogate_refuted, C68_split_refuted | right for ASCII 8-bit chunks and 16-bit chunks without split pairs; refuted for the rest |
| C69 | Malformed XLSX parts never crash the reader | partial | C69_shared_index_refuted, C69_bool_refuted, C69_style_index_refuted, C69_styles_refuted | the code violates the property in each listed way; the style sheet cases are stated for the style sheet reader |
| C70 | XLSX relationship targets may be absolute or relative | partial | C70_absolute_refuted, C61_workbook | relative targets work (C61_workbook, where the workbook's own relationships may be absolute) |
| C71 | The dimension element of an XLSX sheet is only a hint | partial | C71_merges_refuted, C71_width_refuted, C61_sheet |  |
| C72 | grater prints every row | proved | C72_grater, C72_ambiguous_refuted | for files whose reading does not panic; the refuted theorem shows that the text does not determine the cells, which the property does not promise |
| C73 | grate2tsv keeps the sheets apart | partial | C66_collision_refuted, C66_columns_refuted, C66_no_trim_refuted | the code violates the property |
| C74 | A workbook file is read from its bytes to the grid | proved | C74_xls_file, C74_xlsx_file | unencrypted XLS (encrypted: C88); decoding of ZIP and XML is an oracle; the memory the buffers are read into may have any spare capacity |
| C75 | Formats are recognised by content, not by name | proved | C75_missing, C75_zip, C75_text, C75_tsv_file, C75_name_irrelevant, C06_csv_opens_refuted | names are irrelevant up to the file name a text source keeps for List |
| C76 | Open and Close leave no open file behind | partial | C76_handle_left_refuted, C76_xlsx_close, C76_text, C76_xlsx_failure_refuted | the code violates the property; finalizers of os.File are not modelled |
| C77 | Archives that are not workbooks are refused | partial | C77_word_document_refuted, C77_other_archives | the code violates the property |
| C78 | Strings, Types and Formats show the last value put at each position | proved | C78_views | the text a format prints for a stored value is Apply's, which C23-C29, C67 and C79-C81 describe format by format; unknown format ids panic (C28) |
| C79 | Built-in date formats show the day and the time of the serial | partial | C79_dates, C79_hours_refuted, C79_quotes_refuted, C79_month_refuted, C79_elapsed_refuted, C79_time_words_refuted, C79_noon_words_refuted, C79_tenths_refuted, C79_buddhist_refuted | all built-in date and time formats: 14-19, 30, 45, 71-74, 78 show what their codes say; the code violates the property for each of the others, in the way the refuted theorems say |
| C80 | Accounting formats | partial | C80_integers, C80_floats, C80_zero, C80_negative_refuted | the code violates the property for negative numbers |
| C81 | Scientific notation | partial | C81_scientific, C81_engineering_refuted | format 11 proved; the code violates the property for format 48 |
| C82 | Custom number codes | partial | C82_integers, C82_decimals, C82_percent, C82_scientific, C82_exponent_refuted, C82_text, C82_static, C82_rounding_refuted, C82_zero_padding_refuted, C82_literal_refuted, C82_negative_section_refuted | proved for codes whose texts avoid the characters with a meaning of their own; the code violates the property in the ways of the refuted theorems |
| C83 | Custom date codes | partial | C83_layout, C83_hours_refuted, C83_ampm_refuted, C83_minutes_refuted, C83_weekday_refuted | proved for codes in which every part occurs at most once, minutes stand between hours and seconds, and quoted text has none of the letters and digits that mean something in a layout; the code violates the property in the ways of the refuted theorems |
| C84 | Opening and reading end | partial | C84_exact, C84_open_ends, C84_endless_refuted, C84_workbook_ends, C84_get_ends | proved for every file but those of C39, on which Open never ends whatever the registration order: the code violates the property exactly there. What encoding/xml, archive/zip and encoding/csv do is taken to end |
| C85 | Malformed XLS records | partial | C85_get, C85_load, C85_split, C85_short_refuted, C85_text_refuted, C85_split_refuted | proved for records with the least length the reader needs, which is exact; for shared strings and hyperlinks it is that the reader's own grammar for them is met (C96, C97), and a sheet has at most one Dimensions record; the code violates the property outside these bounds |
| C86 | Memory follows the file | partial | C86_dimensions_refuted, C86_dimension_xlsx_refuted | the code violates the property |
| C87 | XLSX sheets of any content | partial | C87_exact, C87_styles, C87_open, C87_get, C87_late_dimension_refuted | exact for sheets whose dimension element comes at most once and before the cells; violated for a later one |
| C88 | Encrypted workbooks show their sheets | proved | C88_workbook, C88_file | RC4 encryption with the default password, the only method the reader supports (C44_other_methods); records of at most 65531 bytes |
| C89 | Optional forms of XLSX content | partial | C89_inline, C89_inline_piece, C89_runs_refuted, C89_hint_refuted, C89_formula_refuted, C89_reference_refuted, C89_strict_refuted, C89_chart_refuted | inline strings in one piece proved; the code violates the property for the other forms |
| C90 | From the bytes of a file to what the commands print and write | partial | C90_commands, C90_printed, C90_independent, C90_xls_file, C90_encrypted_file, C90_xlsx_file, C90_tsv_file, C90_blank_row_refuted, C90_one_cell_refuted, C90_nil_refuted | the four kinds of files proved from the bytes (for XLSX from the unpacked parts and XML tokens) to the output, for distinct sheet names; the _refuted theorems are the violations |
| C91 | Less common forms of XLS content | partial | C91_label_refuted, C91_label_allowed, C91_link_refuted, C91_dialog_refuted, C91_sync_refuted, C91_sync_panics_refuted, C91_nested_refuted, C91_chart_refuted | the code violates the property for each of these forms |
| C92 | Custom format codes with brackets, sections, optional digits and pictures | partial | C92_brackets, C92_accounting, C92_currency_refuted, C92_condition_refuted, C92_general_refuted, C92_date_section_refuted, C92_elapsed_refuted, C92_optional_refuted, C92_scaling_refuted, C92_fraction_refuted, C92_picture_refuted, C92_accounting_refuted | bracketed parts and positive amounts proved; the _refuted theorems are the violations, each for all values and where possible all codes of the form |
| C93 | What grate2tsv has on disk at any moment | partial | C93_results, C93_files, C93_exit, C93_reported_unwritten_refuted, C93_collision_refuted, C93_write_errors_refuted | proved for every crash point of every schedule (the output files for outputs with different paths); the _refuted theorems are the violations. A kill loses nothing already handed to the operating system; machine crashes are not modelled |
| C94 | grate2tsv when one file panics | partial | C94_survives, C94_terminates, C94_dies, C94_reported_empty_refuted, C94_lost_refuted | proved: no endless run, without panics every run can only end with exit, with a panic no run does. The _refuted theorems show what may be lost |
| C95 | Cells and rows do not share memory behind the caller's back | partial | C95_values, C95_frame, C95_raw, C95_strings_fresh, C95_strings_once, C95_assignment_refuted, C95_capacity_refuted, C95_strings_shared_refuted | proved over a heap of arrays with any allocation rule; the _refuted theorems are the violations (rows of text files, and cells assigned rather than cloned) |
| C96 | Exactly the shared string tables are read | partial | C96_tables, C96_unambiguous, C96_otherwise, C96_workbook, C96_count_refuted, C96_cut_refuted | acceptance is characterized exactly; the _refuted theorems are the violations (counts ignored, a cut string ends the program) |
| C97 | What becomes of hyperlink records with arbitrary bytes | partial | C97_links, C97_valid, C97_overrun_refuted, C97_frame_refuted, C97_memory_refuted | the outcome is characterized exactly by the announced lengths; the _refuted theorems are the violations |
| C98 | Files of other kinds and cut-off workbooks are refused | partial | C98_text, C98_header, C98_foreign_refuted, C98_short_refuted, C98_cut_refuted | what opens as text is characterized exactly; the _refuted theorems are the violations (foreign compound files, cut-off workbooks) |
| C99 | A file that lists one sheet name more than once | partial | C99_distinct, C99_sequence, C99_commands, C99_twice_refuted | the output for any list of names is characterized; C99_twice_refuted is the violation (XLSX names listed twice) |
| C100 | What grate2tsv wrote can be opened and converted again | partial | C100_normal, C100_rectangles, C100_again, C100_tables, C100_long_refuted | C100_long_refuted is the violation (lines of more than 65535 bytes); files that begin with the signature of a compound file or read as an archive are excluded |
| C101 | A workbook file that was cut off or continued | partial | C101_cut, C101_behind, C101_appended, C101_panic_refuted, C101_memory_refuted | proved for any bytes and any cut without memory behind it, with the storage of the root entry first in the directory; the _refuted theorems are the violations when memory lies behind |
| C102 | The pooled output structs of grate2tsv | proved | C102_refines, C102_own, C102_once, C102_exit, C102_terminates, C102_exits | every run of the pooled system is a run of the system of C65 |
| C103 | The results file of grate2tsv | partial | C103_file, C103_run, C103_open, C103_tells, C103_forged_refuted, C103_glued_refuted | proved when names and error texts are without tabs and newlines and the file was empty or ended with a newline; the _refuted theorems are the violations otherwise |
| C104 | An XLS sheet shows what its own records say, whatever file they come from | partial | C104_sheet, C104_origin, C104_stream, C104_globals, C104_file, C104_overrun_refuted | proved for all byte sequences that can be opened, for substreams with at most one complete Dimensions record; the bytes behind a record that a too long name or format takes are part of the statement, and the _refuted theorem shows that this happens; the text of a hyperlink is the one of the model's decoder (C46) |
| C105 | An XLSX sheet shows what its own part says, whatever package it comes from | proved | C105_sheet, C105_open, C105_origin, C105_get | for any package that opens; a dimension element that comes late is C87_late_dimension_refuted, and which texts of a cell element count is C62 |
| C106 | What is read out of a compound file, for every file | proved | C106_stream, C106_one_content, C106_exact, C106_open, C106_exact_open, C106_sheet | no file written by a reference writer is assumed; which contents load as workbooks is C85 and C104; a name of length 0 or of 32768 and more (even) makes Open panic (ex_C106_nameless) |
| C107 | Which files Open opens, and as what | proved | C107_package, C107_no_package, C107_lost, C107_left, C107_opened_xlsx, C107_opened_text | the files opened as XLS are C106_exact_open; archive/zip and encoding/xml are parameters whose errors are not grate's; C98 and C77 are the cases in which the outcome is not the one a user wants |
| C108 | Which workbook streams load, exactly | proved | C108_deciphers, C108_loads, C108_opened_xls | loads: without an error and without a panic; texts of one byte a character may run on behind their record (C104_overrun_refuted); with C107 this says for every byte sequence whether Open opens it and as what |
| C109 | A decimal number in a text is read as the nearest float64, an integer exactly | proved | C109_scan_int, C109_scan_float, C109_scan, C109_xlsx_number, C109_number_format, C109_less, C109_less_blanks | strconv.ParseFloat and ParseInt are modelled in GoFloat and GoBase; that the modelled rounding is the nearest float64 is proved here, for any number of digits (L_round). Longer texts with an exponent of 100000 and more are left out: strconv does not count such exponents exactly |
| C110 | What General shows of a number, and that it reads back | proved | C110_general, C110_general_special, C110_read_back, C110_general_back, C110_sprint | strconv.FormatFloat is modelled in GoFloat; that the modelled search finds the shortest digits, and within seventeen, is proved here (L_short). The text of six digits loses the rest of the number (ex_C110_six) |
| C111 | Read errors, and files that change while they are opened | partial | C111_xls, C111_xlsx, C111_text, C111_errors, C111_steady, C111_swallowed_refuted, C111_written_refuted | which source comes from which reading is exact; the _refuted theorems are the violations. The parts of an archive are taken to stay as they were at Open |
| C112 | Values through grate2tsv and back | partial | C112_values, C112_exported, C112_third_refuted | the round trip holds with the six-digit exception stated; the _refuted theorem is a number that does not come back exactly. Values under formats other than General are shown as C29, C67 and C82 say and are not read back here |
| C113 | Decimal amounts are shown exactly and come back exactly | proved | C113_shown, C113_separated, C113_custom, C113_read, C113_exported, C113_whole, C113_whole_exported, C113_refused, C113_separators_refuted, C113_xlsx, C113_rk, C113_parens, C113_accounting | 15 digits is where it stops being true of decimal numbers and float64; the _refuted theorem is about reading texts with separators, which is not claimed |
| C114 | Exactly which texts are taken for numbers | partial | C114_scan, C114_number, C114_word, C114_xlsx, C114_formats_refuted, C114_all, C114_hex, C114_xlsx_all | which texts are numbers is exact for all texts; the values of hexadecimal numerals with exponents of 100000 and more are left out; the _refuted theorem is the violation |
| C115 | Percentages are shown exactly | partial | C115_shown, C115_custom, C115_whole, C115_not_read_refuted, C115_whole_refuted | proved for percent formats with decimals; for 0% the shown percentage is the right one or one less; the _refuted theorems are the violations |
| C116 | Scientific notation is exact and reads back | proved | C116_shown, C116_custom, C116_read, C116_back | 15 digits is where it stops being true of decimal numbers and float64; below 10^-290 the bound on the rounding error used here no longer holds near the subnormal numbers |

## Trusted base

1. Coq 8.16.1's kernel (checked again by coqchk). No kernel check is switched off; no plugin; no axiom of our own.
2. The axioms of Coq's standard library that Print Assumptions lists. There are four, all of them brought in by the
   real numbers under Flocq's binary64: `ClassicalDedekindReals.sig_forall_dec`,
   `ClassicalDedekindReals.sig_not_dec`, `Classical_Prop.classic` and
   `FunctionalExtensionality.functional_extensionality_dep`. The listing per theorem is at the end of this file.
   No other library contributes an axiom.
3. That the definitions in `M_*.v` say what the Go source says. Each carries the file and lines it was read from,
   and the simplifications made.
4. That `Go*.v` describes the Go language and library correctly where the code uses them.

### Models of Go and its library

| file | what |
|---|---|
| `GoBase.v` | slices with capacity, panics, little-endian reads, maps, strconv.ParseInt, ParseUint, Itoa, strings functions |
| `GoFloat.v` | float64 over Flocq binary64, conversions with the amd64 result for out-of-range values, math.Floor, Trunc, Round, Modf, `%f` `%e` `%g` and shortest formatting, ParseFloat |
| `GoTime.v` | time.Date, Add, Format on UTC, proleptic Gregorian calendar |
| `GoUnicode.v` | UTF-8 and UTF-16 encoding and decoding |
| `GoPath.v` | path.Clean, Join, Base, strings.TrimSuffix |
| `GoCrypto.v` | MD5 and RC4, executable |

These are parameters (universally quantified in the theorems), not models: the order of map iteration, the result of
sort.Slice (any sorted permutation), which record sync.Pool hands out, the scheduler, the file system
(a function from names to contents, or an arbitrary world for the openers), encoding/csv, archive/zip and
encoding/xml (a part of a package is the list of tokens the decoder would return, ending in an error or at the end),
net/url parsing.

### What of /repo is modelled

* `grate.go`, `errs.go`: all functions.
* `simple/`: all functions. Reading a file is a function from its name to its bytes.
* `commonxl/`: all of sheet.go, cell.go, fmt.go, formats.go, dates.go, numbers.go. `Formatter.Mode1904` is the flag
  of the formatter.
* `xls/cfb/`: all functions except the Debug dump of the header. The file is its bytes.
* `xls/crypto/`: the RC4 decryptor (all functions). The other header structures of crypto.go are not used by the code.
* `xls/`: xls.go (Open, loadFromStream, loadFromStreamWithDecryptor, loadFromStream2, nextRecord,
  Close), sheets.go, strings.go, structs.go, hyperlinks.go, and of records.go the record numbers that the code compares.
* `xlsx/`: xlsx.go, workbook.go, sheets.go, types.go.
* `cmd/grate2tsv`, `cmd/grater`.

### What is not modelled

* Log output and the global `Debug` flags; the text of errors, except where a property is about it (C03).
* Names of records for printing (`recordType.String`), `staticCellType.String`.
* 64-bit overflow of lengths and counters that would need inputs of terabytes. Arithmetic on uint16, uint32 and
  conversions between sizes are modelled with their wrap-around.
* Memory exhaustion (a length in a file that is too large for make is part of this) and signals. Read errors are
  modelled for Open (C111), write errors for grate2tsv (C93); the parts of an opened archive stay as they were at Open.
* Local time zones: all times are UTC, as in the code.
* Data races inside one workbook used from two goroutines without synchronization (the documentation does not allow
  it). Concurrency is modelled for the record pool (C56) and for grate2tsv (C65).

### Print Assumptions, theorem by theorem

Closed under the global context (179 theorems):

C01_open_cases, C01_open_first_decisive, C01_open_unknown, C02_registration_order_irrelevant, C02_table_sorted_permutation, C03_errors_is_chain, C03_wrap_second, C03_wrap_single, C03_wrap_text, C08_after_the_end, C08_cursor, C100_normal, C102_exit, C102_exits, C102_once, C102_own, C102_refines, C102_terminates, C103_file, C103_forged_refuted, C103_glued_refuted, C103_run, C103_tells, C104_globals, C104_overrun_refuted, C104_stream, C105_open, C106_exact, C106_one_content, C106_stream, C107_left, C107_lost, C107_no_package, C107_package, C108_deciphers, C108_loads, C10_grid_unique, C12_stays_at_end, C15_scan, C15_scan_too_many_refuted, C20_dates_panic_refuted, C22_hyperlink_refuted, C23_grouping_unique, C23_only_commas_added, C27_rejected_unchanged, C32_xls_refuted, C32_xlsx_refuted, C34_empty_slice_refuted, C34_read, C34_read_all, C34_read_all_new, C35_back_to_start_refuted, C35_seek, C35_terminates, C35_to_end_refuted, C36_read_all, C36_short_chain, C36_stream_bytes, C36_terminates, C36_terminates_loaded, C37_mini_stream_bytes, C37_read_all, C37_short_mini_chain_refuted, C38_not_in_format, C39_cyclic_difat_refuted, C40_later_entries_panic_refuted, C40_only_first_sector_refuted, C41_at_most_four, C41_empty_name_refuted, C41_fifth_entry_refuted, C41_list, C41_listed_is_found, C41_unlisted_not_found, C42_chunking_irrelevant, C42_chunks, C42_new_ready, C42_reset_ready, C42_set_password_ready, C43_decrypts, C43_decrypts_password, C43_involution, C43_rejects, C44_decrypts, C44_open, C44_other_methods, C45_framing, C45_large_record_refuted, C45_truncated, C46_no_bof_refuted, C46_substreams, C47_long, C47_overrun_refuted, C47_roundtrip, C47_short, C47_text, C48_one_byte_refuted, C48_shared_strings, C52_partition, C54_hyperlinks, C54_trim_unique, C54_version, C56_exclusive, C56_frame, C56_outcome, C56_read, C57_letters_distinct, C57_round_trip, C58_R1C1_refuted, C58_panics, C58_total, C59_phonetic_refuted, C59_shared_strings, C59_space_refuted, C60_large_refuted, C60_style_number, C60_styles, C64_opened_fresh, C65_exit, C65_exits, C65_no_deadlock, C65_no_workers_refuted, C65_terminates, C66_blank, C66_cell, C66_collision_refuted, C66_columns_refuted, C66_files, C66_lines, C66_no_trim_refuted, C66_rows, C68_latin1_refuted, C68_surrogate_refuted, C68_text, C69_styles_refuted, C70_absolute_refuted, C72_ambiguous_refuted, C72_grater, C76_xlsx_close, C76_xlsx_failure_refuted, C77_other_archives, C84_workbook_ends, C85_load, C85_split, C85_split_refuted, C87_open, C87_styles, C89_strict_refuted, C91_label_allowed, C92_brackets, C93_collision_refuted, C93_exit, C93_files, C93_reported_unwritten_refuted, C93_results, C93_write_errors_refuted, C94_dies, C94_lost_refuted, C94_reported_empty_refuted, C94_survives, C94_terminates, C95_assignment_refuted, C95_capacity_refuted, C95_frame, C95_raw, C95_strings_fresh, C95_strings_once, C95_strings_shared_refuted, C95_values, C96_count_refuted, C96_cut_refuted, C96_otherwise, C96_tables, C96_unambiguous, C96_workbook, C97_frame_refuted, C97_links, C97_memory_refuted, C97_overrun_refuted, C97_valid.

Axioms `Classical_Prop.classic` (2 theorems):

C39_exact, C39_terminates.

Axioms `ClassicalDedekindReals.sig_forall_dec`, `ClassicalDedekindReals.sig_not_dec`, `Classical_Prop.classic`, `FunctionalExtensionality.functional_extensionality_dep` (305 theorems):

C04_tsv_round_trip, C04_tsv_rows_are_lines, C05_accept_iff, C05_order_independent, C06_csv_clean_end, C06_csv_opens_refuted, C07_commas_are_not_split_refuted, C09_scan_count, C09_scan_prefix, C09_scan_values, C100_again, C100_long_refuted, C100_rectangles, C100_tables, C101_appended, C101_behind, C101_cut, C101_memory_refuted, C101_panic_refuted, C103_open, C104_file, C104_origin, C104_sheet, C105_get, C105_origin, C105_sheet, C106_exact_open, C106_open, C106_sheet, C107_opened_text, C107_opened_xlsx, C108_opened_xls, C109_less, C109_less_blanks, C109_number_format, C109_scan, C109_scan_float, C109_scan_int, C109_xlsx_number, C10_last_put_wins, C110_general, C110_general_back, C110_general_special, C110_read_back, C110_sprint, C111_errors, C111_steady, C111_swallowed_refuted, C111_text, C111_written_refuted, C111_xls, C111_xlsx, C112_exported, C112_third_refuted, C112_values, C113_accounting, C113_custom, C113_exported, C113_parens, C113_read, C113_refused, C113_rk, C113_separated, C113_separators_refuted, C113_shown, C113_whole, C113_whole_exported, C113_xlsx, C114_all, C114_formats_refuted, C114_hex, C114_number, C114_scan, C114_word, C114_xlsx, C114_xlsx_all, C115_custom, C115_not_read_refuted, C115_shown, C115_whole, C115_whole_refuted, C116_back, C116_custom, C116_read, C116_shown, C11_rectangular, C11_shrink_panics_refuted, C11_strings_width, C12_extra_record_refuted, C12_records, C13_put_frame, C14_set, C14_set_panics_refuted, C14_set_url, C16_A1_dropped_refuted, C16_is_empty, C17_new_cell, C17_new_cell_total, C17_uint_wraps_refuted, C18_coercion, C18_float_to_int, C18_int_to_float, C18_same_type_unchanged, C18_total, C18_type_obeyed, C19_date_text_refuted, C19_dates, C19_empty_text_refuted, C19_exact, C19_general, C19_numbers_refuted, C19_stored, C19_text_lost_refuted, C20_false_and_negative_refuted, C20_irreflexive, C20_less_blank, C20_less_bool_text, C20_less_false, C20_less_means, C20_less_numbers, C20_less_text, C20_less_word, C20_mixed_kinds_refuted, C20_total_big_ints_refuted, C20_total_up_to_equal, C20_transitive, C21_blank_equals_text_refuted, C21_equal_numbers, C21_equal_numbers_real, C21_reflexive, C21_symmetry_refuted, C22_no_panic, C22_set_format, C22_set_url, C22_setters_total, C23_builtin_floats, C23_builtin_integers, C23_commas, C24_builtin_floats, C24_builtin_integers, C24_empty_text_refuted, C24_parens, C25_general, C26_sections, C27_builtin_fixed, C27_first_wins, C27_general_replaces_refuted, C28_cell_panics_refuted, C28_known_ids_render, C28_unknown_panics_refuted, C29_custom_percent_refuted, C29_decimals, C29_truncates, C30_fractional_serials, C30_integral_serials, C30_time_of_day, C31_monotone, C33_carry_refuted, C33_close, C33_exact, C33_improper_refuted, C33_limits, C33_near, C33_negative_refuted, C33_terminates, C33_text, C33_whole, C33_whole_fraction, C33_whole_terminates, C49_double, C49_double_100, C49_integer, C49_integer_100_refuted, C50_cells, C51_marks, C51_xls, C51_xlsx, C51_xlsx_inside, C52_position_refuted, C52_workbook, C53_boundary_refuted, C53_label, C55_xls_refuted, C55_xls_rest, C55_xlsx, C61_sheet, C61_workbook, C62_last_text, C62_shared_refuted, C62_trailing_refuted, C63_link, C63_range_refuted, C63_text_lost_refuted, C63_unknown_refuted, C64_exhausted_refuted, C64_history, C64_missing, C66_reopen, C67_two_decimals, C68_split_refuted, C69_bool_refuted, C69_shared_index_refuted, C69_style_index_refuted, C71_merges_refuted, C71_width_refuted, C74_xls_file, C74_xlsx_file, C75_missing, C75_name_irrelevant, C75_text, C75_tsv_file, C75_zip, C76_handle_left_refuted, C76_text, C77_word_document_refuted, C78_views, C79_buddhist_refuted, C79_dates, C79_elapsed_refuted, C79_hours_refuted, C79_month_refuted, C79_noon_words_refuted, C79_quotes_refuted, C79_tenths_refuted, C79_time_words_refuted, C80_floats, C80_integers, C80_negative_refuted, C80_zero, C81_engineering_refuted, C81_scientific, C82_decimals, C82_exponent_refuted, C82_integers, C82_literal_refuted, C82_negative_section_refuted, C82_percent, C82_rounding_refuted, C82_scientific, C82_static, C82_text, C82_zero_padding_refuted, C83_ampm_refuted, C83_hours_refuted, C83_layout, C83_minutes_refuted, C83_weekday_refuted, C84_endless_refuted, C84_exact, C84_get_ends, C84_open_ends, C85_get, C85_short_refuted, C85_text_refuted, C86_dimension_xlsx_refuted, C86_dimensions_refuted, C87_exact, C87_get, C87_late_dimension_refuted, C88_file, C88_workbook, C89_chart_refuted, C89_formula_refuted, C89_hint_refuted, C89_inline, C89_inline_piece, C89_reference_refuted, C89_runs_refuted, C90_blank_row_refuted, C90_commands, C90_encrypted_file, C90_independent, C90_nil_refuted, C90_one_cell_refuted, C90_printed, C90_tsv_file, C90_xls_file, C90_xlsx_file, C91_chart_refuted, C91_dialog_refuted, C91_label_refuted, C91_link_refuted, C91_nested_refuted, C91_sync_panics_refuted, C91_sync_refuted, C92_accounting, C92_accounting_refuted, C92_condition_refuted, C92_currency_refuted, C92_date_section_refuted, C92_elapsed_refuted, C92_fraction_refuted, C92_general_refuted, C92_optional_refuted, C92_picture_refuted, C92_scaling_refuted, C98_cut_refuted, C98_foreign_refuted, C98_header, C98_short_refuted, C98_text, C99_commands, C99_distinct, C99_sequence, C99_twice_refuted.
