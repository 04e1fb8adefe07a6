#!/usr/bin/env python3
"""DESIGN.md: hand-written text below, per-property table and axiom listing from
properties.jsonl, MANIFEST.json and tools/axioms.json."""
import json, os
V = os.path.join(os.path.dirname(os.path.abspath(__file__)), "..")
props = [json.loads(l) for l in open(V + "/properties.jsonl")]
man = {c["property"]: c for c in json.load(open(V + "/MANIFEST.json"))["claims"]}
ax = json.load(open(V + "/tools/axioms.json"))

# (ids, model files, what is modelled, how it is proved)
GROUPS = [
 ("C01 C02 C03", "M_grate", "grate.go, errs.go: the table, Register with any function meeting the contract of sort.Slice, Open over an arbitrary world with openers that may change it, error trees and errors.Is", "induction over the table and over the error tree"),
 ("C04 C05 C06 C07 C08 C09", "M_simple", "simple/*.go on the bytes of the file, bufio.ScanLines with its token limit, strings.Split, strconv parsers; the map of column counts is an association list in any order; encoding/csv is an arbitrary record source", "induction over lines; permutation invariance; float64 quotient compared with the exact rational"),
 ("C10 C11 C12 C13 C14 C15 C16", "M_sheet", "commonxl/sheet.go as a state machine over rows of cells with panicking indexing", "invariant over all histories; refinement to a function from (row, column) to cells"),
 ("C17 C18 C19 C20 C21 C22", "M_value M_cell", "commonxl/cell.go over tagged Go values, type assertions that panic, float64 conversions", "case analysis over all tags; order laws by lia and Flocq"),
 ("C23 C24 C25 C26 C27 C28 C29", "M_fmt M_formats", "commonxl/fmt.go, formats.go: formatter functions as a deep embedding with an evaluator, makeFormatter, Add, Get, Apply, the built-in tables", "list induction, uniqueness of digit grouping, correctly rounded decimal output, witnesses"),
 ("C30 C31 C32", "M_dates", "commonxl/dates.go over binary64 and a proleptic Gregorian calendar", "Flocq reasoning on reals; calendar lemmas by induction over days"),
 ("C33", "M_numbers", "commonxl/numbers.go over binary64", "loop invariant with decreasing measure; closeness by the continued-fraction recurrences over the reals with the rounding errors of the quotients carried along (L_fraction)"),
 ("C34 C35", "M_slicereader", "xls/cfb/slicereader.go", "refinement to (bytes, position) over all histories"),
 ("C36 C37 C38 C39 C40 C41", "M_cfb", "xls/cfb/cfb.go, interface.go on the bytes of the file: header, DIFAT, FAT, mini FAT, directory, stream readers", "an encoder of compound files as the specification; induction along chains; witnesses"),
 ("C42 C43 C44", "M_crypto M_biff", "xls/crypto/*.go with executable RC4 and MD5, loadFromStreamWithDecryptor", "block refinement, XOR involution, record-wise simulation"),
 ("C45 C46", "M_biff", "xls/xls.go: nextRecord, the splitter and the substream grouping", "round trip from an encoder, by induction on records"),
 ("C47 C48 C49", "M_xlstr", "xls/strings.go, structs.go", "round trips from encoders, bit arithmetic"),
 ("C50 C51 C52 C53 C68", "M_xls", "xls/xls.go loadFromStream2, xls/sheets.go parseSheet, List, ListHidden, Get", "simulation of the record loop by a fold over abstract cells; end to end from stream bytes to the grid"),
 ("C54", "M_hlink", "xls/hyperlinks.go", "round trip from an encoder of hyperlink objects"),
 ("C55", "M_xls M_xlsx", "Close of both formats followed by any further calls", "computation on the closed state for arbitrary workbooks"),
 ("C56", "M_pool", "xls.go Close, nextRecord and the record loops as a transition system: a shared heap of records, sync.Pool as a set handing out any member, one thread per workbook", "ownership invariant over all interleavings; simulation with private records"),
 ("C57 C58", "M_xlsx", "xlsx/types.go col2int, refToIndexes", "bijective base 26; exact panic condition"),
 ("C59 C60 C61 C62 C63 C64 C69 C70 C71", "M_xlsx", "xlsx/*.go over a package whose parts are lists of XML tokens; path.Join and path.Clean modelled; ZIP and XML decoding are oracles", "token-stream induction; simulation of parseSheet; end to end from parts to the grid; witnesses"),
 ("C65", "M_tsv", "cmd/grate2tsv: main and runProcessor as a transition system of a producer, workers, two channels, a WaitGroup and a mutex", "inductive invariant over all schedules, decreasing measure, progress"),
 ("C66 C72 C73", "M_tsv", "cmd/grate2tsv processFile and cmd/grater over the interface of an opened file", "list induction, permutations of output files, witnesses"),
 ("C74 C75 C76 C77", "M_open", "xls.Open, cfb.Open, xlsx.Open, OpenTSV and OpenCSV over a file system with open handles, the four Register calls, List and Close of the three kinds of source", "composition of C02, C04, C06, C36, C37, C38, C52 and C61; case analysis over the four openers"),
 ("C78", "M_sheet M_formats", "commonxl/sheet.go Strings, Types, Formats over the rows of a sheet", "invariant over the Put calls (C10) and case analysis of the stored cell"),
 ("C79 C80 C81", "M_fmt M_dates GoTime GoFloat", "the built-in format table; time.Format on the layouts of the table; %E output", "token-wise correspondence of layouts and format codes, calendar theorems (C30); sign and zero tests on reals; correct rounding of decimal digits with a proved exponent search"),
 ("C82 C83", "M_formats M_fmt GoTime", "makeFormatter on custom codes (regular expressions as functions on byte strings), Add, Apply", "codes as lists of items; each textual replacement maps items to items (pieces cannot overlap by the letters they are made of); layouts then split into the chunks of the items. Number codes: positions of digits and point computed for any text around them"),
 ("C93", "M_disk M_tsv", "the transition system of M_tsv with a disk: os.Create empties the path, the buffered writer passes on pieces of at least 4096 bytes, Flush writes the rest at the handle's offset; two handles on one path overlap; writes may fail", "C65's invariant carries over to every step; a second invariant relates each created output's file to how much of its text has been written; the violations are explicit runs for all jobs of the shape"),
 ("C94", "M_disk M_tsv", "a set of files on which processFile panics: the step that would return from it is replaced by the death of the program", "a panicking file stays pending for ever, so exit is not reachable; the order of C65 with the bytes left to write makes every run finite; explicit runs for the losses"),
 ("C95", "M_heap M_cell", "cells as slices over a heap of arrays, append in place or into a new array of any capacity; programs over cell variables; rows of text files and of sheets with the slices Strings returns", "a simulation: no two variables share an array, every operation changes its own array or makes a new one, so the reads follow the value model; for rows, rows ahead of the iterator are untouched"),
 ("C96", "M_xlstr M_xls", "the shared string table parser over any list of records; a grammar of tables written separately: strings as header, first run of characters, further runs with their width marks, runs and phonetic data, each cut into pieces at record ends", "forward by simulation over the pieces; the converse by inverting every step of the parser and reading off the pieces; the workbook theorem by induction over records and substreams"),
 ("C97", "M_hlink", "the hyperlink decoder over any bytes with any memory behind them; the extent of an object computed from offsets and announced lengths alone", "the decoder at offset a is the extent computation at offset a, field by field, for all bytes"),
 ("C98", "M_open M_cfb M_simple", "Open over any bytes and any registration order; the text shape test written separately", "the errors of the compound file reader followed through the format loop; the chain walk of C36 for streams that leave the file"),
 ("C99", "M_cmd M_tsv M_xlsx", "the loops of the commands with each Get on the source that the one before left", "a second Get of an XLSX sheet returns the collection at its end; induction over the names, and equality with the model of C66 and C90 when the names differ"),
 ("C100", "M_tsv M_cmd M_open M_simple", "the text that grate2tsv writes given to Open, grater and grate2tsv", "normalizing a cell twice is normalizing it once; rectangles pass the column test; then C90 and C98 for the opened file"),
 ("C101", "M_cfb M_open M_xls", "the first bytes of a file, and the whole file, each as a slice with its own spare capacity", "whatever is read successfully from the front piece is read from the whole file too: induction over each of the loops of the compound file reader, with a relation between slices (same bytes, longer memory); for the cut last sector the chain is followed up to it"),
 ("C102", "M_outpool M_tsv", "the goroutines of grate2tsv with the structs they pass on as addresses in a heap; Get may return any struct of the pool or a new one, and the pool may lose structs", "a simulation relation with M_tsv: one step is one step there or none, and then a measure gets smaller; ownership is that no address is counted twice among workers, channel, clean-up goroutine and pool"),
 ("C103", "M_report M_tsv M_simple", "the text appended to the results file by the runs of M_tsv, and OpenTSV on it", "the lines of a job are the records of its outcome; C65 for the runs, the round trip of C04 for the file, injectivity of the decimal notation for the converse"),
 ("C104", "M_xls M_biff M_sheet M_xlstr", "what each record says is read off its bytes in S_says (fields at their offsets), with no reference to how the record was made; the text of a hyperlink object is that of the decoder", "the two passes are inverted: a successful read of a record has its fields in range, and the state after it is that of the writes of S_says (invariant over the records); the framing by induction over the splitting loop, with the map of positions as part of the invariant"),
 ("C105", "M_xlsx M_sheet", "relationships, workbook part, styles, shared strings and sheet tokens are read in S_xsays by where they stand, with no reference to how a package was made; XML decoding itself is not modelled (tokens)", "induction over the tokens of each part with what was read before as the invariant; for sheets the step of C87 gives the state and the writes of S_xsays; maps kept by the reader are shown to answer like the last matching relationship; histories by C64"),
 ("C106", "M_cfb M_slicereader M_open", "S_cfbsays reads FAT, DIFAT, mini FAT, directory and chains off the bytes, as relations that need not have a solution; the spare capacity behind the file is a parameter", "each loop of load and Open is inverted (a successful run gives the table) and, for the converse, run along the table; uniqueness of the tables and chains gives the equality of contents; the reader by the pieces before the first empty one"),
 ("C107", "M_open M_grate M_cfb M_xlsx M_simple", "S_which says for bytes and archives which reader they are for; the archive reader is a function from bytes to parts or an error", "each stage of the registered readers is shown to be left exactly for what S_which says: the compound file loops inverted for errors too, no error of loading a workbook is 'not in this format' (induction over each loop), and every step of opening a package succeeds exactly if its part is as described"),
 ("C108", "M_biff M_crypto M_xlstr M_xls M_open", "S_loads says on the records of a stream alone which can be read, how a stream is cut into records and how an enciphered one is cut into pieces and deciphered", "every round of the loops is evaluated in both directions: the decrypting loop is shown equal to the cutting into pieces (with a round that leaves the buffer failing in the next one), the first pass to the cutting into records (unique), the second pass to the readability of each record, independent of the state of the workbook; FilePass by C43_rejects, string tables by C96_tables"),
 ("C109", "GoFloat GoBase M_simple M_xlsx M_cell M_value", "numerals, the rational they denote and the nearest float64 (rounding of real numbers as in Flocq) stated alone in S_numtext; the scanners of GoFloat and GoBase", "the quotient with its sticky bit is the exact quotient rounded to odd, and rounding that to nearest is rounding the exact quotient to nearest (L_round); the scanners by induction over the digits"),
 ("C110", "GoFloat M_fmt M_formats M_value M_simple", "the shortest text of a float64 and its six digit text stated on numerals and nearest float64 values (S_general); FormatFloat as a search over the number of digits", "one rounding is monotone, so if the two neighbours of n digits do not read back no decimal of n digits does; seventeen digits are closer than half the gap between float64 values; the texts by induction over digits"),
 ("C111", "M_fault M_open", "a history gives, for each of the four openings, the bytes read, the error that ended the reading and what archive/zip makes of the file; the openers are those of M_open", "Open is the first answer of the four readings that is not \"not in this format\"; each reading by the exact theorems C106 and C107"),
 ("C112", "M_tsv M_open M_simple M_fmt M_sheet", "composition of models already listed; the values and destinations that suit each other are a small separate spec (S_trip)", "C78/C90 give the text of the cell, C110 what it is; number texts have no white space, so that they are written as they are and their row is kept; C100 reopens the file, C08 finds the row, C09 and C109 read the cell; a six-digit text of a finite float64 never rounds to infinity (an integer argument at 10^303)"),
 ("C113", "M_formats M_fmt M_simple M_tsv M_open", "composition of models already listed; an amount is a small separate spec (S_amount)", "the float64 is off the amount by at most n * 2^-53 + 2^-1075, so that ten to the p times it is within 1/4 of n; the text (C67, C23, C82) is within 1/2, hence its digits spell n; C109 reads them as the nearest float64, which is the one we started from; the file as in C112"),
 ("C114", "GoFloat M_simple M_xlsx M_cell M_sheet M_formats", "ParseFloat is the model of GoFloat; the accepted texts are a separate grammar (S_accept) with no scanner and no flags", "the scans of digits and of the exponent commute with leaving out the underscores, and what they consumed has the shape of a numeral; the check of underscores is an induction over the text with the previous character, equivalent to every underscore standing between digits; values then by C109, formats by C19"),
 ("C115", "M_formats M_fmt M_simple", "composition of models already listed; amounts as in C113 (S_amount)", "as C113, with one more rounding: the rounded product with 100, times ten to the p, is within 3/8 of n, and the text (C29, C82) within 1/2 of it, hence its digits spell n; the violations by computing and by C113_refused"),
 ("C116", "M_formats M_fmt M_simple", "composition of models already listed; the numbers and their scientific texts are a small separate spec (S_sciamount)", "the float64 times ten to the p - k is within n / (9 * 10^15) + 1/1000 of n; the exponent shown (C81, C82) can be no smaller, as the digits would have to be above the largest p + 1 digits, and no larger, as a carry to a power of ten is nearest on the finer grid; with the right exponent the digits are within 1/2 and hence spell n; reading by C109"),
 ("C92", "M_formats M_fmt M_cell", "the codes as lists of parts (S_custom) or tables of codes; sections joined by semicolons; the layout of Go's own time text", "what makeFormatter produces for the code (brackets by induction over the code, tables by computation), then the evaluation lemmas of C82 and C83"),
 ("C91", "M_xls M_cmd", "the forms as records of S_xls (CSkip for Label and RString, the WsBool flags by bit position, substreams by their BOF and EOF records)", "C50 and C52 with these records in place; for nested substreams and flags the two passes over the records directly"),
 ("C90", "M_cmd M_tsv M_open M_sheet M_simple", "the sources of M_open behind the interface that the commands of M_tsv use; rows are read eagerly; names listed twice: C99. The texts of a sheet are a small separate spec (S_text)", "the grid that C50/C61 prove is turned into texts cell by cell (C78); Get of one sheet does not affect another (C90_independent); then C72 and C66 for the output"),
 ("C89", "M_xlsx", "inline strings use the item parts of C59", "the pieces of character data of an inline string are computed by induction over its parts, then C62_last_text; packages by the lemmas of C61_workbook"),
 ("C88", "M_biff M_crypto M_xls M_open", "composition of models already listed; the plaintext groups are those of C52 with a FilePass record among the globals", "C44_open for the decryption; the closing EOF that the decrypting loader drops is shown to be irrelevant to both passes over the records (induction over the records); then the argument of C52 and C74"),
 ("C87 C86", "M_xlsx M_sheet", "fatal tokens and the little the reader remembers between tokens are a small separate spec (S_xrobust)", "induction over the tokens: either the token is fatal and the step panics, or the step succeeds, keeps the sheet reachable by Put and Resize and agrees with the spec's memory; references by C58; histories by C64's tracking invariant"),
 ("C85 C86", "M_biff M_crypto M_hlink M_xlstr M_xls M_sheet", "the least length of each record and the counts within records are a small separate spec (S_robust); the theorems are about any bytes that the loader accepts, encrypted or not", "invariants: every byte of a record is a byte (also after decryption), stored record sizes are the real ones, substream numbers are in range, number formats are 16-bit, the sheet is reachable by Put and Resize, and the cell of the last formula is filled; one lemma per record type. The refuted theorems show that the bounds are exact"),
 ("C84", "M_cfb M_slicereader M_biff M_xlstr M_hlink M_xls M_xlsx M_open", "every loop of the readers whose end is not plain from its header carries a step bound in the model (sector chains, record loops, string loops, the shared string table); the outcome NoFuel means the bound was hit", "measures: bytes left in the stream, records left, characters left; chains cannot go on because every step of a chain consumes a slot of a table of known length; more steps than needed do not change the outcome; the files on which this fails are characterized by their bytes (S_hang, P_hang), both directions, using classical logic"),
 ("C67", "M_fmt M_formats", "sprintf with two decimals on float64", "round-to-nearest-even of the exact value, by Flocq"),
]
EXTRA = {}
info = {}
for ids, f, what, how in GROUPS:
    for i in ids.split(): info[i] = (f, what, how)
o = []
w = o.append
w(open(V + "/tools/design_head.md").read().rstrip())
w("\n## Groups of properties: what is modelled, how it is proved\n")
w("| properties | files | modelled | proof |\n|---|---|---|---|")
for ids, f, what, how in GROUPS:
    w(f"| {ids.replace(' ', ', ')} | {', '.join('`%s.v`' % x for x in f.split())} | {what} | {how} |")
w("\n## Per property\n")
w("Status `partial` means that the full statement of properties.jsonl does not hold of the code, or holds only under the restriction given: "
  "a theorem ending in `_refuted` exhibits (on the model) the failure, and the other theorems give the strongest restriction proved.\n")
w("| id | title | status | theorems | remarks |\n|---|---|---|---|---|")
for p in props:
    c = man[p["id"]]
    assert p["id"] in info, p["id"]
    w(f"| {p['id']} | {p['title'].replace('|', '/')} | {c['status']} | {', '.join(c['theorems'])} | {c['note'].replace('|', '/')} |")
w("")
w(open(V + "/tools/design_tail.md").read().rstrip())
sets = {}
for t in [t for c in man.values() for t in c["theorems"]]:
    s = tuple(sorted(set(ax[t])))
    if t not in sets.setdefault(s, []): sets[s].append(t)
w("\n### Print Assumptions, theorem by theorem\n")
for s in sorted(sets, key=len):
    w(("Closed under the global context" if not s else "Axioms " + ", ".join(f"`{a}`" for a in s)) + f" ({len(sets[s])} theorems):\n")
    w(", ".join(sorted(sets[s])) + ".\n")
open(V + "/DESIGN.md", "w").write("\n".join(o).rstrip() + "\n")
