#!/usr/bin/env python3
"""Single source for /verif/properties.jsonl (run: python3 tools/props.py)."""
import json, os
P = []
def p(id, title, statement, quantifier, why, anchors):
    P.append(dict(id=id, title=title, statement=statement, quantifier=quantifier,
                  why_tests_cant=why, anchors=anchors))

# ---------------------------------------------------------------- grate core
p("C01", "Open dispatches by priority and stops at the first decisive opener",
  "grate.Open(filename) calls the registered openers in non-decreasing priority order. It returns the source of the first opener that succeeds; it returns the error of the first opener whose error does not match ErrNotInFormat; no opener after that one is called; and it returns ErrUnknownFormat exactly when every registered opener reports ErrNotInFormat.",
  "every finite history of Register calls and every behaviour of the registered openers",
  "the registration set and every opener's outcome are arbitrary; tests register four fixed openers",
  ["grate.go:Open", "grate.go:Register"])
p("C02", "The opener table is a sorted permutation, independent of registration order",
  "After any sequence of Register calls the table Open walks holds exactly the registered openers, each once, sorted by priority; when priorities are pairwise distinct (as for xls=1, xlsx=5, tsv=10, csv=15) the order Open uses does not depend on the order in which the packages registered.",
  "every sequence of registrations and every (possibly unstable) result of the sort",
  "Go package init order and sort.Slice instability cannot be enumerated by a test",
  ["grate.go:Register", "grate.go:srcTable"])
p("C03", "WrapErr keeps the classification of the second error",
  "errors.Is(WrapErr(a, b), t) holds exactly when errors.Is(b, t) holds, for every target t; WrapErr of one error is that error; errors after the second, and the first one, are not seen by errors.Is.",
  "all errors a, b, any further errors, and all targets",
  "error trees are unbounded; a test only checks some trees",
  ["errs.go:WrapErr", "errs.go:errx.Unwrap"])
# ---------------------------------------------------------------- simple
p("C04", "TSV open/iterate round-trip",
  "For every table whose fields contain no tab or newline, whose lines do not end in a carriage return and fit the scanner's line limit, and whose shape passes the column heuristic, writing it as tab-separated lines and opening it yields exactly its rows, in order, through Next/Strings.",
  "all tables of any size and all field contents",
  "round-trip over unbounded tables", ["simple/tsv.go:OpenTSV", "simple/simple.go:simpleFile"])
p("C05", "TSV/CSV column heuristic does not depend on map iteration order",
  "OpenTSV's accept / not-in-format decision is the same for every order in which Go iterates over the column-count map, and equals: reject exactly when no multi-column width covers more than 10 and more than 80% of the lines but some multi-column width occurs more than 25 times.",
  "all files and all map iteration orders",
  "Go randomises map iteration; a test sees one order per run", ["simple/tsv.go:OpenTSV", "simple/csv.go:OpenCSV"])
p("C06", "OpenCSV accepts well-formed CSV",
  "OpenCSV should return a source for a file the CSV reader parses to the end. (The code violates it: for every input OpenCSV returns an error, because the read loop can only end with a non-nil error.)",
  "all outcomes of the CSV reader: any record list followed by EOF, a parse error or a read error",
  "needs all record lists and all reader endings", ["simple/csv.go:OpenCSV"])
p("C07", "Comma-separated files are opened as comma-separated",
  "With the four stock formats registered, a plain text file without tabs should be split at commas. (Violated: for every text file without tabs the TSV opener accepts first, so every row has one field holding the whole line.)",
  "all text contents without tabs and with lines under the scanner limit",
  "ranges over all text files", ["grate.go:Open", "simple/tsv.go:OpenTSV", "simple/csv.go:OpenCSV"])
p("C08", "Delimited-file cursor",
  "On a source opened by OpenTSV, Next returns true exactly once per row, in order, and false on every later call; between the k-th true Next and the following Next, Strings returns row k, Types and Formats have one entry per field, blank exactly for empty fields.",
  "all row lists and all call histories",
  "call histories are unbounded", ["simple/simple.go:Next", "simple/simple.go:Strings", "simple/simple.go:Types", "simple/simple.go:Formats"])
p("C09", "Delimited-file Scan",
  "Scan fails without writing anything when the number of destinations differs from the number of fields; otherwise it processes destinations left to right, writes the parsed field to each, stops at the first destination it cannot fill (unsupported type, time.Time, number syntax or range error) and leaves all later destinations untouched.",
  "all rows and all lists of destinations", "all destination lists and fields", ["simple/simple.go:Scan"])
# ---------------------------------------------------------------- commonxl.Sheet
p("C10", "Sheet holds exactly the last value put at each position",
  "After any sequence of Put calls at non-negative positions on a new sheet, no call panics, and the content at (r,c) is the cell made from the last Put at (r,c), and blank where nothing was put.",
  "all finite sequences of Put calls, all positions and values",
  "grid contents over unbounded histories", ["commonxl/sheet.go:Put", "commonxl/sheet.go:Resize"])
p("C11", "Sheet rows are rectangular and Strings/Types/Formats never panic while no Resize shrinks the sheet",
  "After any sequence of Put and non-shrinking Resize calls, every row has exactly NumCols cells, so Strings, Types and Formats return NumCols entries for every record. (After a shrinking Resize this fails: Types/Formats index out of range and panic.)",
  "all sequences of Put/Resize", "shape invariant over unbounded histories", ["commonxl/sheet.go:Resize", "commonxl/sheet.go:Strings", "commonxl/sheet.go:Types", "commonxl/sheet.go:Formats"])
p("C12", "Number of records delivered by a sheet",
  "Iterating a sheet should deliver exactly NumRows records. (Violated: any sheet built by Put/Resize delivers NumRows+1 records, the last one blank.) Once Next returns false it stays false and the current record stays readable.",
  "all sheets built by Put/Resize and all Next histories", "all sheets", ["commonxl/sheet.go:Next", "commonxl/sheet.go:Resize"])
p("C13", "Put changes nothing else",
  "A Put at (r,c) leaves the content of every other position unchanged; it leaves NumRows, NumCols and the cursor unchanged when (r,c) is inside the sheet, and otherwise grows the sheet to exactly cover (r,c) and rewinds the cursor.",
  "all sheets and Put arguments", "frame condition over all states", ["commonxl/sheet.go:Put"])
p("C14", "Set and SetURL act on existing cells only",
  "Set replaces the value of a previously filled in-range cell by the given string and makes it a string cell, touching nothing else; out of range positions are ignored. (Violated at the boundary: col = NumCols, and any never-filled cell, panic.)",
  "all sheets and positions", "all states and positions", ["commonxl/sheet.go:Set", "commonxl/sheet.go:SetURL", "commonxl/cell.go:SetURL"])
p("C15", "Sheet Scan type discipline",
  "Scan writes the cell's value to a destination pointer exactly when its type matches the stored type; the first mismatch or unsupported destination returns an error, all earlier destinations are written and all later ones untouched.",
  "all rows and destination lists no longer than the row", "all rows and destination lists", ["commonxl/sheet.go:Scan"])
p("C16", "IsEmpty reports whether a sheet has data",
  "IsEmpty returns true only if the sheet holds no data. (Violated: a sheet with one filled cell A1 reports IsEmpty, and grate2tsv then drops it.) Any sheet with a cell outside A1 reports non-empty.",
  "all sheets", "all sheets", ["commonxl/sheet.go:IsEmpty", "cmd/grate2tsv/main.go:processFile"])
# ---------------------------------------------------------------- commonxl.Cell
p("C17", "NewCell classifies and preserves values",
  "NewCell maps every builtin integer kind to an integer cell holding the same number, floats to float cells, non-empty text kinds to string cells, empty text to blank cells, bool and time.Time to their own kinds. uint64 values above MaxInt64 become floats; (violated for uint: values above MaxInt64 wrap to negative integers).",
  "all values of every supported kind", "full 64-bit ranges", ["commonxl/cell.go:NewCell"])
p("C18", "Coercion to a format's cell type",
  "NewCellWithType(v, t) yields a cell of type t for every v except blank and date values under integer/float/boolean types; an integer or float value keeps its number under integer/float/boolean coercion (float to integer truncates).",
  "all values and all cell types", "all values x types", ["commonxl/cell.go:NewCellWithType"])
p("C19", "Text survives a numeric or date format",
  "A text cell displays its text whatever number format it carries. (Violated: under an integer/float format unparsable text becomes 0, under a date format it is replaced by an error message, and an empty text under the text format becomes \"<nil>\".)",
  "all texts and all formats", "all strings", ["commonxl/cell.go:NewCellWithType", "commonxl/sheet.go:Strings", "commonxl/dates.go:timeFmtFunc"])
p("C20", "Cell.Less is a strict order on cells of one kind",
  "Restricted to cells of one kind (boolean, integer, non-NaN float, string), Less is irreflexive, transitive and total up to Equal. (Violated: totality fails for integers beyond 2^53, comparing two dates panics, and across kinds it is not an order.)",
  "all cells", "all pairs and triples", ["commonxl/cell.go:Less"])
p("C21", "Cell.Equal is an equivalence",
  "Equal should be reflexive, symmetric and transitive. (Violated: a number equals every text when it is the receiver; a blank equals every text.) On cells of one numeric kind it is equality of the numbers.",
  "all cells", "all pairs", ["commonxl/cell.go:Equal"])
p("C22", "Cells built through the API never panic on Type/FormatNo/Value/URL",
  "Every cell reachable by NewCell, NewCellWithType, SetFormatNumber and SetURL has its type in place, and Type, FormatNo, Value, Clone and URL do not panic; Clone is equal and independent. SetFormatNumber(f) makes FormatNo return f. (Violated for hyperlinked cells, which lose their format number.)",
  "all call histories on a cell", "unbounded histories", ["commonxl/cell.go:SetFormatNumber", "commonxl/cell.go:SetURL", "commonxl/cell.go:Clone"])
# ---------------------------------------------------------------- commonxl formats
p("C23", "Thousands separators",
  "For every optionally signed digit string with optional fraction/exponent tail, the comma wrapper yields the conventional grouping: deleting the commas restores the input, the integer part is split in groups of three from the right, and the tail is unchanged.",
  "all digit strings of any length", "unbounded lengths", ["commonxl/fmt.go:addCommas"])
p("C24", "Negative parentheses",
  "The parenthesis wrapper replaces a leading minus by enclosing parentheses and leaves everything else unchanged; it panics exactly when the wrapped formatter yields the empty string.",
  "all strings", "all strings", ["commonxl/fmt.go:addNegParens"])
p("C25", "General format shows integers exactly",
  "Under General, @ and no format every int64 is rendered as its exact decimal numeral, booleans as TRUE/FALSE and strings as themselves.",
  "all int64, all strings", "2^64 values", ["commonxl/fmt.go:identFunc"])
p("C26", "Section selection of multi-part formats",
  "A format pos;neg;zero;text applies exactly the section for the sign of the value (pos when a section is missing, General for text when there is no fourth).",
  "all values and all section lists", "all values", ["commonxl/fmt.go:switchFmtFunc"])
p("C27", "Built-in formats cannot be altered and custom formats are write-once",
  "No sequence of Formatter.Add calls changes how a built-in format id is applied; a non-General Add for a built-in or already defined id returns an error and changes nothing; the first Add of an id decides it. (A later Add of \"General\" does replace it.)",
  "all sequences of Add", "unbounded histories", ["commonxl/formats.go:Add", "commonxl/formats.go:Apply", "commonxl/formats.go:Get"])
p("C28", "Apply reports unknown format ids",
  "Apply returns false for an unknown id, and Strings then falls back to the default rendering. (Violated: for every id that is neither built-in nor added, Apply calls a nil function and panics; so Strings panics on any cell with such an id.)",
  "all ids and formatter states", "all 2^16 ids and histories", ["commonxl/formats.go:Apply", "commonxl/sheet.go:Strings"])
p("C29", "Percent formats scale by 100",
  "A finite value under a percent format shows its hundredfold. (Violated: format 9 truncates, so 0.29 shows 28%; a custom 0% format first truncates the value to an integer and then does not scale it.)",
  "all floats", "all floats", ["commonxl/fmt.go:sprintfFunc", "commonxl/formats.go:makeFormatter"])
p("C30", "Date serials map to the right calendar day",
  "For every integral serial n in range, ConvertToDate(n) is midnight of 1899-12-30 plus n days (1904-01-01 plus n days in 1904 mode); both code branches agree with the proleptic Gregorian calendar.",
  "all integral serials and both date modes", "all serials; the two branches must meet", ["commonxl/dates.go:ConvertToDate"])
p("C31", "Date conversion is monotone",
  "If a <= b are finite serials in range, then ConvertToDate(a) is not after ConvertToDate(b), fractional serials and rounding included.",
  "all pairs of float64 serials in range", "pairs of floats", ["commonxl/dates.go:ConvertToDate"])
p("C32", "1904 workbooks use the 1904 epoch",
  "A workbook that declares the 1904 date system has its dates converted with that epoch. (Violated in both readers: the flag is read or ignored but never reaches the formatter.)",
  "all workbooks", "all workbooks", ["xls/xls.go:loadFromStream2", "commonxl/formats.go:Mode1904", "xlsx/workbook.go:parseWorkbook"])
p("C33", "Fractions: termination, digit limits, and exactness where the digits suffice",
  "DecimalToFraction terminates for every float64 and, for a value in (1e-9, 1) and digit limits nn, nd, returns 0 <= num < 10^nn and 1 <= den < 10^nd, in lowest terms, with |value - num/den| <= 1/(den 10^min(nn,nd)) up to 1e-9 (three digits at most); so under the formats # ?/? and # ??/?? a number whose fraction has one or two digits in lowest terms is shown as exactly this fraction. (Violated for values below 1e-9 and for negative values, which yield den = 1000000000.)",
  "all float64 values and digit limits", "all floats; loop termination", ["commonxl/numbers.go:DecimalToFraction", "commonxl/numbers.go:DecimalToWholeFraction"])
# ---------------------------------------------------------------- cfb
p("C34", "SliceReader reads the concatenation of its slices",
  "On a SliceReader whose slices are non-empty except possibly the last, any sequence of Read calls with non-empty buffers and Seek calls within range returns exactly the bytes of the concatenated stream at the current position, and io.EOF exactly at its end.",
  "all slice lists, all buffer sizes, all histories of Read and Seek", "unbounded histories", ["xls/cfb/slicereader.go:Read", "xls/cfb/slicereader.go:Seek"])
p("C35", "Seek reaches every in-range position and terminates",
  "Seek to any position strictly inside the stream returns that position; Seek always terminates. (Violated at the edges: seeking back to exactly 0 from inside the first slice, or forward to the end, panics.)",
  "all readers, offsets and whence values", "all states", ["xls/cfb/slicereader.go:Seek"])
p("C36", "Compound-file stream extraction",
  "For every document whose FAT chain covers the stream size, opening a stream of at least 4096 bytes yields exactly the first size bytes of the chain's sectors in chain order; a chain that ends early is an error; extraction terminates for every FAT, cyclic ones included.",
  "all documents, FATs and sizes", "all FAT graphs", ["xls/cfb/cfb.go:getStreamReader", "xls/cfb/interface.go:Open"])
p("C37", "Mini-stream extraction",
  "For a well-formed document, opening a stream under 4096 bytes yields exactly the first size bytes of its mini-sectors in mini-FAT order.",
  "all documents with well-formed FAT and mini FAT", "all documents", ["xls/cfb/cfb.go:getMiniStreamReader"])
p("C38", "Files that are not compound documents are rejected as not-in-format",
  "Opening a file as xls reports ErrNotInFormat for every content shorter than 512 bytes, without the OLE signature, with a wrong byte order mark or a non-zero class id, so Open moves on to the next format.",
  "all byte strings", "all byte strings", ["xls/cfb/cfb.go:load"])
p("C39", "Loading a compound document terminates",
  "Loading a compound document terminates on every input. (Violated, exactly on the files with an accepted header that announces DIFAT sectors, whose listed FAT sectors are inside the file and whose chain of DIFAT sectors goes on for ever through sectors inside the file that mention only such sectors.)",
  "all byte strings", "non-termination is not testable", ["xls/cfb/cfb.go:load"])
p("C40", "Every mini-FAT sector is loaded",
  "A mini FAT of several sectors is loaded completely. (Violated: loading stops after the first sector whenever NumMiniFATSectors is at most the number of entries per sector, so mini-sectors beyond it cannot be followed.)",
  "all documents", "all documents", ["xls/cfb/cfb.go:load"])
p("C41", "Directory lookup",
  "Document.List names every stream entry and Open finds every stream that is listed. (Violated: only the first four directory entries are read.)",
  "all documents", "all directories", ["xls/cfb/cfb.go:buildDirs", "xls/cfb/interface.go:List"])
# ---------------------------------------------------------------- crypto
p("C42", "Decryption does not depend on write chunking",
  "For every way of splitting the input into Write calls, the bytes available after Flush are the same: the input XORed, per 1024-byte block, with the RC4 keystream for that block number.",
  "all inputs and all splits", "all splits", ["xls/crypto/rc4.go:Write", "xls/crypto/rc4.go:Flush"])
p("C43", "Decryption inverts encryption",
  "Applying the decryptor to data encrypted with the same password and salt yields the original data, for every length; the RC4 keystream is applied at the same stream positions.",
  "all plaintexts, salts, passwords", "all plaintexts", ["xls/crypto/rc4.go", "xls/crypto/crypto.go:NewBasicRC4"])
p("C44", "Encrypted workbook streams are restored exactly",
  "For every record stream encrypted per MS-XLS 2.2.10 (headers, exempt records and BoundSheet8 positions in clear), the decrypting loader recovers every record with its plaintext payload. (The trailing record is dropped when it is an empty record.)",
  "all record lists", "all record lists", ["xls/xls.go:loadFromStreamWithDecryptor"])
# ---------------------------------------------------------------- xls
p("C45", "BIFF record framing",
  "Splitting a stream into records recovers exactly the (type, payload) list it was assembled from, for payloads up to 65531 bytes; a truncated final record is an unexpected-EOF error. (Violated for declared sizes 65532..65535: 16-bit overflow makes the reader panic.)",
  "all record lists", "all record lists", ["xls/xls.go:nextRecord", "xls/xls.go:loadFromStream2"])
p("C46", "Substreams partition the records",
  "In a stream of balanced BOF..EOF groups, each top-level group becomes one substream holding exactly its records in order, registered under the byte offset of its BOF. (A stream whose first record is not BOF panics.)",
  "all balanced record streams", "all nestings", ["xls/xls.go:loadFromStream2"])
p("C47", "BIFF string decoding",
  "decodeShortXLUnicodeString and decodeXLUnicodeString invert the MS-XLS encodings, in both 8-bit and 16-bit form, and report the number of bytes consumed.",
  "all strings of up to 255 / 65535 code units", "all strings", ["xls/strings.go"])
p("C48", "Shared string table across Continue records",
  "For every list of strings, every choice of 8/16-bit encoding per chunk, rich-run and phonetic data, and every legal division into SST + Continue records, the shared string table decodes to the original strings in order.",
  "all string lists and all legal record divisions", "all divisions", ["xls/strings.go:parseSST"])
p("C49", "RK numbers",
  "An RK value decodes to the number MS-XLS assigns to it. (Violated: every integer-divided-by-100 RK value decodes to 0.)",
  "all 2^32 RK values", "2^32 values", ["xls/structs.go:RKNumber", "xls/sheets.go:parseSheet"])
p("C50", "Cell records are placed at their coordinates",
  "For every sheet substream of Number, RK, MulRk, LabelSst, BoolErr and Formula records, the sheet returned by Get holds at each coordinate the value of the last record addressing it, and blanks elsewhere.",
  "all record lists", "all record lists", ["xls/sheets.go:parseSheet"])
p("C51", "Merged regions are marked",
  "A merged region leaves its top-left cell as it is and fills the rest: left column with down arrows ending in the end-row mark, right column with the end-column mark, the interior with right arrows; nothing outside the region changes. In XLSX the region is first cut to the declared dimension of the sheet; in XLS a last row of 65535 or a last column of 255 stands for the last declared one.",
  "all rectangles in both readers", "all rectangles", ["xls/sheets.go:parseSheet", "xlsx/sheets.go:parseSheet"])
p("C52", "Sheet listing and lookup",
  "List returns the visible sheets' names in workbook order, ListHidden the others, the two partition the sheets; Get succeeds only for existing names and picks the first sheet of that name. (A sheet whose position matches no substream silently yields substream 0.)",
  "all workbooks", "all workbooks", ["xls/sheets.go:List", "xls/sheets.go:ListHidden", "xls/sheets.go:Get"])
p("C53", "Shared string references are bounds-checked",
  "A LabelSst record with an index outside the string table yields an error. (Violated: the index equal to the table size panics.)",
  "all indices and tables", "boundary over all sizes", ["xls/sheets.go:parseSheet"])
p("C54", "Hyperlink decoding",
  "decodeHyperlinks inverts the MS-XLS Hyperlink encoding for every combination of display name, frame, string moniker / URL moniker and location; the location overrides the moniker.",
  "all hyperlink structures", "all flag combinations and strings", ["xls/hyperlinks.go"])
p("C55", "Use after Close",
  "After Close, operations on the workbook fail cleanly. (Violated for xls: Get of any existing sheet panics; xlsx reports the sheet as not found.) Closing twice is harmless.",
  "all workbooks", "all workbooks", ["xls/xls.go:Close", "xls/sheets.go:Get", "xlsx/xlsx.go:Close"])
p("C56", "Pooled records are never shared between workbooks",
  "Under every interleaving of opening, reading and closing several workbooks, no record is held by two workbooks at once, and closing one workbook does not change what another returns.",
  "all interleavings and any number of workbooks", "interleavings", ["xls/xls.go:recPool", "xls/xls.go:Close"])
# ---------------------------------------------------------------- xlsx
p("C57", "A1 references",
  "For every column number and row number, the A1 reference written for them parses back to them (0-based), and distinct columns have distinct letters.",
  "all columns and rows", "unbounded columns", ["xlsx/types.go:refToIndexes", "xlsx/types.go:col2int"])
p("C58", "References never panic",
  "refToIndexes returns (-1,-1) or indexes for every string. (Violated: a reference such as AB1C slices with a reversed range and panics.)",
  "all strings", "all strings", ["xlsx/types.go:refToIndexes"])
p("C59", "XLSX shared strings",
  "For every shared string table whose items hold text runs, the table read back is, per item, the concatenation of its text in document order.",
  "all token streams of that shape", "all tables", ["xlsx/workbook.go:parseSharedStrings"])
p("C60", "XLSX styles",
  "The number format of cell style k is the numFmtId of the k-th xf of cellXfs, or 0 when applyNumberFormat is \"0\"; custom formats are registered under their ids.",
  "all style sheets", "all style sheets", ["xlsx/workbook.go:parseStyles"])
p("C61", "XLSX cell placement",
  "For every sheet whose cells contain a single value text each, Get yields at each referenced coordinate the value denoted by the cell's type and text, and blanks elsewhere.",
  "all sheets of that shape", "all sheets", ["xlsx/sheets.go:parseSheet"])
p("C62", "Whitespace between XLSX elements is ignored",
  "Indentation whitespace inside <c> does not change the cell. (Violated: whitespace after </v> overwrites the value, and in a shared-string cell it selects string 0.)",
  "all sheets", "all placements of whitespace", ["xlsx/sheets.go:parseSheet"])
p("C63", "XLSX hyperlinks",
  "A hyperlink element marks its cells as links without destroying their content or crashing. (Violated: the text is replaced by the link target; a range ref panics; an unknown relationship id shows \"<nil>\".)",
  "all sheets", "all refs", ["xlsx/sheets.go:parseSheet"])
p("C64", "XLSX Get is idempotent and shares one cursor",
  "Get parses a sheet at most once and returns the same collection each time, including its cursor position; so a second Get after full iteration delivers no more records.",
  "all documents and call histories", "histories", ["xlsx/xlsx.go:Get"])
# ---------------------------------------------------------------- commands
p("C65", "grate2tsv processes every file exactly once under every schedule",
  "With at least one worker, under every interleaving every file named on the command line is processed exactly once, its result lines are written contiguously, every created output is flushed and closed before exit, and the program terminates. (With NumCPU = 1 there are no workers and it blocks forever.)",
  "all schedules, all numbers of files and workers", "schedules", ["cmd/grate2tsv/main.go:main", "cmd/grate2tsv/main.go:runProcessor"])
p("C66", "grate2tsv row output",
  "Each kept row is written as its cells joined by tabs and ended by a newline; with the default flags no cell contains a tab, carriage return or newline, so the output has one line per kept row.",
  "all rows", "all rows", ["cmd/grate2tsv/main.go:processFile"])

# ---------------------------------------------------------------- added as the model grew
p("C67", "Two-decimal formats show the correctly rounded value",
  "Under the built-in formats 0.00, every finite float64 is shown as the decimal with two fractional digits nearest to its exact value (ties to even), with its sign.",
  "all finite float64 values", "2^64 values", ["commonxl/fmt.go:sprintfFunc", "commonxl/fmt.go:goFormatters"])
p("C68", "Formula text results of XLS files",
  "The text result of a formula is the text of its String record and the Continue records after it, whatever the encoding of each chunk. (Violated: 8-bit characters from U+0080 on are passed on as raw bytes, surrogate pairs split over two records become two replacement characters, and 16-bit texts that go on in a second record crash.)",
  "all texts, all splits into records, all encodings", "all strings and splits", ["xls/sheets.go:parseSheet"])
p("C69", "Malformed XLSX parts never crash the reader",
  "A shared string index outside the table, an empty boolean, a negative style number, an xf outside the style tables, a negative count or xfId give an error or are ignored. (Violated: each of them panics.)",
  "all sheets and style sheets of those shapes, whatever comes before and after", "all malformed files", ["xlsx/sheets.go:parseSheet", "xlsx/workbook.go:parseStyles"])
p("C70", "XLSX relationship targets may be absolute or relative",
  "The workbook part is found whether the package relationship names it by a relative or by an absolute target. (Violated: an absolute target such as /xl/workbook.xml makes Open fail; absolute targets in the workbook's own relationships work.)",
  "all packages with an absolute workbook target", "all packages", ["xlsx/xlsx.go:Open", "xlsx/workbook.go:parseRels"])
p("C71", "The dimension element of an XLSX sheet is only a hint",
  "The dimension element does not change which cells and merged regions are shown, and the declared range is shown in full. (Violated: without it merged regions lose all their marks, and the last declared column is missing when nothing is written in it.)",
  "all sheets", "all sheets", ["xlsx/sheets.go:parseSheet"])
p("C72", "grater prints every row",
  "grater prints, for every file and sheet in order, each row as its cells joined by tabs and ended by a newline; a file or sheet that fails is reported on stderr and the others are printed all the same.",
  "all workbooks and command lines", "all inputs", ["cmd/grater/main.go:main"])
p("C73", "grate2tsv keeps the sheets apart",
  "Different sheets are written to different files, and the reported number of columns is the number of columns. (Violated: sheet names that differ only in punctuation, and files of the same base name, share a path; the reported number is the index of the last column; with -w=false the flag -r has no effect on the output.)",
  "all workbooks and flags", "all names", ["cmd/grate2tsv/main.go:processFile"])

p("C74", "A workbook file is read from its bytes to the grid",
  "grate.Open of a file whose bytes are a compound file with a BIFF8 Workbook stream (in sectors or in mini sectors), or a ZIP archive with a SpreadsheetML package, gives a source whose List is the workbook's sheet names in order and whose Get shows that sheet's cells, whatever the file name and the order of registration.",
  "all files of those two kinds, all registration orders, all read buffer sizes", "all files", ["grate.go:Open", "xls/xls.go:Open", "xls/cfb/interface.go:Open", "xlsx/xlsx.go:Open"])
p("C75", "Formats are recognised by content, not by name",
  "With the four packages registered, the outcome of Open depends only on the content of the file: a compound file is an XLS file, otherwise a ZIP archive an XLSX file, otherwise the file is read as TSV; a file that cannot be opened gives the system's error.",
  "all file contents, names and registration orders", "all contents", ["grate.go:Open", "xls/xls.go:Open", "xlsx/xlsx.go:Open", "simple/tsv.go:OpenTSV", "simple/csv.go:OpenCSV"])
p("C76", "Open and Close leave no open file behind",
  "After Open has failed, or after Close of the source it returned, the file is closed. (Violated: xls.Open never closes the file, so that every grate.Open of any existing file leaves a handle; xlsx.Open leaves one when it fails. The XLSX source's own handle is released by Close, and the text openers close theirs.)",
  "all files and all outcomes of Open", "all outcomes", ["xls/cfb/interface.go:Open", "xlsx/xlsx.go:Open", "xlsx/xlsx.go:Close", "simple/tsv.go:OpenTSV"])
p("C77", "Archives that are not workbooks are refused",
  "Opening a ZIP archive that is not a SpreadsheetML package is an error. (Violated: a word-processing document opens without error as a workbook without sheets. An archive without package relationships is not-in-format, one without main part is an error.)",
  "all archives of those shapes", "all archives", ["xlsx/xlsx.go:Open", "xlsx/workbook.go:parseWorkbook"])

p("C78", "Strings, Types and Formats show the last value put at each position",
  "In a sheet built by any Put calls with known formats, Strings, Types and Formats deliver rows of the same shape: at every position Strings shows the last value put there as its format prints it (nothing for a blank, the mark itself for a merge mark), Types names the type it was stored with, and Formats gives the code of its format, or its number when it is not built in; positions never written show an empty text, blank and General.",
  "all histories of Put calls, all positions", "all histories", ["commonxl/sheet.go:Strings", "commonxl/sheet.go:Types", "commonxl/sheet.go:Formats", "commonxl/formats.go:Apply"])
p("C79", "Built-in date formats show the day and the time of the serial",
  "A date serial put with a built-in date or time format is shown as the code of the format says: the calendar day of its integral part and the time of day of its fraction. (Violated: h:mm codes are shown with a leading zero; the words of the Chinese codes are shown in quotes; formats 36 and 50 show the day in the place of the month; [h]:mm:ss shows the hour of the day and not the elapsed hours.)",
  "all serials from 1900-03-01 to 9995-12-31, both date modes, all those formats", "all serials", ["commonxl/fmt.go:goFormatters", "commonxl/dates.go:timeFmtFunc", "commonxl/dates.go:ConvertToDate"])
p("C80", "Accounting formats",
  "Formats 41 to 44 show zero as a dash, other numbers with thousands separators (and two decimals for 43 and 44), with a dollar sign for 42 and 44, and negative numbers in parentheses. (Violated for negative numbers: 41 and 43 show a minus sign, 42 and 44 a minus sign within the parentheses.)",
  "all int64 and all finite float64 numbers", "all numbers", ["commonxl/fmt.go:goFormatters", "commonxl/fmt.go:zeroDashFunc", "commonxl/fmt.go:switchFmtFunc"])
p("C81", "Scientific notation",
  "Format 11 (0.00E+00) shows a number with three significant digits, rounded to nearest, and the decimal exponent with sign and at least two digits; format 48 (##0.0E+0) uses exponents that are multiples of three. (Violated for 48: it shows one digit before the point and any exponent.)",
  "all finite float64 numbers", "all numbers", ["commonxl/fmt.go:goFormatters", "commonxl/fmt.go:sprintfFunc"])

p("C82", "Custom number codes",
  "After Add of a number code made of text, digits (0 or #,##0, with p decimals or in scientific notation) and text, a number is shown with the digits the code asks for, grouped if it says so and correctly rounded, with the text of the code around it; a percent sign scales by 100, @ shows text as it is, and a code without digits shows its text. (Violated: under a code without decimals a number is cut and not rounded; leading zeros asked for by 000 are shown as blanks, one too few; a letter e in quoted text makes the number scientific; a section for negative numbers shows the minus sign again; the exponent is shown with a sign and at least two digits whatever the code asks for.)",
  "all such codes (any texts, any number of decimals, any id from 164 on), all int64 and all finite float64 numbers", "all codes and all numbers", ["commonxl/formats.go:Add", "commonxl/formats.go:makeFormatter", "commonxl/fmt.go:sprintfFunc", "commonxl/fmt.go:surround"])
p("C83", "Custom date codes",
  "After Add of a date code made of year, month, day, weekday, hour, minute and second fields, separators, escaped separators and quoted text, a date serial put with it is shown as the code says. (Violated: h is shown with a leading zero; AM/PM is shown as AM/AM or AM/PM; minutes that are not between hours and seconds are shown as months; dddd shows the short name of the day, the day of the month and ay.)",
  "all such codes of any length with every part at most once, all serials from 1900-03-01 to 9995-12-31, both date modes", "all codes and all serials", ["commonxl/formats.go:makeFormatter", "commonxl/formats.go:Add", "commonxl/dates.go:timeFmtFunc"])

p("C84", "Opening and reading end",
  "Opening a file by name ends after finitely many steps with a source, an error or a panic, whatever bytes the file holds, and so does getting any sheet from any source. (Violated only when the chain of DIFAT sectors of a compound file is endless: a file of 1024 bytes keeps Open busy for ever.)",
  "all file contents (valid or not, compound file, archive or text), all registration orders, all sheet names", "all byte strings", ["grate.go:Open", "xls/xls.go:Open", "xls/xls.go:loadFromStream", "xls/sheets.go:parseSheet", "xls/strings.go:parseSST", "xls/hyperlinks.go:decodeHyperlinks", "xls/cfb/cfb.go:load", "xls/cfb/slicereader.go:Read", "xlsx/xlsx.go:Open", "xlsx/sheets.go:parseSheet"])

p("C85", "Malformed XLS records",
  "Whatever the records of an XLS workbook hold, opening it and getting a sheet give a result or an error and never panic, as long as each record has the bytes its own counts and the format require and text results follow a formula. (Violated outside this: a record one byte shorter than that, a text result without a formula, or a stream that does not begin with a BOF record is a panic and not an error.)",
  "all record streams, encrypted or not, with records of any type and content and of the lengths stated; all sheet names; for the violations, all shorter records", "all record streams and all record contents", ["xls/xls.go:loadFromStream2", "xls/xls.go:nextRecord", "xls/sheets.go:Get", "xls/sheets.go:parseSheet", "xls/strings.go:decodeXLUnicodeString", "xls/hyperlinks.go:decodeHyperlinks", "commonxl/sheet.go:Put"])
p("C86", "Memory follows the file",
  "The memory a sheet takes is bounded by what its file contains. (Violated: the rows and columns an XLS sheet or an XLSX sheet announces are all made at once, so an XLS sheet of 16 bytes can ask for 2^48 cells and an XLSX sheet of one element for any number.)",
  "all announced sizes", "all sizes", ["xls/sheets.go:parseSheet", "xlsx/sheets.go:parseSheet", "commonxl/sheet.go:Resize"])
p("C87", "XLSX sheets of any content",
  "Whatever elements, attributes and texts an XLSX sheet or styles part holds, in any order, opening the workbook and getting a sheet panic exactly when one of a short list of things occurs: a text in a shared-string cell that is no index of the table, an empty text in a boolean cell, a negative style number, a hyperlink or part of a merged region at no position, a reversed reference, an xf outside its tables, a negative xfId or impossible count. In all other cases there is a sheet that can be read, or an error; unknown elements, types, references and styles are ignored. (Violated when a smaller dimension follows the cells: Get succeeds and reading the first record panics.)",
  "all token sequences of sheet and styles parts, all archives, all histories of Get and Next, all sheet names", "all documents and histories", ["xlsx/sheets.go:parseSheet", "xlsx/workbook.go:parseStyles", "xlsx/xlsx.go:Open", "xlsx/xlsx.go:Get", "xlsx/types.go:refToIndexes", "commonxl/sheet.go:Put", "commonxl/sheet.go:Resize"])

p("C88", "Encrypted workbooks show their sheets",
  "A workbook stream whose records are RC4-encrypted with the default password (as Excel does for protected workbooks) is opened, and List, ListHidden and Get give exactly what the plaintext records say: names in order, visibility, every cell of every sheet with the workbook's strings and formats, and an error for unknown names; also when the stream is read out of a compound file through the generic Open.",
  "all workbooks, salts, verifiers, places of the encryption record among the globals, file names, registration orders and buffer capacities", "all workbooks and keys", ["xls/xls.go:loadFromStreamWithDecryptor", "xls/xls.go:loadFromStream2", "xls/sheets.go:Get", "xls/sheets.go:parseSheet", "xls/crypto/rc4.go:NewBasicRC4", "grate.go:Open"])
p("C89", "Optional forms of XLSX content",
  "Content stored in any of the forms the standard allows is shown: inline strings with any number of runs, cells whose position follows from their place, formulas without a stored result, workbooks in the strict form, workbooks with chart sheets. (Holds for inline strings in one piece. Violated otherwise: of an inline string only the last run is shown, or the phonetic hint; cells without a reference are dropped; a formula's text is shown as the value; strict workbooks are refused as invalid; chart sheets are listed but Get on them is an end-of-file error.)",
  "all sheets before the cell, all cell positions, texts and run properties; all packages", "all documents", ["xlsx/sheets.go:parseSheet", "xlsx/workbook.go:parseRels", "xlsx/workbook.go:parseWorkbook", "xlsx/xlsx.go:Open", "xlsx/xlsx.go:Get"])

p("C90", "From the bytes of a file to what the commands print and write",
  "Run on a file that holds a workbook (XLS, XLS encrypted under the default password, XLSX or TSV, under any name and any registration order), grater prints the visible sheets in order, one line per row with the texts of the cells separated by tabs; grate2tsv writes one file per sheet with the non-blank rows, white space normalized, and reports the number of rows. (Violated in details: every sheet is followed by a row of empty cells; a sheet with a single cell is not written by grate2tsv; a link inside the workbook prints as <nil>.)",
  "all files of these kinds, all cell contents with known formats, all file names, flags, registration orders and map iteration orders", "all files", ["cmd/grater/main.go:main", "cmd/grate2tsv/main.go:processFile", "grate.go:Open", "xls/xls.go:Open", "xlsx/xlsx.go:Open", "simple/tsv.go:OpenTSV", "commonxl/sheet.go:Strings"])

p("C91", "Less common forms of XLS content",
  "A cell that an XLS workbook stores in another form that the format allows is shown like the usual form: a text in a Label or RString record as that text, a cell with a link under its own text, the sheet whatever its display flags; what is not a cell (chart data, dialog sheets) is not shown as cells. (Violated: Label and RString records are dropped; a link without display text replaces the cell's text by the bracketed target; a sheet whose synchronized-scrolling flag is set is taken for a dialog sheet, Get returns neither sheet nor error and the commands crash, while real dialog sheets are shown; the data of chart sheets, and what follows a substream inside an embedded substream, are shown as cells.)",
  "all workbooks, sheets, positions and records around such a record", "all record lists around the form in question", ["xls/sheets.go:parseSheet", "xls/sheets.go:Get", "xls/hyperlinks.go:decodeHyperlinks", "cmd/grater/main.go:main"])

p("C92", "Custom format codes with brackets, sections, optional digits and pictures",
  "A custom format code is applied as written: colours and locales in brackets change nothing, currency symbols in brackets are shown, conditions choose the section, [h] counts hours, a date code followed by a text section shows dates by the date code, optional decimals appear when there are any, trailing commas scale, fraction and digit-group pictures are filled, General means General. (Holds for bracketed colours and locales and for positive numbers under the accounting code. Violated otherwise: currency symbols vanish, conditions are ignored, elapsed hours are lost, every date under a code such as yyyy-mm-dd;@ is shown as Go prints a time, 0.## shows no decimals, a trailing comma does not scale, fractions and phone-number pictures are shown as their pattern, [Red]General shows the word General for every value, the accounting code shows (-1.00) and -0.)",
  "all codes of the forms described, all numbers or date serials, all formatters and free format ids", "all codes and values", ["commonxl/formats.go:makeFormatter", "commonxl/formats.go:Add", "commonxl/fmt.go:switchFmtFunc", "commonxl/fmt.go:timeFmtFunc", "commonxl/fmt.go:sprintfFunc", "commonxl/fmt.go:identFunc", "commonxl/cell.go:NewCellWithType"])

p("C93", "What grate2tsv has on disk at any moment",
  "At every moment of every run, so also when the program is killed there: results.txt holds what it held before followed by whole lines, the lines of each reported file together and no file twice, at most one file's lines incomplete; only outputs' paths are touched; each output file already created holds a first part of its text, and all of it once flushed. When the program ends by itself every output is whole. A sheet reported in results.txt is on disk; write errors are reported; the file at a path holds the text of one sheet. (The last three are violated: results.txt is written while the outputs still wait to be flushed, so a reported sheet's file can be empty; errors of Write and Flush are ignored, the program ends as usual with an empty file; two sheets with the same path can leave the second text followed by the tail of the first, or just the second text, depending on the schedule.)",
  "all jobs, numbers of files and workers, initial disks, schedules and crash points; all splits of the text into buffered writes", "all interleavings and all points at which the program may be killed", ["cmd/grate2tsv/main.go:main", "cmd/grate2tsv/main.go:runProcessor", "cmd/grate2tsv/main.go:processFile"])
p("C94", "grate2tsv when one file panics",
  "A file that cannot be read does not affect the others: they are converted and reported all the same. (Holds for files that give an error, and all runs end. Violated for files on which reading panics, as nothing recovers: if there is one the program never comes to its end, in every run it dies; the other files may be lost altogether, or be reported in results.txt while their output files stay empty. The file that panics is never reported.)",
  "all jobs, sets of panicking files, numbers of files and workers, initial disks and schedules", "all interleavings", ["cmd/grate2tsv/main.go:main", "cmd/grate2tsv/main.go:runProcessor", "cmd/grate2tsv/main.go:processFile"])

p("C95", "Cells and rows do not share memory behind the caller's back",
  "A Cell is a slice, but programs that make, clone, put, format and link cells see each variable as a value of its own, whatever append's allocation: a clone is independent of its original, each cell of a sheet of every other, and whatever is done to the cells Raw returned leaves the sheet as it was. What Strings returns is the caller's: writing into it does not change what is read later. (The last holds for sheets; for CSV and TSV files Strings returns the row itself, so it holds only for programs that read each row once, as grate2tsv does. A Cell assigned to another variable is shared, and how far depends on the capacity.)",
  "all programs over any number of cells, all allocation rules; all sequences of Next, Strings and writes into the rows returned", "all programs and histories", ["commonxl/cell.go:Clone", "commonxl/cell.go:SetURL", "commonxl/cell.go:SetFormatNumber", "commonxl/sheet.go:Raw", "commonxl/sheet.go:Put", "commonxl/sheet.go:Strings", "simple/simple.go:Strings"])

p("C96", "Exactly the shared string tables are read",
  "The strings of an XLS workbook are read if and only if the records of its shared string table hold, with nothing missing or left over, a sequence of strings as the format lays them out (characters of either width continued over any number of records with changes of width, formatting runs and phonetic data before or after them, any record boundaries in between); the texts are then determined by the bytes. Anything else is an error. (The last two points are violated in part: a table that does not have this form may also end the program, for every string cut short by the end of the table; and the number of strings announced is not compared with the number present.)",
  "all lists of records with any bytes, all workbook files", "all byte sequences in all splits into records", ["xls/strings.go:parseSST", "xls/xls.go:loadFromStream2"])
p("C97", "What becomes of hyperlink records with arbitrary bytes",
  "A hyperlink record whose announced lengths stay inside it is read; one of another version or with an unknown kind of target is an error; one that announces more than it holds is an error too. What is read depends only on the record. (The last two are violated: a record that announces more than it holds ends the program, except for frame names of about two thousand million characters, whose length wraps around and which are accepted; and what becomes of a record cut off after its class id depends on the bytes that lie behind it in memory.)",
  "all records with any bytes, all bytes behind them", "all byte sequences", ["xls/hyperlinks.go:decodeHyperlinks", "xls/hyperlinks.go:parseHyperlinkMoniker"])

p("C98", "Files of other kinds and cut-off workbooks are refused",
  "Opening a file that is neither a workbook of the supported versions nor text is an error. A compound file whose header is not accepted is that error; a file that is neither a compound file nor an archive opens exactly if it reads as text (lines of at most 65535 bytes in a shape the column test accepts). (Violated: a compound file without a stream named Workbook, and one whose Workbook stream is cut short or leads out of the file, is tried as text too, and opens without error as rows of raw bytes exactly if it reads as text.)",
  "all file contents, all registration orders", "all byte strings", ["grate.go:Open", "xls/xls.go:Open", "xls/cfb/cfb.go:Open", "simple/tsv.go:OpenTSV"])

p("C99", "A file that lists one sheet name more than once",
  "The commands treat every listed sheet on its own: what is printed, written and reported for one name does not depend on which names were read before it. For XLS workbooks, and whenever all names differ, this holds. (Violated for XLSX files that list a name twice: the second time the sheet has no rows left, grater prints nothing, and grate2tsv creates the file that it has just written again, empty, and reports no rows.)",
  "all files, all lists of names with any repetitions", "all sequences of Get over shared collections", ["cmd/grate2tsv/main.go:processFile", "cmd/grater/main.go:main", "xlsx/xlsx.go:Get", "xls/xls.go:Get"])

p("C100", "What grate2tsv wrote can be opened and converted again",
  "With the default flags the file that grate2tsv writes for a sheet of a workbook opens as a text file whose rows are exactly the rows written, grater prints these rows, and grate2tsv writes the same bytes again. (Violated for long rows: a file with a line of more than 65535 bytes is not opened.)",
  "all sheets of all sources, all cell texts, all registration orders", "all tables", ["cmd/grate2tsv/main.go:processFile", "simple/tsv.go:OpenTSV", "grate.go:Open"])

p("C101", "A workbook file that was cut off or continued",
  "If the first part of an XLS file opens as a workbook, the whole file opens as the same workbook: a file that was cut off is refused or is complete, never another workbook. Bytes appended to a file that stores a workbook change nothing. (The first is proved when no unused memory lies behind the part that was read; in general what opens is the part followed by this memory. So it is violated for every file that ends before the last sector of its workbook does: Open ends the program when the memory behind is too short, and otherwise takes its bytes for the lost ones without an error, for zero bytes too.)",
  "all files, all places to cut, all appended bytes, all bytes in memory behind", "all byte strings and cut points", ["xls/cfb/cfb.go:load", "xls/cfb/cfb.go:getStreamReader", "xls/cfb/cfb.go:getMiniStreamReader", "xls/cfb/cfb.go:buildDirs", "xls/xls.go:Open", "grate.go:Open"])

p("C102", "The pooled output structs of grate2tsv",
  "However the goroutines of grate2tsv are scheduled and whatever the pool of output structs returns or loses: the rows of a sheet go to the writer of its own file; the clean-up goroutine flushes and closes the writer and the file of one and the same output, when no worker writes to it any more; no struct is in two hands at a time and none is used without file or writer; the program ends, and then every output of every file was created, flushed and closed, once.",
  "all sets of files and outputs, all numbers of workers, all schedules, all choices of the pool", "all schedules and pool choices", ["cmd/grate2tsv/main.go:main", "cmd/grate2tsv/main.go:runProcessor", "cmd/grate2tsv/main.go:processFile", "cmd/grate2tsv/main.go:outpool"])
p("C103", "The results file of grate2tsv",
  "When grate2tsv ends, its results file consists of what was there before, or a header if it was empty, and of the records of every file given, each once and together, one record per sheet or one for a file that could not be converted. grate opens this file, whatever the number of records, and shows them; and no two outcomes have the same records. (Violated if a sheet or file name has a tab or newline: it can pass for further records; and if the file did not end with a newline before: the first record is glued to the rest.)",
  "all workbooks, all schedules, all earlier contents of the results file", "all workbooks, names, schedules and earlier contents", ["cmd/grate2tsv/main.go:main", "cmd/grate2tsv/main.go:runProcessor", "cmd/grate2tsv/main.go:processFile", "simple/tsv.go:OpenTSV"])

p("C104", "An XLS sheet shows what its own records say, whatever file they come from",
  "If an XLS file, well-formed or not, can be opened and a sheet of it can be read, then the file is a sequence of records with at most three bytes behind it; the sheets, cell formats and number formats are those of its BoundSheet, XF and Format records in order; and the sheet shows, for the substream at the position that the first BoundSheet record of its name gives, the last value that the records of this substream give for each cell and nothing anywhere else. In particular every cell that is not blank comes from a record of that substream that is about this cell. (Violated by names and number formats announced longer than their record: they are filled up with the bytes of the next one.)",
  "all byte sequences, all sheets; substreams with at most one Dimensions record of full length", "all byte sequences", ["xls/xls.go:loadFromStream", "xls/xls.go:loadFromStream2", "xls/sheets.go:Get", "xls/sheets.go:parseSheet", "xls/strings.go"])

p("C105", "An XLSX sheet shows what its own part says, whatever package it comes from",
  "If an XLSX package, well-formed or not, can be opened, then its sheets are the sheet elements of the workbook part that the relationships name, each with the part that the last worksheet relationship of its id points to, and its shared strings and formats are those of all parts that relationships of these types point to. Get of a name, whatever was asked before, gives the first sheet of that name: an error and no cell if the part cannot be read, and otherwise for each cell the last thing that the tokens of the part say about it and nothing anywhere else. In particular every cell that is not blank comes from the text of a cell element that names its position, from a merged region around it, or from a hyperlink at it.",
  "all packages, all token sequences, all histories of calls; sheet parts whose dimension element comes at most once and before the cells", "all packages and token sequences", ["xlsx/xlsx.go:Open", "xlsx/xlsx.go:Get", "xlsx/workbook.go:parseRels", "xlsx/workbook.go:parseWorkbook", "xlsx/workbook.go:parseStyles", "xlsx/workbook.go:parseSharedStrings", "xlsx/sheets.go:parseSheet"])

p("C106", "What is read out of a compound file, for every file",
  "Whatever the bytes of a file are: a stream of it can be opened and read to its end exactly if the header has the fixed values it must have, the names of the directory entries up to the first stream of that name can be looked at, and the FAT, DIFAT and mini FAT sectors, the root entry and the chains lead to a content for it within what was read of the file (and the buffer behind it). What is read then is that content, and the tables of a file lead to at most one. So grate.Open gives an XLS workbook for exactly the files whose tables lead to a content for the stream Workbook that loads as a workbook, and each sheet of it shows what the records of that content say.",
  "all byte sequences, well-formed or not, all sizes of reads, all stream names", "all byte sequences and read sizes", ["xls/cfb/cfb.go:load", "xls/cfb/cfb.go:buildDirs", "xls/cfb/cfb.go:getStreamReader", "xls/cfb/cfb.go:getMiniStreamReader", "xls/cfb/interface.go:Open", "xls/cfb/slicereader.go:Read", "xls/xls.go:Open", "grate.go:Open"])

p("C107", "Which files Open opens, and as what",
  "Whatever the bytes of a file are: a file is left by the XLS reader to the others exactly if it is no compound file, or a compound file with all its tables that has no stream Workbook or whose chain for it ends or leaves the file too early. Open gives an XLSX document for exactly those of the files left that are archives with a package in them: top relationships naming an office document, the relationships of this, a workbook part whose sheets have ids and names, and all styles and shared strings parts there and readable. Open gives a text table for exactly those that are no archive, or one without top relationships, and that read as text, and the rows are those of the text. All others, and those that C106 tells, are refused.",
  "all byte sequences, all archives and token sequences, all orders of map iteration", "all byte sequences and archives", ["grate.go:Open", "xls/xls.go:Open", "xls/cfb/cfb.go:load", "xls/cfb/interface.go:Open", "xlsx/xlsx.go:Open", "xlsx/workbook.go:parseRels", "xlsx/workbook.go:parseWorkbook", "xlsx/workbook.go:parseStyles", "simple/tsv.go:OpenTSV"])

p("C108", "Which workbook streams load, exactly",
  "Whatever the bytes of a Workbook stream are: it loads exactly if it is a sequence of records of at most 65531 bytes with at most three bytes behind it, the first one a BOF record, and each record can be read: a BOF record of version 8 of 1996 or 1997, code page, date system and cell format records long enough, names and number formats with room for their characters (in the record if of two bytes each, and up to the end of the buffer otherwise), and string tables that are tables with the Continue records that directly follow. With a FilePass record this must be the 54 bytes of the first kind of encryption for the default password, and the records are those of the deciphered stream: the bytes of each record deciphered from the position where they stand in the file, apart from the records and the first bytes of sheet records that are never enciphered. So grate.Open gives an XLS workbook for exactly the files that C106 tells with such a content.",
  "all byte sequences, all bytes behind them in memory", "all byte sequences", ["xls/xls.go:loadFromStream", "xls/xls.go:loadFromStream2", "xls/xls.go:loadFromStreamWithDecryptor", "xls/xls.go:nextRecord", "xls/crypto/crypto.go:NewBasicRC4", "xls/crypto/rc4.go:Verify", "xls/strings.go", "grate.go:Open"])

p("C109", "A decimal number in a text is read as the nearest float64, an integer exactly",
  "A decimal numeral (sign, digits, fraction, exponent) in a text table scanned into a float64, in a number cell of an XLSX sheet, put into a cell with a number format or compared with a number is the float64 nearest to the number it denotes, ties to even, with its sign. If that is beyond the largest float64, Scan reports a range error, an XLSX cell keeps the text and a formatted cell holds an infinity. An integer numeral scanned into an int gives that integer if it fits, else the nearest int and a range error; any other text gives an error.",
  "all decimal numerals with an exponent below 100000 or of at most 9000 characters, all texts for integers", "all numerals, of any number of digits", ["simple/simple.go:Scan", "xlsx/sheets.go:parseSheet", "commonxl/cell.go:NewCellWithType", "commonxl/cell.go:Less"])

p("C110", "What General shows of a number, and that it reads back",
  "A finite float64 under General, @ or no format is shown in plain decimals with the fewest digits that still identify it if that text has at most 11 characters (12 with a minus sign); else by six significant digits, correctly rounded, if that has at most 11 characters; else in scientific notation with the fewest digits that identify it. The first and the last text, and the text of any number printed without a format, read back as exactly that float64 when scanned; infinities and NaN show as +Inf, -Inf and NaN.",
  "all float64 values", "2^64 values, and all decimal numbers for being the shortest", ["commonxl/fmt.go:identFunc", "commonxl/formats.go:Apply", "simple/simple.go:Scan"])
p("C111", "Read errors, and files that change while they are opened",
  "Each opener opens the file anew. Whatever each of these openings meets (bytes that may differ from one to the next, errors at any point, a file that is gone): an XLS workbook comes from the first reading and is the one that its bytes hold, an XLSX document from the second, a text table from the third, whose rows are those of its complete content; nothing is ever built from a part of a file; an error of opening, and of the first and third reading, is returned. On a file that stays as it is this is Open of the other properties. (Violated: an error while the archive is looked for counts as another format, so that one failed read turns a package into a table of its compressed bytes; a workbook put in place after the first look is returned as a table of its bytes, though no content the file ever had is that table.)",
  "all histories of the file (contents and errors of each opening), all registration orders, all archives and map orders", "all histories of a file and all failure points", ["grate.go:Open", "xls/xls.go:Open", "xls/cfb/interface.go:Open", "xls/cfb/cfb.go:load", "xlsx/xlsx.go:Open", "simple/tsv.go:OpenTSV", "simple/csv.go:OpenCSV"])

p("C112", "Values through grate2tsv and back",
  "A value that a sheet shows under the General format at some row and column is found again in the file that grate2tsv writes for the sheet: opened again, after as many calls of Next as there are written rows up to its own, Scan with a destination of its type in its column and strings elsewhere succeeds and gives it. Integers and truth values come back exactly; a finite float64 comes back exactly unless its plain decimal text has 12 or more characters, and then it may come back as the float64 nearest to a six-digit decimal next to it (always finite). The other cells of the row come back as their texts. (Violated as exactness for all numbers: a third comes back as 0.333333.)",
  "all sheets and cell writes, all positions, all int64, bool and finite float64 values, all destinations for the other cells, the flags -p, -r, -w and -b at their defaults", "all sheets, all positions and 2^64 values; the file goes through two formats and two readers", ["cmd/grate2tsv/main.go:processFile", "commonxl/fmt.go:identFunc", "simple/tsv.go:OpenTSV", "simple/simple.go:Scan", "simple/simple.go:Next"])

p("C113", "Decimal amounts are shown exactly and come back exactly",
  "A float64 that is nearest to a decimal amount with p decimals and at most 15 digits in all is shown as exactly that amount by the formats with p decimals: 0.00 and #,##0.00 (p = 2), and every custom code with p decimals, 1 <= p <= 300, with or without separators of thousands and literal texts around it; so it is by formats 39 and 40, with parentheses in place of a minus sign, and above 0 by the accounting formats 43 and 44. The text without separators is read by Scan as the same float64, and so a sheet of amounts under 0.00 comes back exactly from the file that grate2tsv writes for it. A whole number under the format 0 is shown as its numeral and comes back as the same integer, directly and through grate2tsv. A text with any character that numbers do not have is refused by Scan, and so is every amount from 1000 on under #,##0.00. Workbooks deliver such amounts: a number cell of an XLSX sheet whose text spells the amount, with any number of digits and any exponent, holds that float64, and so does an RK cell of an XLS sheet that stores hundredths as a whole double.",
  "all amounts (-1)^s * n / 10^p with n < 10^15, all formatters and free ids, all number codes with p decimals, all sheets and positions", "all amounts and codes; rounding errors of float64 and of the decimal text must never add up to a wrong digit", ["commonxl/fmt.go:sprintfFunc", "commonxl/fmt.go:addCommas", "commonxl/formats.go:Apply", "simple/simple.go:Scan", "cmd/grate2tsv/main.go:processFile"])
p("C114", "Exactly which texts are taken for numbers",
  "Scan into a float64 refuses a text as no number exactly when it is neither one of the words inf, infinity (with an optional sign) and nan in any mixture of small and capital letters, nor a decimal numeral that may have underscores, each between two digits, nor a hexadecimal numeral with an exponent of two, with underscores between its digits or behind its prefix. The number is the float64 nearest to the numeral without its underscores, and the words are the infinities and NaN. The same texts, and no others, become numbers in number cells of XLSX sheets; other texts stay texts there. Under number formats texts that are not taken for numbers should stay texts too, but they are shown like 0, and under date formats as a complaint.",
  "all texts, all formatters and formats", "all texts of any length, with signs, points, exponents and underscores in any places; each place where a text may go wrong is a different case", ["simple/simple.go:Scan", "xlsx/sheets.go:parseSheet", "commonxl/cell.go:NewCellWithType"])
p("C115", "Percentages are shown exactly",
  "A float64 that is nearest to a decimal amount with p + 2 decimals and at most 15 digits in all is shown as exactly its hundredfold with p decimals and a percent sign by the percent formats with p decimals: 0.00% (p = 2) and every custom code with p decimals, 1 <= p <= 298, and a percent sign in the text around the digits. Whole percentages under 0% should be exact too, and the shown text should be read back as the amount. (Violated: 0% cuts the rounded product, so that 0.29 is shown as 28%, though a whole percentage is never shown as more than it is nor as less by more than one; Scan refuses every text with a percent sign.)",
  "all amounts (-1)^s * n / 10^(p+2) with n < 10^15, all formatters and free ids, all percent codes with p decimals", "all amounts and codes; the product with 100 is rounded once more before the text is made, and the errors must never add up to a wrong digit", ["commonxl/fmt.go:sprintfFunc", "commonxl/fmt.go:addCommas", "commonxl/formats.go:Apply", "commonxl/formats.go:makeFormatter", "simple/simple.go:Scan"])
p("C116", "Scientific notation is exact and reads back",
  "A float64 that is nearest to a number of p + 1 decimal digits and a power of ten, d.ddd times ten to the k with p <= 14 and k >= -290, is shown as exactly these digits and this exponent by the scientific formats with p digits behind the point: 0.00E+00 (p = 2) and every custom scientific code, 1 <= p, with any literal texts around it but percent signs. Scan reads the shown number back as the same float64.",
  "all numbers (-1)^s * n * 10^(k-p) with 10^p <= n < 10^(p+1) that are finite as float64, all formatters and free ids, all scientific codes with p digits behind the point", "all digits and exponents; a float64 just below a power of ten must not be shown with the next smaller exponent, and the errors of float64 and of the text must never add up to a wrong digit", ["commonxl/fmt.go:sprintfFunc", "commonxl/formats.go:Apply", "commonxl/formats.go:makeFormatter", "simple/simple.go:Scan"])


if __name__ == "__main__":
    out = os.path.join(os.path.dirname(os.path.abspath(__file__)), "..", "properties.jsonl")
    with open(out, "w") as f:
        for x in P:
            f.write(json.dumps(x, ensure_ascii=False) + "\n")
    print(len(P), "properties")
