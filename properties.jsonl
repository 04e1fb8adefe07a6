{"id": "C01", "title": "Open dispatches by priority and stops at the first decisive opener", "statement": "grate.Open(filename) calls the registered openers in non-decreasing priority order. It returns the source of the first opener that succeeds; it returns the error of the first opener whose error does not match ErrNotInFormat; no opener after that one is called; and it returns ErrUnknownFormat exactly when every registered opener reports ErrNotInFormat.", "quantifier": "every finite history of Register calls and every behaviour of the registered openers", "why_tests_cant": "the registration set and every opener's outcome are arbitrary; tests register four fixed openers", "anchors": ["grate.go:Open", "grate.go:Register"]}
{"id": "C02", "title": "The opener table is a sorted permutation, independent of registration order", "statement": "After any sequence of Register calls the table Open walks holds exactly the registered openers, each once, sorted by priority; when priorities are pairwise distinct (as for xls=1, xlsx=5, tsv=10, csv=15) the order Open uses does not depend on the order in which the packages registered.", "quantifier": "every sequence of registrations and every (possibly unstable) result of the sort", "why_tests_cant": "Go package init order and sort.Slice instability cannot be enumerated by a test", "anchors": ["grate.go:Register", "grate.go:srcTable"]}
{"id": "C03", "title": "WrapErr keeps the classification of the second error", "statement": "errors.Is(WrapErr(a, b), t) holds exactly when errors.Is(b, t) holds, for every target t; WrapErr of one error is that error; errors after the second, and the first one, are not seen by errors.Is.", "quantifier": "all errors a, b, any further errors, and all targets", "why_tests_cant": "error trees are unbounded; a test only checks some trees", "anchors": ["errs.go:WrapErr", "errs.go:errx.Unwrap"]}
{"id": "C04", "title": "TSV open/iterate round-trip", "statement": "For every table whose fields contain no tab or newline, whose lines do not end in a carriage return and fit the scanner's line limit, and whose shape passes the column heuristic, writing it as tab-separated lines and opening it yields exactly its rows, in order, through Next/Strings.", "quantifier": "all tables of any size and all field contents", "why_tests_cant": "round-trip over unbounded tables", "anchors": ["simple/tsv.go:OpenTSV", "simple/simple.go:simpleFile"]}
{"id": "C05", "title": "TSV/CSV column heuristic does not depend on map iteration order", "statement": "OpenTSV's accept / not-in-format decision is the same for every order in which Go iterates over the column-count map, and equals: reject exactly when no multi-column width covers more than 10 and more than 80% of the lines but some multi-column width occurs more than 25 times.", "quantifier": "all files and all map iteration orders", "why_tests_cant": "Go randomises map iteration; a test sees one order per run", "anchors": ["simple/tsv.go:OpenTSV", "simple/csv.go:OpenCSV"]}
{"id": "C06", "title": "OpenCSV accepts well-formed CSV", "statement": "OpenCSV should return a source for a file the CSV reader parses to the end. (The code violates it: for every input OpenCSV returns an error, because the read loop can only end with a non-nil error.)", "quantifier": "all outcomes of the CSV reader: any record list followed by EOF, a parse error or a read error", "why_tests_cant": "needs all record lists and all reader endings", "anchors": ["simple/csv.go:OpenCSV"]}
{"id": "C07", "title": "Comma-separated files are opened as comma-separated", "statement": "With the four stock formats registered, a plain text file without tabs should be split at commas. (Violated: for every text file without tabs the TSV opener accepts first, so every row has one field holding the whole line.)", "quantifier": "all text contents without tabs and with lines under the scanner limit", "why_tests_cant": "ranges over all text files", "anchors": ["grate.go:Open", "simple/tsv.go:OpenTSV", "simple/csv.go:OpenCSV"]}
{"id": "C08", "title": "Delimited-file cursor", "statement": "On a source opened by OpenTSV, Next returns true exactly once per row, in order, and false on every later call; between the k-th true Next and the following Next, Strings returns row k, Types and Formats have one entry per field, blank exactly for empty fields.", "quantifier": "all row lists and all call histories", "why_tests_cant": "call histories are unbounded", "anchors": ["simple/simple.go:Next", "simple/simple.go:Strings", "simple/simple.go:Types", "simple/simple.go:Formats"]}
{"id": "C09", "title": "Delimited-file Scan", "statement": "Scan fails without writing anything when the number of destinations differs from the number of fields; otherwise it processes destinations left to right, writes the parsed field to each, stops at the first destination it cannot fill (unsupported type, time.Time, number syntax or range error) and leaves all later destinations untouched.", "quantifier": "all rows and all lists of destinations", "why_tests_cant": "all destination lists and fields", "anchors": ["simple/simple.go:Scan"]}
{"id": "C10", "title": "Sheet holds exactly the last value put at each position", "statement": "After any sequence of Put calls at non-negative positions on a new sheet, no call panics, and the content at (r,c) is the cell made from the last Put at (r,c), and blank where nothing was put.", "quantifier": "all finite sequences of Put calls, all positions and values", "why_tests_cant": "grid contents over unbounded histories", "anchors": ["commonxl/sheet.go:Put", "commonxl/sheet.go:Resize"]}
{"id": "C11", "title": "Sheet rows are rectangular and Strings/Types/Formats never panic while no Resize shrinks the sheet", "statement": "After any sequence of Put and non-shrinking Resize calls, every row has exactly NumCols cells, so Strings, Types and Formats return NumCols entries for every record. (After a shrinking Resize this fails: Types/Formats index out of range and panic.)", "quantifier": "all sequences of Put/Resize", "why_tests_cant": "shape invariant over unbounded histories", "anchors": ["commonxl/sheet.go:Resize", "commonxl/sheet.go:Strings", "commonxl/sheet.go:Types", "commonxl/sheet.go:Formats"]}
{"id": "C12", "title": "Number of records delivered by a sheet", "statement": "Iterating a sheet should deliver exactly NumRows records. (Violated: any sheet built by Put/Resize delivers NumRows+1 records, the last one blank.) Once Next returns false it stays false and the current record stays readable.", "quantifier": "all sheets built by Put/Resize and all Next histories", "why_tests_cant": "all sheets", "anchors": ["commonxl/sheet.go:Next", "commonxl/sheet.go:Resize"]}
{"id": "C13", "title": "Put changes nothing else", "statement": "A Put at (r,c) leaves the content of every other position unchanged; it leaves NumRows, NumCols and the cursor unchanged when (r,c) is inside the sheet, and otherwise grows the sheet to exactly cover (r,c) and rewinds the cursor.", "quantifier": "all sheets and Put arguments", "why_tests_cant": "frame condition over all states", "anchors": ["commonxl/sheet.go:Put"]}
{"id": "C14", "title": "Set and SetURL act on existing cells only", "statement": "Set replaces the value of a previously filled in-range cell by the given string and makes it a string cell, touching nothing else; out of range positions are ignored. (Violated at the boundary: col = NumCols, and any never-filled cell, panic.)", "quantifier": "all sheets and positions", "why_tests_cant": "all states and positions", "anchors": ["commonxl/sheet.go:Set", "commonxl/sheet.go:SetURL", "commonxl/cell.go:SetURL"]}
{"id": "C15", "title": "Sheet Scan type discipline", "statement": "Scan writes the cell's value to a destination pointer exactly when its type matches the stored type; the first mismatch or unsupported destination returns an error, all earlier destinations are written and all later ones untouched.", "quantifier": "all rows and destination lists no longer than the row", "why_tests_cant": "all rows and destination lists", "anchors": ["commonxl/sheet.go:Scan"]}
{"id": "C16", "title": "IsEmpty reports whether a sheet has data", "statement": "IsEmpty returns true only if the sheet holds no data. (Violated: a sheet with one filled cell A1 reports IsEmpty, and grate2tsv then drops it.) Any sheet with a cell outside A1 reports non-empty.", "quantifier": "all sheets", "why_tests_cant": "all sheets", "anchors": ["commonxl/sheet.go:IsEmpty", "cmd/grate2tsv/main.go:processFile"]}
{"id": "C17", "title": "NewCell classifies and preserves values", "statement": "NewCell maps every builtin integer kind to an integer cell holding the same number, floats to float cells, non-empty text kinds to string cells, empty text to blank cells, bool and time.Time to their own kinds. uint64 values above MaxInt64 become floats; (violated for uint: values above MaxInt64 wrap to negative integers).", "quantifier": "all values of every supported kind", "why_tests_cant": "full 64-bit ranges", "anchors": ["commonxl/cell.go:NewCell"]}
{"id": "C18", "title": "Coercion to a format's cell type", "statement": "NewCellWithType(v, t) yields a cell of type t for every v except blank and date values under integer/float/boolean types; an integer or float value keeps its number under integer/float/boolean coercion (float to integer truncates).", "quantifier": "all values and all cell types", "why_tests_cant": "all values x types", "anchors": ["commonxl/cell.go:NewCellWithType"]}
{"id": "C19", "title": "Text survives a numeric or date format", "statement": "A text cell displays its text whatever number format it carries. (Violated: under an integer/float format unparsable text becomes 0, under a date format it is replaced by an error message, and an empty text under the text format becomes \"<nil>\".)", "quantifier": "all texts and all formats", "why_tests_cant": "all strings", "anchors": ["commonxl/cell.go:NewCellWithType", "commonxl/sheet.go:Strings", "commonxl/dates.go:timeFmtFunc"]}
{"id": "C20", "title": "Cell.Less is a strict order on cells of one kind", "statement": "Restricted to cells of one kind (boolean, integer, non-NaN float, string), Less is irreflexive, transitive and total up to Equal. (Violated: totality fails for integers beyond 2^53, comparing two dates panics, and across kinds it is not an order.)", "quantifier": "all cells", "why_tests_cant": "all pairs and triples", "anchors": ["commonxl/cell.go:Less"]}
{"id": "C21", "title": "Cell.Equal is an equivalence", "statement": "Equal should be reflexive, symmetric and transitive. (Violated: a number equals every text when it is the receiver; a blank equals every text.) On cells of one numeric kind it is equality of the numbers.", "quantifier": "all cells", "why_tests_cant": "all pairs", "anchors": ["commonxl/cell.go:Equal"]}
{"id": "C22", "title": "Cells built through the API never panic on Type/FormatNo/Value/URL", "statement": "Every cell reachable by NewCell, NewCellWithType, SetFormatNumber and SetURL has its type in place, and Type, FormatNo, Value, Clone and URL do not panic; Clone is equal and independent. SetFormatNumber(f) makes FormatNo return f. (Violated for hyperlinked cells, which lose their format number.)", "quantifier": "all call histories on a cell", "why_tests_cant": "unbounded histories", "anchors": ["commonxl/cell.go:SetFormatNumber", "commonxl/cell.go:SetURL", "commonxl/cell.go:Clone"]}
{"id": "C23", "title": "Thousands separators", "statement": "For every optionally signed digit string with optional fraction/exponent tail, the comma wrapper yields the conventional grouping: deleting the commas restores the input, the integer part is split in groups of three from the right, and the tail is unchanged.", "quantifier": "all digit strings of any length", "why_tests_cant": "unbounded lengths", "anchors": ["commonxl/fmt.go:addCommas"]}
{"id": "C24", "title": "Negative parentheses", "statement": "The parenthesis wrapper replaces a leading minus by enclosing parentheses and leaves everything else unchanged; it panics exactly when the wrapped formatter yields the empty string.", "quantifier": "all strings", "why_tests_cant": "all strings", "anchors": ["commonxl/fmt.go:addNegParens"]}
{"id": "C25", "title": "General format shows integers exactly", "statement": "Under General, @ and no format every int64 is rendered as its exact decimal numeral, booleans as TRUE/FALSE and strings as themselves.", "quantifier": "all int64, all strings", "why_tests_cant": "2^64 values", "anchors": ["commonxl/fmt.go:identFunc"]}
{"id": "C26", "title": "Section selection of multi-part formats", "statement": "A format pos;neg;zero;text applies exactly the section for the sign of the value (pos when a section is missing, General for text when there is no fourth).", "quantifier": "all values and all section lists", "why_tests_cant": "all values", "anchors": ["commonxl/fmt.go:switchFmtFunc"]}
{"id": "C27", "title": "Built-in formats cannot be altered and custom formats are write-once", "statement": "No sequence of Formatter.Add calls changes how a built-in format id is applied; a non-General Add for a built-in or already defined id returns an error and changes nothing; the first Add of an id decides it. (A later Add of \"General\" does replace it.)", "quantifier": "all sequences of Add", "why_tests_cant": "unbounded histories", "anchors": ["commonxl/formats.go:Add", "commonxl/formats.go:Apply", "commonxl/formats.go:Get"]}
{"id": "C28", "title": "Apply reports unknown format ids", "statement": "Apply returns false for an unknown id, and Strings then falls back to the default rendering. (Violated: for every id that is neither built-in nor added, Apply calls a nil function and panics; so Strings panics on any cell with such an id.)", "quantifier": "all ids and formatter states", "why_tests_cant": "all 2^16 ids and histories", "anchors": ["commonxl/formats.go:Apply", "commonxl/sheet.go:Strings"]}
{"id": "C29", "title": "Percent formats scale by 100", "statement": "A finite value under a percent format shows its hundredfold. (Violated: format 9 truncates, so 0.29 shows 28%; a custom 0% format first truncates the value to an integer and then does not scale it.)", "quantifier": "all floats", "why_tests_cant": "all floats", "anchors": ["commonxl/fmt.go:sprintfFunc", "commonxl/formats.go:makeFormatter"]}
{"id": "C30", "title": "Date serials map to the right calendar day", "statement": "For every integral serial n in range, ConvertToDate(n) is midnight of 1899-12-30 plus n days (1904-01-01 plus n days in 1904 mode); both code branches agree with the proleptic Gregorian calendar.", "quantifier": "all integral serials and both date modes", "why_tests_cant": "all serials; the two branches must meet", "anchors": ["commonxl/dates.go:ConvertToDate"]}
{"id": "C31", "title": "Date conversion is monotone", "statement": "If a <= b are finite serials in range, then ConvertToDate(a) is not after ConvertToDate(b), fractional serials and rounding included.", "quantifier": "all pairs of float64 serials in range", "why_tests_cant": "pairs of floats", "anchors": ["commonxl/dates.go:ConvertToDate"]}
{"id": "C32", "title": "1904 workbooks use the 1904 epoch", "statement": "A workbook that declares the 1904 date system has its dates converted with that epoch. (Violated in both readers: the flag is read or ignored but never reaches the formatter.)", "quantifier": "all workbooks", "why_tests_cant": "all workbooks", "anchors": ["xls/xls.go:loadFromStream2", "commonxl/formats.go:Mode1904", "xlsx/workbook.go:parseWorkbook"]}
{"id": "C33", "title": "Fractions: termination, digit limits, and exactness where the digits suffice", "statement": "DecimalToFraction terminates for every float64 and, for a value in (1e-9, 1) and digit limits nn, nd, returns 0 <= num < 10^nn and 1 <= den < 10^nd, in lowest terms, with |value - num/den| <= 1/(den 10^min(nn,nd)) up to 1e-9 (three digits at most); so under the formats # ?/? and # ??/?? a number whose fraction has one or two digits in lowest terms is shown as exactly this fraction. (Violated for values below 1e-9 and for negative values, which yield den = 1000000000.)", "quantifier": "all float64 values and digit limits", "why_tests_cant": "all floats; loop termination", "anchors": ["commonxl/numbers.go:DecimalToFraction", "commonxl/numbers.go:DecimalToWholeFraction"]}
{"id": "C34", "title": "SliceReader reads the concatenation of its slices", "statement": "On a SliceReader whose slices are non-empty except possibly the last, any sequence of Read calls with non-empty buffers and Seek calls within range returns exactly the bytes of the concatenated stream at the current position, and io.EOF exactly at its end.", "quantifier": "all slice lists, all buffer sizes, all histories of Read and Seek", "why_tests_cant": "unbounded histories", "anchors": ["xls/cfb/slicereader.go:Read", "xls/cfb/slicereader.go:Seek"]}
{"id": "C35", "title": "Seek reaches every in-range position and terminates", "statement": "Seek to any position strictly inside the stream returns that position; Seek always terminates. (Violated at the edges: seeking back to exactly 0 from inside the first slice, or forward to the end, panics.)", "quantifier": "all readers, offsets and whence values", "why_tests_cant": "all states", "anchors": ["xls/cfb/slicereader.go:Seek"]}
{"id": "C36", "title": "Compound-file stream extraction", "statement": "For every document whose FAT chain covers the stream size, opening a stream of at least 4096 bytes yields exactly the first size bytes of the chain's sectors in chain order; a chain that ends early is an error; extraction terminates for every FAT, cyclic ones included.", "quantifier": "all documents, FATs and sizes", "why_tests_cant": "all FAT graphs", "anchors": ["xls/cfb/cfb.go:getStreamReader", "xls/cfb/interface.go:Open"]}
{"id": "C37", "title": "Mini-stream extraction", "statement": "For a well-formed document, opening a stream under 4096 bytes yields exactly the first size bytes of its mini-sectors in mini-FAT order.", "quantifier": "all documents with well-formed FAT and mini FAT", "why_tests_cant": "all documents", "anchors": ["xls/cfb/cfb.go:getMiniStreamReader"]}
{"id": "C38", "title": "Files that are not compound documents are rejected as not-in-format", "statement": "Opening a file as xls reports ErrNotInFormat for every content shorter than 512 bytes, without the OLE signature, with a wrong byte order mark or a non-zero class id, so Open moves on to the next format.", "quantifier": "all byte strings", "why_tests_cant": "all byte strings", "anchors": ["xls/cfb/cfb.go:load"]}
{"id": "C39", "title": "Loading a compound document terminates", "statement": "Loading a compound document terminates on every input. (Violated, exactly on the files with an accepted header that announces DIFAT sectors, whose listed FAT sectors are inside the file and whose chain of DIFAT sectors goes on for ever through sectors inside the file that mention only such sectors.)", "quantifier": "all byte strings", "why_tests_cant": "non-termination is not testable", "anchors": ["xls/cfb/cfb.go:load"]}
{"id": "C40", "title": "Every mini-FAT sector is loaded", "statement": "A mini FAT of several sectors is loaded completely. (Violated: loading stops after the first sector whenever NumMiniFATSectors is at most the number of entries per sector, so mini-sectors beyond it cannot be followed.)", "quantifier": "all documents", "why_tests_cant": "all documents", "anchors": ["xls/cfb/cfb.go:load"]}
{"id": "C41", "title": "Directory lookup", "statement": "Document.List names every stream entry and Open finds every stream that is listed. (Violated: only the first four directory entries are read.)", "quantifier": "all documents", "why_tests_cant": "all directories", "anchors": ["xls/cfb/cfb.go:buildDirs", "xls/cfb/interface.go:List"]}
{"id": "C42", "title": "Decryption does not depend on write chunking", "statement": "For every way of splitting the input into Write calls, the bytes available after Flush are the same: the input XORed, per 1024-byte block, with the RC4 keystream for that block number.", "quantifier": "all inputs and all splits", "why_tests_cant": "all splits", "anchors": ["xls/crypto/rc4.go:Write", "xls/crypto/rc4.go:Flush"]}
{"id": "C43", "title": "Decryption inverts encryption", "statement": "Applying the decryptor to data encrypted with the same password and salt yields the original data, for every length; the RC4 keystream is applied at the same stream positions.", "quantifier": "all plaintexts, salts, passwords", "why_tests_cant": "all plaintexts", "anchors": ["xls/crypto/rc4.go", "xls/crypto/crypto.go:NewBasicRC4"]}
{"id": "C44", "title": "Encrypted workbook streams are restored exactly", "statement": "For every record stream encrypted per MS-XLS 2.2.10 (headers, exempt records and BoundSheet8 positions in clear), the decrypting loader recovers every record with its plaintext payload. (The trailing record is dropped when it is an empty record.)", "quantifier": "all record lists", "why_tests_cant": "all record lists", "anchors": ["xls/xls.go:loadFromStreamWithDecryptor"]}
{"id": "C45", "title": "BIFF record framing", "statement": "Splitting a stream into records recovers exactly the (type, payload) list it was assembled from, for payloads up to 65531 bytes; a truncated final record is an unexpected-EOF error. (Violated for declared sizes 65532..65535: 16-bit overflow makes the reader panic.)", "quantifier": "all record lists", "why_tests_cant": "all record lists", "anchors": ["xls/xls.go:nextRecord", "xls/xls.go:loadFromStream2"]}
{"id": "C46", "title": "Substreams partition the records", "statement": "In a stream of balanced BOF..EOF groups, each top-level group becomes one substream holding exactly its records in order, registered under the byte offset of its BOF. (A stream whose first record is not BOF panics.)", "quantifier": "all balanced record streams", "why_tests_cant": "all nestings", "anchors": ["xls/xls.go:loadFromStream2"]}
{"id": "C47", "title": "BIFF string decoding", "statement": "decodeShortXLUnicodeString and decodeXLUnicodeString invert the MS-XLS encodings, in both 8-bit and 16-bit form, and report the number of bytes consumed.", "quantifier": "all strings of up to 255 / 65535 code units", "why_tests_cant": "all strings", "anchors": ["xls/strings.go"]}
{"id": "C48", "title": "Shared string table across Continue records", "statement": "For every list of strings, every choice of 8/16-bit encoding per chunk, rich-run and phonetic data, and every legal division into SST + Continue records, the shared string table decodes to the original strings in order.", "quantifier": "all string lists and all legal record divisions", "why_tests_cant": "all divisions", "anchors": ["xls/strings.go:parseSST"]}
{"id": "C49", "title": "RK numbers", "statement": "An RK value decodes to the number MS-XLS assigns to it. (Violated: every integer-divided-by-100 RK value decodes to 0.)", "quantifier": "all 2^32 RK values", "why_tests_cant": "2^32 values", "anchors": ["xls/structs.go:RKNumber", "xls/sheets.go:parseSheet"]}
{"id": "C50", "title": "Cell records are placed at their coordinates", "statement": "For every sheet substream of Number, RK, MulRk, LabelSst, BoolErr and Formula records, the sheet returned by Get holds at each coordinate the value of the last record addressing it, and blanks elsewhere.", "quantifier": "all record lists", "why_tests_cant": "all record lists", "anchors": ["xls/sheets.go:parseSheet"]}
{"id": "C51", "title": "Merged regions are marked", "statement": "A merged region leaves its top-left cell as it is and fills the rest: left column with down arrows ending in the end-row mark, right column with the end-column mark, the interior with right arrows; nothing outside the region changes. In XLSX the region is first cut to the declared dimension of the sheet; in XLS a last row of 65535 or a last column of 255 stands for the last declared one.", "quantifier": "all rectangles in both readers", "why_tests_cant": "all rectangles", "anchors": ["xls/sheets.go:parseSheet", "xlsx/sheets.go:parseSheet"]}
{"id": "C52", "title": "Sheet listing and lookup", "statement": "List returns the visible sheets' names in workbook order, ListHidden the others, the two partition the sheets; Get succeeds only for existing names and picks the first sheet of that name. (A sheet whose position matches no substream silently yields substream 0.)", "quantifier": "all workbooks", "why_tests_cant": "all workbooks", "anchors": ["xls/sheets.go:List", "xls/sheets.go:ListHidden", "xls/sheets.go:Get"]}
{"id": "C53", "title": "Shared string references are bounds-checked", "statement": "A LabelSst record with an index outside the string table yields an error. (Violated: the index equal to the table size panics.)", "quantifier": "all indices and tables", "why_tests_cant": "boundary over all sizes", "anchors": ["xls/sheets.go:parseSheet"]}
{"id": "C54", "title": "Hyperlink decoding", "statement": "decodeHyperlinks inverts the MS-XLS Hyperlink encoding for every combination of display name, frame, string moniker / URL moniker and location; the location overrides the moniker.", "quantifier": "all hyperlink structures", "why_tests_cant": "all flag combinations and strings", "anchors": ["xls/hyperlinks.go"]}
{"id": "C55", "title": "Use after Close", "statement": "After Close, operations on the workbook fail cleanly. (Violated for xls: Get of any existing sheet panics; xlsx reports the sheet as not found.) Closing twice is harmless.", "quantifier": "all workbooks", "why_tests_cant": "all workbooks", "anchors": ["xls/xls.go:Close", "xls/sheets.go:Get", "xlsx/xlsx.go:Close"]}
{"id": "C56", "title": "Pooled records are never shared between workbooks", "statement": "Under every interleaving of opening, reading and closing several workbooks, no record is held by two workbooks at once, and closing one workbook does not change what another returns.", "quantifier": "all interleavings and any number of workbooks", "why_tests_cant": "interleavings", "anchors": ["xls/xls.go:recPool", "xls/xls.go:Close"]}
{"id": "C57", "title": "A1 references", "statement": "For every column number and row number, the A1 reference written for them parses back to them (0-based), and distinct columns have distinct letters.", "quantifier": "all columns and rows", "why_tests_cant": "unbounded columns", "anchors": ["xlsx/types.go:refToIndexes", "xlsx/types.go:col2int"]}
{"id": "C58", "title": "References never panic", "statement": "refToIndexes returns (-1,-1) or indexes for every string. (Violated: a reference such as AB1C slices with a reversed range and panics.)", "quantifier": "all strings", "why_tests_cant": "all strings", "anchors": ["xlsx/types.go:refToIndexes"]}
{"id": "C59", "title": "XLSX shared strings", "statement": "For every shared string table whose items hold text runs, the table read back is, per item, the concatenation of its text in document order.", "quantifier": "all token streams of that shape", "why_tests_cant": "all tables", "anchors": ["xlsx/workbook.go:parseSharedStrings"]}
{"id": "C60", "title": "XLSX styles", "statement": "The number format of cell style k is the numFmtId of the k-th xf of cellXfs, or 0 when applyNumberFormat is \"0\"; custom formats are registered under their ids.", "quantifier": "all style sheets", "why_tests_cant": "all style sheets", "anchors": ["xlsx/workbook.go:parseStyles"]}
{"id": "C61", "title": "XLSX cell placement", "statement": "For every sheet whose cells contain a single value text each, Get yields at each referenced coordinate the value denoted by the cell's type and text, and blanks elsewhere.", "quantifier": "all sheets of that shape", "why_tests_cant": "all sheets", "anchors": ["xlsx/sheets.go:parseSheet"]}
{"id": "C62", "title": "Whitespace between XLSX elements is ignored", "statement": "Indentation whitespace inside <c> does not change the cell. (Violated: whitespace after </v> overwrites the value, and in a shared-string cell it selects string 0.)", "quantifier": "all sheets", "why_tests_cant": "all placements of whitespace", "anchors": ["xlsx/sheets.go:parseSheet"]}
{"id": "C63", "title": "XLSX hyperlinks", "statement": "A hyperlink element marks its cells as links without destroying their content or crashing. (Violated: the text is replaced by the link target; a range ref panics; an unknown relationship id shows \"<nil>\".)", "quantifier": "all sheets", "why_tests_cant": "all refs", "anchors": ["xlsx/sheets.go:parseSheet"]}
{"id": "C64", "title": "XLSX Get is idempotent and shares one cursor", "statement": "Get parses a sheet at most once and returns the same collection each time, including its cursor position; so a second Get after full iteration delivers no more records.", "quantifier": "all documents and call histories", "why_tests_cant": "histories", "anchors": ["xlsx/xlsx.go:Get"]}
{"id": "C65", "title": "grate2tsv processes every file exactly once under every schedule", "statement": "With at least one worker, under every interleaving every file named on the command line is processed exactly once, its result lines are written contiguously, every created output is flushed and closed before exit, and the program terminates. (With NumCPU = 1 there are no workers and it blocks forever.)", "quantifier": "all schedules, all numbers of files and workers", "why_tests_cant": "schedules", "anchors": ["cmd/grate2tsv/main.go:main", "cmd/grate2tsv/main.go:runProcessor"]}
{"id": "C66", "title": "grate2tsv row output", "statement": "Each kept row is written as its cells joined by tabs and ended by a newline; with the default flags no cell contains a tab, carriage return or newline, so the output has one line per kept row.", "quantifier": "all rows", "why_tests_cant": "all rows", "anchors": ["cmd/grate2tsv/main.go:processFile"]}
{"id": "C67", "title": "Two-decimal formats show the correctly rounded value", "statement": "Under the built-in formats 0.00, every finite float64 is shown as the decimal with two fractional digits nearest to its exact value (ties to even), with its sign.", "quantifier": "all finite float64 values", "why_tests_cant": "2^64 values", "anchors": ["commonxl/fmt.go:sprintfFunc", "commonxl/fmt.go:goFormatters"]}
{"id": "C68", "title": "Formula text results of XLS files", "statement": "The text result of a formula is the text of its String record and the Continue records after it, whatever the encoding of each chunk. (Violated: 8-bit characters from U+0080 on are passed on as raw bytes, surrogate pairs split over two records become two replacement characters, and 16-bit texts that go on in a second record crash.)", "quantifier": "all texts, all splits into records, all encodings", "why_tests_cant": "all strings and splits", "anchors": ["xls/sheets.go:parseSheet"]}
{"id": "C69", "title": "Malformed XLSX parts never crash the reader", "statement": "A shared string index outside the table, an empty boolean, a negative style number, an xf outside the style tables, a negative count or xfId give an error or are ignored. (Violated: each of them panics.)", "quantifier": "all sheets and style sheets of those shapes, whatever comes before and after", "why_tests_cant": "all malformed files", "anchors": ["xlsx/sheets.go:parseSheet", "xlsx/workbook.go:parseStyles"]}
{"id": "C70", "title": "XLSX relationship targets may be absolute or relative", "statement": "The workbook part is found whether the package relationship names it by a relative or by an absolute target. (Violated: an absolute target such as /xl/workbook.xml makes Open fail; absolute targets in the workbook's own relationships work.)", "quantifier": "all packages with an absolute workbook target", "why_tests_cant": "all packages", "anchors": ["xlsx/xlsx.go:Open", "xlsx/workbook.go:parseRels"]}
{"id": "C71", "title": "The dimension element of an XLSX sheet is only a hint", "statement": "The dimension element does not change which cells and merged regions are shown, and the declared range is shown in full. (Violated: without it merged regions lose all their marks, and the last declared column is missing when nothing is written in it.)", "quantifier": "all sheets", "why_tests_cant": "all sheets", "anchors": ["xlsx/sheets.go:parseSheet"]}
{"id": "C72", "title": "grater prints every row", "statement": "grater prints, for every file and sheet in order, each row as its cells joined by tabs and ended by a newline; a file or sheet that fails is reported on stderr and the others are printed all the same.", "quantifier": "all workbooks and command lines", "why_tests_cant": "all inputs", "anchors": ["cmd/grater/main.go:main"]}
{"id": "C73", "title": "grate2tsv keeps the sheets apart", "statement": "Different sheets are written to different files, and the reported number of columns is the number of columns. (Violated: sheet names that differ only in punctuation, and files of the same base name, share a path; the reported number is the index of the last column; with -w=false the flag -r has no effect on the output.)", "quantifier": "all workbooks and flags", "why_tests_cant": "all names", "anchors": ["cmd/grate2tsv/main.go:processFile"]}
{"id": "C74", "title": "A workbook file is read from its bytes to the grid", "statement": "grate.Open of a file whose bytes are a compound file with a BIFF8 Workbook stream (in sectors or in mini sectors), or a ZIP archive with a SpreadsheetML package, gives a source whose List is the workbook's sheet names in order and whose Get shows that sheet's cells, whatever the file name and the order of registration.", "quantifier": "all files of those two kinds, all registration orders, all read buffer sizes", "why_tests_cant": "all files", "anchors": ["grate.go:Open", "xls/xls.go:Open", "xls/cfb/interface.go:Open", "xlsx/xlsx.go:Open"]}
{"id": "C75", "title": "Formats are recognised by content, not by name", "statement": "With the four packages registered, the outcome of Open depends only on the content of the file: a compound file is an XLS file, otherwise a ZIP archive an XLSX file, otherwise the file is read as TSV; a file that cannot be opened gives the system's error.", "quantifier": "all file contents, names and registration orders", "why_tests_cant": "all contents", "anchors": ["grate.go:Open", "xls/xls.go:Open", "xlsx/xlsx.go:Open", "simple/tsv.go:OpenTSV", "simple/csv.go:OpenCSV"]}
{"id": "C76", "title": "Open and Close leave no open file behind", "statement": "After Open has failed, or after Close of the source it returned, the file is closed. (Violated: xls.Open never closes the file, so that every grate.Open of any existing file leaves a handle; xlsx.Open leaves one when it fails. The XLSX source's own handle is released by Close, and the text openers close theirs.)", "quantifier": "all files and all outcomes of Open", "why_tests_cant": "all outcomes", "anchors": ["xls/cfb/interface.go:Open", "xlsx/xlsx.go:Open", "xlsx/xlsx.go:Close", "simple/tsv.go:OpenTSV"]}
{"id": "C77", "title": "Archives that are not workbooks are refused", "statement": "Opening a ZIP archive that is not a SpreadsheetML package is an error. (Violated: a word-processing document opens without error as a workbook without sheets. An archive without package relationships is not-in-format, one without main part is an error.)", "quantifier": "all archives of those shapes", "why_tests_cant": "all archives", "anchors": ["xlsx/xlsx.go:Open", "xlsx/workbook.go:parseWorkbook"]}
{"id": "C78", "title": "Strings, Types and Formats show the last value put at each position", "statement": "In a sheet built by any Put calls with known formats, Strings, Types and Formats deliver rows of the same shape: at every position Strings shows the last value put there as its format prints it (nothing for a blank, the mark itself for a merge mark), Types names the type it was stored with, and Formats gives the code of its format, or its number when it is not built in; positions never written show an empty text, blank and General.", "quantifier": "all histories of Put calls, all positions", "why_tests_cant": "all histories", "anchors": ["commonxl/sheet.go:Strings", "commonxl/sheet.go:Types", "commonxl/sheet.go:Formats", "commonxl/formats.go:Apply"]}
{"id": "C79", "title": "Built-in date formats show the day and the time of the serial", "statement": "A date serial put with a built-in date or time format is shown as the code of the format says: the calendar day of its integral part and the time of day of its fraction. (Violated: h:mm codes are shown with a leading zero; the words of the Chinese codes are shown in quotes; formats 36 and 50 show the day in the place of the month; [h]:mm:ss shows the hour of the day and not the elapsed hours.)", "quantifier": "all serials from 1900-03-01 to 9995-12-31, both date modes, all those formats", "why_tests_cant": "all serials", "anchors": ["commonxl/fmt.go:goFormatters", "commonxl/dates.go:timeFmtFunc", "commonxl/dates.go:ConvertToDate"]}
{"id": "C80", "title": "Accounting formats", "statement": "Formats 41 to 44 show zero as a dash, other numbers with thousands separators (and two decimals for 43 and 44), with a dollar sign for 42 and 44, and negative numbers in parentheses. (Violated for negative numbers: 41 and 43 show a minus sign, 42 and 44 a minus sign within the parentheses.)", "quantifier": "all int64 and all finite float64 numbers", "why_tests_cant": "all numbers", "anchors": ["commonxl/fmt.go:goFormatters", "commonxl/fmt.go:zeroDashFunc", "commonxl/fmt.go:switchFmtFunc"]}
{"id": "C81", "title": "Scientific notation", "statement": "Format 11 (0.00E+00) shows a number with three significant digits, rounded to nearest, and the decimal exponent with sign and at least two digits; format 48 (##0.0E+0) uses exponents that are multiples of three. (Violated for 48: it shows one digit before the point and any exponent.)", "quantifier": "all finite float64 numbers", "why_tests_cant": "all numbers", "anchors": ["commonxl/fmt.go:goFormatters", "commonxl/fmt.go:sprintfFunc"]}
{"id": "C82", "title": "Custom number codes", "statement": "After Add of a number code made of text, digits (0 or #,##0, with p decimals or in scientific notation) and text, a number is shown with the digits the code asks for, grouped if it says so and correctly rounded, with the text of the code around it; a percent sign scales by 100, @ shows text as it is, and a code without digits shows its text. (Violated: under a code without decimals a number is cut and not rounded; leading zeros asked for by 000 are shown as blanks, one too few; a letter e in quoted text makes the number scientific; a section for negative numbers shows the minus sign again; the exponent is shown with a sign and at least two digits whatever the code asks for.)", "quantifier": "all such codes (any texts, any number of decimals, any id from 164 on), all int64 and all finite float64 numbers", "why_tests_cant": "all codes and all numbers", "anchors": ["commonxl/formats.go:Add", "commonxl/formats.go:makeFormatter", "commonxl/fmt.go:sprintfFunc", "commonxl/fmt.go:surround"]}
{"id": "C83", "title": "Custom date codes", "statement": "After Add of a date code made of year, month, day, weekday, hour, minute and second fields, separators, escaped separators and quoted text, a date serial put with it is shown as the code says. (Violated: h is shown with a leading zero; AM/PM is shown as AM/AM or AM/PM; minutes that are not between hours and seconds are shown as months; dddd shows the short name of the day, the day of the month and ay.)", "quantifier": "all such codes of any length with every part at most once, all serials from 1900-03-01 to 9995-12-31, both date modes", "why_tests_cant": "all codes and all serials", "anchors": ["commonxl/formats.go:makeFormatter", "commonxl/formats.go:Add", "commonxl/dates.go:timeFmtFunc"]}
{"id": "C84", "title": "Opening and reading end", "statement": "Opening a file by name ends after finitely many steps with a source, an error or a panic, whatever bytes the file holds, and so does getting any sheet from any source. (Violated only when the chain of DIFAT sectors of a compound file is endless: a file of 1024 bytes keeps Open busy for ever.)", "quantifier": "all file contents (valid or not, compound file, archive or text), all registration orders, all sheet names", "why_tests_cant": "all byte strings", "anchors": ["grate.go:Open", "xls/xls.go:Open", "xls/xls.go:loadFromStream", "xls/sheets.go:parseSheet", "xls/strings.go:parseSST", "xls/hyperlinks.go:decodeHyperlinks", "xls/cfb/cfb.go:load", "xls/cfb/slicereader.go:Read", "xlsx/xlsx.go:Open", "xlsx/sheets.go:parseSheet"]}
{"id": "C85", "title": "Malformed XLS records", "statement": "Whatever the records of an XLS workbook hold, opening it and getting a sheet give a result or an error and never panic, as long as each record has the bytes its own counts and the format require and text results follow a formula. (Violated outside this: a record one byte shorter than that, a text result without a formula, or a stream that does not begin with a BOF record is a panic and not an error.)", "quantifier": "all record streams, encrypted or not, with records of any type and content and of the lengths stated; all sheet names; for the violations, all shorter records", "why_tests_cant": "all record streams and all record contents", "anchors": ["xls/xls.go:loadFromStream2", "xls/xls.go:nextRecord", "xls/sheets.go:Get", "xls/sheets.go:parseSheet", "xls/strings.go:decodeXLUnicodeString", "xls/hyperlinks.go:decodeHyperlinks", "commonxl/sheet.go:Put"]}
{"id": "C86", "title": "Memory follows the file", "statement": "The memory a sheet takes is bounded by what its file contains. (Violated: the rows and columns an XLS sheet or an XLSX sheet announces are all made at once, so an XLS sheet of 16 bytes can ask for 2^48 cells and an XLSX sheet of one element for any number.)", "quantifier": "all announced sizes", "why_tests_cant": "all sizes", "anchors": ["xls/sheets.go:parseSheet", "xlsx/sheets.go:parseSheet", "commonxl/sheet.go:Resize"]}
{"id": "C87", "title": "XLSX sheets of any content", "statement": "Whatever elements, attributes and texts an XLSX sheet or styles part holds, in any order, opening the workbook and getting a sheet panic exactly when one of a short list of things occurs: a text in a shared-string cell that is no index of the table, an empty text in a boolean cell, a negative style number, a hyperlink or part of a merged region at no position, a reversed reference, an xf outside its tables, a negative xfId or impossible count. In all other cases there is a sheet that can be read, or an error; unknown elements, types, references and styles are ignored. (Violated when a smaller dimension follows the cells: Get succeeds and reading the first record panics.)", "quantifier": "all token sequences of sheet and styles parts, all archives, all histories of Get and Next, all sheet names", "why_tests_cant": "all documents and histories", "anchors": ["xlsx/sheets.go:parseSheet", "xlsx/workbook.go:parseStyles", "xlsx/xlsx.go:Open", "xlsx/xlsx.go:Get", "xlsx/types.go:refToIndexes", "commonxl/sheet.go:Put", "commonxl/sheet.go:Resize"]}
{"id": "C88", "title": "Encrypted workbooks show their sheets", "statement": "A workbook stream whose records are RC4-encrypted with the default password (as Excel does for protected workbooks) is opened, and List, ListHidden and Get give exactly what the plaintext records say: names in order, visibility, every cell of every sheet with the workbook's strings and formats, and an error for unknown names; also when the stream is read out of a compound file through the generic Open.", "quantifier": "all workbooks, salts, verifiers, places of the encryption record among the globals, file names, registration orders and buffer capacities", "why_tests_cant": "all workbooks and keys", "anchors": ["xls/xls.go:loadFromStreamWithDecryptor", "xls/xls.go:loadFromStream2", "xls/sheets.go:Get", "xls/sheets.go:parseSheet", "xls/crypto/rc4.go:NewBasicRC4", "grate.go:Open"]}
{"id": "C89", "title": "Optional forms of XLSX content", "statement": "Content stored in any of the forms the standard allows is shown: inline strings with any number of runs, cells whose position follows from their place, formulas without a stored result, workbooks in the strict form, workbooks with chart sheets. (Holds for inline strings in one piece. Violated otherwise: of an inline string only the last run is shown, or the phonetic hint; cells without a reference are dropped; a formula's text is shown as the value; strict workbooks are refused as invalid; chart sheets are listed but Get on them is an end-of-file error.)", "quantifier": "all sheets before the cell, all cell positions, texts and run properties; all packages", "why_tests_cant": "all documents", "anchors": ["xlsx/sheets.go:parseSheet", "xlsx/workbook.go:parseRels", "xlsx/workbook.go:parseWorkbook", "xlsx/xlsx.go:Open", "xlsx/xlsx.go:Get"]}
{"id": "C90", "title": "From the bytes of a file to what the commands print and write", "statement": "Run on a file that holds a workbook (XLS, XLS encrypted under the default password, XLSX or TSV, under any name and any registration order), grater prints the visible sheets in order, one line per row with the texts of the cells separated by tabs; grate2tsv writes one file per sheet with the non-blank rows, white space normalized, and reports the number of rows. (Violated in details: every sheet is followed by a row of empty cells; a sheet with a single cell is not written by grate2tsv; a link inside the workbook prints as <nil>.)", "quantifier": "all files of these kinds, all cell contents with known formats, all file names, flags, registration orders and map iteration orders", "why_tests_cant": "all files", "anchors": ["cmd/grater/main.go:main", "cmd/grate2tsv/main.go:processFile", "grate.go:Open", "xls/xls.go:Open", "xlsx/xlsx.go:Open", "simple/tsv.go:OpenTSV", "commonxl/sheet.go:Strings"]}
{"id": "C91", "title": "Less common forms of XLS content", "statement": "A cell that an XLS workbook stores in another form that the format allows is shown like the usual form: a text in a Label or RString record as that text, a cell with a link under its own text, the sheet whatever its display flags; what is not a cell (chart data, dialog sheets) is not shown as cells. (Violated: Label and RString records are dropped; a link without display text replaces the cell's text by the bracketed target; a sheet whose synchronized-scrolling flag is set is taken for a dialog sheet, Get returns neither sheet nor error and the commands crash, while real dialog sheets are shown; the data of chart sheets, and what follows a substream inside an embedded substream, are shown as cells.)", "quantifier": "all workbooks, sheets, positions and records around such a record", "why_tests_cant": "all record lists around the form in question", "anchors": ["xls/sheets.go:parseSheet", "xls/sheets.go:Get", "xls/hyperlinks.go:decodeHyperlinks", "cmd/grater/main.go:main"]}
{"id": "C92", "title": "Custom format codes with brackets, sections, optional digits and pictures", "statement": "A custom format code is applied as written: colours and locales in brackets change nothing, currency symbols in brackets are shown, conditions choose the section, [h] counts hours, a date code followed by a text section shows dates by the date code, optional decimals appear when there are any, trailing commas scale, fraction and digit-group pictures are filled, General means General. (Holds for bracketed colours and locales and for positive numbers under the accounting code. Violated otherwise: currency symbols vanish, conditions are ignored, elapsed hours are lost, every date under a code such as yyyy-mm-dd;@ is shown as Go prints a time, 0.## shows no decimals, a trailing comma does not scale, fractions and phone-number pictures are shown as their pattern, [Red]General shows the word General for every value, the accounting code shows (-1.00) and -0.)", "quantifier": "all codes of the forms described, all numbers or date serials, all formatters and free format ids", "why_tests_cant": "all codes and values", "anchors": ["commonxl/formats.go:makeFormatter", "commonxl/formats.go:Add", "commonxl/fmt.go:switchFmtFunc", "commonxl/fmt.go:timeFmtFunc", "commonxl/fmt.go:sprintfFunc", "commonxl/fmt.go:identFunc", "commonxl/cell.go:NewCellWithType"]}
{"id": "C93", "title": "What grate2tsv has on disk at any moment", "statement": "At every moment of every run, so also when the program is killed there: results.txt holds what it held before followed by whole lines, the lines of each reported file together and no file twice, at most one file's lines incomplete; only outputs' paths are touched; each output file already created holds a first part of its text, and all of it once flushed. When the program ends by itself every output is whole. A sheet reported in results.txt is on disk; write errors are reported; the file at a path holds the text of one sheet. (The last three are violated: results.txt is written while the outputs still wait to be flushed, so a reported sheet's file can be empty; errors of Write and Flush are ignored, the program ends as usual with an empty file; two sheets with the same path can leave the second text followed by the tail of the first, or just the second text, depending on the schedule.)", "quantifier": "all jobs, numbers of files and workers, initial disks, schedules and crash points; all splits of the text into buffered writes", "why_tests_cant": "all interleavings and all points at which the program may be killed", "anchors": ["cmd/grate2tsv/main.go:main", "cmd/grate2tsv/main.go:runProcessor", "cmd/grate2tsv/main.go:processFile"]}
{"id": "C94", "title": "grate2tsv when one file panics", "statement": "A file that cannot be read does not affect the others: they are converted and reported all the same. (Holds for files that give an error, and all runs end. Violated for files on which reading panics, as nothing recovers: if there is one the program never comes to its end, in every run it dies; the other files may be lost altogether, or be reported in results.txt while their output files stay empty. The file that panics is never reported.)", "quantifier": "all jobs, sets of panicking files, numbers of files and workers, initial disks and schedules", "why_tests_cant": "all interleavings", "anchors": ["cmd/grate2tsv/main.go:main", "cmd/grate2tsv/main.go:runProcessor", "cmd/grate2tsv/main.go:processFile"]}
{"id": "C95", "title": "Cells and rows do not share memory behind the caller's back", "statement": "A Cell is a slice, but programs that make, clone, put, format and link cells see each variable as a value of its own, whatever append's allocation: a clone is independent of its original, each cell of a sheet of every other, and whatever is done to the cells Raw returned leaves the sheet as it was. What Strings returns is the caller's: writing into it does not change what is read later. (The last holds for sheets; for CSV and TSV files Strings returns the row itself, so it holds only for programs that read each row once, as grate2tsv does. A Cell assigned to another variable is shared, and how far depends on the capacity.)", "quantifier": "all programs over any number of cells, all allocation rules; all sequences of Next, Strings and writes into the rows returned", "why_tests_cant": "all programs and histories", "anchors": ["commonxl/cell.go:Clone", "commonxl/cell.go:SetURL", "commonxl/cell.go:SetFormatNumber", "commonxl/sheet.go:Raw", "commonxl/sheet.go:Put", "commonxl/sheet.go:Strings", "simple/simple.go:Strings"]}
{"id": "C96", "title": "Exactly the shared string tables are read", "statement": "The strings of an XLS workbook are read if and only if the records of its shared string table hold, with nothing missing or left over, a sequence of strings as the format lays them out (characters of either width continued over any number of records with changes of width, formatting runs and phonetic data before or after them, any record boundaries in between); the texts are then determined by the bytes. Anything else is an error. (The last two points are violated in part: a table that does not have this form may also end the program, for every string cut short by the end of the table; and the number of strings announced is not compared with the number present.)", "quantifier": "all lists of records with any bytes, all workbook files", "why_tests_cant": "all byte sequences in all splits into records", "anchors": ["xls/strings.go:parseSST", "xls/xls.go:loadFromStream2"]}
{"id": "C97", "title": "What becomes of hyperlink records with arbitrary bytes", "statement": "A hyperlink record whose announced lengths stay inside it is read; one of another version or with an unknown kind of target is an error; one that announces more than it holds is an error too. What is read depends only on the record. (The last two are violated: a record that announces more than it holds ends the program, except for frame names of about two thousand million characters, whose length wraps around and which are accepted; and what becomes of a record cut off after its class id depends on the bytes that lie behind it in memory.)", "quantifier": "all records with any bytes, all bytes behind them", "why_tests_cant": "all byte sequences", "anchors": ["xls/hyperlinks.go:decodeHyperlinks", "xls/hyperlinks.go:parseHyperlinkMoniker"]}
{"id": "C98", "title": "Files of other kinds and cut-off workbooks are refused", "statement": "Opening a file that is neither a workbook of the supported versions nor text is an error. A compound file whose header is not accepted is that error; a file that is neither a compound file nor an archive opens exactly if it reads as text (lines of at most 65535 bytes in a shape the column test accepts). (Violated: a compound file without a stream named Workbook, and one whose Workbook stream is cut short or leads out of the file, is tried as text too, and opens without error as rows of raw bytes exactly if it reads as text.)", "quantifier": "all file contents, all registration orders", "why_tests_cant": "all byte strings", "anchors": ["grate.go:Open", "xls/xls.go:Open", "xls/cfb/cfb.go:Open", "simple/tsv.go:OpenTSV"]}
{"id": "C99", "title": "A file that lists one sheet name more than once", "statement": "The commands treat every listed sheet on its own: what is printed, written and reported for one name does not depend on which names were read before it. For XLS workbooks, and whenever all names differ, this holds. (Violated for XLSX files that list a name twice: the second time the sheet has no rows left, grater prints nothing, and grate2tsv creates the file that it has just written again, empty, and reports no rows.)", "quantifier": "all files, all lists of names with any repetitions", "why_tests_cant": "all sequences of Get over shared collections", "anchors": ["cmd/grate2tsv/main.go:processFile", "cmd/grater/main.go:main", "xlsx/xlsx.go:Get", "xls/xls.go:Get"]}
{"id": "C100", "title": "What grate2tsv wrote can be opened and converted again", "statement": "With the default flags the file that grate2tsv writes for a sheet of a workbook opens as a text file whose rows are exactly the rows written, grater prints these rows, and grate2tsv writes the same bytes again. (Violated for long rows: a file with a line of more than 65535 bytes is not opened.)", "quantifier": "all sheets of all sources, all cell texts, all registration orders", "why_tests_cant": "all tables", "anchors": ["cmd/grate2tsv/main.go:processFile", "simple/tsv.go:OpenTSV", "grate.go:Open"]}
{"id": "C101", "title": "A workbook file that was cut off or continued", "statement": "If the first part of an XLS file opens as a workbook, the whole file opens as the same workbook: a file that was cut off is refused or is complete, never another workbook. Bytes appended to a file that stores a workbook change nothing. (The first is proved when no unused memory lies behind the part that was read; in general what opens is the part followed by this memory. So it is violated for every file that ends before the last sector of its workbook does: Open ends the program when the memory behind is too short, and otherwise takes its bytes for the lost ones without an error, for zero bytes too.)", "quantifier": "all files, all places to cut, all appended bytes, all bytes in memory behind", "why_tests_cant": "all byte strings and cut points", "anchors": ["xls/cfb/cfb.go:load", "xls/cfb/cfb.go:getStreamReader", "xls/cfb/cfb.go:getMiniStreamReader", "xls/cfb/cfb.go:buildDirs", "xls/xls.go:Open", "grate.go:Open"]}
{"id": "C102", "title": "The pooled output structs of grate2tsv", "statement": "However the goroutines of grate2tsv are scheduled and whatever the pool of output structs returns or loses: the rows of a sheet go to the writer of its own file; the clean-up goroutine flushes and closes the writer and the file of one and the same output, when no worker writes to it any more; no struct is in two hands at a time and none is used without file or writer; the program ends, and then every output of every file was created, flushed and closed, once.", "quantifier": "all sets of files and outputs, all numbers of workers, all schedules, all choices of the pool", "why_tests_cant": "all schedules and pool choices", "anchors": ["cmd/grate2tsv/main.go:main", "cmd/grate2tsv/main.go:runProcessor", "cmd/grate2tsv/main.go:processFile", "cmd/grate2tsv/main.go:outpool"]}
{"id": "C103", "title": "The results file of grate2tsv", "statement": "When grate2tsv ends, its results file consists of what was there before, or a header if it was empty, and of the records of every file given, each once and together, one record per sheet or one for a file that could not be converted. grate opens this file, whatever the number of records, and shows them; and no two outcomes have the same records. (Violated if a sheet or file name has a tab or newline: it can pass for further records; and if the file did not end with a newline before: the first record is glued to the rest.)", "quantifier": "all workbooks, all schedules, all earlier contents of the results file", "why_tests_cant": "all workbooks, names, schedules and earlier contents", "anchors": ["cmd/grate2tsv/main.go:main", "cmd/grate2tsv/main.go:runProcessor", "cmd/grate2tsv/main.go:processFile", "simple/tsv.go:OpenTSV"]}
{"id": "C104", "title": "An XLS sheet shows what its own records say, whatever file they come from", "statement": "If an XLS file, well-formed or not, can be opened and a sheet of it can be read, then the file is a sequence of records with at most three bytes behind it; the sheets, cell formats and number formats are those of its BoundSheet, XF and Format records in order; and the sheet shows, for the substream at the position that the first BoundSheet record of its name gives, the last value that the records of this substream give for each cell and nothing anywhere else. In particular every cell that is not blank comes from a record of that substream that is about this cell. (Violated by names and number formats announced longer than their record: they are filled up with the bytes of the next one.)", "quantifier": "all byte sequences, all sheets; substreams with at most one Dimensions record of full length", "why_tests_cant": "all byte sequences", "anchors": ["xls/xls.go:loadFromStream", "xls/xls.go:loadFromStream2", "xls/sheets.go:Get", "xls/sheets.go:parseSheet", "xls/strings.go"]}
{"id": "C105", "title": "An XLSX sheet shows what its own part says, whatever package it comes from", "statement": "If an XLSX package, well-formed or not, can be opened, then its sheets are the sheet elements of the workbook part that the relationships name, each with the part that the last worksheet relationship of its id points to, and its shared strings and formats are those of all parts that relationships of these types point to. Get of a name, whatever was asked before, gives the first sheet of that name: an error and no cell if the part cannot be read, and otherwise for each cell the last thing that the tokens of the part say about it and nothing anywhere else. In particular every cell that is not blank comes from the text of a cell element that names its position, from a merged region around it, or from a hyperlink at it.", "quantifier": "all packages, all token sequences, all histories of calls; sheet parts whose dimension element comes at most once and before the cells", "why_tests_cant": "all packages and token sequences", "anchors": ["xlsx/xlsx.go:Open", "xlsx/xlsx.go:Get", "xlsx/workbook.go:parseRels", "xlsx/workbook.go:parseWorkbook", "xlsx/workbook.go:parseStyles", "xlsx/workbook.go:parseSharedStrings", "xlsx/sheets.go:parseSheet"]}
{"id": "C106", "title": "What is read out of a compound file, for every file", "statement": "Whatever the bytes of a file are: a stream of it can be opened and read to its end exactly if the header has the fixed values it must have, the names of the directory entries up to the first stream of that name can be looked at, and the FAT, DIFAT and mini FAT sectors, the root entry and the chains lead to a content for it within what was read of the file (and the buffer behind it). What is read then is that content, and the tables of a file lead to at most one. So grate.Open gives an XLS workbook for exactly the files whose tables lead to a content for the stream Workbook that loads as a workbook, and each sheet of it shows what the records of that content say.", "quantifier": "all byte sequences, well-formed or not, all sizes of reads, all stream names", "why_tests_cant": "all byte sequences and read sizes", "anchors": ["xls/cfb/cfb.go:load", "xls/cfb/cfb.go:buildDirs", "xls/cfb/cfb.go:getStreamReader", "xls/cfb/cfb.go:getMiniStreamReader", "xls/cfb/interface.go:Open", "xls/cfb/slicereader.go:Read", "xls/xls.go:Open", "grate.go:Open"]}
{"id": "C107", "title": "Which files Open opens, and as what", "statement": "Whatever the bytes of a file are: a file is left by the XLS reader to the others exactly if it is no compound file, or a compound file with all its tables that has no stream Workbook or whose chain for it ends or leaves the file too early. Open gives an XLSX document for exactly those of the files left that are archives with a package in them: top relationships naming an office document, the relationships of this, a workbook part whose sheets have ids and names, and all styles and shared strings parts there and readable. Open gives a text table for exactly those that are no archive, or one without top relationships, and that read as text, and the rows are those of the text. All others, and those that C106 tells, are refused.", "quantifier": "all byte sequences, all archives and token sequences, all orders of map iteration", "why_tests_cant": "all byte sequences and archives", "anchors": ["grate.go:Open", "xls/xls.go:Open", "xls/cfb/cfb.go:load", "xls/cfb/interface.go:Open", "xlsx/xlsx.go:Open", "xlsx/workbook.go:parseRels", "xlsx/workbook.go:parseWorkbook", "xlsx/workbook.go:parseStyles", "simple/tsv.go:OpenTSV"]}
{"id": "C108", "title": "Which workbook streams load, exactly", "statement": "Whatever the bytes of a Workbook stream are: it loads exactly if it is a sequence of records of at most 65531 bytes with at most three bytes behind it, the first one a BOF record, and each record can be read: a BOF record of version 8 of 1996 or 1997, code page, date system and cell format records long enough, names and number formats with room for their characters (in the record if of two bytes each, and up to the end of the buffer otherwise), and string tables that are tables with the Continue records that directly follow. With a FilePass record this must be the 54 bytes of the first kind of encryption for the default password, and the records are those of the deciphered stream: the bytes of each record deciphered from the position where they stand in the file, apart from the records and the first bytes of sheet records that are never enciphered. So grate.Open gives an XLS workbook for exactly the files that C106 tells with such a content.", "quantifier": "all byte sequences, all bytes behind them in memory", "why_tests_cant": "all byte sequences", "anchors": ["xls/xls.go:loadFromStream", "xls/xls.go:loadFromStream2", "xls/xls.go:loadFromStreamWithDecryptor", "xls/xls.go:nextRecord", "xls/crypto/crypto.go:NewBasicRC4", "xls/crypto/rc4.go:Verify", "xls/strings.go", "grate.go:Open"]}
{"id": "C109", "title": "A decimal number in a text is read as the nearest float64, an integer exactly", "statement": "A decimal numeral (sign, digits, fraction, exponent) in a text table scanned into a float64, in a number cell of an XLSX sheet, put into a cell with a number format or compared with a number is the float64 nearest to the number it denotes, ties to even, with its sign. If that is beyond the largest float64, Scan reports a range error, an XLSX cell keeps the text and a formatted cell holds an infinity. An integer numeral scanned into an int gives that integer if it fits, else the nearest int and a range error; any other text gives an error.", "quantifier": "all decimal numerals with an exponent below 100000 or of at most 9000 characters, all texts for integers", "why_tests_cant": "all numerals, of any number of digits", "anchors": ["simple/simple.go:Scan", "xlsx/sheets.go:parseSheet", "commonxl/cell.go:NewCellWithType", "commonxl/cell.go:Less"]}
{"id": "C110", "title": "What General shows of a number, and that it reads back", "statement": "A finite float64 under General, @ or no format is shown in plain decimals with the fewest digits that still identify it if that text has at most 11 characters (12 with a minus sign); else by six significant digits, correctly rounded, if that has at most 11 characters; else in scientific notation with the fewest digits that identify it. The first and the last text, and the text of any number printed without a format, read back as exactly that float64 when scanned; infinities and NaN show as +Inf, -Inf and NaN.", "quantifier": "all float64 values", "why_tests_cant": "2^64 values, and all decimal numbers for being the shortest", "anchors": ["commonxl/fmt.go:identFunc", "commonxl/formats.go:Apply", "simple/simple.go:Scan"]}
{"id": "C111", "title": "Read errors, and files that change while they are opened", "statement": "Each opener opens the file anew. Whatever each of these openings meets (bytes that may differ from one to the next, errors at any point, a file that is gone): an XLS workbook comes from the first reading and is the one that its bytes hold, an XLSX document from the second, a text table from the third, whose rows are those of its complete content; nothing is ever built from a part of a file; an error of opening, and of the first and third reading, is returned. On a file that stays as it is this is Open of the other properties. (Violated: an error while the archive is looked for counts as another format, so that one failed read turns a package into a table of its compressed bytes; a workbook put in place after the first look is returned as a table of its bytes, though no content the file ever had is that table.)", "quantifier": "all histories of the file (contents and errors of each opening), all registration orders, all archives and map orders", "why_tests_cant": "all histories of a file and all failure points", "anchors": ["grate.go:Open", "xls/xls.go:Open", "xls/cfb/interface.go:Open", "xls/cfb/cfb.go:load", "xlsx/xlsx.go:Open", "simple/tsv.go:OpenTSV", "simple/csv.go:OpenCSV"]}
{"id": "C112", "title": "Values through grate2tsv and back", "statement": "A value that a sheet shows under the General format at some row and column is found again in the file that grate2tsv writes for the sheet: opened again, after as many calls of Next as there are written rows up to its own, Scan with a destination of its type in its column and strings elsewhere succeeds and gives it. Integers and truth values come back exactly; a finite float64 comes back exactly unless its plain decimal text has 12 or more characters, and then it may come back as the float64 nearest to a six-digit decimal next to it (always finite). The other cells of the row come back as their texts. (Violated as exactness for all numbers: a third comes back as 0.333333.)", "quantifier": "all sheets and cell writes, all positions, all int64, bool and finite float64 values, all destinations for the other cells, the flags -p, -r, -w and -b at their defaults", "why_tests_cant": "all sheets, all positions and 2^64 values; the file goes through two formats and two readers", "anchors": ["cmd/grate2tsv/main.go:processFile", "commonxl/fmt.go:identFunc", "simple/tsv.go:OpenTSV", "simple/simple.go:Scan", "simple/simple.go:Next"]}
{"id": "C113", "title": "Decimal amounts are shown exactly and come back exactly", "statement": "A float64 that is nearest to a decimal amount with p decimals and at most 15 digits in all is shown as exactly that amount by the formats with p decimals: 0.00 and #,##0.00 (p = 2), and every custom code with p decimals, 1 <= p <= 300, with or without separators of thousands and literal texts around it; so it is by formats 39 and 40, with parentheses in place of a minus sign, and above 0 by the accounting formats 43 and 44. The text without separators is read by Scan as the same float64, and so a sheet of amounts under 0.00 comes back exactly from the file that grate2tsv writes for it. A whole number under the format 0 is shown as its numeral and comes back as the same integer, directly and through grate2tsv. A text with any character that numbers do not have is refused by Scan, and so is every amount from 1000 on under #,##0.00. Workbooks deliver such amounts: a number cell of an XLSX sheet whose text spells the amount, with any number of digits and any exponent, holds that float64, and so does an RK cell of an XLS sheet that stores hundredths as a whole double.", "quantifier": "all amounts (-1)^s * n / 10^p with n < 10^15, all formatters and free ids, all number codes with p decimals, all sheets and positions", "why_tests_cant": "all amounts and codes; rounding errors of float64 and of the decimal text must never add up to a wrong digit", "anchors": ["commonxl/fmt.go:sprintfFunc", "commonxl/fmt.go:addCommas", "commonxl/formats.go:Apply", "simple/simple.go:Scan", "cmd/grate2tsv/main.go:processFile"]}
{"id": "C114", "title": "Exactly which texts are taken for numbers", "statement": "Scan into a float64 refuses a text as no number exactly when it is neither one of the words inf, infinity (with an optional sign) and nan in any mixture of small and capital letters, nor a decimal numeral that may have underscores, each between two digits, nor a hexadecimal numeral with an exponent of two, with underscores between its digits or behind its prefix. The number is the float64 nearest to the numeral without its underscores, and the words are the infinities and NaN. The same texts, and no others, become numbers in number cells of XLSX sheets; other texts stay texts there. Under number formats texts that are not taken for numbers should stay texts too, but they are shown like 0, and under date formats as a complaint.", "quantifier": "all texts, all formatters and formats", "why_tests_cant": "all texts of any length, with signs, points, exponents and underscores in any places; each place where a text may go wrong is a different case", "anchors": ["simple/simple.go:Scan", "xlsx/sheets.go:parseSheet", "commonxl/cell.go:NewCellWithType"]}
{"id": "C115", "title": "Percentages are shown exactly", "statement": "A float64 that is nearest to a decimal amount with p + 2 decimals and at most 15 digits in all is shown as exactly its hundredfold with p decimals and a percent sign by the percent formats with p decimals: 0.00% (p = 2) and every custom code with p decimals, 1 <= p <= 298, and a percent sign in the text around the digits. Whole percentages under 0% should be exact too, and the shown text should be read back as the amount. (Violated: 0% cuts the rounded product, so that 0.29 is shown as 28%, though a whole percentage is never shown as more than it is nor as less by more than one; Scan refuses every text with a percent sign.)", "quantifier": "all amounts (-1)^s * n / 10^(p+2) with n < 10^15, all formatters and free ids, all percent codes with p decimals", "why_tests_cant": "all amounts and codes; the product with 100 is rounded once more before the text is made, and the errors must never add up to a wrong digit", "anchors": ["commonxl/fmt.go:sprintfFunc", "commonxl/fmt.go:addCommas", "commonxl/formats.go:Apply", "commonxl/formats.go:makeFormatter", "simple/simple.go:Scan"]}
{"id": "C116", "title": "Scientific notation is exact and reads back", "statement": "A float64 that is nearest to a number of p + 1 decimal digits and a power of ten, d.ddd times ten to the k with p <= 14 and k >= -290, is shown as exactly these digits and this exponent by the scientific formats with p digits behind the point: 0.00E+00 (p = 2) and every custom scientific code, 1 <= p, with any literal texts around it but percent signs. Scan reads the shown number back as the same float64.", "quantifier": "all numbers (-1)^s * n * 10^(k-p) with 10^p <= n < 10^(p+1) that are finite as float64, all formatters and free ids, all scientific codes with p digits behind the point", "why_tests_cant": "all digits and exponents; a float64 just below a power of ten must not be shown with the next smaller exponent, and the errors of float64 and of the text must never add up to a wrong digit", "anchors": ["commonxl/fmt.go:sprintfFunc", "commonxl/formats.go:Apply", "commonxl/formats.go:makeFormatter", "simple/simple.go:Scan"]}
