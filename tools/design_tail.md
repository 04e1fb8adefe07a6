## Trusted base

1. Coq 8.16.1's kernel (checked again by coqchk). No kernel check is switched off; no plugin; no axiom of our own.
2. The axioms of Coq's standard library that Print Assumptions lists. There are four, all of them brought in by the
   real numbers under Flocq's binary64: `ClassicalDedekindReals.sig_forall_dec`,
   `ClassicalDedekindReals.sig_not_dec`, `Classical_Prop.classic` and
   `FunctionalExtensionality.functional_extensionality_dep`. The listing per theorem is at the end of this file.
   No other library contributes an axiom.
3. That the definitions in `M_*.v` say what the Go source says. Each carries the file and lines it was read from,
   and the simplifications made.
4. That `Go*.v` describes the Go language and library correctly where the code uses them.

### Models of Go and its library

| file | what |
|---|---|
| `GoBase.v` | slices with capacity, panics, little-endian reads, maps, strconv.ParseInt, ParseUint, Itoa, strings functions |
| `GoFloat.v` | float64 over Flocq binary64, conversions with the amd64 result for out-of-range values, math.Floor, Trunc, Round, Modf, `%f` `%e` `%g` and shortest formatting, ParseFloat |
| `GoTime.v` | time.Date, Add, Format on UTC, proleptic Gregorian calendar |
| `GoUnicode.v` | UTF-8 and UTF-16 encoding and decoding |
| `GoPath.v` | path.Clean, Join, Base, strings.TrimSuffix |
| `GoCrypto.v` | MD5 and RC4, executable |

These are parameters (universally quantified in the theorems), not models: the order of map iteration, the result of
sort.Slice (any sorted permutation), which record sync.Pool hands out, the scheduler, the file system
(a function from names to contents, or an arbitrary world for the openers), encoding/csv, archive/zip and
encoding/xml (a part of a package is the list of tokens the decoder would return, ending in an error or at the end),
net/url parsing.

### What of /repo is modelled

* `grate.go`, `errs.go`: all functions.
* `simple/`: all functions. Reading a file is a function from its name to its bytes.
* `commonxl/`: all of sheet.go, cell.go, fmt.go, formats.go, dates.go, numbers.go. `Formatter.Mode1904` is the flag
  of the formatter.
* `xls/cfb/`: all functions except the Debug dump of the header. The file is its bytes.
* `xls/crypto/`: the RC4 decryptor (all functions). The other header structures of crypto.go are not used by the code.
* `xls/`: xls.go (Open, loadFromStream, loadFromStreamWithDecryptor, loadFromStream2, nextRecord,
  Close), sheets.go, strings.go, structs.go, hyperlinks.go, and of records.go the record numbers that the code compares.
* `xlsx/`: xlsx.go, workbook.go, sheets.go, types.go.
* `cmd/grate2tsv`, `cmd/grater`.

### What is not modelled

* Log output and the global `Debug` flags; the text of errors, except where a property is about it (C03).
* Names of records for printing (`recordType.String`), `staticCellType.String`.
* 64-bit overflow of lengths and counters that would need inputs of terabytes. Arithmetic on uint16, uint32 and
  conversions between sizes are modelled with their wrap-around.
* Memory exhaustion (a length in a file that is too large for make is part of this) and signals. Read errors are
  modelled for Open (C111), write errors for grate2tsv (C93); the parts of an opened archive stay as they were at Open.
* Local time zones: all times are UTC, as in the code.
* Data races inside one workbook used from two goroutines without synchronization (the documentation does not allow
  it). Concurrency is modelled for the record pool (C56) and for grate2tsv (C65).
