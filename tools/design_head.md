# Formal model of pbnjay/grate in Rocq (Coq 8.16.1)

## Layout (rocq/theories)

* `Go*.v` – the fragment of Go semantics and of the Go standard library the code relies on
  (panicking slices, little-endian readers, strconv, UTF-16/UTF-8, float64, calendar, errors).
* `M_*.v` – the model: one Gallina definition per Go function, each with the file and lines it models.
* `S_*.v` – small independent specifications (encoders, abstract grids, calendars) used in statements.
* `L_*.v` – lemmas and proofs.
* `P_*.v` – property theorems only, each closed by `exact`, with `Print Assumptions`, and the
  `Example`s showing that the hypotheses are met by concrete non-trivial inputs.

## Modelling conventions

* Go `int`, `uint16`, ... are `Z`; wherever the code can wrap (`4+rec.RecSize` in uint16, `1+sid` in uint32,
  `int64(uint)`) the wrap is written explicitly. Other `int` arithmetic is unbounded (64-bit overflow
  would need terabyte inputs).
* `[]byte` and `string` are `list Z`. A `[]byte` that is re-sliced is a pair (visible bytes, spare capacity):
  `s[a:b]` may extend up to the capacity, exactly as in Go.
* A Go function is a function to `res A` = `Ok a | Err e | Panic | NoFuel`. Every index/slice/nil/type-assertion
  panic of the code is an explicit `Panic`; `NoFuel` marks an exhausted loop bound and is excluded (or proved
  unavoidable, for divergence) by the theorems.
* `interface{}` values are the inductive `goval`. `Cell` (a `[]interface{}`) is a list of tagged fields, so a
  failed type assertion or index is a `Panic`.
* `float64` is Flocq's `binary64`. `time.Time` (UTC only) is nanoseconds since 1970 as `Z`.
* Go `map` is an association list; iteration order is universally quantified where it matters.
* Logging is not modelled.

