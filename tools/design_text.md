# Formal model of gempakio in Rocq (Coq 8.16.1)

(The tables of sections 2 and 5 are filled in by `tools/design.py` from `MANIFEST.json` and from the output of
`Print Assumptions` kept in `tools/assumptions.txt`.)

## 1. Approach

* `/repo/src/gempakio` is read as text and re-expressed, function by function, as total computable Gallina
  functions.  Python exceptions are values (`res A := Ok a | Err exn`), mutable objects are records threaded
  through functions, loops are structural recursion, or recursion on explicit fuel whose exhaustion is the
  error value `OutOfFuel` and never a normal result.
* Files: model files hold definitions only, each with the file and lines it models (`Base`, `Floats`, `Words`,
  `Layout`, `Structs`, `Tools`, `Strings`, `Dates`, `Headers`, `Order`, `DmFile`, `Station`, `StationRead`,
  `Grib`, `Real`, `Grid`, `GridRead`, `Query`, `VgfBase`, `VgfTables`, `VgfRead`, `Vgf`, `Calc`, `CalcNum`,
  `Merge`); `Spec*` files hold the independent specifications; `*Facts` and other files hold lemmas; `Props_*`
  files hold the property theorems, each followed by `Print Assumptions`, with examples that meet the
  hypotheses.
* A property that is false of the code is refuted in the model by a concrete witness (`..._refuted`), and the
  strongest true neighbour found is proved beside it (`..._partial`).  The manifest says "partial" for both.
* Wrong programs: `seeded/LOG.jsonl` records edits made to scratch copies of the model and which theorems
  stopped proving.

## 2. Properties

@TABLE@

## 3. What is modelled and what is not

| Python | modelled | not modelled |
|---|---|---|
| `common.py` | word/position conversion, all enumerations used by the formats | the GVCORD name tables beyond the nine names the writer accepts and the reader lists |
| `tools.py` | `NamedStruct`, `IOBuffer`, `OrderedSet` in full | `fromfile`, `__str__`, `__repr__`; the identifier check of `namedtuple` |
| `encode/gempak.py` | everything from `pack_grib` to `SurfaceFile` but the next column: layout, stream, headers, additions, duplicate handling, limits, `to_gempak` | `pyproj` (the CF dictionary, the method name and the operation's parameters of a projection, and the geographic coordinates it returns, are arguments; the patterns that search the WKT text are taken to find the parameter in full), `pack_data=True` (raises); the result is the bytes, and `Disk` models what the calls do to the files, without errors of `write` and `close` |
| `decode/gempak.py` | file label and headers, grid/sounding/surface openers, `_unpack_grib`, `_unpack_real`, `_unpack_grid` (GRIB, none, difference), merged and unmerged soundings, the three surface layouts, report text, all selections, `_merge_sounding` | `project_point` (pyproj; `_get_crs` is modelled up to the dictionary given to `pyproj.CRS.from_dict`, `_set_coordinates` with the projection as an argument and apart from `open_grid`, so that opening a file with a negative number of columns or rows, a `ValueError` of `numpy.linspace`, succeeds in `open_grid`), construction of the xarray objects, the text parts carried along by merging, `_data_source` |
| `gemcalc.py` | all functions, over an arbitrary arithmetic | — |
| `encode/vgf.py` | all six element classes, every setter, encoding, the file writer | `repr`; sequences other than lists of floats as coordinates |
| `decode/vgf.py` | header validation, element loop, every decoder, selectors, groups, bounds; `VgfRead` takes the parsing of advisory texts as a parameter, `Tca` is its instance; `to_json` (`Json`) | `repr` of elements, logging; keyword arguments of `to_json` other than `cls` |

Simplifications, also noted at each definition:

* Python `int` is `Z`; `struct` range errors are modelled.  Python `float` and numpy float64/float32 are
  `spec_float` (stdlib `Coq.Floats.SpecFloat`) with one NaN.  GRIB quantization, packed reals and difference
  packing are computed over exact rationals; the only float32 rounding that reaches the file (reference value)
  is explicit in the statements.
* `gemcalc` and merging take the arithmetic as a parameter: theorems hold for every arithmetic, or for binary64
  comparisons, or for real numbers, as each statement says.
* Python `str` is a list of ASCII code points outside the VGF reader, where it is any list of Unicode scalar
  values with UTF-8 encoding.
* numpy arrays are lists; in `Grid.v` the array a caller passes to
  `add_grid` is copied; the code keeps the caller's own, which `GridShare.v` models with a heap (C83).
* `datetime` is naive; dictionaries are association lists in insertion order; iteration over a `set` has an
  arbitrary order.
* The host is little-endian.

## 4. Trusted base

* Coq's kernel, version 8.16.1, including its `vm_compute` machine (used in examples, refutations and a few
  finite case checks).  No axiom, plugin, functor, module type or switched-off check of our own.
* The reading of the Python, numpy and struct semantics recorded in the comments of the model files.
* The axioms listed in section 5.  They come from the standard library's real numbers and concern C57 and, through
  Flocq, C84 (and the lemma `reals_exact`, which shows that the real numbers meet the hypotheses of C72_heights_partial) only:
  `ClassicalDedekindReals.sig_not_dec`, `ClassicalDedekindReals.sig_forall_dec`,
  `FunctionalExtensionality.functional_extensionality_dep`, `Classical_Prop.classic`.
* A check of all loaded libraries also mentions `Coq.ssr.ssrunder.Under_rel.*` and
  `Coq.Reals.Rdefinitions.RbaseSymbolsImpl.*`, `RinvImpl.*`: these are opaque module parameters or sealed
  definitions of the standard library that come with its files; `Print Assumptions` lists none of them for any
  theorem here.

## 5. Print Assumptions per theorem

@ASSUMPTIONS@
