# Formal model of gempakio in Rocq (Coq 8.16.1)

(The tables of sections 2 and 5 are filled in by `tools/design.py` from `MANIFEST.json` and from the output of
`Print Assumptions` kept in `tools/assumptions.txt`.)

## 1. Approach

* `/repo/src/gempakio` is read as text and re-expressed, function by function, as total computable Gallina
  functions.  Python exceptions are values (`res A := Ok a | Err exn`), mutable objects are records threaded
  through functions, loops are structural recursion, or recursion on explicit fuel whose exhaustion is the
  error value `OutOfFuel` and never a normal result.
* Files: model files hold definitions only, each with the file and lines it models (`Base`, `Floats`, `Words`,
  `Layout`, `Structs`, `Tools`, `Strings`, `Dates`, `Headers`, `Order`, `DmFile`, `Station`, `StationRead`,
  `Grib`, `Real`, `Grid`, `GridRead`, `Query`, `VgfBase`, `VgfTables`, `VgfRead`, `Vgf`, `Calc`, `CalcNum`,
  `Merge`); `Spec*` files hold the independent specifications; `*Facts` and other files hold lemmas; `Props_*`
  files hold the property theorems, each followed by `Print Assumptions`, with examples that meet the
  hypotheses.
* A property that is false of the code is refuted in the model by a concrete witness (`..._refuted`), and the
  strongest true neighbour found is proved beside it (`..._partial`).  The manifest says "partial" for both.
* Wrong programs: `seeded/LOG.jsonl` records edits made to scratch copies of the model and which theorems
  stopped proving.

## 2. Properties

| | property | modelled by | proved by | status |
|---|---|---|---|---|
| C01 | Word numbers and byte positions are inverse | Words (`_position_to_word`, `_word_to_position`, `_dmword`) | integer arithmetic, all words and positions | proved |
| C02 | File sections never overlap | Layout (`_set_pointers`), Words | arithmetic with symbolic numbers of rows, columns, keys, parts and parameters; SpecLayout says what a section is | proved |
| C03 | Writing a file is repeatable | Station, Grid: objects, additions and `to_gempak` as a state machine | invariant over every history of additions and writes; the write is a function of the headers and data it leaves alone | proved |
| C04 | Sounding file round trip | Station (writer), StationRead (reader), DmFile, Headers, Dates | memory map of the file each writer leaves (SoundFacts, SurfFacts), symbolic execution of the reader (ReadFacts), induction over the history (HistoryFacts) | proved |
| C05 | Surface file round trip | Station (writer), StationRead (reader), DmFile, Headers, Dates | memory map of the file each writer leaves (SoundFacts, SurfFacts), symbolic execution of the reader (ReadFacts), induction over the history (HistoryFacts) | proved |
| C06 | Grid file round trip | Grid, GridRead, Grib | as C04, with the packed values of C11-C17 | proved |
| C07 | Adding a duplicate replaces, anything else is kept | Station, Grid: `add_*` and the sorted header list | induction over the history against SpecStation / SpecGrid | proved |
| C08 | A rejected addition leaves the file unchanged | as C07 | case analysis of every rejecting branch; the two branches that reject after changing the object are the refutation | partial, refuted as stated |
| C09 | Byte order does not matter to the reader | Structs (both byte orders), DmFile, StationRead, Unmerged, GridRead, Query | SpecByteOrder: a file as words; the reader on both images, part by part: every structured read of number words or text words gives the same values, so opening gives the same file up to its bytes, and every query the same answer | proved |
| C10 | Non-GEMPAK input is rejected | DmFile `_process_gempak_header` | case analysis on the first 28 bytes of any byte string | proved |
| C11 | GRIB bit packing round trip | Grib (`pack_grib`, `_unpack_grib`) | words as one big-endian integer (SpecGrib); induction over the cell index with the carried partial word as invariant | proved |
| C12 | Packed length is exact | Grib (`pack_grib`, `_unpack_grib`) | words as one big-endian integer (SpecGrib); induction over the cell index with the carried partial word as invariant | proved |
| C13 | GRIB quantization error is bounded by half a scale step | Grib over exact rationals | rounding bounds; induction over cells | proved |
| C14 | Missing cells stay missing | Grib over exact rationals | rounding bounds; induction over cells | proved |
| C15 | Present cells never turn missing | Grib over exact rationals | rounding bounds; induction over cells | partial, refuted as stated |
| C16 | Every accepted grid can be written and read back | Grib | lengths from C12; one-word grids refute it | partial, refuted as stated |
| C17 | Scale selection terminates and is maximal | Grib scale search | well-founded measure and invariant of the loop | proved |
| C18 | Packed real fields are independent bit fields | Real (`_unpack_real`, `_fortran_ishift`) | bit string specification SpecReal; induction over fields | proved |
| C19 | Difference-packed grids extract consecutive bit fields | Real, difference-packed branch of `_unpack_grid` | induction over rows and cells | proved |
| C20 | Precision outside 1..31 is rejected | Grib | all bit counts | proved |
| C21 | Analysis date/time round trip | Dates (`datetime`, `strftime`/`strptime` subset, `add_grid` date words, `_convert_dattim`, `_convert_ftime`, `_make_date`, `_make_time`) | closed-form calendar SpecDates; arithmetic on digits; every valid datetime | proved |
| C22 | Forecast date/time round trip | Dates (`datetime`, `strftime`/`strptime` subset, `add_grid` date words, `_convert_dattim`, `_convert_ftime`, `_make_date`, `_make_time`) | closed-form calendar SpecDates; arithmetic on digits; every valid datetime | proved |
| C23 | Explicit analysis type keeps the initial time | Dates (`datetime`, `strftime`/`strptime` subset, `add_grid` date words, `_convert_dattim`, `_convert_ftime`, `_make_date`, `_make_time`) | closed-form calendar SpecDates; arithmetic on digits; every valid datetime | partial, refuted as stated |
| C24 | Dates outside the two-digit-year window | Dates (`datetime`, `strftime`/`strptime` subset, `add_grid` date words, `_convert_dattim`, `_convert_ftime`, `_make_date`, `_make_time`) | closed-form calendar SpecDates; arithmetic on digits; every valid datetime | partial, refuted as stated |
| C25 | Stored date/time encodings are unambiguous and in range | Dates (`datetime`, `strftime`/`strptime` subset, `add_grid` date words, `_convert_dattim`, `_convert_ftime`, `_make_date`, `_make_time`) | closed-form calendar SpecDates; arithmetic on digits; every valid datetime | proved |
| C26 | Row times of soundings and surface files round trip | Dates (`datetime`, `strftime`/`strptime` subset, `add_grid` date words, `_convert_dattim`, `_convert_ftime`, `_make_date`, `_make_time`) | closed-form calendar SpecDates; arithmetic on digits; every valid datetime | proved |
| C27 | Levels and vertical coordinates round trip | Headers, Order | table of vertical coordinates; both byte orders | proved |
| C28 | Grid parameter names round trip | Headers, Strings | four-character pieces, padding and stripping as list lemmas | proved |
| C29 | Grid parameter names containing spaces | Headers, Strings | four-character pieces, padding and stripping as list lemmas | partial, refuted as stated |
| C30 | Station coordinates are kept to a hundredth of a degree | Headers, Floats | binary64 product rounded then truncated, bound by RoundFacts (no Reals) | proved |
| C31 | Coordinates with two decimals survive a decode/encode cycle | Headers, Floats | binary64 product rounded then truncated, bound by RoundFacts (no Reals) | partial, refuted as stated |
| C32 | Station identifiers round trip | Headers | padding and stripping; decimal digits of numbers | partial, refuted as stated |
| C33 | Unused header slots do not disturb the rest | DmFile, StationRead: header scan with unused slots | induction over the slots | partial, refuted as stated |
| C34 | Parameter lists are case-insensitive and free of duplicates | Station `_add_parameters` | exact characterisation of the accepted lists | partial, refuted as stated |
| C35 | Sounding data is stored by parameter name, not argument order | Station `add_sounding` | permutation of the dictionary | proved |
| C36 | Buffer reads partition the data | Tools (`IOBuffer`) | buffer as bytes and cursor; invariant over operation lists | proved |
| C37 | Marks survive any operation sequence | Tools (`IOBuffer`) | buffer as bytes and cursor; invariant over operation lists | proved |
| C38 | Failed structured reads do not move the buffer | Tools (`IOBuffer`) | buffer as bytes and cursor; invariant over operation lists | partial, refuted as stated |
| C39 | truncate(n) removes exactly n bytes | Tools (`IOBuffer`) | buffer as bytes and cursor; invariant over operation lists | partial, refuted as stated |
| C40 | OrderedSet keeps first-insertion order | Tools (`OrderedSet`) | induction over the iterable | proved |
| C41 | Named structs round trip and convert the right fields | Tools (`NamedStruct`), Structs | pack/unpack of every layout by induction over the format | proved |
| C42 | Grid selection is a conjunction of filters | Query (`gdxarray`, `snxarray`, `sfjson`, `nearest_time`) | membership in the result characterised entry by entry (SpecQuery); set order is universally quantified | proved |
| C43 | Sounding and surface selection is a conjunction of filters | Query (`gdxarray`, `snxarray`, `sfjson`, `nearest_time`) | membership in the result characterised entry by entry (SpecQuery); set order is universally quantified | partial, refuted as stated |
| C44 | first and last select the extreme times | Query (`gdxarray`, `snxarray`, `sfjson`, `nearest_time`) | membership in the result characterised entry by entry (SpecQuery); set order is universally quantified | proved |
| C45 | nearest_time returns the closest report | Query (`gdxarray`, `snxarray`, `sfjson`, `nearest_time`) | membership in the result characterised entry by entry (SpecQuery); set order is universally quantified | proved |
| C46 | VGF record size is the encoded length | Vgf `encode` | length of every record format; induction over the element list | proved |
| C47 | VGF write/read round trip | Vgf, VgfRead, VgfTables | every built element is decoded from its own bytes (VgfCursor, VgfTripFacts); induction over the file; NearFacts bounds the error of numpy.around in 32-bit floats | partial, refuted as stated |
| C48 | VGF decoding always terminates | VgfRead: element loop and all decoders on arbitrary bytes | cursor progress of every decoder (VgfLoopFacts); induction on the remaining bytes | partial, refuted as stated |
| C49 | Setter validation is preserved by every history | Vgf: constructors and property setters | invariants over every history of assignments | partial, refuted as stated |
| C50 | Front code and width stay consistent | Vgf: constructors and property setters | invariants over every history of assignments | partial, refuted as stated |
| C51 | Flipping twice is the identity | Vgf: constructors and property setters | invariants over every history of assignments | proved |
| C52 | Closed lines end where they start | VgfRead: element loop and all decoders on arbitrary bytes | cursor progress of every decoder (VgfLoopFacts); induction on the remaining bytes | partial, refuted as stated |
| C53 | Decoded text ends at the first NUL | VgfRead: element loop and all decoders on arbitrary bytes | cursor progress of every decoder (VgfLoopFacts); induction on the remaining bytes | partial, refuted as stated |
| C54 | VGF selectors return exactly the matching elements | VgfRead: selectors, groups, bounds | filter and sort lemmas against SpecVgfQuery | partial, refuted as stated |
| C55 | Groups partition by number | VgfRead: selectors, groups, bounds | filter and sort lemmas against SpecVgfQuery | proved |
| C56 | Bounds enclose all elements | VgfRead: selectors, groups, bounds | filter and sort lemmas against SpecVgfQuery | partial, refuted as stated |
| C57 | Interpolated levels lie between their neighbours | Calc `interp_parameters` | any arithmetic for the rejections; Coq reals for the bounds | partial, refuted as stated |
| C58 | Filling missing data never changes present data | Calc over an arbitrary arithmetic | induction over levels with an invariant on which entries may change | partial, refuted as stated |
| C59 | Height interpolation terminates | Calc over an arbitrary arithmetic | induction over levels with an invariant on which entries may change | partial, refuted as stated |
| C60 | Merging keeps profile arrays aligned | Merge `_merge_sounding` | invariant: the six arrays keep one length, stage by stage | partial, refuted as stated |
| C61 | Report text is split and timed consistently | StationRead `process_report_text` | string functions; search and split lemmas against SpecText | proved |
| C62 | Splicing keeps what precedes the mark and replaces the rest | Tools (`IOBuffer`) | buffer as bytes and cursor; invariant over operation lists | proved |
| C63 | Times given as strings mean the same as datetimes | Station, Dates | `strptime` on the written form | partial, refuted as stated |
| C64 | Every stored parameter can be read back under its own name | Station, StationRead | first four characters of names | partial, refuted as stated |
| C65 | A grid file that can be built can be written | Grid.v, DmFile.v, SpecGridWrite.v | case analysis of the constructor and `add_grid`; each step of the writer shown to succeed on fitting values (GridWriteFacts, FloatBound); reading back from C06 | partial, refuted as stated |
| C66 | A grid of another shape is rejected | Grid | case analysis of the constructor, `add_grid` and the writer | proved |
| C67 | An area filter returns reports of that area | Query (`gdxarray`, `snxarray`, `sfjson`, `nearest_time`) | membership in the result characterised entry by entry (SpecQuery); set order is universally quantified | partial, refuted as stated |
| C68 | A special report stays near the time it is filed under | StationRead `process_report_text` | string functions; search and split lemmas against SpecText | partial, refuted as stated |
| C69 | Files with tropical cyclone error, track or break point records cannot be opened | VgfRead: element loop and all decoders on arbitrary bytes | cursor progress of every decoder (VgfLoopFacts); induction on the remaining bytes | proved |
| C70 | Interpolated heights lie on the log-pressure line between the nearest reported heights | Calc over an arbitrary arithmetic | induction over levels with an invariant on which entries may change | proved |
| C71 | Filling in missing data does not fail | Calc over an arbitrary arithmetic | induction over levels with an invariant on which entries may change | proved |
| C72 | Merged levels come in order of falling pressure | Merge, with binary64 comparisons; with numbers without rounding for winds on height surfaces | binary search specification; invariant of the insertions (MergeOrder, FloatOrder); levels without pressure lie strictly between their neighbours (MergeHeightOrder) | partial, refuted as stated |
| C74 | Levels below ground follow the surface level | Merge, with binary64 comparisons | binary search specification; invariant of the insertions (MergeOrder, FloatOrder) | partial, refuted as stated |
| C75 | Merging keeps the reported mandatory levels | Merge, any arithmetic | invariant: some level keeps the values, through every later stage (MergeKeep) | partial, refuted as stated |
| C76 | Sounding datasets keep every level and value, in order, with missing values masked | SnOut (dataset_of, order_of, reorder, mask), StationRead, Query | sorting facts (permutation, stable order) and dictionary facts over every record; SpecSnOut states the dataset's relation to the record | proved |
| C77 | Unmerged soundings become datasets of their own parts | Unmerged.v (reading of the parts, record of the merged sounding, snxarray for unmerged files); SpecUnmerged.v says which arrays are stored | Dictionaries filled in order keep the last write; strides give every n-th value; names of an opened file are ASCII, so the merging's look-ups are the file's; then the facts of C60 and C76. | proved |
| C78 | Every stored report is listed | StationRead.v (present, info) | The listing is a filter of all cells; a file built with the writer's own functions gives the counterexample. | partial, refuted as stated |
| C73 | Merging the parts of a sounding always gives a sounding | Merge | every stage returns on aligned arrays (MergeReturns) | partial, refuted as stated |
| C79 | Tropopause, significant and maximum wind levels appear in the merged sounding | SpecMergeReport (pressure, reported, in_order, level_with), Merge, Calc | MergeReport: invariant that every value at the pressure is a reported one, step lemma that the level is found or inserted, then the level survives all later stages (MergeKeep); Props_MergeReport | partial, refuted as stated |
| C80 | A sounding or surface file whose reports fit the format can be written | Station.v (constructor, add_sounding/add_station, save), DmFile.v (writer), StationRead.v (reader) | the writer's steps each shown to succeed on fitting values (WritableFacts, StationWriteFacts), positions bounded by the total size; reading back from round_trip (RoundTripFacts) | proved |
| C81 | Attributes of a decoded VGF element are what its record stores | VgfRead.v, VgfTables.v; SpecVgfFields.v lists the byte of every attribute independently of the structure tables | the reading of a structure is shown to yield values at computed places, by induction over its fields (VgfFieldFacts); each decoder then by symbolic execution (VgfRecordFacts) | partial, refuted as stated |
| C82 | An opened VGF file has one element for each record, in order | VgfRead.v, SpecVgfFields.v (chain) | induction over the chain, from C81 | proved |
| C83 | A grid file holds each grid as it was added and leaves the caller's arrays alone | GridShare.v: the same code as Grid.v with arrays as references in a heap; SpecShare.v | refinement of the copying model by induction over the program, with the invariant that stored arrays are the caller's with NaN cells filled (GridShareFacts) | partial, refuted as stated |
| C84 | A tropical cyclone advisory record opens as one element with what its text says | Tca.v: the two regular expressions as leftmost shortest matches, int() and float() of ASCII texts, numpy.array_split, the loop over the watches; SpecTca.v writes advisories as text and says what shows them, SpecNearest.v says what the nearest double is | induction over the list of fields for the search; digits; Flocq's correctness of division for the nearest double (NearestFacts) | partial, refuted as stated |
| C85 | A VGF file opens exactly when its records are sound | VgfRead.v (all record decoders, dispatch, read loop); SpecVgfOpen.v gives the conditions | VgfOpenFacts.v (each reading step succeeds iff its condition), VgfSoundFacts.v (each decoder, dispatch, induction over the chain) | partial, refuted as stated |
| C86 | Significant winds on height surfaces appear in merged soundings | Merge.v (height winds of _merge_sounding), SpecMergeHeight.v | loop invariant over levels and reports in MergeHeight.v: levels between the last two heights, insertion keeps order; witnesses for the refutations | partial, refuted as stated |
| C87 | The JSON text of a vector graphics file describes every element | Json.v (attributes of the elements as Python objects, json.dumps with the encoder for arrays) on top of VgfRead.v and Tca.v; a reader of JSON and what an object says about an element in SpecJson.v | JsonFacts.v: the text of every known value is read back; JsonElemFacts.v: objects of elements; JsonReadFacts.v: every decoder gives elements with known values (invariant of the element loop) | partial, refuted as stated |
| C88 | Files on disk after writing, failed writing and interrupted writing | Disk.v (files by path, the operations open and write, the calls), over save, save_grid and encode of the existing models; SpecDisk.v (interruption at any byte) | Props_Disk.v: induction over the elements written and over the calls; C47 for reading the beginning of a VGF file back | partial, refuted as stated |
| C89 | Group types present in a vector graphics file | VgfRead.v (note_group, get_group); SpecVgfGroups.v (distinct numbers, where records start) | Props_VgfGroups.v: one round of the reading loop notes the type stored at byte 7 of its record; induction over the records; for written files over the elements, with C47 and C55 | proved |
| C90 | Queries on an open file do not interfere | ReaderIO (the queries as operations on the shared buffer), Tools (IOBuffer) | every query jumps to the first mark before it reads; the data and the first mark are kept by every operation; induction on the loops and on the series of calls | proved |
| C91 | Queries in several threads | ReaderIO (interleave, interleave2) | a step keeps what the query will answer; before each jump from the start the answer does not depend on the place (comes_to); witness schedule for the shared object | partial, refuted as stated |
| C92 | Argument objects of a query | Args (lists, tuples and iterators followed through the parsing and the lazy filters) | the filters leave objects that are not iterators alone; induction on the list of times and on the entries | partial, refuted as stated |
| C93 | Grids can be told apart and selected one by one | Query (gdxarray with its labels), SpecGridLabels | case analysis on the renamed names and injectivity of lower-casing; the selection of C42 | partial, refuted as stated |
| C94 | The projection of a grid file survives writing and reading | Nav.v (GridFile's constructor with use_xy or without, _set_projection_params, the reader's _get_crs), on top of Grid.v and DmFile.v | SpecNav.v lists PROJ and CF names of each parameter; the navigation block of a written file is computed (GridFacts.v), then case analysis on the kind of projection | partial, refuted as stated |
| C95 | Coordinates fit the data | Nav.v (_set_coordinates, numpy.linspace), GridRead.v (_unpack_grid) | lengths by induction on the packings; corners by computation in IEEE arithmetic with a zero factor; cells by induction on the rows | proved |

## 3. What is modelled and what is not

| Python | modelled | not modelled |
|---|---|---|
| `common.py` | word/position conversion, all enumerations used by the formats | the GVCORD name tables beyond the nine names the writer accepts and the reader lists |
| `tools.py` | `NamedStruct`, `IOBuffer`, `OrderedSet` in full | `fromfile`, `__str__`, `__repr__`; the identifier check of `namedtuple` |
| `encode/gempak.py` | everything from `pack_grib` to `SurfaceFile` but the next column: layout, stream, headers, additions, duplicate handling, limits, `to_gempak` | `pyproj` (the CF dictionary, the method name and the operation's parameters of a projection, and the geographic coordinates it returns, are arguments; the patterns that search the WKT text are taken to find the parameter in full), `pack_data=True` (raises); the result is the bytes, and `Disk` models what the calls do to the files, without errors of `write` and `close` |
| `decode/gempak.py` | file label and headers, grid/sounding/surface openers, `_unpack_grib`, `_unpack_real`, `_unpack_grid` (GRIB, none, difference), merged and unmerged soundings, the three surface layouts, report text, all selections, `_merge_sounding` | `project_point` (pyproj; `_get_crs` is modelled up to the dictionary given to `pyproj.CRS.from_dict`, `_set_coordinates` with the projection as an argument and apart from `open_grid`, so that opening a file with a negative number of columns or rows, a `ValueError` of `numpy.linspace`, succeeds in `open_grid`), construction of the xarray objects, the text parts carried along by merging, `_data_source` |
| `gemcalc.py` | all functions, over an arbitrary arithmetic | — |
| `encode/vgf.py` | all six element classes, every setter, encoding, the file writer | `repr`; sequences other than lists of floats as coordinates |
| `decode/vgf.py` | header validation, element loop, every decoder, selectors, groups, bounds; `VgfRead` takes the parsing of advisory texts as a parameter, `Tca` is its instance; `to_json` (`Json`) | `repr` of elements, logging; keyword arguments of `to_json` other than `cls` |

Simplifications, also noted at each definition:

* Python `int` is `Z`; `struct` range errors are modelled.  Python `float` and numpy float64/float32 are
  `spec_float` (stdlib `Coq.Floats.SpecFloat`) with one NaN.  GRIB quantization, packed reals and difference
  packing are computed over exact rationals; the only float32 rounding that reaches the file (reference value)
  is explicit in the statements.
* `gemcalc` and merging take the arithmetic as a parameter: theorems hold for every arithmetic, or for binary64
  comparisons, or for real numbers, as each statement says.
* Python `str` is a list of ASCII code points outside the VGF reader, where it is any list of Unicode scalar
  values with UTF-8 encoding.
* numpy arrays are lists; in `Grid.v` the array a caller passes to
  `add_grid` is copied; the code keeps the caller's own, which `GridShare.v` models with a heap (C83).
* `datetime` is naive; dictionaries are association lists in insertion order; iteration over a `set` has an
  arbitrary order.
* The host is little-endian.

## 4. Trusted base

* Coq's kernel, version 8.16.1, including its `vm_compute` machine (used in examples, refutations and a few
  finite case checks).  No axiom, plugin, functor, module type or switched-off check of our own.
* The reading of the Python, numpy and struct semantics recorded in the comments of the model files.
* The axioms listed in section 5.  They come from the standard library's real numbers and concern C57 and, through
  Flocq, C84 (and the lemma `reals_exact`, which shows that the real numbers meet the hypotheses of C72_heights_partial) only:
  `ClassicalDedekindReals.sig_not_dec`, `ClassicalDedekindReals.sig_forall_dec`,
  `FunctionalExtensionality.functional_extensionality_dep`, `Classical_Prop.classic`.
* A check of all loaded libraries also mentions `Coq.ssr.ssrunder.Under_rel.*` and
  `Coq.Reals.Rdefinitions.RbaseSymbolsImpl.*`, `RinvImpl.*`: these are opaque module parameters or sealed
  definitions of the standard library that come with its files; `Print Assumptions` lists none of them for any
  theorem here.

## 5. Print Assumptions per theorem

`Print Assumptions` says "Closed under the global context" (no axiom at all) for these 277 theorems:

`C01_word_position_inverse`, `C01_position_in_word`, `C01_word_to_position_value`, `C02_sections_disjoint`, `C02_sections_aligned`, `C03_grid_write_repeatable`, `C03_write_repeatable`, `C03_n_writes`, `C04_sounding_round_trip`, `C05_surface_round_trip`, `C06_grid_round_trip`, `C06_grid_values`, `C07_grid_duplicate_replaces`, `C07_duplicate_replaces`, `C08_grid_rejected_unchanged_refuted`, `C08_grid_rejected_unchanged_partial`, `C08_rejected_unchanged_refuted`, `C08_rejected_unchanged_partial`, `C09_stations`, `C09_grids`, `C09_written_stations`, `C09_written_grids`, `C10_not_gempak`, `C10_not_gempak_grid`, `C11_bits_round_trip`, `C11_bit_layout`, `C11_reader_fields`, `C12_packed_length`, `C13_quantization_error`, `C13_quantization_error_flagged`, `C14_missing_stays_missing`, `C15_present_stays_present_refuted`, `C15_present_stays_present_partial`, `C15_no_collision_when_range_small_partial`, `C16_one_word_refuted`, `C16_written_grid_is_read_partial`, `C17_scale_terminates_and_maximal`, `C17_widening_stays_below_missing`, `C18_packed_real_fields`, `C18_packed_real_inverse`, `C18_length_mismatch`, `C19_diff_grid`, `C20_bad_precision_rejected`, `C21_analysis_time`, `C22_forecast_time`, `C22_minutes_identify`, `C23_refuted`, `C23_partial`, `C24_refuted`, `C24_partial`, `C25_ranges`, `C25_injective`, `C26_row_times`, `C27_vertical_coordinates`, `C27_levels`, `C28_parameter_names`, `C28_long_names_rejected`, `C29_refuted`, `C29_partial`, `C30_coordinates`, `C30_integer_coordinates`, `C31_refuted`, `C31_partial`, `C32_surface_identifiers`, `C32_refuted`, `C32_partial`, `C33_unused_slots_partial`, `C33_unused_slots_refuted`, `C34_parameter_list_refuted`, `C34_parameter_list_partial`, `C35_stored_by_name`, `C36_reads_partition`, `C36_at_end`, `C37_marks`, `C38_failed_struct_read`, `C38_failed_func_read`, `C38_failed_array_read`, `C38_struct_read_iff`, `C38_ascii_read_moves_refuted`, `C39_truncate_partial`, `C39_truncate_zero_refuted`, `C39_truncate_zero`, `C40_ordered_set`, `C40_init`, `C40_equality`, `C41_named_struct`, `C42_grid_selection`, `C42_grid_contents`, `C42_case_insensitive`, `C43_surface_selection`, `C43_sounding_selection_partial`, `C43_sounding_state_case_refuted`, `C43_surface_reports`, `C43_surface_contents`, `C44_first_last_grids`, `C44_first_last_stations`, `C45_nearest_time`, `C45_one_filter`, `C45_area_stations`, `C46_record_size_is_length`, `C46_file_is_records`, `C47_points`, `C47_distance`, `C47_places`, `C47_round_trip_partial`, `C47_symbol_code`, `C47_plain_text`, `C47_text_refuted`, `C47_decimals_refuted`, `C47_text_size_refuted`, `C48_terminates_partial`, `C48_one_result`, `C48_refuted`, `C49_ranges_partial`, `C49_rejected_unchanged_partial`, `C49_constructor_refuted`, `C49_rejected_refuted`, `C49_nan_refuted`, `C49_font_refuted`, `C49_front_width_refuted`, `C50_front_code_width_partial`, `C50_width_assigned`, `C50_float_width_refuted`, `C51_flip_twice`, `C52_lines_partial`, `C52_special_lines_partial`, `C52_two_points_refuted`, `C53_strip`, `C53_clean`, `C53_terminator`, `C53_text`, `C53_text_elements`, `C53_fixed_width_partial`, `C53_full_field_refuted`, `C54_filter_elements`, `C54_selectors_partial`, `C54_predicates`, `C54_text_refuted`, `C54_met_refuted`, `C55_groups`, `C56_bounds_enclose_partial`, `C56_bounds_attained`, `C56_zero_refuted`, `C57_rejects`, `C58_logp_height`, `C58_logp_pressure`, `C58_moist_height_partial`, `C58_missing_data_partial`, `C58_moist_height_refuted`, `C58_missing_data_refuted`, `C59_terminates_partial`, `C59_logp_height_refuted`, `C59_others`, `C60_aligned_partial`, `C60_refuted`, `C61_split`, `C61_no_station`, `C61_records`, `C62_splice`, `C62_unknown_mark`, `C63_sounding_time_string`, `C63_surface_time_string_refuted`, `C64_parameter_readable_refuted`, `C64_parameter_readable_partial`, `C65_small_grid_refuted`, `C65_small_grid`, `C65_fitting_file_written`, `C65_written_and_read`, `C65_wide_refuted`, `C66_wrong_shape`, `C67_area_reports_refuted`, `C67_area_reports_partial`, `C68_special_day_refuted`, `C68_special_day_partial`, `C69_never_open`, `C70_log_pressure_heights`, `C71_missing_data_returns`, `C71_repeated_pressure`, `C72_heights_partial`, `C72_refuted`, `C72_order_partial`, `C74_below_ground_partial`, `C74_refuted`, `C75_mandatory_levels_partial`, `C75_height_refuted`, `C75_wind_refuted`, `C76_sounding_datasets`, `C76_returned`, `C77_unmerged_datasets`, `C77_returned`, `C78_listed_partial`, `C78_surface_listed`, `C78_refuted`, `C73_returns_partial`, `C73_no_data`, `C73_size_refuted`, `C73_refuted`, `C79_temperature_partial`, `C79_wind_partial`, `C79_own_temperature_partial`, `C79_own_wind_partial`, `C79_order_refuted`, `C80_fitting_file_written`, `C80_written_and_read`, `C80_written_fits`, `C81_record_shown`, `C81_file_header`, `C81_sigmet_status_refuted`, `C82_whole_file`, `C83_refill_refuted`, `C83_caller_refuted`, `C83_left_alone_partial`, `C83_arrays_kept_partial`, `C84_usual_order`, `C84_one_element_refuted`, `C84_empty_value_refuted`, `C84_file_refuted`, `C85_record_decoded`, `C85_file_opens`, `C85_one_bad_record`, `C85_ccf_refuted`, `C85_points_refuted`, `C85_unknown_version`, `C86_below_partial`, `C86_above_partial`, `C86_above_ignored`, `C86_refuted`, `C86_dropped_refuted`, `C86_replaced_refuted`, `C87_json_partial`, `C87_text_unless_jet`, `C87_jet_refuted`, `C87_nan_refuted`, `C88_returned`, `C88_failed_partial`, `C88_vgf_partial`, `C88_vgf_opens_partial`, `C88_interrupted_partial`, `C88_history`, `C88_untouched`, `C88_vgf_refuted`, `C88_interrupted_refuted`, `C89_groups`, `C89_listed`, `C89_passed_over`, `C89_written`, `C90_stations`, `C90_stations_file`, `C90_grids`, `C90_grids_file`, `C91_own_objects`, `C91_shared_object_refuted`, `C91_shared_object_partial`, `C91_turns_partial`, `C91_grid_turns_partial`, `C92_grids`, `C92_stations`, `C92_grids_objects`, `C92_stations_objects`, `C92_grids_again`, `C92_stations_again`, `C92_iterators_partial`, `C92_iterators_refuted`, `C92_times_refuted`, `C93_labels_partial`, `C93_selected_partial`, `C93_names_refuted`, `C93_layers_refuted`, `C93_alike_refuted`, `C94_projection_partial`, `C94_lost_refuted`, `C94_rotation_refuted`, `C94_documented_refuted`, `C94_accepted`, `C95_shapes`, `C95_written`, `C95_written_xy`.

It lists axioms for these 6:

* `C57_between_partial`: `ClassicalDedekindReals.sig_not_dec`, `ClassicalDedekindReals.sig_forall_dec`, `FunctionalExtensionality.functional_extensionality_dep`, `Classical_Prop.classic`
* `C57_direction_partial`: `ClassicalDedekindReals.sig_not_dec`, `ClassicalDedekindReals.sig_forall_dec`, `FunctionalExtensionality.functional_extensionality_dep`, `Classical_Prop.classic`
* `C57_result_pressure_refuted`: `ClassicalDedekindReals.sig_not_dec`, `ClassicalDedekindReals.sig_forall_dec`, `FunctionalExtensionality.functional_extensionality_dep`, `Classical_Prop.classic`
* `C84_text_partial`: `ClassicalDedekindReals.sig_not_dec`, `ClassicalDedekindReals.sig_forall_dec`, `FunctionalExtensionality.functional_extensionality_dep`, `Classical_Prop.classic`
* `C84_no_watches_refuted`: `ClassicalDedekindReals.sig_not_dec`, `ClassicalDedekindReals.sig_forall_dec`, `FunctionalExtensionality.functional_extensionality_dep`, `Classical_Prop.classic`
* `C84_record_partial`: `ClassicalDedekindReals.sig_not_dec`, `ClassicalDedekindReals.sig_forall_dec`, `FunctionalExtensionality.functional_extensionality_dep`, `Classical_Prop.classic`
