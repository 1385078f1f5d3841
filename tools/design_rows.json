{
"C01": [
"Words (`_position_to_word`, `_word_to_position`, `_dmword`)",
"integer arithmetic, all words and positions"
],
"C02": [
"Layout (`_set_pointers`), Words",
"arithmetic with symbolic numbers of rows, columns, keys, parts and parameters; SpecLayout says what a section is"
],
"C03": [
"Station, Grid: objects, additions and `to_gempak` as a state machine",
"invariant over every history of additions and writes; the write is a function of the headers and data it leaves alone"
],
"C04": [
"Station (writer), StationRead (reader), DmFile, Headers, Dates",
"memory map of the file each writer leaves (SoundFacts, SurfFacts), symbolic execution of the reader (ReadFacts), induction over the history (HistoryFacts)"
],
"C05": [
"Station (writer), StationRead (reader), DmFile, Headers, Dates",
"memory map of the file each writer leaves (SoundFacts, SurfFacts), symbolic execution of the reader (ReadFacts), induction over the history (HistoryFacts)"
],
"C06": [
"Grid, GridRead, Grib",
"as C04, with the packed values of C11-C17"
],
"C07": [
"Station, Grid: `add_*` and the sorted header list",
"induction over the history against SpecStation / SpecGrid"
],
"C08": [
"as C07",
"case analysis of every rejecting branch; the two branches that reject after changing the object are the refutation"
],
"C09": [
"Structs (both byte orders), DmFile, StationRead, Unmerged, GridRead, Query",
"SpecByteOrder: a file as words; the reader on both images, part by part: every structured read of number words or text words gives the same values, so opening gives the same file up to its bytes, and every query the same answer"
],
"C10": [
"DmFile `_process_gempak_header`",
"case analysis on the first 28 bytes of any byte string"
],
"C11": [
"Grib (`pack_grib`, `_unpack_grib`)",
"words as one big-endian integer (SpecGrib); induction over the cell index with the carried partial word as invariant"
],
"C12": [
"Grib (`pack_grib`, `_unpack_grib`)",
"words as one big-endian integer (SpecGrib); induction over the cell index with the carried partial word as invariant"
],
"C13": [
"Grib over exact rationals",
"rounding bounds; induction over cells"
],
"C14": [
"Grib over exact rationals",
"rounding bounds; induction over cells"
],
"C15": [
"Grib over exact rationals",
"rounding bounds; induction over cells"
],
"C16": [
"Grib",
"lengths from C12; one-word grids refute it"
],
"C17": [
"Grib scale search",
"well-founded measure and invariant of the loop"
],
"C18": [
"Real (`_unpack_real`, `_fortran_ishift`)",
"bit string specification SpecReal; induction over fields"
],
"C19": [
"Real, difference-packed branch of `_unpack_grid`",
"induction over rows and cells"
],
"C20": [
"Grib",
"all bit counts"
],
"C21": [
"Dates (`datetime`, `strftime`/`strptime` subset, `add_grid` date words, `_convert_dattim`, `_convert_ftime`, `_make_date`, `_make_time`)",
"closed-form calendar SpecDates; arithmetic on digits; every valid datetime"
],
"C22": [
"Dates (`datetime`, `strftime`/`strptime` subset, `add_grid` date words, `_convert_dattim`, `_convert_ftime`, `_make_date`, `_make_time`)",
"closed-form calendar SpecDates; arithmetic on digits; every valid datetime"
],
"C23": [
"Dates (`datetime`, `strftime`/`strptime` subset, `add_grid` date words, `_convert_dattim`, `_convert_ftime`, `_make_date`, `_make_time`)",
"closed-form calendar SpecDates; arithmetic on digits; every valid datetime"
],
"C24": [
"Dates (`datetime`, `strftime`/`strptime` subset, `add_grid` date words, `_convert_dattim`, `_convert_ftime`, `_make_date`, `_make_time`)",
"closed-form calendar SpecDates; arithmetic on digits; every valid datetime"
],
"C25": [
"Dates (`datetime`, `strftime`/`strptime` subset, `add_grid` date words, `_convert_dattim`, `_convert_ftime`, `_make_date`, `_make_time`)",
"closed-form calendar SpecDates; arithmetic on digits; every valid datetime"
],
"C26": [
"Dates (`datetime`, `strftime`/`strptime` subset, `add_grid` date words, `_convert_dattim`, `_convert_ftime`, `_make_date`, `_make_time`)",
"closed-form calendar SpecDates; arithmetic on digits; every valid datetime"
],
"C27": [
"Headers, Order",
"table of vertical coordinates; both byte orders"
],
"C28": [
"Headers, Strings",
"four-character pieces, padding and stripping as list lemmas"
],
"C29": [
"Headers, Strings",
"four-character pieces, padding and stripping as list lemmas"
],
"C30": [
"Headers, Floats",
"binary64 product rounded then truncated, bound by RoundFacts (no Reals)"
],
"C31": [
"Headers, Floats",
"binary64 product rounded then truncated, bound by RoundFacts (no Reals)"
],
"C32": [
"Headers",
"padding and stripping; decimal digits of numbers"
],
"C33": [
"DmFile, StationRead: header scan with unused slots",
"induction over the slots"
],
"C34": [
"Station `_add_parameters`",
"exact characterisation of the accepted lists"
],
"C35": [
"Station `add_sounding`",
"permutation of the dictionary"
],
"C36": [
"Tools (`IOBuffer`)",
"buffer as bytes and cursor; invariant over operation lists"
],
"C37": [
"Tools (`IOBuffer`)",
"buffer as bytes and cursor; invariant over operation lists"
],
"C38": [
"Tools (`IOBuffer`)",
"buffer as bytes and cursor; invariant over operation lists"
],
"C39": [
"Tools (`IOBuffer`)",
"buffer as bytes and cursor; invariant over operation lists"
],
"C62": [
"Tools (`IOBuffer`)",
"buffer as bytes and cursor; invariant over operation lists"
],
"C40": [
"Tools (`OrderedSet`)",
"induction over the iterable"
],
"C41": [
"Tools (`NamedStruct`), Structs",
"pack/unpack of every layout by induction over the format"
],
"C42": [
"Query (`gdxarray`, `snxarray`, `sfjson`, `nearest_time`)",
"membership in the result characterised entry by entry (SpecQuery); set order is universally quantified"
],
"C43": [
"Query (`gdxarray`, `snxarray`, `sfjson`, `nearest_time`)",
"membership in the result characterised entry by entry (SpecQuery); set order is universally quantified"
],
"C44": [
"Query (`gdxarray`, `snxarray`, `sfjson`, `nearest_time`)",
"membership in the result characterised entry by entry (SpecQuery); set order is universally quantified"
],
"C45": [
"Query (`gdxarray`, `snxarray`, `sfjson`, `nearest_time`)",
"membership in the result characterised entry by entry (SpecQuery); set order is universally quantified"
],
"C67": [
"Query (`gdxarray`, `snxarray`, `sfjson`, `nearest_time`)",
"membership in the result characterised entry by entry (SpecQuery); set order is universally quantified"
],
"C46": [
"Vgf `encode`",
"length of every record format; induction over the element list"
],
"C47": [
"Vgf, VgfRead, VgfTables",
"every built element is decoded from its own bytes (VgfCursor, VgfTripFacts); induction over the file; NearFacts bounds the error of numpy.around in 32-bit floats"
],
"C48": [
"VgfRead: element loop and all decoders on arbitrary bytes",
"cursor progress of every decoder (VgfLoopFacts); induction on the remaining bytes"
],
"C52": [
"VgfRead: element loop and all decoders on arbitrary bytes",
"cursor progress of every decoder (VgfLoopFacts); induction on the remaining bytes"
],
"C53": [
"VgfRead: element loop and all decoders on arbitrary bytes",
"cursor progress of every decoder (VgfLoopFacts); induction on the remaining bytes"
],
"C69": [
"VgfRead: element loop and all decoders on arbitrary bytes",
"cursor progress of every decoder (VgfLoopFacts); induction on the remaining bytes"
],
"C49": [
"Vgf: constructors and property setters",
"invariants over every history of assignments"
],
"C50": [
"Vgf: constructors and property setters",
"invariants over every history of assignments"
],
"C51": [
"Vgf: constructors and property setters",
"invariants over every history of assignments"
],
"C54": [
"VgfRead: selectors, groups, bounds",
"filter and sort lemmas against SpecVgfQuery"
],
"C55": [
"VgfRead: selectors, groups, bounds",
"filter and sort lemmas against SpecVgfQuery"
],
"C56": [
"VgfRead: selectors, groups, bounds",
"filter and sort lemmas against SpecVgfQuery"
],
"C57": [
"Calc `interp_parameters`",
"any arithmetic for the rejections; Coq reals for the bounds"
],
"C58": [
"Calc over an arbitrary arithmetic",
"induction over levels with an invariant on which entries may change"
],
"C59": [
"Calc over an arbitrary arithmetic",
"induction over levels with an invariant on which entries may change"
],
"C70": [
"Calc over an arbitrary arithmetic",
"induction over levels with an invariant on which entries may change"
],
"C71": [
"Calc over an arbitrary arithmetic",
"induction over levels with an invariant on which entries may change"
],
"C60": [
"Merge `_merge_sounding`",
"invariant: the six arrays keep one length, stage by stage"
],
"C72": [
"Merge, with binary64 comparisons; with numbers without rounding for winds on height surfaces",
"binary search specification; invariant of the insertions (MergeOrder, FloatOrder); levels without pressure lie strictly between their neighbours (MergeHeightOrder)"
],
"C74": [
"Merge, with binary64 comparisons",
"binary search specification; invariant of the insertions (MergeOrder, FloatOrder)"
],
"C73": [
"Merge",
"every stage returns on aligned arrays (MergeReturns)"
],
"C61": [
"StationRead `process_report_text`",
"string functions; search and split lemmas against SpecText"
],
"C68": [
"StationRead `process_report_text`",
"string functions; search and split lemmas against SpecText"
],
"C63": [
"Station, Dates",
"`strptime` on the written form"
],
"C64": [
"Station, StationRead",
"first four characters of names"
],
"C65": [
"Grid.v, DmFile.v, SpecGridWrite.v",
"case analysis of the constructor and `add_grid`; each step of the writer shown to succeed on fitting values (GridWriteFacts, FloatBound); reading back from C06"
],
"C66": [
"Grid",
"case analysis of the constructor, `add_grid` and the writer"
],
"C75": [
"Merge, any arithmetic",
"invariant: some level keeps the values, through every later stage (MergeKeep)"
],
"C76": [
"SnOut (dataset_of, order_of, reorder, mask), StationRead, Query",
"sorting facts (permutation, stable order) and dictionary facts over every record; SpecSnOut states the dataset's relation to the record"
],
"C77": [
"Unmerged.v (reading of the parts, record of the merged sounding, snxarray for unmerged files); SpecUnmerged.v says which arrays are stored",
"Dictionaries filled in order keep the last write; strides give every n-th value; names of an opened file are ASCII, so the merging's look-ups are the file's; then the facts of C60 and C76."
],
"C78": [
"StationRead.v (present, info)",
"The listing is a filter of all cells; a file built with the writer's own functions gives the counterexample."
],
"C79": [
"SpecMergeReport (pressure, reported, in_order, level_with), Merge, Calc",
"MergeReport: invariant that every value at the pressure is a reported one, step lemma that the level is found or inserted, then the level survives all later stages (MergeKeep); Props_MergeReport"
],
"C80": [
"Station.v (constructor, add_sounding/add_station, save), DmFile.v (writer), StationRead.v (reader)",
"the writer's steps each shown to succeed on fitting values (WritableFacts, StationWriteFacts), positions bounded by the total size; reading back from round_trip (RoundTripFacts)"
],
"C81": [
"VgfRead.v, VgfTables.v; SpecVgfFields.v lists the byte of every attribute independently of the structure tables",
"the reading of a structure is shown to yield values at computed places, by induction over its fields (VgfFieldFacts); each decoder then by symbolic execution (VgfRecordFacts)"
],
"C82": [
"VgfRead.v, SpecVgfFields.v (chain)",
"induction over the chain, from C81"
],
"C83": [
"GridShare.v: the same code as Grid.v with arrays as references in a heap; SpecShare.v",
"refinement of the copying model by induction over the program, with the invariant that stored arrays are the caller's with NaN cells filled (GridShareFacts)"
],
"C84": [
"Tca.v: the two regular expressions as leftmost shortest matches, int() and float() of ASCII texts, numpy.array_split, the loop over the watches; SpecTca.v writes advisories as text and says what shows them, SpecNearest.v says what the nearest double is",
"induction over the list of fields for the search; digits; Flocq's correctness of division for the nearest double (NearestFacts)"
],
"C85": [
"VgfRead.v (all record decoders, dispatch, read loop); SpecVgfOpen.v gives the conditions",
"VgfOpenFacts.v (each reading step succeeds iff its condition), VgfSoundFacts.v (each decoder, dispatch, induction over the chain)"
],
"C86": [
"Merge.v (height winds of _merge_sounding), SpecMergeHeight.v",
"loop invariant over levels and reports in MergeHeight.v: levels between the last two heights, insertion keeps order; witnesses for the refutations"
],
"C87": [
"Json.v (attributes of the elements as Python objects, json.dumps with the encoder for arrays) on top of VgfRead.v and Tca.v; a reader of JSON and what an object says about an element in SpecJson.v",
"JsonFacts.v: the text of every known value is read back; JsonElemFacts.v: objects of elements; JsonReadFacts.v: every decoder gives elements with known values (invariant of the element loop)"
],
"C88": [
"Disk.v (files by path, the operations open and write, the calls), over save, save_grid and encode of the existing models; SpecDisk.v (interruption at any byte)",
"Props_Disk.v: induction over the elements written and over the calls; C47 for reading the beginning of a VGF file back"
],
"C89": [
"VgfRead.v (note_group, get_group); SpecVgfGroups.v (distinct numbers, where records start)",
"Props_VgfGroups.v: one round of the reading loop notes the type stored at byte 7 of its record; induction over the records; for written files over the elements, with C47 and C55"
],
"C90": [
"ReaderIO (the queries as operations on the shared buffer), Tools (IOBuffer)",
"every query jumps to the first mark before it reads; the data and the first mark are kept by every operation; induction on the loops and on the series of calls"
],
"C91": [
"ReaderIO (interleave, interleave2)",
"a step keeps what the query will answer; before each jump from the start the answer does not depend on the place (comes_to); witness schedule for the shared object"
],
"C92": [
"Args (lists, tuples and iterators followed through the parsing and the lazy filters)",
"the filters leave objects that are not iterators alone; induction on the list of times and on the entries"
],
"C93": [
"Query (gdxarray with its labels), SpecGridLabels",
"case analysis on the renamed names and injectivity of lower-casing; the selection of C42"
],
"C94": [
"Nav.v (GridFile's constructor with use_xy or without, _set_projection_params, the reader's _get_crs), on top of Grid.v and DmFile.v",
"SpecNav.v lists PROJ and CF names of each parameter; the navigation block of a written file is computed (GridFacts.v), then case analysis on the kind of projection"
],
"C95": [
"Nav.v (_set_coordinates, numpy.linspace), GridRead.v (_unpack_grid)",
"lengths by induction on the packings; corners by computation in IEEE arithmetic with a zero factor; cells by induction on the rows"
]
}