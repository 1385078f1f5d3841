{"id": "C01", "title": "Word numbers and byte positions are inverse", "statement": "Converting a 1-based GEMPAK word number to a byte position and back yields the word; every byte position lies inside the 4-byte word its word number names.", "quantifier": "every word number and every byte position (unbounded integers)", "why_tests_cant": "unbounded integers", "anchors": ["src/gempakio/common.py:_position_to_word", "src/gempakio/common.py:_word_to_position"]}
{"id": "C02", "title": "File sections never overlap", "statement": "For any number of rows, columns, keys, file headers, parts and parameters, the sections of a written GEMPAK file (label, data management record, row keys, column keys, file keys and headers, row headers, column headers, parts, data pointer table, free space) occupy pairwise disjoint, increasing word ranges, and the row headers, parts, pointer table and free space start on 128-word record boundaries with less than one record of padding.", "quantifier": "every file shape (all counts unbounded)", "why_tests_cant": "the offsets depend on five independent unbounded counts with rounding to record boundaries; tests sample a handful of shapes", "anchors": ["src/gempakio/encode/gempak.py:DataManagementFile._set_pointers", "src/gempakio/encode/gempak.py:DataManagementFile._dmword"]}
{"id": "C03", "title": "Writing a file is repeatable", "statement": "Calling to_gempak any number of times on the same object writes identical bytes each time and leaves the stored rows, columns and data unchanged.", "quantifier": "every file content, every number of calls", "why_tests_cant": "all histories of calls", "anchors": ["src/gempakio/encode/gempak.py:DataManagementFile.to_gempak"]}
{"id": "C04", "title": "Sounding file round trip", "statement": "After any sequence of successful add_sounding calls, decoding the bytes produced by to_gempak with GempakSounding lists exactly the (date/time, station) pairs that were added, and each sounding's parameter arrays are the last arrays added for that pair, each value rounded to 32-bit float and NaN replaced by -9999.", "quantifier": "every sequence of add_sounding calls, every parameter list, every level count", "why_tests_cant": "all histories and all data; pointer arithmetic errors only show for particular row/column occupancy patterns", "anchors": ["src/gempakio/encode/gempak.py:SoundingFile", "src/gempakio/decode/gempak.py:GempakFile.__init__", "src/gempakio/decode/gempak.py:GempakSounding"]}
{"id": "C05", "title": "Surface file round trip", "statement": "After any sequence of successful add_station calls, decoding the bytes produced by to_gempak with GempakSurface (standard layout) lists exactly the (date/time, station) pairs that were added, with the last values added for each pair rounded to 32-bit float, NaN replaced by -9999, and absent pairs not reported.", "quantifier": "every sequence of add_station calls, every parameter list", "why_tests_cant": "all histories and occupancy patterns", "anchors": ["src/gempakio/encode/gempak.py:SurfaceFile", "src/gempakio/decode/gempak.py:GempakSurface"]}
{"id": "C06", "title": "Grid file round trip", "statement": "After any sequence of successful add_grid calls, decoding the bytes produced by to_gempak lists one grid per distinct header, in the file's sorted header order, and each grid's packed words, reference value, scale and bit count read back are those written for the last grid added with that header.", "quantifier": "every sequence of add_grid calls, every grid size and precision", "why_tests_cant": "all histories, sizes and precisions", "anchors": ["src/gempakio/encode/gempak.py:GridFile", "src/gempakio/decode/gempak.py:GempakGrid"]}
{"id": "C07", "title": "Adding a duplicate replaces, anything else is kept", "statement": "Adding an entry whose metadata equals an earlier one replaces only that entry's data; every other entry keeps its data, and the number of rows and columns does not change.", "quantifier": "every history of additions", "why_tests_cant": "all histories", "anchors": ["src/gempakio/encode/gempak.py:SoundingFile.add_sounding", "src/gempakio/encode/gempak.py:SurfaceFile.add_station", "src/gempakio/encode/gempak.py:GridFile.add_grid"]}
{"id": "C08", "title": "A rejected addition leaves the file unchanged", "statement": "If add_sounding, add_station or add_grid raises, the object is as it was before the call.", "quantifier": "every history and every rejected call", "why_tests_cant": "all error points in all histories", "anchors": ["src/gempakio/encode/gempak.py:SoundingFile.add_sounding", "src/gempakio/encode/gempak.py:SurfaceFile.add_station", "src/gempakio/encode/gempak.py:GridFile.add_grid"]}
{"id": "C09", "title": "Byte order does not matter to the reader", "statement": "A file whose numeric words are all byte-swapped (written on a machine of the other byte order) decodes to the same label, headers and data as the original.", "quantifier": "every valid file of either byte order", "why_tests_cant": "all files", "anchors": ["src/gempakio/decode/gempak.py:GempakFile._swap_bytes", "src/gempakio/decode/gempak.py:GempakFile.__init__"]}
{"id": "C10", "title": "Non-GEMPAK input is rejected", "statement": "Opening a file whose first 28 bytes differ from the GEMPAK header raises and never yields a decoded object.", "quantifier": "every byte sequence", "why_tests_cant": "all inputs", "anchors": ["src/gempakio/decode/gempak.py:GempakFile._process_gempak_header"]}
{"id": "C11", "title": "GRIB bit packing round trip", "statement": "For every bit count 1..31 and every list of integers below 2**bits that fills at least two 32-bit words, the words produced by pack_grib unpack with _unpack_grib to the same integers in the same order.", "quantifier": "every bit count, every length, every value list", "why_tests_cant": "word-boundary straddling depends on bits*index mod 32 for unbounded index", "anchors": ["src/gempakio/encode/gempak.py:pack_grib", "src/gempakio/decode/gempak.py:_unpack_grib"]}
{"id": "C12", "title": "Packed length is exact", "statement": "pack_grib produces exactly ceil(bits*n/32) words, each representable in a signed 32-bit integer, so the length stored in the data header is the number of words that follow.", "quantifier": "every grid size and precision", "why_tests_cant": "all sizes", "anchors": ["src/gempakio/encode/gempak.py:pack_grib", "src/gempakio/encode/gempak.py:GridFile._write_data"]}
{"id": "C13", "title": "GRIB quantization error is bounded by half a scale step", "statement": "Every non-missing grid value is reproduced after pack and unpack within half of the stored scale (in exact arithmetic), the scale is a power of two, and the minimum of the grid is reproduced exactly up to its 32-bit float storage.", "quantifier": "every grid, every precision", "why_tests_cant": "all real-valued grids", "anchors": ["src/gempakio/encode/gempak.py:pack_grib", "src/gempakio/decode/gempak.py:_unpack_grib"]}
{"id": "C14", "title": "Missing cells stay missing", "statement": "A cell equal to the missing value (or NaN at add_grid) decodes as the missing value, whatever the other cells are.", "quantifier": "every grid and position", "why_tests_cant": "all grids", "anchors": ["src/gempakio/encode/gempak.py:pack_grib", "src/gempakio/encode/gempak.py:GridFile.add_grid", "src/gempakio/decode/gempak.py:_unpack_grib"]}
{"id": "C15", "title": "Present cells never turn missing", "statement": "A cell that is not missing in the input is not decoded as missing.", "quantifier": "every grid and precision", "why_tests_cant": "only particular value ranges reach the all-ones code", "anchors": ["src/gempakio/encode/gempak.py:pack_grib", "src/gempakio/decode/gempak.py:_unpack_grib"]}
{"id": "C16", "title": "Every accepted grid can be written and read back", "statement": "For every grid of any size accepted by GridFile and every precision 1..31, packing succeeds and the reader returns a grid.", "quantifier": "every grid size and precision", "why_tests_cant": "all sizes, including one-word grids", "anchors": ["src/gempakio/encode/gempak.py:pack_grib", "src/gempakio/decode/gempak.py:GempakGrid._unpack_grid"]}
{"id": "C17", "title": "Scale selection terminates and is maximal", "statement": "The scale search in pack_grib always terminates; when it widens the precision, the chosen power of two is the largest for which the grid range still fits below the missing code.", "quantifier": "every value range and precision", "why_tests_cant": "termination over all inputs", "anchors": ["src/gempakio/encode/gempak.py:pack_grib"]}
{"id": "C18", "title": "Packed real fields are independent bit fields", "statement": "Unpacking packed surface/sounding data returns, for every parameter, (field + offset) * 10**scale where field is the parameter's own bits of the little-end-first bit string of the record, or missing when those bits are all ones; a parameter never depends on another parameter's bits.", "quantifier": "every record, every list of bit widths 1..32, every number of records", "why_tests_cant": "bit fields straddle words in unboundedly many ways", "anchors": ["src/gempakio/decode/gempak.py:GempakFile._unpack_real", "src/gempakio/decode/gempak.py:GempakFile._fortran_ishift"]}
{"id": "C19", "title": "Difference-packed grids extract consecutive bit fields", "statement": "Reading a difference-packed grid uses, for cell k, exactly bits k*n .. (k+1)*n-1 of the big-end-first bit string of the packed words, and rebuilds each row as running sums started from the previous row's first present value.", "quantifier": "every grid shape and bit count 1..31", "why_tests_cant": "all shapes", "anchors": ["src/gempakio/decode/gempak.py:GempakGrid._unpack_grid"]}
{"id": "C20", "title": "Precision outside 1..31 is rejected", "statement": "pack_grib raises for every bit count outside 1..31, before producing output.", "quantifier": "every integer bit count", "why_tests_cant": "all integers", "anchors": ["src/gempakio/encode/gempak.py:pack_grib"]}
{"id": "C21", "title": "Analysis date/time round trip", "statement": "A grid added with a datetime (or a plain YYYYmmddHHMM string) in 1969..2068 is listed by gdinfo with the same date/time to the minute and type analysis.", "quantifier": "every minute in 1969..2068", "why_tests_cant": "about 52 million instants, calendar arithmetic", "anchors": ["src/gempakio/encode/gempak.py:GridFile.add_grid", "src/gempakio/encode/gempak.py:GridFile._write_column_headers", "src/gempakio/decode/gempak.py:GempakFile._convert_dattim", "src/gempakio/decode/gempak.py:GempakFile._convert_ftime"]}
{"id": "C22", "title": "Forecast date/time round trip", "statement": "A grid added with type F, V, G or I, an initial time in 1969..2068 and forecast time hhhmm is listed with date/time equal to initial time plus hhh hours mm minutes and type forecast, forecast, guess, initial respectively.", "quantifier": "every initial minute and every forecast hour 0..999 and minute 0..99", "why_tests_cant": "billions of combinations", "anchors": ["src/gempakio/encode/gempak.py:GridFile.add_grid", "src/gempakio/encode/gempak.py:GridFile._write_column_headers", "src/gempakio/decode/gempak.py:GempakFile._convert_dattim", "src/gempakio/decode/gempak.py:GempakFile._convert_ftime"]}
{"id": "C23", "title": "Explicit analysis type keeps the initial time", "statement": "A grid added as YYYYmmddHHMMA is listed with date/time YYYYmmddHHMM.", "quantifier": "every instant", "why_tests_cant": "all instants", "anchors": ["src/gempakio/encode/gempak.py:GridFile.add_grid", "src/gempakio/encode/gempak.py:GridFile._write_column_headers"]}
{"id": "C24", "title": "Dates outside the two-digit-year window", "statement": "Every date/time the writer accepts reads back as the same date/time.", "quantifier": "every year 1..9999", "why_tests_cant": "all years", "anchors": ["src/gempakio/encode/gempak.py:SoundingFile._write_row_headers", "src/gempakio/encode/gempak.py:GridFile._write_column_headers", "src/gempakio/decode/gempak.py:GempakFile._convert_dattim"]}
{"id": "C25", "title": "Stored date/time encodings are unambiguous and in range", "statement": "Every encoded date/time is a nonzero signed 32-bit integer, analysis encodings are below 100000000 and forecast encodings are not, and distinct minutes (within the two-digit-year window) have distinct encodings.", "quantifier": "every date/time", "why_tests_cant": "all instants", "anchors": ["src/gempakio/encode/gempak.py:GridFile._write_column_headers", "src/gempakio/decode/gempak.py:GempakFile._convert_dattim"]}
{"id": "C26", "title": "Row times of soundings and surface files round trip", "statement": "Row date and time written as YYMMDD and HHMM read back as the same date and the same hour and minute for all years 1969..2068.", "quantifier": "every date and minute", "why_tests_cant": "all instants", "anchors": ["src/gempakio/encode/gempak.py:SoundingFile._write_row_headers", "src/gempakio/encode/gempak.py:SurfaceFile._write_row_headers", "src/gempakio/decode/gempak.py:GempakFile._make_date", "src/gempakio/decode/gempak.py:GempakFile._make_time"]}
{"id": "C27", "title": "Levels and vertical coordinates round trip", "statement": "Non-negative levels read back unchanged, an absent second level reads back as None, and each of the nine vertical coordinate names (any letter case) reads back as its upper-case name; any other name is rejected.", "quantifier": "every level, every name", "why_tests_cant": "all integers and strings", "anchors": ["src/gempakio/encode/gempak.py:DataManagementFile._encode_vertical_coordinate", "src/gempakio/encode/gempak.py:GridFile.add_grid", "src/gempakio/decode/gempak.py:GempakFile._convert_level", "src/gempakio/decode/gempak.py:GempakFile._convert_vertical_coord"]}
{"id": "C28", "title": "Grid parameter names round trip", "statement": "A parameter name of at most 12 printable non-space ASCII characters reads back as its upper-case form.", "quantifier": "every such name", "why_tests_cant": "all strings", "anchors": ["src/gempakio/encode/gempak.py:GridFile.add_grid", "src/gempakio/decode/gempak.py:GempakGrid.__init__"]}
{"id": "C29", "title": "Grid parameter names containing spaces", "statement": "Every accepted parameter name reads back as given (upper-cased).", "quantifier": "every accepted string", "why_tests_cant": "all strings", "anchors": ["src/gempakio/encode/gempak.py:GridFile.add_grid", "src/gempakio/decode/gempak.py:GempakGrid.__init__"]}
{"id": "C30", "title": "Station coordinates are kept to a hundredth of a degree", "statement": "Station latitude and longitude read back within one hundredth of a degree of the value given, truncated toward zero, with the sign kept.", "quantifier": "every representable latitude/longitude", "why_tests_cant": "all floating-point values", "anchors": ["src/gempakio/encode/gempak.py:SoundingFile._write_column_headers", "src/gempakio/decode/gempak.py:GempakSounding.__init__"]}
{"id": "C31", "title": "Coordinates with two decimals survive a decode/encode cycle", "statement": "Re-encoding coordinates that were decoded from a file stores the same hundredths again.", "quantifier": "every stored coordinate", "why_tests_cant": "all stored integers; floating-point rounding", "anchors": ["src/gempakio/encode/gempak.py:SoundingFile._write_column_headers", "src/gempakio/decode/gempak.py:GempakSounding.__init__"]}
{"id": "C32", "title": "Station identifiers round trip", "statement": "A station identifier of at most 8 non-space ASCII characters reads back upper-cased: surface files report all of it; sounding files report it too.", "quantifier": "every identifier", "why_tests_cant": "all strings", "anchors": ["src/gempakio/encode/gempak.py:SoundingFile.add_sounding", "src/gempakio/encode/gempak.py:SurfaceFile.add_station", "src/gempakio/decode/gempak.py:GempakSounding.__init__", "src/gempakio/decode/gempak.py:GempakSurface.__init__"]}
{"id": "C33", "title": "Unused header slots do not disturb the rest", "statement": "In a file where some row or column header slots are marked unused, every used header is decoded with its own values and stays associated with its own data.", "quantifier": "every pattern of used/unused slots", "why_tests_cant": "exponentially many patterns", "anchors": ["src/gempakio/decode/gempak.py:GempakGrid.__init__", "src/gempakio/decode/gempak.py:GempakSounding.__init__", "src/gempakio/decode/gempak.py:GempakSurface.__init__"]}
{"id": "C34", "title": "Parameter lists are case-insensitive and free of duplicates", "statement": "Constructing a sounding or surface file accepts any list of at most 44 parameter names and stores each distinct (case-insensitive) name once, in first-occurrence order.", "quantifier": "every list of names", "why_tests_cant": "all lists", "anchors": ["src/gempakio/encode/gempak.py:SoundingFile._add_parameters", "src/gempakio/encode/gempak.py:SurfaceFile._add_parameters"]}
{"id": "C35", "title": "Sounding data is stored by parameter name, not argument order", "statement": "The stored column order is the file's parameter order whatever the order of keys in the data dict; a dict with missing, extra or unequal-length columns, or with 500 or more levels, is rejected.", "quantifier": "every dict, every key order", "why_tests_cant": "all permutations", "anchors": ["src/gempakio/encode/gempak.py:SoundingFile.add_sounding", "src/gempakio/encode/gempak.py:SoundingFile._validate_length", "src/gempakio/encode/gempak.py:SoundingFile._write_data"]}
{"id": "C36", "title": "Buffer reads partition the data", "statement": "Consecutive reads of any sizes return consecutive slices whose concatenation is the prefix of the data read so far; no read returns bytes beyond the end, and the offset advances by exactly the number of bytes returned.", "quantifier": "every byte string and every sequence of read sizes", "why_tests_cant": "all sequences", "anchors": ["src/gempakio/tools.py:IOBuffer.read", "src/gempakio/tools.py:IOBuffer.get_next", "src/gempakio/tools.py:IOBuffer.skip", "src/gempakio/tools.py:IOBuffer.at_end"]}
{"id": "C37", "title": "Marks survive any operation sequence", "statement": "Jumping to a mark returns to the offset at which it was set, whatever reads, skips and jumps happened in between, and offset_from reports the distance from it.", "quantifier": "every sequence of buffer operations", "why_tests_cant": "all histories", "anchors": ["src/gempakio/tools.py:IOBuffer.set_mark", "src/gempakio/tools.py:IOBuffer.jump_to", "src/gempakio/tools.py:IOBuffer.offset_from"]}
{"id": "C38", "title": "Failed structured reads do not move the buffer", "statement": "If a structured read (read_struct, read_func) fails, the buffer offset and data are unchanged.", "quantifier": "every buffer state", "why_tests_cant": "all states", "anchors": ["src/gempakio/tools.py:IOBuffer.read_struct", "src/gempakio/tools.py:IOBuffer.read_func"]}
{"id": "C39", "title": "truncate(n) removes exactly n bytes", "statement": "truncate(n) removes the last n bytes of the buffer for every n from 0 to its length.", "quantifier": "every buffer and n", "why_tests_cant": "all n, including 0", "anchors": ["src/gempakio/tools.py:IOBuffer.truncate"]}
{"id": "C40", "title": "OrderedSet keeps first-insertion order", "statement": "After any sequence of add and discard operations an OrderedSet holds each member once, in the order of the insertion that made it a member, and membership matches the mathematical set.", "quantifier": "every operation sequence", "why_tests_cant": "all histories", "anchors": ["src/gempakio/tools.py:OrderedSet"]}
{"id": "C41", "title": "Named structs round trip and convert the right fields", "statement": "Packing values for a named struct and unpacking the bytes gives the values back under the same names, with each converter applied to its own field, whatever unnamed padding entries occur; the byte length is the struct size.", "quantifier": "every field list and value assignment", "why_tests_cant": "all field lists", "anchors": ["src/gempakio/tools.py:NamedStruct"]}
{"id": "C42", "title": "Grid selection is a conjunction of filters", "statement": "gdxarray selects exactly the grids that satisfy all given filters, in file order, and raises KeyError exactly when none does.", "quantifier": "every set of grids and every filter combination", "why_tests_cant": "all combinations", "anchors": ["src/gempakio/decode/gempak.py:GempakGrid.gdxarray"]}
{"id": "C43", "title": "Sounding and surface selection is a conjunction of filters", "statement": "snxarray and sfjson select exactly the entries satisfying all given filters, in sorted order, and raise KeyError exactly when none does; state and country match case-insensitively.", "quantifier": "every set of entries and every filter combination", "why_tests_cant": "all combinations", "anchors": ["src/gempakio/decode/gempak.py:GempakSounding.snxarray", "src/gempakio/decode/gempak.py:GempakSurface.sfjson"]}
{"id": "C44", "title": "first and last select the extreme times", "statement": "With date_time 'first' ('last') the entries returned are exactly the filtered entries whose time is the earliest (latest) in the file.", "quantifier": "every set of entries", "why_tests_cant": "all sets", "anchors": ["src/gempakio/decode/gempak.py:GempakGrid.gdxarray", "src/gempakio/decode/gempak.py:GempakSounding.snxarray", "src/gempakio/decode/gempak.py:GempakSurface.sfjson"]}
{"id": "C45", "title": "nearest_time returns the closest report", "statement": "For each station, nearest_time returns the report whose time is closest to the requested time, the earliest listed on ties, and exactly one of the station filters must be given.", "quantifier": "every set of reports and requested time", "why_tests_cant": "all sets", "anchors": ["src/gempakio/decode/gempak.py:GempakSurface.nearest_time"]}
{"id": "C46", "title": "VGF record size is the encoded length", "statement": "For every encodable element the record_size in its header equals the number of bytes encode() returns.", "quantifier": "every element and every setter history", "why_tests_cant": "all sizes and histories", "anchors": ["src/gempakio/encode/vgf.py:Element", "src/gempakio/encode/vgf.py:Line.encode", "src/gempakio/encode/vgf.py:Front.encode", "src/gempakio/encode/vgf.py:SpecialLine.encode", "src/gempakio/encode/vgf.py:SpecialText.encode", "src/gempakio/encode/vgf.py:SymbolBase.encode"]}
{"id": "C47", "title": "VGF write/read round trip", "statement": "Decoding a file written by VGFile yields the same elements in the same order with the same class, type, attributes and points (coordinates rounded to 32-bit float).", "quantifier": "every list of elements", "why_tests_cant": "all lists", "anchors": ["src/gempakio/encode/vgf.py:VGFile.to_vgf", "src/gempakio/decode/vgf.py:VectorGraphicFile"]}
{"id": "C48", "title": "VGF decoding always terminates", "statement": "Opening any byte sequence as a VGF file either yields elements or raises, in finitely many steps.", "quantifier": "every byte sequence", "why_tests_cant": "non-termination on crafted input", "anchors": ["src/gempakio/decode/vgf.py:VectorGraphicFile._decode_elements"]}
{"id": "C49", "title": "Setter validation is preserved by every history", "statement": "After any sequence of attribute assignments, successful or rejected, every validated attribute of a VGF element is within its documented range and a rejected assignment changes nothing.", "quantifier": "every sequence of assignments", "why_tests_cant": "all histories", "anchors": ["src/gempakio/encode/vgf.py:Element", "src/gempakio/encode/vgf.py:Front", "src/gempakio/encode/vgf.py:SpecialLine", "src/gempakio/encode/vgf.py:SpecialText", "src/gempakio/encode/vgf.py:SymbolBase"]}
{"id": "C50", "title": "Front code and width stay consistent", "statement": "After any sequence of width and front_code assignments the intensity digit of the front code equals the width.", "quantifier": "every sequence of assignments", "why_tests_cant": "all histories", "anchors": ["src/gempakio/encode/vgf.py:Front"]}
{"id": "C51", "title": "Flipping twice is the identity", "statement": "Flipping a front or line direction twice restores it, and flipping coordinates twice restores their order.", "quantifier": "every element", "why_tests_cant": "all elements", "anchors": ["src/gempakio/encode/vgf.py:Front.flip", "src/gempakio/decode/vgf.py:VectorGraphicFile.flip_coordinates"]}
{"id": "C52", "title": "Closed lines end where they start", "statement": "A decoded closed line's coordinate list is the stored points followed by the first stored point.", "quantifier": "every closed line", "why_tests_cant": "all point lists", "anchors": ["src/gempakio/decode/vgf.py:VectorGraphicFile.close_coordinates", "src/gempakio/decode/vgf.py:VectorGraphicFile._decode_lines"]}
{"id": "C53", "title": "Decoded text ends at the first NUL", "statement": "A decoded fixed-width text field is the stored text up to its first NUL, or the whole field if there is none.", "quantifier": "every byte field", "why_tests_cant": "all fields", "anchors": ["src/gempakio/decode/vgf.py:VectorGraphicFile._decode_strip_null"]}
{"id": "C54", "title": "VGF selectors return exactly the matching elements", "statement": "Each get_* selector returns exactly the elements of its kind in file order, its has_* predicate is true exactly when there is one, and filter_elements returns exactly the elements matching all given filters.", "quantifier": "every element list", "why_tests_cant": "all lists", "anchors": ["src/gempakio/decode/vgf.py:VectorGraphicFile.filter_elements", "src/gempakio/decode/vgf.py:VectorGraphicFile.get_group"]}
{"id": "C55", "title": "Groups partition by number", "statement": "get_group returns one group per distinct group number of the requested type, sorted, containing exactly the elements with that number.", "quantifier": "every element list", "why_tests_cant": "all lists", "anchors": ["src/gempakio/decode/vgf.py:VectorGraphicFile.get_group", "src/gempakio/decode/vgf.py:Group"]}
{"id": "C56", "title": "Bounds enclose all elements", "statement": "bounds encloses every element that has coordinates.", "quantifier": "every element list", "why_tests_cant": "all lists", "anchors": ["src/gempakio/decode/vgf.py:VectorGraphicFile.bounds"]}
{"id": "C57", "title": "Interpolated levels lie between their neighbours", "statement": "interp_parameters returns values between the two bracketing levels' values for linearly interpolated parameters, a wind direction in [0,360) (or the missing value), and rejects a target pressure outside the bracket.", "quantifier": "every pair of levels and target", "why_tests_cant": "all reals", "anchors": ["src/gempakio/gemcalc.py:interp_parameters"]}
{"id": "C58", "title": "Filling missing data never changes present data", "statement": "interp_missing_data, interp_logp_height, interp_moist_height and interp_logp_pressure change only entries that were missing, and keep every array's length.", "quantifier": "every sounding", "why_tests_cant": "all soundings", "anchors": ["src/gempakio/gemcalc.py:interp_missing_data", "src/gempakio/gemcalc.py:interp_logp_height", "src/gempakio/gemcalc.py:interp_logp_pressure"]}
{"id": "C59", "title": "Height interpolation terminates", "statement": "interp_logp_height terminates for every sounding.", "quantifier": "every sounding", "why_tests_cant": "non-termination", "anchors": ["src/gempakio/gemcalc.py:interp_logp_height"]}
{"id": "C60", "title": "Merging keeps profile arrays aligned", "statement": "Merging an unmerged sounding yields pressure, height, temperature, dewpoint, wind direction and wind speed arrays of equal length.", "quantifier": "every set of parts", "why_tests_cant": "all combinations of parts", "anchors": ["src/gempakio/decode/gempak.py:GempakSounding._merge_sounding"]}
{"id": "C61", "title": "Report text is split and timed consistently", "statement": "A surface cell with report text gives one report for each station-led piece of its regular text and of its special text, with the pieces joining back to the text. Regular reports keep the file's time and carry the decoded values. A special report takes day, hour and minute from the first time group of its own text, or the file's time when there is none or it is not a time, and carries the decoded values only when there is no regular text.", "quantifier": "every cell of every standard surface file, every text", "why_tests_cant": "all strings", "anchors": ["src/gempakio/decode/gempak.py:GempakSurface._process_report_text"]}
{"id": "C62", "title": "Splicing keeps what precedes the mark and replaces the rest", "statement": "Splicing new data into a buffer at a mark that still lies within the data leaves every byte before the marked offset unchanged, puts exactly the new data after it, leaves the read position at the mark, and keeps all marks usable; an unknown mark raises and changes nothing. Reading everything from there yields exactly the new data.", "quantifier": "every buffer, every earlier sequence of operations since the mark was set, every replacement data", "why_tests_cant": "Depends on arbitrary histories of reads, truncations and other splices between setting the mark and splicing.", "anchors": ["src/gempakio/tools.py: IOBuffer.splice, IOBuffer.jump_to, IOBuffer.set_mark"]}
{"id": "C63", "title": "Times given as strings mean the same as datetimes", "statement": "add_sounding and add_station accept the observation time either as a datetime or as a string YYYYmmddHHMM (soundings also YYYYmmddHHMMFhhh, a forecast hour to be added); the string form stores exactly what the datetime it stands for would store.", "quantifier": "every valid date and time, every forecast hour of any number of digits, either letter case, every state of the file object", "why_tests_cant": "All dates (month and year ends), hours and object states.", "anchors": ["src/gempakio/encode/gempak.py: SoundingFile.add_sounding, SurfaceFile.add_station"]}
{"id": "C64", "title": "Every stored parameter can be read back under its own name", "statement": "Each parameter of a file that was accepted at construction can be found in the decoded record under its name (as far as the file format keeps it, four characters) with the values added for it.", "quantifier": "every list of accepted parameter names, every history of additions", "why_tests_cant": "Depends on clashes between arbitrary names.", "anchors": ["src/gempakio/encode/gempak.py: SoundingFile._add_parameters, SurfaceFile._add_parameters, GempakStream.write_string", "src/gempakio/decode/gempak.py: GempakSounding._unpack_merged, GempakSurface._unpack_standard"]}
{"id": "C65", "title": "A grid file that can be built can be written", "statement": "Every grid file object that the constructor accepts, and to which grids were added successfully, can be written with to_gempak.", "quantifier": "every accepted geometry, every history of successful additions, both byte orders", "why_tests_cant": "Needs all grid sizes and geometries; the usual tests use large grids.", "anchors": ["src/gempakio/encode/gempak.py: GridFile._write_file_headers, GridFile.__init__, DataManagementFile.to_gempak"]}
{"id": "C66", "title": "A grid of another shape is rejected", "statement": "add_grid raises ValueError, and leaves the file object unchanged, exactly when the array's shape is not (rows, columns) of the coordinate arrays the file was created with; it never accepts the transposed shape.", "quantifier": "every grid file and every array", "why_tests_cant": "all shapes; the tests use square or matching arrays", "anchors": ["src/gempakio/encode/gempak.py:GridFile.add_grid"]}
{"id": "C67", "title": "An area filter returns reports of that area", "statement": "A report returned by nearest_time for a state, country or bounding box comes from a station in that state, country or box.", "quantifier": "every surface file and every area", "why_tests_cant": "depends on which stations share an identifier", "anchors": ["src/gempakio/decode/gempak.py:GempakSurface.nearest_time"]}
{"id": "C68", "title": "A special report stays near the time it is filed under", "statement": "The time given to a special report is within a day of the time of the file entry it was found in.", "quantifier": "every file time and every report text", "why_tests_cant": "fails only around the turn of a month", "anchors": ["src/gempakio/decode/gempak.py:GempakSurface._process_report_text"]}
{"id": "C69", "title": "Files with tropical cyclone error, track or break point records cannot be opened", "statement": "Opening a VGF file raises, whatever else the file holds, when the reader comes to a complete tropical cyclone error cone, track or break point record or a significant weather record with an acceptable header; no element of the file can be obtained.", "quantifier": "every file and every position of the record", "why_tests_cant": "depends on every byte before and in the record", "anchors": ["src/gempakio/decode/vgf.py:VectorGraphicFile._decode_elements", "src/gempakio/decode/vgf.py:VectorGraphicFile._decode_tc_track", "src/gempakio/decode/vgf.py:VectorGraphicFile._decode_sgwx"]}
{"id": "C70", "title": "Interpolated heights lie on the log-pressure line between the nearest reported heights", "statement": "For a sounding whose pressures fall from each level with a missing height to the next reported height, interp_logp_height returns, and gives every missing height below the highest reported one the value linear in the logarithm of pressure between the nearest reported height below and the nearest one above.", "quantifier": "every sounding of any number of levels, every pattern of missing heights", "why_tests_cant": "the loop carries its search state from level to level; the result must be right for every pattern of gaps", "anchors": ["src/gempakio/gemcalc.py:interp_logp_height"]}
{"id": "C71", "title": "Filling in missing data does not fail", "statement": "interp_missing_data returns for every sounding with equally long arrays and positive, strictly falling pressures; the requested pressure is always between the two levels it interpolates between.", "quantifier": "every sounding of any number of levels, every pattern of missing values", "why_tests_cant": "depends on every pattern of gaps", "anchors": ["src/gempakio/gemcalc.py:interp_missing_data", "src/gempakio/gemcalc.py:interp_parameters"]}
{"id": "C72", "title": "Merged levels come in order of falling pressure", "statement": "The levels of a merged sounding come in order of strictly falling, reported pressures from the surface up, apart from mandatory levels whose pressure is higher than the surface pressure.", "quantifier": "every set of parts with any number of levels", "why_tests_cant": "levels of eight parts are inserted one by one by binary search", "anchors": ["src/gempakio/decode/gempak.py:GempakSounding._merge_sounding"]}
{"id": "C74", "title": "Levels below ground follow the surface level", "statement": "The first level of a merged sounding is the surface level; exactly the mandatory levels with a higher pressure than it follow directly, in their order, then all others in order of falling pressure.", "quantifier": "every set of parts with any number of levels", "why_tests_cant": "the insertion place depends on a length kept from an earlier loop", "anchors": ["src/gempakio/decode/gempak.py:GempakSounding._merge_sounding"]}
{"id": "C75", "title": "Merging keeps the reported mandatory levels", "statement": "Every mandatory level above the surface reported with pressure, temperature and height is a level of the merged sounding with the values reported for it: pressure, temperature, height, dewpoint if reported, wind if reported.", "quantifier": "every set of parts with any number of levels, every mandatory level below and above 100 hPa", "why_tests_cant": "later stages overwrite, insert and interpolate; which of them touch a level depends on all parts together", "anchors": ["src/gempakio/decode/gempak.py:GempakSounding._merge_sounding"]}
{"id": "C76", "title": "Sounding datasets keep every level and value, in order, with missing values masked", "statement": "Reading soundings as datasets from a merged sounding file gives one dataset per selected sounding, in file order. Each dataset has every level of the stored sounding exactly once, sorted by falling pressure (or rising height when there is no pressure), and every variable's value stays with its own level. A value is masked exactly when it equals the file's missing value. Station identifier, number, position, elevation, state, country, time and the surface pressure (the first stored level) are those of the stored sounding, and every stored parameter appears under its lower-case name. The call returns for every selection of complete soundings.", "quantifier": "all opened merged sounding files, all selections, all numbers and values of levels and parameters", "why_tests_cant": "A test checks a few soundings; that sorting moves whole levels (never single columns) and that masking hits exactly the missing value must hold for every number of levels, every order and every set of parameters.", "anchors": ["src/gempakio/decode/gempak.py: GempakSounding.snxarray", "src/gempakio/decode/gempak.py: GempakSounding._unpack_merged"]}
{"id": "C77", "title": "Unmerged soundings become datasets of their own parts", "statement": "Reading soundings of a file whose levels are stored in separate parts (mandatory, significant, wind levels below and above 100 hPa) gives, for every selected sounding with at least one level, one dataset, in the order of the selection: the arrays given to the merging are exactly the arrays stored for that station and time (each parameter's values taken level by level from the stored block), the merged arrays appear under their names with missing values masked, sorted by pressure, and the coordinates and time are those of the station's and time's own headers. Every sounding that merges is returned when the part above 100 hPa stores all six quantities.", "quantifier": "every file that opens as a sounding file, every selection, every table of stored parts, every arithmetic used by the merging", "why_tests_cant": "The stride and pointer arithmetic ranges over every number of parts, parameters, levels, rows and columns; a sample file exercises one layout.", "anchors": ["src/gempakio/decode/gempak.py: GempakSounding._unpack_unmerged", "src/gempakio/decode/gempak.py: GempakSounding.snxarray"]}
{"id": "C78", "title": "Every stored report is listed", "statement": "The listing of a sounding or surface file has an entry for every row and column for which the file stores data.", "quantifier": "every file that opens, every row, column and part", "why_tests_cant": "It ranges over all patterns of stored and absent parts; test files store all parts of every sounding.", "anchors": ["src/gempakio/decode/gempak.py: GempakSounding.__init__", "src/gempakio/decode/gempak.py: GempakSounding.sninfo", "src/gempakio/decode/gempak.py: GempakSurface.sfinfo"]}
{"id": "C73", "title": "Merging the parts of a sounding always gives a sounding", "statement": "If the parts of an unmerged sounding are complete (every array a part must have is there and as long as the others) and give plausible pressures, snxarray merges them: no exception is raised and the computation of heights ends. A sounding whose parts have no levels gives nothing instead of failing.", "quantifier": "all parts of any length with any values that are not NaN, any missing value below zero, any station elevation, and any rounding of the arithmetic, logarithm and exponential", "why_tests_cant": "The merge reads twelve parts by index, searches levels by value and loops until heights are found; whether an index, a search or a loop fails depends on the combination of parts and values, which test files cover only in a few cases.", "anchors": ["src/gempakio/decode/gempak.py:GempakSounding._merge_sounding", "src/gempakio/decode/gempak.py:GempakSounding.snxarray", "src/gempakio/gemcalc.py:interp_logp_height", "src/gempakio/gemcalc.py:interp_moist_height", "src/gempakio/gemcalc.py:interp_missing_data"]}
{"id": "C79", "title": "Tropopause, significant and maximum wind levels appear in the merged sounding", "statement": "When the parts of a sounding are merged, every temperature reported for a tropopause or a significant level above the surface appears in the result: there is a level of that pressure, and its temperature and (if given) dewpoint are ones some part reports for that pressure. The same holds of every wind reported for a significant level or a level of maximum wind. If no other report exists for the pressure, the level has exactly the reported values; interpolation and insertion of other levels never replace them.", "quantifier": "all parts of a sounding (any numbers of levels, any missing values, significant winds with pressures stored as pressures or as negative heights), all levels of the eight parts merged by pressure", "why_tests_cant": "Eight parts are merged one after the other, each level by level with a running bound and a search for an existing level; whether a report is taken depends on all levels before it, and whether it survives on all later stages. Tests see a few soundings.", "anchors": ["src/gempakio/decode/gempak.py:GempakSounding._merge_sounding", "src/gempakio/calc/gemcalc.py"]}
{"id": "C80", "title": "A sounding or surface file whose reports fit the format can be written", "statement": "If every accepted add_sounding/add_station call had a proper datetime, ASCII station texts, 32-bit numbers, coordinates and values the format can represent, and the reports that were not superseded together stay below the 32-bit file size, then to_gempak succeeds in either byte order, and the file it writes reads back to the reports that were added. Conversely, whatever was written had ASCII texts and 32-bit station numbers.", "quantifier": "every parameter list, every history of accepted calls (any number, with repeats and updates), both file kinds, both byte orders", "why_tests_cant": "Failure to write can come from any field of any report in any history, or from the total size; no finite set of files covers them.", "anchors": ["src/gempakio/encode/gempak.py: DataManagementFile.to_gempak, SoundingFile.add_sounding, SurfaceFile.add_station, SoundingFile._write_data, SurfaceFile._write_data"]}
{"id": "C81", "title": "Attributes of a decoded VGF element are what its record stores", "statement": "When the VGF reader comes to a complete record of a kind it shows (fronts, watch boxes of all versions, lines, special lines, symbols, texts, winds, tracks, sigmets, convective forecasts, volcanoes, ash clouds, circles, lists, jet streams, graphical forecasts) and does not raise, it adds exactly one element: its header attributes, every further attribute, the items, barbs, counties and other parts, and the points are the numbers and texts stored at their places in the record, and reading goes on at the byte after the record. The file header is kept with its version and notes.", "quantifier": "every file content, every position the reader is at, every record kind and version, any number of points, items, counties, barbs", "why_tests_cant": "there are some forty record layouts with several hundred fields whose places shift with the version; a test file shows a few records with a few values, and a shifted field often decodes to something plausible", "anchors": ["src/gempakio/decode/vgf.py: VectorGraphicFile._decode_elements, _decode_fronts, _decode_watches, _decode_lines, _decode_special_lines, _decode_symbols, _decode_text, _decode_special_text, _decode_winds, _decode_tracks, _decode_sigmet, _decode_ccf, _decode_volcanoes, _decode_ash_clouds, _decode_circles, _decode_lists, _decode_jet, _decode_gfa, _decode_file_header", "src/gempakio/tools.py: NamedStruct, IOBuffer.read_struct"]}
{"id": "C82", "title": "An opened VGF file has one element for each record, in order", "statement": "If the bytes of a VGF file are records with acceptable headers, one after the other to the end of the file, and the file can be opened, its elements are exactly the records of kinds the reader shows, in file order, each with the attributes its record stores; headers and records of other kinds add nothing.", "quantifier": "every file content that is a sequence of records, any number and kinds of records", "why_tests_cant": "one wrong length loses or garbles every later record, and only for some contents of the record before it", "anchors": ["src/gempakio/decode/vgf.py: VectorGraphicFile.__init__, _decode_elements, elements"]}
{"id": "C83", "title": "A grid file holds each grid as it was added and leaves the caller's arrays alone", "statement": "After any program that creates arrays, passes some of them to add_grid and assigns to them before or after, the file holds every grid with the cells it had when it was added, and the arrays have the cells the program itself gave them.", "quantifier": "every program of add_grid calls (accepted or rejected) and assignments to array cells, any number of arrays, arrays passed more than once", "why_tests_cant": "tests pass fresh arrays once; sharing shows only for programs that reuse a buffer or look at their array afterwards", "anchors": ["src/gempakio/encode/gempak.py: GridFile.add_grid, DataManagementFile._replace_nan, GridFile._write_data"]}
{"id": "C84", "title": "A tropical cyclone advisory record opens as one element with what its text says", "statement": "A VGF record of type 39 whose text holds the fields of an advisory (in any order, other fields allowed) adds one TropicalCycloneAdvisoryElement whose numbers, names, coordinates, watches and break points are those written in the text; decimal numbers become the nearest floating-point number.", "quantifier": "every advisory: any numbers, any texts without '<' and line breaks, any number of watches and break points, any order of fields, any surrounding file", "why_tests_cant": "tests hold one sample advisory; that the right field is found whatever the others contain, that break points are grouped right for any number of them, and that every decimal is rounded right concerns all texts", "anchors": ["src/gempakio/decode/vgf.py: VectorGraphicFile._decode_tca, TropicalCycloneAdvisoryElement"]}
{"id": "C85", "title": "A VGF file opens exactly when its records are sound", "statement": "A vector graphics file that consists of complete records with acceptable headers can be opened if and only if, in every record of a kind the reader shows, the numbers of points and the codes have a meaning, the symbol codes are finite, and the texts and dates that are not fixed character fields are UTF-8; it then has one element per shown record. One record that is not sound makes opening the file raise, whatever the other records are. Not every number that fits a field is sound: a convective forecast whose text font, flag or width has a first byte of 128 or more, or a front of 501 points, makes the file unreadable.", "quantifier": "all byte contents that are a chain of complete records, all classes, types and versions the reader shows, all positions of a record in the file", "why_tests_cant": "The claim is an equivalence over all bytes of all record kinds; sample files only show some contents that open.", "anchors": ["src/gempakio/decode/vgf.py: VectorGraphicFile.__init__", "src/gempakio/decode/vgf.py: VectorGraphicFile._decode_elements", "src/gempakio/decode/vgf.py: VectorGraphicFile._decode_ccf", "src/gempakio/decode/vgf.py: VectorGraphicFile._decode_tracks", "src/gempakio/decode/vgf.py: VectorGraphicFile._decode_watches"]}
{"id": "C86", "title": "Significant winds on height surfaces appear in merged soundings", "statement": "A wind reported on a height surface between two levels of the merged sounding is in the result, on a level with that height, direction and speed, unless the result has a level less than one metre away; a wind reported at the height of a level fills a level without wind and leaves the wind of one that has it.", "quantifier": "every set of parts with significant winds on height surfaces below and above 100 hPa, any number of reports and levels, any binary64 values", "why_tests_cant": "the loop climbs two lists at once while it inserts into one of them; which reports are dropped depends on all heights together", "anchors": ["src/gempakio/decode/gempak.py:GempakSounding._merge_sounding"]}
{"id": "C87", "title": "The JSON text of a vector graphics file describes every element", "statement": "For every vector graphics file that can be opened, to_json() returns a text that is JSON by the grammar, and reading it gives a list with one object for each element, in the order of the elements. Each object has exactly the attributes of its element (header values, decoded attributes, lists, arrays and coordinates), each name once, with its value: integers and texts exactly, floats as they are, members of enumerations by name, items of numpy arrays rounded to two decimals.", "quantifier": "all byte contents of files that can be opened, hence all element kinds, texts with any characters, counts and numbers", "why_tests_cant": "the escapes of strings, the nesting of lists and the set of attributes depend on all the bytes of a file; tests see a few files without quotes, control characters, characters outside the basic plane, jets or NaN", "anchors": ["src/gempakio/decode/vgf.py: VectorGraphicFile.to_json", "src/gempakio/decode/vgf.py: NumpyEncoder"]}
{"id": "C88", "title": "Files on disk after writing, failed writing and interrupted writing", "statement": "A call that writes a file (to_gempak of a sounding, surface or grid file, to_vgf) either leaves the complete new file at its path or leaves the disk as it was, whatever it raises and whenever it is interrupted; files at other paths never change. After any sequence of such calls a path holds what the last call left there that left anything.", "quantifier": "every disk, every sounding, surface and grid file object and every list of VGF elements, every path, whether or not the path can be opened, every point of interruption, every sequence of calls", "why_tests_cant": "A test writes a few files without dying in between; the claim is about every element that cannot be encoded at every place in the list, and about every moment at which the process can die.", "anchors": ["src/gempakio/encode/gempak.py:DataManagementFile.to_gempak", "src/gempakio/encode/vgf.py:VGFile.to_vgf"]}
{"id": "C89", "title": "Group types present in a vector graphics file", "statement": "The groups of an opened vector graphics file are the group types other than zero of all its records but headers, each once, in the order of the file. Every type for which get_group returns groups is among them. In a file written by to_vgf they are the types of the written elements, and get_group returns groups for exactly these. A type of records the reader passes over is listed although get_group returns nothing for it.", "quantifier": "every file that is records to its end; every list of elements built by constructors, property assignments and flips, written by to_vgf", "why_tests_cant": "Tests count the groups of one example file; the claim is about every order and combination of record kinds and group types.", "anchors": ["src/gempakio/decode/vgf.py:VectorGraphicFile.groups", "src/gempakio/decode/vgf.py:VectorGraphicFile._decode_elements", "src/gempakio/decode/vgf.py:VectorGraphicFile.get_group"]}
{"id": "C90", "title": "Queries on an open file do not interfere", "statement": "On one opened sounding, surface or grid object, every snxarray, sfjson, nearest_time and gdxarray call of a program answers (returns or raises) exactly as the same call does when it is the only one made on a freshly opened object, whatever calls were made before it and whichever of them raised in the middle of reading.", "quantifier": "every file that opens, every series of calls with every argument, including calls that raise", "why_tests_cant": "All queries read through one buffer whose position and list of marks every query changes, also when it raises half way; that no history of calls can leave it in a state that matters is a statement about all histories.", "anchors": ["src/gempakio/tools.py:IOBuffer", "src/gempakio/decode/gempak.py:GempakGrid.gdxarray", "src/gempakio/decode/gempak.py:GempakGrid._unpack_grid", "src/gempakio/decode/gempak.py:GempakSounding._unpack_merged", "src/gempakio/decode/gempak.py:GempakSounding._unpack_unmerged", "src/gempakio/decode/gempak.py:GempakSurface._unpack_standard", "src/gempakio/decode/gempak.py:GempakSurface.nearest_time"]}
{"id": "C91", "title": "Queries in several threads", "statement": "Two queries that run at the same time, each on an object of its own, give in every schedule the answers they give alone. On one shared object this holds when the calls do not overlap, and when they do overlap but a thread loses its turn only between two reads (before it moves from the start of the file to its next place). Otherwise it fails: there is a file and a schedule in which a thread asking for one station gets, without an exception, the value stored for another station.", "quantifier": "every pair of queries and every schedule of their buffer operations", "why_tests_cant": "A test sees a few schedules, and the wrong answer of the shared case comes without an error.", "anchors": ["src/gempakio/tools.py:IOBuffer", "src/gempakio/decode/gempak.py:GempakSurface.sfjson", "src/gempakio/decode/gempak.py:GempakFile.__init__"]}
{"id": "C92", "title": "Argument objects of a query", "statement": "A query argument given as a list or tuple selects as the list of its items does, and so does an iterator of names or station numbers. The caller's objects are unchanged after the call, returned or raised, except that texts in a list of times may have been replaced by the datetimes they stand for; making the same call again with the same objects gives the same answer. Iterators of levels or times and tuples of time texts do not act as lists.", "quantifier": "every listing of a file, every combination of argument objects, calls that return and calls that raise", "why_tests_cant": "The lists of the caller are changed in place while the call runs and may be left half changed; iterators are used up in an order that depends on all entries and all filters.", "anchors": ["src/gempakio/decode/gempak.py:GempakGrid.gdxarray", "src/gempakio/decode/gempak.py:GempakSounding.snxarray", "src/gempakio/decode/gempak.py:GempakSurface.sfjson"]}
{"id": "C93", "title": "Grids can be told apart and selected one by one", "statement": "If two grids of a file differ in anything gdinfo lists besides their number, the arrays gdxarray returns for them differ in name, time, vertical dimension, level or type; and for every grid of a file there are arguments with which gdxarray returns that grid alone.", "quantifier": "every grid file and every call of gdxarray; every pair of grids of a file", "why_tests_cant": "Whether two arrays carry the same labels depends on a renaming of some parameters, on case folding and on which header fields are dropped, for all pairs of names, levels and times; tests look at a few names.", "anchors": ["src/gempakio/decode/gempak.py:GempakGrid.gdxarray", "src/gempakio/decode/gempak.py:GempakGrid.gdinfo", "src/gempakio/decode/gempak.py:GVCORD_TO_VAR"]}
{"id": "C94", "title": "The projection of a grid file survives writing and reading", "statement": "A grid file made with any of the documented projections (Mercator, stereographic, Lambert conformal conic, equidistant cylindrical, orthographic, azimuthal equidistant, Lambert azimuthal equal area, gnomonic, transverse Mercator, UTM) and read back has the same kind of projection with the same parameters (latitude and longitude of origin, standard parallels, rotation), to single precision.", "quantifier": "every projection, every rotation, every grid geometry and list of grids, both byte orders", "why_tests_cant": "Each projection has its own parameters, any of which may be dropped or stored under another meaning; a test with the usual values (origin 0, or a standard parallel equal to the origin) does not see it.", "anchors": ["src/gempakio/encode/gempak.py:GridFile._set_projection_params", "src/gempakio/encode/gempak.py:GridFile._write_file_headers", "src/gempakio/decode/gempak.py:GempakGrid._get_crs", "src/gempakio/decode/gempak.py:GEMPROJ_TO_PROJ"]}
{"id": "C95", "title": "Coordinates fit the data", "statement": "The coordinates of a grid file have the sizes its header gives, so every array read has one cell for each pair of an x and a y; the longitude and latitude of a cell are those of its x and y; the first and last x and y of a written file are the projected corners of the longitudes and latitudes it was made with, to single precision.", "quantifier": "every grid file whose coordinates can be computed, every grid in it, every projection function; every written file", "why_tests_cant": "Rows and columns can be swapped, or the count be off by one, without any effect on square or symmetric test grids; sizes, packings and projections range over all values.", "anchors": ["src/gempakio/decode/gempak.py:GempakGrid._set_coordinates", "src/gempakio/decode/gempak.py:GempakGrid._unpack_grid", "src/gempakio/encode/gempak.py:GridFile._set_bbox"]}
