{
 "C01": {
  "note": "word/byte position conversions"
 },
 "C02": {
  "note": "pairwise disjoint sections, alignment"
 },
 "C11": {
  "note": "two or more output words (the packer raises for one word, see C16); layout as one bit string; reader fields for any buffer"
 },
 "C12": {
  "note": "length and int32 range for every successful packing"
 },
 "C13": {
  "note": "exact rational arithmetic; the stored reference is arbitrary so the binary32 error is explicit"
 },
 "C14": {
  "note": "all cells equal to the missing value"
 },
 "C15": {
  "note": "false of the code (refuted with a witness); true for cells away from the missing value and below the top code"
 },
 "C16": {
  "note": "false for grids of one packed word (refuted); proved for two words or more and a 31-bit range"
 },
 "C17": {
  "note": "termination and maximality of the scale search"
 },
 "C20": {
  "note": "all bit counts outside 1..31"
 },
 "C36": {
  "note": "reads partition the buffer"
 },
 "C37": {
  "note": "marks restore the position"
 },
 "C38": {
  "note": "failed reads leave the state unchanged except read_ascii/raw read, which is refuted"
 },
 "C39": {
  "note": "truncate; the zero case is refuted"
 },
 "C40": {
  "note": "OrderedSet against the first-occurrence list"
 },
 "C41": {
  "note": "NamedStruct pack/unpack round trip"
 },
 "C18": {
  "note": "unpack_real over every buffer and every list of bit widths 1..32: each field equals its own slice of the record's little-end-first bit string; inverse and length check. Values are exact rationals (the float rounding of offset and scale is not modelled)."
 },
 "C19": {
  "note": "every difference-packed buffer: cell codes, missing code, running sums along and across rows. Values are exact rationals."
 },
 "C21": {
  "note": "header words written and listed; strptime/strftime modelled with backtracking; every valid datetime in 1969..2068."
 },
 "C22": {
  "note": "both letter cases, every suffix form; the listed instant is pinned by its minute number, which is injective."
 },
 "C23": {
  "status": "partial",
  "note": "the English claim is false: with an explicit A the time of day is replaced by the text after the letter (midnight if none). Refuted with a witness; the partial theorem says what is stored."
 },
 "C24": {
  "status": "partial",
  "note": "the English claim is false outside 1969..2068. Refuted with a witness; the partial theorem shows the window is exact."
 },
 "C25": {
  "note": "ranges for every valid datetime and injectivity within the window, analysis and typed times."
 },
 "C26": {
  "note": "every date of 1969..2068 and every time of day; seconds are dropped."
 },
 "C27": {
  "note": "nine names in any case, rejection of all others, integer levels, both byte orders."
 },
 "C28": {
  "note": "every ASCII name without white space of at most 12 characters; longer names are rejected."
 },
 "C29": {
  "status": "partial",
  "note": "the English claim is false: spaces at the edges of a four-character piece are lost and names collide. Refuted with a witness; the partial theorem gives the exact result for every ASCII name."
 },
 "C30": {
  "note": "every finite binary64 value whose hundredths fit a word; the product is rounded before truncation, so the stored value may exceed the exact truncation by one hundredth (within the stated bound)."
 },
 "C31": {
  "status": "partial",
  "note": "the English claim is false (29 hundredths come back as 28). Refuted with a witness; the partial theorem bounds the drift by one hundredth per cycle for every stored word."
 },
 "C32": {
  "status": "partial",
  "note": "surface half proved; the sounding half is false beyond four characters (refuted, with the exact result as partial theorem)."
 },
 "C62": {
  "note": "Any history between setting the mark and splicing; the mark must still lie within the (possibly truncated) data. Unknown non-negative marks raise and change nothing."
 },
 "C03": {
  "note": "any history of additions (accepted or rejected) and writes; sounding and surface objects Grid files: C03_grid_write_repeatable, also with precision changes between."
 },
 "C04": {
  "note": "every history of successful additions: opening the written bytes lists exactly one entry per kept call, with its metadata and values; hypotheses: valid datetimes in 1969..2068, coordinates below 2^45, names distinct in their first four characters"
 },
 "C05": {
  "note": "as C04 for surface files in the standard layout; one value per parameter, integer priority, no parameter called TEXT or SPCL"
 },
 "C07": {
  "note": "every history of successful additions; sounding and surface objects"
 },
 "C08": {
  "note": "false at the 32000-header limit (witness: 31999 stations, then one more); proved for every other rejection Grid files: refuted by a header that cannot be ordered next to the stored ones; every other rejection but that and the column limit leaves the object unchanged."
 },
 "C09": {
  "note": "every file, whoever wrote it, given as a sequence of words that are numbers or text (SpecByteOrder): both images open alike or are refused alike, and label, keys, headers, listing and every query agree. The name of a vertical coordinate counts as text, which is how the reader takes it. C09_written_*: the two files this package writes for one history agree."
 },
 "C10": {
  "note": "every byte string Grid files: C10_not_gempak_grid."
 },
 "C33": {
  "note": "false when an unused slot precedes a used one (concrete file); proved when the used slots come first"
 },
 "C34": {
  "note": "false for repeats in another letter case (witness PRES, pres); the accepted lists are characterised exactly"
 },
 "C35": {
  "note": "every dict order; acceptance implies exact names, equal lengths and fewer than 500 levels"
 },
 "C63": {
  "note": "proved for soundings; false for surface files, where every string raises"
 },
 "C64": {
  "note": "false for names that share their first four characters; proved otherwise"
 },
 "C06": {
  "note": "Full, for every history of successful add_grid calls, both byte orders and any precision. The listing is exact; values are those of the GRIB packing (C11-C17) with the reference value rounded to float32, the bound on that rounding is part of the statement. Grids of arrays with float values below 2^127; times, levels and names in the ranges the format can hold (call_ok)."
 },
 "C65": {
  "note": "False as stated: grids with fewer than three rows or columns are accepted and then cannot be written (C65_small_grid: never), and so are grids whose cells are further apart than 2147483647 (C65_wide_refuted). Proved for everything else: three rows and columns or more, fields that fit their 32 bits: the file is written (C65_fitting_file_written) and reads back (C65_written_and_read)."
 },
 "C43": {
  "note": "Surface selection is proved in full. For soundings a list of state or country names is compared without upper-casing (refuted with a written file); proved when names are single values or upper case. The selection is modelled for both readers; the unmerged sounding decoding that follows it is the subject of C77."
 },
 "C67": {
  "note": "Refuted: the area filters collect station identifiers and then look reports up by identifier, so a station of the same name elsewhere can be returned. Proved: the identifier belongs to a listed station of the area."
 },
 "C45": {
  "note": "'order' stands for the unspecified iteration order of a Python set; the theorem holds for every order."
 },
 "C68": {
  "note": "Refuted at a month boundary with a concrete file; proved: the report stays in the file's year and month and takes the time group of its text when that is a time of that month."
 },
 "C46": {
  "note": "Every element a program can build with the six constructors and any sequence of assignments and flips; the file theorem also covers a write that stops at an element that cannot be encoded."
 },
 "C49": {
  "note": "False as stated; refuted with five concrete programs (Marker code 99, front code 430.0, NaN width, hardware font, front code 400). Proved: with arguments that are not NaN every validated attribute keeps its documented range through every history, except those cases, and a rejected assignment changes nothing unless a front is given a code or width that is not an integer."
 },
 "C50": {
  "note": "Refuted for a float width. Proved for every history in which codes and widths assigned to fronts are integers (accepted or rejected), together with what an accepted width changes."
 },
 "C47": {
  "note": "Proved for every list of elements with any histories that is written without an exception, with ASCII text and finite symbol codes: same elements in order, each attribute under its reader name with the stated conversion. C47_points says of the numbers alone that every point of a line, special line or front with coordinates within 360 degrees comes back in order, to a hundredth of a degree (at most 0.0052 away, C47_distance), and C47_places says it of bounds, positions, sizes and rotations. The literal statement is refuted: non-ASCII text makes the file unreadable, points are read to two decimals, text sizes in units of 14 points."
 },
 "C54": {
  "note": "filter_elements is proved in full (also that no filter, or nothing matching, gives None). All selectors but two are proved; get_text (returns special text too) and get_met (guarded by the wrong predicate) are refuted."
 },
 "C55": {
  "note": "One group per distinct number of the type, in increasing order, each with exactly its elements in file order."
 },
 "C56": {
  "note": "Proved for elements whose four bounds are numbers and none is zero; refuted for a bound that is exactly zero, which the code skips."
 },
 "C48": {
  "note": "Proved for every byte sequence whose visited records have a positive size field, at most 500 list items and at most 50 track points (within as many rounds as bytes, and with a unique result). The literal statement is refuted by a 40-byte file that is read forever."
 },
 "C52": {
  "note": "Proved for every decoded line and special line of at least one point, in terms of the bytes of the file; the literal statement is refuted for closed lines of two points."
 },
 "C53": {
  "note": "Proved in full for text read with an explicit split at NUL (text elements, list items, track times). For fixed-width structure fields proved when a NUL is present, refuted (last character lost) for every field without one. Text is any sequence of Unicode scalar values. C53_terminator, C53_strip and C53_clean characterise the clean-up itself for every text: what precedes the first NUL, white space removed at both ends, pairs of dollar signs as line breaks."
 },
 "C57": {
  "note": "The rejection of target pressures outside the bracket is proved for any arithmetic. That values lie between their neighbours and directions in [0,360) is proved over the real numbers (rounding is not covered), for every parameter but the pressure itself. Refuted: the result carries an interpolated pressure instead of the one asked for."
 },
 "C58": {
  "note": "Proved for interp_logp_height and interp_logp_pressure over any arithmetic. interp_moist_height overwrites reported heights and interp_missing_data overwrites the second of a pair (refuted); what they do keep is proved as _partial."
 },
 "C59": {
  "note": "interp_logp_height loops forever on some soundings (refuted, in binary64); termination is proved under a stated condition, and for the other calculations without one."
 },
 "C60": {
  "note": "Proved for parts that are dictionaries and whose levels above 100 hPa come with all six arrays; refuted for a part that lacks one."
 },
 "C70": {
  "note": "Proved over any arithmetic."
 },
 "C71": {
  "note": "Proved over any arithmetic; with a repeated pressure the call raises ValueError, shown beside it."
 },
 "C72": {
  "note": "False when heights are out of order and winds are on height surfaces: a level without pressure can come first (C72_refuted). C72_order_partial: over binary64 comparisons (arithmetic operations arbitrary) for parts without NaN, a usable surface level in TTAA or TTBB and winds on pressure surfaces. C72_heights_partial: winds on height surfaces, over numbers without rounding (the reals and the fractions are shown to be such), when the heights of the merged levels rise. Missing: soundings without a surface level (these can raise ValueError), rounding with winds on height surfaces, and mandatory levels below ground in that case (their heights do not rise)."
 },
 "C74": {
  "note": "Proved when PPBB or PPDD has no significant winds; refuted when both have them on pressure surfaces: a length kept from an earlier loop is used and a level below ground is put before the surface."
 },
 "C75": {
  "note": "Proved over any arithmetic, for soundings with winds on pressure or on height surfaces, except two parts: the height at the pressure of a reported tropopause, refuted (it is discarded), and the wind in soundings with winds on height surfaces, refuted (a reported wind is overwritten)."
 },
 "C76": {
  "note": "Proved for merged files over the records the reader produces: order of levels, alignment of variables, masking, attributes, names, and that complete soundings are returned. Not modelled: the xarray object itself, and the rounding of unpacked reals to float32."
 },
 "C77": {
  "note": "Real-packed and real parts, any endianness. Character parts (TXTA...) are carried to the attributes; parts of other types raise."
 },
 "C78": {
  "note": "Refuted for unmerged soundings: only the pointer of the first part is looked at, so a sounding with data in other parts only is neither listed nor selectable (C78_refuted). Proved: sounding files list exactly the cells whose first part is stored; surface files of all three kinds (standard, ship, climate) list exactly the cells with any part stored."
 },
 "C73": {
  "note": "Partial and refuted: proved for parts with a usable surface level and significant winds by pressure in at most one of PPBB and PPDD. C73_refuted: with the surface level missing a ValueError; C73_size_refuted: with PPBB and PPDD by pressure, nothing to insert and a mandatory level below ground, UnboundLocalError. Winds on height surfaces are not covered."
 },
 "C79": {
  "note": "The full statement is false: a level whose pressure is higher than one reported before it in the same parts is silently dropped (C79_order_refuted, a wind). Proved for levels reported in order (pressure not higher than the ones before), above the surface, in soundings with a usable surface level, all arrays numbers; for the winds (not for the temperatures) also significant winds not on height surfaces."
 },
 "C80": {
  "note": "C80_misfits shows accepted calls outside the hypotheses (station number 10^12, value 10^39, non-ASCII state) for which to_gempak raises."
 },
 "C42": {
  "note": "Selection, contents of what is selected and case-insensitive names; for every grid file and argument list."
 },
 "C44": {
  "note": "For grids and for all three station file kinds."
 },
 "C51": {
  "note": "For every object; the equality is of all attributes."
 },
 "C61": {
  "note": "Splitting, the case of a text naming no station, and the times and values of the reports."
 },
 "C66": {
  "note": "For every history of the file object."
 },
 "C69": {
  "note": "For every file in which the reader comes to such a record, whatever precedes or follows it."
 },
 "C81": {
  "note": "Every kind of record the reader shows except tropical cyclone advisories (their text is treated in C84). False of one attribute: the status of a sigmet shows the area's text (C81_sigmet_status_refuted); the sigmet fields of the specification leave it out."
 },
 "C82": {
  "note": "For every chain of records; tropical cyclone advisories, whose text parsing is not modelled, are not in a chain."
 },
 "C83": {
  "note": "False: a buffer filled again for the next grid changes the grids added before (C83_refill_refuted), and NaN cells of the caller's array become -9999 (C83_caller_refuted). Proved: programs that do not assign to an array once it was passed get the file they mean; and add_grid never changes anything but NaN cells."
 },
 "C84": {
  "note": "False as stated: there is one element for each watch or warning (C84_one_element_refuted); an advisory without any makes the whole file fail with AttributeError (C84_no_watches_refuted, C84_file_refuted); an empty value shows the following tag (C84_empty_value_refuted). Proved: with non-empty values and the usual last field, as many elements as watches, each showing the whole advisory (C84_text_partial, C84_record_partial; usual order: C84_usual_order). Uses Flocq for 'nearest', hence the axioms of the real numbers."
 },
 "C85": {
  "note": "C85_record_decoded: for one record anywhere in a file, decoding succeeds iff it is sound, and raises otherwise. C85_file_opens: for whole files, iff. C85_one_bad_record: one unsound record makes opening raise. C85_ccf_refuted and C85_points_refuted: complete records whose values fit but which cannot be read. C85_unknown_version: sigmets and watch boxes of versions that are not known raise."
 },
 "C86": {
  "note": "Proved for winds below 100 hPa, and above it when there are two reports below, in soundings whose merged heights are given and do not fall (binary64 comparison, arbitrary arithmetic). The full claim is refuted: without winds below 100 hPa those above are ignored (C86_refuted, and for all inputs C86_above_ignored); a wind at the height of a level without wind may be dropped, and one at the height of a level with a reported wind may replace it, because the code tests the level below (C86_dropped_refuted, C86_replaced_refuted)."
 },
 "C87": {
  "note": "Proved for files without jet streams and with finite numbers, given that repr of a float is read back by float() (C87_json_partial). C87_text_unless_jet: exactly the files with a jet stream make to_json raise TypeError (its attribute objects are not known to json.dumps), C87_jet_refuted shows such a file. C87_nan_refuted: with a NaN coordinate the text contains NaN, which is not JSON. Passing cls to to_json is a TypeError in the model as in the code."
 },
 "C88": {
  "note": "False as stated: C88_vgf_refuted shows a to_vgf call that raises and has destroyed the old file, C88_interrupted_refuted that every writing call (of either kind) passes through a moment at which the old file is lost and the new one is not there. Proved: a call that returns wrote the whole file and nothing else; a to_gempak call that raises has changed nothing at any moment; a to_vgf call that raises leaves a file with the header and just the elements before the one that failed, which opens and reads back as these; at every point of interruption other files are untouched and the file holds its old contents or a beginning of the new ones; what a path holds after any sequence of calls. Errors of write and close are not modelled; that of open is."
 },
 "C89": {
  "note": "Files of records as in C82. Records of tropical cyclone advisories, errors, tracks, breakpoints and significant weather are not part of such files (their layout is not specified)."
 },
 "C90": {
  "note": "The queries are modelled a second time as sequences of operations on the buffer of the object (ReaderIO); C90_stations and C90_grids compare a call in a series with the same call alone on the opened object, C90_stations_file and C90_grids_file with the answer worked out from the bytes of the file, which the other properties are about. Opening is any sequence of buffer operations after the first mark."
 },
 "C91": {
  "note": "C91_own_objects: any schedule, objects of their own. C91_shared_object_refuted: the statement for one shared object is false (a thread switch between the jump to the pointer of a part and the reading of it). C91_turns_partial, C91_grid_turns_partial: calls that overlap on one object, under any schedule that takes the turn from a thread only when its next operation is a jump from the start of the file. C91_shared_object_partial: one call after the other. An operation of the buffer is taken as one step."
 },
 "C92": {
  "note": "C92_grids, C92_stations: as lists (the selection of C42 and C43). C92_grids_objects, C92_stations_objects: the objects afterwards. C92_grids_again, C92_stations_again: the same call again. Refuted for iterators of levels (a grid is silently left out), tuples of time texts (TypeError) and iterators of datetimes (KeyError); C92_iterators_partial: with iterators of levels what is found is among what the list gives."
 },
 "C93": {
  "note": "False as stated: PRES and P (HGHT and Z, THTA and THETA) give arrays of the same name (C93_names_refuted); the second level is not shown, so layers cannot be told apart (C93_layers_refuted); grids of two model runs with the same valid time are listed alike and every call selects both (C93_alike_refuted). Proved: arrays of upper-case names other than P, Z, THETA with equal labels belong to grids listed alike up to second level and time (C93_labels_partial); a grid that differs from every other in a field the arguments can name is selected alone by some call (C93_selected_partial). Lists containing None as a level are not modelled."
 },
 "C94": {
  "note": "Proved from the arguments of GridFile to the dictionary the reader gives pyproj.CRS.from_dict, through the bytes. False in full: the standard parallel of Mercator, polar stereographic and equidistant cylindrical projections and the latitude of origin of Lambert conformal ones are never read back, and a Mercator standard parallel comes back as the latitude of origin; transverse Mercator, UTM, Lambert azimuthal equal area with a CF name, one-parallel Lambert conformal and scale-factor Mercator projections are refused. pyproj itself is outside: the CF dictionary, method name and operation parameters are inputs. C94_accepted: every other documented projection is taken when its parameters are there. The rotation makes no difference to what is read (C94_rotation_refuted)."
 },
 "C95": {
  "note": "The projection and its inverse are arbitrary functions of the dictionary and a pair of numbers. numpy.linspace is modelled in binary64 with a final cast to binary32. The first x and y are the corner's unless they are not a number, and up to the sign of zero. Both ways of making a file are covered: longitudes and latitudes, and projected coordinates (use_xy)."
 }
}