{"id": "C01", "title": "GRIB signed integers are sign-and-magnitude", "statement": "Every 1-, 2-, 4- and 8-octet signed field is read as sign-and-magnitude (top bit = sign, remaining bits = magnitude, big-endian; minus zero reads as 0), the result always fits the destination type without overflow, and the variable-length reader used for spatial-differencing descriptors gives the same value for 1..4 octets and is undefined (panics) for every other length.", "quantifier": "all byte strings of every length; all integers in the symmetric range", "why_tests_cant": "2^64 inputs; a test samples a handful of bit patterns", "anchors": ["src/helpers.rs: GribInt::as_grib_int, read_as!, grib_int_from_bytes"]}
{"id": "C02", "title": "n-bit unpacking is exact", "statement": "Reading a byte string as a sequence of n-bit big-endian unsigned integers (1<=n<=32) from any start bit offset 0..7 yields exactly floor((8*len-offset)/n) items, item k being the integer formed by bits offset+k*n .. offset+k*n+n-1 of the string (most significant bit first), never panics, and stays exhausted afterwards.", "quantifier": "all byte strings, all widths 1..32, all start offsets 0..7", "why_tests_cant": "bit-alignment interactions depend on width, offset and position together; only a proof covers all residues and lengths", "anchors": ["src/decoder/stream.rs: NBitwiseIterator::next, with_offset, BitStream::new"]}
{"id": "C03", "title": "n-bit pack/unpack round trip", "statement": "Packing any list of integers in [0,2^n) as consecutive n-bit big-endian fields, padding to a whole octet and unpacking gives back the list followed only by items made of padding bits; zero-width streams give exactly the requested number of zeros.", "quantifier": "all value lists of every length, all widths 0..32", "why_tests_cant": "needs every list length and width combination", "anchors": ["src/decoder/stream.rs: BitStream, NBitwiseIterator, FixedValueIterator"]}
{"id": "C04", "title": "Bitmap places values in grid order", "statement": "For data with a bitmap, the decoded sequence has NaN at each position whose bitmap bit is 0 and the next packed value, in order, at each position whose bit is 1; no packed value is skipped, duplicated or reordered.", "quantifier": "all bitmaps, all value sequences, all lengths", "why_tests_cant": "history-dependent peek/advance state across octet boundaries; all bitmaps must be covered", "anchors": ["src/decoder/bitmap.rs: BitmapDecodeIterator::next, has_zero_at_offset"]}
{"id": "C05", "title": "How many items a decoded field has", "statement": "Decoding yields one item for each grid point the grid definition section declares, in order (when enough packed values exist); with fewer than 8 grid points, or a bitmap without padding bits, nothing else. Finding: from 8 grid points on, the padding bits at the end of the bitmap are decoded as extra items, so the count is right exactly if there are fewer than 8 points or no padding bits.", "quantifier": "all point counts, bitmaps and packed value sequences", "why_tests_cant": "only specific residues mod 8 and padding contents expose it", "anchors": ["src/decoder/bitmap.rs: BitmapDecodeIterator::next", "src/decoder.rs: Grib2SubmessageDecoder::dispatch"]}
{"id": "C06", "title": "size_hint of the decoded iterator", "statement": "After k items the size hint is the number of grid points minus k mod 8 (both bounds), for every bitmap and every history. It is hence the number of items still to come exactly while fewer than 8 items have been taken. Finding: from the 8th item on the hint is too large.", "quantifier": "all iteration histories", "why_tests_cant": "the hint must be right after every prefix of every iteration", "anchors": ["src/decoder/bitmap.rs: BitmapDecodeIterator::size_hint"]}
{"id": "C07", "title": "Data without a bitmap passes through unchanged", "statement": "When the message says no bitmap applies, the decoded sequence is the unpacked sequence itself, for every point count that the unpacked sequence matches.", "quantifier": "all value sequences and point counts", "why_tests_cant": "quantifies over all lengths, including all residues mod 8", "anchors": ["src/decoder/bitmap.rs: create_bitmap_for_nonnullable_data", "src/decoder.rs: Grib2SubmessageDecoder::from, dispatch"]}
{"id": "C08", "title": "Complex packing: group decode is the inverse of group encode", "statement": "For a data section laid out per template 5.2/5.3 (group references, widths, lengths, then group data; group references of at most 30 bits, values of at most 31 bits, sums that fit 32 bits), the decoder reproduces, for every group, reference + packed value + overall minimum for each of its points, in order, with exactly the declared group lengths, in both build profiles. Finding: with overflow checks, constant groups panic when group references have 31 bits or more, and groups of 32-bit values always.", "quantifier": "all numbers of groups, all group references/widths/lengths, all start bit alignments", "why_tests_cant": "group data are not octet aligned; every alignment history must be covered", "anchors": ["src/decoder/complex.rs: ComplexPackingValueDecodeIterator, ComplexPackingDecoder, get_octet_length"]}
{"id": "C09", "title": "Complex packing: missing value management", "statement": "With missing value management 1 or 2, a packed value equal to the all-ones pattern of its group width (and, for 2, all-ones minus one) decodes to a missing point, in zero-width groups the group reference plays that role, and no other packed value decodes to missing; with management 0 nothing is missing.", "quantifier": "all group widths and packed values", "why_tests_cant": "needs all widths and all values at the boundary patterns", "anchors": ["src/decoder/complex.rs: ComplexPackingValueDecodeIterator::next", "src/decoder/complex/missing.rs: DecodedValue"]}
{"id": "C10", "title": "First-order spatial differencing is undone exactly", "statement": "For any integer field with missing points interspersed anywhere, applying first-order differences to the non-missing points (storing the first value separately) and decoding returns the field, missing points staying in place and not disturbing the differences.", "quantifier": "all integer sequences and all missing patterns", "why_tests_cant": "unbounded sequences, all interleavings of missing points", "anchors": ["src/decoder/complex/diff.rs: SpatialDifferencingExtraDescriptors, FirstOrderSpatialDifferencingDecodeIterator"]}
{"id": "C11", "title": "Second-order spatial differencing is undone exactly", "statement": "Without overflow checks, second-order differences of every field of 32-bit integers with missing points anywhere are undone exactly. With overflow checks, this holds exactly for the fields where 2*previous and current + value before the previous fit 32 bits (e.g. all values below 2^30 in magnitude); for others the iterator panics at the first such point, after reporting all points before it correctly.", "quantifier": "all integer sequences and all missing patterns", "why_tests_cant": "unbounded sequences, all interleavings of missing points", "anchors": ["src/decoder/complex/diff.rs: SecondOrderSpatialDifferencingDecodeIterator"]}
{"id": "C12", "title": "Run-length packing round trip", "statement": "Encoding any level sequence with levels <= max value (MV) into level/run-length codes of n <= 15 bits with base LNGU = 2^n-1-MV and packing the codes into octets decodes to the sequence, for any way of splitting into runs the encoder chooses, if the padding at the end is shorter than a code. Finding: if it is not (n < 8), the padding is taken for one more code and the data are rejected; codes of 16 bits or more panic in builds with overflow checks and use a wrong base in builds without. Level 0 is NaN, level l > 0 the l-th entry of the level table times 10^-D, to a relative 2^-20, for decimal scale factors D of 0 to 38. Finding: the scale factor's octet is read without a sign, so every negative factor turns all values into 0.", "quantifier": "all level sequences, bit widths and maxima with 2^n > MV+1", "why_tests_cant": "run lengths are multi-digit numbers in an input-dependent base; every run length must be covered", "anchors": ["src/decoder/run_length.rs: rleunpack"]}
{"id": "C13", "title": "Run-length packing: rejected inputs", "statement": "Run-length data that start with a run code, whose expansion does not have the declared number of points, or whose level has no entry in the level table, are reported as errors (InvalidFirstValue, LengthMismatch, InvalidLevelValue); a level of 0 decodes to NaN and level k to the k-th table entry.", "quantifier": "all data sections and all level tables", "why_tests_cant": "error classification must hold on all inputs", "anchors": ["src/decoder/run_length.rs: decode, rleunpack"]}
{"id": "C14", "title": "When run-length decoding terminates", "statement": "Decoding run-length packed data finishes on every input except exactly these, on which it runs for ever: bit width 0 and a non-empty data section, with maximum value 0 or, in builds without overflow checks, any maximum value below 65535.", "quantifier": "all data sections and parameters", "why_tests_cant": "non-termination cannot be observed by a test that finishes", "anchors": ["src/decoder/run_length.rs: rleunpack", "src/decoder/stream.rs: NBitwiseIterator::next"]}
{"id": "C15", "title": "Simple packing formula", "statement": "For a finite reference value R and scale factors -127<=E<=127, -38<=D<=37, a packed integer x decodes to a finite value within 2^-20*(|R|+x*2^E)*10^-D + 2^-148*(1+10^-D) of (R + x*2^E)*10^-D (as long as these stay below 2^126), for |D|<=10 to exactly that formula evaluated left to right with one IEEE rounding per operation; the reference, scale factors and bit width come from octets 12-20 of section 5; a packed integer of 0 with D=0 decodes to R exactly; the same holds for the values of complex packing with and without differencing, missing points being NaN. Finding: binary scale factors beyond these decode to wrong values (E=128: NaN for x=0; E=-128: x is ignored).", "quantifier": "all packed integers, all R, E, D", "why_tests_cant": "2^32 packed values times parameters", "anchors": ["src/decoder/simple.rs: decode, SimplePackingDecodeIterator", "src/decoder/param.rs: SimplePackingParam::from_buf"]}
{"id": "C16", "title": "Simple packing is monotone", "statement": "For a fixed message, a larger packed integer never decodes to a smaller value (finite parameters).", "quantifier": "all pairs of packed integers, all finite parameters", "why_tests_cant": "pairs of 2^32 values under floating-point rounding", "anchors": ["src/decoder/simple.rs: SimplePackingDecodeIterator::next"]}
{"id": "C17", "title": "Zero-bit simple packing is a constant field", "statement": "With bit width 0 the decoder yields exactly the number of encoded points declared in section 5, all equal to R*10^-D, whatever the data section contains.", "quantifier": "all section 7 contents, all counts", "why_tests_cant": "all counts and all ignored payloads", "anchors": ["src/decoder/simple.rs: decode", "src/decoder/stream.rs: FixedValueIterator"]}
{"id": "C18", "title": "Section table gives true positions", "statement": "For every byte string, the sections reported by the section stream have offsets and sizes such that the bytes of the input at each reported offset are that section's header (GRIB magic, 4-byte size and section number, or 7777), consecutive sections of one message tile it without gap or overlap, and the total is the total length in section 0.", "quantifier": "all byte strings", "why_tests_cant": "positions are computed by bookkeeping (whole_size/rest_size), not by reading them back; all inputs matter", "anchors": ["src/reader.rs: Grib2SectionStream, Grib2Reader::read_sect0, read_sect8, read_sect_header, read_sect_payload"]}
{"id": "C19", "title": "The first GRIB magic is found", "statement": "Starting at any position, the reader finds the first occurrence of the 4 octets GRIB that is followed by at least 12 more octets, however far away and however it straddles the 4096-byte search window; if there is none it reports end of data.", "quantifier": "all byte strings, all junk lengths", "why_tests_cant": "window-straddling positions depend on junk length mod 4081; unbounded input", "anchors": ["src/reader.rs: Grib2Read::read_sect0"]}
{"id": "C20", "title": "Short reads can only cut the section list off", "statement": "Reading from any Read+Seek source, whatever sizes its read calls return, reports sections, errors other than end-of-data, and panics that full reads would report, too: short reads only cut the list off, or replace the rest by an end-of-data error; payload octets never depend on read sizes. Finding: the cut is silent; if the first read returns fewer than 16 octets no section at all is reported and no error.", "quantifier": "all short-read schedules and all byte strings", "why_tests_cant": "schedules of short reads are chosen by the environment (BufReader, sockets, files)", "anchors": ["src/reader.rs: Grib2Read for SeekableGrib2Reader: read_sect0, read_sect8, read_sect_header", "src/context.rs: from_reader"]}
{"id": "C21", "title": "Exactly when the section reader panics", "statement": "The section stream panics exactly when, after a correct section table so far, a length field contradicts the lengths around it: with overflow checks, a total length below 16 or reaching beyond 2^64, a section length below 5 or beyond the end of the message; in every build, a section length below 5 of sections 1 to 5, and a bitmap section of length 5 or less. However many octets the read calls return, it panics for no other reason.", "quantifier": "all byte strings", "why_tests_cant": "adversarial inputs", "anchors": ["src/reader.rs: Grib2SectionStream::next_sect0, next_sect8, next_sect, read_sect_payload"]}
{"id": "C22", "title": "Reading always terminates", "statement": "from_reader/from_bytes finish on every input in both build profiles, with at most as many submessages as the input has octets; with overflow checks the section stream ends after at most as many items as octets are left. Finding: without overflow checks, the bare section stream (not from_reader) reports a section 7 of length 0 for ever.", "quantifier": "all byte strings", "why_tests_cant": "non-termination cannot be observed by finite tests", "anchors": ["src/reader.rs: Grib2SectionStream::next", "src/parser.rs: Grib2SubmessageIndexStream::next", "src/context.rs: Grib2::read"]}
{"id": "C23", "title": "Section order validation accepts exactly the GRIB2 grammar", "statement": "A finite section sequence is turned into submessages without error if and only if it matches (0 1 ((2? 3)? 4 5 6 7)+ 8)* where the first submessage of each message has a section 3.", "quantifier": "all finite sequences of sections", "why_tests_cant": "the language is infinite; all orders and repetitions matter", "anchors": ["src/parser.rs: Grib2SectionValidator, Grib2SubmessageValidator::next"]}
{"id": "C24", "title": "Submessages carry the right sections", "statement": "For an accepted sequence, submessage k has exactly the sections 4-7 of its own group and the most recent sections 0,1,2,3 of its message, section 2 and 3 inherited from earlier submessages when absent and never from a previous message.", "quantifier": "all accepted section sequences", "why_tests_cant": "inheritance over unbounded repetition", "anchors": ["src/parser.rs: Grib2SubmessageStream, Grib2SubmessageIndexStream, Grib2SectionCacher"]}
{"id": "C25", "title": "A section error ends the stream with its position", "statement": "At the first section that violates the order, cannot be read or is missing, exactly one error carrying the position of that section is reported, and the stream is finished for good; all submessages of earlier messages and those of the unfinished message that are known to be complete have been reported, i.e. all complete ones, except the last one if what follows its section 7 directly is an unreadable section or the end of data.", "quantifier": "all section sequences with errors anywhere", "why_tests_cant": "all prefixes and all error positions", "anchors": ["src/parser.rs: Grib2SubmessageValidator::next, new_unexpected_end_of_data_err"]}
{"id": "C26", "title": "The two submessage streams agree", "statement": "The value-producing and index-producing submessage streams run over the same sections report the same submessages, the indices pointing at the sections the other one returns.", "quantifier": "all section sequences", "why_tests_cant": "equivalence of two stateful iterators over all inputs", "anchors": ["src/parser.rs: Grib2SubmessageStream, Grib2SubmessageIndexStream"]}
{"id": "C27", "title": "What the submessage iterator returns", "statement": "Iterating yields each submessage once, in file order, and len() of them, then None for good. Any sequence of next, nth and dropping views gives what a cursor over the list of submessages gives, where nth(n) returns submessage number n of the file; size_hint is exact while the cursor is not past the end. A file has at most one message per 55 octets and one submessage per 26. Finding: nth therefore does not count from the current position as Iterator::nth should, and size_hint underflows (panics, or is huge) after nth past the end.", "quantifier": "all files, all call histories of next/nth/size_hint", "why_tests_cant": "histories of mixed calls", "anchors": ["src/context.rs: SubmessageIterator::next, nth, size_hint"]}
{"id": "C28", "title": "Only one submessage view can be alive", "statement": "Submessage views borrow the reader exclusively: holding one while asking the iterator for the next panics, dropping it first never does.", "quantifier": "all histories of obtaining and dropping views", "why_tests_cant": "history property of a dynamic borrow flag", "anchors": ["src/context.rs: SubmessageIterator::next, SubMessageSection, Grib2::reader RefCell"]}
{"id": "C29", "title": "Which end section a submessage refers to", "statement": "The last submessage of a message refers to the section 8 of its message. Finding: every other submessage of a multi-submessage message refers to the first section of the file instead.", "quantifier": "all accepted section sequences", "why_tests_cant": "requires multi-submessage histories", "anchors": ["src/parser.rs: Grib2SubmessageIndexStream::next, Grib2SubmessageValidator::next"]}
{"id": "C30", "title": "Template list is sorted, unique and complete", "statement": "list_templates returns each (section number, template number) pair occurring in sections 3, 4, 5 exactly once, in increasing order, and nothing else.", "quantifier": "all section lists", "why_tests_cant": "all section lists", "anchors": ["src/context.rs: Grib2::list_templates, get_templates"]}
{"id": "C31", "title": "Payload re-read returns the section's bytes", "statement": "Dumping or decoding a section after any history of other reads returns exactly the bytes of the input at the section's offset+5 with length size-5.", "quantifier": "all inputs and all histories of seeks/reads", "why_tests_cant": "shared cursor mutated by every operation", "anchors": ["src/reader.rs: read_sect_payload_as_slice", "src/context.rs: SubMessage::dump, SubMessageSection", "src/decoder.rs: Grib2SubmessageDecoder::from"]}
{"id": "C32", "title": "Grid point indices enumerate the grid once, in scan order", "statement": "For a ni x nj grid and any supported scanning mode, ij() yields ni*nj index pairs, each (i,j) with i<ni, j<nj exactly once, position k given by the scanning mode rules (i or j consecutive, boustrophedon rows alternate); size_hint is exact at every step.", "quantifier": "all grid sizes and the 16 supported scanning modes, every iteration state", "why_tests_cant": "all sizes, all states", "anchors": ["src/grid.rs: GridPointIndexIterator, ScanningMode"]}
{"id": "C33", "title": "Degenerate grids are handled", "statement": "A grid without rows (in scanning order) yields no points. Finding: a grid of empty rows is accepted by ij() if zero points are declared, its size hint is 0, and it yields 2^64-1 points, all outside the grid.", "quantifier": "all grid sizes with a zero dimension", "why_tests_cant": "size edge cases combined with iteration history", "anchors": ["src/grid.rs: GridPointIndexIterator::next, size_hint"]}
{"id": "C34", "title": "Coordinates are only returned when their count matches", "statement": "ij()/latlons() succeed only if the grid dimensions multiply to the number of points declared in section 3; otherwise an InvalidValueError is returned. An iterator that latlons() returns for a positive number of points yields exactly the declared number of points and does not panic.", "quantifier": "all grid definitions", "why_tests_cant": "all products", "anchors": ["src/context.rs: SubMessage::ij, latlons", "src/grid.rs: GridDefinitionTemplateValues"]}
{"id": "C35", "title": "Latitude/longitude grids have the right coordinates", "statement": "latlons() of a regular grid returns ni*nj pairs in scan order, each pair combining a latitude of the row and longitude of the column, evenly spaced from first to last point, longitudes wrapped into [0,360) across the 0 meridian, and is refused when the latitudes contradict the scanning direction.", "quantifier": "all grid definitions with ni, nj >= 2", "why_tests_cant": "all sizes and coordinates", "anchors": ["src/grid/latlon.rs: LatLonGridDefinition", "src/grid/helpers.rs: RegularGridIterator, evenly_spaced_degrees, evenly_spaced_longitudes"]}
{"id": "C36", "title": "Single row or column grids", "statement": "latlons() of a latitude/longitude grid with one row or one column yields as many points as the grid has, in scan order, and the coordinates along the other direction are as for larger grids. Finding: the coordinates along a direction with a single point are NaN; a single row scanned in +j direction is refused when its two latitudes agree; grids without points and latitudes that differ by 2^31 or more panic with overflow checks.", "quantifier": "all grid definitions with a dimension of 1", "why_tests_cant": "edge of all sizes", "anchors": ["src/grid/helpers.rs: evenly_spaced_degrees", "src/grid/latlon.rs: is_consistent_for_j"]}
{"id": "C37", "title": "Unsupported scanning modes are refused", "statement": "ij()/latlons() return NotSupported exactly when one of the four low scanning mode bits is set.", "quantifier": "all 256 scanning modes, all grids", "why_tests_cant": "combined with all grid sizes", "anchors": ["src/grid.rs: ScanningMode::has_unsupported_flags", "src/grid/latlon.rs", "src/grid/gaussian.rs", "src/grid/lambert.rs", "src/grid/polar_stereographic.rs"]}
{"id": "C38", "title": "Section field accessors read the documented octets", "statement": "Each accessor of sections 1, 3, 4, 5 returns the big-endian value of the octets the GRIB2 manual assigns to it, whatever the other octets are; payloads shorter than the fixed part are refused when the section is read.", "quantifier": "all payloads", "why_tests_cant": "independence of all other octets and all lengths", "anchors": ["src/datatypes/sections.rs: Identification, GridDefinition, ProdDefinition, ReprDefinition"]}
{"id": "C39", "title": "Grid definition templates are parsed from the documented octets", "statement": "Templates 3.0, 3.20, 3.30, 3.40 are parsed field by field from the documented octets (signed coordinates as sign-and-magnitude); exactly the other templates, and templates 3.0/3.40 with trailing lists, are NotSupported; grid_shape() is the pair of octets 31-34 and 35-38. Finding: a section that ends before its template does makes the program panic.", "quantifier": "all payloads of all lengths", "why_tests_cant": "all payload lengths", "anchors": ["src/datatypes/sections.rs: TryFrom<&GridDefinition>", "src/grid/latlon.rs: from_buf", "src/grid/gaussian.rs: from_buf", "src/grid/lambert.rs: from_buf", "src/grid/polar_stereographic.rs: from_buf", "src/grid/earth.rs: from_buf"]}
{"id": "C40", "title": "Product definition accessors", "statement": "Parameter category/number are available exactly for supported product definition templates; the generating process (all but three templates), forecast time (all but template 4.44) and the two fixed surfaces are read at the octets the WMO template assigns to them, and are None for templates without them. Finding: templates 4.47, 4.83, 4.254 show octet 12 as generating process; in template 4.44 the forecast time takes two octets of the first fixed surface; a section that ends before the forecast time or the surfaces makes the program panic.", "quantifier": "all template numbers (2^16) and all payloads", "why_tests_cant": "65536 templates x all payload lengths", "anchors": ["src/datatypes/sections.rs: ProdDefinition, SUPPORTED_PROD_DEF_TEMPLATE_NUMBERS"]}
{"id": "C41", "title": "Fixed surface missing values", "statement": "A fixed surface's scale factor / scaled value is reported missing exactly when all its bits are ones, and value() is NaN or scaled accordingly.", "quantifier": "all octet patterns", "why_tests_cant": "2^40 patterns", "anchors": ["src/datatypes/product_attributes.rs: FixedSurface::value_is_nan, value", "src/datatypes/sections.rs: read_surface_from"]}
{"id": "C42", "title": "Forecast time units", "statement": "The forecast time unit code maps to the documented unit for the 13 assigned codes and is preserved as an unknown code otherwise; distinct units never collide.", "quantifier": "all 256 codes", "why_tests_cant": "exhaustive classification combined with payload reads", "anchors": ["src/datatypes/product_attributes.rs: ForecastTime::from_numbers", "src/codetables/grib2.rs: Table4_4"]}
{"id": "C43", "title": "Parameter codes are unambiguous", "statement": "The 24-bit code of (discipline, category, number) is injective, and is_identical_to(code) holds exactly when the parameter's triple is that code's triple and the version condition holds.", "quantifier": "all triples and codes", "why_tests_cant": "2^24 combinations", "anchors": ["src/datatypes/product_attributes.rs: Parameter::as_u32, is_identical_to"]}
{"id": "C44", "title": "Reference time is valid exactly for real calendar instants", "statement": "ref_time() succeeds exactly when year/month/day/hour/minute/second form a valid proleptic Gregorian UTC instant (leap seconds and Feb 29 handled) and otherwise returns InvalidValueError.", "quantifier": "all field values", "why_tests_cant": "all calendar combinations", "anchors": ["src/datatypes/sections.rs: Identification::ref_time, create_date_time"]}
{"id": "C45", "title": "Messages survive junk and concatenation", "statement": "For any well-formed messages with arbitrary magic-free bytes before and between them, from_bytes reports exactly the concatenation of their submessages, with shifted offsets.", "quantifier": "all message lists and junk strings", "why_tests_cant": "unbounded composition", "anchors": ["src/reader.rs: Grib2SectionStream::next_sect0, read_sect0", "src/context.rs: Grib2::read"]}
{"id": "C46", "title": "Encode/read/decode end to end", "statement": "For any well-formed message built from section payloads per the GRIB2 layout, reading the file lists exactly those sections, and decoding the submessage yields, in grid order, the encoded values (to rounding accuracy) at the points with data and NaN at the points without, for every supported packing (simple, complex with and without first- or second-order differencing, run-length; JPEG 2000 and PNG given the image library's samples); items after the last grid point, if any, are extra.", "quantifier": "all well-formed messages (any sizes, any bitmap, any packed values)", "why_tests_cant": "whole-pipeline property over unbounded files", "anchors": ["src/context.rs: from_bytes, Grib2::read", "src/decoder.rs: Grib2SubmessageDecoder", "src/reader.rs"]}
{"id": "C47", "title": "Unsupported templates and bitmaps are refused", "statement": "Decoding refuses, with the documented error, exactly the bitmap indicators other than 0 and 255 and representation templates outside the supported set; original field types other than floating point are refused; unsupported group splitting, missing management and differencing orders are refused; errors of the JPEG 2000 and PNG libraries are passed on, and JPEG 2000 images with other than one component are refused.", "quantifier": "all section contents", "why_tests_cant": "all 2^16 templates x all parameter bytes", "anchors": ["src/decoder.rs", "src/decoder/simple.rs", "src/decoder/complex.rs", "src/decoder/param.rs"]}
{"id": "C48", "title": "Exactly when decoding panics", "statement": "Decoding of untrusted submessages panics only in these situations: section 5 ends before the fields of its template; complex packing (with wrapping arithmetic, references of at most 31 bits and counts that fit) where section 7 ends before the group parameters (at once) or before the packed values the iterator has to reach (while iterating); zero groups with checked arithmetic. For simple packing this is exact for all octets, and for simple, JPEG 2000, PNG and run-length packing iterating never panics.", "quantifier": "all section payloads", "why_tests_cant": "adversarial inputs", "anchors": ["src/decoder/complex.rs", "src/decoder/run_length.rs", "src/decoder/param.rs"]}
{"id": "C49", "title": "CLI message index parsing", "statement": "The CLI accepts exactly strings of the form digits.digits as a message index, turns them into the two numbers and selects the submessage with this index and no other; every other string is refused with an error. Finding: a well-formed index with a number of 2^64 or more makes the program panic instead.", "quantifier": "all strings", "why_tests_cant": "infinite set of strings", "anchors": ["cli/src/cli.rs: CliMessageIndex::from_str"]}
{"id": "C50", "title": "CLI binary output", "statement": "gribber decode writes 4 octets per decoded value, in order, whose big-/little-endian binary32 reading is the value; both byte orders contain the same values.", "quantifier": "all value sequences", "why_tests_cant": "all sequences and bit patterns", "anchors": ["cli/src/commands/decode.rs: write_output"]}
{"id": "C51", "title": "Code table ranges and lookups", "statement": "A code range written N or N-M (decimal, without sign) parses to the inclusive range when both numbers are below 2^64; characters after the second number are ignored, and every other string is refused. A lookup in the generated table never returns a description that the rows do not give to the code; if the rows have no gaps, it returns the description of every described code and 'not implemented' with the code after the last described one. Finding: a table with a gap before a described code becomes empty, and codes before the last described one that have no description are looked up as an empty description.", "quantifier": "all table files and codes", "why_tests_cant": "all CSV contents", "anchors": ["gen/src/lib.rs: CodeRange", "gen/src/lib.rs: CodeTable::to_vec", "src/codetables/old.rs: lookup"]}
{"id": "C52", "title": "JPEG 2000 reduced-resolution sizes and stream reads", "statement": "The size computed for a discard level is ceil(size/2^level); the in-memory stream handed to the JPEG 2000 library delivers the code stream bytes in order, each at most once, without gaps, as many as asked for as long as there are any, whatever read sizes the library asks for. Finding: at the end the callback returns 0, not the (size_t)-1 by which OpenJPEG recognizes the end of a stream.", "quantifier": "all sizes and levels; all histories of reads", "why_tests_cant": "histories of callbacks", "anchors": ["src/decoder/jpeg2000.rs", "src/decoder/jpeg2000/ext.rs: opj_stream_read_fn, value_for_discard_level"]}
{"id": "C53", "title": "Gaussian latitudes", "statement": "The Gaussian latitude computation yields exactly div latitudes for any div up to 1321122, each the arc sine of the iterate at which Newton's method on the Legendre polynomial of degree div, started at the usual first guess, settles (none if it does not within eleven steps); the same steps carried out without rounding are Newton's, the value of the Legendre polynomial divided by its derivative; the root search evaluates its function at most eleven times. Finding: for more rows an intermediate product overflows (panic with overflow checks).", "quantifier": "all divisions", "why_tests_cant": "all sizes", "anchors": ["src/grid/gaussian.rs: compute_gaussian_latitudes, find_root"]}
{"id": "C54", "title": "Submessage accessors show the file", "statement": "For every submessage of a file that was read successfully, every accessor (bodies of sections 0, 1 and 3 to 7, parameter, category, number) returns without panicking as far as the code allows, and the values it returns are those encoded in the octets of the section of that submessage in the file.", "quantifier": "all files that read successfully, all submessages", "why_tests_cant": "all files and layouts", "anchors": ["src/context.rs: SubMessage, SubMessageSection", "src/datatypes/sections.rs"]}
{"id": "C55", "title": "Gaussian grid points", "statement": "A Gaussian grid yields ni*nj points, in scanning order, pairing the equally spaced longitudes with the nj computed Gaussian latitudes, converted from radians to degrees with a relative error of at most 2^-23. Finding: the latitudes of the first and last grid point and N in the template are ignored, so a regional Gaussian grid is given global latitudes.", "quantifier": "all Gaussian grid definitions", "why_tests_cant": "all sizes and scanning modes", "anchors": ["src/grid/gaussian.rs: GaussianGridDefinition::latlons", "src/grid/gaussian.rs: compute_gaussian_latitudes"]}
{"id": "C56", "title": "Projected grid points", "statement": "Lambert conformal and polar stereographic grids yield ni*nj points in scanning order; each is the inverse projection of the point of the plane grid with the template's spacing whose first point is the forward projection of the template's first point. The projection library is any pointwise function. Angles (10^-6 degrees), lengths (10^-3 m) and radians are converted with relative errors of at most 2^-51, the result to degrees with at most 2^-23.", "quantifier": "all grid definitions and projection functions", "why_tests_cant": "all sizes and modes, any projection", "anchors": ["src/grid/lambert.rs", "src/grid/polar_stereographic.rs", "src/grid/helpers.rs"]}
{"id": "C57", "title": "Shape of the Earth", "statement": "The Earth radii are those of Code Table 3.2 for the standard codes; for user-given shapes with scale factor 0 they are the given values. Finding: for a non-zero scale factor the scale is applied with the wrong sign.", "quantifier": "all Earth shape definitions", "why_tests_cant": "all octet values", "anchors": ["src/grid/earth.rs: EarthShapeDefinition::radii"]}
{"id": "C58", "title": "Parameter code enumerations", "statement": "The macro that builds parameter code enumerations accepts a table if and only if each line, without white space at its end, has eleven or more words with numbers in range, and reads discipline, category, number and name; different (discipline, category, number) have different codes; if no code is listed twice, each listed code converts to the variant with its name (underscore in front, underscores for hyphens), equal names share one variant, whose number is the first code with the name, other codes are refused, and the number of each variant converts back to it. Finding: a line listed twice loses its variant although the conversion refers to it.", "quantifier": "all tables and all 32-bit values", "why_tests_cant": "all table contents", "anchors": ["codegen/src/param_codes.rs", "codegen/src/lib.rs"]}
{"id": "C59", "title": "CLI list point counts", "statement": "gribber list shows, for every submessage of a file read successfully, the number of grid points of section 3 and that number minus the number of packed points of section 5. Finding: if section 5 declares more points than section 3 the program panics (overflow checks) or shows a number near 2^32 (release).", "quantifier": "all files that read successfully, all submessages", "why_tests_cant": "all octet values of the two sections", "anchors": ["cli/src/commands/list.rs"]}
{"id": "C60", "title": "CLI decode, end to end", "statement": "gribber decode FILE INDEX writes exactly the values the library decodes for the submessage with that index: four octets per value in the requested byte order, or one line per value with the grid point of the same position (NaN coordinates if the grid is not supported); unreadable or empty files, malformed and unknown indices, and decoder errors are reported as such with no output.", "quantifier": "all files, indices, byte orders and decodable sections", "why_tests_cant": "composition over all files", "anchors": ["cli/src/commands/decode.rs", "cli/src/cli.rs"]}
{"id": "C61", "title": "The section stream reports exactly the defect that is there", "statement": "After a correct section table of the octets so far, the section stream reports the end of data exactly where no further message (between messages) or no further octet (inside one) follows, and each error (wrong version, wrong end mark, truncated section, unknown section number, section too small) exactly where the octets have that defect.", "quantifier": "all byte strings, all start positions, every prefix of the stream", "why_tests_cant": "error classification must be right and complete on all malformed inputs", "anchors": ["src/reader.rs: Grib2SectionStream, Grib2Reader", "src/datatypes/sections.rs: from_payload"]}
{"id": "C62", "title": "The outcome of reading a file, for every input", "statement": "from_bytes/from_reader (with full reads) succeeds if and only if the input consists of well-formed messages in section order with junk around them; it returns a parse error if and only if, after well-formed messages and a well-formed beginning of another one, a section out of order, a malformed section or the end of data comes, and the error is the one for that place, with the position of the section; it panics if and only if at such a place a length field contradicts the lengths around it. There is no other outcome.", "quantifier": "all byte strings, all start positions, both build profiles", "why_tests_cant": "exact classification of an infinite input space", "anchors": ["src/context.rs: from_reader, from_bytes, Grib2::read", "src/parser.rs", "src/reader.rs"]}
{"id": "C63", "title": "Any program working with one file", "statement": "Whatever a program does with a file that has been read - any number of iterators, clones, next, nth, size_hint, dropping and decoding of submessages in any order - each answer is determined by the submessages of the file and the places of the iterators alone; the program panics exactly if it asks for a submessage while another one is alive, or if a decoding or a size_hint past the end does.", "quantifier": "all files, all programs (sequences of operations)", "why_tests_cant": "unbounded interleavings of operations on shared state (the reader in a RefCell)", "anchors": ["src/context.rs: Grib2, SubmessageIterator, SubMessage", "src/decoder.rs: Grib2SubmessageDecoder::from"]}
{"id": "C64", "title": "Iterators do not disturb each other", "statement": "The answers of every iterator over a file, new or cloned, are the ones it would give alone, from the place where it was created or cloned, whatever is done in between with other iterators and with submessages.", "quantifier": "all files, all programs, all iterators in them", "why_tests_cant": "all interleavings", "anchors": ["src/context.rs: SubmessageIterator, IntoIterator for &SubmessageIterator"]}
{"id": "C65", "title": "Decoding does not depend on history", "statement": "Setting up the decoder of a submessage gives the same result (values, error or panic) whatever was read from the file before and however the device splits its reads, and it does not change the file.", "quantifier": "all files, submessages, positions of the reader and read schedules", "why_tests_cant": "all histories of a shared, stateful reader", "anchors": ["src/decoder.rs: Grib2SubmessageDecoder::from", "src/reader.rs: read_sect_payload_as_slice"]}
{"id": "C66", "title": "Code table files are read completely", "statement": "Loading a code table file stores, for each discipline and category its records name, the title of the first and the codes and descriptions of all records of the last block of records for it, under the section and table number in the file's name; all other tables stay as they were, files with other names are ignored, and the build fails if and only if such a file has no numbers in its name, or a record that cannot be read or has a subtitle of another form. Finding: an earlier, separate block of records for the same discipline and category is lost.", "quantifier": "all file names and all sequences of records", "why_tests_cant": "parsers and block structure over all record sequences", "anchors": ["gen/src/grib2_codeflag_csv.rs: CodeDB::load, parse_file, OptArg::from_str", "gen/src/cct_csv.rs: CodeDB::load", "build.rs"]}
{"id": "C67", "title": "Names of generated tables", "statement": "The name of a generated table consists of its numbers, in decimal without superfluous zeros, with an underscore before each; different tables have different names. The generated code has one constant for each table that the files provide and none twice, in the order of the numbers of the tables, whatever the order of the files.", "quantifier": "all section, table, discipline and category numbers", "why_tests_cant": "injectivity of text over all combinations", "anchors": ["gen/src/grib2_codeflag_csv.rs: get_variable_name", "src/codetables/old.rs"]}
{"id": "C68", "title": "A code's description is the one in the WMO file", "statement": "Looking up a code in any of the library's code tables (including tables 4.1 and 4.2, which depend on discipline and category, and common tables C-0 and C-11) consults exactly the table that the CSV files given to the build provide for it: no code is described by anything else; in tables without gaps every described code has its description; codes of unsupported disciplines and categories are 'not implemented'. Parameter::description gives the description of code table 4.2 for the parameter's discipline and category.", "quantifier": "all CSV files, all tables, all codes", "why_tests_cant": "end-to-end composition of parser, database, generator and look-up", "anchors": ["build.rs", "gen/src/*.rs", "src/codetables/old.rs", "src/datatypes/product_attributes.rs: Parameter::description"]}
{"id": "C69", "title": "What gribber list prints", "statement": "For every file that can be read, gribber list prints the heading and then one line per submessage in file order: its number message.submessage, parameter and generating process as the code tables have them, forecast time with unit, the two surfaces with their units, grid points without a value and in total, kind of grid, in columns that are padded and never cut; with -d, number and sixteen labelled fields. It ends with an error only as a panic, exactly if a submessage's product section ends before the forecast time or surfaces, its grid section ends early, or (overflow checks) it has more values than points. The number shown selects that very submessage in gribber decode. Finding: more values than points are shown as about 2^32 missing points by a build without overflow checks.", "quantifier": "all readable files, both build profiles, all code tables, colours on and off", "why_tests_cant": "exact output and panic conditions over all files", "anchors": ["cli/src/commands/list.rs: ListView", "src/context.rs: SubMessage::describe", "src/datatypes/product_attributes.rs: Display, describe", "src/codetables/grib2.rs"]}
{"id": "C70", "title": "Predicted and actual number of lines", "statement": "gribber list prints exactly the number of lines it predicts when it decides whether to start a pager: one per submessage and one heading. Findings: with -d it prints 18 lines per submessage but predicts 10 per submessage less one, so on a terminal of between 10n-1 and 18n-1 lines no pager is started although the text does not fit; for a file without submessages it panics (2^64-1 predicted without overflow checks); gribber inspect prints one line more than predicted whenever submessages are shown.", "quantifier": "all readable files, all terminal heights, all combinations of flags, tables whose descriptions are single lines", "why_tests_cant": "counting over all files", "anchors": ["cli/src/commands/list.rs: num_lines", "cli/src/commands/inspect.rs: num_lines", "cli/src/cli.rs: display_in_pager"]}
{"id": "C71", "title": "What gribber inspect prints", "statement": "gribber inspect prints, for every readable file: each section with its index, first and one-past-last offset in 16 hexadecimal digits, and number; each submessage with its number, the indices of its sections (which lead to those sections in the section list) and its templates; the distinct templates in ascending order with their names. It shows what the flags ask for (everything if there are none), in this order, with titles if there is more than one thing and an empty line between them; the result does not depend on the iteration order of the hash set, and it never panics.", "quantifier": "all readable files, all flags, all hash orders, both build profiles", "why_tests_cant": "exact output over all files", "anchors": ["cli/src/commands/inspect.rs: InspectView, InspectSectionsItem, InspectSubMessagesItem, InspectTemplatesItem"]}
{"id": "C72", "title": "What gribber info prints", "statement": "gribber info prints one block per message, in order, from its sections 0 and 1: number, discipline, total length, centre, sub-centre, table versions, significance, date and time, status and type. It stops with the error of the first message whose reference time is not a valid date and time, after the blocks of the messages before; otherwise all messages are printed. It never panics.", "quantifier": "all readable files, all code tables", "why_tests_cant": "over all files and histories of messages", "anchors": ["cli/src/commands/info.rs: cli, InfoView", "src/datatypes/sections.rs: ref_time"]}
{"id": "C73", "title": "The text of gribber decode", "statement": "gribber decode without an output file prints a heading and then one line per value that has a grid point, in scanning order: latitude and longitude rounded to six decimals, right-aligned, and the value; values beyond the last point and points beyond the last value are left out. Where the grid is not supported, the coordinates are NaN; any other grid error is reported. The number of lines that decides on the pager is the number printed.", "quantifier": "all readable files, indices, decodable sections", "why_tests_cant": "over all files; rounding of every float", "anchors": ["cli/src/commands/decode.rs: DecodeView, exec"]}
{"id": "C74", "title": "Error texts and exit status", "statement": "The text of a read error names the kind of error and its number in decimal; the numbers of the errors that reading returns are natural numbers, so errors with the same text are the same. The text of a decode error names the error and what it contains, each level indented on a line of its own, and determines the error. Every gribber command exits with 0 and prints no error, or with 1 and prints the text of its error; unreadable and empty files are reported so by every command.", "quantifier": "all octet strings, all commands", "why_tests_cant": "every input", "anchors": ["src/error.rs: Display for GribError, ParseError, BuildError", "cli/src/main.rs", "cli/src/cli.rs: grib"]}
{"id": "C75", "title": "The example programs", "statement": "find_layers prints the descriptions of exactly the submessages whose forecast time is the given number of hours, in file order. list_layers prints one line per submessage (parameter, forecast time, first surface). decode_layer prints one line per value with a point. check_decoding_of_files succeeds for a file iff every submessage, decoded alone, is decoded, and else fails as the first failing one does; it stops at the first file that fails. Each program reports the error of an unreadable file; a file without submessages is an error for check_decoding_of_files. Finding: list_layers panics if some submessage has a product definition template without forecast time or fixed surfaces.", "quantifier": "all files, forecast times, indices", "why_tests_cant": "over all files and submessages", "anchors": ["examples/find_layers.rs", "examples/list_layers.rs", "examples/decode_layer.rs", "examples/check_decoding_of_files.rs"]}
{"id": "C76", "title": "Coordinates from the octets of section 3", "statement": "For a section 3 with a complete supported template whose dimensions multiply to the declared number of points, latlons() yields exactly that many points, in scanning order, each with the coordinates that the octets of the template determine: evenly spaced latitudes and longitudes (3.0), Gaussian latitudes (3.40), inverse projections of the points of the plane grid (3.20, 3.30). Latitudes that contradict the scanning direction are an InvalidValueError. Without the projection library templates 3.20 and 3.30 are NotSupported and the others unaffected.", "quantifier": "all sections 3 with a complete template, all projection libraries", "why_tests_cant": "all grids", "anchors": ["src/context.rs: SubMessage::latlons", "src/datatypes/sections.rs: GridDefinitionTemplateValues", "src/grid.rs: GridPointIterator"]}
{"id": "C77", "title": "The demo: table of a file and pictures of its submessages", "statement": "For every file the library reads, the demo's table says how many submessages there are and has a row for each, in order, with number, parameter, generating process, forecast time, fixed surfaces, missing points, points and grid type as gribber list shows them; it panics exactly for files gribber list panics for. Whatever rows are clicked one after the other, a click shows nothing if the shape of the grid is not known, and otherwise a picture of that shape whose pixels, row by row, have the colours of the decoded values in the order of the file: of the first temperature class (35, 30, ..., -5 degrees Celsius) whose limit the value is above, opaque. Findings: the limits are 1/163840 K too low; missing values get the colour of the coldest class; a click panics if the decoder returns another number of values than the grid has points (as it does with padding bits, C05), and the picture ignores the scanning mode, so that a pixel is where its grid point is iff flags 3 and 4 are off.", "quantifier": "all files, sequences of clicks, numbers of binary32", "why_tests_cant": "all files and all histories of clicks", "anchors": ["demo/src/main.rs: app, format_surface", "demo/src/palette.rs: jma_amedas_temperature, degrees_celsius_to_kelvin"]}
{"id": "C78", "title": "Failures of the device are reported", "statement": "If calls of the underlying reader fail, at any times and with any errors, from_reader, the section stream and Grib2SubmessageDecoder::from either return what they return on a device that does not fail (and then the only failures were interruptions, which read_exact repeats) or return, as ParseError::ReadError with the text of the failure, the first failure met; they never panic because of it, never return a shorter file or other octets. A failure while decoding leaves the file usable: each later attempt gives the right decoder or again an error of the device.", "quantifier": "every content of the device, every schedule of short reads, every plan of failures (any call of read or seek, any number, any text, interrupted or other), any sequence of decoding attempts", "why_tests_cant": "Tests run on files and cursors that do not fail; which call fails first is a matter of schedules without bound.", "anchors": ["src/reader.rs: SeekableGrib2Reader, Grib2SectionStream", "src/error.rs: From<io::Error> for ParseError", "src/context.rs: Grib2::read", "src/decoder.rs: Grib2SubmessageDecoder::from"]}
{"id": "C79", "title": "The JPEG 2000 library's objects are released", "statement": "Whatever the JPEG 2000 library does - whichever of its calls fails, whatever octets and however often it asks for them - and however decoding ends (values, an error, an arithmetic panic), each of its objects (stream, codec, image, the user data of the stream) is created at most once and destroyed exactly once, after its last use; the data section is only accessible to the library while the stream exists; the result depends on the octets of the data section alone. Finding: if the library cannot create a stream, the user data are leaked.", "quantifier": "every library behaviour (an interactive process that asks for octets depending on what it got), every data section, both build profiles", "why_tests_cant": "Tests see one library, which hardly ever fails, and do not see leaks or double releases.", "anchors": ["src/decoder/jpeg2000.rs: decode_jp2", "src/decoder/jpeg2000/ext.rs: Stream, Codec, Image, Drop impls"]}
{"id": "C80", "title": "Reading on 32-bit targets", "statement": "A file of less than 2^31 octets that can be read where usize has 64 bits is read with the same result - sections, submessages, source - where it has 32 bits (the demo runs on wasm32), in builds with and without overflow checks, and its submessages have the same decoders; without overflow checks this needs that no data section claims to be shorter than its header. Findings: a 32-bit build ignores the upper half of a message's total length, and so reads files that a 64-bit build refuses; a 64-bit build without overflow checks seeks backwards for a data section shorter than its header, a 32-bit build skips about four gigabytes.", "quantifier": "every file below 2^31 octets, every start position inside it, both build profiles", "why_tests_cant": "the tests run on the 64-bit build machine", "anchors": ["src/reader.rs: Grib2SectionStream::next_sect0, next_sect, next_sect8, SeekableGrib2Reader::read_sect_payload, skip_sect7_payload, read_sect_payload_as_slice", "src/context.rs: Grib2::read", "src/decoder.rs: Grib2SubmessageDecoder::from"]}
{"id": "C81", "title": "Memory taken while reading", "statement": "For the contents of sections, reading a file never takes more octets of memory than the file is long, unless reading ends with an error; then it takes less than 2^32 - 5 octets more. In other words: Grib2 reading with that much memory returns what it returns with any amount. Setting up the decoder of a submessage takes exactly the octets of sections 5, 6 and 7 and a copy of the bitmap (or one bit for each grid point if there is none), at most twice the length of the file, or its length and 2^29. Finding: a file of 21 octets makes the reader take any amount below 4 GB that it names before the missing data are noticed.", "quantifier": "all inputs, read schedules, build profiles, amounts of memory and submessages", "why_tests_cant": "sizes of requests depend on 32-bit fields of arbitrary files; a test sees one file and one amount of memory", "anchors": ["src/reader.rs: read_slice_without_offset_check, read_sect6_payload, read_sect_payload_as_slice", "src/context.rs: Grib2::read", "src/decoder.rs: Grib2SubmessageDecoder::from", "src/decoder/bitmap.rs: create_bitmap_for_nonnullable_data"]}
{"id": "C82", "title": "Memory taken by run-length data", "statement": "Decoding run-length packed data builds a list of exactly as many items as the data stand for, whatever number of points is expected: with memory for that many items the result is the one with any amount of memory, with less decoding does not return. k + 1 octets can stand for 255^k points (k <= 8); the number of points is only compared afterwards.", "quantifier": "all data, bit widths 1 to 15, maximum values, expected numbers of points, amounts of memory, build profiles", "why_tests_cant": "the sizes grow exponentially with the length of the data; a test sees a few", "anchors": ["src/decoder/run_length.rs: rleunpack"]}
{"id": "C83", "title": "Decoding on 32-bit targets", "statement": "A file of less than 256 MiB whose submessage is decoded to certain values where usize has 64 bits is read and decoded to the same values where it has 32 bits, in builds with and without overflow checks, if the grid has at most 2^32 - 8 points, a PNG image in it has less than 256 MiB, and no run of template 5.200 has more digits than 32 bits can weigh; what is refused is refused with the same error; wasm32 differs in not supporting template 5.40. Findings: with overflow checks, run-length data with more digits (zeros count) decode with 64 bits and panic with 32; without overflow checks, a group of complex packing whose number of bits is a multiple of 2^32 and whose data are missing panics with 64 bits and is passed over with 32; the bitmap of a grid of more than 2^32 - 8 points is refused or panics.", "quantifier": "all files, submessages, codecs, both build profiles", "why_tests_cant": "sizes of grids and groups depend on arbitrary 32-bit fields; tests run on one target", "anchors": ["src/decoder.rs: dispatch", "src/decoder/stream.rs: NBitwiseIterator", "src/decoder/complex.rs: decode_complex_packing, ComplexPackingDecodeIterator", "src/decoder/run_length.rs: rleunpack", "src/decoder/bitmap.rs: BitmapDecodeIterator::new", "src/decoder/png.rs: decode"]}
{"id": "C84", "title": "Grid points on 32-bit targets", "statement": "ij() and latlons() return the same where usize has 32 bits as where it has 64 - results, errors, panics - and their iterators yield the same pairs and coordinates, for every grid with points whose rows and columns multiply to less than 2^32 (ij() cannot succeed for others with 64 bits), in builds with and without overflow checks; for the coordinates of Gaussian grids this is so up to 812 rows. Findings: with 813 or more rows latlons() panics with overflow checks; without them, no Gaussian grid of 1024 rows (N512) has coordinates: an intermediate product wraps to 0 and latlons() returns an error; for 2^32 points or more ij() panics or accepts a number of points that agrees only modulo 2^32.", "quantifier": "all section 3 contents, mathematical and projection libraries, both build profiles", "why_tests_cant": "numbers of rows and columns are arbitrary 32-bit fields; tests run on one target", "anchors": ["src/context.rs: SubMessage::ij, latlons", "src/grid.rs: GridPointIndexIterator, GridPointIterator", "src/grid/gaussian.rs: legendre_roots_iterator, latlons", "src/grid/lambert.rs: latlons", "src/grid/polar_stereographic.rs: latlons", "src/grid/helpers.rs: RegularGridIterator"]}
{"id": "C85", "title": "The demo in a browser", "statement": "The demo runs as wasm32 code, where usize has 32 bits and a panic is a trap that ends one event without running destructors. For a file of less than 256 MiB: it is read as with 64 bits; a click that shows a picture with 64 bits (C77) shows the same picture, unless the data are JPEG 2000 data or too many for 32 bits; a click that panics there traps (without overflow checks: if the data are refused); and if the table of the file is shown, then whatever rows are clicked one after the other - also after clicks that trapped - each click does what it does as the first one: no trap leaves the file's reader borrowed. Finding: every click on a submessage with JPEG 2000 data and a known grid shape traps.", "quantifier": "all files, build profiles, sequences of clicks", "why_tests_cant": "the state of the page after a trap depends on all clicks before; the demo has no tests and its target is not the one tests run on", "anchors": ["demo/src/main.rs: app (on_click_submessage_row)", "src/context.rs: SubmessageIterator::nth, next", "src/decoder.rs: Grib2SubmessageDecoder::from, dispatch"]}
{"id": "C86", "title": "Order of coordinates", "statement": "The latitudes of a latitude/longitude grid run in the direction of scanning flag 2 from row to row (strictly, if rows are at least 0.0003 degrees apart), its longitudes in the direction of flag 1 from column to column, with at most one jump of 360 degrees, after all rounding; row 0 has exactly the first latitude of the template, rounded. Finding: the last latitude can lie beyond the pole, rows a microdegree apart coincide, and equal first and last longitudes yield a whole turn westward if flag 1 says eastward.", "quantifier": "every latitude/longitude grid of at least 2 by 2 points with coordinates in their ranges, every pair of its points, both build profiles", "why_tests_cant": "rounding could break the order for some of the astronomically many combinations of corners, sizes and scanning modes; tests check a few grids with a tolerance", "anchors": ["/repo/src/grid/latlon.rs: LatLonGridDefinition::latlons", "/repo/src/grid/helpers.rs: evenly_spaced_degrees, evenly_spaced_longitudes"]}
{"id": "C87", "title": "Builds with and without overflow checks agree", "statement": "Whatever a build with overflow checks (debug) returns, prints, yields or fails with, when it does not panic, a build without them (release) does, too: reading files and sections, the calls of the API in any order, decoding item by item, grid points and coordinates, descriptions, all commands of gribber, the example programs, the demo and the build script; conversely the two can differ only where the first one panics.", "quantifier": "every input, every session of calls, every number of items taken from an iterator, every codec and PROJ library", "why_tests_cant": "tests run in one of the two profiles, on inputs that do not overflow; agreement is about every input and every arithmetic operation on the way", "anchors": ["/repo/Cargo.toml: profiles", "/repo/src/context.rs: Grib2, SubMessage", "/repo/src/decoder.rs: Grib2SubmessageDecoder::dispatch", "/repo/src/grid.rs: GridPointIndexIterator", "/repo/cli/src/commands: list, inspect, decode"]}
{"id": "C88", "title": "Memory taken by complex packing", "statement": "Decoding complex packing (templates 5.2 and 5.3) with a limited amount of memory returns the same error, panics in the same way or yields the same values as with any amount, unless it runs out of memory. Room for the points of the longest group is enough, whatever the number of groups, since the groups are decoded one at a time. Data whose groups are not all that small are decoded with any amount of memory but end the process with less, if the groups before the first larger one have fewer points than the bitmap has ones. Finding: a group of width 0 takes 8 octets for each of the points it claims (up to 2^32 - 1) although none of its values is in the data: a file of 204 octets that declares one point takes 34 GB to decode to one value.", "quantifier": "all decoders (section contents, bitmaps, numbers of points), amounts of memory and build profiles; all lengths of a group in the file of the finding", "why_tests_cant": "group lengths are 32-bit fields of arbitrary files, unrelated to the amount of data and to the number of points; a test sees one file and one amount of memory", "anchors": ["/repo/src/decoder/complex.rs: decode_complex_packing, ComplexPackingValueDecodeIterator, decode_7_2, decode_7_3", "/repo/src/decoder.rs: Grib2SubmessageDecoder::dispatch"]}
{"id": "C89", "title": "Samples of a JPEG 2000 image are read inside their component", "statement": "Decoding a JPEG 2000 submessage whose single component has a sample for every point of the image area reads exactly the samples of that component, also with discarded resolution levels for an image that starts at a multiple; where there are 2^32 samples or more it panics with overflow checks, and without them reads fewer. Finding: the number of samples read is taken from the image area and never compared with the component, so an image whose component is subsampled in the code stream (XRsiz or YRsiz of 2 or more) is read beyond its end - undefined behaviour through the safe interface - by a factor that the file chooses, up to 65025.", "quantifier": "all image areas, subsampling distances, discarded levels, samples, decoders and build profiles, for a JPEG 2000 library that allocates what ISO/IEC 15444-1 says", "why_tests_cant": "out-of-bounds reads usually go unnoticed; a test sees the image sizes of its own files, none of which is subsampled", "anchors": ["/repo/src/decoder/jpeg2000.rs: decode_jp2, value_for_discard_level", "/repo/src/decoder/jpeg2000/ext.rs: Image::width, height, factor, components", "/repo/src/decoder.rs: Grib2SubmessageDecoder::dispatch"]}
{"id": "C90", "title": "Reading a file does not depend on its packed data", "statement": "For any two byte sequences of the same length that differ only inside the payloads of the data sections (section 7) of the first one, reading gives the same list of sections and the same submessages, the same error, or the same panic - so from_reader never looks at packed values, even if they contain the characters GRIB or 7777 -, and every submessage whose own section 7 is unchanged decodes to the same values.", "quantifier": "all files and all changes of octets inside section 7 payloads, start positions and build profiles, for sources whose read calls fill the buffer", "why_tests_cant": "a test changes a few octets in a few files; the claim ranges over all contents of all packed sections of all files, valid or not", "anchors": ["src/reader.rs: SeekableGrib2Reader, read_sect0, read_sect_header, read_sect_payload_as_slice", "src/parser.rs: Grib2SubmessageStream, Grib2SectionStream", "src/context.rs: from_reader", "src/decoder.rs: Grib2SubmessageDecoder::from"]}
{"id": "C91", "title": "A submessage depends only on its own sections", "statement": "Two submessages of any two files (or of one), at any positions and among any other messages, whose sections 3, 5, 6 and 7 have the same octets are decoded alike: the same error, panic or decoder; and indicator, identification, grid definition, product definition, representation definition and parameter() are the same if the sections 0, 1, 3, 4, 5 that each is about have the same octets.", "quantifier": "all pairs of successfully read files, of submessages in them, and build profiles", "why_tests_cant": "a relation between runs on two arbitrary files; tests only see single files with fixed positions", "anchors": ["src/decoder.rs: Grib2SubmessageDecoder::from", "src/context.rs: SubMessage::{indicator,identification,grid_def,prod_def,repr_def,parameter}, Grib2::submessages", "src/reader.rs: read_sect_payload_as_slice"]}
{"id": "C92", "title": "Files that are cut off", "statement": "Reading the first n octets of any file gives sections that are the first sections of the whole file (for any sizes of the reads); a panic, or an error other than the end of the data, occurs only where the whole file gives the same. The first n octets of a file that can be read are read successfully if and only if every message that begins before the cut (its first 16 octets) also ends before it; then the sections and submessages are the first ones of the whole file, and decode to the same values. Otherwise reading is refused with ReadError(UnexpectedEof) or UnexpectedEndOfData, so from_reader gives no access to the complete messages before the cut; it never panics.", "quantifier": "all files (valid or not), all lengths of the beginning, start positions, build profiles; all read schedules of the cut file for the prefix statements", "why_tests_cant": "an incomplete download can end at any octet of any file; a test cuts a few files in a few places", "anchors": ["src/reader.rs: SeekableGrib2Reader, Grib2SectionStream", "src/parser.rs: Grib2SubmessageIndexStream", "src/context.rs: from_reader", "src/decoder.rs: Grib2SubmessageDecoder::from"]}
{"id": "C93", "title": "Two files, one after the other", "statement": "Two files that can be read (where overflow is checked), one after the other, can be read as one file in every build profile, with the sections and submessages of the first file followed by those of the second one, their message numbers, section numbers and offsets shifted by the number of messages, of sections and of octets of the first file, unless a message (\"GRIB\" and at least 12 more octets) seems to begin in the octets after the last message of the first file. The submessages of both parts decode to the same values as before. A file of several messages is so the concatenation of its messages.", "quantifier": "all pairs of files that can be read, of any size (less than 2^63 octets together), in both build profiles; all submessages of either file", "why_tests_cant": "GRIB files are made with cat; the claim is about all pairs of files", "anchors": ["src/reader.rs: SeekableGrib2Reader, Grib2SectionStream", "src/parser.rs: Grib2SubmessageIndexStream", "src/context.rs: from_reader", "src/decoder.rs: Grib2SubmessageDecoder::from"]}
{"id": "C94", "title": "A message taken out of a file", "statement": "In a file that can be read (where overflow is checked), the octets of any one message, from its \"GRIB\" on and as many as its section 0 says, are themselves a file that can be read in every build profile: its sections are those of the message at their offsets in the message, its submessages are exactly those that the file lists under the number of that message (renumbered), and they decode to the same values as in the file. A file can so be split into messages by the offsets and lengths that the library reports.", "quantifier": "all files that can be read (less than 2^63 octets), all messages of them, both build profiles; all submessages of the message", "why_tests_cant": "splitting a file into its messages is a usual operation; the claim is about every message of every file", "anchors": ["src/reader.rs: SeekableGrib2Reader, Grib2SectionStream", "src/parser.rs: Grib2SubmessageIndexStream", "src/context.rs: from_reader", "src/decoder.rs: Grib2SubmessageDecoder::from"]}
{"id": "C95", "title": "Reading from a position on", "statement": "from_reader with a source at position p: if the octets from p on are a file that can be read (where overflow is checked), reading succeeds in every build profile, with the same submessages as that file, all offsets counted from the beginning of the source, and the same decoded values; conversely, if reading from p succeeds, so does reading the octets from p on as a file of their own, with the same result. What is before the position does not matter.", "quantifier": "all octet sequences shorter than 2^63, all positions, both build profiles; all submessages", "why_tests_cant": "a reader may be at any position of any file when it is passed to the library", "anchors": ["src/reader.rs: Grib2SectionStream::new, reset_pos", "src/parser.rs: Grib2SubmessageIndexStream", "src/context.rs: from_reader", "src/decoder.rs: Grib2SubmessageDecoder::from"]}
