# Formal model of noritada/grib-rs in Rocq (Coq 8.16.1)

## 1. Layout

* `properties.jsonl` - the English properties (C01, C02, ...).
* `rocq/theories/Model/*.v` - executable Gallina model, definitions only; every definition cites the
  file and lines of /repo it models and says where it simplifies.
* `rocq/theories/Spec/*.v` - small specifications written independently of the model (bit positions,
  big-endian encodings, the section grammar, scan order, calendar ...).
* `rocq/theories/Proofs/*.v` - lemmas.
* `rocq/theories/Props/*.v` - only property theorems (`exact lemma.`), `Print Assumptions` under each,
  and beside each a concrete `Example` meeting its hypotheses.
* `MANIFEST.json` - property -> theorem names. `seeded/LOG.jsonl` - mutation experiments.

## 2. Modelling conventions

* A Rust function becomes a total Gallina function. `Result`/`Option` stay data. A panic is the explicit
  outcome `Panic`, exhaustion of fuel (a loop that may not terminate) is `Diverge`; neither is ever identified
  with a normal value.
* Build profile: functions doing integer arithmetic take `m : mode` (`Checked` = overflow checks on,
  `Wrapping` = release profile). `arith m ty z` panics or wraps out-of-range results; shifts by too much panic or
  are masked. Unless said otherwise theorems hold for both modes.
* `usize` is 64 bits (C80, C83 and C84 redo reading, decoding and grid points with 32 bits). Machine integers are `Z` with the explicit range operations above; where the code cannot
  leave the range (e.g. counts of in-memory items) plain `Z`/`nat` is used and the comment says so.
* Bytes are `Coq.Init.Byte.byte` (256 constructors), so no well-formedness side conditions on byte strings.
* Slice indexing out of bounds is `Panic`.
* An iterator is a state plus a `next` function returning `outcome (option item * state)`; `Run it l End` says that
  iterating to the first `None` yields exactly `l` without panicking, `Run it l Crash` that it panics after `l`.
* Memory allocation never fails (C81, C82 and C88 bound what a file makes the code allocate). Drop, lifetimes, trait dispatch, Display/Debug formatting of errors are not
  modelled (the text of the CLI's listings is). Error values carry the data the Rust errors carry.
* Floating point: `Coq.Floats.SpecFloat` (`spec_float`, round to nearest even) at binary32/binary64, related
  to the reals through Flocq. `powi` is modelled as compiler-rt's repeated multiplication.
* External components (libopenjpeg, png crate, proj, chrono, regex, OS files) are oracles or modelled by their
  documented contract; see section 4.

## 3. Property by property

Every property is expressed in the model; none was left out as inexpressible.

| id | what is modelled | how it is proved | theorems |
|----|------|------|------|
| C01 | `as_grib_int`, `grib_int_from_bytes`, `read_as!` | shift/mask = div/mod arithmetic, case on the sign bit | `C01_as_grib_int`, `C01_read_signed`, `C01_from_bytes`, `C01_from_bytes_roundtrip`, `C01_from_bytes_other_lengths_panic` |
| C02 | `NBitwiseIterator::next` as a state machine | invariant bit position = 8*pos+offset; item = bits of the string read as a big integer (Spec/Bits) | `C02_unpack_exact`, `C02_unpack_wide`, `C02_stays_exhausted` |
| C03 | the same with `BitStream` | independent packer in Spec/Bits; corollary of C02 | `C03_pack_unpack`, `C03_zero_width` |
| C04 | `BitmapDecodeIterator` (peek/next/offset) | simulation of `place` over the bits (Spec/BitmapS) | `C04_bitmap_positions`, `C04_bitmap_complete`, `C04_bitmap_too_short` |
| C05 | the same | counts of `place`, padding bits | `C05_count`, `C05_count_right` |
| C06 | `size_hint` after any history | invariant offset = k mod 8 | `C06_hint`, `C06_hint_exact` |
| C07 | `create_bitmap_for_nonnullable_data` + iterator | corollary of C04 | `C07_no_bitmap_passthrough`, `C07_no_bitmap_excess` |
| C08 | `decode_complex_packing` and its iterator | bit position invariant against an independent encoder (Spec/ComplexS, GroupsS) | `C08_complex_groups`, `C08_complex_no_missing`, `C08_wide_fields` |
| C09 | `missing.rs`, `param.rs` | per-width characterisation of all-ones patterns | `C09_missing_exact` |
| C10 | `SpatialDiff1orderDecodeIterator` | induction over the field with missing points | `C10_first_order_octets`, `C10_first_order`, `C10_first_order_wrapping` |
| C11 | `SpatialDiff2orderDecodeIterator` | induction; exact overflow condition in Checked mode | `C11_second_order_octets`, `C11_second_order_wrapping`, `C11_second_order_checked`, `C11_small_values_fit` |
| C12 | `rleunpack`, `run_length::decode` | induction over runs, digits in base LNGU; error bound of two roundings (Flocq) with a kernel-computed check of the 77 powers of ten | `C12_roundtrip`, `C12_wide_codes_panic`, `C12_sixteen_bits_release`, `C12_values` |
| C13 | the same | case analysis of the decoder against the specification's outcome | `C13_decode_exact` |
| C14 | the same, loops with fuel | fuel adequacy / divergence for every fuel | `C14_terminates` |
| C15 | `SimplePackingDecodeIterator` over SpecFloat | Flocq: one rounding per operation, error analysis with explicit constants | `C15_simple_packing`, `C15_accuracy`, `C15_ordinary_in_reach`, `C15_zero_is_reference`, `C15_complex_values`, `C15_first_order_values`, `C15_second_order_values`, `C15_extreme_scale` |
| C16 | the same | monotonicity of rounding | `C16_simple_monotone` |
| C17 | the zero-width branch | structural | `C17_constant_field` |
| C18 | `Grib2SectionStream`, `SectionReader` | stream invariant; independent tiling predicate (Spec/ReaderS) | `C18_table_sound`, `C18_table_complete`, `C18_positions` |
| C19 | `goto_next` window loop | window lemma, least occurrence | `C19_first_magic` |
| C20 | sources with any read schedule | simulation between any schedule and full reads | `C20_short_reads_truncate`, `C20_errors_same`, `C20_crash_same`, `C20_read_exact`, `C20_short_read_silent` |
| C21 | the stream in both modes | exact characterisation of the crashing step | `C21_crash_iff`, `C21_crash_only` |
| C22 | loops with fuel | decreasing measure / coinductive-style witness for every fuel | `C22_read_terminates`, `C22_sections_terminate`, `C22_endless` |
| C23 | `Submessage*Stream`, validator | simulation with a grammar (Spec/ParserS) | `C23_accepts_grammar`, `C23_index_accepts_grammar` |
| C24 | the same | invariant of the cached sections | `C24_submessages` |
| C25 | the same | exhaustive case analysis of the stopping step | `C25_error_ends`, `C25_exhaustive` |
| C26 | both streams | simulation relation | `C26_index_follows`, `C26_value_follows` |
| C27 | `SubmessageIterator` and the `RefCell` borrow flag | history induction against a cursor over a list | `C27_iteration`, `C27_calls`, `C27_size_hint`, `C27_bound` |
| C28 | the borrow flag | history induction | `C28_exclusive` |
| C29 | the index stream's section 8 handling | invariant | `C29_end_section` |
| C30 | `get_templates` | sorted, duplicate-free, complete insertion | `C30_templates` |
| C31 | `read_sect_payload_as_slice` | seek+read lemma for any cursor state | `C31_reread`, `C31_sizes`, `C31_headers` |
| C32 | `GridPointIndexIterator`, `ScanningMode` | closed form of the state after k steps, bijection | `C32_indices`, `C32_size_hint` |
| C33 | the same | state after any number of steps | `C33_no_rows`, `C33_empty_rows` |
| C34 | `ij`/`latlons` of all grids | case analysis; shape and scanning mode from the octets of section 3; the iterator by induction over the points (RunX) | `C34_ij`, `C34_ij_octets`, `C34_ij_errors`, `C34_latlons`, `C34_latlons_mismatch`, `C34_points` |
| C35 | `LatLonGridDefinition` over SpecFloat | Flocq error bounds for evenly spaced values | `C35_latlons` |
| C36 | the same | float facts, exact panics | `C36_single`, `C36_empty_panics`, `C36_overflow_panics` |
| C37 | `ScanningMode::has_unsupported_flags` | bit reasoning | `C37_ij`, `C37_regular`, `C37_projected` |
| C38 | section body readers | octet-slice lemmas | `C38_accessors`, `C38_short_payloads` |
| C39 | `GridDefinitionTemplateValues::try_from` | octet-slice lemmas, exact lengths | `C39_parsed`, `C39_not_supported`, `C39_truncated_panics`, `C39_shape` |
| C40 | `ProdDefinition` | per-template tables against the WMO layout in Spec/ProductS | `C40_parameter`, `C40_generating_process`, `C40_generating_process_wrong`, `C40_forecast_time`, `C40_forecast_time_44`, `C40_fixed_surfaces` |
| C41 | `FixedSurface` | arithmetic + Flocq | `C41_missing`, `C41_value`, `C41_missing_value` |
| C42 | `ForecastTime::from_numbers` | finite enumeration of all codes | `C42_units`, `C42_no_collisions` |
| C43 | `Parameter` | arithmetic | `C43_code`, `C43_injective`, `C43_identical` |
| C44 | `create_date_time`, chrono by its documented contract | calendar in Spec/FieldsS | `C44_ref_time` |
| C45 | reader and parser composed | induction over messages (Spec/Layout) | `C45_files` |
| C46 | reader, parser, all decoders composed | composition of C04-C45 | `C46_file`, `C46_decode`, `C46_decode_run_length` |
| C47 | dispatch | case analysis, refusals iff; image libraries are parameters | `C47_bitmap_indicator`, `C47_refused`, `C47_only_refused`, `C47_dispatch_refused`, `C47_codec_refused` |
| C48 | decoders on arbitrary octets | exact panic conditions | `C48_simple`, `C48_no_lazy_panic`, `C48_complex`, `C48_truncated`, `C48_zero_groups` |
| C49 | `CliMessageIndex`, `find` | induction over strings | `C49_index`, `C49_refused`, `C49_find` |
| C50 | `write_output` | induction over values; encoding = IEEE bits (Flocq) | `C50_binary` |
| C51 | `gen/src/lib.rs` code ranges, look-up | list reasoning | `C51_range`, `C51_no_range`, `C51_sound`, `C51_complete`, `C51_sparse` |
| C52 | `jpeg2000/ext.rs` callbacks, sizes | history induction | `C52_sizes`, `C52_reads`, `C52_reads_unique` |
| C53 | `compute_gaussian_latitudes`, libm a parameter; the recurrences are written over an arbitrary arithmetic, taken at binary64 and at the reals | bounded search by fuel, structural; for the exact step, derivative of the three-term recurrence by induction on the degree (Coq Reals) | `C53_root_search`, `C53_count`, `C53_values`, `C53_newton`, `C53_overflow` |
| C54 | `SubMessage` accessors | octets of the file under each section | `C54_bodies`, `C54_parameter` |
| C55 | `GaussianGridDefinition`, libm a parameter | structural, any libm; degrees: Flocq error bounds, pi enclosed by Machin's formula (rational partial sums) | `C55_points`, `C55_degrees`, `C55_ignores_latitudes` |
| C56 | Lambert and polar stereographic, projection a parameter | structural, any pointwise projection; units: Flocq error bounds, pi as in C55 | `C56_units`, `C56_lambert`, `C56_polar_stereographic` |
| C57 | `EarthShapeDefinition::radii` | case analysis, exact floats | `C57_shapes`, `C57_unscaled_radius`, `C57_unscaled_axes`, `C57_scaled_wrong` |
| C58 | `codegen/src/param_codes.rs` | words and lines as relations, both directions; list reasoning on the remapper | `C58_line`, `C58_table`, `C58_codes`, `C58_conversion`, `C58_enumeration` |
| C59 | `cli list` | composition with C54 | `C59_list` |
| C60 | `cli decode` on top of the library | composition with C45-C50, C55, C56 | `C60_values`, `C60_output`, `C60_errors`, `C60_no_such_index`, `C60_bad_index`, `C60_unreadable` |
| C61 | `Grib2SectionStream` | exact characterisation of the last step | `C61_end_iff`, `C61_error_iff` |
| C62 | `from_bytes`/`from_reader` | classification of every input: the three characterisations are exhaustive | `C62_read_ok_iff`, `C62_read_crash_iff`, `C62_read_error_iff` |
| C63 | `Session`: a program as a list of operations on iterators and submessages over the shared reader and borrow flag | simulation against a specification without reader and flag (at most one submessage alive; reader invisible) | `C63_programs` |
| C64 | `Session` | projection of the C63 specification to one iterator | `C64_no_interference` |
| C65 | `Decoder.decoder_from` on any reader state | every read seeks first; exact reads do not depend on the schedule | `C65_history` |
| C66 | `Model/Tables.v`: `CodeDB::load`, `parse_file`, `OptArg::from_str` on the records the csv crate delivers | invariant of the record loop: the tables so far are the last blocks of the records so far | `C66_subtitle`, `C66_load`, `C66_blocks`, `C66_build` |
| C67 | `get_variable_name`, decimal `Display` | decimal numerals are inverted by reading them; the entries stay strictly sorted by insertion, and the keys are those of the files by induction from the last file | `C67_names`, `C67_unambiguous`, `C67_once`, `C67_order` |
| C68 | `build.rs`, both databases, `to_vec`, `lookup`, the table list of `old.rs` | induction over the files; composition with C51, C66, C67 | `C68_described`, `C68_common`, `C68_parameter`, `C68_text` |
| C69 | `Model/Cli.v`: `list_text`, `list_row`, `describe`, Display of forecast times and surfaces, padding; std's text of an `f64` is a parameter; Spec/CliS: columns, `written`, `list_line` | text = spec line by line (iff), panics by cases, no divergence; number round trip through the index parser (C50, C60) | `C69_list`, `C69_no_line`, `C69_id`, `C69_dump` |
| C70 | `list_num_lines`, `inspect_num_lines`, `starts_pager` | line feeds counted compositionally; lengths bounded by the file size (C27_bound) | `C70_list`, `C70_dump`, `C70_no_pager`, `C70_inspect` |
| C71 | `inspect_text`, `inspect_items`, `item_text`; Spec/CliS: `section_line`, `submessage_line`, `template_line` | section offsets from the tiling of the file; indices from the submessage index; templates as in C30 | `C71_inspect`, `C71_items` |
| C72 | `info_text`, `info_block`, chrono's Display of a UTC date and time by its documentation | induction over the messages of the file; the reference time as in C44 | `C72_info` |
| C73 | `decode_text`, `decode_view_text`, `decode_lines`, `show_fixed6` (std's `{:.6}` by its documentation: nearest decimal, ties to even); std's shortest decimal text of an `f32` is a parameter | rounding of the exact value of a float to six decimals (FloatP); induction over the points | `C73_text` |
| C74 | `parse_error_text`, `decode_error_text` (derived `Debug`, pretty-printed), `cli_error_text`, `report`, `command`; std's I/O error texts are parameters | case analysis; decimal texts are injective; numbers from C62 | `C74_text`, `C74_natural`, `C74_unambiguous`, `C74_reported`, `C74_unreadable`, `C74_decode`, `C74_levels`, `C74_decode_unambiguous` |
| C75 | `find_layers`, `list_layers`, `decode_layer`, `check_decoding` with the reader threaded through | induction over the submessages; as C69 for the fields, C65 for decoding one after the other | `C75_find_layers`, `C75_list_layers`, `C75_no_layer`, `C75_decode_layer`, `C75_decode_layer_missing`, `C75_check_file`, `C75_check_files`, `C75_unreadable`, `C75_check_empty` |
| C76 | `sub_latlons` on the payload of section 3, `points_iter` | composition of C39 (octets), C34 (counts) and C35/C36, C55, C56 (coordinates) for the iterator that is returned | `C76_latlon`, `C76_gaussian`, `C76_lambert`, `C76_polar_stereographic`, `C76_no_library` |
| C77 | Model/Demo.v: rows of the table as the texts of their cells, the palette in binary32 arithmetic, ImageData's check of its length (HTML standard), clicks that share the file's reader; not the page, not the events; usize of 64 bits instead of wasm32's 32. | C77_table: the rows characterised cell by cell and the panics by those of gribber list; C77_colour, C77_limits, C77_missing: the palette against real limits (Flocq); C77_pictures: every sequence of clicks gives the picture of each submessage, pixel by pixel, by decode_history (C63); a click panics iff decoding fails or the number of values is not that of the grid. | `C77_table`, `C77_colour`, `C77_limits`, `C77_missing`, `C77_pictures`, `C77_orientation` |
| C78 | Model/Device.v: the reader, the section stream, Grib2::read and Grib2SubmessageDecoder::from once more over a device = source + plan of failures; the parser is the same model (it is generic in its source) | lock-step simulation with Model/Reader.v up to the first failure that is not an interruption inside read_exact, carried through the validator and the index stream (Proofs/DeviceX.v) | `C78_read`, `C78_first`, `C78_sections`, `C78_decode`, `C78_attempts` |
| C79 | Model/Opj.v: decode_jp2 and Stream::from_bytes as a log of creations, uses and destructions of the library's objects (drops in Rust's order) beside the result; the library is an interactive process | case analysis over the places where the calls can fail, induction over the process (Proofs/OpjX.v) | `C79_released`, `C79_leak`, `C79_inside`, `C79_result` |
| C80 | Model/Word.v: the reader, the section stream, Grib2::read and Grib2SubmessageDecoder::from with the width of usize as a parameter (conversions to usize, overflow, isize::MAX as the limit of allocations) | on the states of a run that succeeds with 64 bits, every section lies inside the data (induction over the section table), so each step for 32 bits is the same; lock-step through the validator and the index stream (Proofs/WordX.v); C80_words shows that with 64 bits the model is the one of Model/Reader.v | `C80_same`, `C80_decoders`, `C80_back`, `C80_words` |
| C81 | Model/Memory.v: the reader, Grib2::read and Grib2SubmessageDecoder::from with a number of octets left for buffers; a buffer that does not fit ends the process (the call does not return) | invariant: what has been taken is at most the position in the data, as long as that is inside the data; a request that exceeds what is left is one for octets that are not there (Proofs/MemoryX.v, lock-step of Proofs/AgreeP.v); for decoders, sections 5, 6 and 7 are consecutive tiles of the file | `C81_read`, `C81_any`, `C81_tiny`, `C81_decoder`, `C81_decoder_bound` |
| C82 | Model/Memory.v: rleunpack with a number of items that fit in memory (the capacity reserved for the expected number of points and the limit isize::MAX of one allocation are not counted) | induction over the loop: the list only grows, so a step does not fit iff the final list does not (Proofs/MemoryR.v); the points of the data are those of the specification of C12 | `C82_exact`, `C82_any`, `C82_bomb` |
| C83 | Model/WordDecode.v: bit streams, simple, complex, differenced, PNG and run-length decoding and dispatch with the width of usize as a parameter (memory limits are not modelled) | a relation between iterators whose steps agree on an invariant (Proofs/NearP.v) is kept by every adaptor; positions inside the data fit into 32 bits (Proofs/WordDecodeX.v); composed with C80 in Proofs/WordDecodeF.v | `C83_file`, `C83_same`, `C83_refused`, `C83_wasm`, `C83_digits`, `C83_bitmap` |
| C84 | Model/WordGrid.v: index iterator, regular grid iterator, Gaussian latitudes, projected grids, ij() and latlons() with the width of usize as a parameter (sums below 4n+3 are not checked) | positions of the index iterator stay below the lengths, so every step agrees (invariant, Proofs/WordGridX.v); 8*n^3 fits into 32 bits up to n = 812; for 1024 rows the coefficient is infinite whatever the cosine is, and the root search never settles | `C84_ij`, `C84_pairs`, `C84_latlons`, `C84_big`, `C84_rows`, `C84_1024`, `C84_words` |
| C85 | Model/Browser.v: a click with the width of usize as a parameter (on Word.v and WordDecode.v), panics as traps, and the borrow of the reader as state: a panic while the submessage is alive keeps it. | the decoder of a submessage is a function of the file alone and never panics (decoder_spec), the grid shape does not panic if the table is shown, so no click keeps the borrow (induction over the clicks); pictures agree by C83's simulation (Proofs/BrowserX.v). | `C85_shown`, `C85_traps`, `C85_history`, `C85_held` |
| C86 | Model/Grid.v: latlon_latlons, evenly_spaced_degrees, evenly_spaced_longitudes on binary32 (Model/F32.v); nothing was added. | rounding, multiplication by a constant and division by a positive number are monotone, and so is each coordinate as a function of its index (Proofs/OrderX.v: spaced_order); a threshold of a monotone function is a single index (wrapped_order); strictness from the error bounds of C35. | `C86_order` |
| C87 | The mode parameter of every model (Model/Base.v: arith, shift_amount); nothing was added. | agreement unless the first panics is a congruence for every construct of the models (same_unless_panic through bind, loops by induction, iterators by a relation on their step functions), Proofs/ProfileP.v, ProfileD.v, ProfileG.v, ProfileT.v. | `C87_read`, `C87_sections`, `C87_session`, `C87_decoder`, `C87_values`, `C87_library`, `C87_points`, `C87_coordinates`, `C87_product`, `C87_list`, `C87_inspect`, `C87_decode`, `C87_decode_text`, `C87_examples`, `C87_demo`, `C87_tables` |
| C88 | Model/MemoryC.v: the decoder of complex packing (Complex.v, Decoder.v) with vectors of at most a given number of items; a vector that does not fit ends the process (Diverge). | decoding is written as a function of the packed group decoder and shown to keep four relations between iterators (Proofs/MemoryCP.v: does the same or stops; does the same as long as an invariant holds; at most k items), which are proved for the group iterators (Proofs/MemoryCF.v) and carried through the differencing, scaling and bitmap iterators (Proofs/MemoryCX.v); the file of the finding in Proofs/MemoryCB.v. | `C88_same`, `C88_enough`, `C88_exhausted`, `C88_bomb` |
| C89 | Model/OpjMemory.v: the number of samples that from_raw_parts is told to read, next to Model/Decoder.v, where reading more than there are is [Panic] (standing for undefined behaviour). Spec/OpjMemoryS.v: the corners and distances of the SIZ marker and the size of a component according to ISO/IEC 15444-1; that OpenJPEG allocates as much is an assumption on the library, stated as the hypothesis `decoded`. | Arithmetic on quotients rounded up: a component without subsampling has as many samples as the area, otherwise strictly fewer as soon as there are two columns or rows; the decoder either passes on exactly the claimed samples or reaches the undefined read. | `C89_full`, `C89_discarded`, `C89_outside`, `C89_times`, `C89_decoder` |
| C90 | Model/Reader.v, Model/Parser.v, Model/Context.v, Model/Decoder.v as for C17-C25, C62. Spec/LocalS.v: `repacked` says that two octet sequences differ only in octets 6 and following of sections 7 in a section table of the first one. | A section table of the first sequence is one of the second (tile by tile: all octets a tile looks at are outside the changed ones, since tables from one position agree as far as they go), and so are the places where reading ends, fails and panics; with the characterisations of C17-C21 and C62 the runs agree. | `C90_sections`, `C90_errors`, `C90_read`, `C90_decode` |
| C91 | The same model; the two files, readers and submessages are arbitrary and share only the octets of the sections in question. | Relational: the two runs of the decoder proceed in step (a relation closed under the monadic operations), each read giving the same octets; the parsed bodies are functions of the section's octets (C18). | `C91_decode`, `C91_accessors` |
| C92 | The model of reading, Model/Reader.v, Model/Parser.v, Model/Context.v. Spec/CutS.v: the beginning of an octet sequence, and cuts that go through no message. | Every entry of a section table of the beginning is one of the whole (and conversely up to where the table ends before the cut); two tables of the same octets are comparable; messages, submessages and their indices are determined by the sections (unique readability of the grammar); values by C91. | `C92_sections`, `C92_crash`, `C92_errors`, `C92_any`, `C92_read`, `C92_short_reads`, `C92_decode` |
| C93 | The model of reading, Model/Reader.v, Model/Parser.v, Model/Context.v. Spec/JoinS.v: sections, submessages and their records shifted. | Induction on the section table: the table of the first file is one of the concatenation, that of the second file, moved, too; every message ends within its file, so that no length overflows; the first section after the join is found if no message seems to begin in between. The messages, submessages and indices are those of the joined table (unique readability); values by C91/C92. | `C93_read`, `C93_first`, `C93_second` |
| C94 | The model of reading, Model/Reader.v, Model/Parser.v, Model/Context.v. Spec/JoinS.v: sections, submessages and their records shifted (by a negative number for the sections of the message). | The table of the message in the file is, moved back, a table of the octets alone (tile by tile, Proofs/SplitX.v), ending where section 0 says; the file up to the end of the message is the octets before it joined with those of the message (C93), and a beginning of the whole file (C92); the numbers of the submessages tell the messages apart. | `C94_read`, `C94_decode` |
| C95 | The model of reading, Model/Reader.v, Model/Parser.v, Model/Context.v, where a source has a position. Spec/JoinS.v: sections shifted. | The section table of the octets from p on, shifted by p, is one of the whole from p on, and back (Proofs/JoinX.v, SplitX.v); the indices are determined by the table; values by C91. | `C95_there`, `C95_rest`, `C95_decode` |

The theorems are in `rocq/theories/Props/P01..P33`, one file per area, in the order of the table of contents there.

## 4. Trusted base

**Checker.** The Coq 8.16.1 kernel, including its `vm_compute` reduction machine (used for concrete examples and finite
sweeps such as all octet values). No plugin, no extraction, no `native_compute`.

**Axioms.** None of our own. `Print Assumptions` follows every theorem in Props. 277 theorems are closed under the
global context. The theorems that mention real numbers (through Flocq and Coq's `Reals`) use standard library
axioms only:

* `ClassicalDedekindReals.sig_forall_dec`, `ClassicalDedekindReals.sig_not_dec`, `Classical_Prop.classic`,
  `FunctionalExtensionality.functional_extensionality_dep`: `C12_values`, `C15_simple_packing`, `C15_accuracy`, `C15_zero_is_reference`, `C15_complex_values`, `C15_first_order_values`, `C15_second_order_values`, `C16_simple_monotone`, `C17_constant_field`, `C41_value`, `C35_latlons`, `C36_single`, `C55_points`, `C55_degrees`, `C56_units`, `C56_lambert`, `C56_polar_stereographic`, `C57_shapes`, `C57_unscaled_radius`, `C57_unscaled_axes`, `C46_file`, `C46_decode`, `C50_binary`, `C60_values`, `C60_output`, `C76_latlon`, `C76_gaussian`, `C76_lambert`, `C76_polar_stereographic`, `C77_colour`, `C77_limits`, `C77_pictures`, `C86_order`.
* `ClassicalDedekindReals.sig_forall_dec`, `FunctionalExtensionality.functional_extensionality_dep` only: `C15_ordinary_in_reach`, `C15_extreme_scale`, `C53_newton`, `C57_scaled_wrong`, `C73_text`.

**The reading of the source.** The model is a hand translation of /repo; each definition cites file and lines. The
properties are proved about this translation.

*Modelled:* `src/helpers.rs`, `src/reader.rs`, `src/parser.rs`, `src/context.rs`, `src/datatypes/*`, `src/error.rs` (as data),
`src/decoder.rs` and `src/decoder/**`, `src/grid.rs` and `src/grid/**`, the look-up part of `src/codetables/*` and the
code `codes` table type, `cli/src/cli.rs`, `cli/src/commands/decode.rs`, `cli/src/commands/{list,inspect,info}.rs` (text and layout), `describe` and `Display` of the values they print,
`gen/src/*.rs` (from the records on), `build.rs`, `codegen/src/param_codes.rs`, `cli/src/main.rs` (exit status and error text), `examples/*.rs`, table, palette and pictures of `demo`.

*Not modelled:* `Display` of errors that contain strings of other libraries, std's shortest decimal text of floats (a parameter of the theorems), the pager itself, progress messages on standard error, `cli` completions and argument parsing by
clap, the csv crate, the Rust syntax of generated files, the page and the events of `demo`, `cookbook.rs` (documentation),
the contents of the WMO tables.

*Simplifications.*

* `usize` is 64 bits (C80, C83 and C84 follow reading, decoding and grid points where it has 32 bits); lengths of in-memory sequences and iterator positions that count them do not overflow.
* Memory is unlimited: `Vec::with_capacity`/`vec![0; n]` with a huge length is a huge list, not an abort (C81, C82 and C88 say how much is asked for).
* I/O: a source is a byte string with a position and, where C20 is concerned, a schedule of read sizes (each `read` returns
  between 1 and the requested number of octets while there are any); other I/O errors are in Model/Device.v only (C78); elsewhere they do not occur. `BufReader` and `SeekableGrib2Reader`
  are seen through `Read + Seek`. After a failing `read_exact` the position of the source is the end (what `Cursor` does
  up to 1.80 is leave it unspecified); no theorem depends on it since the streams stop there.
* Floating point operations are IEEE 754 round-to-nearest-even (SpecFloat). `f32::powi`/`f64::powi` are the repeated multiplication of
  compiler-rt's `__powisf2`/`__powidf2`; Rust leaves their precision unspecified. There is one NaN: sign and payload of NaNs are not
  modelled and NaN is written as 0x7fc00000.
* `libm` functions (sin, cos, asin, ...), PROJ, the OpenJPEG library and the png crate are universally quantified parameters
  (any function / any result), so theorems mentioning them hold for every implementation with that interface.
  chrono's `Utc.with_ymd_and_hms(..).single()` is modelled by its documented contract (Some for exactly the valid civil instants).
* `regex` is modelled by the language of the pattern used.
* Concurrency: the library is single-threaded (`RefCell`, not `Sync`); the only shared state is the reader's borrow flag, modelled in Context.v.

## 5. Findings

Each of these is a theorem (or a clause of one) about the model; the property is stated in the exact form that holds.

* **C05**: from 8 grid points on, the padding bits at the end of the bitmap are decoded as extra items, so the count is right exactly if there are fewer than 8 points or no padding bits.
* **C06**: from the 8th item on the hint is too large.
* **C08**: with overflow checks, constant groups panic when group references have 31 bits or more, and groups of 32-bit values always.
* **C12**: if it is not (n < 8), the padding is taken for one more code and the data are rejected; codes of 16 bits or more panic in builds with overflow checks and use a wrong base in builds without. Level 0 is NaN, level l > 0 the l-th entry of the level table times 10^-D, to a relative 2^-20, for decimal scale factors D of 0 to 38.
* **C15**: binary scale factors beyond these decode to wrong values (E=128: NaN for x=0; E=-128: x is ignored).
* **C20**: the cut is silent; if the first read returns fewer than 16 octets no section at all is reported and no error.
* **C22**: without overflow checks, the bare section stream (not from_reader) reports a section 7 of length 0 for ever.
* **C27**: nth therefore does not count from the current position as Iterator::nth should, and size_hint underflows (panics, or is huge) after nth past the end.
* **C29**: every other submessage of a multi-submessage message refers to the first section of the file instead.
* **C33**: a grid of empty rows is accepted by ij() if zero points are declared, its size hint is 0, and it yields 2^64-1 points, all outside the grid.
* **C36**: the coordinates along a direction with a single point are NaN; a single row scanned in +j direction is refused when its two latitudes agree; grids without points and latitudes that differ by 2^31 or more panic with overflow checks.
* **C39**: a section that ends before its template does makes the program panic.
* **C40**: templates 4.47, 4.83, 4.254 show octet 12 as generating process; in template 4.44 the forecast time takes two octets of the first fixed surface; a section that ends before the forecast time or the surfaces makes the program panic.
* **C49**: a well-formed index with a number of 2^64 or more makes the program panic instead.
* **C51**: a table with a gap before a described code becomes empty, and codes before the last described one that have no description are looked up as an empty description.
* **C52**: at the end the callback returns 0, not the (size_t)-1 by which OpenJPEG recognizes the end of a stream.
* **C53**: for more rows an intermediate product overflows (panic with overflow checks).
* **C55**: the latitudes of the first and last grid point and N in the template are ignored, so a regional Gaussian grid is given global latitudes.
* **C57**: for a non-zero scale factor the scale is applied with the wrong sign.
* **C58**: a line listed twice loses its variant although the conversion refers to it.
* **C59**: if section 5 declares more points than section 3 the program panics (overflow checks) or shows a number near 2^32 (release).
* **C66**: an earlier, separate block of records for the same discipline and category is lost.
* **C69**: more values than points are shown as about 2^32 missing points by a build without overflow checks.
* **C75**: list_layers panics if some submessage has a product definition template without forecast time or fixed surfaces.
* **C79**: if the library cannot create a stream, the user data are leaked.
* **C81**: a file of 21 octets makes the reader take any amount below 4 GB that it names before the missing data are noticed.
* **C85**: every click on a submessage with JPEG 2000 data and a known grid shape traps.
* **C86**: the last latitude can lie beyond the pole, rows a microdegree apart coincide, and equal first and last longitudes yield a whole turn westward if flag 1 says eastward.
* **C88**: a group of width 0 takes 8 octets for each of the points it claims (up to 2^32 - 1) although none of its values is in the data: a file of 204 octets that declares one point takes 34 GB to decode to one value.
* **C89**: the number of samples read is taken from the image area and never compared with the component, so an image whose component is subsampled in the code stream (XRsiz or YRsiz of 2 or more) is read beyond its end - undefined behaviour through the safe interface - by a factor that the file chooses, up to 65025.
* **Stream after an error**: once the section stream has reported a wrong GRIB version it can be polled again and then gives
  sections with wrong offsets; `from_reader` does not do that (C25, C62).
* **Section 7 padding**: simple packing yields an item per complete bit field of section 7, so that padding octets become extra values
  (C03, C05); the CLI writes them too (C60).
* **C41**: `value()` ignores that a scale factor may be missing; **C43**: originating centre and table version do not take part in the comparison.
* **C48**: truncated section 5 panics at once; truncated group data panic only while iterating; the CLI panics for a truncated
  grid section even if binary output, which needs no grid, was asked for (C60).
* **C14/C48**: run-length packing with zero bits per value never returns.
* **C66**: two separate blocks of records for one discipline and category in a CSV file: the second one replaces the first one.
* **C69**: gribber list panics (or shows about 2^32 missing points) for a submessage with more values than grid points.
* **C70**: gribber list -d predicts 10 lines per submessage but prints 18; it panics for a file without submessages (overflow checks), or
  starts a pager for nothing; gribber inspect predicts one line too few.
* **C75**: the example list_layers panics for product definition templates without forecast time or fixed surfaces; the width its format string
  asks for is ignored by ForecastTime's Display, so its columns are not aligned.
* **C77**: the demo colours missing values like the coldest temperatures, ignores the scanning mode, and panics when the decoder returns padding items (C05).
* **C12**: the decimal scale factor of run-length packing is read without a sign: with a negative factor every value becomes 0.
* **C78**: the reads of section 0, of section headers and of the end section do not repeat a call that was interrupted (EINTR): from_reader then
  fails with a read error although trying again would do; the reads of payloads (read_exact) do repeat it.
* **C79**: if opj_stream_default_create returns NULL, the boxed user data of the stream are leaked (the NULL stream itself is only noticed by opj_read_header).
* **C80**: on 32-bit targets (wasm32) the upper half of the total length of a message is ignored. A data section that claims to be shorter than its
  own header makes a 64-bit build without overflow checks seek backwards and read the next section from inside that header; a 32-bit build skips four gigabytes instead.
* **C81**: buffers are allocated with the size a section header names before anything is read: 21 octets of input can make the reader allocate just under
  4 GB (and zero them). Decoding complex packing likewise allocates a vector of the length a group names (up to 2^32 items) before its values are read.
* **C82**: run-length packed data of 9 octets (00 ff ff ff ff ff ff ff ff, 8 bits, maximum value 0) make rleunpack build 255^8 items before it notices
  that their number is not the expected one; comparing while decoding would need no more than the expected number.
* **C83**: on 32-bit targets `exp *= lngu` in rleunpack overflows for runs with more digits than 32 bits can weigh, also if they are zeros: data that a
  64-bit build decodes then panic (overflow checks). In a 32-bit build without overflow checks the number of bits of a group can wrap to 0, so that a
  field whose data are missing is decoded to no values where a 64-bit build panics; `bitmap_len * 8` overflows for more than 2^32 - 8 points.
* **C84**: `8 * n * n * n` in legendre_roots_iterator overflows on 32-bit targets from 813 rows on: a panic with overflow checks; without them it is 0 for
  1024 rows, and latlons() of every N512 Gaussian grid fails. `size_hint` of the index iterator wraps for 2^32 points or more, so ij() accepts e.g. a
  grid of 65536 x 65537 points that declares 65536 points.
* **C85**: in the demo, a click on a submessage with JPEG 2000 data always traps, since template 5.40 is not supported on wasm32 and the error is unwrapped.
* **C86**: the last latitude of a latitude/longitude grid is computed, not copied: 22 rows from pole to pole end at 90.000015 degrees; rows a microdegree
  apart can coincide; equal first and last longitudes with flag 1 off (eastward) are spaced over a whole turn westward.
* **C88**: a group of width 0 in complex packing is built as a vector of its length (8 octets an item) before any point of it is asked for: a file of
  204 octets that declares one point takes 34 GB to decode.
* **C89**: the samples of a JPEG 2000 image are read with `from_raw_parts(data, width * height)` of the image area, which is not compared with the size of the
  component: a code stream with XRsiz or YRsiz of 2 or more makes it read beyond the component's samples (undefined behaviour through the safe interface).
