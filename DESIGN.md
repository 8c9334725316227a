# Formal model of meteosatlib: design and trusted base

The development is Rocq/Coq 8.16.1 under `rocq/theories` (logical prefix `Verif`).
The code in /repo is read as text and never built; nothing ties the model to it but the
`file:lines` citations beside each definition.

## Trusted base

1. Coq's kernel (the development is re-checked by `coqchk`; no check of the kernel is switched off,
   there are no plugins, no `Admitted`, no axioms of our own, no functors or module types).
2. The axioms that `Print Assumptions` lists. They all come from the standard library and only
   enter through the real numbers:
   * `ClassicalDedekindReals.sig_forall_dec`, `ClassicalDedekindReals.sig_not_dec` (construction of the reals),
   * `FunctionalExtensionality.functional_extensionality_dep`,
   * `Classical_Prop.classic` (used by lemmas of Reals and Flocq).

   Every theorem not named in the table "Axioms" below is `Closed under the global context`.
   `coqchk` also lists the constants of sealed modules of the libraries that are loaded
   (`Coq.Reals.Rdefinitions.*`, `Coq.ssr.ssrunder.Under_rel.*`); no theorem depends on others than the four above.
3. The transcription of the C++/C code into Gallina (files `*Model.v`), which is a reading of the source.
   Its simplifications are listed under "What is modelled" and again at the head of each file.
4. The specifications in `*Spec.v` and in the statements of `*Props.v`: whether they say what the English
   claims of `properties.jsonl` say.

Libraries used: the standard library, and Flocq (`Flocq.Core`: rounding to 24 and 53 bits) in
GeoFloat, StretchFloat, Pix, Grib, Nc and MsgCuc files.

## File layout

For each area `X`:

* `XModel.v`  – transcription of the functions, with citations. No proofs.
* `XSpec.v`   – (where useful) a specification written without the model's helpers.
* `XProofs.v` and other `X*.v` – lemmas.
* `X*Props.v`  – the property theorems, `Print Assumptions` after each, and `Example`s showing a non-trivial
  case that meets the hypotheses.

`Base.v` holds the outcome type and byte and list helpers, `BaseFacts.v` facts about them,
`ScanModel.v` sscanf(3) with integer fields (shared by several drivers).

## Modelling conventions

* Outcomes. `Ok v` normal return; `Throw` a C++ exception with an object (catchable);
  `Terminate` a bare `throw;` with no active exception or `abort` (std::terminate);
  `UB` undefined behaviour (out-of-bounds access, null dereference, signed overflow, use after free,
  conversion out of range); `Loop` provable non-termination.
* `size_t`/`unsigned` arithmetic that can wrap is written with an explicit `mod 2^32`/`mod 2^64`
  (LP64 host; the HRI floats treat both sizes of `long`). Elsewhere `Z`, `N`, `nat` are unbounded.
* Bytes and characters are `Z` in 0..255; strings are lists of them (std::string may contain NUL).
* ctype functions are those of the C locale. Alignment and aliasing rules are not modelled.
* Floating point: exact rationals or reals where the claim is about the formula, rounding to 24/53 bits with
  unbounded exponents where the claim is about rounding, executable IEEE doubles (`SpecFloat`) for the finite
  tables of wave lengths. Which of them is said at the place and in the table below.
* External libraries (GDAL, NetCDF, ecCodes, glob(3), decompressors, file system) are parameters of the model
  or an explicit small model; the theorem quantifies over all of them or states what it needs.
* Where the unchanged code violates a property, a theorem `…_refuted…` shows it, for all bad inputs where possible,
  and a `…_partial` theorem states the strongest true version; the MANIFEST marks the claim `partial`.

## What is modelled

| files | code in /repo | simplified or left out |
|-------|---------------|------------------------|
| Machine | msat/hrit/MSG_machine.cpp; times of MSG_time_cds.cpp | |
| Header | msat/hrit/MSG_header.cpp, MSG_header_*.cpp | printing is in HeadList |
| DataAccess | msat/xrit/dataaccess.{h,cpp}; `IReadBlock` of gdal/xrit/rasterband.cpp | decompression is a loader oracle |
| FileAccess | msat/xrit/fileaccess.cpp | glob(3) for one directory listing and `?`, `*` |
| Facts | tables and conversions of msat/facts.cpp, MSG_spacecraft.h, MSG_channel.h | |
| Ini | msat/iniparser.c | allocation succeeds; getdouble |
| String | msat/utils/string.{h,cc} | printf wrappers, regular expressions |
| Ids | msat/omtp-ids/*.cc | eofbit and failbit are one flag |
| Native, NativeText | msat/msg-native/*.cpp | the level 1.5 header is in Layout |
| HriImage, HriFloat, Hri | msat/hri/*.cpp | names, dates and units of images; decryption of keys |
| Omtp | msat/openmtp/*.cpp | rounding of decimal floats |
| Geo, GeoFloat | msat/gdal/dataset.cpp, points.h | rationals; GeoFloat has the double rounding of pixel conversions |
| Tool, StretchFloat | tools/image.cpp, tools/msat.cpp, msat/gdal/gdaltranslate.cpp | metadata, ground control points, colour tables, writing of the outputs; StretchFloat has 24 bit rounding |
| Proxy, Sun | gdal/reflectance/*.cpp, gdal/utils.cpp, gdal/xrit/xrit.cpp, angles of facts.cpp | addresses, projections and metadata lists are numbers; real arithmetic with a final rounding to float |
| Pix | pixel sizes and factors of facts.cpp | real arithmetic; the apparent size with 53 bit rounding |
| Grib | gdal/grib/utils.h, grib.cpp | grib_api is a record of operations; messages and trace texts |
| Nc | gdal/netcdf/*.cpp | NetCDF is a file that keeps what is put in; texts that do not come back |
| Layout | read_from of the level 1.5 prologue, native header and trailer records (MSG_data_*.cpp, MSG_native_header.cpp) | a read is a path, an offset and a width; decoding of the bytes is Machine |
| Calib | MSG_data_RadiometricProc.cpp, gdal/xrit/rasterband.cpp, OpenMTP_image.cpp, HRI_image.cpp, CalibratedRasterBand | exact reals with infinities and NaN |
| Msg | MSG_data.cpp and the data fields other than level 1.5 records; time texts | decompression library and printing of level 1.5 records are parameters |
| Db1 | tools/thornsds_db1/thornsds_db1.cpp, db1_to_netcdf.cpp | reading of the description, sizes and calibration; values and geometry put in the NetCDF file; writing of bytes is the library's |
| Conv | tools/hrit/XRIT2NetCDF.cpp, XRIT2Image.cpp, MSG_channel.cpp, MSG_spacecraft.cpp | command line options and image libraries |
| OmtpNc | tools/openmtp/OpenMTP_to_NetCDF.cpp | command line; writing of bytes |
| HriNc | tools/hri/HRI2NetCDF.cpp, msat/hri/HRI_subframe_identification.cpp | command line; writing of bytes |
| Dump | drawing and scaling of text images in tools/hrit/xritdump.cpp | printing of headers |
| Xrit | opening of HRIT products: scan of dataaccess.cpp, gdal/xrit/dataset.cpp, rasterband.cpp (init) | the file system is a function from paths to bytes; projection texts |
| IdsTool | tools/omtp-ids/OpenMTP-IDS_to_pgm.cc, OpenMTP-IDS_sector.cc | standard output; doubles have 53 bits and an unbounded exponent |
| IdsCopy | tools/omtp-ids/OpenMTP-IDS_write.cc | standard output; memory exhaustion; when the system refuses bytes is a parameter |
| Sys, SysTree, SysOwn | msat/utils/sys.cc: read/write with retry, whole files, atomic replacement, links, file types, which, elapsed time, rmtree; ownership of MMap and ManagedNamedFileDescriptor | the kernel's answers are parameters; permissions of directories |
| SysIter, SysScope | msat/utils/sys.cc: Path::iterator, OverrideRlimit, PreserveFileTimes | answers of readdir and rights of the process are parameters; two iterators on one stream |
| Progress | msat/Progress.{h,cpp} | handlers other than the two there are; depth below 2^31 |
| Subproc | msat/utils/subprocess.cc | descriptor tables and wait statuses; fork and exec themselves, signals, threads |
| Term | msat/utils/term.cc | the bytes written; what a terminal makes of them is a small separate specification |
| NcOpen (theorems on Nc) | gdal/netcdf/netcdf.cpp on files not made by this library | as for Nc |
| TestRun | msat/utils/{tests,testrunner}.{h,cc}, tests-main.cc | what tests and hooks throw is data; names, patterns and counters; times and colours of the output are left out |
| TestStats | msat/utils/testrunner.cc:42-48, 123-133, 241-271, 333-443 | times of tests are data; colours, the text of times from one second on and sorting are parameters; texts have no zero bytes |
| TestMarks | msat/utils/testrunner.cc:26-35, 66-198, 306-331, msat/utils/tests.cc:31-44, 596-710, msat/utils/tests-main.cc | the times of tests and the text of times from one second on are parameters; what the tests themselves write is left out; texts have no zero bytes |
| View | tools/msat.cpp:93-204 (what --view and --viewmore write) | the answers of the dataset and its bands are parameters, and so is the text of a double; null pointers returned by GDAL for texts are left out |
| IdsList | tools/omtp-ids/OpenMTP-IDS_debug.cc and the debug functions of msat/omtp-ids | char is signed; the texts of errors are a parameter |
| OmtpInfo | tools/openmtp/OpenMTP_info.cc and the operators << of msat/openmtp | how numbers with fractions are printed is a parameter; standard error is left out |
| Db1List | operator << of msat/thornsds_db1/thornsds_db1.cpp and the accessors only it uses | how a float is printed is a parameter; of the stream only whether it is good |
| ProdList | msat/hrit/MSG_data_ImageProdStats.cpp, msat/hrit/MSG_data_TimelinComple.cpp: reading and operators << | fields of one kind and arrays are lists in the order of the file; how a float is printed is a parameter |
| DescList | msat/hrit/MSG_data_ImageDescription.cpp, msat/hrit/MSG_data_GeometricQuality.cpp: reading and operators << | as ProdList; enumerations are numbers |
| NavList | msat/hrit/MSG_data_NavigExtrResult.cpp: reading and operators << | as DescList; the text of a time is that of Msg |
| HeadList | msat/hrit/MSG_header.cpp:227-247 and the operators << of msat/hrit/MSG_header_*.cpp | how a float is printed is a parameter |
| CodeText | msat/hrit/MSG_*.cpp, the 30 functions from a coded value to its text | a code out of the range of its enumeration (undefined from C++17 on) is taken as any other number; the name of the specification after a text of MSG_filetype is left out |
| TestAssert | the checks on texts, paths and file contents of msat/utils/tests.cc | regular expressions are an oracle, files their contents; the texts of failures are left out |
| MsatCmd | tools/msat.cpp: parse_cmdline, --around, --copymd | getopt_long and the general options of GDAL; fractions are read by an oracle and exact |
| NativeImage | MSG_native::pgmdump of msat/msg-native/MSG_native.cpp; tools/msg-native/native2Image.cpp | ImageMagick is a set of functions on pictures; the PGM format is a reader of its own |
| Db1Image | tools/thornsds_db1/db1_to_image.cpp | ImageMagick as above; the directory as in Db1 |
| SysTemp | msat/utils/sys.cc: stat and its defaults, unlink_ifexists, rename_ifexists, File::mkstemp, Tempfile, ofd_setlk, ofd_setlkw | stat, unlink, rename and mkstemp of the kernel written down without permissions; the answers of fcntl are a parameter |
| SysDir | msat/utils/sys.cc: Tempdir, mkdtemp, Path::rmtree with the path of the object, openat, faccessat, fstatat, lstatat, unlinkat, mkdirat, rmdirat, symlinkat | the *at calls of the kernel written down without permissions and without creating files; what was deleted before a dropped exception is not told |
| XritCmd | tools/hrit/XRIT2Image.cpp, tools/hrit/XRIT2NetCDF.cpp: options, the files read, the picture of the former | options in the order getopt_long gives them; directories without wildcards; what read_from gives for a path, strtod, normalize, scale, composite and the reading of pictures are parameters |

Not modelled: times and statistics printed by msat/utils/testrunner.cc, the other checks of msat/utils/tests.{h,cc},
printing (`operator<<`) of the level 1.5 records, `MSG_data_image_mpef`, the command lines of
tools/{hrit,hri,openmtp,msg-native,thornsds_db1}/* and the bytes written by their image and NetCDF libraries,
tools/omtp-ids/OpenMTP-IDS_debug.cc, the registration of the drivers with GDAL,
examples and tests.

## Method per area

* Caches, dictionaries, image stores, ownership: step functions on explicit states, invariants over every history,
  refinement to a finite map or a row map.
* Parsers: an independent encoder or grammar in `*Spec.v`; round trip in both directions, acceptance exactly
  characterised, truncation handled by induction over the layout.
* Arithmetic: `lia`/`nia` over Z, `field`/`lra` over Q and R, Flocq error bounds for rounding.
* Tables: finite case analysis, then for all integers or strings.

The theorems are tested against wrong programs: `seeded/LOG.jsonl` holds one record per edit of a definition,
with the theorems that failed, and the theorems that were tightened or added because of a survivor.
`theorems_failed` is computed from the proofs: the first broken proofs are left open and every theorem that
`Print Assumptions` then shows to rest on one of them is listed. A theorem in the list therefore no longer has a proof;
it need not be false, since it may share a lemma with the theorem whose claim the edit breaks. `first_broken_proofs`
holds the proofs that failed themselves. Records with a `note` about type checking or building say nothing about theorems.

## Axioms

Theorems that depend on axioms, by the set `Print Assumptions` gives. D = `sig_forall_dec`, N = `sig_not_dec`,
F = `functional_extensionality_dep`, C = `classic`.

| axioms | theorems |
|--------|----------|
| D | C127_idempotent, C145_time, C146_words, C146_refuted_satellite, C142_refuted_small_file, C142_refuted_start, C151_minute_partial, C151_refuted_summer, C153_names_partial, C153_refuted_visible, C148_time, C148_refuted_title, C149_names, C205_refuted_few |
| D F | C124_refuted_channels, C124_refuted_bits, C126_header_coefficients, C127_values_partial, C127_bounds_partial, C127_refuted_bounds, C127_refuted_nodata, C113_refuted_nan, C115_refuted_open, C57_default, C57_unsigned, C155_opened_partial, C155_missing_files, C155_refuted_wrong_prologue, C156_rows, C156_hrv_rows, C157_corner_partial, C157_refuted_centre, C157_hrv_corner_partial, C157_refuted_hrv_rows, C218_radiance_partial, C218_refuted_thermal, C218_refuted_channels |
| D N F | C152_refuted_position, C105_direction, C105_range, C105_rotation, C105_noon, C105_band |
| D N C F | C123_temperature, C123_positive, C123_no_radiance, C123_increasing, C124_values_partial, C124_refuted_samples, C125_meteosat7_partial, C125_increasing, C125_refuted_other_satellites, C126_own_coefficients_partial, C126_refuted_xw, C126_refuted_goes_wv, C126_infrared_tables, C126_visible, C126_refuted_gms_visible, C129_zenith_partial, C129_refuted_negative, C144_refuted_position, C145_reopened_partial, C145_refuted_orientation, C142_converted_partial, C142_refuted_position, C54_double_round_trip, C110_refuted_trace, C112_read_back_partial, C112_refuted_corner, C113_pixels_partial, C113_all_missing, C113_refuted_collision, C114_refuted_hrv, C115_refuted_sources, C116_refuted_old_file, C116_written, C152_reopened_partial, C152_refuted_sampled, C153_one_file, C160_sector_partial, C160_refuted_start, C161_refuted_unreadable, C161_refuted_small, C137_cuc_partial, C137_refuted_cuc, C117_copy_partial, C117_refuted_south_up, C117_refuted_lat_lon, C117_refuted_nameless, C117_refuted_dropped, C117_refuted_unreadable, C119_copy_partial, C119_refuted_later, C119_refuted_projection, C179_open_partial, C179_not_opened, C179_refuted_no_image, C179_refuted_sizes, C57_round_trip_partial, C57_refuted_upper, C118_pixels_partial, C148_reopened_partial, C148_refuted_sampled, C148_refuted_position, C108_round_trip, C109_nominal, C109_other_partial, C109_refuted_small, C109_seviri, C60_float_partial, C60_refuted_float_max, C60_refuted_float_nan, C60_refuted_float_constant, C104_exact_partial, C104_visible, C104_order, C104_band_partial, C104_refuted_clamp, C104_refuted_space, C104_refuted_longitude, C106_range, C106_order, C106_value_partial, C106_season, C106_refuted_night, C107_range, C107_order_partial, C107_refuted_order, C107_value_partial, C219_listing, C219_program, C219_refuted_missing, C217_netcdf |

## Claims

The theorems of each claim are in MANIFEST.json.

| id | status | claim | what is proved, what is refuted |
|----|--------|-------|------------------|
| C01 | proved | Segment cache is transparent | Loader is an arbitrary function (decompression and file system not modelled); second theorem lets loads fail at some moments. |
| C02 | proved | Segment cache is bounded and duplicate free | Every history, failing loads included. |
| C03 | proved | No reload inside the working set, one load per segment in a raster scan | Reads are observed through a ghost list of segment numbers. The effect of failed loads is C61. |
| C04 | proved | Row and column placement of non-HRV lines | line_read with size_t wrap-around; whole image theorem gives the bijection. |
| C05 | proved | Missing segments read as zero and nothing else changes | HRV and non-HRV. |
| C06 | proved | HRV window placement | Including an absent upper window (all fields 0). |
| C07 | proved | HRV row to segment mapping | Rows past the end deliver zeros for every table below 2^62 rows. |
| C08 | proved | Segment table does not depend on directory order | On byte streams, through the header reader of C11; prologue/epilogue and glob(3) not part of it. |
| C09 | proved | Raster row assembly | Buffers with bounds checking; calibrated samples are a finite value or NaN, only the sign of which matters. |
| C10 | proved | Big-endian field decoding | get_ui*/get_i* of MSG_machine.cpp for any field width and both host byte orders, after the byte order probe. |
| C11 | proved | HRIT header round trip | All nine secondary record kinds; encoder and expected values are an independent specification (HeaderSpec.v). |
| C12 | partial | HRIT header parsing is memory safe and terminates | Full statement is false: truncated, overlong or POLAR records, missing image structure, and int overflow are undefined behaviour; a zero-length line quality record hangs. Proved: safety for validated headers, acceptance implies tiling inside the stream, and the only hang. |
| C13 | partial | Derived header values | Holds after every successful read; for lines*columns >= 2^31 the product overflows int (undefined), refuting the largest dimensions. |
| C14 | proved | Key number classification is a partition | All key numbers 0..255. |
| C15 | proved | CDS time stamps | Short, 8 byte, 10 byte CDS stamps and CUC (scaled integer; rounding to double not modelled). |
| C16 | proved | Prologue and epilogue layout | Formats written down from the class declarations; the reads of every read_from are modelled statement by statement. Every byte of prologue, native header and trailer belongs to exactly one field, the records follow one another, and the totals are the lengths the native reader checks. |
| C17 | proved | Day of year | All years of the proleptic Gregorian calendar. |
| C18 | proved | Satellite identifiers survive HRIT conversion | All integers. |
| C19 | proved | Satellite names identify satellites | All integers and strings. |
| C20 | proved | Channel and wavelength lookups are inverse | Exact rational arithmetic for every wavelength below 1e8 (beyond int the C conversion is undefined); IEEE doubles for the values the library reports. |
| C21 | proved | Short names parse back | Also the converse: whatever is parsed in the short form spells the name. |
| C22 | proved | Segment file names parse back | Directory absent, root or any other; fields without '-' and '/'. |
| C23 | proved | A segment file is found again by its own product | glob(3) modelled for literals, '?' and '*' in one directory given by an arbitrary listing; field characters '*', '?', '[' and backslash excluded. |
| C24 | partial | Validity check agrees with the parser | Full statement is false: colons in the directory, empty ids in segment names (undefined behaviour), empty parts. Proved: parse implies isValid, and exact acceptance of the two forms. |
| C25 | proved | Padding and unpadding ids | All strings; an id of underscores only keeps one. |
| C26 | partial | Dictionary is a finite map | Finite-map refinement proved for every file and history, including regrowth; the entry count theorem is complete; no lookup ever gives a wrong value (C26_never_wrong). Refuted: a key whose 32-bit hash is 0 is not found although it was set, the lookup is undefined once an earlier entry was removed (C26_refuted_zero_hash, C27). |
| C27 | partial | Dictionary lookup is memory safe | Refuted: an empty slot carries hash 0 and dictionary_get tests the key array pointer instead of the slot, so looking up a key of hash 0 (the empty key, or e.g. sat:auhvqwo) dereferences null. Proved exact: every other lookup is defined, and an absent hash-0 key is undefined unless every slot is taken. |
| C28 | proved | Sections enumerate consistently | Proved for every file and every later history of calls. |
| C29 | partial | Key lookup ignores case and booleans are decoded as documented | Case folding, boolean and integer decoding proved for entries that have a value. Refuted for section names: their value is a null pointer that getboolean and getint dereference. |
| C30 | proved | Base64 round trip | All byte strings; the encoder equals an independent RFC 4648 specification. |
| C31 | partial | Base64 decoding is memory safe | Exact: decoding is undefined if and only if the text holds the character { (123), whose table index is one past the end; every other byte string decodes. |
| C32 | proved | URL encoding round trip | All byte strings whose encoding is shorter than 2^63 (any std::string). |
| C33 | partial | C string escaping round trip | Full statement is false: hexadecimal escapes are decoded with atoi, which gives 0. Proved exact: decoding replaces every control character except newline and tab by NUL, consumes the whole text, and is the identity exactly when there is no such character. Decoding any text ends. |
| C34 | proved | Split and join are inverse | All texts and non-empty separators; pieces are specified by leftmost occurrences and unique. The empty text has no piece; the empty separator splits characters and appends an empty piece. |
| C35 | partial | Split with skip_empty yields no empty piece | Refuted: a text of separators only yields one empty piece, and an empty separator never ends. Proved: in every other case the result is the list of non-empty pieces. |
| C36 | proved | Whitespace stripping | All strings; C locale white space. |
| C37 | proved | Path splitting | All paths, by exhaustive shapes. |
| C38 | partial | Path normalisation | Full statement is false: a relative path that climbs above its start calls back() on an empty vector. Proved exact: defined if and only if absolute or not climbing; then the result is tidy, leads to the same place from every directory, and is a fixed point. |
| C39 | proved | OpenMTP-IDS files survive write and read | Consistent = some bytes hold it under the separate layout specification; any padding. Also: write is undefined exactly when more records are announced than present (no_records 0 wraps). |
| C40 | proved | Truncated OpenMTP-IDS files are rejected | Every proper prefix of any encoding throws; files below 4 GB. |
| C41 | proved | Scan line ranges | All ranges and distributions of lines over records; line numbers are naturals below 2^32 (no wrap of line+1). |
| C42 | partial | All scan lines | False: the last line is always left out (refuted for every non-empty file); proved: all lines but the last. |
| C43 | partial | Byte-order streams | All counts for 32/64-bit and little-endian; big-endian 16-bit only for counts 0..2, refuted for every other count (2 bytes written, 3 or 4 read). |
| C44 | proved | 10-bit sample unpacking | All lines of 5k bytes, both as base-1024 digits and bit by bit; packing inverts. |
| C45 | partial | 10-bit unpacking stays inside its buffers | False for data sizes that are not a multiple of 5 (refuted for all of them); reading itself is safe for every packet length. |
| C46 | partial | Native lines own their data | False: the line object used for reading frees the data of the last line of the file; close then frees it twice (refuted for every non-empty read). All other lines own distinct live buffers. Heap modelled as a list of buffers. |
| C47 | proved | Native lines go to their channel | Exact distribution and counts, and exact characterisation of the files read. Little-endian host (see C75); nlines below 2^31. |
| C48 | partial | HRI image store | Histories of any length for every format and band; the initial content is refuted: an image never written to holds indeterminate values, not zeros. Out of range requests never touch memory. |
| C49 | partial | HRI half lines reassemble | Refuted: the second half is stored two pixels too early, so the concatenation is never read back; the theorems say exactly what is. |
| C50 | proved | HRI ASCII numbers | Float arithmetic is exact in the model (rationals); integer overflow is 16 bit wrap-around. |
| C51 | proved | Decryption keys by station | All tables of 120 slots. |
| C52 | partial | Frame synchronisation | Refuted: the two parts of the mark are combined with &&, so either is enough; short reads are not checked; big endian hosts compare swapped bytes. C52_accept_partial characterises acceptance exactly on little endian hosts. |
| C53 | partial | OpenMTP full-disk detection | Refuted: is_subwindow is true for every header, because it negates a conjunction of two exclusive formats. Proved: the A and B tests decide their formats and exclude each other, and other images are subwindows. |
| C54 | proved | Geotransform inversion | Exact rational arithmetic for every transform; binary64 rounding with unbounded exponents for transforms without rotation (C54_double_round_trip, which uses the real-number axioms of the standard library). Overflow and underflow of doubles are not modelled. |
| C55 | partial | GRIB reference time round trip | Proved for years 0-9999 in messages where the seconds can be set; in those where they cannot (edition 1) seconds are silently kept, and years from 10000 cut the text: both refuted. What is needed of grib_api is the record faithful. A month with a minus sign of its own is not refused by the driver (C55_refuted_sign). |
| C56 | proved | First available GRIB key | Present means readable. C56_refuted_set shows that the corresponding function for setting is undefined behaviour unless its first key succeeds; it is not part of the claim. |
| C57 | partial | NetCDF no-data value round trip | Proved for all values that the signed type of the same width has; for the others (a byte above 127, ...) the conversion is undefined: refuted. Defaults of variables without such a value are proved. |
| C58 | partial | Combined datasets agree on their grid | Proved for histories whose first source is complete and whose sources all have a projection. Refuted: a refused first source leaves its projection behind; a later source without projection is dereferenced. Geotransforms are compared as bits. |
| C59 | partial | Bounding boxes | Image boxes hold long corners but int results. Refuted for boxes wider than an int (overflow) and corners outside an int (truncated); proved for all others, and for projected and geographical boxes over the rationals. |
| C60 | partial | Contrast stretch | Proved for images with two different non-missing values, integer (maximum to 255) and float (24 bit rounding, maximum to 254 or 255). Refuted: constant images are drawn with the raw value modulo 256; a missing value inside the range is drawn as a grey; a float maximum can become 254; one NaN, or a constant float image above 255, is undefined behaviour. Unbounded exponents and no infinities in the float part. |
| C61 | partial | Failed loads keep the working set | False: a failed load evicts the second latest segment (refuted); the latest one always survives. |
| C62 | proved | Handed out segments survive the next request | Exactly one further request is safe (see C62_limit). |
| C63 | partial | Destruction releases every segment once | False: the object allocated for a failed load leaks (refuted); everything else is freed exactly once. |
| C64 | proved | Channel and wave number lookups are inverse | Doubles through the executable IEEE model of Coq's SpecFloat. |
| C65 | proved | Switching channel | Same file system model as C23. |
| C66 | proved | Prologue and epilogue lookup | Same file system model as C23. |
| C67 | partial | Configuration files are read as written | Every document of the documented grammar with any layout; any byte sequence is read without undefined behaviour. Refuted: key = "" is stored as two quote characters because the comparison sees the newline. |
| C68 | partial | Configuration dump and reload | Proved for every history whose content the format can carry (storable). Refuted for files without sections: their keys gain a colon at each round trip. |
| C69 | partial | Cut URL escapes are ignored | Refuted for the text % alone, where the size minus two wraps; proved for every other text. |
| C70 | proved | Prefix and suffix tests | All pairs. |
| C71 | proved | Joining paths | All lists of paths. |
| C72 | proved | Case conversion | C locale. |
| C73 | proved | OpenMTP-IDS reading accepts exactly the well-formed files | Exact characterisation of accepted files; no undefined behaviour, no unbounded loop. |
| C74 | partial | Native channel images | False for the last selected channel (always released data); for the others proved correct, with an exact condition for memory safety. |
| C75 | partial | Native files on any host | False: the byte order flag is never initialised on this path; on big-endian hosts numbers are read reversed. |
| C76 | proved | Native header numbers | Values beyond 64 bits are undefined in the model. |
| C77 | partial | Native channel selection | Proved for words of 11 to 15 characters, refuted for all other lengths. |
| C78 | partial | Native header strings | Defined exactly when a NUL follows the start of the last field; headers without one are read past their end. |
| C79 | partial | IBM floating point fields of HRI headers | For a 4 byte long: exact or saturating singles, truncated doubles, every input decodes. Refuted: zero fractions with a non-zero exponent; and with an 8 byte long every decoding reads out of bounds. |
| C80 | proved | HRI data lines are reassembled | Both kinds of files, little endian hosts (big endian hosts refuse every frame, C52). |
| C81 | partial | HRI files decode to their images | Complete for the images whose lines are whole; for the visible images in halves (AV, BIV, BIVH) the first half minus two pixels is right, the rest is refuted with its exact content. Keys: TECNAVIA files never set them. Calibration and dates not modelled; sizeof(long) = 4. |
| C82 | proved | HRI formats are known everywhere or nowhere | All strings and all labels. |
| C83 | partial | Truncated HRI files are refused | Refuted for plain files: any number of trailing data lines may be missing and read as zero. TECNAVIA files are refused. |
| C84 | partial | HRI interpretation fields are distinct | Refuted for one pair of the 124 fields (snmxwp_ir and snmxwp_v1 share bytes 466-467), proved for all others. |
| C85 | proved | OpenMTP files decode to their image | New objects: C85_image. Used objects: C85_again_partial needs the old image to be at least as large, as the claim says; the other case is C87_refuted_again. |
| C86 | proved | Truncated OpenMTP files are refused | The read ends in std::terminate (rethrow without an active exception), so no image is returned. |
| C87 | partial | OpenMTP reading and memory | Refuted for lines of more than 5000 pixels and for a larger image read into a used object. Proved for every byte string read into a new object with lines of at most 5000 pixels and an image size that fits in int. |
| C88 | partial | OpenMTP header fields | Proved for every accessor but five; these are shown wrong for every header: two histograms give 20 of 256 classes, the horizon times come from another field, two attitudes have a fourth component from the next field. |
| C89 | proved | OpenMTP dates | Years 1900 to 9999, any century prefix in the date word. |
| C90 | proved | OpenMTP numbers in characters | Values are modelled as integers times a power of ten, the conversion to float being exact for them up to rounding of the scaled value, which is not modelled. |
| C91 | partial | Crop windows | Proved for corners inside the image. Refuted for areas outside the image: the window reaches from the area to the border of the image. |
| C92 | partial | Size limit of drawn images | Limit, no enlargement and proportions proved; very thin images are scaled to an empty side (refuted_thin). |
| C93 | partial | Source windows | Proved when start plus length fits an int; otherwise signed overflow. A projected window starting up to one pixel outside is silently moved to the border. |
| C94 | proved | Georeference of the result | Exact rational arithmetic. |
| C95 | partial | Input files are processed independently | Proved for files of the same shape. Refuted: the window and bands computed for the first file are kept, later files are cut to it or make the program dereference a null pointer. |
| C96 | partial | Band selection | Proved for numbers below 2^32 and names; larger numbers wrap modulo 2^32. |
| C97 | proved | Output file names | For dates in the form YYYY-MM-DD HH:MM:SS. |
| C98 | partial | Unreadable bands are reported | Display reports failure; export dereferences the null result (refuted_export). |
| C99 | partial | Bands used for a reflectance | Channel numbers above 2^32 wrap to a valid channel. |
| C100 | partial | Sources handed over are deleted once | Proved for sources with a band of a known channel; others, and a first source that is refused, are never deleted. |
| C101 | partial | No dataset is lost on opening | Proved when opening ends with a dataset or with nothing (XRIT: when every file has a channel number). Refuted when an exception is thrown: the source is lost. |
| C102 | partial | Opening reports failure by returning nothing | Unknown option values return nothing; unsupported channels throw an exception through GDALOpen. |
| C103 | partial | Blocks of computed bands | Proved when the image size is a multiple of the block size; otherwise the last blocks cannot be read. |
| C104 | partial | Satellite zenith angle | Exact real arithmetic, spherical earth. Proved for a satellite at longitude 0 and angles up to one radian. Refuted: larger angles are stored as 1; the longitude of the satellite is ignored; points off the earth have the value of the point under the satellite. |
| C105 | proved | Solar zenith angle | Exact real arithmetic. |
| C106 | partial | Visible reflectance | Range and order proved, value proved with the sun at least 10 degrees up and below 99%, also the effect of the distance of the sun; refuted at night, where a positive radiance gives a positive reflectance. Exact arithmetic except the conversion to float. |
| C107 | partial | Reflectance at 3.9 micron | Range proved; value proved against an independent formula with the sun at least 10 degrees up, below 99% and above the thermal radiances. Order proved outside the guard that replaces radiances just below the thermal one; refuted within it: for every temperature of the thermal channels from 270 K and every time and place there are two 3.9 temperatures of which the higher gives the lower reflectance. |
| C108 | proved | Apparent size of the earth | 53 bit rounding with unbounded exponents, any values of pi and asin. |
| C109 | partial | Pixel sizes and factors | Real arithmetic. Proved for the nominal sizes and for sizes whose factor does not round to a nominal one and fits an int; sizes of 18 m or less are undefined behaviour. |
| C110 | partial | GRIB driver and its trace | Refuted: the trace file in /tmp is opened unconditionally and written without a check. |
| C111 | partial | Ownership of GRIB handles | At most once, proved for every sequence of operations. Exactly once only when new_from_samples and new_from_file are called on objects that hold nothing; otherwise what they held is lost. Functions of a moved object other than destruction and assignment write to a NULL trace file. |
| C112 | partial | Copies in GRIB read back | grib_api as in the record faithful (doubles read back exactly), key names of the editions as in names_ok. The corner moves to the nearest whole number of pixels from the sub-satellite point: it is kept if it was there, and C112_refuted_corner shows the loss otherwise. Pixel sizes are those of read_size: for the high resolution they change (C114). |
| C113 | partial | Values copied to GRIB | Scale not zero, source values and no data value not NaN. grib_api as in the records faithful and packing. Refuted: pixels whose value is that of missing ones; NaN. |
| C114 | partial | Copies of copies in GRIB | Refuted for every high resolution image: the pixels of its copy differ by more than 0.004 m, and copying the copy is refused. |
| C115 | partial | Errors of the GRIB driver | Refuted with messages of other satellites, unreadable or too many values, sources without reference system or band. |
| C116 | partial | Failed writes of GRIB files | Refuted: the result of write() is ignored, an old file of that name is returned as the copy. |
| C117 | partial | NetCDF copies read back | Proved for geostationary images with the north at the top, nominal pixel sizes, whole pixels to the sub-satellite point, a named satellite and bands of supported types with different valid names; the longitude has the precision of a float. Refuted: south up images are mirrored, latitude-longitude images lose their place, copies without satellite name do not open, bands that cannot be written are dropped (undefined with a channel), unreadable bands become no-data. Other pixel sizes are not covered. |
| C118 | partial | Reading pixels of NetCDF bands | Proved for all types but the 32 bit integers, for which every read overruns the buffer: refuted. |
| C119 | partial | NetCDF24 copies read back | Proved for the satellites 55 and 56; copies of the others are written but refused when opened, and a file without projection variable is dereferenced: refuted. HRV sizes read back between 1000.12 and 1000.13. |
| C120 | partial | Time variable of NetCDF copies | Proved for all days from the year 1 to 9999 against a calendar made of successive days, at full minutes; seconds are dropped and unreadable times become 2000-01-01: refuted. |
| C121 | partial | Every level 1.5 field is decoded from its own bytes | True of every field but four families, which are refuted for all files: ResamplingFunction[1..11] are all read from the first byte, CalibrationConstants advance 8 bytes per entry instead of 4, the spin rate of the landmark results is read two bytes late, and DCRValues are read from the start of their record. |
| C122 | partial | A short prologue or epilogue is refused | Refuted: any prologue data field under 425450 bytes and any epilogue data field under 380325 bytes is read past the end of the buffer. Long enough data fields are decoded completely; a file shorter than announced terminates the program. |
| C123 | proved | Brightness temperatures of thermal channels | Over the reals, with the infinities and NaN of the floating point unit; rounding is not modelled. Temperatures are unique solutions of Planck's law. |
| C124 | partial | HRIT bands are in the unit they announce | Values are right for the channels 1-12, fewer than 31 bits and samples within the table. Refuted: other channel numbers (a byte of the header), more bits, and samples above the table are undefined behaviour instead of being refused. |
| C125 | partial | OpenMTP calibration tables | True for Meteosat 7 whenever the coefficients are digits and blanks. Refuted for every other satellite: a table of ones, announced in kelvin. |
| C126 | partial | HRI calibration tables | True for all formats and radiometers except: XW images are calibrated with an uninitialised structure, water vapour images of GOES and GMS are ones in kelvin, GMS visible counts are fractions announced in per cent. |
| C127 | partial | Calibrated datasets | Values and idempotence hold. Refuted: with a negative scale minimum and maximum are exchanged, and the no-data value is 0 whatever the calibrated no-data count is. |
| C128 | partial | Reflectance of a radiance | Refuted: the test joins inequalities with or, so every channel terminates the program. |
| C129 | partial | Zenith angle of a scan angle | True for scan angles of 0 to 90 degrees; refuted beyond the limb on the negative side, where the result is NaN. |
| C130 | partial | Uncompressed HRIT image segments are their pixels | False: the bytes are kept as they are but counted as samples, so half of the samples lie outside of the block, 8 bit pixels are read in pairs and 16 bit ones swapped on little endian hosts; refuted for every non-empty segment. What is true (which bytes make which sample) is the partial theorem. |
| C131 | partial | Compressed HRIT image segments are the decoded pixels | Holds when the library makes at least the announced number of pixels (the library is a parameter); a smaller image is read past its end, refuted for all of them. |
| C132 | partial | Encryption key messages | Number of keys, stations and CRCs are right for every message; key number and public key are read one byte early, refuted for every key. |
| C133 | partial | Text, GTS and binary messages are kept and copied | Texts, GTS and binary messages proved; refuted: the name is not checked and may lead out of the directory, and a GTS copy that cannot be written is lost silently. |
| C134 | partial | Prologues of foreign satellites | Proved for lengths within the data; lengths beyond it or below 8 read outside of the buffer, refuted for all of them. |
| C135 | partial | Every data field that is read can be printed | Exactly the printable contents print, the rest is undefined behaviour: uncompressed images, texts and keys without NUL, foreign prologues. Printing of level 1.5 records is a parameter. |
| C136 | partial | Texts of HRIT times | Proved for every moment with fractions below 1000; fractions above print ambiguously (witness). get_timechar returns a dangling pointer (not modelled). |
| C137 | partial | Generalized and unsegmented times | Generalized times: text always, seconds on hosts in UTC; refuted elsewhere because mktime is local. Unsegmented times: exact below 2^29 seconds; refuted above 2^31, where four neighbouring times are one double. |
| C138 | partial | Data objects can be destroyed | Objects made empty hold and free at most one part; objects made from a stream delete pointers that were never set, refuted for every file. |
| C139 | partial | The geometry of HRI files is that of their images | A and X formats proved; B formats have the visible scale also for infrared and water vapour images, refuted for each. Added after a mutant of the geometry survived. |
| C140 | partial | Setting a channel of a DB1 directory gives that channel | Proved for any history of good channels; refuted: a missing channel leaves the old data declared good, asking about a channel changes the size told, setting one on a closed object is undefined, a second channel leaks the first. Restricted to calibration keys of at most 31 characters and hash not 0. |
| C141 | partial | DB1 calibration tables are those of the calibration file | Proved when the keys fit the buffer; refuted for variable names of 28 characters or more, for which all counts get the same value, and for counts outside the table, which are answered like the others. |
| C142 | partial | DB1 channels converted to NetCDF keep their data and their place | Size, satellite, time, channel, samples proved; the place only for equal offsets, refuted for all others (column and line offsets are exchanged). Refuted: data smaller than the image and unreadable start times are undefined behaviour. |
| C143 | partial | XRIT2NetCDF and XRIT2Image put segments together by number | Assembly proved for files in any order. The last part is refuted: a number outside of the plan is used as an index as it is (undefined behaviour), and a shorter or missing data field is read past its end. |
| C144 | partial | XRIT2NetCDF -a cuts the part that was asked for | Contents and refusal proved. Place on the grid refuted for every part: AreaStartPix and AreaStartLin are counted from 0 with -a and from 1 without, so each part is placed one pixel to the west and one line to the north. |
| C145 | partial | A product converted by XRIT2NetCDF shows what the HRIT driver shows | Satellite, minute, channel, size, grid and set of samples proved; places refuted: row r of the file is row 3711 - r of the HRIT driver, mirrored for products stored with east left, under the same north-up grid. |
| C146 | partial | Names of files made by XRIT2NetCDF are distinct | Names are the same exactly for the same channel and minute; refuted for satellites: they are not part of the name, a file of another MSG satellite is replaced. |
| C147 | partial | The picture of XRIT2Image is upright | Proved for products stored with east left (negative column scale factor); one stored the other way is mirrored, since the picture is always turned by 180 degrees. |
| C148 | partial | A converted OpenMTP file is the image it was made of | Proved for A format files except the place on earth and the channel number: the driver finds no geotransform and channel 0 in every converted file (C148_refuted_position). Refuted for B format files, whose SampleX of 2 makes the driver refuse the converted file, and for headers with ten-digit years and times, which overflow the title buffer. |
| C149 | proved | Converted OpenMTP files do not replace each other | Both directions, for all pairs of dated files. |
| C150 | partial | The day of an HRI file does not depend on the machine | Proved for standard times up to twelve hours from UTC (UTC-12 excluded); refuted for all zones further east or west, where the day is another one: noon of local time is taken as UTC. |
| C151 | partial | All files made of an HRI file have its minute | Proved where no daylight saving is in force at that minute; refuted for all files but the first where it is: mktime changes the structure that the next names are made of. |
| C152 | partial | A converted HRI image is the image it was made of | Proved for images of the A format and visible images of the B format, as far as C81 goes (second halves of lines that come in halves are shifted, C81_refuted_halves), where no daylight saving is in force. Refuted: the driver refuses all other images (SampleX of 2), and finds no geotransform in any file. |
| C153 | partial | Converted HRI images do not replace each other | Names are the same exactly for the same satellite, format, channel name and minute; refuted since visible images of full and reduced resolution have the same channel name. |
| C154 | partial | xritdump draws every product | Proved for complete images of 3712 x 3712 samples without constant segments, apart from samples equal to the largest one, which print a NUL. Refuted: a constant segment divides by zero; with a segment missing, or for every HRV product, the zeros of the buffer are below the smallest sample and the tone is looked up far outside the table, when no sample is 0. |
| C155 | partial | A product opens with what its files say | Proved for products whose prologue and epilogue are complete, named MSG in their annotation, and whose segments agree. Missing files make the open fail. Refuted: an epilogue (any file that is not a prologue) given as prologue is accepted and its absent prologue dereferenced. |
| C156 | proved | Reading an opened product | For the rows of counts, HRV and the other channels, from the bytes of the files through the scan and the segment cache. |
| C157 | partial | Pixels are where the navigation record puts them | Proved: with nominal offsets (1856, or 5568 and an uppermost HRV line of 11136) the north-west corner of the pixel, not its middle, is where the sample is. Refuted: the middle never is, whatever the offsets in the header, which are not used; and a HRV image whose uppermost line is not 11136 is placed that many rows too far north. |
| C158 | partial | OpenMTP-IDS images converted to PGM | Proved for headers whose channels are of the known kinds, with equally long lines per channel. Refuted: a channel with lines of different lengths leaves a file that is no PGM image; two channels with unknown numbers go to one file and the first is lost. |
| C159 | partial | Exit status of the PGM converter | Proved for files that are not OpenMTP-IDS. Refuted: for every readable file the status is success exactly when the water vapour image is not written. |
| C160 | partial | Extraction of a sector of an OpenMTP-IDS image | Proved with rounded double arithmetic for every image of 2664 or more lines, all wide enough, including padding, headers and channel selection. Refuted: the position of the first pixel is 546 in every line, wherever the original line started. |
| C161 | partial | Sector extraction of unsuitable files | Refuted: every unreadable file aborts the program, since the handler is for another type, and every image with fewer than 2664 lines or with a line of the sector under 802 pixels leads to undefined behaviour. |
| C162 | proved | Writing all the data to a descriptor | For all sequences of partial writes; the results of the system calls are a parameter. |
| C163 | proved | Reading an exact number of bytes | For all sequences of partial reads; the results of the system calls are a parameter. |
| C164 | partial | Whole files round trip | Proved for regular files and every sequence of partial writes; a failed write leaves a prefix. Refuted: a file whose size the system does not announce (in /proc, a FIFO) reads as empty. |
| C165 | partial | Atomic replacement of a file | The destination is proved to hold the old or the complete new content at every moment. Refuted: when a write, close or rename fails the temporary file stays in the directory. |
| C166 | proved | Reading symbolic links of any length | Both that the loop ends with the text and that no other result is possible. |
| C167 | partial | Elapsed time | Proved up to 2^63 - 10^9 nanoseconds. Refuted: from 2^63 nanoseconds on the signed product overflows, although the unsigned result could hold twice as much. |
| C168 | partial | Looking up a program in the search path | Proved for the non-empty entries. Refuted: an empty entry of the search path beside others is skipped instead of standing for the current directory. |
| C169 | partial | File type tests | Proved for all types except links. Refuted: islnk follows the link and never recognises one. |
| C170 | partial | Removing a directory tree | Proved for a directory, when the file system tells the types of the entries. Refuted: a link to a directory as argument empties that directory and deletes the link; and with entry types unknown a link in the tree is followed and what is behind it deleted. |
| C171 | partial | Ownership of memory mappings | Proved for every history. Refuted: assigning to an object that was moved from, or unmapped, throws and the mapping is not moved. |
| C172 | partial | Ownership of file descriptors | Proved while no close fails. Refuted: after a close that reports an error, the destructor closes whatever was opened with the same number since. |
| C173 | partial | Descriptors of a child process | Proved for distinct descriptors of at least 3 (the pipes always are while 0-2 are open). Refuted: redirecting to one of the descriptors 0-2 closes it; the same descriptor for output and error makes the child exit. |
| C174 | partial | Descriptors of the parent process | Proved when the process is started, for every sequence of close calls. Refuted: when fork fails the child's ends of the pipes stay open. |
| C175 | partial | Waiting for a child process | Proved for exits. Refuted: a child killed by a signal gives code 0; wait(ms) after an exit with code 0 returns false; before the start signals go to the caller's own process group. |
| C176 | proved | The outcome of a child process in words | For all exit codes 0-255 and signals 1-126. |
| C177 | partial | Environment and arguments of a child program | setenv and the order copy, then set, are proved. Refuted: set without copy loses every other variable; copy after set does not override; with neither arguments nor executable the behaviour is undefined. |
| C178 | partial | Colours on a terminal | Proved for every foreground colour and every bright background. Refuted: each background colour that is not bright becomes the colour of the text, for all texts. |
| C179 | partial | Opening any NetCDF product | Proved for every file with the attributes named and dimensions below 2^31. Refuted: a file with no image opens, with no size of its own; images of different sizes open at the size of the first; without a Time attribute the time shown is 0000-00-00 00:00:00 (part of the first theorem). |
| C180 | partial | Copying an OpenMTP-IDS file | Proved: a readable file is copied, the copy reads back as the same image and is a fixed point, other files are untouched, and files that are not OpenMTP-IDS are refused. Refuted: a missing input and a copy that cannot be opened or written print a destroyed text, and a copy cut off on closing is reported as success although it cannot be read. Output to the terminal and memory exhaustion are not modelled. |
| C181 | partial | Iterating over a directory | Proved for every directory, also when the body throws or reading fails after the first entry. Refuted: an error on the first entry leaves the stream open, a stream that cannot be made leaves its descriptor open, and an error in an iterator that was moved is undefined. |
| C182 | partial | Types of directory entries | Proved when the file system tells the types, and for all entries but links when it does not. Refuted: a link of untold type is taken for its target and throws when it dangles; after a move the tests are undefined. |
| C183 | partial | Limits overridden for a block | Proved for all nestings and exceptions when limits are changed by the objects only, for a process without privileges. Refuted: lowering the hard limit in the block ends the program. |
| C184 | partial | File times preserved for a block | Proved while the descriptor stays open on a file whose times may be set. Refuted: otherwise the program ends, and a descriptor used again gives the times to another file. |
| C185 | partial | Progress messages are an outline | Proved for every program that sets its handler before the tasks. Refuted: after a handler set within a task, following tasks and their parts are at the same depth. |
| C186 | partial | Ownership of progress handlers | Proved for distinct handlers; the last one is never deleted, since the single Progress object is not. Refuted: setting the current handler again, or none, makes the next message undefined. |
| C187 | partial | Exit status of a test run | Proved for hooks that throw only std::exception and fewer than 2^32 tests. Refuted: the failing tear down of a test that skips itself is not noticed; any other exception of a hook ends the program without a report. |
| C188 | partial | Tests are called once, in order | Calls, order, set up before and tear down after each call and nesting are proved. Refuted: a set up that throws is not followed by a tear down, for a test that is skipped by it and for a test case. |
| C189 | partial | Failures are reported | Proved for tests without failing tear down. Refuted: the error of a test is replaced by the one of its tear down. |
| C190 | partial | Skipped tests do not count | Proved when TestSkipped reaches the runner. Refuted: inside wassert it becomes a failure, since TestSkipped is a std::exception. |
| C191 | proved | Places of nested checks | Exceptions that are not std::exception pass through the checks unchanged. |
| C192 | partial | Checks on the lines of a file | What the two checks accept is characterised exactly. Refuted: expected lines of which the last is empty or ends with white space never match; contents_match looks for each expression in the whole file, so order, repetition and further lines are not noticed. Regular expressions are an oracle. |
| C193 | proved | Checks on beginnings, ends and parts | Files are their contents; paths are lists of elements, as std::filesystem::path gives them. |
| C194 | partial | Options of msat | Proved for the options as getopt_long gives them; numbers with a fraction are read by an oracle. Refuted: text after the fourth number of --area is ignored; the size limit also holds for a conversion after an option for drawing; --resize with a missing number is undefined behaviour; numbers that are no int are too. |
| C195 | partial | Images around a place | Proved for images whose projected coordinates are degrees. Refuted: on images in metres, which are all those of this library, the window is empty and the program uses a null pointer. |
| C196 | partial | Metadata from a template | Proved for a template that can be opened. Refuted: one that cannot be is a null pointer that is used; several inputs are converted to one and the same file. |
| C197 | partial | PGM dumps of native channels | Proved on little-endian hosts for header texts of one line each: size and number of samples are right. Refuted: the samples have their bytes in the order of the host, so a reader sees another picture unless every sample is a multiple of 257; with the usual header of lines of 80 characters the comments run over several lines and no reader accepts the file; the last selected channel is read after its release. |
| C198 | partial | Pictures made by native2Image | Proved for channels other than the last selected one: the unscaled picture. normalize, scale and the product with the factor are parameters. Refuted: the factor has no effect on the file; the name is MSG1.format for every file and channel; channels out of range or not selected end the program with an exception; the last selected channel is undefined behaviour. |
| C199 | partial | Pictures made by db1_to_image | Proved without overlay for data files as large as the INFO file says; normalize, scale, composite are parameters. Refuted: the overlay argument is not used, SEVIRI_OVERLAY.pgm is read instead; smaller data files are read past their end. |
| C200 | partial | Files that may be missing | Proved for stat, unlink_ifexists and what rename_ifexists does. Refuted: a name on the way that is a plain file gives ENOTDIR and an exception although there is no such file (C200_refuted_notdir); rename_ifexists also returns false for an existing source when the directory of the destination is missing (C200_refuted_rename). Permissions are not modelled. |
| C201 | partial | Temporary files go away | Proved for absolute prefixes and for an unchanged current directory. Refuted: the path is kept as given, so after chdir the file of a relative prefix (always so for Tempfile()) stays, and a file of that name elsewhere is removed (C201_refuted_chdir); a removal that fails ends the program, the destructor throws (C201_refuted_terminate). |
| C202 | proved | Locks are waited for | The kernel is the sequence of answers of fcntl. |
| C203 | partial | Files that the HRIT tools read | Proved for products with plain fields; refuted for refused options, long identifiers, wildcards in options, and two copies of a segment. |
| C204 | partial | Picture of XRIT2Image | Name, orientation and the effect of -n, -o, -g proved for all channels below 12; refuted for -o with HRV and for factors of 1 or more. normalize, scale, composite and the reading of pictures are oracles. |
| C205 | partial | Option -a of XRIT2NetCDF | Proved for texts with four numbers; refuted for fewer and for a second -a. |
| C206 | partial | Temporary directories go with their object | Proved for directories that are still at their path and whose tree the destructor can remove. Refuted when the directory was moved or another one took its place; the destructor never throws. |
| C207 | proved | An open directory is worked on by its object | The kernel's calls are modelled on a tree of inodes; permissions are not. |
| C208 | partial | Skipped tests by reason | Proved when at least one skipped test has a reason. Refuted otherwise: the number of tests skipped without a reason is printed only below the list of reasons, so that it is lost when there are none. |
| C209 | proved | The slowest tests | The text of times from one second on is left to printf; sorting is any function that sorts. |
| C210 | partial | The summary of a test run | Proved for the tests that the results hold. Refuted for the rest: the tests of a test case whose set up fails, and those of a test case of which the patterns pick none, are in none of the numbers. |
| C211 | proved | Coded values in dumps can be told apart | Words of the documented meanings come from the enumerators of the headers. Two enumerators have no text of their own and count as undefined: no earth model, and undefined projection. |
| C212 | partial | The marks written while tests run | Proved for hooks that throw nothing but exceptions of the standard library: the line of every test case. Refuted for the rest: a test case whose cleaning up fails gets the marks of one in which it works. |
| C213 | partial | The lines written about tests | Proved for hooks that throw nothing but exceptions of the standard library: every line of the run. Refuted for the rest: when a test asks to be skipped and its cleaning up fails, its line says skipped without an error, that of the test case says failed, and the exit status is 0. |
| C214 | proved | All that a test run writes | Hooks that throw something else end the program (C187). |
| C215 | partial | msat --view and --viewmore tell datasets apart by everything they list | Proved for texts without line breaks and for types 0 to 11 of GDALDataType; doubles are compared as written, with the six digits of the stream. Refuted otherwise: a metadata item with a line break and two blanks in it reads as two items, and all types from 12 on (GDT_UInt64, GDT_Int64, GDT_Int8 of newer GDAL) are shown as unknown. Metadata of other domains, such as the msat domain, are not shown at all (C215_nothing_else). |
| C216 | partial | The listing of an OpenMTP-IDS file | Proved but for the two bytes in front of the file and of each record, which are written as numbers without anything between them: 1 and 23 look like 12 and 3 (refuted). A file that cannot be opened is undefined behaviour: the text of the error is destroyed before it is printed (refuted). Texts of errors are a parameter. |
| C217 | partial | The texts that are taken for a time | C217_reading says exactly which texts are read and as which numbers (blanks and signs before a number, fields at most four or two characters long, anything after the seconds). C217_derived_partial, C217_reflectance and C217_netcdf: nothing is made or opened with another text. C217_refuted_date: the numbers need not be a date, month 99 is accepted. |
| C218 | partial | The slope and offset of a channel | C218_radiance_partial: the solar channels. C218_refuted_thermal: the offset of a thermal channel is not divided by the band correction, so temperatures are too high by the same amount (up to 0.015 K) everywhere. C218_refuted_channels: any other channel reads outside the table. |
| C219 | partial | The listing of an OpenMTP file tells its header and its pixels | The header in memory, the calibration and the image of C85, C88 and C125 are used; how numbers with fractions are printed is a parameter. Refuted in part: the channel is on no line (C219_refuted_channel), the classes of a histogram from the twentieth on are listed as 0 (C219_refuted_histogram), and a missing file ends the program without a message (C219_refuted_missing). The fields the library itself reads from elsewhere (C88) are left out of C219_fields. |
| C220 | partial | The listing of an HRIT header tells the header | Headers read from a file are in range by themselves (C220_read); texts must not hold a rule of 54 dashes, and the name of a projection must be of one line (C220_refuted_forged shows why). Refuted in part: lines of good quality and those of number 0 are only counted (C220_refuted_quality), and an ancillary text without a zero byte is read past its end (C220_refuted_ancillary). How a float is printed is a parameter; the line called Subsatellite Lat. holds the longitude. |
| C221 | partial | The listing of a DB1 directory shows what its files say | Proved for the object after the directory was opened and a channel of it set, with files that hold numbers where numbers belong (C221_listing_partial). Refuted for an object without a channel: the null name makes the stream bad, the listing ends there and all that is written later is lost (C221_refuted_no_channel). How a float is read and printed is a parameter. |
| C222 | partial | The listing of a trailer's production statistics shows every value of the record | Proved for the timeliness and completeness record (C222_timeliness) and for the statistics but one flag per channel (C222_statistics_partial). Refuted for that flag: whether the image of a channel was late is read and never listed, so records that differ there look the same (C222_refuted_timeliness). Both listings have the same title. A satellite that is not an MSG is not held to a name. How a float is printed is a parameter. |
| C223 | proved | The listing of the image description shows every value of the record | How a float is printed is a parameter; an enumeration is the number in the file. |
| C224 | proved | The listing of the geometric quality shows, channel by channel, all that was derived | How a float is printed is a parameter; an enumeration is the number in the file. |
| C225 | partial | The listing of the navigation extraction result shows every observation there is | Proved but for the value of the spin rate at a landmark (C225_navigation_partial). Refuted there: the two bytes after the time, with the sign and the exponent, are never read, so files that differ in them are listed the same (C225_refuted_spin_rate). A time past the end of its day is not covered. How a float is printed is a parameter. |
