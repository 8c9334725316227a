{"id": "C01", "title": "Segment cache is transparent", "statement": "Whatever sequence of segment(idx) requests came before on a scanned DataAccess, segment(idx) returns the decoded contents of the file recorded for position idx, exactly as a fresh read of that file would, and returns no segment exactly when no file was recorded for idx.", "quantifier": "every table of segment files, every content of those files, every finite history of requests (including requests that fail to load)", "why_tests_cant": "the set of request histories is infinite and the answer depends on cache state left by all earlier requests", "anchors": ["msat/xrit/dataaccess.cpp: DataAccess::segment, DataAccess::read_file", "msat/xrit/dataaccess.h: DataAccess::segcache"]}
{"id": "C02", "title": "Segment cache is bounded and duplicate free", "statement": "At every moment at most two decoded segments are held in memory, no segment is held twice, and a held segment always carries the data of the file recorded for its index.", "quantifier": "every finite history of segment and line requests on a scanned DataAccess, with any subset of loads failing", "why_tests_cant": "needs an invariant over all reachable cache states", "anchors": ["msat/xrit/dataaccess.cpp: DataAccess::segment"]}
{"id": "C03", "title": "No reload inside the working set, one load per segment in a raster scan", "statement": "On a product whose recorded files can be read, a request for one of the two most recently delivered segments never reads a file; consequently reading the image rows in increasing (or decreasing) order reads each recorded segment file at most once.", "quantifier": "every segment size, every number of segments, every contiguous ordered range of rows", "why_tests_cant": "file loads per scan is a property of the whole request sequence for every geometry", "anchors": ["msat/xrit/dataaccess.cpp: DataAccess::segment, DataAccess::line_read"]}
{"id": "C04", "title": "Row and column placement of non-HRV lines", "statement": "For a non-HRV channel, line_read(L) for 0<=L<3712 delivers exactly one physical row: the one counted 3711-L from the south across segments in sequence order, mirrored left-right exactly when the column scaling factor is negative; distinct L deliver distinct physical rows and every physical row of a complete image is delivered by exactly one L.", "quantifier": "every segment height that divides the image among the segments, every L, every column, every sample value", "why_tests_cant": "bijection between rows over all geometries and arbitrary pixel contents", "anchors": ["msat/xrit/dataaccess.cpp: DataAccess::line_read, DataAccess::scanSegment"]}
{"id": "C05", "title": "Missing segments read as zero and nothing else changes", "statement": "If the file of a segment is absent, every row belonging to it is delivered as `columns` zero samples, and rows of the other segments are delivered as if the file were present.", "quantifier": "every subset of missing segments and every row", "why_tests_cant": "exponentially many subsets of missing files", "anchors": ["msat/xrit/dataaccess.cpp: DataAccess::line_read, DataAccess::segment"]}
{"id": "C06", "title": "HRV window placement", "statement": "For an HRV product whose lower window lies south of its upper window, both of the image width and inside the 11136x11136 grid, the column offset reported for row L is 11136 minus the west column of the window containing row (MaxLine-L), the row of samples then fits inside the 11136 column raster, and rows outside both windows report offset 0.", "quantifier": "every pair of windows and every row number, including rows past the end", "why_tests_cant": "tests use one product's windows; the claim is over all coverages", "anchors": ["msat/xrit/dataaccess.cpp: DataAccess::line_start"]}
{"id": "C07", "title": "HRV row to segment mapping", "statement": "For HRV, line_read(L) for 0<=L<MaxLine delivers physical row MaxLine-1-L and this is a bijection on 0..MaxLine-1; L>=MaxLine never delivers a row of the image other than by wrapping the row number (a precondition callers must respect).", "quantifier": "every MaxLine, segment height and row number, with 64-bit wrap-around", "why_tests_cant": "wrap-around behaviour and bijection over all sizes", "anchors": ["msat/xrit/dataaccess.cpp: DataAccess::line_read"]}
{"id": "C08", "title": "Segment table does not depend on directory order", "statement": "If the segment files of a product carry distinct sequence numbers and agree on the image description, the result of scanning them is the same whatever order the directory listing returns them in.", "quantifier": "every list of segment files and every permutation of it", "why_tests_cant": "factorially many orders; unit tests see the order of one file system", "anchors": ["msat/xrit/dataaccess.cpp: DataAccess::scan", "msat/xrit/fileaccess.cpp: FileAccess::segmentFiles"]}
{"id": "C09", "title": "Raster row assembly", "statement": "Reading a full-width block of the XRIT raster band yields exactly RasterXSize samples: zeros before the window offset, the delivered row, zeros after it; the read stays inside the caller's buffer exactly when offset+columns<=RasterXSize.", "quantifier": "every offset, row width, raster width and row contents, linear and calibrated bands", "why_tests_cant": "buffer-size safety must hold for every header value, not for one product", "anchors": ["gdal/xrit/rasterband.cpp: XRITRasterBand::IReadBlock (linear and non-linear)"]}
{"id": "C10", "title": "Big-endian field decoding", "statement": "Decoding a 1, 2, 4 or 8 byte field gives the big-endian value of its bytes (two's complement for the signed readers), for every byte pattern, and gives the same result on little- and big-endian hosts once the host byte order was probed.", "quantifier": "every byte string of the right length, both host byte orders", "why_tests_cant": "2^64 patterns and a host property tests cannot vary", "anchors": ["msat/hrit/MSG_machine.cpp: get_i1..get_i8, get_ui1..get_ui8, check_endianess"]}
{"id": "C11", "title": "HRIT header round trip", "statement": "Parsing the bytes of any well formed HRIT header (a primary record followed by any sequence of secondary records of the supported kinds) yields exactly the field values that were laid out, for the last record of each kind, and consumes exactly total_header_length bytes.", "quantifier": "every well formed sequence of header records of any length, every field value", "why_tests_cant": "unbounded record sequences and full field ranges", "anchors": ["msat/hrit/MSG_header.cpp: MSG_header::read_from and MSG_header_*::read_from"]}
{"id": "C12", "title": "HRIT header parsing is memory safe and terminates", "statement": "For every byte stream, reading the header either succeeds or fails with a reported error: it never reads outside the header buffer, never dereferences a missing record and never loops forever.", "quantifier": "every byte string presented as a file", "why_tests_cant": "all inputs; fuzzing samples only", "anchors": ["msat/hrit/MSG_header.cpp: MSG_header::read_from", "msat/hrit/MSG_header.cpp: MSG_header_segment_quality::read_from"]}
{"id": "C13", "title": "Derived header values", "statement": "After a successful header read, the reported file size equals header length plus data bits/8, the number of pixels equals lines*columns and the image size is the number of bytes needed for that many samples of the declared depth.", "quantifier": "every header that parses, including the largest dimensions the format can express", "why_tests_cant": "overflow appears only for dimensions no test product has", "anchors": ["msat/hrit/MSG_header.cpp: MSG_header::read_from, MSG_header_image_struct::read_from"]}
{"id": "C14", "title": "Key number classification is a partition", "statement": "Every encryption key number is reported as exactly one of group 1, group 2 or reserved.", "quantifier": "all 256 key numbers", "why_tests_cant": "a total classification claim", "anchors": ["msat/hrit/MSG_header.h: MSG_header_key"]}
{"id": "C15", "title": "CDS time stamps", "statement": "A CDS short time stamp with day count d and milliseconds m decodes to the Unix instant 86400*(d-4383)+floor(m/1000) with m mod 1000 milliseconds; two stamps with m below one day decode to the same instant only if they are equal, and order is preserved.", "quantifier": "every 6-byte stamp (and the 8/10 byte variants)", "why_tests_cant": "2^48 stamps; injectivity and order are relations over pairs", "anchors": ["msat/hrit/MSG_time_cds.cpp: MSG_time_cds_short::read_from, MSG_time_cds::read_from, MSG_time_cds_expanded::read_from"]}
{"id": "C16", "title": "Prologue and epilogue layout", "statement": "The consecutive records of the level 1.5 prologue, the native header and the trailer tile their buffers exactly: each record starts where the previous one ends and the totals equal the lengths checked by the native reader.", "quantifier": "all records and all repeated sub-records of the layout", "why_tests_cant": "a layout error shifts every later field and shows only for particular data", "anchors": ["msat/hrit/MSG_data.cpp: MSG_data::read_from", "msat/msg-native/MSG_native_header.cpp: MSG_native_header::read", "msat/msg-native/MSG_native_trailer.cpp: MSG_native_trailer::read"]}
{"id": "C17", "title": "Day of year", "statement": "jday(y,m,d) is the ordinal number of the day in the Gregorian year, for every valid date: it is d plus the lengths of the preceding months, lies in 1..365 (366 in leap years), and different dates of one year have different ordinals in calendar order.", "quantifier": "every year, month and valid day", "why_tests_cant": "all years; leap rule has a 400-year period with exceptions", "anchors": ["msat/facts.cpp: jday"]}
{"id": "C18", "title": "Satellite identifiers survive HRIT conversion", "statement": "Converting an HRIT spacecraft identifier to the WMO identifier and back returns the original for every identifier the library knows, no two known HRIT identifiers share a WMO identifier, and unknown ones map to the documented defaults in both directions.", "quantifier": "all integers as identifiers", "why_tests_cant": "claims about every integer, including unknown ones", "anchors": ["msat/facts.cpp: spacecraftIDFromHRIT, spacecraftIDToHRIT"]}
{"id": "C19", "title": "Satellite names identify satellites", "statement": "Looking up the identifier of the name reported for an identifier returns that identifier, for every identifier that has a name of its own; any other string gives -1.", "quantifier": "all integers and all strings", "why_tests_cant": "universal over strings", "anchors": ["msat/facts.cpp: spacecraftName, spacecraftID"]}
{"id": "C20", "title": "Channel and wavelength lookups are inverse", "statement": "Every channel 1..12 is recovered from its central wavelength, other wavelengths are rejected, and a wavelength less than 0.05 away from a channel's nominal value selects that channel.", "quantifier": "every channel number and every rational wavelength", "why_tests_cant": "dense input domain", "anchors": ["msat/facts.cpp: channel_central_wavelength, channel_from_central_wavelength"]}
{"id": "C21", "title": "Short names parse back", "statement": "Parsing dir/res:product1:product2:timing returns exactly those five parts for every choice of parts without separators.", "quantifier": "all strings free of '/' and ':' in the appropriate parts", "why_tests_cant": "all strings", "anchors": ["msat/xrit/fileaccess.cpp: FileAccess::parse"]}
{"id": "C22", "title": "Segment file names parse back", "statement": "Parsing the path of a segment file built from directory, resolution, ids (underscore padded to the standard widths) and timing returns those parts with padding removed.", "quantifier": "all strings without '-' and '/' (ids not ending in '_'), of any length up to the field width", "why_tests_cant": "all strings", "anchors": ["msat/xrit/fileaccess.cpp: FileAccess::parse, deunderscore"]}
{"id": "C23", "title": "A segment file is found again by its own product", "statement": "The file search performed for the product parsed from a standard segment file name accepts that very file name, accepts every other segment of the same product, and rejects files of another channel, platform or time.", "quantifier": "all standard segment names, all candidate file names", "why_tests_cant": "search patterns over all names", "anchors": ["msat/xrit/fileaccess.cpp: FileAccess::segmentFiles, FileAccess::parse"]}
{"id": "C24", "title": "Validity check agrees with the parser", "statement": "A name accepted by isValid is parsed without error into a complete product description.", "quantifier": "all strings", "why_tests_cant": "all strings", "anchors": ["msat/xrit/fileaccess.cpp: isValid, FileAccess::parse, FileAccess::ensureComplete"]}
{"id": "C25", "title": "Padding and unpadding ids", "statement": "Removing the padding of a padded id gives back the id for every id no longer than the field and not ending in an underscore; padding always yields exactly the field width.", "quantifier": "all strings and widths", "why_tests_cant": "all strings", "anchors": ["msat/xrit/fileaccess.cpp: underscoreit, deunderscore"]}
{"id": "C26", "title": "Dictionary is a finite map", "statement": "After any sequence of set and unset operations on a dictionary, looking a key up returns the value of the last set not followed by an unset of that key, or the default; the entry count equals the number of distinct keys present.", "quantifier": "every history of operations, every key set (growing past any capacity), including colliding hashes", "why_tests_cant": "unbounded histories, collisions and regrowth", "anchors": ["msat/iniparser.c: dictionary_new, dictionary_set, dictionary_get, dictionary_unset, dictionary_hash"]}
{"id": "C27", "title": "Dictionary lookup is memory safe", "statement": "Looking up any key in any reachable dictionary reads only live entries.", "quantifier": "every key and reachable dictionary", "why_tests_cant": "needs a key whose hash collides with the empty-slot marker", "anchors": ["msat/iniparser.c: dictionary_get"]}
{"id": "C28", "title": "Sections enumerate consistently", "statement": "The number of sections equals the number of stored keys without a colon and asking for section n (0<=n<count) returns the n-th such key; other n return nothing.", "quantifier": "every reachable dictionary and every n", "why_tests_cant": "all dictionaries with holes left by unset", "anchors": ["msat/iniparser.c: iniparser_getnsec, iniparser_getsecname"]}
{"id": "C29", "title": "Key lookup ignores case and booleans are decoded as documented", "statement": "String lookup gives the same answer for keys differing only in letter case, and a boolean lookup answers 1 for values starting y,Y,t,T,1, 0 for n,N,f,F,0 and the supplied default otherwise or when the key is absent.", "quantifier": "all keys, values and defaults", "why_tests_cant": "all strings", "anchors": ["msat/iniparser.c: iniparser_getstring, iniparser_getboolean, strlwc"]}
{"id": "C30", "title": "Base64 round trip", "statement": "Decoding the Base64 encoding of any byte string returns it; the encoding has length 4*ceil(n/3) and uses only the Base64 alphabet and trailing '='.", "quantifier": "all byte strings", "why_tests_cant": "all byte strings of all lengths", "anchors": ["msat/utils/string.cc: encode_base64, decode_base64"]}
{"id": "C31", "title": "Base64 decoding is memory safe", "statement": "Decoding any string stays inside the decoding table; a character outside the alphabet counts as zero bits.", "quantifier": "all strings", "why_tests_cant": "needs one specific byte among all inputs", "anchors": ["msat/utils/string.cc: invbase64"]}
{"id": "C32", "title": "URL encoding round trip", "statement": "Decoding the URL encoding of any byte string returns it, and the encoding contains only letters, digits, the listed safe characters and percent escapes.", "quantifier": "all byte strings", "why_tests_cant": "all byte strings", "anchors": ["msat/utils/string.cc: encode_url, decode_url"]}
{"id": "C33", "title": "C string escaping round trip", "statement": "Decoding the C escape encoding of any byte string returns the string and consumes the whole encoding.", "quantifier": "all byte strings", "why_tests_cant": "all byte strings", "anchors": ["msat/utils/string.cc: encode_cstring, decode_cstring"]}
{"id": "C34", "title": "Split and join are inverse", "statement": "Joining the pieces produced by Split(text, sep) with sep gives text back for every non-empty separator; no piece contains the separator.", "quantifier": "all texts and separators", "why_tests_cant": "all strings", "anchors": ["msat/utils/string.cc: Split", "msat/utils/string.h: join"]}
{"id": "C35", "title": "Split with skip_empty yields no empty piece", "statement": "With skip_empty every piece is non-empty, and iteration ends.", "quantifier": "all texts and separators", "why_tests_cant": "termination and emptiness over all inputs", "anchors": ["msat/utils/string.cc: Split::const_iterator"]}
{"id": "C36", "title": "Whitespace stripping", "statement": "strip removes exactly the maximal runs of white space at both ends: the result is a substring, has no white space at either end, and stripping is idempotent.", "quantifier": "all strings", "why_tests_cant": "all strings", "anchors": ["msat/utils/string.h: lstrip, rstrip, strip"]}
{"id": "C37", "title": "Path splitting", "statement": "dirname and basename are consistent: for a path whose last component is non-empty, joining dirname and basename names the same component sequence; dirname never ends in a slash unless it is the root.", "quantifier": "all paths", "why_tests_cant": "all strings", "anchors": ["msat/utils/string.cc: dirname, basename, appendpath"]}
{"id": "C38", "title": "Path normalisation", "statement": "normpath is defined for every path, produces no empty, '.' or avoidable '..' component and is idempotent.", "quantifier": "all paths", "why_tests_cant": "all strings", "anchors": ["msat/utils/string.cc: normpath"]}
{"id": "C39", "title": "OpenMTP-IDS files survive write and read", "statement": "Reading back the bytes written for any consistent OpenMTP-IDS object gives an equal object and leaves the stream exactly at the end.", "quantifier": "every object: any number of records, scan lines and pixels, every field value that fits its 16 bits", "why_tests_cant": "unbounded nested structures", "anchors": ["msat/omtp-ids/OpenMTP-IDS.cc: operator<<, operator>>", "msat/omtp-ids/FileHeader.cc", "msat/omtp-ids/Record.cc", "msat/omtp-ids/ScanLine.cc", "msat/omtp-ids/LineHeader.cc", "msat/omtp-ids/RecordHeader.cc"]}
{"id": "C40", "title": "Truncated OpenMTP-IDS files are rejected", "statement": "Reading any proper prefix of a written OpenMTP-IDS file reports an error and never returns a partial object as success.", "quantifier": "every object and every cut point", "why_tests_cant": "all cut points of all files", "anchors": ["msat/omtp-ids/OpenMTP-IDS.cc: operator>>"]}
{"id": "C41", "title": "Scan line ranges", "statement": "scanline(from,to) returns exactly the scan lines numbered from..to-1 in file order across records.", "quantifier": "every distribution of lines over records (including empty records) and every from,to", "why_tests_cant": "all partitions", "anchors": ["msat/omtp-ids/OpenMTP-IDS.cc: OpenMTP_IDS::scanline(from,to)"]}
{"id": "C42", "title": "All scan lines", "statement": "scanline() returns every scan line of the file.", "quantifier": "every object", "why_tests_cant": "all objects", "anchors": ["msat/omtp-ids/OpenMTP-IDS.cc: OpenMTP_IDS::scanline()"]}
{"id": "C43", "title": "Byte-order streams", "statement": "Reading k bytes back after writing the low k bytes of a word, in either byte order, returns the word modulo 256^k.", "quantifier": "every word, byte count and byte order", "why_tests_cant": "2^32 words", "anchors": ["msat/omtp-ids/ByteSex.cc"]}
{"id": "C44", "title": "10-bit sample unpacking", "statement": "Unpacking a line of 5k bytes yields 4k samples, each below 1024, which are the consecutive 10-bit groups of the bit stream; packing them again restores the bytes.", "quantifier": "every byte string whose length is a multiple of 5", "why_tests_cant": "all byte strings", "anchors": ["msat/msg-native/MSG_native_line.cpp: MSG_native_linedata::to_sample"]}
{"id": "C45", "title": "10-bit unpacking stays inside its buffers", "statement": "Unpacking never reads or writes beyond the line's data for any announced packet length.", "quantifier": "every packet length", "why_tests_cant": "lengths not multiple of 5 never occur in test data", "anchors": ["msat/msg-native/MSG_native_line.cpp: to_sample, MSG_native_line::read"]}
{"id": "C46", "title": "Native lines own their data", "statement": "After reading a native file every stored line refers to live data of its own and closing releases each buffer once.", "quantifier": "every file: any number of lines and selected channels", "why_tests_cant": "aliasing over all histories", "anchors": ["msat/msg-native/MSG_native.cpp: MSG_native::read, close", "msat/msg-native/MSG_native_line.cpp"]}
{"id": "C47", "title": "Native lines go to their channel", "statement": "The lines of the file are distributed to the selected channels in order: for n image lines each selected non-HRV channel receives n lines and HRV receives 3n, and the concatenation in file order is preserved per channel.", "quantifier": "every selection of channels and number of lines", "why_tests_cant": "2^12 selections times all n", "anchors": ["msat/msg-native/MSG_native.cpp: MSG_native::read"]}
{"id": "C48", "title": "HRI image store", "statement": "After any sequence of accepted line writes, reading a line returns the last line written there (zeros if none), reading a pixel agrees with reading its line, and out of range requests never touch memory.", "quantifier": "every format/band and every history of writes", "why_tests_cant": "unbounded histories", "anchors": ["msat/hri/HRI_image.cpp: put_line, get_line, get_pixel"]}
{"id": "C49", "title": "HRI half lines reassemble", "statement": "Writing the two halves of a line makes the line read back as their concatenation.", "quantifier": "every line and content", "why_tests_cant": "all contents", "anchors": ["msat/hri/HRI_image.cpp: put_halfline"]}
{"id": "C50", "title": "HRI ASCII numbers", "statement": "The fixed width ASCII decoders return the decimal number their digits spell, blanks counting as zero.", "quantifier": "every digit/blank string", "why_tests_cant": "all strings", "anchors": ["msat/hri/HRI_machine.cpp: i2_from_char3, i2_from_char2, r4_from_char6 ..."]}
{"id": "C51", "title": "Decryption keys by station", "statement": "A station is reported to have a key exactly when some slot is assigned to it, and the key returned is that of the first such slot.", "quantifier": "every key table", "why_tests_cant": "all tables", "anchors": ["msat/hri/HRI_subframe_keyslot.cpp"]}
{"id": "C52", "title": "Frame synchronisation", "statement": "A frame is accepted only if its three sync bytes are correct.", "quantifier": "every frame", "why_tests_cant": "all frames", "anchors": ["msat/hri/HRI.cpp: Hri::readfrom"]}
{"id": "C53", "title": "OpenMTP full-disk detection", "statement": "is_subwindow is true exactly for images that are neither A nor B format.", "quantifier": "every header", "why_tests_cant": "all headers", "anchors": ["msat/openmtp/OpenMTP.cpp: is_A_format, is_B_format, is_subwindow"]}
{"id": "C54", "title": "Geotransform inversion", "statement": "For every geotransform whose determinant is at least 1e-15 in absolute value, converting a pixel to projected coordinates and back returns the pixel, and a projected point is assigned to the nearest pixel; every other transform, in particular every non-invertible one, is reported as an error. The round trip also holds with double rounding for transforms without rotation.", "quantifier": "all rational coefficient sextuples and points", "why_tests_cant": "dense domain", "anchors": ["msat/gdal/dataset.cpp: invertGeoTransform, pixelToProjected, projectedToPixel"]}
{"id": "C55", "title": "GRIB reference time round trip", "statement": "A date and time stored in a GRIB message reads back unchanged in edition 1 and 2; other editions are refused.", "quantifier": "every year 1..25599 and time of day", "why_tests_cant": "all dates", "anchors": ["gdal/grib/utils.h, gdal/grib/grib.cpp: setTime/formatTime"]}
{"id": "C56", "title": "First available GRIB key", "statement": "A lookup over alternative keys returns the value of the first key present and fails exactly when none is present.", "quantifier": "every list of keys and every message", "why_tests_cant": "all key sets", "anchors": ["gdal/grib/utils.h: get_long_oneof, get_double_oneof"]}
{"id": "C57", "title": "NetCDF no-data value round trip", "statement": "The no-data value and pixel type written to a NetCDF variable are read back equal for every supported type.", "quantifier": "every type and representable value", "why_tests_cant": "all values", "anchors": ["gdal/netcdf/utils.cpp"]}
{"id": "C58", "title": "Combined datasets agree on their grid", "statement": "Every source accepted by a derived dataset has the same size, georeference, projection and time as the first; a mismatching source is refused and changes nothing.", "quantifier": "every sequence of sources", "why_tests_cant": "all histories", "anchors": ["gdal/reflectance/base.cpp: ProxyDataset::add_info"]}
{"id": "C59", "title": "Bounding boxes", "statement": "The bounding box of two opposite corners, given in any order, contains both and is contained in every box that does.", "quantifier": "every pair of corners in pixel, projected and geographical coordinates", "why_tests_cant": "all pairs of corners", "anchors": ["msat/gdal/points.h: ImageBox::boundingBox and friends"]}
{"id": "C60", "title": "Contrast stretch", "statement": "Drawing a band maps every value to 0..255 without changing the order of values, the lowest non-missing value to 0 and the highest to 255; the range used is exactly the range of the non-missing values.", "quantifier": "every image with integer or float samples, every missing value", "why_tests_cant": "all images", "anchors": ["tools/image.cpp: Stretch::compute_if_needed, Stretch::rescale, imageToMagick"]}
{"id": "C61", "title": "Failed loads keep the working set", "statement": "A request that fails to load does not throw away either of the two most recently delivered segments: asking for them again reads no file.", "quantifier": "every history of requests with any subset of loads failing", "why_tests_cant": "needs every interleaving of failures", "anchors": ["msat/xrit/dataaccess.cpp: DataAccess::segment"]}
{"id": "C62", "title": "Handed out segments survive the next request", "statement": "The data behind the pointer returned by segment() stays allocated and unchanged during the following request, whatever it is.", "quantifier": "every history and every next request", "why_tests_cant": "use after free depends on the history", "anchors": ["msat/xrit/dataaccess.cpp: DataAccess::segment"]}
{"id": "C63", "title": "Destruction releases every segment once", "statement": "Destroying a DataAccess frees each segment it loaded exactly once and leaves nothing allocated.", "quantifier": "every history, including failing loads", "why_tests_cant": "leaks depend on the history", "anchors": ["msat/xrit/dataaccess.cpp: DataAccess::~DataAccess, DataAccess::segment"]}
{"id": "C64", "title": "Channel and wave number lookups are inverse", "statement": "Every channel 1..12 is recovered from the central wave number reported for it, in exact and in double precision arithmetic.", "quantifier": "every channel of every SEVIRI satellite", "why_tests_cant": "composition of roundings", "anchors": ["msat/facts.cpp: channel_central_wave_number, channel_from_central_wave_number"]}
{"id": "C65", "title": "Switching channel", "statement": "A product description switched to another channel finds exactly the segment files of that channel of the same product.", "quantifier": "every segment name, channel and directory listing", "why_tests_cant": "all listings", "anchors": ["msat/xrit/fileaccess.cpp: FileAccess::parse(fa, chan), FileAccess::segmentFiles"]}
{"id": "C66", "title": "Prologue and epilogue lookup", "statement": "The prologue (epilogue) of a product is returned exactly if one and only one file of the directory has its name; segment files are never taken for it.", "quantifier": "every product and directory listing", "why_tests_cant": "all listings", "anchors": ["msat/xrit/fileaccess.cpp: FileAccess::prologueFile, FileAccess::epilogueFile"]}
{"id": "C67", "title": "Configuration files are read as written", "statement": "Reading any well formed configuration file, whatever its blank lines, comments, indentation and quoting, stores exactly the sections and values it spells out, later assignments winning; no file at all makes the reader fail; a quoted empty value reads as the empty string.", "quantifier": "every document and every byte sequence", "why_tests_cant": "all layouts and all garbage", "anchors": ["msat/iniparser.c: iniparser_new, strskp, strcrop, iniparser_add_entry"]}
{"id": "C68", "title": "Configuration dump and reload", "statement": "Writing a dictionary as a configuration file and reading that file gives back the same entries.", "quantifier": "every history of calls whose content the format can carry", "why_tests_cant": "all dictionaries", "anchors": ["msat/iniparser.c: iniparser_dump_ini, iniparser_new"]}
{"id": "C69", "title": "Cut URL escapes are ignored", "statement": "Decoding an URL encoded text followed by an incomplete percent escape gives the text without the incomplete escape.", "quantifier": "all byte strings, all incomplete escapes", "why_tests_cant": "boundary cases depend on unsigned wrap-around of the length", "anchors": ["msat/utils/string.cc:426-450 decode_url"]}
{"id": "C70", "title": "Prefix and suffix tests", "statement": "startswith and endswith hold exactly when the string has the given prefix or suffix.", "quantifier": "all pairs of strings", "why_tests_cant": "all lengths including longer parts", "anchors": ["msat/utils/string.h:19-33"]}
{"id": "C71", "title": "Joining paths", "statement": "Joining any number of paths names the concatenation of their components, and is absolute exactly when the first non-empty one is.", "quantifier": "all lists of paths", "why_tests_cant": "unbounded lists and slash runs", "anchors": ["msat/utils/string.h:114-141", "msat/utils/string.cc:149-173"]}
{"id": "C72", "title": "Case conversion", "statement": "upper and lower change exactly the ASCII letters of the other case, are idempotent and absorb each other.", "quantifier": "all strings", "why_tests_cant": "all strings", "anchors": ["msat/utils/string.h:88-106"]}
{"id": "C73", "title": "OpenMTP-IDS reading accepts exactly the well-formed files", "statement": "For every byte string the read either reports an error or returns an object; it returns an object exactly when the string starts with a well-formed encoding of it (counts, lengths and padding consistent); writing that object back gives a file of the same length that reads back equal.", "quantifier": "every byte string below 4 GB", "why_tests_cant": "all byte strings, including corrupt ones", "anchors": ["msat/omtp-ids/OpenMTP-IDS.cc: operator>>, OpenMTP_IDS::read", "msat/omtp-ids/ScanLine.cc", "msat/omtp-ids/Record.cc"]}
{"id": "C74", "title": "Native channel images", "statement": "data(channel) returns the concatenated samples of all lines of the channel and never touches memory outside the image or released line data.", "quantifier": "every file, selection, channel and declared size", "why_tests_cant": "needs memory errors to be observable", "anchors": ["msat/msg-native/MSG_native.cpp: MSG_native::data"]}
{"id": "C75", "title": "Native files on any host", "statement": "A native file is decoded to the same lines on little-endian and big-endian hosts.", "quantifier": "every packet", "why_tests_cant": "needs a big-endian machine", "anchors": ["msat/msg-native/MSG_native_line.cpp: MSG_native_line::read", "msat/hrit/MSG_machine.cpp:33-47"]}
{"id": "C76", "title": "Native header numbers", "statement": "A header line made of a name, blanks, a colon, blanks and a decimal number yields that number; a segment line yields its second number.", "quantifier": "every such line", "why_tests_cant": "unbounded texts", "anchors": ["msat/msg-native/MSG_native.cpp:83-125"]}
{"id": "C77", "title": "Native channel selection", "statement": "The channels read are exactly those marked X in the header's band selection, whatever text the header holds there.", "quantifier": "every band selection text", "why_tests_cant": "unbounded texts, memory errors", "anchors": ["msat/msg-native/MSG_native.cpp:94-104"]}
{"id": "C78", "title": "Native header strings", "statement": "Extracting the header's text fields never reads outside the header.", "quantifier": "every header content", "why_tests_cant": "memory errors", "anchors": ["msat/msg-native/MSG_native_header.cpp: U_MARF_Header::read_from"]}
{"id": "C79", "title": "IBM floating point fields of HRI headers", "statement": "The single and double precision IBM fields of the header decode to the number they stand for: exactly for singles in the range of IEEE normal floats (saturating beyond), within one unit in the last place for doubles; zero fractions decode to zero; decoding never reads beyond the field.", "quantifier": "every 4 or 8 bytes", "why_tests_cant": "2^32 and 2^64 patterns; platforms where long has 8 bytes", "anchors": ["msat/hri/HRI_machine.cpp:144-309"]}
{"id": "C80", "title": "HRI data lines are reassembled", "statement": "The samples of a data line spread over 8 (A format) or 4 (B and X) frames, or over a TECNAVIA block, are put together in order, whatever the bytes around them.", "quantifier": "every data line of every format, both kinds of files", "why_tests_cant": "all contents", "anchors": ["msat/hri/HRI.cpp: get_dataline, mod_get_dataline"]}
{"id": "C81", "title": "HRI files decode to their images", "statement": "Reading a well formed HRI file of any format yields, for each band, an image whose pixel (line, column) is the sample the interleaving of that format assigns to it, together with the seed, the satellite and the decryption keys of the file.", "quantifier": "every file of each of the 12 formats, TECNAVIA or not", "why_tests_cant": "files of millions of samples, 12 interleavings", "anchors": ["msat/hri/HRI.cpp:40-383"]}
{"id": "C82", "title": "HRI formats are known everywhere or nowhere", "statement": "The format code is the letter and channels of the label, and a format accepted by the reader is one whose geometry is known; any other code is refused.", "quantifier": "every label, every code", "why_tests_cant": "all strings", "anchors": ["msat/hri/HRI.cpp:126-381", "msat/hri/HRI_geolocation.h:44-83", "msat/hri/HRI_subframe_label.cpp:196-215"]}
{"id": "C83", "title": "Truncated HRI files are refused", "statement": "A file that ends before its last data line is not returned as if it were complete.", "quantifier": "every file and every number of missing lines", "why_tests_cant": "all truncation points", "anchors": ["msat/hri/HRI.cpp: getbuff, get_dataline, mod_get_dataline"]}
{"id": "C84", "title": "HRI interpretation fields are distinct", "statement": "Every field of the interpretation subframe is read from its own bytes, inside the subframe.", "quantifier": "every pair of fields", "why_tests_cant": "all pairs; tests check values, not layout", "anchors": ["msat/hri/HRI_subframe_interpretation.cpp:37-173"]}
{"id": "C85", "title": "OpenMTP files decode to their image", "statement": "Reading a complete OpenMTP file into a new object succeeds on every host, keeps the ASCII and binary header sections byte for byte, and gives pixel (line, column) of the image from the byte after the 32 byte prefix of that line, leaving the rest of the stream unread; reading into a used object gives the same when the old image was at least as large.", "quantifier": "every complete file of lines up to 5000 pixels, rectified or not, visible-compensated or not", "why_tests_cant": "all sizes and contents", "anchors": ["msat/openmtp/OpenMTP.cpp: OpenMTP::read, read_OpenMTP_ascii_header, read_OpenMTP_header, read_OpenMTP_image"]}
{"id": "C86", "title": "Truncated OpenMTP files are refused", "statement": "A file that stops before its last pixel is never returned as an image.", "quantifier": "every complete file and every proper prefix of it", "why_tests_cant": "all truncation points", "anchors": ["msat/openmtp/OpenMTP.cpp: OpenMTP::read"]}
{"id": "C87", "title": "OpenMTP reading and memory", "statement": "Reading never touches memory outside the line buffer and the image.", "quantifier": "every byte string, new and used objects", "why_tests_cant": "memory errors on corrupt files", "anchors": ["msat/openmtp/OpenMTP.cpp: read_OpenMTP_image, read_OpenMTP_line"]}
{"id": "C88", "title": "OpenMTP header fields", "statement": "Every accessor of the binary header returns all the elements of its own field of the packed header, on every host.", "quantifier": "every header, every accessor", "why_tests_cant": "hundreds of fields; tests only check a few values", "anchors": ["msat/openmtp/OpenMTP.cpp: accessors", "msat/openmtp/OpenMTP.h"]}
{"id": "C89", "title": "OpenMTP dates", "statement": "The date of an image is the year, month, day, hour and minute of its header; its text form is YYYYMMDD_HHMM, and images of different minutes have different text forms.", "quantifier": "every valid date", "why_tests_cant": "all dates", "anchors": ["msat/openmtp/OpenMTP.cpp: get_datetime, get_datetime as text"]}
{"id": "C90", "title": "OpenMTP numbers in characters", "statement": "A right aligned decimal number filled with blanks or zeros is read as that number.", "quantifier": "every number of each width, at every place of the header", "why_tests_cant": "all values and fillings", "anchors": ["msat/openmtp/OpenMTP.cpp: r4_from_char5, r4_from_char3, int4_from_char3, int4_from_char2"]}
{"id": "C91", "title": "Crop windows", "statement": "A crop area selects exactly the pixels between its corners; the window computed for a geographical area is the smallest one that contains its four corners, and is refused when a corner cannot be located.", "quantifier": "every area, every image size, every corner position", "why_tests_cant": "all areas", "anchors": ["msat/gdal/dataset.cpp: area cropping", "tools/msat.cpp: --Area"]}
{"id": "C92", "title": "Size limit of drawn images", "statement": "An image is drawn within the size limit, never enlarged, with the proportions kept to within one pixel, and never with an empty side.", "quantifier": "every image size and limit", "why_tests_cant": "all sizes", "anchors": ["tools/image.cpp: scaled size"]}
{"id": "C93", "title": "Source windows", "statement": "A window is accepted exactly when it is a non-empty part of the image, and the result covers exactly the requested pixels; a window given in projected coordinates selects the pixels between the two corners.", "quantifier": "every image, every window, every georeference", "why_tests_cant": "all windows, the accepted ones cannot be listed", "anchors": ["msat/gdal/gdaltranslate.cpp: GDALTranslate::translate, setSrcWin, setProjWin"]}
{"id": "C94", "title": "Georeference of the result", "statement": "A cut or resized image is georeferenced so that every one of its points has the same projected coordinates as the source point it shows.", "quantifier": "every window, every output size, every georeference", "why_tests_cant": "all geometries", "anchors": ["msat/gdal/gdaltranslate.cpp: GDALTranslate::translate"]}
{"id": "C95", "title": "Input files are processed independently", "statement": "The result for one input file does not depend on the files given before it.", "quantifier": "every list of input files, every combination of options", "why_tests_cant": "all sequences of files", "anchors": ["tools/msat.cpp: main loop", "msat/gdal/gdaltranslate.cpp: GDALTranslate::translate"]}
{"id": "C96", "title": "Band selection", "statement": "The bands selected are those named, in the order given: by number or by name, unknown ones are skipped.", "quantifier": "every list of items, every image", "why_tests_cant": "all lists", "anchors": ["msat/gdal/gdaltranslate.cpp: GDALTranslate::setBands, band lookup by name"]}
{"id": "C97", "title": "Output file names", "statement": "The name of an output file has no blank and no dot, ends with the time of the image and differs for images of different minutes.", "quantifier": "every image, every date", "why_tests_cant": "all names", "anchors": ["tools/msat.cpp: output file name"]}
{"id": "C98", "title": "Unreadable bands are reported", "statement": "When the samples of a band cannot be read, drawing or exporting it reports failure.", "quantifier": "every image", "why_tests_cant": "failures of the reading library are not simulated in tests", "anchors": ["tools/image.cpp: display_image, export_image"]}
{"id": "C99", "title": "Bands used for a reflectance", "statement": "Each channel of a reflectance dataset is the last band with that channel number among its sources; bands without a channel number of the satellite are ignored.", "quantifier": "every sequence of sources with any bands", "why_tests_cant": "all sequences", "anchors": ["gdal/reflectance/reflectance.cpp: ReflectanceDataset::add_source"]}
{"id": "C100", "title": "Sources handed over are deleted once", "statement": "Every dataset entrusted to a reflectance dataset is deleted exactly once, when that dataset is destroyed.", "quantifier": "every sequence of sources", "why_tests_cant": "leaks and double deletions are not observable in unit tests", "anchors": ["gdal/reflectance/reflectance.cpp: ReflectanceDataset::add_source, ~ReflectanceDataset"]}
{"id": "C101", "title": "No dataset is lost on opening", "statement": "However opening a file with a computed product ends, every dataset opened on the way is deleted exactly once, at once or with the result, and the result never reads a deleted one.", "quantifier": "every file name, option value and source", "why_tests_cant": "failure paths and lifetimes are not observable in tests", "anchors": ["gdal/utils.cpp: add_extras", "gdal/xrit/xrit.cpp: XRITOpen"]}
{"id": "C102", "title": "Opening reports failure by returning nothing", "statement": "Asking for a computed product that does not exist returns no dataset and an error, not an exception.", "quantifier": "every option value and channel", "why_tests_cant": "all values", "anchors": ["gdal/utils.cpp: add_extras", "gdal/reflectance/reflectance.cpp: ReflectanceDataset::init_rasterband"]}
{"id": "C103", "title": "Blocks of computed bands", "statement": "Every block of a computed band can be read and each sample is computed at the coordinates of its own pixel.", "quantifier": "every image and block size, every block", "why_tests_cant": "all sizes", "anchors": ["gdal/reflectance/reflectance.cpp: IReadBlock", "gdal/reflectance/pixeltolatlon.cpp: PixelToLatlon::compute"]}
{"id": "C104", "title": "Satellite zenith angle", "statement": "The satellite zenith angle band holds, for every point of the earth in the image, the angle between the zenith and the satellite; points off the earth are recognisable.", "quantifier": "every latitude and longitude, every satellite longitude", "why_tests_cant": "all points", "anchors": ["msat/facts.cpp: sat_za", "gdal/reflectance/sat_za.cpp: SatZARasterBand::IReadBlock"]}
{"id": "C105", "title": "Solar zenith angle", "statement": "The cosine of the solar zenith angle is that of the angle between the zenith and one direction of the sun common to all points, with a period of a day and fifteen degrees per hour, highest at solar noon; the band holds it, or 0 when the sun is below the horizon.", "quantifier": "every day, time and position", "why_tests_cant": "all positions and times", "anchors": ["msat/facts.cpp: cos_sol_za", "gdal/reflectance/cos_sol_za.cpp: CosSolZARasterBand::IReadBlock"]}
{"id": "C106", "title": "Visible reflectance", "statement": "A reflectance is between 0 and 100, does not decrease with the measured count, equals the reflectance of a surface lit by the sun at that place and time, and is 0 at night.", "quantifier": "every count, calibration, day, time and position", "why_tests_cant": "all values", "anchors": ["gdal/reflectance/reflectance.cpp: SingleChannelReflectanceRasterBand::IReadBlock"]}
{"id": "C107", "title": "Reflectance at 3.9 micron", "statement": "The 3.9 reflectance is between 0 and 100 and does not decrease when the 3.9 brightness temperature grows.", "quantifier": "every set of brightness temperatures, day, time and position", "why_tests_cant": "all values", "anchors": ["gdal/reflectance/reflectance.cpp: Reflectance39RasterBand::IReadBlock"]}
{"id": "C108", "title": "Apparent size of the earth", "statement": "The size of the earth in pixels converted to a column or line factor and back is unchanged, in double arithmetic.", "quantifier": "every size that fits an int", "why_tests_cant": "all sizes with rounding", "anchors": ["msat/facts.cpp: CFACFromSeviriDX, seviriDXFromCFAC, LFACFromSeviriDY, seviriDYFromLFAC"]}
{"id": "C109", "title": "Pixel sizes and factors", "statement": "A pixel size converted to a column or line factor and back is unchanged, to less than a millimetre.", "quantifier": "every pixel size", "why_tests_cant": "all sizes", "anchors": ["msat/facts.cpp: pixelHSizeFromCFAC, CFACFromPixelHSize, pixelHSizeFromSeviriDX, seviriDXFromPixelHSize"]}
{"id": "C110", "title": "GRIB driver and its trace", "statement": "Opening or writing a GRIB file does not depend on anything but that file and the GRIB library: in particular it works when /tmp cannot be written.", "quantifier": "every file, every source image", "why_tests_cant": "needs an unwritable /tmp", "anchors": ["gdal/grib/utils.h:9-65: TRACE_GRIBAPI, Grib::trace"]}
{"id": "C111", "title": "Ownership of GRIB handles", "statement": "Whatever sequence of constructions, moves, assignments, releases, openings and destructions is made of the objects that own GRIB handles and files, each handle and file is closed exactly once, or given to the caller, and never used after.", "quantifier": "every sequence of operations on any number of objects", "why_tests_cant": "all interleavings of moves and destructions", "anchors": ["gdal/grib/utils.h:44-165: class Grib"]}
{"id": "C112", "title": "Copies in GRIB read back", "statement": "A dataset copied to GRIB, with any template, reads back with the size, the date and time, the satellite, the channel, the sub-satellite longitude and the geotransform of its source.", "quantifier": "every source, both resolutions, three templates", "why_tests_cant": "all images, times and positions", "anchors": ["gdal/grib/grib.cpp: GRIBCreateCopy, CreateGribWMO, CreateGribECMWF, CreateGribMsat, GRIBDataset::init, GetGeoTransform"]}
{"id": "C113", "title": "Values copied to GRIB", "statement": "In a copy in GRIB the pixels that are missing in the source are missing, and every other pixel has its scaled value, up to the precision of the packing, and is not missing.", "quantifier": "every image, no data value, scale and offset", "why_tests_cant": "all pixel values", "anchors": ["gdal/grib/grib.cpp: CreateGRIB::create, set_bitmap, set_data, IReadBlock"]}
{"id": "C114", "title": "Copies of copies in GRIB", "statement": "The GRIB copy of an image can itself be copied to GRIB, and pixel sizes do not change.", "quantifier": "both resolutions", "why_tests_cant": "needs real arithmetic on the projection constants", "anchors": ["gdal/grib/grib.cpp: GetGeoTransform, set_grid", "msat/facts.cpp: pixelHSizeFromSeviriDX"]}
{"id": "C115", "title": "Errors of the GRIB driver", "statement": "A GRIB file or source image that the driver cannot handle is refused with an error: no exception leaves the functions GDAL calls, and no missing object is dereferenced.", "quantifier": "every message and source image", "why_tests_cant": "all unusual messages", "anchors": ["gdal/grib/grib.cpp: GRIBOpen, GRIBCreateCopy, IReadBlock"]}
{"id": "C116", "title": "Failed writes of GRIB files", "statement": "When the copy cannot be written the copy fails; the dataset returned is always that of the copy.", "quantifier": "every failure of the write", "why_tests_cant": "needs full disks and existing files", "anchors": ["gdal/grib/grib.cpp:834-868: GRIBCreateCopy", "gdal/grib/utils.h:313-345: write"]}
{"id": "C117", "title": "NetCDF copies read back", "statement": "An image copied to NetCDF reads back with the same satellite, time, size, longitude, geotransform and the same bands in the same order with type, channel, offset, scale, no-data value and pixels; a band that cannot be written makes the copy fail.", "quantifier": "every source image: number of bands, types, names, projections and geotransforms", "why_tests_cant": "combinations of projections, geotransforms and bands", "anchors": ["gdal/netcdf/netcdf.cpp:274-522: CreateCopy", "gdal/netcdf/netcdf.cpp:116-300: open", "gdal/netcdf/netcdf.cpp:45-76: GetGeoTransform", "gdal/netcdf/utils.cpp:183-289: rasterBandToNcVar"]}
{"id": "C118", "title": "Reading pixels of NetCDF bands", "statement": "Reading a band of a NetCDF copy gives the pixels that were written and stays inside of the buffer, for all pixel types.", "quantifier": "every pixel type, size and content", "why_tests_cant": "buffer overruns are not seen by tests of values", "anchors": ["gdal/netcdf/utils.cpp:156-181: IReadBlock"]}
{"id": "C119", "title": "NetCDF24 copies read back", "statement": "An image of a SEVIRI satellite copied with the NetCDF24 driver can be opened again and reads back with the same satellite, time, size, longitude, geotransform and bands; no file makes opening it undefined.", "quantifier": "every source image and every file", "why_tests_cant": "all satellites, sizes and damaged files", "anchors": ["gdal/netcdf/netcdf24.cpp:262-497: CreateCopy", "gdal/netcdf/netcdf24.cpp:95-224: open"]}
{"id": "C120", "title": "Time variable of NetCDF copies", "statement": "The time variable of a NetCDF copy is the number of seconds from 2000-01-01 00:00:00 UTC to the time of the image.", "quantifier": "every date of the calendar and time of day", "why_tests_cant": "leap years and centuries over all dates", "anchors": ["gdal/netcdf/utils.cpp:29-59: forecastSeconds2000"]}
{"id": "C121", "title": "Every level 1.5 field is decoded from its own bytes", "statement": "Each field of the level 1.5 prologue, native header and trailer receives exactly the bytes that the record layout declared in the headers assigns to it, and no other.", "quantifier": "every field, every index of every repeated record and all file contents", "why_tests_cant": "a field read at a wrong offset still yields a plausible number; only a proof over all fields and indices covers the several thousand of them", "anchors": ["msat/hrit/MSG_data_GeometricProc.cpp: read_from", "msat/hrit/MSG_data_RadiometricProc.cpp: read_from", "msat/hrit/MSG_data_IMPFConfiguration.cpp: read_from", "msat/hrit/MSG_data_*.cpp: read_from"]}
{"id": "C122", "title": "A short prologue or epilogue is refused", "statement": "A prologue or epilogue file whose data field is shorter than the records it should hold is refused and not decoded; one that is long enough is decoded completely.", "quantifier": "all data field lengths and file contents", "why_tests_cant": "the out-of-bounds read usually goes unnoticed, so no test observes it", "anchors": ["msat/hrit/MSG_data.cpp: MSG_data::read_from"]}
{"id": "C123", "title": "Brightness temperatures of thermal channels", "statement": "For the eight thermal channels of HRIT products the value of a count is the temperature at which a black body has, in the band of the channel, the radiance of that count; counts of higher radiance are warmer, and counts without radiance are stored as the no-data value.", "quantifier": "all channels 4-11, all slopes and offsets of the prologue, all counts and bit depths", "why_tests_cant": "the logarithm has singular cases (zero and negative radiance) that occur only with unusual coefficients", "anchors": ["msat/hrit/MSG_data_RadiometricProc.cpp:576-625: get_calibration", "gdal/xrit/rasterband.cpp:71-103: IReadBlock"]}
{"id": "C124", "title": "HRIT bands are in the unit they announce", "statement": "For a band of an HRIT dataset, pixel value times scale plus offset is the radiance (solar channels) or the temperature (thermal channels) of the sample; files for which that is not possible are refused.", "quantifier": "all channel numbers, bit depths and samples", "why_tests_cant": "an index outside a table reads whatever lies next to it", "anchors": ["gdal/xrit/rasterband.cpp:21-64: init", "msat/hrit/MSG_data_RadiometricProc.cpp:576-648: get_calibration, get_slope_offset"]}
{"id": "C125", "title": "OpenMTP calibration tables", "statement": "The calibration table of an OpenMTP file gives, in the announced unit, the temperature at which the radiometer measures each count (0 at and below the space count), or the count in per cent for visible images.", "quantifier": "all header texts, channels, satellites and counts", "why_tests_cant": "the table depends on coefficients read from each file and goes through log(0)", "anchors": ["msat/openmtp/OpenMTP_image.cpp:59-104: OpenMTP_image::read"]}
{"id": "C126", "title": "HRI calibration tables", "statement": "Each image of an HRI file is calibrated with the coefficients that the header gives for its own band and with the constants of its satellite, in the announced unit.", "quantifier": "all formats, satellites, header coefficients and counts", "why_tests_cant": "a stale or uninitialised coefficient often holds a plausible value", "anchors": ["msat/hri/HRI.cpp:120-380: readfrom", "msat/hri/HRI_image.cpp:329-543: set_calibration, get_calibration"]}
{"id": "C127", "title": "Calibrated datasets", "statement": "A calibrated dataset shows the physical values of its source with scale 1 and offset 0; its minimum, maximum and no-data value are those of the source, calibrated.", "quantifier": "all sources, scales, offsets and pixels", "why_tests_cant": "depends on the sign of the scale and on the offset of the source", "anchors": ["msat/gdal/dataset.cpp:334-402: CalibratedDataset, CalibratedRasterBand"]}
{"id": "C128", "title": "Reflectance of a radiance", "statement": "radiance_to_reflectance returns the reflectance for the channels 1, 2, 3 and 12 and refuses the others.", "quantifier": "all channels and radiances", "why_tests_cant": "needs a statement about every channel", "anchors": ["msat/hrit/MSG_data_RadiometricProc.cpp:662-685: radiance_to_reflectance"]}
{"id": "C129", "title": "Zenith angle of a scan angle", "statement": "scan2zen returns the zenith angle under which the satellite is seen where the scan direction meets the earth, and the horizon beyond the limb.", "quantifier": "all scan angles and heights of the satellite", "why_tests_cant": "real-valued, with a boundary at the limb", "anchors": ["msat/hrit/MSG_data_RadiometricProc.cpp:650-657: scan2zen"]}
{"id": "C130", "title": "Uncompressed HRIT image segments are their pixels", "statement": "Reading an image segment whose header says it is not compressed yields one sample for each pixel, with the value the file has for it.", "quantifier": "every segment, header and host", "why_tests_cant": "the number of samples and the byte order depend on the data; no test has such a file", "anchors": ["msat/hrit/MSG_data.cpp:92-116", "msat/hrit/MSG_data_image.h:52-71"]}
{"id": "C131", "title": "Compressed HRIT image segments are the decoded pixels", "statement": "Reading a compressed segment yields, for each of the columns and lines of its header, the pixel that the decompression library makes; a format the reader does not know is refused.", "quantifier": "every segment, every decoder", "why_tests_cant": "all decoders and sizes, including those that disagree with the header", "anchors": ["msat/hrit/MSG_data.cpp:117-129", "msat/hrit/MSG_data_image.cpp:43-85"]}
{"id": "C132", "title": "Encryption key messages", "statement": "A key message yields one entry for each 197 bytes with the station, key number, public key and CRC of the message; a message without a whole key or with too many is refused.", "quantifier": "every list of keys, any trailing bytes", "why_tests_cant": "all contents; the fields overlap silently when an offset is wrong", "anchors": ["msat/hrit/MSG_data_key.cpp:49-69"]}
{"id": "C133", "title": "Text, GTS and binary messages are kept and copied", "statement": "The bytes of a text or GTS message are kept unchanged; GTS and binary messages are copied to exactly one file in the current directory, named after the annotation, and no other message writes a file.", "quantifier": "every message and annotation, any set of files that can be opened", "why_tests_cant": "all annotations, including hostile ones", "anchors": ["msat/hrit/MSG_data.cpp:131-172", "msat/hrit/MSG_data.cpp:263-283", "msat/hrit/MSG_data_gts.cpp:50-86", "msat/hrit/MSG_data_text.cpp:49-62"]}
{"id": "C134", "title": "Prologues of foreign satellites", "statement": "The prologue of a foreign satellite file yields the time, quality bytes, algorithm versions and product specific header that its bytes encode, and its length field is not trusted beyond the data.", "quantifier": "every prologue and length", "why_tests_cant": "all 2^32 lengths", "anchors": ["msat/hrit/MSG_data_SGS_header.cpp:44-172", "msat/hrit/MSG_data.cpp:207-224"]}
{"id": "C135", "title": "Every data field that is read can be printed", "statement": "Printing what was read from a file of any type gives a text.", "quantifier": "every file type, header and content", "why_tests_cant": "all contents, including texts without a terminator", "anchors": ["msat/hrit/MSG_data.cpp:294-333", "msat/hrit/MSG_data_text.cpp:88-98", "msat/hrit/MSG_data_key.cpp:71-96"]}
{"id": "C136", "title": "Texts of HRIT times", "statement": "A time stamp prints as the calendar date, time and milliseconds of its moment; the longer stamps add micro and nanoseconds; different stamps have different texts.", "quantifier": "every day from 1958 to 2137 and every millisecond", "why_tests_cant": "5.6e12 stamps", "anchors": ["msat/hrit/MSG_time_cds.cpp:101-121", "msat/hrit/MSG_time_cds.cpp:226-246", "msat/hrit/MSG_time_cds.cpp:289-309"]}
{"id": "C137", "title": "Generalized and unsegmented times", "statement": "A generalized time YYYYMMDDhhmmssZ prints as that date and time and its seconds are those since 1970 UTC, on any host; an unsegmented time is the number of seconds of its seven bytes.", "quantifier": "every date, every time zone, every seven bytes", "why_tests_cant": "all dates, zones and bytes", "anchors": ["msat/hrit/MSG_time_cds.cpp:152-160", "msat/hrit/MSG_time_cds.cpp:339-376"]}
{"id": "C138", "title": "Data objects can be destroyed", "statement": "An object holding the data of a file, made empty or from an open file, is destroyed with everything it holds, each part once.", "quantifier": "every file", "why_tests_cant": "uninitialised pointers are harmless in most runs", "anchors": ["msat/hrit/MSG_data.cpp:55-81"]}
{"id": "C139", "title": "The geometry of HRI files is that of their images", "statement": "The scaling factors and offsets of a file are those of the resolution of every image in it.", "quantifier": "every format and band", "why_tests_cant": "12 formats with several images; tests look at one file", "anchors": ["msat/hri/HRI_geolocation.h:44-83"]}
{"id": "C140", "title": "Setting a channel of a DB1 directory gives that channel", "statement": "After opening a ThornSDS DB1 directory and setting a channel listed in its index, the object tells that the data are good and gives the bytes of that channel's file, their number, its name, its variable and a calibration table for all counts; setting another channel replaces all of this; closing frees everything; setting a channel that is not there, or before opening, leaves no data; asking whether a channel is there changes nothing.", "quantifier": "every directory with well formed files, every channel and sequence of channels", "why_tests_cant": "depends on texts of three files and on the history of the object; leaks and stale data do not show in single calls", "anchors": ["msat/thornsds_db1/thornsds_db1.cpp:36-163", "msat/thornsds_db1/thornsds_db1.cpp:422-450"]}
{"id": "C141", "title": "DB1 calibration tables are those of the calibration file", "statement": "Entry i of the calibration table of a channel is the number the calibration file has for count i of the channel's variable, or 0 if it has none, whatever the name of the variable; counts outside of the table give 0.", "quantifier": "every calibration file, variable name and count", "why_tests_cant": "the keys are built by printing into a buffer of 32 characters; tests use the short names", "anchors": ["msat/thornsds_db1/thornsds_db1.cpp:117-124", "msat/thornsds_db1/thornsds_db1.cpp:346-359", "msat/thornsds_db1/thornsds_db1.cpp:413-420"]}
{"id": "C142", "title": "DB1 channels converted to NetCDF keep their data and their place", "statement": "A NetCDF file made from a DB1 channel opens with the NetCDF driver and has the size, satellite, time, channel number, every sample and the georeference that the directory says; bad input is refused with an error.", "quantifier": "every directory, channel, image size, offsets and start time", "why_tests_cant": "two programs and five files involved; a symmetric area hides exchanged offsets", "anchors": ["tools/thornsds_db1/db1_to_netcdf.cpp:34-193", "gdal/netcdf/netcdf.cpp:45-300"]}
{"id": "C143", "title": "XRIT2NetCDF and XRIT2Image put segments together by number", "statement": "For HRIT files found in any order, the image that XRIT2NetCDF and XRIT2Image work on has the rows of the segments one after the other by their sequence numbers, and zeros for the segments that are missing; its size is that of one segment times the planned number of segments. A file whose number is not within that plan, or whose data field is shorter than a segment, is refused.", "quantifier": "every set of files, every order, every number of segments, every size of segment", "why_tests_cant": "The order of files and the set of missing segments are unbounded; a number outside of the plan writes outside of an array, which a test may not notice.", "anchors": ["tools/hrit/XRIT2NetCDF.cpp:231-249", "tools/hrit/XRIT2NetCDF.cpp:319-337", "tools/hrit/XRIT2Image.cpp:190-226"]}
{"id": "C144", "title": "XRIT2NetCDF -a cuts the part that was asked for", "statement": "With option -a line,lines,pixel,pixels (counted from 1) the NetCDF file has exactly those lines and pixels of the image when they are within it, ends with an error otherwise, and places the part on the grid where it is in the whole image.", "quantifier": "every image, every four numbers with positive sizes", "why_tests_cant": "Any part of any image; a shift of the grid by one pixel is not visible in the values.", "anchors": ["tools/hrit/XRIT2NetCDF.cpp:112-120", "tools/hrit/XRIT2NetCDF.cpp:340-375", "tools/hrit/XRIT2NetCDF.cpp:413-418", "gdal/netcdf/netcdf.cpp:45-76"]}
{"id": "C145", "title": "A product converted by XRIT2NetCDF shows what the HRIT driver shows", "statement": "The NetCDF file made from a product of an MSG satellite, opened with the NetCDF driver, has the satellite, the minute of the start of the repeat cycle, the channel, the size, the grid and at each place the sample that the HRIT driver has for the same segments.", "quantifier": "every product of an MSG satellite, every start from 1958 to 2137", "why_tests_cant": "Two drivers and a converter are involved; agreement at each of 3712 x 3712 places for all contents cannot be tested.", "anchors": ["tools/hrit/XRIT2NetCDF.cpp:305-485", "gdal/netcdf/netcdf.cpp:116-300", "msat/hrit/MSG_channel.cpp:32-209", "msat/hrit/MSG_spacecraft.cpp:32-137", "msat/xrit/dataaccess.cpp:213-247"]}
{"id": "C146", "title": "Names of files made by XRIT2NetCDF are distinct", "statement": "Two products of MSG satellites get the same name of the NetCDF file exactly when they are the same channel of the same satellite in the same minute. The name says the channel, the day and the minute, without blanks and with no dot but that of the suffix.", "quantifier": "all pairs of MSG satellites, channels and starts of repeat cycles from 1958 to 2137", "why_tests_cant": "Pairs of products are unbounded; a collision silently replaces a file.", "anchors": ["tools/hrit/XRIT2NetCDF.cpp:389-397", "msat/hrit/MSG_channel.cpp:32-89"]}
{"id": "C147", "title": "The picture of XRIT2Image is upright", "statement": "The picture that XRIT2Image makes of a product has at each place the sample that the HRIT driver has for the same segments.", "quantifier": "every product, every history of reads of the driver", "why_tests_cant": "Agreement of all samples of all products with another program.", "anchors": ["tools/hrit/XRIT2Image.cpp:166-232", "msat/xrit/dataaccess.cpp:213-247"]}
{"id": "C148", "title": "A converted OpenMTP file is the image it was made of", "statement": "The NetCDF file that OpenMTP_to_NetCDF makes of an OpenMTP image is opened by the NetCDF driver with the size, satellite, minute, channel, place on earth and pixels of the image.", "quantifier": "every OpenMTP file with a complete header and all its lines, whatever follows it", "why_tests_cant": "The converted file is read by another program of the same library; only all contents of headers and lines settle what it sees.", "anchors": ["tools/openmtp/OpenMTP_to_NetCDF.cpp:43-188", "gdal/netcdf/netcdf.cpp:96-272"]}
{"id": "C149", "title": "Converted OpenMTP files do not replace each other", "statement": "Two OpenMTP files are converted to files of the same name exactly when satellite, field and minute are the same.", "quantifier": "every two OpenMTP files with dates", "why_tests_cant": "Names must differ for all pairs of different files.", "anchors": ["tools/openmtp/OpenMTP_to_NetCDF.cpp:62-75"]}
{"id": "C150", "title": "The day of an HRI file does not depend on the machine", "statement": "The day and month read from an HRI file are those of the day of the year in its identification, on a machine in any time zone.", "quantifier": "every identification with a valid day of the year, every time zone, big and little endian hosts", "why_tests_cant": "A test runs in one time zone; the dependence is on all zones and all days of all years.", "anchors": ["msat/hri/HRI_subframe_identification.cpp:79-98"]}
{"id": "C151", "title": "All files made of an HRI file have its minute", "statement": "Every NetCDF file that HRI2NetCDF makes of the images of an HRI file has the minute of that file in its name and attributes, in every time zone and season.", "quantifier": "every complete HRI file of every format, every time zone with or without daylight saving", "why_tests_cant": "The effect shows only for the second image, in zones with daylight saving, in summer.", "anchors": ["tools/hri/HRI2NetCDF.cpp:67-145", "msat/hri/HRI.cpp:390-393"]}
{"id": "C152", "title": "A converted HRI image is the image it was made of", "statement": "The NetCDF files that HRI2NetCDF makes of an HRI file are opened by the NetCDF driver with the size, satellite, minute, longitude, place on earth, channel and pixels of the images.", "quantifier": "every complete HRI file of every format, whatever follows it", "why_tests_cant": "The converted files are read by another program; only all formats and contents settle what it sees.", "anchors": ["tools/hri/HRI2NetCDF.cpp:69-160", "msat/hri/HRI_image.cpp:61-233", "gdal/netcdf/netcdf.cpp:116-300"]}
{"id": "C153", "title": "Converted HRI images do not replace each other", "statement": "Two images of HRI files are converted to files of the same name only when they are the same channel of the same satellite, format and minute.", "quantifier": "every two images of every two HRI files", "why_tests_cant": "Names must differ for all pairs of different images.", "anchors": ["tools/hri/HRI2NetCDF.cpp:71-77", "msat/hri/HRI_image.cpp:61-233", "msat/hri/HRI.cpp:425-431"]}
{"id": "C154", "title": "xritdump draws every product", "statement": "xritdump draws each segment of a product it can read as 3 lines of 50 characters and the whole image as 24 lines of 50, sampled at regular places, in eight tones from the smallest sample to the largest one; missing segments are reported and drawn dark.", "quantifier": "every product, of any segment size, orientation and content, complete or not", "why_tests_cant": "The outcome depends on the extreme values of all samples and on which segments are missing.", "anchors": ["tools/hrit/xritdump.cpp:86-148"]}
{"id": "C155", "title": "A product opens with what its files say", "statement": "Opening an HRIT or LRIT product through the GDAL driver gives a raster of the size of the reference grid whose metadata are those of the files: satellite and channel names, start of the repeat cycle, sub-satellite longitude, pixel size, unit and calibration. Files that are missing or of the wrong kind make the open fail.", "quantifier": "every product: any prologue, epilogue and segment files in any order", "why_tests_cant": "The metadata combine dozens of bytes at fixed places of files of hundreds of kilobytes; a test with one product fixes all of them at once.", "anchors": ["gdal/xrit/dataset.cpp:33-109", "msat/xrit/dataaccess.cpp:86-151", "gdal/xrit/rasterband.cpp:22-63"]}
{"id": "C156", "title": "Reading an opened product", "statement": "Each row of the raster of an opened product has the samples of the line at that distance from the north of the image, west to east, at the columns of the coverage window for HRV, and zeros where the product has no data; this does not depend on what was read before.", "quantifier": "every product with any subset of its segments, every row, every earlier sequence of reads", "why_tests_cant": "A segment cache, two orientations and two HRV windows interact; which rows come out wrong depends on the reading history.", "anchors": ["gdal/xrit/rasterband.cpp:71-103", "msat/xrit/dataaccess.cpp:45-151", "msat/xrit/dataaccess.cpp:153-247"]}
{"id": "C157", "title": "Pixels are where the navigation record puts them", "statement": "The geotransform of an opened product puts the middle of every pixel where the navigation record of the files puts the sample shown there.", "quantifier": "every product, every pixel, every pixel size and every column and line offset", "why_tests_cant": "A constant displacement is invisible without an independent notion of where a sample is.", "anchors": ["gdal/xrit/dataset.cpp:69-109"]}
{"id": "C158", "title": "OpenMTP-IDS images converted to PGM", "statement": "For each channel named in the header of a readable OpenMTP-IDS file, the converter writes a PGM file (vis.pgm, ir.pgm, wv.pgm) whose rows are exactly the scan lines of that channel in file order; no other file is touched, and the file determines the image.", "quantifier": "every readable file, of any number of records and lines, and every directory content", "why_tests_cant": "order and selection over all interleavings of lines; ragged and unknown channels are not in any sample", "anchors": ["tools/omtp-ids/OpenMTP-IDS_to_pgm.cc: write_pgm, write_channel_pgm, openmtp_ids_to_pgm"]}
{"id": "C159", "title": "Exit status of the PGM converter", "statement": "The converter exits with success if at least one of the three channels was written, and with failure otherwise; a file that is not OpenMTP-IDS gives failure and touches nothing.", "quantifier": "every file content and directory", "why_tests_cant": "all combinations of channels present and writable", "anchors": ["tools/omtp-ids/OpenMTP-IDS_to_pgm.cc: openmtp_ids_to_pgm, main"]}
{"id": "C160", "title": "Extraction of a sector of an OpenMTP-IDS image", "statement": "For every image that covers the sector, the file written can be read back and holds the lines and pixels of the sector in order, with the line numbers, channels and quality of the originals, at their positions in the original image, followed only by blank lines that fill the last record.", "quantifier": "every readable image with enough lines and pixels", "why_tests_cant": "the number of lines per record goes through a rounded square root and quotient; all image heights", "anchors": ["tools/omtp-ids/OpenMTP-IDS_sector.cc: record_lines, no_records, repack, sector_line, sector, openmtp_ids_sector"]}
{"id": "C161", "title": "Sector extraction of unsuitable files", "statement": "A file that cannot be read, or an image too small for the sector, makes the sector extraction exit with failure and a message.", "quantifier": "every file content", "why_tests_cant": "inputs are arbitrary bytes; undefined behaviour is not observable in a test", "anchors": ["tools/omtp-ids/OpenMTP-IDS_sector.cc: main, sector_line, repack"]}
{"id": "C162", "title": "Writing all the data to a descriptor", "statement": "Writing a buffer with the retrying call sends exactly the bytes of the buffer, in order and once each, however the system splits the writes; the call returns exactly when all of it was sent and throws only when a write failed. The single-write variant returns exactly when all of it was sent.", "quantifier": "every buffer and every sequence of partial writes and failures", "why_tests_cant": "the sizes of partial writes are chosen by the kernel and unbounded in number", "anchors": ["msat/utils/sys.cc:356-362, 388-400 FileDescriptor::write, write_all_or_retry, write_all_or_throw"]}
{"id": "C163", "title": "Reading an exact number of bytes", "statement": "Reading count bytes with the retrying call stores the next count bytes of the file and returns true, returns false only at the end of the file, and throws when the file ends part way or a read fails; the bytes not stored stay unread.", "quantifier": "every count, content and sequence of partial reads and failures", "why_tests_cant": "the sizes of partial reads are chosen by the kernel and unbounded in number", "anchors": ["msat/utils/sys.cc:321-354 FileDescriptor::read, read_all_or_retry, read_all_or_throw"]}
{"id": "C164", "title": "Whole files round trip", "statement": "A file written with write_file and read with read_file gives the same bytes; an existing file keeps its permissions, a new one gets the mode less the umask, no other file changes. What read_file returns is the content of the file.", "quantifier": "every directory state, content, mode, umask and sequence of write results", "why_tests_cant": "states and contents are unbounded", "anchors": ["msat/utils/sys.cc:1045-1060 read_file", "msat/utils/sys.cc:1062-1092 write_file"]}
{"id": "C165", "title": "Atomic replacement of a file", "statement": "While write_file_atomically runs, and whatever fails, the destination holds either its old content or the complete new content; when it returns it holds the new content. Only the destination changes, and nothing else is left in the directory.", "quantifier": "every directory state, content and point of failure", "why_tests_cant": "a crash or a failed system call at every moment; interleavings with readers", "anchors": ["msat/utils/sys.cc:1114-1130 write_file_atomically"]}
{"id": "C166", "title": "Reading symbolic links of any length", "statement": "Path::readlinkat returns the whole text of the link, however long.", "quantifier": "every link text", "why_tests_cant": "unbounded lengths; buffer growth and truncation boundaries", "anchors": ["msat/utils/sys.cc:695-710 Path::readlinkat"]}
{"id": "C167", "title": "Elapsed time", "statement": "timesec_elapsed gives the nanoseconds between two normalised times, and 0 when the second precedes the first.", "quantifier": "every pair of normalised times whose distance fits the result", "why_tests_cant": "all pairs of seconds and nanoseconds; overflow is undefined and not observable", "anchors": ["msat/utils/sys.cc:1285-1301 timesec_elapsed"]}
{"id": "C168", "title": "Looking up a program in the search path", "statement": "which(name) finds the executable a shell would run: the first entry of PATH holding an executable of that name, the empty entry standing for the current directory; names with a slash are not looked up; a name not found is returned as given.", "quantifier": "every name, search path and set of executables", "why_tests_cant": "all paths with any number of entries, empty ones included", "anchors": ["msat/utils/sys.cc:1215-1234 which"]}
{"id": "C169", "title": "File type tests", "statement": "isdir, isblk, ischr, isfifo, islnk, isreg and issock tell whether the path names an object of that type, and false when nothing is there.", "quantifier": "every kind of object, link or nothing", "why_tests_cant": "every type and target combination for each of the seven tests", "anchors": ["msat/utils/sys.cc:103-146 isdir ... issock"]}
{"id": "C170", "title": "Removing a directory tree", "statement": "rmtree deletes the named directory with everything in it and nothing else: symbolic links are deleted, not followed.", "quantifier": "every finite tree of any depth in every file system state", "why_tests_cant": "trees of unbounded depth and breadth, aliasing through links", "anchors": ["msat/utils/sys.cc:586-618 Path::unlinkat, rmdirat", "msat/utils/sys.cc:759-771 Path::iterator::isdir", "msat/utils/sys.cc:860-875 Path::rmtree", "msat/utils/sys.cc:1248-1276 rmtree, rmtree_ifexists"]}
{"id": "C171", "title": "Ownership of memory mappings", "statement": "Over every history of creating, moving, assigning, unmapping and destroying MMap objects, every mapping is unmapped exactly once, never while another object holds it; moving a mapping into any other object moves it.", "quantifier": "every finite history of operations on any number of objects", "why_tests_cant": "unbounded histories, exceptions included", "anchors": ["msat/utils/sys.cc:231-265 MMap", "msat/utils/sys.cc:408-414 FileDescriptor::mmap"]}
{"id": "C172", "title": "Ownership of file descriptors", "statement": "Over every history of opening, moving, assigning, reopening, closing and destroying owning descriptor objects, every descriptor is closed exactly once and by its owner; no descriptor of another object is ever closed.", "quantifier": "every finite history of operations, with failing closes", "why_tests_cant": "unbounded histories and reuse of descriptor numbers by the system", "anchors": ["msat/utils/sys.cc:273-299 FileDescriptor, close", "msat/utils/sys.cc:518-560 ManagedNamedFileDescriptor", "msat/utils/sys.cc:578-584 Path::open", "msat/utils/sys.cc:934-940 File::open"]}
{"id": "C173", "title": "Descriptors of a child process", "statement": "In the new process standard input, output and error are what the redirections asked for (a pipe, a given descriptor, the null device, standard output, or unchanged), and every other descriptor is closed when close_fds or pass_fds was given, except those passed.", "quantifier": "every combination of redirections, every descriptor table and descriptors given", "why_tests_cant": "all descriptor numbers, coincidences between them, and table states", "anchors": ["msat/utils/subprocess.cc:203-308 Child::post_fork_child", "msat/utils/subprocess.cc:310-313 Child::fork", "msat/utils/subprocess.h: Redirect, close_fds, pass_fds"]}
{"id": "C174", "title": "Descriptors of the parent process", "statement": "Whatever the redirections, and whichever pipe ends the program closes meanwhile, once the Subprocess object is destroyed the parent has exactly the open descriptors it had before, also when starting the process failed.", "quantifier": "every table, redirections, sequence of close calls and failure", "why_tests_cant": "unbounded sequences; descriptor numbers chosen by the system", "anchors": ["msat/utils/subprocess.cc:18-46 Child::~Child", "msat/utils/subprocess.cc:116-201 close_stdin ... post_fork_parent", "msat/utils/subprocess.cc:310-336 Child::fork"]}
{"id": "C175", "title": "Waiting for a child process", "statement": "wait() and returncode() give the exit code of a child that exited, and tell it from one killed by a signal; wait(ms) returns true exactly when the child has ended, false when the time is up; signals are sent to the child.", "quantifier": "every status, time limit and sequence of interruptions", "why_tests_cant": "unbounded number of interruptions; all status words", "anchors": ["msat/utils/subprocess.cc:48-51, 339-378 returncode, poll, wait", "msat/utils/subprocess.cc:407-464 wait(int), send_signal"]}
{"id": "C176", "title": "The outcome of a child process in words", "statement": "format_raw_returncode describes every outcome - success, exit code, signal, core dump - and different outcomes have different descriptions.", "quantifier": "every exit code and signal, with and without core dump", "why_tests_cant": "all pairs of outcomes", "anchors": ["msat/utils/subprocess.cc:470-492 Child::format_raw_returncode"]}
{"id": "C177", "title": "Environment and arguments of a child program", "statement": "The program started by Popen gets exactly the arguments given; setenv sets one variable and changes no other; copy_env_from_parent gives it the environment of the parent, overriding what was set.", "quantifier": "every environment, sequence of assignments and arguments", "why_tests_cant": "unbounded environments and texts; names that are prefixes of others", "anchors": ["msat/utils/subprocess.cc:500-582 Popen::copy_env_from_parent, setenv, main", "msat/utils/subprocess.h: Popen"]}
{"id": "C178", "title": "Colours on a terminal", "statement": "On a terminal the text is shown in the foreground and background colours asked for and the terminal is left plain; anything else gets the text alone.", "quantifier": "every colour combination and text", "why_tests_cant": "what a terminal displays is not compared by a test; every combination and text", "anchors": ["msat/utils/term.cc:9-18, 50-125 Terminal::set_color, color"]}
{"id": "C179", "title": "Opening any NetCDF product", "statement": "A NetCDF file with a satellite, full sampling and a readable time opens with one band per image variable in file order, each with the size, values and channel of its variable, the satellite and time stated, and the size of its images; any other file is not opened.", "quantifier": "every NetCDF file content", "why_tests_cant": "files made by other programs; any number and kind of variables and attributes", "anchors": ["gdal/netcdf/netcdf.cpp:80-265 MsatNetCDFRasterBand, NetCDFDataset::init, NetCDFOpen"]}
{"id": "C180", "title": "Copying an OpenMTP-IDS file", "statement": "The copy made of an OpenMTP-IDS file holds the same header, records and pixels, no other file is touched, and copying the copy changes nothing; the program exits with success only when the copy is complete, and with failure and a message otherwise.", "quantifier": "every file content, name, directory and way the system can take the bytes", "why_tests_cant": "file contents are arbitrary bytes, and failures of the disk happen at any byte", "anchors": ["tools/omtp-ids/OpenMTP-IDS_write.cc: main", "msat/omtp-ids/OpenMTP-IDS.cc: read, write"]}
{"id": "C181", "title": "Iterating over a directory", "statement": "A loop over a Path gives each entry the system lists exactly once, in order; however the loop is left, by its end, an error or an exception of its body, the directory stream is closed exactly once. A Path that is not open has no entries, and nothing is opened for it.", "quantifier": "every sequence of answers of the system and every body", "why_tests_cant": "errors of readdir at every position, and leaks, do not occur in tests", "anchors": ["msat/utils/sys.cc: Path::fdopendir, Path::begin, Path::iterator", "msat/utils/sys.h: Path::iterator"]}
{"id": "C182", "title": "Types of directory entries", "statement": "isdir, isblk, ischr, isfifo, islnk, isreg and issock of an entry tell what the entry itself is, whether or not the file system gives the types with the names.", "quantifier": "every entry, link target and file system", "why_tests_cant": "the file systems of the test machines give the types", "anchors": ["msat/utils/sys.cc: Path::iterator::isdir to issock, Path::fstatat"]}
{"id": "C183", "title": "Limits overridden for a block", "statement": "Within the lifetime of an OverrideRlimit the soft limit is the one asked for; when all such objects are destroyed every limit is what it was, however the objects are nested and however the blocks are left.", "quantifier": "all nestings of blocks, calls and exceptions, all limits", "why_tests_cant": "unbounded nesting, and limits of the machine", "anchors": ["msat/utils/sys.cc: OverrideRlimit, setrlimit"]}
{"id": "C184", "title": "File times preserved for a block", "statement": "When a PreserveFileTimes is destroyed the file has the access and modification times it had when the object was made; no other file is changed.", "quantifier": "every sequence of operations in the block", "why_tests_cant": "orders of closing and opening descriptors, and owners of files", "anchors": ["msat/utils/sys.cc: PreserveFileTimes, FileDescriptor::futimens"]}
{"id": "C185", "title": "Progress messages are an outline", "statement": "With a stream handler every task and activity is reported on one line, in order, with one blank for each task it is part of, also after a task was left by an exception; an activity shows its count and total as (count/total), or the count alone as a percentage; with the default handler nothing is written.", "quantifier": "all nestings of tasks, activities and exceptions", "why_tests_cant": "unbounded nesting and exceptions at any place", "anchors": ["msat/Progress.cpp: ProgressTask, StreamProgressHandler", "msat/Progress.h"]}
{"id": "C186", "title": "Ownership of progress handlers", "statement": "Each handler given to setHandler is deleted exactly once, when another one takes its place, and messages always go to a live handler.", "quantifier": "every sequence of handlers", "why_tests_cant": "use after deletion is not observable in a test", "anchors": ["msat/Progress.cpp: Progress::setHandler"]}
{"id": "C187", "title": "Exit status of a test run", "statement": "The test program exits with 0 exactly when at least one test that the patterns pick passes and no picked test, set up or tear down goes wrong; otherwise with 1.", "quantifier": "every list of test cases and tests, what each does, and every pattern", "why_tests_cant": "a test runner cannot check its own exit status over all outcomes", "anchors": ["msat/utils/testrunner.cc:55-64, 228-331", "msat/utils/tests.cc:596-710", "msat/utils/tests-main.cc:14-50"]}
{"id": "C188", "title": "Tests are called once, in order", "statement": "Each test that is picked is called exactly once, in order, between its own set up and tear down, which is called for every set up; the controller is told of properly nested begins and ends.", "quantifier": "every list of test cases and tests and what they throw", "why_tests_cant": "all combinations of exceptions of hooks and tests", "anchors": ["msat/utils/tests.cc:596-710 TestCase::run_tests, run_test"]}
{"id": "C189", "title": "Failures are reported", "statement": "The report shows every test that fails, with its own error and the places of the checks it was in, and every failing set up or tear down.", "quantifier": "every list of test cases and tests and what they throw", "why_tests_cant": "all combinations of failures", "anchors": ["msat/utils/testrunner.cc:18-64, 306-331", "msat/utils/tests.cc:646-710"]}
{"id": "C190", "title": "Skipped tests do not count", "statement": "A test that throws TestSkipped, wherever in its code, changes neither the exit status nor the report.", "quantifier": "every test program, and a test inserted at every place", "why_tests_cant": "skipping happens where something is missing on the machine", "anchors": ["msat/utils/tests.h:136-142, 445-453 TestSkipped, wassert", "msat/utils/tests.cc:646-710"]}
{"id": "C191", "title": "Places of nested checks", "statement": "A failure inside nested checks carries its own text and the places of all the checks, innermost first; wassert_throws gives the exception when one of the class asked for is thrown and fails otherwise.", "quantifier": "every nesting depth and exception", "why_tests_cant": "unbounded nesting", "anchors": ["msat/utils/tests.h:445-501 wassert, wassert_throws, wcallchecked, wfail_test"]}
{"id": "C192", "title": "Checks on the lines of a file", "statement": "contents_equal with lines passes exactly for files that consist of these lines, up to white space at the end; contents_match with lines passes exactly when each line matches its expression.", "quantifier": "every file content and list of lines", "why_tests_cant": "all contents, with white space and empty lines anywhere", "anchors": ["msat/utils/tests.cc:464-542 ActualPath::contents_equal, contents_match"]}
{"id": "C193", "title": "Checks on beginnings, ends and parts", "statement": "The checks that a text, path or file begins with, ends with, contains or equals another pass exactly when it does, also for null pointers and paths of any depth; those on regular expressions and on exceptions pass exactly when the text, or that of the exception thrown, matches.", "quantifier": "all texts, paths and contents", "why_tests_cant": "all lengths and overlaps", "anchors": ["msat/utils/tests.cc:118-148, 189-205, 223-255, 381-414, 487-495, 564-575"]}
{"id": "C194", "title": "Options of msat", "statement": "Each option of msat has its documented effect, the last one of a kind counts, bands are processed in the order given; a value of the wrong form is refused with status 1; images drawn without an option about sizes are limited to 1280 pixels a side, and nothing else is; without a file the program ends with status 1.", "quantifier": "every sequence of options and every text given as a value", "why_tests_cant": "unbounded sequences of options and texts", "anchors": ["tools/msat.cpp:366-545 Msat::parse_cmdline", "msat/gdal/gdaltranslate.cpp:320-331"]}
{"id": "C195", "title": "Images around a place", "statement": "msat --around gives the part of the image that has the given place in its middle and the given size, to within a pixel.", "quantifier": "every place, size and image", "why_tests_cant": "all georeferences and sizes", "anchors": ["tools/msat.cpp:448-462", "msat/gdal/gdaltranslate.cpp:235-298"]}
{"id": "C196", "title": "Metadata from a template", "statement": "With msat --copymd the results have the description and metadata of the template, and of its bands, and the pixels of the inputs; each input gives its own output file.", "quantifier": "every template and list of inputs", "why_tests_cant": "templates with other numbers of bands, several inputs", "anchors": ["tools/msat.cpp:668-691, 700-726"]}
{"id": "C197", "title": "PGM dumps of native channels", "statement": "The PGM file that pgmdump writes for a channel of a native file is read by any PGM reader as the samples of the channel, line by line; nothing is written for channels that were not read.", "quantifier": "every native file, selection, channel and header text", "why_tests_cant": "needs all files and an independent reader of the format", "anchors": ["msat/msg-native/MSG_native.cpp: MSG_native::pgmdump", "msat/msg-native/MSG_native_line.cpp: to_sample"]}
{"id": "C198", "title": "Pictures made by native2Image", "statement": "native2Image writes the picture of the channel asked for, normalised and turned by 180 degrees, scaled by the factor given, under a name that tells pictures of different files and channels apart; channels that are not in the file are refused.", "quantifier": "every native file, channel, format and factor", "why_tests_cant": "all files and arguments; the effect of an argument on the file written", "anchors": ["tools/msg-native/native2Image.cpp"]}
{"id": "C199", "title": "Pictures made by db1_to_image", "statement": "db1_to_image writes the samples of the channel, normalised, with north on top, combined with the overlay that the argument names and scaled, under a name made of satellite, channel, start and format without slashes, blanks and colons.", "quantifier": "every DB1 directory, channel, format, factor and overlay", "why_tests_cant": "all directories and arguments", "anchors": ["tools/thornsds_db1/db1_to_image.cpp"]}
{"id": "C200", "title": "Files that may be missing", "statement": "stat, and timestamp, size and inode with a default, report a missing file by the null pointer or the default and every existing file by its attributes. unlink_ifexists returns true after it removed exactly that entry, and false without a change when there is no such entry. rename_ifexists returns true after it moved exactly that entry, and false without a change when there is no source.", "quantifier": "every file system, current directory and path, with links on the way", "why_tests_cant": "tests look at a few present and missing files; a missing file behind a path that goes through a plain file, and a rename whose destination is missing, are not tried", "anchors": ["msat/utils/sys.cc:46-83", "msat/utils/sys.cc:157-187", "msat/utils/sys.cc:1141-1196"]}
{"id": "C201", "title": "Temporary files go away", "statement": "Tempfile makes a new file whose name is the prefix followed by six characters and changes nothing else. When the object goes out of scope the file it made is removed and nothing else is, unless unlink_on_exit(false) was called or the file is already gone; in these cases nothing happens.", "quantifier": "every file system, prefix, and everything that happens between construction and destruction", "why_tests_cant": "tests construct and destroy the object in one directory with nothing in between", "anchors": ["msat/utils/sys.cc:951-1008"]}
{"id": "C202", "title": "Locks are waited for", "statement": "ofd_setlk returns true when the lock is granted and false when others hold it. ofd_setlkw with retries waits through any number of signals, returns true when the lock is granted and never returns false; without retries a signal makes it return false. Other errors are thrown.", "quantifier": "every sequence of answers of the kernel, of any length", "why_tests_cant": "signals during a wait cannot be produced reliably by a test, and not in any number", "anchors": ["msat/utils/sys.cc:416-443"]}
{"id": "C203", "title": "Files that the HRIT tools read", "statement": "XRIT2NetCDF and XRIT2Image with -d, -r, -s, -c and -t, each taken from its last use, read all files of the directory (the current one without -d) whose names are those of segments of the product, compressed or not, in the order of the directory listing, and no others; XRIT2NetCDF also reads the prologue and ends with status 1 unless there is exactly one. Without a segment file, with one that cannot be opened or without one of the four options they end with status 1. Whatever the GDAL driver reads for the product they read too. When a segment is there twice, compressed and not, the driver reads the former and the tools use the latter. False as tools with checked arguments: an option that does not exist ends them with status 0, identifiers longer than 12 and 9 characters are cut without a message, and the characters of options work as those of a pattern, so that -r ? puts segments of all resolutions into one product.", "quantifier": "every list of options, every directory listing, every product, every content of files", "why_tests_cant": "test data has one product in one directory with fixed options", "anchors": ["tools/hrit/XRIT2Image.cpp:50-185", "tools/hrit/XRIT2NetCDF.cpp:64-228", "tools/hrit/XRIT2Image.cpp:274-288"]}
{"id": "C204", "title": "Picture of XRIT2Image", "statement": "For the files of an image product the tool writes one picture, to <resolution>-<id1>-<id2>-<time>.<format>, format jpg when none is given: columns by lines of all planned segments, turned by 180 degrees (last row first, last sample of a row first), zeros where a segment is missing, normalized before that with -n, then the picture of -o added, then reduced by the factor of -g. An overlay that cannot be read ends the program without a picture. False for all channels and factors: for the HRV channel -o makes no difference, not even with a missing file, and -g with 1 or more makes none, both without a message.", "quantifier": "every list of options, every product whose segments have one shape, every picture library", "why_tests_cant": "needs pictures of real products compared for all combinations of options", "anchors": ["tools/hrit/XRIT2Image.cpp:189-258"]}
{"id": "C205", "title": "Option -a of XRIT2NetCDF", "statement": "-a with four numbers and commas between them (white space and signs allowed, anything after them ignored) makes the product of that part of the image: first line, lines, first pixel, pixels, counted from 1. False for other texts: with fewer than four numbers there is no message and no exit status, no file can be made and the program ends in an exception or uses a null pointer; and a second -a without numbers moves the part of the first one by one line and one pixel.", "quantifier": "every text of -a, every other option, every directory and product", "why_tests_cant": "numbers and texts are unbounded; the tool has no test", "anchors": ["tools/hrit/XRIT2NetCDF.cpp:57-58", "tools/hrit/XRIT2NetCDF.cpp:111-120", "tools/hrit/XRIT2NetCDF.cpp:340-375"]}
{"id": "C206", "title": "Temporary directories go with their object", "statement": "A sys::Tempdir makes a new empty directory under a free name with the given prefix; when the object ends, the directory and everything in it are deleted and nothing else is, also when the directory was renamed or the current directory has changed; with rmtree_on_exit(false) it stays; the end of the object never ends the program.", "quantifier": "every file system state, prefix, tree of any depth put into the directory, and change of name or current directory in between", "why_tests_cant": "trees of any depth and shape, and any change of the file system during the life of the object", "anchors": ["msat/utils/sys.cc:566-575, 860-908, 1015-1034", "msat/utils/sys.h:400-529"]}
{"id": "C207", "title": "An open directory is worked on by its object", "statement": "The functions of an open sys::Path that take a name find, make and delete entries of the directory that was opened, whatever happens to its path or to the current directory; those for entries that may be missing tell so without an exception, the others throw; links are followed except by lstatat; a name that is absolute has nothing to do with the directory.", "quantifier": "all file system states, directories, names and renamings", "why_tests_cant": "every state of the file system and history of renamings", "anchors": ["msat/utils/sys.cc:612-693"]}
{"id": "C208", "title": "Skipped tests by reason", "statement": "The statistics printed after a test run show each reason for which tests were skipped once, with the number of tests skipped for it, the rarest first, and the number of tests skipped without a reason.", "quantifier": "all results of test runs with fewer than 2^32 tests", "why_tests_cant": "The reasons and counts that occur are unbounded; a test covers only the runs it makes.", "anchors": ["msat/utils/testrunner.cc:333-383 TestResultStats::print_stats"]}
{"id": "C209", "title": "The slowest tests", "statement": "When test cases or tests took more than a tenth of a second, the statistics show the ten slowest of them, or all, the slowest first, with their times, those below a second in a unit that gives one to three digits; otherwise they say nothing of times.", "quantifier": "all results, all times, every order in which sorting may leave equal times", "why_tests_cant": "The order of equal times is up to the library, and the times of a run cannot be chosen.", "anchors": ["msat/utils/testrunner.cc:123-133 format_elapsed", "msat/utils/testrunner.cc:384-408 TestResultStats::print_stats"]}
{"id": "C210", "title": "The summary of a test run", "statement": "The summary tells how many tests failed, were skipped and passed, and how many test cases could not be set up or cleaned up, leaving out numbers that are zero except that of the tests that passed; every test is in exactly one of the three numbers.", "quantifier": "all results of test runs with fewer than 2^32 tests and test cases", "why_tests_cant": "A test covers only the runs it makes; the numbers have to add up for all of them.", "anchors": ["msat/utils/testrunner.cc:278-304 TestResultStats", "msat/utils/testrunner.cc:410-443 TestResultStats::print_summary"]}
{"id": "C211", "title": "Coded values in dumps can be told apart", "statement": "In the dumps of HRIT and native files the text of a coded value names the meaning the format gives to that code; two different codes never have the same text, except that all codes the format does not define share one text, which no defined code has.", "quantifier": "all coded values of the headers, prologues and epilogues of HRIT and native files, and all integers as codes", "why_tests_cant": "A test looks at codes found in sample files; most codes, and all undefined ones, never occur there.", "anchors": ["msat/hrit/MSG_compression.cpp", "msat/hrit/MSG_data_CelestialEvents.cpp", "msat/hrit/MSG_data_GeometricProc.cpp", "msat/hrit/MSG_data_GeometricQuality.cpp", "msat/hrit/MSG_data_IMPFConfiguration.cpp", "msat/hrit/MSG_data_ImageAcquisition.cpp", "msat/hrit/MSG_data_ImageDescription.cpp", "msat/hrit/MSG_data_NavigExtrResult.cpp", "msat/hrit/MSG_data_RadiometricProc.cpp", "msat/hrit/MSG_data_SatelliteStatus.cpp", "msat/hrit/MSG_data_format.cpp", "msat/hrit/MSG_filetype.cpp", "msat/hrit/MSG_quality.cpp"]}
{"id": "C212", "title": "The marks written while tests run", "statement": "Without TEST_VERBOSE, a run of the unit tests writes one line for each test case that has a picked test: its name and one mark for each of its tests, in order - a dot for a test that passes, a red cross for one that fails, an s for one that is skipped - or no mark when the test case cannot be set up; the marks of a test case in which something goes wrong are never those of one in which nothing does. The exit status depends neither on the terminal nor on the way of writing nor on times.", "quantifier": "all test cases, what their hooks and tests throw, all patterns, terminals and times", "why_tests_cant": "The marks depend on what three hooks of every test and two of every test case throw; a test of the framework covers a few combinations.", "anchors": ["msat/utils/testrunner.cc:74-117 SimpleTestController", "msat/utils/tests.cc:596-710 TestCase::run_tests, run_test", "msat/utils/tests-main.cc:14-50 main"]}
{"id": "C213", "title": "The lines written about tests", "statement": "With TEST_VERBOSE, a run writes for each test case that has a picked test a line about its set up, then for each test one with how it went - the time taken for tests that ran, the reason for skipped ones, the text, type and places of the failure for failed ones - and last one with the verdict on the test case and the sum of the times of its tests; the verdict is failed exactly when something went wrong, and then a line says what, and the program fails.", "quantifier": "all test cases, what their hooks and tests throw, all patterns, terminals and times", "why_tests_cant": "The lines depend on every combination of hooks that throw.", "anchors": ["msat/utils/testrunner.cc:119-198 VerboseTestController", "msat/utils/testrunner.cc:26-48", "msat/utils/tests.cc:31-44, 596-710"]}
{"id": "C214", "title": "All that a test run writes", "statement": "After the lines of the run come the failures that decide on the exit status, in the order of the tests, below one title that is there only when there are failures, with an empty line between tests; then the statistics, only with TEST_VERBOSE; then the summary.", "quantifier": "all test cases whose hooks throw nothing but exceptions of the standard library, all environments, terminals and times", "why_tests_cant": "The title and the separators depend on which failures came before, for runs of any length.", "anchors": ["msat/utils/testrunner.cc:241-271, 306-331 TestResultStats::print_results", "msat/utils/tests-main.cc:14-50 main"]}
{"id": "C215", "title": "msat --view and --viewmore tell datasets apart by everything they list", "statement": "The text that msat --view or --viewmore writes about a dataset fixes everything it lists: if two datasets give the same text, then their names, sizes and projections are the same, the six geotransform values are written alike, the metadata in the default domain and in SUBDATASETS, IMAGE_STRUCTURE and RPC are the same item by item, and there are as many bands, each with the same description, size, pixel type, offset, scale, unit, metadata and pixel statistics as its counterpart. Nothing else has a part in the text. Every band appears after its own heading with its number and the number of bands, and its type is the name that GDAL gives it.", "quantifier": "for all datasets with any number of bands and metadata items, whatever their texts", "why_tests_cant": "The claim is that no two of infinitely many pairs of datasets are confused; a test compares the text of one file with an expected one", "anchors": ["tools/msat.cpp:93-123", "tools/msat.cpp:125-143", "tools/msat.cpp:145-169", "tools/msat.cpp:171-204"]}
{"id": "C216", "title": "The listing of an OpenMTP-IDS file", "statement": "OpenMTP-IDS_debug ends with status 0 exactly for files that hold an OpenMTP-IDS object, and then lists it: every number of the file header stands behind its name, and two files have the same listing only if they agree in the file header, in the number of records, in each record header and in the header and number of pixels of every scan line. For any other file it reports the error and ends with status 1.", "quantifier": "for all files below 4 GB: any number of records, scan lines and pixels, every field value", "why_tests_cant": "The claim compares all pairs of files and all malformed ones; the listing of one file is one point of it", "anchors": ["tools/omtp-ids/OpenMTP-IDS_debug.cc:43-68", "msat/omtp-ids/OpenMTP-IDS.cc:95-122", "msat/omtp-ids/OpenMTP-IDS.cc:148-161", "msat/omtp-ids/FileHeader.cc:190-240", "msat/omtp-ids/Record.cc:86-98", "msat/omtp-ids/RecordHeader.cc:87-104", "msat/omtp-ids/ScanLine.cc:104-112", "msat/omtp-ids/LineHeader.cc:101-122"]}
{"id": "C217", "title": "The texts that are taken for a time", "statement": "The datasets derived from an image by the date (the angle of the sun, the day of the year, reflectances) are made, and NetCDF images are opened, only if the time of the source is a date written as year-month-day hour:minute:second; the six numbers read are those written.", "quantifier": "every text, whatever follows the seconds", "why_tests_cant": "Texts that are nearly a time, with blanks, signs, missing or other separators, are unboundedly many; tests try two or three.", "anchors": ["gdal/reflectance/cos_sol_za.cpp:29-47", "gdal/reflectance/jday.cpp:26-40", "gdal/reflectance/reflectance.cpp:55-72", "gdal/netcdf/netcdf.cpp"]}
{"id": "C218", "title": "The slope and offset of a channel", "statement": "The slope and offset that a prologue gives for a channel turn the counts of the solar channels into radiances, and the temperatures at which a black body radiates the same in the thermal channels into brightness temperatures; a channel that there is none of is refused.", "quantifier": "every set of coefficients, channel, count and temperature", "why_tests_cant": "An offset that is wrong by a hundredth of a degree passes any test with a tolerance.", "anchors": ["msat/hrit/MSG_data_RadiometricProc.cpp:626-648"]}
{"id": "C219", "title": "The listing of an OpenMTP file tells its header and its pixels", "statement": "For a complete OpenMTP file, OpenMTP_info prints the text header, one line for each element of each field of the binary header under the name of the field (numbers in decimal with their sign, texts up to the first NUL), then one line `Pixel (line,column)` for each pixel with the value the calibration gives for its count, and returns 0; without a file name it prints the usage and returns 1; a truncated file never gives a listing.", "quantifier": "for all files, header contents, image sizes, hosts and ways of printing fractions", "why_tests_cant": "The header has nearly two hundred thousand bytes in about a hundred fields, printed one by one; sample files settle neither that each line shows the right field nor what is missing.", "anchors": ["tools/openmtp/OpenMTP_info.cc:36-71", "msat/openmtp/OpenMTP_binary_header.h", "msat/openmtp/OpenMTP_image.h:52-60", "msat/openmtp/OpenMTP_image.cpp:59-104"]}
{"id": "C220", "title": "The listing of an HRIT header tells the header", "statement": "Two HRIT or LRIT files whose headers print the same have the same file type, lengths, records and values in them: structure, navigation, data function, annotation, time, ancillary text, key, segment and the quality of the lines; printing a header that was read is always defined.", "quantifier": "every pair of files whose headers can be read", "why_tests_cant": "Headers have nine optional records of free order with texts of any content; a listing that drops or confuses a record is not seen by comparing the output for a few samples.", "anchors": ["msat/hrit/MSG_header.cpp:227-247", "msat/hrit/MSG_header_segment_quality.cpp:70-124", "msat/hrit/MSG_header_ancillary_text.cpp:52-79", "msat/hrit/MSG_header_image_navig.cpp:99-122", "msat/hrit/MSG_time_cds.cpp:128-135"]}
{"id": "C221", "title": "The listing of a DB1 directory shows what its files say", "statement": "Writing a ThornSDS DB1 object to a stream lists the area, the satellite, the schedule, the image, the channel that is set and its calibration, each after its name with the text, number or flag its file has, or the documented default; the stream remains good.", "quantifier": "every directory, channel and content of its files, every state of the object", "why_tests_cant": "Each of forty entries may be absent, present, empty or in another file, and the object may have no channel; tests print one directory with a channel set.", "anchors": ["msat/thornsds_db1/thornsds_db1.cpp:444-498", "msat/thornsds_db1/thornsds_db1.cpp:165-402"]}
{"id": "C222", "title": "The listing of a trailer's production statistics shows every value of the record", "statement": "Reading the image production statistics or the timeliness and completeness record of a level 1.5 trailer and writing it to a stream lists every value of the record, big endian in the file, after its name and under its channel, in the order of the record, times as dates of the calendar, and nothing else but the title.", "quantifier": "every content of the 340 and of the 132 bytes, both byte orders of the host", "why_tests_cant": "The records have 149 and 63 values of five kinds; a test compares the listing of one file, where most flags are 0 and one may stand for another.", "anchors": ["msat/hrit/MSG_data_ImageProdStats.cpp:35-229", "msat/hrit/MSG_data_TimelinComple.cpp:34-98"]}
{"id": "C223", "title": "The listing of the image description shows every value of the record", "statement": "Reading the image description of a level 1.5 header and writing it to a stream lists the projection, the longitude, the two grids, the planned coverage, the directions and which channels are planned, each value of the record, big endian in the file, after its name and in the order of the record, codes by their meaning, and nothing else but the titles.", "quantifier": "every content of the 101 bytes, both byte orders of the host", "why_tests_cant": "The record has 38 values, two groups of which have the same names; a test compares the listing of one file of the full disc, where many values are equal.", "anchors": ["msat/hrit/MSG_data_ImageDescription.cpp:35-245"]}
{"id": "C224", "title": "The listing of the geometric quality shows, channel by channel, all that was derived", "statement": "Reading the geometric quality record of a level 1.5 trailer and writing it to a stream lists for each of the twelve channels, in order, the absolute, relative, 500 pixel and 16 pixel accuracies, the residuals and the quality flags; each part begins with the meaning of its code and has all of its values after their names, or none if its code says that it was not derived.", "quantifier": "every content of the 2916 bytes, both byte orders of the host", "why_tests_cant": "The file has the parts of all channels together and the listing has them by channel; sixty parts may each be derived or not, and tests see few of these combinations.", "anchors": ["msat/hrit/MSG_data_GeometricQuality.cpp:34-208"]}
{"id": "C225", "title": "The listing of the navigation extraction result shows every observation there is", "statement": "Reading the navigation extraction result of a level 1.5 trailer and writing it to a stream lists the four horizons and, in order, the stars and landmarks whose number is not 0, each with its angles, confidences, time of the calendar, spin rate and deviations as the file has them.", "quantifier": "every content of the 5680 bytes with times within their days, both byte orders of the host", "why_tests_cant": "74 observations of three layouts, each present or not; a wrong offset in one of them shows only if the file has such an observation with a known value.", "anchors": ["msat/hrit/MSG_data_NavigExtrResult.cpp:34-185"]}
