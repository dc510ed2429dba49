{"id": "C01", "title": "NewComposite never crashes the caller, except through impossible dimensions", "statement": "For every byte stream, NewComposite returns normally (a composite, possibly with an error); the only inputs on which it can panic are those whose header announces (in its GP or BG field) a negative row or column count or one too large for the Go allocator.", "quantifier": "all byte strings handed to NewComposite", "why_tests_cant": "The input space is all byte strings, including invalid UTF-8, truncated, and hostile headers; a test can only try some, while absence of index/slice/makeslice panics must hold on every one.", "anchors": ["radolan.go:NewComposite", "header.go:parseHeader", "header.go:splitHeader", "data.go:parseData", "data.go:arrangeData", "runlength.go", "littleendian.go", "singlebyte.go"]}
{"id": "C02", "title": "Malformed dimensions are reported as errors, not panics (refuted)", "statement": "Desired: for every byte stream NewComposite reports malformed input through its error result. The code violates it: a header with a negative dimension (e.g. 'GP  -1x   1') makes NewComposite panic in make().", "quantifier": "all byte strings (the negation is an existence claim with an explicit witness)", "why_tests_cant": "Robustness is a claim over all inputs; the existing tests contain only well-formed headers and do not hit it.", "anchors": ["data.go:parseData", "header.go:parseHeader"]}
{"id": "C03", "title": "Shape of a parsed composite", "statement": "Whenever NewComposite succeeds (or returns only ErrUnknownUnit) PlainData has exactly Py rows of exactly Px values, DataZ has exactly Dz >= 1 layers of exactly Dy rows of exactly Dx values, Dx, Dy, Px, Py are positive, and Data is DataZ[0].", "quantifier": "all inputs on which NewComposite succeeds", "why_tests_cant": "The sizes come from the header, so the invariant ranges over every header and every data section.", "anchors": ["radolan.go:NewComposite", "data.go:parseData", "data.go:arrangeData"]}
{"id": "C04", "title": "At/AtZ are total and bounds-correct", "statement": "For every composite obtained from NewComposite (with or without error) or NewDummy, and for all ints x, y, z, AtZ(x,y,z) never panics; it is NaN when the point is outside [0,Dx)x[0,Dy)x[0,Dz) and DataZ[z][y][x] otherwise; At(x,y) = AtZ(x,y,0), which is Data[y][x] inside.", "quantifier": "all composites the API can return, all int triples", "why_tests_cant": "Infinite family of composites times 2^192 index triples.", "anchors": ["radolan.go:At", "radolan.go:AtZ", "radolan.go:NewComposite", "radolan.go:NewDummy", "data.go:arrangeData"]}
{"id": "C05", "title": "Layer arrangement of plain data", "statement": "When Dy divides Py the plain rows are split into Py/Dy layers and DataZ[z][y] is PlainData[z*Dy+y], so every plain row appears at exactly one (z,y); otherwise there is one layer, consisting of the bottom Dy rows: DataZ[0][y] is PlainData[Py-Dy+y].", "quantifier": "all inputs on which NewComposite succeeds, all z and y", "why_tests_cant": "Quantifies over all sizes and all rows, and over both branches for every divisor relation.", "anchors": ["data.go:arrangeData"]}
{"id": "C06", "title": "Little-endian files are decoded record by record, bottom row first", "statement": "If NewComposite succeeds on a file in the two-byte encoding, then AtZ(x,y,z) is the decoded value of the two bytes at offset 2*k after the header delimiter, k = ((Dz-z)*Dy-1-y)*Dx+x; for single-layer files At(x,y) is the record number (Dy-1-y)*Dx+x.", "quantifier": "all files selected as two-byte encoded, all pixels", "why_tests_cant": "An orientation or stride slip shows only for particular sizes; must hold for every file size and pixel.", "anchors": ["littleendian.go:parseLittleEndian", "littleendian.go:readLineLittleEndian", "littleendian.go:decodeLittleEndian"]}
{"id": "C07", "title": "Single-byte files are decoded byte by byte, bottom row first", "statement": "If NewComposite succeeds on a file in the single-byte encoding, then AtZ(x,y,z) is the decoded value of the byte at offset k = ((Dz-z)*Dy-1-y)*Dx+x after the header delimiter.", "quantifier": "all files selected as single-byte encoded, all pixels", "why_tests_cant": "Same as above: every size, every pixel.", "anchors": ["singlebyte.go:parseSingleByte", "singlebyte.go:readLineSingleByte", "singlebyte.go:decodeSingleByte"]}
{"id": "C08", "title": "Runlength files are decoded line by line, top row first", "statement": "If NewComposite succeeds on a file with a level field, then PlainData[y] is the decoding of the y-th newline-terminated line after the header delimiter.", "quantifier": "all files with a level field, all rows", "why_tests_cant": "Every file size, line content, and row index.", "anchors": ["runlength.go:parseRunlength", "runlength.go:readLineRunlength"]}
{"id": "C09", "title": "Two-byte record semantics", "statement": "A two-byte record (lo, hi) decodes to NaN iff bit 5 of hi is set; otherwise to the 12-bit number (hi mod 16)*256+lo, negated iff bit 6 of hi is set, scaled by the precision (and mapped to dBZ for dBZ products). Bits 4 and 7 of hi never influence the result.", "quantifier": "all 65536 records, all precisions, all units", "why_tests_cant": "Combination of 2^16 records with every int precision and every unit.", "anchors": ["littleendian.go:rvp6LittleEndian", "conversion.go:rvp6Raw", "conversion.go:toDBZ"]}
{"id": "C10", "title": "Two-byte encode/decode round-trip", "statement": "For every integer v in [-4095,4095], encoding v as magnitude plus sign flag and decoding gives the same float as scaling v directly; encoding no-data gives NaN.", "quantifier": "all v in [-4095,4095], all precisions and units", "why_tests_cant": "Full range of values with every precision.", "anchors": ["littleendian.go:rvp6LittleEndian"]}
{"id": "C11", "title": "Single-byte semantics", "statement": "A single byte decodes to NaN iff it is 250; any other byte b decodes to b scaled by precision, mapped to dBZ for dBZ products (for finite scaling factors this is never NaN).", "quantifier": "all bytes, all precisions, all units", "why_tests_cant": "Every byte with every precision and unit.", "anchors": ["singlebyte.go:rvp6SingleByte"]}
{"id": "C12", "title": "dBZ conversion is exact on raw values", "statement": "With precision 0 a raw value v decodes for a dBZ product to exactly v/2 - 32.5, with no rounding, and converting back with the inverse relation recovers exactly v.", "quantifier": "all raw values |v| <= 4095 (toRVP6(toDBZ(v)) = v for all integers |v| <= 2^22)", "why_tests_cant": "float32 rounding could be wrong for some value only; must hold for all.", "anchors": ["conversion.go:toDBZ", "conversion.go:toRVP6", "conversion.go:rvp6Raw"]}
{"id": "C13", "title": "Scaled values are accurate", "statement": "For non-dBZ products the decoded value of raw value v with precision p is within relative error 2^-22 of the decimal number v*10^p, for every p for which 10^p and the product are in the normal float32 range; for dBZ products it is within (|v*10^p/2| + 32.5)*2^-21 of v*10^p/2 - 32.5.", "quantifier": "all |v| <= 4095 and all precisions p in [-34,34]", "why_tests_cant": "float32 double rounding for all v and p.", "anchors": ["conversion.go:rvp6Raw"]}
{"id": "C14", "title": "Decoding preserves order", "statement": "For a fixed composite (fixed precision and unit) the decoded value is a monotone function of the raw value: v1 <= v2 implies decoded(v1) <= decoded(v2) whenever the scaling factor is finite.", "quantifier": "all pairs of raw values, all precisions with finite scale, all units", "why_tests_cant": "Pairs of values times all precisions.", "anchors": ["conversion.go:rvp6Raw", "conversion.go:toDBZ"]}
{"id": "C15", "title": "Runlength round-trip", "statement": "For every row of any width whose cells are no-data or one of up to 15 level indices, the standard runlength encoding of that row (line number, offset bytes, run bytes) decodes to exactly that row.", "quantifier": "all rows of all widths, all level tables, all line number bytes", "why_tests_cant": "Unbounded row widths and run structure, including offset chains of 255 and runs above 15.", "anchors": ["runlength.go:decodeRunlength", "runlength.go:rvp6Runlength"]}
{"id": "C16", "title": "Runlength decoding error conditions", "statement": "Decoding a runlength line fails exactly when an offset byte is below 16 or when the offsets plus run lengths cover a cell beyond the row width; otherwise every cell covered by no run is NaN and every other cell is the level of its run.", "quantifier": "all byte lines and all row widths", "why_tests_cant": "All byte lines: unbounded.", "anchors": ["runlength.go:decodeRunlength"]}
{"id": "C17", "title": "Runlength values come from the level table", "statement": "Every value of a composite in runlength encoding is NaN or one of the levels announced in the header; run value 0 and values above the level count (border markings) give NaN.", "quantifier": "all inputs decoded as runlength, all pixels", "why_tests_cant": "All level tables and line contents.", "anchors": ["runlength.go:rvp6Runlength", "header.go:parseHeader"]}
{"id": "C18", "title": "Encoding selection", "statement": "A header with a level field selects runlength; otherwise the two-byte encoding is selected iff the announced total length minus the header length is 2*Px*Py, the single byte encoding iff it is Px*Py, and everything else is an error.", "quantifier": "all headers", "why_tests_cant": "All combinations of lengths and dimensions, including arithmetic wrap-around.", "anchors": ["data.go:identifyEncoding", "data.go:parseUnknown", "header.go:parseHeader"]}
{"id": "C19", "title": "Truncated data is never accepted, trailing data is ignored", "statement": "If NewComposite succeeds on a stream it succeeds with the identical composite on that stream followed by any further bytes; and in the two fixed-width encodings it fails with an error on every proper prefix of header plus Px*Py*(1 or 2) data bytes.", "quantifier": "all streams, all extensions, all truncation points", "why_tests_cant": "Every cut point of every file.", "anchors": ["radolan.go:NewComposite", "littleendian.go:readLineLittleEndian", "singlebyte.go:readLineSingleByte", "runlength.go:readLineRunlength", "header.go:parseHeader"]}
{"id": "C20", "title": "Result does not depend on how the reader delivers the bytes", "statement": "For every io.Reader that delivers the same bytes, in whatever chunk sizes and with data-plus-error or zero-byte reads in between (short of bufio's no-progress limit), NewComposite returns the same composite and error kind, and returns. If instead the reader stalls for ever after some bytes (empty reads without error), the result is that of those bytes, except that NewComposite never returns when they end inside a two-byte or one-byte data section.", "quantifier": "all byte strings and all read schedules", "why_tests_cant": "All schedules of short reads; a test fixes one.", "anchors": ["radolan.go:NewComposite", "header.go:parseHeader", "runlength.go:readLineRunlength", "littleendian.go:readLineLittleEndian", "singlebyte.go:readLineSingleByte"]}
{"id": "C21", "title": "Header round-trip", "statement": "For every product label, valid capture time, data length, format version, precision, interval, dimensions, forecast offset and level list, parsing the header text written in the DWD layout from those values yields exactly those values.", "quantifier": "all field values in their documented ranges", "why_tests_cant": "Product of all field ranges; tests have two literals.", "anchors": ["header.go:parseHeader", "header.go:splitHeader"]}
{"id": "C22", "title": "Header field splitting", "statement": "For every byte string whatsoever, splitting never panics and the resulting map is that of the text's fields: blocks of upper-case characters (keys) alternating with blocks of other characters (values), the last one winning on a repeated key; in particular a text made of alternating uppercase keys and non-uppercase ASCII values yields exactly those key/value pairs. (Beyond ASCII a key or value is cut after the first byte of its last character.)", "quantifier": "all key/value lists; all byte strings", "why_tests_cant": "Unbounded texts, including invalid UTF-8.", "anchors": ["header.go:splitHeader"]}
{"id": "C23", "title": "A header key without a value is treated as having an empty value (refuted)", "statement": "Desired: a trailing key with no value does not silently take other content. The code violates it: the last key of a header, when not followed by a value, is assigned the value of the preceding field, so e.g. '...INT   5VV' parses as forecast offset 5.", "quantifier": "all headers (negation with an explicit witness; positive theorem characterises the behaviour for all)", "why_tests_cant": "Property of all header texts; tests have only well-terminated ones.", "anchors": ["header.go:splitHeader", "header.go:parseHeader"]}
{"id": "C24", "title": "Capture time", "statement": "The capture time is accepted iff characters 2..7 and 13..16 of the header form ddHHMM and mmYY denoting an existing calendar minute (YY as two digits, or sign and one digit), years 69-99 mean 19xx and the others 20xx; and it then is the UTC instant of that calendar minute.", "quantifier": "all headers", "why_tests_cant": "All dates, month lengths and leap years, all malformed texts.", "anchors": ["header.go:parseHeader"]}
{"id": "C25", "title": "Forecast time", "statement": "Without a VV field the forecast time equals the capture time; with it, it is capture time plus that number of minutes (exactly, for every value of at most 153722867 minutes in magnitude).", "quantifier": "all headers", "why_tests_cant": "All offsets, including overflow of the duration arithmetic.", "anchors": ["header.go:parseHeader"]}
{"id": "C26", "title": "Interval", "statement": "Without an INT field the interval is 0; with it, it is that number of minutes, multiplied by ten for products W1..W4 (exactly, up to the int64 nanosecond limit).", "quantifier": "all headers", "why_tests_cant": "All values times all products.", "anchors": ["header.go:parseHeader"]}
{"id": "C27", "title": "Dimension sources and precedence", "statement": "Dimensions come from the GP field as rows x columns, else from the BG field as two 3-digit numbers rows, columns, else from the catalog of local products; with none of them an error is returned. For GP/BG, plain and data dimensions coincide.", "quantifier": "all headers", "why_tests_cant": "All combinations of fields and products.", "anchors": ["header.go:parseHeader", "catalog.go:dimensionCatalog"]}
{"id": "C28", "title": "Unknown unit reporting", "statement": "ErrUnknownUnit is returned exactly for inputs that parse completely and whose two-character product label is not in the unit catalog, and then the complete composite is returned with it; DataUnit is the catalogued unit of the product otherwise.", "quantifier": "all inputs", "why_tests_cant": "All labels and inputs.", "anchors": ["radolan.go:NewComposite", "catalog.go:unitCatalog", "header.go:parseHeader"]}
{"id": "C29", "title": "Local products report their documented resolution (refuted)", "statement": "Desired: a local product (dimensions from the catalog) reports the catalog resolution in Rx, Ry. The code violates it for every local product: after NewComposite both are NaN because projection calibration overwrites them.", "quantifier": "all inputs whose dimensions come from the catalog", "why_tests_cant": "Holds for every such file; no test covers local products.", "anchors": ["projection.go:calibrateProjection", "catalog.go:dimensionCatalog", "header.go:parseHeader"]}
{"id": "C30", "title": "Archives: sorted, complete, all-or-nothing", "statement": "NewComposites returns, for an archive whose entries all parse without error, exactly the composites of its entries, each once, ordered by non-decreasing ForecastTime; if any entry fails (even only with ErrUnknownUnit) or the archive is damaged it returns no composites and an error.", "quantifier": "all archives with any number of entries", "why_tests_cant": "Unbounded entry lists and orders, every failure position.", "anchors": ["radolan.go:NewComposites"]}
{"id": "C31", "title": "Bisection to minimal resolution", "statement": "minRes terminates for all int pairs and returns the pair divided by the largest common power of two (unchanged if one of them is 0).", "quantifier": "all pairs of 64-bit ints, also negative", "why_tests_cant": "2^128 pairs, and termination.", "anchors": ["projection.go:minRes"]}
{"id": "C32", "title": "Grid detection", "statement": "A composite's grid is recognised iff its dimensions are one of the five documented sizes scaled by a power of two (up or down); at most one grid matches; the observable result is HasProjection and the corner points.", "quantifier": "all int dimension pairs", "why_tests_cant": "All dimension pairs.", "anchors": ["projection.go:detectGrid", "projection.go:cornerPoints"]}
{"id": "C33", "title": "Projection availability", "statement": "HasProjection holds iff the grid is recognised and the format version is below 5 or the grid is DE1200; without it Project returns (NaN, NaN) for all coordinates and Rx, Ry are NaN; NewDummy with a file's product, format and dimensions gives the same projection as parsing the file.", "quantifier": "all composites and all coordinates", "why_tests_cant": "All format/dimension combinations and coordinates.", "anchors": ["projection.go:calibrateProjection", "projection.go:Project", "radolan.go:NewDummy"]}
{"id": "C34", "title": "Corner calibration", "statement": "In exact arithmetic Project maps the documented north-west corner of the grid to (0,0) and the south-east corner to (Dx,Dy), with Rx, Ry > 0, on every grid and both earth models; in float64 arithmetic the north-west corner maps to exactly (0,0) whatever the accuracy of the math library, on every platform for WGS84 composites and on every platform that does not fuse the offset subtraction for spherical ones; with any fused multiply-adds it maps within 10^-9 of the picture's width and height of (0,0), given an accurate math library.", "quantifier": "all recognised dimensions, all format versions; all math libraries", "why_tests_cant": "Every power-of-two scaled dimension; numeric tests check a tolerance on six sizes only.", "anchors": ["projection.go:calibrateProjection", "projection.go:Project", "projection_sphere.go:projectSphere", "projection_wgs84.go:projectWGS84"]}
{"id": "C35", "title": "Spherical projection is order-preserving and one-to-one", "statement": "In exact arithmetic, within 90 degrees of the 10E meridian, moving east strictly increases x, moving south strictly increases y, and on the globe without the south pole and the antimeridian cut distinct coordinates give distinct points, with an explicit inverse.", "quantifier": "all coordinates, all recognised grids", "why_tests_cant": "Uncountable domain.", "anchors": ["projection_sphere.go:projectSphere"]}
{"id": "C36", "title": "Ellipsoidal projection is order-preserving and one-to-one", "statement": "The same for the WGS84 variant, which has no closed inverse: within 90 degrees of the 10E meridian, moving east strictly increases x, moving south strictly increases y, and on the globe without the south pole and the antimeridian cut distinct coordinates give distinct points (C69: each point of the plane is hit).", "quantifier": "all coordinates", "why_tests_cant": "Uncountable domain.", "anchors": ["projection_wgs84.go:projectWGS84"]}
{"id": "C37", "title": "Resolution independence of the projection", "statement": "For two composites on the same grid (and format class) with different dimensions, Project differs only by the ratio of the dimensions, so physical distances x*Rx, y*Ry between projected points are the same.", "quantifier": "all pairs of dimensions on one grid, all coordinates", "why_tests_cant": "All scales and coordinates; TestResolution checks one city pair.", "anchors": ["projection.go:calibrateProjection", "projection_sphere.go:projectSphere", "projection_wgs84.go:projectWGS84"]}
{"id": "C38", "title": "Z-R relationship", "statement": "In exact arithmetic, for every a>0 and b<>0, PrecipitationRate inverts Z = a*R^b with Z = 10^(dBZ/10), Reflectivity and PrecipitationRate are mutually inverse (rate > 0), and for b>0 both are strictly increasing. The four named relations satisfy the documented equations (Aniol80: Z=256*R^1.42, Doelling98: 316*R^1.5, JossWaldvogel70: 300*R^1.5, MarshallPalmer55: 200*R^1.6).", "quantifier": "all real a, b, dBZ, rates", "why_tests_cant": "Real-valued domain.", "anchors": ["conversion.go:NewZR", "conversion.go:PrecipitationRate", "conversion.go:Reflectivity"]}
{"id": "C39", "title": "NaN detection", "statement": "IsNaN(f) holds iff f is not a number; no other float32, including infinities, is reported.", "quantifier": "all float32 values", "why_tests_cant": "2^32 values.", "anchors": ["conversion.go:IsNaN"]}
{"id": "C40", "title": "Image rendering", "statement": "Image yields a picture of exactly Dx x Dy pixels; for a valid layer pixel (x,y) is the colour function applied to AtZ(x,y,layer); for an invalid layer all pixels are transparent black; for every composite obtained from the package and every layer it panics exactly if the picture needs more than 2^48 bytes.", "quantifier": "all composites, colour functions, layers and pixels", "why_tests_cant": "All sizes, layers, functions.", "anchors": ["radolan2png/vis/vis.go:Image"]}
{"id": "C41", "title": "Gray map", "statement": "Graymap is black below the minimum, white from the maximum upwards, always opaque and gray, monotone in the value, and its float-to-byte conversion is never out of range for non-NaN values when min<max compress to finite values.", "quantifier": "all float64 values and bounds, all monotone compression functions", "why_tests_cant": "2^64 values times all bounds.", "anchors": ["radolan2png/vis/vis.go:Graymap"]}
{"id": "C42", "title": "Heat map", "statement": "Heatmap is black below the minimum, constant from the maximum upwards, always opaque, and all its float-to-byte and float-to-int conversions are in range for non-NaN values (so the colour depends on the platform only through fused multiply-adds, and differs by at most 1 per channel between any two platforms); between the limits the colour is that of the documented HSL gradient, channel by channel, rounded down.", "quantifier": "all float64 values and bounds", "why_tests_cant": "2^64 values; rounding could push one of them out of range.", "anchors": ["radolan2png/vis/vis.go:Heatmap"]}
{"id": "C43", "title": "Radial velocity map", "statement": "Radialmap maps NaN to black, is always opaque, exchanges the red with the green/blue channels under negation, and uses no out-of-range conversion for values of magnitude above 1.", "quantifier": "all float64 values", "why_tests_cant": "2^64 values.", "anchors": ["radolan2png/vis/vis.go:Radialmap"]}
{"id": "C44", "title": "radolan2png decision logic", "statement": "With fewer than two file arguments only usage is printed; the output file is created only if the input parsed without error; the colour function is always defined for a successfully parsed composite; the upper limit for precipitation is 100 for intervals up to an hour, 400 from a week and 200 between; the overlay is drawn only with a projection; the picture written is the coloured composite with the mesh (bright green, 33FF22) over the border (yellow, FFFF00) over the data; the mesh loops end and draw the parallels 46..54 and the meridians 1..4 at whole degrees but, through accumulated rounding, the other meridians at 5.1..15.1 degrees.", "quantifier": "all argument lists and inputs", "why_tests_cant": "All units, intervals and failure points.", "anchors": ["radolan2png/radolan2png.go:main", "radolan2png/radolan2png.go:convert"]}
{"id": "C45", "title": "Unit names", "statement": "Every unit a composite can carry has a name (String does not panic) and distinct units have distinct names; the unit of a composite is always one of the five.", "quantifier": "all composites", "why_tests_cant": "All inputs.", "anchors": ["catalog.go:Unit", "catalog.go:String"]}
{"id": "C46", "title": "Exactly which streams are accepted", "statement": "NewComposite returns a composite without error (or with only ErrUnknownUnit) exactly for the streams that consist of a header text with a well-defined meaning, the delimiter 0x03, and a data section of the announced encoding and size; there are no others, and each of them is accepted.", "quantifier": "all byte strings", "why_tests_cant": "Acceptance of an unbounded language.", "anchors": ["radolan.go:NewComposite", "header.go:parseHeader", "data.go:parseData"]}
{"id": "C47", "title": "Whole-file round-trip", "statement": "Writing any grid of raw values (or of level indices) in one of the three encodings behind any header announcing that encoding and those dimensions, and reading the file back with NewComposite, gives a composite whose PlainData is exactly the grid of decoded values and whose metadata is that of the header.", "quantifier": "all grids of all sizes, all headers", "why_tests_cant": "All grids times all headers.", "anchors": ["radolan.go:NewComposite", "littleendian.go:parseLittleEndian", "singlebyte.go:parseSingleByte", "runlength.go:parseRunlength"]}
{"id": "C48", "title": "Runlength line numbers never disturb the data (refuted)", "statement": "Desired: the line-number byte at the start of a runlength line does not influence the decoded row. The code violates it: a line whose number byte is 10 is cut at that byte, and rows are silently lost or shifted.", "quantifier": "all runlength files (the negation is an existence claim)", "why_tests_cant": "The test files have line numbers only in a narrow range.", "anchors": ["runlength.go:readLineRunlength"]}
{"id": "C49", "title": "Which header error is reported", "statement": "For every stream, an error about the header is returned exactly if the header text has a defect of that kind (missing delimiter or short text, no total length, no calendar minute, unreadable forecast offset, interval, dimensions, precision, level table or version) and none of the kinds checked earlier; the data section has no influence.", "quantifier": "all byte streams, all data sections, all header error kinds", "why_tests_cant": "The set of header texts and combinations of defects is unbounded; only the order of the checks over all of them determines the error.", "anchors": ["header.go:parseHeader", "header.go:splitHeader", "radolan.go:NewComposite"]}
{"id": "C50", "title": "Which data error is reported", "statement": "For every stream with a sound header, the error NewComposite reports about the data is determined by the data section: no cells, an announced length fitting no encoding, too few bytes for the encoding, too few runlength lines, or the first invalid runlength line within the announced rows (offset byte below 16, or a line longer than the row). The error is reported if and only if the data section has that defect, a data section has at most one defect, and no other errors exist; some internal error kinds can never be observed.", "quantifier": "all byte streams with a header that parses, all data sections, all data error kinds", "why_tests_cant": "The space of data sections is unbounded and the reported error depends on the first of unboundedly many lines or bytes that is wrong.", "anchors": ["data.go:parseData", "data.go:identifyEncoding", "data.go:arrangeData", "littleendian.go:parseLittleEndian", "singlebyte.go:parseSingleByte", "runlength.go:parseRunlength", "runlength.go:decodeRunlength", "runlength.go:readLineRunlength", "radolan.go:NewComposite"]}
{"id": "C51", "title": "Several composites from one reader", "statement": "If several complete files follow one another in a *bufio.Reader whose buffer has at least 4096 bytes, successive calls of NewComposite on that reader return exactly the composites of the files, in order, and leave the reader in front of the byte after the last file, however the underlying reader cuts the bytes. With a smaller *bufio.Reader, or with any other reader, only the result of the first call is that of the first file: NewComposite reads ahead, and up to a buffer of bytes behind the first file is lost to the caller.", "quantifier": "all buffer sizes, all readers and ways of cutting the bytes, all sequences of complete files and trailing bytes", "why_tests_cant": "It must hold for every file length and every alignment of file boundaries with buffer boundaries and with reads of the source.", "anchors": ["radolan.go:NewComposite", "header.go:parseHeader", "runlength.go:readLineRunlength", "littleendian.go:readLineLittleEndian", "singlebyte.go:readLineSingleByte"]}
{"id": "C52", "title": "Composites in memory: concurrent parsing and writing", "statement": "Any number of calls of NewComposite may run at the same time in any interleaving, while the application writes to pixels of composites it already has. At every moment, what a caller sees in a returned composite is exactly what NewComposite returns for that input alone, plus the assignments made to this composite. An assignment through PlainData, DataZ or Data is seen through every other name of the same pixel and by At/AtZ, and changes no other pixel, field or composite; it panics exactly if the element does not exist. Calls never wait for each other, never touch memory of another call or of a returned composite (no data races) and return after finitely many steps of their own.", "quantifier": "all inputs, all numbers of concurrent calls, all schedules, all sequences of assignments, all choices of the allocator", "why_tests_cant": "The interleavings and histories are unbounded; a test samples a few schedules.", "anchors": ["radolan.go:Composite", "radolan.go:NewComposite", "radolan.go:AtZ", "data.go:parseData", "data.go:arrangeData", "littleendian.go:parseLittleEndian", "singlebyte.go:parseSingleByte", "runlength.go:parseRunlength"]}
{"id": "C53", "title": "Appending to Data leaves the other layers alone (refuted)", "statement": "append(c.Data, row) should not change the composite. It holds for composites with at most one layer (the rows are copied). It is false for every composite with several layers: DataZ[0] has the capacity of the whole plain data, so the appended row replaces the first row of DataZ[1].", "quantifier": "all composites obtained in any history, all rows", "why_tests_cant": "It depends on the capacity of slices, for all shapes of composites; the aliasing is not visible in the values.", "anchors": ["data.go:arrangeData"]}
{"id": "C54", "title": "float64 projection: accuracy against the exact stereographic projection", "statement": "For every composite with a documented grid in any resampling, both earth models, and every point with latitude 0..90 and longitude -180..190, Project in float64 returns finite coordinates that differ from the exact (real number) polar stereographic coordinates by at most a billionth of the width (height) of the picture, provided the platform's Sin, Cos, Tan and Pow are within 2^-48 of the true values.", "quantifier": "all composites on documented grids, all resamplings, all points of the northern hemisphere up to rounding of the argument, all math libraries of the given accuracy", "why_tests_cant": "Rounding errors of a dozen operations, with cancellation at the corner subtraction, over a continuum of points; tests sample a few points with a loose tolerance.", "anchors": ["projection.go:Project", "projection.go:calibrateProjection", "projection_sphere.go:projectSphere", "projection_wgs84.go:projectWGS84"]}
{"id": "C55", "title": "Looking up the value at a geographic position", "statement": "The documented lookup x, y := c.Project(north, east); c.At(int(x), int(y)) returns the value of the pixel whose area contains the point (exactly projected), for every point not closer than a billionth of the picture to a pixel boundary, and NaN for every point off the grid by more than that (points less than one pixel beyond the northern or western edge count as the first row or column, since int() rounds towards zero). In particular every position of the southern hemisphere, to 89 degrees south and at any longitude, gives NaN (there the Tan of the platform need only be within 2^-48 of one plus its size).", "quantifier": "all composites on documented grids of at most 2^50 pixels per axis, all points with latitude -89..90 and longitude -180..190, all math libraries of the given accuracy, all behaviours of out-of-range float conversions", "why_tests_cant": "Continuum of points and every grid size; correctness at every pixel depends on the accumulated rounding.", "anchors": ["radolan.go:At", "radolan.go:Composite", "projection.go:Project"]}
{"id": "C56", "title": "The documented grids are 1-km grids at their documented place", "statement": "For every composite on a documented grid, in any resampling: (a) the pixel coordinates of Project, times the documented extent in km over Dx (Dy), are the kilometres on the map plane from the documented place of the grid (51 N 9 E at a documented whole number of km from the north-western corner; the WGS84 grid by the false easting and northing of its projection string), to 5 m, everywhere on the grid; (b) Rx*Dx and Ry*Dy are the documented extents in km, to 10 m; (c) differences of pixel coordinates times Rx, Ry are kilometres on the map plane, to 4 micrometres, everywhere in the northern hemisphere.", "quantifier": "all composites parsed or NewDummy on the six documented grids, all resamplings, all points, all math libraries accurate to 2^-48", "why_tests_cant": "The tests sample five points per grid; a wrong corner constant or scale shows elsewhere, and the statement is over a continuum with rounding.", "anchors": ["projection.go:cornerPoints", "projection.go:calibrateProjection", "projection.go:Project", "projection_sphere.go:projectSphere", "projection_wgs84.go:projectWGS84", "radolan.go:Rx", "radolan.go:Ry"]}
{"id": "C57", "title": "radolan2png draws borders and mesh where they are, and prints the right extent", "statement": "In the picture written for a composite on a documented grid, the pixel whose area clearly contains (by the exact projection) a mesh point has the mesh colour, one that clearly contains a border point has the border or the mesh colour, and every pixel with no border or mesh point in or near it (a billionth of the picture) shows the colour of the composite's value. The extent the tool prints is the documented extent of the grid in km, to 11 m.", "quantifier": "all input files on documented grids in any resampling, all tables of border points, all math libraries accurate to 2^-48", "why_tests_cant": "The tool has no tests; the claim ranges over every pixel, every table of points and every file.", "anchors": ["radolan2png/radolan2png.go:convert", "radolan2png/borders.go:border", "projection.go:Project"]}
{"id": "C58", "title": "The Z-R functions are accurate in float64/float32, and undo each other bit for bit", "statement": "Given math.Pow and math.Log10 with errors of at most 2^-48 (growing with the exponent resp. the logarithm), for every relation with 1<=a<=1000 and 1<=b<=2 and in particular for the four named ones: PrecipitationRate of every float32 dBZ value in [-200,200] is within a relative 10^-11 of ((10^(dBZ/10))/a)^(1/b); Reflectivity of every float64 rate in [10^-20,10^20] is within float32 rounding (+10^-10) of 10*log10(a*R^b); Reflectivity(PrecipitationRate(d)) is exactly d if |d|>=0.01 and within 10^-9 of it otherwise; and a dBZ value greater by 0.001 always gives a strictly greater rate.", "quantifier": "all relations in the range, all float32 dBZ values, all float64 rates, all math libraries of that accuracy", "why_tests_cant": "The unit test checks four dBZ values of one relation against four-digit constants; the claim is for every float.", "anchors": ["conversion.go:NewZR", "conversion.go:PrecipitationRate", "conversion.go:Reflectivity", "conversion.go:Aniol80"]}
{"id": "C59", "title": "The documented rainfall lookup works end to end", "statement": "Take any grid of stored values (raw value or no-data) of any size that is a documented grid in some resolution, written into a RADOLAN file of a dBZ product in the one-byte or two-byte encoding behind any header. Then NewComposite of the bytes succeeds, and for every position on the northern hemisphere the documented sequence x,y := c.Project(lat,lon); dbz := c.At(int(x),int(y)); PrecipitationRate(r,dbz) finds: if the exact map position lies (by a billionth of the axis) inside pixel (i,j), exactly the dBZ value v/2-32.5 stored in row j, column i, and its rate by each of the four named Z-R relations with a relative error below 10^-11; NaN value and NaN rate for a no-data cell and for positions off the grid.", "quantifier": "all headers, grids, encodings, all positions, all stored values, all math libraries of accuracy 2^-48", "why_tests_cant": "Composes header parsing, decoding, projection, indexing and conversion for every file and every position; tests check each stage on single inputs.", "anchors": ["radolan.go:Composite", "radolan.go:NewComposite", "radolan.go:At", "projection.go:Project", "conversion.go:PrecipitationRate"]}
{"id": "C60", "title": "Project keeps the order of positions and separates them", "statement": "On a composite of a documented grid, in float64 and with any accurate math library: of two positions on the same latitude (0 to 80 degrees north, longitudes -45 to 65) the one further east by at least a billionth of a degree gets the strictly greater x; of two positions on the same longitude the one further south by at least a billionth of a degree gets the strictly greater y. Two positions that get the same coordinates differ by at most a hundred-millionth of a degree in latitude and in longitude. And positions near each other get coordinates near each other: the coordinates, in kilometres (times Rx, Ry), differ by at most 223 km per degree of difference, plus 4 micrometres.", "quantifier": "all pairs of positions, all composites of the documented grids, all math libraries of accuracy 2^-48", "why_tests_cant": "Ranges over all pairs of float64 positions; a test compares a few.", "anchors": ["projection.go:Project", "projection.go:calibrateProjection", "projection_sphere.go:projectSphere", "projection_wgs84.go:projectWGS84"]}
{"id": "C61", "title": "Looking up stored values works end to end for every product and encoding", "statement": "Take any grid of stored values of any size that is a documented grid in some resolution, written into a RADOLAN file of a known product: raw values (or no-data) in the one-byte or two-byte encoding with precision E-37..E+34 of a product not in dBZ (e.g. RW: tenths of a millimetre), or runlength-encoded numbers of levels (e.g. PG) with any line numbers other than the newline character. Then NewComposite of the bytes succeeds, and for every position on the northern hemisphere x,y := c.Project(lat,lon); c.At(int(x),int(y)) finds: if the exact map position lies (by a billionth of the axis) inside pixel (i,j), the stored raw value times ten to the precision with a relative error of at most 2^-22 (respectively the level of that number up to 2^-23; NaN for 0 and numbers beyond the table); NaN for no-data cells and for positions off the grid.", "quantifier": "all headers, grids, precisions, level tables, encodings, all positions, all math libraries of accuracy 2^-48", "why_tests_cant": "Composes header parsing, decoding, scaling, projection and indexing for every file and every position.", "anchors": ["radolan.go:NewComposite", "radolan.go:At", "projection.go:Project", "littleendian.go:rvp6LittleEndian", "singlebyte.go:rvp6SingleByte", "runlength.go:decodeRunlength"]}
{"id": "C62", "title": "radolan2png draws every stored value in its documented colour, end to end", "statement": "Take any grid of raw values (or no-data cells) of any size, written into a RADOLAN file of a product with a known unit in the one-byte, two-byte or (levels) run-length encoding, with the size in the header or that of a local picture, and run the radolan2png tool on it with input, output file and PNG encoder working. Then the run succeeds: it prints product, unit and forecast time, prints the extent in km exactly if the size is one of a documented grid, creates the output file and writes a picture of one pixel per cell - of the first layer of a local product with several, and of the bottom Dy rows if Dy does not divide the stored rows. Every pixel which neither border nor mesh cover shows the stored value: reflectivity (of precision 0, or levels in dBZ) black below 1 dBZ and from there on the heat gradient to 75 dBZ; precipitation black below 0.1 mm, from there on the heat gradient in the logarithm up to 100 mm for intervals up to an hour, 400 mm for a week and more, 200 mm otherwise; echo tops gray from 0 (black) to 15 km (white); radial velocities pale up to 1 m/s and beyond in the logarithm up to 31.5 m/s, cyan towards and red away from the radar, no-data black. In the other units no-data is gray of the platform's conversion of NaN to a byte, and so is negative precipitation. Channels are those of the exact gradient at the scaled value rounded down, up to a millionth.", "quantifier": "all headers, sizes, grids of values, precisions E-37..E+34, file names and borders, all platforms (NaN conversions), all logarithms of accuracy 2^-48", "why_tests_cant": "Composes header parsing, decoding, scaling, choice of the colour function and its floating point arithmetic for every file; tests of the tool do not exist.", "anchors": ["radolan2png/radolan2png.go:main", "radolan2png/vis/vis.go:Image", "radolan2png/vis/vis.go:Heatmap", "radolan2png/vis/vis.go:Graymap", "radolan2png/vis/vis.go:Radialmap", "radolan.go:NewComposite"]}
{"id": "C63", "title": "The sample gradients colour every float32 as documented (except HeatmapReflectivity, which starts at 1 dBZ)", "statement": "For every float32 value, on every platform: HeatmapReflectivityShort is black below 5 and runs through the heat gradient from 5 to 75, HeatmapReflectivityWide the same from -32.5 to 75, HeatmapReflectivity from 1 (not from 5 as its comment says: a value of 3 dBZ is not black) to 75. HeatmapAccumulatedHour and HeatmapAccumulatedDay are black from 0 to below 0.1 and run through the heat gradient in the logarithm from 0.1 to 100 and to 200; negative values look like NaN. HeatmapRadialVelocity is pale up to 1 in magnitude and from there on logarithmic up to 31.5, cyan for negative and red for positive values, NaN black. GraymapLinear and GraymapLinearWide run from black at 0 to white at 409.5 and at 4095. Positive infinity has the colour of the upper end, negative infinity that of values far below, and NaN in heat and gray gradients the gray given by the platform's conversion. Every channel is the exact value of the gradient rounded down, up to a millionth.", "quantifier": "all float32 values including NaN and infinities, all platforms (NaN conversions), all logarithms of accuracy 2^-48", "why_tests_cant": "2^32 inputs through logarithms, trigonometric-free hue arithmetic and conversions with platform-defined results; one of the documented bounds is wrong and tests sample a handful of colours.", "anchors": ["radolan2png/vis/vis.go:HeatmapReflectivityShort", "radolan2png/vis/vis.go:HeatmapReflectivity", "radolan2png/vis/vis.go:HeatmapReflectivityWide", "radolan2png/vis/vis.go:HeatmapAccumulatedHour", "radolan2png/vis/vis.go:HeatmapAccumulatedDay", "radolan2png/vis/vis.go:HeatmapRadialVelocity", "radolan2png/vis/vis.go:GraymapLinear", "radolan2png/vis/vis.go:GraymapLinearWide"]}
{"id": "C64", "title": "radolan2png draws the whole border of Germany on every grid except the 900 km national one, which cuts off Sylt", "statement": "The built-in border table has 12492 points, given as latitude and longitude in this order (its comment says the opposite), all between 47.27 and 54.97 N and between 5.86 and 15.04 E. For every composite on a documented grid of another size than 900 km * 900 km, at any resolution and format version, every point of the table is projected to coordinates inside the picture (0 <= x < Dx, 0 <= y < Dy), and in the picture radolan2png writes for it the pixel containing the point has the border or the mesh colour. On the national grid (900 km * 900 km) the same holds for every point south of 54.88 N, but not for the whole table: its northernmost point (54.966620 N 8.353271 E, on Sylt) is projected more than two pixels above the picture at every resolution, so that part of the border is not drawn.", "quantifier": "all 12492 table entries, all composites on documented grids in any resolution, all accurate math libraries, all platforms, all files read by the tool", "why_tests_cant": "Quantifies over all table entries, grids, resolutions and math libraries; image output of the tool is not tested, and img.Set drops points outside silently.", "anchors": ["radolan2png/borders.go:border", "radolan2png/radolan2png.go:main", "projection.go:Project", "projection.go:calibrateProjection"]}
{"id": "C65", "title": "radolan2png prints the product, its unit, the forecast time in UTC and, on documented grids, the exact extent", "statement": "For every file that a writer of the DWD layout can produce with a known unit, with or without levels and dimensions, radolan2png prints exactly '<label>-Image (<unit>) showing <yyyy-mm-dd hh:mm>:00 +0000 UTC' where unit is mm, dBZ, km or m/s and the shown calendar minute is the one that lies the forecast offset of the header (0 if none) after the header's own date, also across ends of days, months, leap years and years; there is exactly one such minute. If and only if the size is that of a documented grid of the header's format version at some resolution it prints a second line 'detected grid: <w>.0 km * <h>.0 km' with the documented extent in whole km (e.g. 900.0 km * 900.0 km), and nothing else. With fewer than two arguments it prints the help text with the program's name and neither reads nor writes a file; if the input cannot be opened or read it prints nothing on the standard output.", "quantifier": "all writable headers, dates 1969..2068, forecast offsets up to 292 years, all cell values, sizes and resolutions, all program names and arguments, all math libraries of accuracy 2^-48", "why_tests_cant": "Quantifies over all dates, offsets, labels, sizes and math libraries; the output of the tool is not tested.", "anchors": ["radolan2png/radolan2png.go:main", "radolan2png/radolan2png.go:convert", "header.go:parseHeader", "catalog.go:Unit.String"]}
{"id": "C66", "title": "The coordinate tables of the radar service project back to their pixels, and documented points land where documented", "statement": "At every point of every spherical grid (centres and lower left corners of all pixels included), the latitude and longitude that the radar service's formulas (testdata/README_GRID.md) give for it, printed with five decimals as in its lambda/phi tables, are projected to that point within 10 metres, at every resolution. The forward and inverse formulas of that document agree with the map plane and are inverse to each other. The documented corners and the reference point (51 N, 9 E) of all five spherical grids are projected within 30 m of their documented position and the four documented corners of the WGS84 grid within 1 mm, at every resolution; the distance between Munich and Bremerhaven measured in pixels times resolution is 663.629945199998 km to 1 mm on every spherical grid.", "quantifier": "all points of all documented grids, all printed values within half a unit of the fifth decimal, all floats next to them, all power-of-two resolutions, all math libraries of accuracy 2^-48", "why_tests_cant": "TestGrid compares one table on one machine's math library; the claim covers every point, grid, resolution and sufficiently accurate library.", "anchors": ["projection.go:Project", "projection_sphere.go", "projection_wgs84.go", "projection.go:calibrateProjection", "testdata/README_GRID.md", "projection_sphere_test.go"]}
{"id": "C67", "title": "Archives of written files: every product arrives with its values, in order of time, whatever the order in the archive", "statement": "For an archive whose entries are files of any products written in the DWD layout (two-byte, one-byte or runlength encoded, with known unit, whatever follows the data), NewComposites returns exactly one composite per entry, holding the header and the values stored in that entry, ordered by the minute they are about (date plus forecast offset). If the entries are about different minutes, the i-th composite is the i-th entry in time, and the result depends neither on the order of the entries in the archive nor on the sorting algorithm. If any entry is cut off anywhere before the end of its data the result is an error (header too short or read error) and no composites; the same if the archive breaks off after the entries, or contains an entry without content such as a directory.", "quantifier": "all archives of any number of written files, all headers, sizes and values, all orders, all correct (also unstable) sorting algorithms, all cut positions", "why_tests_cant": "NewComposites has no test; quantifies over all archives, orders, sorting algorithms and truncation points.", "anchors": ["radolan.go:NewComposites", "radolan.go:NewComposite", "header.go:parseHeader", "data.go:parseData"]}
{"id": "C68", "title": "Changed data bytes change nothing but the values they encode", "statement": "Two accepted inputs with the same header text give composites that agree in every field except the values (PlainData, DataZ, Data), in the error (none or unknown unit) and in what Project returns. If the data bytes of a two-byte or one-byte file are replaced by any bytes of the same number, the file is still accepted and AtZ returns the same value wherever the bytes of that record are unchanged. If a line of a runlength file is replaced by another line, then either the new line is valid and exactly that row of PlainData is replaced by its meaning, or NewComposite reports an invalid offset (if an offset byte is below 16) or an exceeded destination (otherwise).", "quantifier": "all accepted inputs, all replaced bytes, all pixels and layers, all lines", "why_tests_cant": "Quantifies over all inputs and all corruptions of their data section.", "anchors": ["littleendian.go:parseLittleEndian", "singlebyte.go:parseSingleByte", "runlength.go:parseRunlength", "runlength.go:decodeRunlength", "data.go:arrangeData", "radolan.go:NewComposite"]}
{"id": "C69", "title": "Every place on the map, and every pixel, has exactly one position on earth and can be looked up there", "statement": "On a supported grid, in exact arithmetic and for both earth models, every point (x, y) of the map plane except those on the ray above the pole (the antimeridian of 10 degrees east) is what Project returns for exactly one latitude strictly between -90 and 90 and longitude strictly between -170 and 190. Every point inside the picture belongs to a position between 30 and 60 degrees north and between 5 degrees west and 25 degrees east. In float64 arithmetic (any math library accurate to 2^-48, either float-to-integer conversion), every pixel of a composite on a supported grid of at most 10^8 x 10^8 pixels has finite float64 coordinates for which the documented lookup, At of the truncated projection, returns the value of that pixel: no pixel is unreachable.", "quantifier": "all supported grids and resolutions, all points of the plane, all pixels, all accurate math libraries", "why_tests_cant": "Surjectivity of a transcendental map over a continuum; needs intermediate value and monotonicity arguments for the points and an error analysis for the pixels.", "anchors": ["projection.go:Project", "projection.go:calibrateProjection", "projection_sphere.go:projectSphere", "projection_wgs84.go:projectWGS84", "radolan.go:At"]}
{"id": "C70", "title": "The same file gives the same result on every platform", "statement": "NewComposite (and NewComposites, given a sort that only compares) of the same bytes has the same outcome on every 64-bit platform, whatever its math library and whichever multiply-adds its compiler fuses: the same panic, the same error or none, and the same composite in every field except Rx, Ry and the projection offset. With math libraries accurate to 2^-48 on both, the projected positions agree to 2*10^-9 of the picture's width and height, the extents Rx*Dx, Ry*Dy to 4 micrometres, and the looked-up value at every geographic position not on the border of a pixel is identical. All sample colour gradients agree to one step per channel for every value that is not NaN (nor negative, for the logarithmic heat maps).", "quantifier": "all pairs of platforms (math library, fused operations, out-of-range conversions), all inputs, all positions, all float32 values", "why_tests_cant": "A test runs on one platform; the claim compares all pairs of platforms.", "anchors": ["radolan.go:NewComposite", "radolan.go:NewComposites", "projection.go:calibrateProjection", "projection.go:Project", "radolan2png/vis/vis.go:Heatmap"]}
{"id": "C71", "title": "An archive is read through the tar reader entry by entry", "statement": "Let the tar reader hold some entries: Next steps to the next entry however much of the current one has been read, and Read delivers the bytes of the current entry in pieces of any sizes, with empty reads in between (fewer than 100 in a row). Then NewComposites, which reads every entry through a new buffered reader and leaves the tar reader anywhere within it, ends and returns exactly what the bytes of the entries give one by one, sorted: no byte of one entry is seen in another. In particular an archive of well-formed files about different minutes gives, in any order in the archive, one composite per file in order of time, each holding what its file stores; an archive that breaks off within the data of an entry, or has no regular end, gives an error.", "quantifier": "all tar readers, all ways of delivering the bytes, all entries, all sorts that satisfy the contract of sort.Slice", "why_tests_cant": "Quantifies over all reader behaviours (read sizes, empty reads, error with or after the last byte) and over all entries.", "anchors": ["radolan.go:NewComposites", "radolan.go:NewComposite", "data.go:parseData", "header.go:parseHeader"]}
{"id": "C72", "title": "The message of an error tells what is wrong", "statement": "NewComposite's error texts have the form 'radolan.<function>: <reason>'. Whatever text the parsing functions contribute, the beginning of the message determines the kind of the error: no message begins like those of two kinds. So a message about a header field appears exactly if that field is the first defect of the header (or the stream has no delimiter: 'header corrupted: too short'), one about the data exactly if the data section has that defect, and the one about the unit exactly for complete files of a product not in the catalog. The message about the level format quotes the level field. For data that is too short the message ends in 'EOF' if the data ends between two lines, in 'unexpected EOF' if it ends within a line (two-byte and one-byte files), and in 'EOF' for runlength files.", "quantifier": "all inputs, all texts contributed by fmt.Sscanf and time.Parse", "why_tests_cant": "The messages contain text taken from the input; that none can be mistaken for one of another kind quantifies over all inputs.", "anchors": ["radolan.go:newError", "header.go:parseHeader", "data.go:parseData", "runlength.go:decodeRunlength", "littleendian.go:readLineLittleEndian", "singlebyte.go:readLineSingleByte"]}
{"id": "C73", "title": "NewComposite allocates exactly the announced grid, not more; but a short input can announce any grid (refuted)", "statement": "Desired: the memory NewComposite allocates is bounded by a multiple of the size of the input. What holds: a call that has found a correct header announcing possible dimensions Px x Py allocates, until it returns, the arrays of exactly one grid (24 bytes per row and 4 per value), however the data section looks, whether or not it succeeds, and whatever else runs at the same time; at no moment more; without a correct header nothing, and with impossible dimensions at most the 2^48 bytes of the slice of rows. For accepted files in the one- and two-byte encodings this is at most 28 bytes per byte of data. The code violates the desired bound otherwise: the grid is allocated before any data is read, so that an input of 76 bytes without any data makes it allocate more than 4*10^26 bytes before it reports an error, and a runlength file of 67 bytes is accepted as a grid of more than 2*10^14 bytes.", "quantifier": "all inputs, all moments of a call, all interleavings with other calls and writes", "why_tests_cant": "A test sees the memory of a few inputs; the bound ranges over all inputs and all moments of an execution, and the violation needs more memory than any machine has.", "anchors": ["data.go:parseData", "header.go:parseHeader", "runlength.go:parseRunlength", "singlebyte.go:parseSingleByte", "littleendian.go:parseLittleEndian"]}
{"id": "C74", "title": "A failing reader is reported with its own error, except within the header", "statement": "If the io.Reader given to NewComposite delivers some bytes and then reports an error, then: if the bytes end within the data section, NewComposite returns an error whose text is 'radolan.readLine<encoding>: ' followed by the text of the reader's error, however the bytes were cut into reads; io.EOF is reported as 'EOF', or as 'unexpected EOF' if a line of a two-byte or one-byte file is incomplete, i.e. exactly as in C72. If the bytes end before the delimiter of the header, the reader's error is lost: the message is 'header corrupted: too short'. In all other cases the reader's error has no influence on the result or the message; in particular a complete file is parsed although the reader reports an error with its last byte or after it. A reader that stalls within the lines of a runlength file gives 'multiple Read calls return no data or error' instead of blocking.", "quantifier": "all inputs, all readers that deliver them in any pieces (at most 99 empty reads in succession), all errors of a reader, all texts of them", "why_tests_cant": "The error can arrive at any byte, with or after it, in any division of the input into reads, through two layers of buffering; a test tries a few.", "anchors": ["radolan.go:NewComposite", "header.go:parseHeader", "runlength.go:readLineRunlength", "littleendian.go:readLineLittleEndian", "singlebyte.go:readLineSingleByte"]}
{"id": "C75", "title": "The message of a failing archive is that of its first failing place, and nothing is added", "statement": "If NewComposites fails, the text of its error is decided by the first place where the archive fails, whatever comes after it and however the tar reader delivers the bytes: at an entry that NewComposite does not accept it is exactly the message NewComposite gives for the bytes of that entry (C72) - in particular 'radolan.NewComposite: data unit not defined in catalog. data values can be incorrect' as soon as one entry has an unknown product, so that the whole archive is refused; if the tar reader reports an error within the data of an entry it is 'radolan.readLine<encoding>: ' followed by the text of that error; within the header of an entry it is 'radolan.parseHeader: header corrupted: too short' and the text of the error is lost; between entries it is the text of the tar reader's error alone. The name or position of the entry is never mentioned. There is a message exactly if an error is returned.", "quantifier": "all archives, all numbers and contents of entries before and after the failing place, all tar readers, all divisions of the entries into reads, all errors of the tar reader and their texts", "why_tests_cant": "The failure can be in any entry at any byte, after any entries, with any error of the decompressor or the tar reader; a test archive shows one.", "anchors": ["radolan.go:NewComposites", "radolan.go:NewComposite", "radolan.go:newError", "header.go:parseHeader", "runlength.go:readLineRunlength", "littleendian.go:readLineLittleEndian", "singlebyte.go:readLineSingleByte"]}
{"id": "C76", "title": "How radolan2png ends: exit status and error message", "statement": "radolan2png exits with status 0 exactly if it printed the help text or wrote the complete picture; then nothing is on the standard error output. It exits with status 1 exactly if it wrote one line to the standard error output: time stamp, blank and the text of the error that stopped it - that of os.Open, of NewComposite (C72), of os.Create or of png.Encode - with exactly one newline. If the input is refused by NewComposite no file is created; in particular a complete file of a product that is not in the catalog is not converted and gives 'radolan.NewComposite: data unit not defined in catalog. data values can be incorrect', and a file without header delimiter gives 'radolan.parseHeader: header corrupted: too short'. It crashes (status 2) exactly if NewComposite panics on the input or the picture would need more than 2^48 bytes.", "quantifier": "all argument lists, all contents of the input file, all states of the file system, all texts of operating system errors, all math libraries and platforms", "why_tests_cant": "A test runs the tool on a few files; the status and the message must be right for every content and every failing system call.", "anchors": ["radolan2png/radolan2png.go:main", "radolan2png/radolan2png.go:convert", "radolan2png/radolan2png.go:care", "radolan.go:NewComposite", "radolan.go:newError"]}
