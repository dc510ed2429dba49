# Formal model of jonnyschaefer/radolan in Rocq (Coq 8.16.1)

## 1. Approach

`/repo` (Go) is modelled function by function as total, computable Gallina
functions. Every property of `properties.jsonl` is stated as a theorem about
those functions against small independent specifications (`Spec*.v`) and proved
for all inputs. The Go code is never run; the tie to it is the reading of the
source, so each definition of the model cites file and lines.

| file in `rocq/theories/` | contents |
| ---- | -------- |
| `GoBase.v` | bytes, Go `int` (64 bit, wrap-around written out), slices and `make` with their panics, maps |
| `GoUtf8.v` | `for i, c := range string` (UTF-8 decoding with error runes), `unicode.IsUpper` (Latin-1 table; above U+00FF a parameter), white space of `fmt` |
| `GoScan.v` | `fmt.Sscanf` for the verbs used: `%d`, `%dx%d`, `%3d%3d`, `%f` |
| `GoTime.v` | `time.Parse("0215040106", ..)`, `Duration` arithmetic |
| `GoFloat.v` | float32/float64 as `SpecFloat`, decimal constants, `math.Pow10`, conversions |
| `Catalog.v`, `Composite.v`, `Header.v`, `Data.v`, `Radolan.v` | catalog.go, radolan.go, header.go, data.go, littleendian.go, singlebyte.go, runlength.go, conversion.go (dBZ part) |
| `Bufio.v` | `io.Reader` (any state machine), `bufio.Reader` (fill, ReadSlice, ReadBytes, Read), `io.ReadFull`, and `NewComposite` once more on top of them |
| `ReadError.v` | the text of the error when the reader itself fails (C74): the error of the failing read call, as `io.ReadFull` and `ReadBytes` pass it on |
| `ArchiveError.v` | the text of the error NewComposites returns (C75), on the tar reader of `TarReader.v` |
| `ToolExit.v` | exit status and standard error output of radolan2png (C76), log.Fatal |
| `Heap.v` | `NewComposite` once more as a program on shared memory, with slices; concurrent calls and callers that write |
| `Projection.v` | projection.go, projection_sphere.go, projection_wgs84.go, generic in the arithmetic: instantiated with exact reals (`arithR`) and with float64 over an arbitrary math library (`arith64 M`) |
| `Conversion.v` | the Z-R relationship of conversion.go, generic in the same way |
| `Vis.v`, `Png.v`, `Borders.v` | radolan2png/vis/vis.go, radolan2png/radolan2png.go (as a trace of external effects), radolan2png/borders.go (generated table) |
| `GoPrint.v` | what fmt, strconv and time.Time.String do for the two lines and the help text radolan2png prints (radolan2png.go:25-26, 43, 70) |
| `Spec.v`, `SpecHeader.v`, `SpecData.v`, `SpecCatalog.v`, `SpecWriter.v`, `SpecReader.v`, `SpecHeap.v`, `SpecReal.v`, `SpecProj.v`, `SpecAccuracy.v`, `SpecKm.v`, `SpecZR.v`, `SpecRain.v`, `SpecValue.v`, `SpecSamples.v`, `SpecPicture.v`, `SpecVis.v`, `SpecPrint.v`, `SpecTable.v`, `SpecArchive.v`, `SpecDamage.v`, `SpecText.v`, `SpecTar.v`, `SpecSouth.v`, `SpecPlatform.v`, `SpecReadError.v`, `SpecArchiveError.v`, `SpecExit.v` | independent vocabulary of the statements |
| `*Facts.v`, `HeaderSafe.v`, `HeaderMeaning.v`, `FileComplete.v`, `ExactReal.v`, `HeapWorld.v`, `GridNumbers.v`, `GridPoints.v` | proofs about the model |
| `Conformance.v` | the project's unit tests evaluated on the model (tests, not properties) |
| `Prop*.v`, `RoundTrip.v` | the property theorems `Cnn_*`, each followed by `Print Assumptions`, with `Example`s meeting the hypotheses |

## 2. Trusted base

* Coq's kernel (with `vm_compute`; no `native_compute`, no plugins, no kernel
  check switched off). No axioms of our own, no `Admitted`. Section variables
  are all discharged: every theorem quantifies over them explicitly.
* Standard-library axioms, only through `Reals` and `FunctionalExtensionality`:
  `ClassicalDedekindReals.sig_forall_dec`, `ClassicalDedekindReals.sig_not_dec`,
  `FunctionalExtensionality.functional_extensionality_dep` and
  `Classical_Prop.classic` (used by Flocq's lemmas). Section 6 lists what
  `Print Assumptions` reports for each theorem. Flocq and Coquelicot are used as
  proved libraries; neither adds an axiom.
* The reading of the Go source and of the Go standard library functions named in
  section 3, on a 64-bit platform. Go may fuse `x*y+z` into one rounding: every
  site in the code where that can change a result has its own fused/not-fused
  flag (`m_fused` in `Projection.v`, `k_fused` in `Vis.v`) and the theorems
  quantify over all combinations, so they cover amd64, arm64, ppc64, s390x and
  riscv64. No flag where fusing cannot change anything: the product is exact
  (times or divided by a power of two) or consists of constants.

## 3. What is modelled, and how faithfully

Modelled: every function of the package `radolan` and of the tool, i.e.
`NewComposite`, `NewComposites`, `NewDummy`, `At`, `AtZ`, `IsNaN`, `Unit.String`,
`parseHeader`, `splitHeader`, `parseData`, `identifyEncoding`, `arrangeData`, the
three decoders, `minRes`, `detectGrid`, `cornerPoints`, `calibrateProjection`,
`Project`, `projectSphere`, `projectWGS84`, `NewZR`, `PrecipitationRate`,
`Reflectivity`, `toDBZ`, `toRVP6`, `rvp6Raw`, `Image`, `Graymap`, `Radialmap`,
`Heatmap`, `convert`, `main`.

Simplified, everywhere with a comment at the definition:

* Each error site has its own constructor (`Composite.v`); the texts are added
  in `ErrorText.v` (C72), with arbitrary texts of `fmt` and `time` errors. A returned error carries the composite the Go function also
  returns. A panic is a third outcome.
* `make` panics for a negative length and for more than 2^48 bytes
  (the Go allocator's `maxAlloc` on amd64). Running out of memory below that
  limit is not modelled, neither is the stack.
* External tables and libraries are parameters quantified in the theorems:
  `unicode.IsUpper` above U+00FF, `strconv.ParseFloat` on tokens other than plain
  decimal ones (hex, inf, nan, underscore, binary exponent), `math.Sin`, `Cos`,
  `Tan`, `Pow`, `Log`, `Log10`, and Go's implementation-defined conversion of
  out-of-range floats to integers.
* `NewComposites`: bzip2 and tar are external, an archive is the list of the
  contents of its entries and whether it ends regularly (`Radolan.v`), or a
  reader with Next and Read that meets a contract (`TarReader.v`, C71);
  `sort.Slice` is any function returning an ordered permutation (it is not
  stable).
* `bufio.NewReader` is given a reader that is not itself a `*bufio.Reader`
  in C20; C51 treats the case that it is.
* `radolan2png`: file system and PNG encoder are parameters; the output is the
  sequence of external effects. The tool is modelled for any table of border
  points; `Borders.v` is the actual one (C64).
* Pointer aliasing: `Data` is `DataZ[0]`, and the rows of `DataZ` share memory
  with `PlainData` in Go. `Composite.v` treats them as values; `Heap.v` models
  the slices, the allocations and the element writes of `NewComposite` as steps
  on a shared memory (sequentially consistent; C52 also shows there are no data
  races), and C52 relates the two. A caller who replaces whole rows or layers
  (`c.PlainData[y] = ...`) is outside the model, except for `append` (C53).

Not modelled: the bit formats of PNG, bzip2 and tar, the texts of fmt and time errors, log output,
performance.

## 4. Properties and proofs

| id | theorems are about | proof |
| -- | ------------------ | ----- |
| C01, C02 | `new_composite ... = Panic` for any byte string | every slice, index and make site shown safe; invariants of the splitter loop; the exact panic condition; witness for C02 |
| C03-C05 | shape, `at_z`, layers of any parsed composite | loop invariants on lengths; index algebra |
| C06-C08 | value of every pixel in terms of the bytes of the file | induction over rows with the vertical flip, and over layers |
| C09-C11 | the two record decoders for all bytes, precisions, units | exhaustive case split on bytes, lifted over precision and unit |
| C12-C14 | real value of decoded floats (`is_value`) | Flocq: exactness, relative error, monotonicity of rounding; `Pow10` table checked against powers of ten |
| C15-C17 | `decode_runlength` against `line_meaning` and the encoder | induction on lines and on runs |
| C18 | choice of the encoding | no wrap-around below the allocation bound |
| C19 | prefixes and extensions of a file | stream induction; first missing byte |
| C20 | `new_composite_rd` over any reader state machine | refinement of the byte-list model; coinductive end and stall of readers |
| C21, C47 | writer then reader | digit induction, field splitting, grid encoding |
| C22, C23 | `splitHeader` on any byte string: its map is that of the fields of the text (`field` of Spec.v, defined by grouping characters into blocks, independently of the code; all header properties use this `field`) | induction over the splitter state; refutation by the general theorem and a file |
| C24-C26 | times | calendar specification by summing year and month lengths; `Duration` range |
| C27-C29 | dimensions, units, resolution | exhaustive check of catalogs against `SpecCatalog.v` lifted to all labels |
| C30 | archives | induction over entries |
| C31-C33 | `min_res`, `detect_grid`, availability of the projection | 2-adic induction, uniqueness of the odd parts |
| C34-C37 | exact reals: stereographic projection, order, injectivity, inverse; float64: corners | trigonometry and derivatives over `Reals`; IEEE facts valid for any finite math library |
| C38 | Z-R over exact reals | `Rpower`/`ln` algebra |
| C39 | `IsNaN` | case analysis of binary32 |
| C40 | `image_of` | induction over rows and columns |
| C41-C43 | colours as real functions of the value, rounded down | Flocq error bounds, exact sector boundaries of the hue |
| C44 | `main`/`convert` traces, mesh | case analysis; the float loops are computed once (closed terms) |
| C45 | unit names | case analysis |
| C46 | the exact set of accepted streams | soundness and completeness of header and data parsing |
| C48 | line number 10 | refutation by a written file |
| C49 | first header defect | each check decides its defect, in order |
| C50 | which data error is reported | first bad row, or first missing byte |
| C51 | `successive` calls on one `bufrd` | the refinement of C20 extended to the bytes left in the reader; induction over files |
| C54, C55 | float64 `project` against the exact projection; lookup of pixels | forward error analysis with explicit units in the last place (`AccFacts.v`), lower bound of the spans between corners; southern hemisphere (`PropSouth.v`): the same analysis with a growing tangent, every point at least 11700 km from the pole on the map |
| C56 | the same, in km on the map | rational enclosures of the plane at the corners (Taylor bounds of sin, cos, ln, exp evaluated in Q, `GridNumbers.v`), convex combination of the corner errors |
| C57 | the picture and the extent in the trace of `convert` | C44_run combined with the error bounds of C54 and C56 |
| C58 | `NewZR`, `PrecipitationRate`, `Reflectivity` over IEEE float64/float32 and an arbitrary accurate `pow`, `log10` | error analysis on the logarithm (relative errors add up), then uniqueness of the nearest float32 |
| C59 | from the bytes of a written file to the rate: `NewComposite`, `Project`, `At`, `PrecipitationRate` | C21 (the file is read back), C55 (the right pixel), C12 (exact dBZ), C58 (accurate rate) |
| C60 | differences of projected positions in float64 | C56_distance reduces them to the exact plane; growth of the pole distance per degree (Bernoulli and Taylor bounds), sine and cosine away from their turning points |
| C61 | from the bytes of a written file to the value at a position, all encodings | C21 (the file is read back), C55 (the right pixel), C13 (accurate scaling) |
| C62 | from the bytes of a written file to the pixels of the picture radolan2png writes | C21 (the file is read back), C44 (the run and the chosen colour function), C12/C13 (scaled values), C41–C43 (colours), error analysis of the logarithm; the gap between float32 values at 0.1 and 1 makes the borders exact |
| C63 | every sample gradient of vis.go on every float32, including NaN and infinities | C41–C43 with the concrete bounds, error analysis of the logarithm (C62), gaps of the float32 format around 0.1 and 1 |
| C64 | the whole border table (Borders.v, generated from borders.go), projected on every documented grid, and drawn by the tool | the table is covered by five boxes (computed check); interval arithmetic bounds the map plane on each box (GridNumbers.v); C56 turns km into pixels; C44 gives the drawn pixels |
| C65 | the printed lines: time.Time.String (absolute days to date), decimal output, %.1f with rounding half to even, unit names; the help text | years of 365/366 days by division identities; month tables by computed check; decimal output up to 2499 by computed check; %.1f by the 11 m bound of C57; header by C21/C62 |
| C66 | the formulas of testdata/README_GRID.md (SpecTable.v) against the projection; documented points | polar identities for the inverse formulas; a Lipschitz bound of the map plane for half a unit of the fifth decimal; C56 in km; rational enclosures of further corners and both cities (GridPoints.v) |
| C67 | `NewComposites` on entries produced by the writers of C21/C47 (SpecArchive.v) | C30 with C21; uniqueness of strictly sorted permutations; truncation by C46 (byte counts, newline counts) and C19 |
| C68 | two inputs with the same header text (SpecDamage.v) | the header stage is a function of the text; C06/C07/C08 per record and line; C46/C50 for acceptance and the error |
| C69 | `project` over the reals and in binary64, as C34/C55 | onto: intermediate value theorem for the distance from the pole, polar coordinates by atan; unique by C52; each pixel centre rounded to float64 and looked up by C55 |
| C70 | two instances of the model with different math libraries, fused operations and conversions | the reading part does not use the library at all (convertible terms); the rest from C54, C55, C63 on both sides |
| C71 | the loop of `NewComposites` on a tar reader given by Next and Read (`TarReader.v`) | C20 for every entry; the reader state left by the buffered reader is reached by Reads |
| C72 | the texts of newError at every site (`ErrorText.v`), with arbitrary texts of fmt and time errors | the beginnings are prefix-free (computed); C49, C50, C28 for the conditions; arithmetic for the cut |
| C73 | the arrays allocated by the program of `Heap.v`, counted along any execution in a memory that others may change between its steps (`SpecMemory.v`) | the amount is fixed by the program text: induction over it (`total`); accepted files by C46; every call of an application of C52 is such an execution |
| C74 | `ReadError.v`: the message NewComposite returns on a reader (`Bufio.v`), with the error the failing read call returned; `SpecReadError.v`: a reader that delivers given bytes and then reports one given error | an invariant of the buffered reader: the only error it can hold or return is the reader's own (or, for a stalling reader, bufio's); the bytes of the failing call from C20's simulation |
| C75 | `ArchiveError.v`: the loop of NewComposites with the text of the error it returns; `SpecArchiveError.v`: a tar reader with some complete entries and then the place where it fails | induction over the accepted entries, whose reading leaves the tar reader anywhere within the entry (C71); then C74 at the failing entry |
| C76 | `ToolExit.v`: exit status of a trace of `Png.v`, and the line log.Fatal writes, with the texts of `ErrorText.v`; `SpecExit.v`: a log line | case analysis over the ways a run can end (`C76_end`), with C40, C44 and C72; the theorems follow from it |
| C52, C53 | all reachable worlds of concurrent calls and writes | a small separation logic (own memory, arbitrary allocator); invariant over all steps |

Properties marked "(refuted)" in `properties.jsonl` are desirable properties
that the code does not have; what is proved is the refutation (a file, or every
file of a kind, on which the code does otherwise).

## 5. Findings about the code

* Negative or huge dimensions in GP/BG make `NewComposite` panic in `make` (C01, C02).
* `Rx`, `Ry` of local products are overwritten with NaN by the calibration (C29).
* The last key of a header without a value takes the previous field's value (C23).
* A multi-byte character at the end of a header value is cut (`endValue = i+1`).
* A product label that is also a field name (e.g. a label `LV`) is read as a field.
* `NewComposites` fails for the whole archive if one entry has an unknown unit (C30).
* An archive that contains a directory entry is rejected as a whole (C67_directory).
* A runlength line whose line number byte is 0x0A ends early (C48).
* Huge VV or INT values overflow `time.Duration` (C25_sharp).
* A precision of 39 or more makes the scale factor infinite; raw 0 becomes NaN (C11_sharp).
* No-data (NaN) in `Graymap`/`Heatmap` is converted by an implementation-defined
  conversion: colours differ between platforms (C41_nan, C42_nan). For data they
  differ by at most one step per channel, by fused multiply-add (C42_platforms).
* Where the compiler fuses the offset subtraction of `projectSphere`, the
  north-west corner is no longer exactly (0,0), only within 10^-9 of the picture
  (C34_float_nw_fused).
* A picture of more than 2^48 bytes panics (C40_panic_iff).
* The meridians of the mesh drift to 5.1, 6.1, .. 15.1 degrees by accumulated
  rounding of 0.1 (C44_mesh). `int(x)` draws points at -1 < x < 0 into column 0.
* A reader that returns (0, nil) for ever inside a fixed-width data section
  makes `NewComposite` hang: `io.ReadFull` has no progress limit; in header
  and runlength data bufio's limit gives an error (C20_stalling_reader).
* `NewComposite` reads ahead: unless it is given a `*bufio.Reader` with at least
  4096 bytes of buffer, what follows the file in the reader is lost (C51_reads_ahead).
* `append(c.Data, row)` on a composite with several layers overwrites the first
  row of layer 1 (C53).
* A read error within the header is replaced by "header corrupted: too short" (C74);
  an error of `NewComposites` does not tell which entry of the archive it is about (C75).

## 6. What `Print Assumptions` reports for each theorem

D = `ClassicalDedekindReals.sig_forall_dec`, N = `ClassicalDedekindReals.sig_not_dec`,
F = `FunctionalExtensionality.functional_extensionality_dep`, C = `Classical_Prop.classic`;
"closed" = closed under the global context (no axiom).

| theorem | file | axioms |
| ------- | ---- | ------ |
| `C01_panic_iff` | `PropFile.v` | closed |
| `C01_returns` | `PropFile.v` | closed |
| `C02_negative_dimension_panics` | `PropFile.v` | closed |
| `C02_errors_only_is_false` | `PropFile.v` | closed |
| `C03_shape` | `PropFile.v` | closed |
| `C04_at_total` | `PropFile.v` | closed |
| `C04_at_is_data` | `PropFile.v` | closed |
| `C05_layers` | `PropFile.v` | closed |
| `C05_every_row_once` | `PropFile.v` | closed |
| `C06_two_byte_pixels` | `PropFile.v` | closed |
| `C07_one_byte_pixels` | `PropFile.v` | closed |
| `C08_runlength_rows` | `PropFile.v` | closed |
| `C09_two_byte_record` | `PropFile.v` | closed |
| `C09_spare_bits` | `PropFile.v` | closed |
| `C09_never_nan` | `PropFloat.v` | C D F N |
| `C10_two_byte_round_trip` | `PropFile.v` | closed |
| `C10_no_data` | `PropFile.v` | closed |
| `C11_one_byte_record` | `PropFile.v` | closed |
| `C11_never_nan` | `PropFloat.v` | C D F N |
| `C12_dbz_exact` | `PropFloat.v` | C D F N |
| `C12_dbz_inverse` | `PropFloat.v` | C D F N |
| `C12_one_byte` | `PropFloat.v` | C D F N |
| `C12_two_bytes` | `PropFloat.v` | C D F N |
| `C13_accuracy` | `PropFloat.v` | C D F N |
| `C13_dbz` | `PropFloat.v` | C D F N |
| `C13_records` | `PropFloat.v` | C D F N |
| `C14_monotone` | `PropFloat.v` | C D F N |
| `C14_finite_factor` | `PropFloat.v` | D F |
| `C14_bytes` | `PropFloat.v` | C D F N |
| `C14_two_bytes` | `PropFloat.v` | C D F N |
| `C15_runlength_round_trip` | `PropFile.v` | closed |
| `C16_runlength_errors` | `PropFile.v` | closed |
| `C16_error_kind` | `PropData.v` | closed |
| `C17_values_from_table` | `PropFile.v` | closed |
| `C17_indices` | `PropFile.v` | closed |
| `C18_unknown_encoding` | `PropFile.v` | closed |
| `C46_accepted_iff` | `PropFile.v` | closed |
| `C19_prefix` | `PropFile.v` | closed |
| `C19_trailing_ignored` | `PropFile.v` | closed |
| `C19_two_byte_truncated` | `PropFile.v` | closed |
| `C19_one_byte_truncated` | `PropFile.v` | closed |
| `C20_any_reader` | `PropReader.v` | closed |
| `C20_two_readers` | `PropReader.v` | closed |
| `C20_stalling_reader` | `PropReader.v` | closed |
| `C21_header_round_trip` | `PropHeader.v` | closed |
| `C21_two_byte_file` | `PropHeader.v` | closed |
| `C21_one_byte_file` | `PropHeader.v` | closed |
| `C21_runlength_file` | `PropHeader.v` | closed |
| `C22_total` | `PropHeader.v` | closed |
| `C22_fields` | `PropHeader.v` | closed |
| `C22_no_key` | `PropHeader.v` | closed |
| `C22_exhaustive` | `PropHeader.v` | closed |
| `C22_ascii` | `PropHeader.v` | closed |
| `C23_trailing_key_inherits` | `PropHeader.v` | closed |
| `C23_empty_value_is_false` | `PropHeader.v` | closed |
| `C24_capture_time` | `PropHeader.v` | closed |
| `C24_bad_time` | `PropHeader.v` | closed |
| `C25_forecast_time` | `PropHeader.v` | closed |
| `C26_interval` | `PropHeader.v` | closed |
| `C27_dimensions` | `PropHeader.v` | closed |
| `C27_no_dimensions` | `PropHeader.v` | closed |
| `C27_local` | `PropCatalog.v` | closed |
| `C27_not_local` | `PropCatalog.v` | closed |
| `C49_header_error` | `PropHeader.v` | closed |
| `C28_unit` | `PropFile.v` | closed |
| `C28_error_iff` | `PropFile.v` | closed |
| `C28_products` | `PropCatalog.v` | closed |
| `C28_local_known` | `PropCatalog.v` | closed |
| `C29_local_resolution_lost` | `PropGrid.v` | closed |
| `C29_resolution_is_false` | `PropGrid.v` | closed |
| `C30_archive_complete` | `PropHeader.v` | closed |
| `C30_archive_fails` | `PropHeader.v` | closed |
| `C30_archive_error` | `PropHeader.v` | closed |
| `C30_archive_accepted` | `PropHeader.v` | closed |
| `C31_min_res` | `PropGrid.v` | closed |
| `C31_terminates` | `PropGrid.v` | closed |
| `C32_detect_grid` | `PropGrid.v` | closed |
| `C32_unambiguous` | `PropGrid.v` | closed |
| `C33_parsed` | `PropGrid.v` | closed |
| `C33_dummy` | `PropGrid.v` | closed |
| `C33_without` | `PropGrid.v` | closed |
| `C33_failed` | `PropGrid.v` | closed |
| `C33_dummy_like_file` | `PropGrid.v` | closed |
| `C34_corners` | `PropReal.v` | C D F N |
| `C34_stereographic` | `PropReal.v` | C D F N |
| `C34_float_nw` | `PropProjFloat.v` | C D F N |
| `C34_float_nw_fused` | `PropAccuracy.v` | C D F N |
| `C34_float_se` | `PropProjFloat.v` | C D F N |
| `C35_east` | `PropReal.v` | C D F N |
| `C35_south` | `PropReal.v` | C D F N |
| `C35_injective` | `PropReal.v` | C D F N |
| `C35_inverse` | `PropReal.v` | C D F N |
| `C36_east` | `PropReal.v` | C D F N |
| `C36_south` | `PropReal.v` | C D F N |
| `C36_injective` | `PropReal.v` | C D F N |
| `C37_resolution` | `PropReal.v` | C D F N |
| `C38_relation` | `PropZR.v` | C D F N |
| `C38_inverse` | `PropZR.v` | C D F N |
| `C38_increasing` | `PropZR.v` | C D F N |
| `C38_common` | `PropZR.v` | C D F N |
| `C39_isnan` | `PropFloat.v` | D F |
| `C40_image` | `PropImage.v` | closed |
| `C40_panic_iff` | `PropImage.v` | closed |
| `C41_below` | `PropGray.v` | closed |
| `C41_above` | `PropGray.v` | C D F N |
| `C41_between` | `PropGray.v` | C D F N |
| `C41_monotone` | `PropGray.v` | C D F N |
| `C41_opaque` | `PropGray.v` | closed |
| `C41_portable` | `PropGray.v` | C D F N |
| `C41_nan` | `PropGray.v` | closed |
| `C42_below` | `PropHeat.v` | closed |
| `C42_between` | `PropHeat.v` | C D F N |
| `C42_above` | `PropHeat.v` | C D F N |
| `C42_bottom` | `PropHeat.v` | C D F N |
| `C42_opaque` | `PropHeat.v` | closed |
| `C42_portable` | `PropHeat.v` | C D F N |
| `C42_platforms` | `PropHeat.v` | C D F N |
| `C42_nan` | `PropHeat.v` | closed |
| `C43_nan` | `PropRadial.v` | closed |
| `C43_opaque` | `PropRadial.v` | closed |
| `C43_mirror` | `PropRadial.v` | C D F N |
| `C43_slow` | `PropRadial.v` | C D F N |
| `C43_fast` | `PropRadial.v` | C D F N |
| `C43_monotone` | `PropRadial.v` | C D F N |
| `C44_usage` | `PropTool.v` | closed |
| `C44_usage_only` | `PropTool.v` | closed |
| `C44_color_defined` | `PropTool.v` | closed |
| `C44_no_input` | `PropTool.v` | closed |
| `C44_bad_input` | `PropTool.v` | closed |
| `C44_run` | `PropTool.v` | closed |
| `C44_create_only` | `PropTool.v` | closed |
| `C44_crash` | `PropTool.v` | closed |
| `C44_mesh_ends` | `PropTool.v` | closed |
| `C44_mesh` | `PropTool.v` | closed |
| `C45_unit_names` | `PropFile.v` | closed |
| `C45_names_distinct` | `PropFile.v` | closed |
| `C47_two_byte_file` | `RoundTrip.v` | closed |
| `C47_one_byte_file` | `RoundTrip.v` | closed |
| `C47_runlength_file` | `RoundTrip.v` | closed |
| `C48_line_number_ten_loses_data` | `RoundTrip.v` | closed |
| `C49_no_delimiter` | `PropHeader.v` | closed |
| `C49_otherwise_sound` | `PropHeader.v` | closed |
| `C50_data_error` | `PropData.v` | closed |
| `C50_one_defect` | `PropData.v` | closed |
| `C50_all_errors` | `PropData.v` | closed |
| `C50_never` | `PropData.v` | closed |
| `C51_successive` | `PropShared.v` | closed |
| `C51_any_bytes` | `PropShared.v` | closed |
| `C51_small_buffer` | `PropShared.v` | closed |
| `C51_reads_ahead` | `PropShared.v` | closed |
| `C52_history` | `PropHeap.v` | closed |
| `C52_untouched` | `PropHeap.v` | closed |
| `C52_writable` | `PropHeap.v` | closed |
| `C52_at_z` | `PropHeap.v` | closed |
| `C52_progress` | `PropHeap.v` | closed |
| `C52_returns` | `PropHeap.v` | closed |
| `C52_no_race` | `PropHeap.v` | closed |
| `C52_no_race_caller` | `PropHeap.v` | closed |
| `C53_append_overwrites` | `PropHeap.v` | closed |
| `C53_append_copies` | `PropHeap.v` | closed |
| `C54_accuracy` | `PropAccuracy.v` | C D F N |
| `C55_pixel` | `PropLookup.v` | C D F N |
| `C55_outside` | `PropLookup.v` | C D F N |
| `C55_south` | `PropSouth.v` | C D F N |
| `C56_kilometres` | `PropKm.v` | C D F N |
| `C56_resolution` | `PropKm.v` | C D F N |
| `C56_distance` | `PropKm.v` | C D F N |
| `C57_overlay` | `PropOverlay.v` | C D F N |
| `C57_extent` | `PropOverlay.v` | C D F N |
| `C58_rate` | `PropZRFloat.v` | C D F N |
| `C58_reflectivity` | `PropZRFloat.v` | C D F N |
| `C58_round_trip` | `PropZRFloat.v` | C D F N |
| `C58_increasing` | `PropZRFloat.v` | C D F N |
| `C58_named` | `PropZRFloat.v` | C D F N |
| `C59_one_byte` | `PropRain.v` | C D F N |
| `C59_two_byte` | `PropRain.v` | C D F N |
| `C60_east` | `PropOrder.v` | C D F N |
| `C60_south` | `PropOrder.v` | C D F N |
| `C60_separated` | `PropOrder.v` | C D F N |
| `C60_near` | `PropOrder.v` | C D F N |
| `C61_one_byte` | `PropValue.v` | C D F N |
| `C61_two_byte` | `PropValue.v` | C D F N |
| `C61_runlength` | `PropValue.v` | C D F N |
| `C62_reflectivity` | `PropPicture.v` | C D F N |
| `C62_level_reflectivity` | `PropPicture.v` | C D F N |
| `C62_precipitation` | `PropPicture.v` | C D F N |
| `C62_echo_top` | `PropPicture.v` | C D F N |
| `C62_velocity` | `PropPicture.v` | C D F N |
| `C63_reflectivity_short` | `PropSamples.v` | C D F N |
| `C63_reflectivity` | `PropSamples.v` | C D F N |
| `C63_reflectivity_documented_is_false` | `PropSamples.v` | C D F N |
| `C63_reflectivity_wide` | `PropSamples.v` | C D F N |
| `C63_accumulated_hour` | `PropSamples.v` | C D F N |
| `C63_accumulated_day` | `PropSamples.v` | C D F N |
| `C63_radial_velocity` | `PropSamples.v` | C D F N |
| `C63_gray_linear` | `PropSamples.v` | C D F N |
| `C63_gray_linear_wide` | `PropSamples.v` | C D F N |
| `C64_table` | `PropBorders.v` | C D F N |
| `C64_inside` | `PropBorders.v` | C D F N |
| `C64_cut_off` | `PropBorders.v` | C D F N |
| `C64_drawn` | `PropBorders.v` | C D F N |
| `C65_minute_unique` | `PropPrint.v` | closed |
| `C65_output` | `PropPrint.v` | C D F N |
| `C65_usage` | `PropPrint.v` | closed |
| `C65_failed` | `PropPrint.v` | closed |
| `C66_forward` | `PropTable.v` | C D F N |
| `C66_inverse` | `PropTable.v` | C D F N |
| `C66_inverse_back` | `PropTable.v` | C D F N |
| `C66_table` | `PropTable.v` | C D F N |
| `C66_pixels` | `PropTable.v` | C D F N |
| `C66_points` | `PropTable.v` | C D F N |
| `C66_distance` | `PropTable.v` | C D F N |
| `C67_archive` | `PropArchive.v` | closed |
| `C67_series` | `PropArchive.v` | closed |
| `C67_order_free` | `PropArchive.v` | closed |
| `C67_damaged` | `PropArchive.v` | closed |
| `C67_broken_off` | `PropArchive.v` | closed |
| `C67_directory` | `PropArchive.v` | closed |
| `C68_header` | `PropDamage.v` | closed |
| `C68_two_byte` | `PropDamage.v` | closed |
| `C68_one_byte` | `PropDamage.v` | closed |
| `C68_runlength` | `PropDamage.v` | closed |
| `C69_point` | `PropOnto.v` | C D F N |
| `C69_picture` | `PropOnto.v` | C D F N |
| `C69_lookup` | `PropOnto.v` | C D F N |
| `C70_read` | `PropPlatform.v` | closed |
| `C70_archive` | `PropPlatform.v` | F |
| `C70_project` | `PropPlatform.v` | C D F N |
| `C70_lookup` | `PropPlatform.v` | C D F N |
| `C70_colors` | `PropPlatform.v` | C D F N |
| `C71_archive_reader` | `PropTar.v` | closed |
| `C71_series` | `PropTar.v` | closed |
| `C71_broken_off` | `PropTar.v` | closed |
| `C71_no_end` | `PropTar.v` | closed |
| `C72_distinct` | `PropText.v` | closed |
| `C72_kind` | `PropText.v` | closed |
| `C72_message` | `PropText.v` | closed |
| `C72_header` | `PropText.v` | closed |
| `C72_data` | `PropText.v` | closed |
| `C72_unit` | `PropText.v` | closed |
| `C72_fixed` | `PropText.v` | closed |
| `C72_no_delimiter` | `PropText.v` | closed |
| `C72_cut_two_byte` | `PropText.v` | closed |
| `C72_cut_one_byte` | `PropText.v` | closed |
| `C72_cut_runlength` | `PropText.v` | closed |
| `C72_level_format` | `PropText.v` | closed |
| `C73_total` | `PropMemory.v` | closed |
| `C73_never_more` | `PropMemory.v` | closed |
| `C73_no_header` | `PropMemory.v` | closed |
| `C73_impossible` | `PropMemory.v` | closed |
| `C73_accepted` | `PropMemory.v` | closed |
| `C73_in_application` | `PropMemory.v` | closed |
| `C73_short_file` | `PropMemory.v` | closed |
| `C73_short_levels` | `PropMemory.v` | closed |
| `C74_eof` | `PropReadError.v` | closed |
| `C74_read_error` | `PropReadError.v` | closed |
| `C74_in_header` | `PropReadError.v` | closed |
| `C74_otherwise` | `PropReadError.v` | closed |
| `C74_complete` | `PropReadError.v` | closed |
| `C74_stalled` | `PropReadError.v` | closed |
| `C75_bad_entry` | `PropArchiveError.v` | closed |
| `C75_broken_data` | `PropArchiveError.v` | closed |
| `C75_broken_header` | `PropArchiveError.v` | closed |
| `C75_between` | `PropArchiveError.v` | closed |
| `C75_unknown_unit` | `PropArchiveError.v` | closed |
| `C75_message_iff_error` | `PropArchiveError.v` | closed |
| `C76_end` | `PropExit.v` | closed |
| `C76_usage` | `PropExit.v` | closed |
| `C76_success` | `PropExit.v` | closed |
| `C76_quiet` | `PropExit.v` | closed |
| `C76_refused` | `PropExit.v` | closed |
| `C76_unknown_product` | `PropExit.v` | closed |
| `C76_no_header` | `PropExit.v` | closed |
