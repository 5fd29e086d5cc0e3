# Formal model of resdet in Rocq (Coq 8.16.1)

The subject is the code in /repo at the pinned commit: libresdet, its bundled KISS FFT,
the `resdet` command, the tools `profile`, `stat` and `imgread`, and the Python and
JavaScript bindings. The code is read as text; nothing is built or run. The model is
written by hand, function by function, and definitions cite the file and lines they model.

## 1. Layers

| layer | files in rocq/theories | what it holds |
|---|---|---|
| base | `Base.v`, `Flt.v` | outcome monad (`Ok` / `Undef`), bounds-checked buffers, size_t wrap-around, allocation world, binary32/binary64 operations (Flocq) |
| library model | `Util.v`, `Methods.v`, `Analysis.v`, `Resdetect.v`, `Kiss.v`, `Tables.v`, `Stdio.v`, `Pgm.v`, `Pfm.v`, `Y4m.v`, `Image.v`, `Library.v`, `Sizes.v`, `Precision.v`, `KissPrecision.v`, `TablesPrecision.v`, `Build.v` | one definition per C function |
| program models | `Cli.v`, `Printf.v`, `Tools.v`, `Bindings.v`, `Handles.v`, `Visualize.v` | command line, tools, Python and JavaScript glue, visualize.sh |
| client histories | `History.v`, `ImageHistory.v`, `Session.v` | what a client may do: series of calls the theorems quantify over |
| specification | `Spec*.v` | what the theorems are stated against |
| proofs | `*Proofs.v`, `*Film.v`, `*Run.v`, `ImageSafe.v`, `ImageApi.v`, `Relax.v`, `Kiss*.v`, `Upscale*.v`, ... | lemmas |
| examples | `Demo.v`, `DemoImages.v`, `DemoFormats.v`, `DemoLibraries.v` | concrete environments and files for the non-vacuity examples |
| tests | `Suite*.v` | the project's own tests, run on the model |
| claims | `*Claims.v` | the final lemmas, with proofs |
| statements | `Prop*.v` | only `Theorem ... exact ..._claim. Qed.` with `Print Assumptions`, and the `Example`s. Generated by `tools/gen_props.py` |

### Conventions
* `Undef u` is C undefined behaviour (out-of-bounds access, reading uninitialised
  memory, null dereference, double free, over-wide shift, signed overflow, ...). It is
  never a normal value, and memory safety theorems say it is not reached.
* size_t arithmetic is written with an explicit `mod 2^64`.
* Mutation through a pointer is a returned new value; `malloc`, `free`, `fopen` and
  `fclose` act on an explicit world with an allocation oracle (any pattern of failures),
  a list of live blocks and a list of open files.
* Floating point is IEEE-754 through Flocq with round-to-nearest-even; it is computable.
  NaN payloads follow Flocq's operators and no theorem depends on them.
* Loops are structural recursion over a precomputed count when the C loop has one, or
  recursion on fuel with a distinguished out-of-fuel outcome that theorems exclude.
* `foo_refuted` proves by a concrete witness that the code does not have a property one
  would expect of it; the property's statement then names the deviation.

## 2. Trusted base

1. Coq's kernel (8.16.1), including its virtual machine for `vm_compute`.
2. What `Print Assumptions` lists. Every theorem in `Prop*.v` is followed by that command.
   Only these axioms of Coq's standard library occur, through Flocq and the reals:
   * `ClassicalDedekindReals.sig_not_dec`
   * `ClassicalDedekindReals.sig_forall_dec`
   * `FunctionalExtensionality.functional_extensionality_dep`
   * `Classical_Prop.classic`

   The model adds none, and `coqchk -o` over all the `Prop*.v` modules lists the same four. By file:

   | file | theorems | closed under the global context | others |
   |---|---|---|---|
   | PropUtil | 12 | all but `setter_history`, `setter_history_valid`, `setter_null`, `setter_step`, `create_outcome` | 5, all four |
   | PropAnalysis | 32 | none | 32, all four |
   | PropKiss | 11 | none | 10, all four; `upscale_signs`: functional_extensionality_dep, sig_forall_dec, sig_not_dec |
   | PropAccuracy | 4 | none | 4, all four |
   | PropImage | 14 | none | 14, all four |
   | PropFormat | 26 | `seek_zero`, `seek_progress` | 24, all four |
   | PropCli | 20 | `option_words`, `option_end`, `option_numbers`, `filter_by_name` | 16, all four |
   | PropTool | 15 | `comparison_counts`, `profile_time`, `profile_time_text`, `profile_time_text_refuted` | 11, all four |
   | PropRefusal | 4 | none | 4, all four |
   | PropLibrary | 20 | `png_transformed`, `magick_safe`, `magick_frames`, `magick_failure`, `ff_safe`, `ff_frames`, `ff_failure` | 13, all four |
   | PropBinding | 30 | `python_dimensions_refuted` | 29, all four |
   | PropHandle | 11 | `python_readers`, `buffer_list` | 9, all four |
   | PropSize | 16 | all but `requests_made`, `fftr_arrays` | 2, all four |
   | PropInterpolate | 11 | none | 6, all four; `interpolation_coefficients`, `whole_factors`, `nearest_response`, `linear_response`, `cubic_response`: functional_extensionality_dep, sig_forall_dec, sig_not_dec |
   | PropCubic | 7 | none | 6, all four; `cubic_kernels`: functional_extensionality_dep, sig_forall_dec |
   | PropLanczos | 4 | none | 4, all four |
   | PropInverse | 11 | `inverse_forward`, `inverse_misuse`, `next_fast_size`, `next_fast_size_real`, `next_fast_size_refuted` | 6, all four |
   | PropDetect | 7 | none | 7, all four |
   | PropTurned | 5 | none | 4, all four; `reworked_coefficients`: functional_extensionality_dep, sig_forall_dec, sig_not_dec |
   | PropOrder | 4 | none | 4, all four |
   | PropCrossing | 7 | none | 7, all four |
   | PropText | 15 | `number_text`, `usage_options` | 12, all four; `fraction_text`: functional_extensionality_dep, sig_forall_dec |
   | PropEnd | 4 | none | 4, all four |
   | PropSession | 4 | none | 4, all four |
   | PropPrecision | 6 | none | 6, all four |
   | PropScalar | 7 | none | 7, all four |
   | PropTrig | 5 | none | 5, all four |
   | PropBuild | 17 | all |  |
   | PropVisualize | 4 | `visualize_refuses` | 3, all four |
3. That the hand-written model says what the source says. There is no extraction or
   automatic translation; the citations are there to be compared with the source. The
   code has not been run. As a check of the model, `Suite*.v` runs the project's own tests on
   it (test/lib, test/bin, test/bindings), as far as they need neither the sample
   photograph nor an external library. All pass but two, which ask for the MIME type
   "image/x-portable-float-map"; lib/image.c only knows "image/x-portable-floatmap", so these
   need the FFmpeg or MagickWand reader. The tests on the photograph are too slow for Coq.
   `tools/photo_test.py` extracts `resdetect` and the KISS transform to OCaml in a scratch
   directory, with hardware floats, and runs these tests on the photograph
   (blue_marble_2012_resized.png; the .pfm used by the tests is not in the repository).
   With the luma of Rec. 709 every result is the one the tests expect, except that range 8
   finds 6 heights instead of 5; with the mean of the channels it finds 5, but the best
   confidence of two methods is 0.986 to 0.989 instead of 0.99 or more. The number of heights at range 8
   therefore depends on the unknown conversion to grey. No theorem depends on this script.
4. The libraries used for definitions: Flocq's float operations as IEEE-754, and the
   real numbers and cosine of the standard library.

### Platform
LP64 with 64-bit size_t and long, 32-bit int, 8-bit bytes; IEEE-754 float and double
without excess precision (FLT_EVAL_METHOD 0), round to nearest. Default precision
configuration (coefficients float, intermediates double), except C90. `signbit` returns one fixed
non-zero value for negative numbers. printf rounds correctly, in the "C" locale (C80-C82);
C81 also assumes of strtod that it reads numerals of up to 15 digits correctly rounded.

### Oracles (quantified over, never axioms)
* malloc and calloc: any pattern of success and failure.
* the transform, in the analysis theorems: any function from w*h floats to w*h floats.
  `kiss_env` shows that the KISS model is an instance; FFTW would be another.
* qsort: any function that returns a sorted permutation when the comparison is consistent.
* cos and sin in KISS: the twiddle tables are parameters; theorems in exact arithmetic take
  the exact values, those on C floats (C73, C74, C79) any finite floats within 2^-24 of them.
  `Tables.v` models how C fills these tables; C83 and C84 assume of the C library only that
  cos and sin are within 2^-30 of the exact values for arguments up to 8, and atan at 1.
  `TablesPrecision.v` does so for the other precisions; C95 assumes 2^-51, or 2^-23 of the
  functions for floats.
* the host: behaviour C leaves open (numbers too large for scanf, is-functions on
  negative characters, byte order, how %f reads a number).
* the file system: any map from names to an errno or to bytes, seekable or a pipe.
* readers for libpng, libjpeg, MagickWand and FFmpeg: any behaviour that respects the
  reader interface (sizes, codes, progress), see `ext_ok` in `ImageHistory.v`. The models of
  these readers in `Library.v` are proved to respect it, see C61-C71.
* libpng, libjpeg, MagickWand and FFmpeg, in `Library.v`: any behaviour that agrees with
  their documentation, as far as `png_ok`, `jpeg_ok`, `magick_ok`, `ff_ok` and `decodes` in
  `SpecLibrary.v` say. What a file contains is what the library decodes it to.
* the clock, in `profile`.

## 3. What is modelled and what is not

| source | model | not modelled or simplified |
|---|---|---|
| lib/util.c, lib/methods.c, lib/resdetect.c | all of it | |
| lib/analysis.c | all of it | byte sizes of the requests are modelled apart, in Sizes.v, for size_t of any width; results are values, so writing to a result list is not |
| lib/resdet_internal.h, lib/precision.h | the default configuration; for other precisions the methods and the results of an analysis (Precision.v), the KISS transform and its tables (KissPrecision.v, TablesPrecision.v) and byte sizes (Sizes.v) | handles and images in other precisions; long double as a pair of doubles (PowerPC) |
| lib/transform/kiss_fft.c, lib/kissfft/kiss_fft.c, kiss_fftr.c | transforms of both directions, with stride and in place, in floating point; what the library does not call is in KissInverse.v | fixed-point transforms, OpenMP, SIMD; where the parts of a state lie in its block is modelled apart, in Sizes.v |
| lib/transform/fftw.c | plan bookkeeping only | FFTW |
| rest of lib/kissfft | | not used by the library |
| lib/image.c, lib/image_readers.c | all of it | |
| lib/image/pgm.c, pfm.c, y4m.c | all of it | stdio as a stream with position, error and end flags; a partial object at the end of a fread is treated as not read |
| lib/image/libpng.c, libjpeg.c, magickwand.c, ffmpeg.c | all of it | the libraries, see above; what they allocate is one object each; libpng's and libjpeg's longjmp as a returned failure; supports_ext of FFmpeg and MagickWand as an oracle |
| src/resdet.c | all of it | getopt as a parser of short options; writes succeed |
| src/profile.c, stat.c, imgread.c | all of it | getline as a list of lines; writes succeed |
| bindings/python | all of it | garbage collection; ctypes as conversions to the C types; exceptions raised by a seek callback |
| bindings/emscripten | parameters, detection, analyses, methods | the 32-bit size_t of WebAssembly, except in Sizes.v; finalizers |
| tests | run on the model, see 2.3 | |
| configure, Makefile, lib/resdet.pc.in | options, config.mak, objects, macros, installed and removed files | quoting and further expansion of variables, messages other than the warning, the targets for tests and cleaning; compiler, pkg-config and git are a parameter |
| src/visualize.sh | `Visualize.v` | spec, magick and identify are answers of the environment; no file name patterns in -r and -s; of bash's arithmetic, decimal numbers below 2^63 without leading zeros and the empty text |
| container files, bindings' build scripts | | not modelled |

## 4. Method

* Properties are stated over what a client sees: all images, files, parameters, series of
  calls and allocation failures. No bound is put on them except those of the C types.
* `reaches` (History.v) defines the analyses a client can hold by the calls that produce
  them; `reported` (SpecReport.v) ties a result list to the images handed in.
* Memory: `holds w' w bs fs` says that w' has exactly the blocks bs and files fs more than
  w. Theorems account for every block at every return.
* Formats: `SpecFormats.v` says what a well-formed file is and what it contains, without
  reference to the readers; round trips are proved for every such file.
* KISS: the code is generic in the scalars. Memory safety holds for any scalar operations
  and the transform is proved equal to the cosine transform for real numbers. For floating
  point scalars the distance to it is bounded: `KissRound.v` has the sizes of complex numbers
  and butterflies, `KissAccuracy.v` one rule per operation, the butterflies with rounding, the
  passes, the real FFT, one line and both directions, for every format with at least 24 bits
  and any unit u that bounds rounding and table errors. `AccuracyProofs.v` is the case of C
  floats, `KissPrecisionProofs.v` the others and the conversions of long double coefficients,
  `TablesPrecisionProofs.v` the tables.
  `KissInverseProofs.v` gets the inverse transforms from the forward ones by conjugation.
  `TurnedProofs.v` has the coefficients of mirrored, turned and recoloured pictures.
  `OrderProofs.v` compares the hits, ratios and means of the methods.
  `CrossingProofs.v` shows that coefficient N of an upscale from N samples vanishes but for
  aliasing.
  Errors are Euclidean lengths, so a pass of radix p adds at most the factor 1 + (2p+50) u.
* Interpolation: the upscale is described by its kernel (`SpecInterpolate.v`), with the source
  mirrored at its ends. `resampled_dct` says what it does to the cosine coefficients; the
  detection theorems then only need the signs of the responses and a bound on aliasing.
  `CubicProofs.v` writes cubic kernels (`SpecCubic.v`) as truncated powers, so that fourth
  differences leave a closed form of the response for every whole factor. `LanczosProofs.v`
  bounds the responses of windowed sines (`SpecLanczos.v`) by pairing their lobes.
* Detection: `SpecDetect.v` asks of the transform only that its coefficients are within some e
  of the exact ones. C85 and C86 hold for any such transform; KISS is one by `kiss_accurate`,
  of FFTW it is a hypothesis.
* Several clients: `Session.v` interleaves the calls of any number of clients, each with an
  analysis or image of its own. Calls are atomic: races inside a call are not modelled, and
  neither is the global state of FFTW's planner and MagickWand that doc/libresdet.md warns of.
  C89 is that accounts are those of a client alone, by simulation up to block numbers.
  Standard input is excluded, as there is only one.
* Precisions: `Precision.v` has methods.c over any two floating point formats, with the NaNs
  of Flt.v for float and double, so that `precision_default` holds by computation. Bounds of
  C90 are for formats of 24 to 113 bits with 2 p + 64 < emax. Counts are integers of
  `SpecPrecision.v`, means are compared in the reals.
* The build: `Build.v` is a model of the scripts, with the compiler, pkg-config and git as a
  record of answers. `configures` in `SpecBuild.v` says that a run of configure succeeded and
  wrote a given config.mak; what make and the preprocessor then derive from it is C91 and C92.
  `setting` and `asked` speak of command lines only, not of shell variables.
* visualize.sh: the text that the script reads is that of `cli_main` and `Printf.v`, so C93
  rests on C80 (the text at -v 1) and on the last -v winning. Process substitution hides the
  status of resdet, so only the text decides.
* Wrong programs: `tools/mutate.py` applies edits to model definitions in a scratch copy
  and records which theorems fail; `seeded/LOG.jsonl` is the log.

## 5. Findings
Each is proved by a witness in the theorem named.

* `create_leak_refuted`: C05, finding: one block can be lost. A 7x5 image with the KISS backend: the ninth allocation fails, creation reports "out of memory" and leaves a block.
* `confidence_after_nomem_refuted`: C06, finding: the bound fails if a previous frame ran out of memory half way. Method "orig", two frames of which the first fails in the height pass: the width confidence exceeds 1.
* `threshold_zero_every_line_refuted`: C20, finding: "every single line/column" (doc/libresdet.md) is not reported; the range at both ends is left out. 7x5 image, range 2.
* `filter_documentation_refuted`: C22, finding: the documented behaviour ("removes results at intervals of the image size / 2^value") is not what happens. Image 7x5, range 1, threshold 0, filter 1: index 2, which is at no multiple of 7/2, is removed, though it is reported without the filter.
* `python_rejected_refuted`: C51 as first stated, refuted: a range the library rejects raises nothing, and the default is used.
* `python_masked_refuted`: C51. Nor does an integer outside the C type: it is reduced to another value.
* `python_argument_leak_refuted`: C51. A value of the wrong type leaves the parameters allocated.
* `js_rejected_refuted`: C52 as first stated, refuted: a rejected range is ignored if a threshold follows.
* `js_rejected_leak_refuted`: C52. A rejected parameter leaves the parameters allocated.
* `python_negative_refuted`: C53 as first stated, refuted: a negative index reads before the buffer.
* `python_column_refuted`: C53. A negative column reads a sample of the row before.
* `python_dimensions_refuted`: C53. with_dimensions allocates one frame, however many it is asked for: coordinates within the dimensions of the buffer are outside its memory.
* `python_closed_refuted`: C53. A buffer that was closed and is given to another image is written to where it was.
* `python_reused_refuted`: C53. The memory of a buffer given to a second image is lost.
* `numpy_rows_refuted`: C58 for arrays in numpy's order, refuted: they are analysed with width and height exchanged.
* `numpy_bytes_refuted`: C58. Arrays of other element types are read as floats, beyond their end.
* `pil_read_refuted`: C58 for images read through the binding, refuted: read_image_frame_as_pil_image makes an image with width and height exchanged, and detection on it misses the resolution.
* `python_short_list_refuted`: C59 without the condition, refuted: a list shorter than its dimensions say is read beyond its end.
* `js_memory_leak_refuted`: C60. When a request of the binding fails, what it had allocated before is lost.
* `usage_form_refuted`: C91, finding: the help text gives three options as "--default-range [n]", "--coeff-precision [F|D|L]" and "--inter-precision [F|D|L]". Typed like that, with the value as an argument of its own, every command line is refused.
* `inter_setting_refuted`: C91, finding: an intermediate precision that is not one of F, D and L is never refused: any other name counts as 0, which is less than every coefficient precision, so the intermediates silently get the precision of the coefficients; by default that is float instead of double.
* `coeff_setting_refuted`: C91, finding: precision.h also accepts the numbers 1, 2 and 3 as precisions, but configure does not know them: with --coeff-precision=2 the coefficients are doubles, while the FFTW library chosen is that for floats, and KISS FFT computes in float.
* `ffmpeg_check_refuted`: C91, finding: configure insists on pkg-config only for the sake of libjpeg, libpng, MagickWand and FFTW. With these four disabled and pkg-config missing it succeeds, and silently leaves out FFmpeg, which was not disabled.
* `pc_directories_refuted`: C92, finding: resdet.pc names the directory lib under the prefix even if --libprefix puts the library elsewhere, so that programs built with pkg-config do not find it there.
* `uninstall_refuted`: C92, finding: for shared libraries on Darwin, make uninstall leaves the library itself and one of the links to it; it refers to a variable VERSION_MINOR that nothing assigns. On Windows it leaves the library.
* `uninstall_lib_refuted`: C92, finding: make uninstall-lib also removes the program that make install has made.
* `reader_option_refuted`: C54 as in the help text, refuted: a reader that does not exist is accepted after one that does.
* `verbosity_option_refuted`: C54 as in the help text, refuted: a verbosity that is not a number is taken for 0.
* `cli_memory_refuted`: C55 without the exceptions, refuted: the parameters are lost with -t and -R.
* `silent_status_refuted`: C46 as first stated, refuted: with -v 0 an image that is not upscaled and a file that cannot be read give the same status.
* `pgm_magic_refuted`: C31, finding: the magic number is not enforced. After "P" the reader skips a '5' if there is one, so a file that starts with "P6 2 2" opens as a grey image of 6x2.
* `pgm_comment_refuted`: C31, finding: comments are only understood between the magic number and the width. Netpbm allows them anywhere in the header.
* `y4m_411_refuted`: C33, finding: 4:1:1 is taken for 4:2:0. A 4x1 frame has two chroma samples then, and the reader passes over four: the second frame is not found.
* `y4m_alpha_refuted`: C33, finding: 4:4:4 with an alpha plane is taken for plain 4:4:4; the alpha plane is then taken for the start of the next frame.
* `y4m_16_bit_refuted`: C33, finding: on big-endian hosts the 16-bit sample 1 reads as 256/65535.
* `y4m_limit_refuted`: C33, finding: an image of 3x2 is too big for a limit of 6 pixels.
* `mixed_seek_refuted`: C34, finding: PFM seeks skip frames of the size of the first frame. With a colour frame among grey ones the seek ends inside a frame.
* `seek_zero_pfm_refuted`: C35, finding: a seek by 0 on a PFM image that has just been opened reports success and loses the first frame: the next read takes the samples for a header.
* `truncated_chroma_refuted`: C37 and C39, finding: a seekable file that ends inside the chroma samples of a frame gives that frame without an error; the same bytes from a pipe do not.
* `pgm_sample_refuted`: C44, finding: PGM samples above maxval are accepted and exceed 1.
* `pgm_maxval_refuted`: C44, finding: PGM maxval 0 is accepted and gives values that are not finite.
* `read_image_limit_refuted`: C41, finding: a file of one frame that is exactly as large as the limit can be opened and read frame by frame, but not with resdet_read_image.
* `python_negative_seek`: C75, finding: a negative offset is not rejected. It is taken modulo 2^64, so the seek passes every frame of the file, tells the callback so, and nothing is left to read.
* `unknown_method`: C76, finding: an unknown method name is not an error. What Method.get returns for it makes every function use the default method, as Method.get("sign") does.
* `exact_name_refuted`: C40, finding: "a reader is found by its exact name" is not what happens.
* `hostile_number_refuted`: C45, finding: a PGM width that does not fit is undefined behaviour in fscanf.
* `hostile_char_refuted`: C45, finding: a byte above 127 after the colour space of a Y4M file is passed to a character function that is not defined for it where char is signed.
* `hostile_name_refuted`: C45, finding: so is a byte above 127 in the extension of the file name.
* `next_fast_size_refuted`: C97, finding: the remaining ints do not work. For 0 the first inner loop ends after no number of rounds, and beyond the largest product that fits, n++ overflows. The macro for real transforms passes 0 on for -1 and 0, overflows as well, and shifts negative numbers to the left.
* `fft_out_of_memory_refuted`: C26, finding: when the scratch buffer of a radix above 5 cannot be allocated, the butterfly is left out silently and the outputs are wrong. Size 7, input 1 0 0 ...
* `png_interlaced_refuted`: C61, finding: interlaced images are excepted because the reader asks for interlace handling after png_read_update_info, when libpng no longer promises that the rows get completed; if it leaves samples alone, the reader uses memory that was never written.
* `jpeg_message_refuted`: C64, finding: the error manager belongs to the call that opened the file; a message while lines are read, an ordinary thing for damaged files, goes to an object that no longer exists.
* `magick_export_refuted`: C66, finding: what MagickExportImagePixels returns is not looked at; when it fails a frame is reported although no sample was written.
* `magick_errno_refuted`: C67, finding: if MagickWand reports that it could not open a file but errno is 0, the result is the complaint that the image is too large.
* `ff_read_error_refuted`: C69, finding: an error while reading packets counts as the end of the file; the file is shorter than it should be and no error is reported.
* `ff_parameters_refuted`: C70, finding: an error of avcodec_parameters_to_context is compared before it is assigned; it always becomes RDEINVAL.
* `ff_memory_refuted`: C71, finding: with FFmpeg this holds for stream 0 only. If the pictures are in another stream and there is no memory for the codec context, the stream number is taken for an error and the file is reported as invalid.
* `precision_long_refuted`: C90, finding: the exact 1 does not hold for series of any length: with both precisions set to F, 2^25 frames in which both pairs around a position are inverted are an example.
* `header_sign_refuted`: C72, finding: numbers in headers may have a sign, and a negative number is taken modulo 2^64; such files are accepted.
* `empty_image_refuted`: C72, finding: a PGM or PFM image without pixels is reported as too large, not as invalid as for YUV4MPEG2.
* `kiss_request_32_refuted`: C78, finding: taken one by one the requests are not safe with 32 bits. A line of 2^29 samples is accepted, and the buffer of 2^32 bytes for its mirror image is requested with 0 bytes. Only the address space prevents the overrun: all requests together exceed it.
* `pfm_skip_refuted`: C78, finding: ... which the size check does not ensure for colour frames. With 32 bits a frame of 357913942 x 1 opens, and seeking skips 8 bytes of its 4294967304.
* `fftr_aligned_refuted`: C87, finding: with pointers of 4 bytes and coefficients of type double, aligned to 8 bytes as in WebAssembly and on ARM, the structure has 12 bytes, and the inner state, its twiddles, tmpbuf and the super twiddles are all misaligned, for every n.
* `table_alignment_refuted`: C80, finding: a confidence of 100% moves the height out of its column.
* `help_synopsis_refuted`: C82, finding: the first line of the help text omits an option.
* `help_lines_refuted`: C82, finding: an entry is printed behind another, not on a line of its own.
* `comparison_order_refuted`: C49 without the condition, refuted: the library reports in order of confidence. All resolutions known are found and no others, and two are counted as additional and missing.
* `profile_time_text_refuted`: C57, what the text stands for, refuted: read as seconds with a decimal fraction it is not the time measured.
* `profile_last_line_refuted`: C57, a dictionary whose last line is not terminated, refuted: the last character is lost.
* `stat_outliers_refuted`: C50, outliers, refuted: a resolution of less than median confidence is an extreme outlier.
* `imgread_big_endian_refuted`: C56 on big-endian hosts, refuted: the file says little endian, the samples are not.
* `imgread_status_refuted`: C56, exit status, refuted: 0 although nothing could be read or written.
* `imgread_arguments_refuted`: C56, the number of arguments, refuted: with only an input, a null pointer is opened.
* `error_message_int_min_refuted`: C03, finding: the most negative int overflows when negated.
* `visualize_status_refuted`: C93, finding: the status of resdet is not looked at. When resdet fails because -r names no image reader, it lists those there are, and the script goes on and draws lines at the "sizes" that it takes from this list.

## 6. Properties

| id | title | status | theorems |
|---|---|---|---|
| C01 | Method lookup | proved | `get_method_exact`, `get_method_unknown`, `get_method_default` |
| C02 | Parameter setters keep parameters valid | proved | `setter_history`, `setter_history_valid`, `setter_null`, `setter_step` |
| C03 | Error strings | proved | `error_message`, `max_error`, `error_message_int_min_refuted`, `analysis_codes` |
| C04 | Image size limit | proved | `size_limit`, `create_outcome` |
| C05 | Analysis is memory safe | proved | `analysis_safe`, `create_leak_refuted` |
| C06 | Confidence values are probabilities | proved | `confidence_range`, `confidence_after_nomem_refuted` |
| C07 | Result order and the size sentinel | proved | `list_order` |
| C08 | Exact result set | proved | `exact_results`, `no_duplicates` |
| C09 | Search window | proved | `window_only`, `narrow_dimension` |
| C10 | Invalid pixels are rejected without side effects | proved | `invalid_image`, `valid_image_accepted` |
| C11 | No images, no results | proved | `no_images` |
| C12 | Fetching results is repeatable | proved | `same_images_same_results`, `same_images_same_fetch` |
| C13 | Result out-parameters | proved | `result_outputs`, `result_null` |
| C14 | resdetect equals the sequential API | proved | `resdetect_sequential`, `resdetect_outcome` |
| C15 | resdetect_file equals open, read, analyse | proved | `file_by_hand`, `file_functions_defined` |
| C16 | Multi-frame confidence is the mean | proved | `mean_error` |
| C17 | Method criteria | proved | `method_counts`, `single_frame` |
| C18 | Parameters are copied at creation | proved | `analysis_parameters`, `default_threshold` |
| C19 | Raising the threshold only removes results | proved | `threshold_monotone` |
| C20 | Threshold zero reports the whole window | proved | `threshold_zero`, `threshold_zero_every_line_refuted` |
| C21 | Width and height are treated alike | proved | `transpose` |
| C22 | Compression filter | proved | `exact_results`, `filter_law`, `filter_documentation_refuted` |
| C23 | Zero crossing ignores range | proved | `zerox_range`, `zerox_window` |
| C24 | Frames are independent of buffer history | proved | `same_images_same_results`, `invalid_image` |
| C25 | FFT factorisation | proved | `factor_table` |
| C26 | FFT is the discrete Fourier transform | proved | `fft_is_dft`, `fft_out_of_memory_refuted` |
| C27 | Real FFT | proved | `real_fft_is_dft` |
| C28 | The KISS transform is the two-dimensional DCT-II | proved | `transform_is_dct` |
| C29 | Transform is memory safe | proved | `transform_safe`, `transform_deterministic`, `kiss_env` |
| C30 | Integer nearest-neighbour upscaling is detected | proved | `upscale_signs`, `upscale_width`, `upscale_height` |
| C31 | PGM round trip | proved | `pgm_round_trip`, `pgm_magic_refuted`, `pgm_comment_refuted` |
| C32 | PFM round trip | proved | `pfm_round_trip` |
| C33 | Y4M round trip | proved | `y4m_round_trip`, `y4m_411_refuted`, `y4m_alpha_refuted`, `y4m_16_bit_refuted`, `y4m_limit_refuted` |
| C34 | Seeking skips exactly that many frames | proved | `seek_then_read`, `mixed_seek_refuted` |
| C35 | Seeking by zero does nothing | proved | `seek_zero`, `seek_zero_pfm_refuted` |
| C36 | Seek progress callback | proved | `seek_progress` |
| C37 | Truncated frames are never reported as read | proved | `read_needs_samples`, `pgm_truncated`, `pfm_truncated`, `y4m_truncated`, `truncated_chroma_refuted` |
| C38 | Failed opens leave nothing behind | proved | `open_outcome` |
| C39 | Pipes and files give the same frames | proved | `pipes_and_files`, `truncated_chroma_refuted` |
| C40 | Reader selection | proved | `reader_by_type`, `unknown_type`, `reader_name`, `exact_name_refuted` |
| C41 | Reading a whole image | proved | `read_image`, `read_image_limit_refuted` |
| C42 | Every path releases what it acquired | proved | `image_program_safe`, `file_functions_defined` |
| C43 | Readers terminate | proved | `frames_end` |
| C44 | Sample normalisation | proved | `normalised`, `pgm_normalised`, `y4m_normalised`, `pgm_sample_refuted`, `pgm_maxval_refuted` |
| C45 | Readers are memory safe on hostile input | proved | `hostile_input`, `image_program_safe`, `hostile_number_refuted`, `hostile_char_refuted`, `hostile_name_refuted` |
| C46 | Command line exit status | proved | `silent_status`, `run_results`, `run_reported`, `silent_status_refuted` |
| C47 | Frame offset and count options | proved | `frame_range`, `frame_range_passed`, `run_results`, `progress_notes` |
| C48 | Best guess output | proved | `best_guess`, `run_results`, `run_reported` |
| C49 | Profiling comparison counts | proved | `comparison_counts`, `comparison_order_refuted` |
| C50 | Statistics tool | proved | `stat_run`, `stat_ascending`, `stat_outliers_refuted` |
| C51 | Python parameter dictionaries | proved | `python_parameters`, `python_rejected_refuted`, `python_masked_refuted`, `python_argument_leak_refuted` |
| C52 | JavaScript parameter objects | proved | `js_object`, `js_rejected_refuted`, `js_rejected_leak_refuted` |
| C53 | Python image buffers | proved | `python_index`, `python_read_image`, `python_negative_refuted`, `python_column_refuted`, `python_dimensions_refuted`, `python_closed_refuted`, `python_reused_refuted` |
| C54 | Options in effect | proved | `option_words`, `options_in_effect`, `option_numbers`, `option_verbosity`, `option_parameters`, `filter_by_name`, `reader_option_refuted`, `verbosity_option_refuted`, `option_end` |
| C55 | Command line safety | proved | `cli_safe`, `known_codes`, `cli_memory_refuted` |
| C56 | imgread round trip | proved | `imgread_run`, `imgread_round_trip`, `imgread_big_endian_refuted`, `imgread_status_refuted`, `imgread_arguments_refuted` |
| C57 | Profiling runs and totals | proved | `profile_run`, `profile_time`, `profile_time_text`, `profile_time_text_refuted`, `profile_last_line_refuted` |
| C58 | numpy and PIL images | proved | `numpy_frames`, `numpy_order`, `pil_detect`, `numpy_rows_refuted`, `numpy_bytes_refuted`, `pil_read_refuted` |
| C59 | Python detection | proved | `python_detect`, `python_detect_file`, `python_readme`, `python_session`, `python_short_list_refuted` |
| C60 | JavaScript detection | proved | `js_detect`, `js_analysis_created`, `js_analyze_image`, `js_analysis_results`, `js_memory_leak_refuted` |
| C61 | PNG reader is safe | proved | `png_safe`, `png_interlaced_refuted` |
| C62 | PNG transformations | proved | `png_transformed` |
| C63 | PNG values | proved | `png_values`, `png_mean` |
| C64 | JPEG reader is safe | proved | `jpeg_safe`, `jpeg_message_refuted` |
| C65 | JPEG values | proved | `jpeg_values` |
| C66 | MagickWand reader is safe | proved | `magick_safe`, `magick_export_refuted` |
| C67 | MagickWand frames and errors | proved | `magick_frames`, `magick_failure`, `magick_errno_refuted` |
| C68 | FFmpeg reader is safe | proved | `ff_safe` |
| C69 | FFmpeg frames | proved | `ff_frames`, `ff_read_error_refuted` |
| C70 | FFmpeg errors | proved | `ff_failure`, `ff_parameters_refuted` |
| C71 | Readable files open | proved | `library_opens`, `ff_memory_refuted` |
| C72 | Why native readers refuse files | proved | `native_refusal`, `native_errors`, `header_sign_refuted`, `empty_image_refuted` |
| C73 | Rounding errors of the KISS transform | proved | `transform_accuracy`, `kiss_signs` |
| C74 | Upscales are detected in C floats | proved | `kiss_upscale_width`, `kiss_upscale_height` |
| C75 | Python image objects | proved | `python_film`, `python_image_session`, `python_negative_seek` |
| C76 | Method objects and reader lists in the bindings | proved | `method_lists`, `method_get`, `unknown_method`, `python_readers` |
| C77 | Iterating over images in Python | proved | `numpy_film`, `numpy_iteration`, `pil_iteration`, `buffer_list` |
| C78 | Memory requests are large enough | proved | `size_limit_words`, `size_limit_64`, `requests_64`, `requests_made`, `requests_32`, `kiss_request_32_refuted`, `image_requests`, `y4m_requests`, `pfm_skip_exact`, `pfm_skip_refuted` |
| C79 | Interpolated upscales are detected | proved | `interpolation_coefficients`, `whole_factors`, `nearest_response`, `linear_response`, `cubic_response`, `halves_response`, `interpolated_width`, `interpolated_height`, `common_upscale_width`, `common_upscale_height`, `halves_upscale_width` |
| C80 | What the program prints can be read back | proved | `number_text`, `fraction_text`, `brief_text`, `list_text`, `table_text`, `text_unambiguous`, `table_alignment_refuted` |
| C81 | Thresholds are honoured in print | proved | `threshold_text` |
| C82 | The texts of the program agree with it | proved | `help_entries`, `usage_options`, `help_defaults`, `help_synopsis_refuted`, `help_lines_refuted`, `version_text`, `reader_list_text` |
| C83 | The trigonometric tables are accurate | proved | `tables_accurate`, `transform_from_libm` |
| C84 | From the bytes of an upscaled film to the text printed | proved | `film_run`, `upscaled_run` |
| C85 | The signs of the exact coefficients decide | proved | `kiss_accurate`, `width_reported`, `height_reported`, `width_not_reported`, `height_not_reported` |
| C86 | Upscales with partly unclear coefficients | proved | `partly_interpolated_width`, `partly_interpolated_height` |
| C87 | The block that holds an FFT state | proved | `fftr_block`, `fftr_arrays`, `fft_protocol`, `fftr_protocol`, `fftr_aligned`, `fftr_aligned_refuted` |
| C88 | Cubic upscales | proved | `cubic_kernels`, `cubics_respond`, `cubics_halves`, `cubic_upscale_width`, `cubic_upscale_height`, `cubic_halves_width`, `cubic_halves_height` |
| C89 | Several clients at once | proved | `clients_safe`, `clients_undisturbed`, `order_hidden`, `clients_leave` |
| C90 | Every precision setting | proved | `precision_default`, `precision_rule`, `precision_confidence`, `precision_unanimous`, `precision_stuck`, `precision_long_refuted` |
| C91 | Configuring and building | proved | `configure_outcome`, `built_readers`, `built_objects`, `built_warning`, `built_precisions`, `built_limits`, `usage_form_refuted`, `inter_setting_refuted`, `coeff_setting_refuted`, `ffmpeg_check_refuted` |
| C92 | Installing and uninstalling | proved | `installed_removed`, `installed_loads`, `versions_agree`, `pc_directories`, `pc_directories_refuted`, `uninstall_refuted`, `uninstall_lib_refuted` |
| C93 | The lines visualize.sh draws | proved | `visualize_draws`, `visualize_stops`, `visualize_refuses`, `visualize_status_refuted` |
| C94 | The KISS transform in every COEFF_PRECISION | proved | `scalar_accuracy`, `scalar_signs`, `scalar_long`, `scalar_float`, `scalar_no_worse`, `scalar_upscale_width`, `scalar_upscale_height` |
| C95 | The trigonometric tables in every precision | proved | `trig_tables`, `trig_default`, `trig_accuracy`, `trig_upscale_width`, `trig_upscale_height` |
| C96 | Lanczos upscales | proved | `lanczos_kernels`, `lanczos_respond`, `lanczos_upscale_width`, `lanczos_upscale_height` |
| C97 | Inverse transforms | proved | `inverse_forward`, `inverse_fft`, `inverse_round_trip`, `inverse_real`, `inverse_real_round_trip`, `inverse_safe`, `inverse_in_place`, `inverse_misuse`, `next_fast_size`, `next_fast_size_real`, `next_fast_size_refuted` |
| C98 | Turned and recoloured images | proved | `reworked_coefficients`, `reworked_width`, `reworked_height`, `turned_width`, `turned_height` |
| C99 | The methods compared | proved | `criteria_imply_signs`, `sign_reports_all`, `sign_reports_original`, `original_confidence` |
| C100 | Upscales and the zero crossing method | proved | `crossed_width`, `crossed_height`, `crossing_upscale_width`, `crossing_upscale_height`, `crossing_kernels`, `width_not_crossed`, `height_not_crossed` |
