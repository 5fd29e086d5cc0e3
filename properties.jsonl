{"id": "C01", "title": "Method lookup", "statement": "resdet_get_method(NULL) yields the first (default) method; with a name it yields the method of exactly that name, and NULL for every other string.", "quantifier": "every C string (or NULL)", "why_tests_cant": "a test can only try finitely many names", "anchors": ["lib/util.c:resdet_get_method", "lib/methods.c:methods"]}
{"id": "C02", "title": "Parameter setters keep parameters valid", "statement": "Each setter accepts exactly its documented value set (range >= 1; threshold a number in [0,1]; compression filter 0..31), changes only its own field when it accepts, changes nothing when it rejects, so after any history of setter calls on default parameters the parameters are valid and each field holds the last accepted value (or its default).", "quantifier": "every sequence of setter calls with arbitrary arguments including NaN, infinities, signed zeros and NULL", "why_tests_cant": "histories are unbounded and the float domain has 2^32 values per call", "anchors": ["lib/util.c:resdet_parameters_set_range", "lib/util.c:resdet_parameters_set_threshold", "lib/util.c:resdet_parameters_set_compression_filter", "lib/util.c:resdet_alloc_default_parameters"]}
{"id": "C03", "title": "Error strings", "statement": "resdet_error_str returns a fixed library message for every code from 0 to resdet_get_max_error(), the system message for a negative errno code, and NULL above the maximum; every error code the library returns lies in a range for which the string is defined.", "quantifier": "every int error code except INT_MIN", "why_tests_cant": "the domain is all ints, and which codes can be returned depends on all executions", "anchors": ["lib/util.c:resdet_error_str", "lib/util.c:resdet_get_max_error", "include/resdet.h:RDErrors"]}
{"id": "C04", "title": "Image size limit", "statement": "Dimensions are accepted exactly when width, height and frame count are non-zero, width*height*frames does not exceed the configured pixel maximum and the byte size of the buffer fits in size_t; the division chain used for the check never overflows or divides by zero. Creating an analysis reports invalid image for a zero dimension, too big for an oversized one, and succeeds otherwise unless memory runs out.", "quantifier": "all width, height, frame count, pixel limit and allocation outcomes", "why_tests_cant": "the interesting values sit near 2^64 and products of three 64-bit numbers cannot be enumerated", "anchors": ["lib/resdet_internal.h:resdet_dims_exceed_limit", "lib/analysis.c:resdet_create_analysis"]}
{"id": "C05", "title": "Analysis is memory safe", "statement": "Creating an analysis, analysing any frames with any method and parameters, and fetching results never reads or writes outside an allocated buffer, never reads an uninitialised bound, never shifts out of range or divides by zero, and never frees twice; afterwards exactly the handed-out lists are allocated, except for one block lost when a particular allocation of the KISS plan fails.", "quantifier": "all dimensions, ranges, methods, thresholds, filters, frame contents, transform outputs and allocation failure patterns, and all call histories", "why_tests_cant": "needs every dimension/range combination; a sanitizer run sees one", "anchors": ["lib/analysis.c:setup_dimension", "lib/analysis.c:resdet_analyze_image", "lib/analysis.c:generate_dimension_results", "lib/methods.c"]}
{"id": "C06", "title": "Confidence values are probabilities", "statement": "Every reported resolution other than the image's own size has a finite confidence between the effective threshold and 1; no reported confidence is NaN. This holds for analyses whose frames all succeeded or were refused as invalid; after a frame that ran out of memory half way a confidence can exceed 1 (witness).", "quantifier": "all frame sequences of any length, all methods and parameters, in the actual IEEE double/single arithmetic", "why_tests_cant": "rounding and accumulation over an unbounded number of frames", "anchors": ["lib/analysis.c:generate_dimension_results", "lib/methods.c"]}
{"id": "C07", "title": "Result order and the size sentinel", "statement": "Every successful result list is non-empty, sorted by non-increasing confidence, and ends with the image's own size with confidence -1, which occurs exactly once.", "quantifier": "all analyses and any qsort implementation meeting its contract", "why_tests_cant": "qsort is unspecified on ties and results depend on the image", "anchors": ["lib/analysis.c:sortres", "lib/analysis.c:generate_dimension_results"]}
{"id": "C08", "title": "Exact result set", "statement": "Without a compression filter an index is reported exactly when it lies in the search window and its mean detection ratio over the analysed frames reaches the threshold, and it is reported once, with that mean as its confidence.", "quantifier": "all frames, methods, parameters, dimensions", "why_tests_cant": "soundness and completeness of the list for every image", "anchors": ["lib/analysis.c:generate_dimension_results"]}
{"id": "C09", "title": "Search window", "statement": "Only indices at least range away from both ends are ever reported; a dimension of at most 2*range reports nothing but its own size, for every method.", "quantifier": "all dimensions, ranges (including near SIZE_MAX) and methods", "why_tests_cant": "overflow of length+1 and range*2 only shows at extreme values", "anchors": ["lib/analysis.c:setup_dimension", "lib/methods.c:detect_method_original"]}
{"id": "C10", "title": "Invalid pixels are rejected without side effects", "statement": "A frame containing any NaN or infinite sample is refused as invalid image and does not change what the analysis later reports; a frame of finite samples is never refused as invalid.", "quantifier": "all frames and all positions of the bad sample, at any point of a history", "why_tests_cant": "must hold at each position of each history", "anchors": ["lib/analysis.c:resdet_analyze_image"]}
{"id": "C11", "title": "No images, no results", "statement": "Fetching results before any frame was successfully analysed reports RDENOIMG and hands out no list.", "quantifier": "all histories", "why_tests_cant": "history property", "anchors": ["lib/analysis.c:resdet_analysis_results"]}
{"id": "C12", "title": "Fetching results is repeatable", "statement": "Fetching results does not change the analysis: a second fetch gives the same lists and later frames are accumulated as if no fetch had happened.", "quantifier": "all interleavings of analyse and results calls", "why_tests_cant": "unbounded interleavings", "anchors": ["lib/analysis.c:resdet_analysis_results"]}
{"id": "C13", "title": "Result out-parameters", "statement": "Every non-NULL list pointer is set to NULL and its count to 0 on every failure; on success the list holds exactly count entries; asking for a list without its count is RDEPARAM; not asking for a dimension leaves it alone; no list is leaked when the second allocation fails.", "quantifier": "all combinations of requested outputs and allocation failures", "why_tests_cant": "combinatorial with fault injection", "anchors": ["lib/analysis.c:resdet_analysis_results", "lib/resdetect.c:resdetect"]}
{"id": "C14", "title": "resdetect equals the sequential API", "statement": "resdetect on a buffer of n frames returns exactly what create, n analyse calls on the consecutive frames and results return, stops at the first failing frame, and leaves no memory behind except the result lists.", "quantifier": "all frame counts, dimensions, parameters, allocation patterns", "why_tests_cant": "equivalence of two programs for all inputs", "anchors": ["lib/resdetect.c:resdetect"]}
{"id": "C15", "title": "resdetect_file equals open, read, analyse", "statement": "resdetect_file returns exactly what opening the image, reading each frame to the end and analysing it gives; read errors and analysis errors take precedence over results; the file is closed and all memory but the result lists released on every path.", "quantifier": "all files and failure points", "why_tests_cant": "every failure point of every file", "anchors": ["lib/resdetect.c:resdetect_file", "lib/image.c"]}
{"id": "C16", "title": "Multi-frame confidence is the mean", "statement": "The confidence reported for an index after k frames is within a stated rounding bound of the exact arithmetic mean over those frames of the fraction of coefficient pairs that match the method's criterion.", "quantifier": "every number of frames and every content", "why_tests_cant": "rounding error analysis over unbounded sums", "anchors": ["lib/analysis.c", "lib/methods.c"]}
{"id": "C17", "title": "Method criteria", "statement": "For each candidate index the sign method counts exactly the coefficient pairs mirrored around it within range whose signs differ; the magnitude method the mirrored pairs whose quotient is within a factor making quotient+1 below one in magnitude; the zero crossing method the rows whose centre triple strictly crosses; the original method equals the sign method on indices passing its magnitude test and zero elsewhere.", "quantifier": "all coefficient arrays, dimensions, strides and ranges", "why_tests_cant": "loop/stride correctness for every shape", "anchors": ["lib/methods.c"]}
{"id": "C18", "title": "Parameters are copied at creation", "statement": "Changing or freeing the parameters after the analysis was created does not affect it, and the default method threshold is used exactly when no threshold was set.", "quantifier": "all histories", "why_tests_cant": "aliasing over histories", "anchors": ["lib/analysis.c:resdet_create_analysis"]}
{"id": "C19", "title": "Raising the threshold only removes results", "statement": "For the same frames, everything reported with a higher threshold is also reported, with the same confidence, with a lower one.", "quantifier": "all frames and all pairs of thresholds", "why_tests_cant": "pairs of executions", "anchors": ["lib/analysis.c:generate_dimension_results"]}
{"id": "C20", "title": "Threshold zero reports the whole window", "statement": "With threshold 0 and no filter every index of the search window is reported, and nothing else but the image size; indices nearer than range to an end are not (the documentation says every line is).", "quantifier": "all frames and dimensions", "why_tests_cant": "all inputs", "anchors": ["lib/analysis.c:generate_dimension_results"]}
{"id": "C21", "title": "Width and height are treated alike", "statement": "If the coefficient plane is transposed and width and height are swapped, the width results and height results are swapped.", "quantifier": "all coefficient planes, methods and parameters", "why_tests_cant": "relational property over all inputs", "anchors": ["lib/analysis.c:resdet_analyze_image", "lib/methods.c"]}
{"id": "C22", "title": "Compression filter", "statement": "A compression filter of value v keeps exactly the results whose distance from the start of the search window is a multiple of 2^v (sides up to 2^22) and removes all others; 0 disables it. This is not the documented behaviour (remove results at intervals of image size / 2^v), which is refuted by a witness.", "quantifier": "all image sizes, ranges and filter values", "why_tests_cant": "float rounding for all sizes", "anchors": ["lib/analysis.c:generate_dimension_results", "doc/libresdet.md"]}
{"id": "C23", "title": "Zero crossing ignores range", "statement": "With the zero crossing method the range parameter has no influence on results; the window is always [1, size-1).", "quantifier": "all ranges and frames", "why_tests_cant": "pairs of executions", "anchors": ["lib/analysis.c:resdet_create_analysis", "lib/methods.c:detect_method_zerocrossing"]}
{"id": "C24", "title": "Frames are independent of buffer history", "statement": "What a frame contributes depends only on that frame, not on earlier frames, rejected frames or the contents of fresh memory.", "quantifier": "all histories", "why_tests_cant": "unbounded histories", "anchors": ["lib/analysis.c:resdet_analyze_image", "lib/transform/kiss_fft.c:resdet_transform"]}
{"id": "C25", "title": "FFT factorisation", "statement": "For every transform size the factor table is a factorisation of the size into factors with the remaining length stored beside each, computed in finitely many steps and fitting the fixed-size table.", "quantifier": "every size accepted by the plan", "why_tests_cant": "sizes up to 2^31", "anchors": ["lib/kissfft/kiss_fft.c:kf_factor"]}
{"id": "C26", "title": "FFT is the discrete Fourier transform", "statement": "In exact arithmetic the mixed-radix FFT computes sum_j x_j exp(-2 pi i j k / n) for every size n, including prime sizes, provided memory suffices for the generic butterfly (a failed allocation there is not reported and leaves wrong output).", "quantifier": "all sizes and all inputs", "why_tests_cant": "all sizes and real inputs", "anchors": ["lib/kissfft/kiss_fft.c:kf_work", "lib/kissfft/kiss_fft.c:kf_bfly2", "lib/kissfft/kiss_fft.c:kf_bfly_generic"]}
{"id": "C27", "title": "Real FFT", "statement": "In exact arithmetic the real-input FFT equals the first n+1 outputs of the complex DFT of the 2n real samples.", "quantifier": "all sizes and inputs", "why_tests_cant": "all sizes and inputs", "anchors": ["lib/kissfft/kiss_fftr.c:kiss_fftr"]}
{"id": "C28", "title": "The KISS transform is the two-dimensional DCT-II", "statement": "In exact arithmetic the KISS backend maps an image to its unnormalised two-dimensional DCT-II, which is the definition FFTW uses for REDFT10 in both dimensions.", "quantifier": "all widths, heights and images", "why_tests_cant": "all sizes and inputs", "anchors": ["lib/transform/kiss_fft.c:kiss_dct", "lib/transform/kiss_fft.c:resdet_transform", "lib/transform/fftw.c"]}
{"id": "C29", "title": "Transform is memory safe", "statement": "The KISS transform never accesses its buffers out of bounds for any accepted image size, and its size computations never overflow int or size_t.", "quantifier": "all accepted widths and heights", "why_tests_cant": "every size up to the limit", "anchors": ["lib/transform/kiss_fft.c", "lib/kissfft/kiss_fft.c", "lib/kissfft/kiss_fftr.c"]}
{"id": "C30", "title": "Integer nearest-neighbour upscaling is detected", "statement": "In exact arithmetic, if an image is a nearest-neighbour upscale by an integer factor of an image of width N, every coefficient pair mirrored around N within range has opposite signs or is zero, so the sign method reports width N with confidence 1 when none vanishes.", "quantifier": "all images, factors, and sizes", "why_tests_cant": "infinitely many images", "anchors": ["lib/methods.c:detect_method_sign", "lib/transform/kiss_fft.c"]}
{"id": "C31", "title": "PGM round trip", "statement": "Reading a well-formed binary PGM file (comments allowed before the width, maxval up to 255) gives its dimensions and exactly each sample divided by maxval, correctly rounded, for one frame. Findings: the magic number is not enforced and comments elsewhere in the header are rejected (witnesses).", "quantifier": "all dimensions, maxvals 1..255, samples and whitespace", "why_tests_cant": "all files", "anchors": ["lib/image/pgm.c"]}
{"id": "C32", "title": "PFM round trip", "statement": "Reading a well-formed PFM stream gives for every frame its samples top row first, byte-swapped when the file's endianness differs from the host's, and the mean of the three channels for colour frames; every program of reads and seeks gets the replies that belong to these frames, except as C34 and C35 say.", "quantifier": "all dimensions, contents, both byte orders, grey and colour, any number of frames", "why_tests_cant": "all files", "anchors": ["lib/image/pfm.c"]}
{"id": "C33", "title": "Y4M round trip", "statement": "Reading a well-formed Y4M stream gives for every frame its luma samples divided by 2^depth-1, for 4:2:0, 4:2:2, 4:4:4 and mono and bit depths 8 to 16, skipping the chroma planes exactly. Findings (witnesses): 4:1:1 and 4:4:4 with alpha are skipped by the wrong amount, 16-bit samples are taken in host byte order, and the pixel limit is a quarter of that of the other formats.", "quantifier": "all dimensions, contents, colour spaces, depths, frame counts", "why_tests_cant": "all files", "anchors": ["lib/image/y4m.c"]}
{"id": "C34", "title": "Seeking skips exactly that many frames", "statement": "Seeking k frames and then reading gives the frame that k+1 consecutive reads would have given last; for PFM only if all frames are of one kind (witness for a mixed file).", "quantifier": "all readers, files, k and positions", "why_tests_cant": "all files and offsets", "anchors": ["lib/image/pgm.c:pgm_reader_seek_frame", "lib/image/pfm.c:pfm_reader_seek_frame", "lib/image/y4m.c:y4m_reader_seek_frame", "lib/image.c:resdet_seek_frame"]}
{"id": "C35", "title": "Seeking by zero does nothing", "statement": "For PGM and Y4M seeking by 0 frames always succeeds and changes nothing. For a PFM image that has just been opened it reports success and loses the first frame (witness).", "quantifier": "all readers, files and positions", "why_tests_cant": "all states", "anchors": ["lib/image/pfm.c:pfm_reader_seek_frame", "doc/libresdet.md"]}
{"id": "C36", "title": "Seek progress callback", "statement": "The progress callback is called with 1,2,..,n in order for some n not above the offset, for every input and also for seeks that fail, and with all numbers up to the offset if the seek succeeds.", "quantifier": "all seeks, including those that fail midway", "why_tests_cant": "all traces", "anchors": ["lib/image/y4m.c:y4m_reader_seek_frame", "lib/image/pfm.c:pfm_reader_seek_frame"]}
{"id": "C37", "title": "Truncated frames are never reported as read", "statement": "For every input and state a frame is reported as read only if all its (luma) samples were present in the input and were consumed; an end without error is reported only if nothing was left (or the one PGM image had been read). A file that ends inside a frame gives its complete frames and then invalid image. Finding: chroma samples missing at the end of a seekable Y4M file go unnoticed (witness).", "quantifier": "all byte streams and truncation points", "why_tests_cant": "each truncation point of each file", "anchors": ["lib/image/pgm.c", "lib/image/pfm.c", "lib/image/y4m.c"]}
{"id": "C38", "title": "Failed opens leave nothing behind", "statement": "When opening an image fails the returned handle is NULL, the error is non-zero, requested dimensions are 0, the frame buffer pointer is NULL, and no memory or file handle stays open.", "quantifier": "all files, names, types, failure points and allocation patterns", "why_tests_cant": "fault injection at every point", "anchors": ["lib/image.c:resdet_open_image", "lib/image.c:resdet_open_image_with_reader", "lib/image.c:open_image"]}
{"id": "C39", "title": "Pipes and files give the same frames", "statement": "For well-formed input a pipe gives the dimensions, frames and replies to reads and seeks that a seekable file gives. For a Y4M stream that ends inside the chroma samples they differ (witness).", "quantifier": "all well-formed files", "why_tests_cant": "all files", "anchors": ["lib/image.c:resdet_fskip", "lib/image/y4m.c", "lib/image/pfm.c"]}
{"id": "C40", "title": "Reader selection", "statement": "A given file type or extension, compared without case, selects the first built-in reader that supports it; MIME types of the documented set map to their extensions; a reader is found by its name, compared without case; unknown types are reported as unsupported.", "quantifier": "all strings and all build configurations", "why_tests_cant": "all strings", "anchors": ["lib/image.c:resdet_open_image", "lib/image.c:resdet_ext_from_mimetype", "lib/image_readers.c"]}
{"id": "C41", "title": "Reading a whole image", "statement": "resdet_read_image returns the concatenation of all frames in order with their count, or no buffer and an error if any frame fails, never exceeding the pixel limit over all frames; it needs room for one frame more than there are, so a file exactly at the limit is refused (witness).", "quantifier": "all files and allocation patterns", "why_tests_cant": "all files", "anchors": ["lib/image.c:resdet_read_image"]}
{"id": "C42", "title": "Every path releases what it acquired", "statement": "After any sequence of open, read, seek and close every allocated block was released exactly once, each opened file closed exactly once and standard input never closed.", "quantifier": "all histories, files, allocation patterns", "why_tests_cant": "unbounded histories with fault injection", "anchors": ["lib/image.c", "lib/image/pgm.c", "lib/image/pfm.c", "lib/image/y4m.c"]}
{"id": "C43", "title": "Readers terminate", "statement": "Opening and reading any byte stream finishes after a number of steps bounded by the input length, and a finite file yields finitely many frames.", "quantifier": "all byte streams", "why_tests_cant": "non-termination cannot be tested", "anchors": ["lib/image/pgm.c", "lib/image/y4m.c", "lib/image/pfm.c"]}
{"id": "C44", "title": "Sample normalisation", "statement": "Samples not above the declared maximum are returned as finite values between 0 and 1, 0 mapping to 0, the maximum to 1, and larger samples to larger values. Findings: PGM samples above maxval and maxval 0 are accepted and give values above 1 and infinities (witnesses).", "quantifier": "all samples, maxvals 1..255 and depths 8..16", "why_tests_cant": "float division for all pairs", "anchors": ["lib/image/pgm.c", "lib/image/y4m.c"]}
{"id": "C45", "title": "Readers are memory safe on hostile input", "statement": "Opening and reading an arbitrary byte stream never accesses memory out of bounds, whatever the header declares.", "quantifier": "all byte streams", "why_tests_cant": "all inputs", "anchors": ["lib/image/pgm.c", "lib/image/pfm.c", "lib/image/y4m.c"]}
{"id": "C46", "title": "Command line exit status", "statement": "With verbosity 0 the command prints nothing to standard output and exits 0 exactly when the analysis of the selected frames succeeds and reports a width or height other than the image's own; with every other verbosity it exits 0 exactly when the analysis succeeds. In all other cases it exits 1. (Deviation: an image that is not upscaled and a failure are not distinguishable by status at verbosity 0.)", "quantifier": "all inputs, options, memory failures and read errors", "why_tests_cant": "all inputs", "anchors": ["src/resdet.c:209-288"]}
{"id": "C47", "title": "Frame offset and count options", "statement": "On a well-formed PGM, PFM or YUV4MPEG2 input exactly the frames offset..offset+n-1 are analysed, those up to the end of the file when fewer exist or -n is not given. An offset at or behind the end makes the command exit 1 with a message.", "quantifier": "all offsets, counts, readers and files", "why_tests_cant": "files, offsets and counts are unbounded", "anchors": ["src/resdet.c:93-103", "src/resdet.c:181-226"]}
{"id": "C48", "title": "Best guess output", "statement": "On success the command prints exactly the result lists the library gives for the selected frames. At the default verbosity it prints the image's size and per dimension the highest-confidence result, marked 'not upsampled' exactly when nothing but the image's own size is reported.", "quantifier": "all inputs and options", "why_tests_cant": "all inputs", "anchors": ["src/resdet.c:236-272"]}
{"id": "C49", "title": "Profiling comparison counts", "statement": "The profiling tool's comparison of a known list with a reported list stays in bounds and counts every index that is only in one of them; it also counts, as both additional and missing, the same number of indices that are in both lists. That number is 0 if both lists ascend. Deviation: the library reports in order of confidence, so a run in which exactly the known resolutions are found can be shown as +2 -2.", "quantifier": "all lists without repetitions; refutation: a 30x1 image through the whole program", "why_tests_cant": "all pairs of lists, of any length", "anchors": ["src/profile.c:28-46", "src/profile.c:177-183"]}
{"id": "C50", "title": "Statistics tool", "statement": "The statistics tool reads only entries of the lists the library reports, for every image and method, frees them, and fails with a message exactly if the library fails. Its loops assume ascending confidence: on ascending lists the outliers are exactly the entries between and above the fences. Deviation: the library's lists descend, so every detected resolution is listed as an extreme outlier and none as a mild one, even one below the median.", "quantifier": "all images, methods and environments; all ascending lists", "why_tests_cant": "all images; exactness of float comparisons", "anchors": ["src/stat.c:10-52"]}
{"id": "C51", "title": "Python parameter dictionaries", "statement": "The Python binding makes no parameters of an empty dictionary, raises for unknown names and for values of the wrong type, and otherwise gives each parameter the requested value if the library accepts it and its default if not. Deviations: a value the library rejects raises nothing, an integer outside the C type is silently reduced to another value, and a value of the wrong type leaves the parameters allocated.", "quantifier": "all dictionaries with distinct keys, all environments and allocation outcomes", "why_tests_cant": "all dictionaries and values, combined with allocation failures", "anchors": ["bindings/python/resdet.py:293-309", "lib/util.c:26-50"]}
{"id": "C52", "title": "JavaScript parameter objects", "statement": "The JavaScript binding throws for unknown names. Of the settings in an object only the last one made decides whether a parameter error is thrown; otherwise each parameter has the requested value if the library accepts it and its default if not. Deviations: an earlier rejected setting is ignored, and a rejected last setting leaves the parameters allocated.", "quantifier": "all parameter objects with numbers of the C types, all allocation outcomes", "why_tests_cant": "all combinations of settings and allocation failures", "anchors": ["bindings/emscripten/resdet.mts:172-195"]}
{"id": "C53", "title": "Python image buffers", "statement": "For a buffer that holds frames, nonnegative coordinates give exactly the sample of that frame, row and column, or an IndexError if there is none, and read_image returns such a buffer with the frames of the file or raises and keeps no memory. Deviations: negative indices read before the buffer or in another row, with_dimensions allocates one frame however many are asked for, a closed buffer that is given to another image is written to where it was, and a buffer given to a second image loses its memory.", "quantifier": "all dimensions, frame counts, indices and files", "why_tests_cant": "all inputs; out of bounds reads need not be visible in a test", "anchors": ["bindings/python/resdet.py:92-147", "bindings/python/resdet.py:153-178", "bindings/python/resdet.py:342-354"]}
{"id": "C54", "title": "Options in effect", "statement": "Options are recognised with their argument in the same or the next word; they are accepted exactly when none is unknown, asks for help, or has an offset or frame count that does not parse, and the first reader named exists; then the last option of each kind counts, and -x, -r, -f set exactly the parameters they name or end the program. The number of -v counts modulo 2^32. -f auto chooses the filter by the name's suffix. (Deviations: only the first -R is checked; -v takes text that is not a number for 0.)", "quantifier": "all argument lists", "why_tests_cant": "argument lists are unbounded", "anchors": ["src/resdet.c:62-165", "src/resdet.c:194-205"]}
{"id": "C55", "title": "Command line safety", "statement": "For all arguments and files the command does nothing undefined, exits with 0 or 1, says why whenever it fails (every code the image functions return has a message), and frees everything it allocated. (Deviations: the parameters are lost when -t and -R are both given, and the KISS transform can lose one block on a failed allocation.)", "quantifier": "all arguments, files, memory failures", "why_tests_cant": "needs every combination of arguments, file contents and failures", "anchors": ["src/resdet.c:62-289", "lib/util.c"]}
{"id": "C56", "title": "imgread round trip", "statement": "With two arguments imgread has no undefined behaviour, frees and closes everything, and writes all frames that can be read; on a little-endian host the file is a well-formed PFM file of exactly these frames, and reads back as the same samples. Deviations: on big-endian hosts the samples read back differently; the exit status is 0 whatever fails; with one argument a null file name is opened.", "quantifier": "all inputs, formats, hosts, frame counts and sizes", "why_tests_cant": "all sample values and sizes; big-endian hosts", "anchors": ["src/imgread.c:10-49"]}
{"id": "C57", "title": "Profiling runs and totals", "statement": "A run of the profiling tool has no undefined behaviour and frees everything it allocates. It prints the entries of the dictionary in order, each with the comparison and time of every method, up to the first problem; the status is 1 exactly if a detection failed or an entry is incomplete. The totals are the sums of what was printed, in time exactly. Deviations: the microseconds are printed as if they were nanoseconds, and the last character of an unterminated last line is lost.", "quantifier": "all dictionaries, files, clocks and allocation failures", "why_tests_cant": "all dictionaries and all interleavings of failures", "anchors": ["src/profile.c:17-26", "src/profile.c:48-70", "src/profile.c:72-200"]}
{"id": "C58", "title": "numpy and PIL images", "statement": "Detection on an array of frames that the binding read is detection on those frames with the size of the image, and detection on a PIL image reports the lists of its frames from the current one on. Deviations: an array in numpy's order is analysed with width and height exchanged, arrays that are not float32 are read beyond their end, and a PIL image read through the binding has width and height exchanged.", "quantifier": "all frames, sizes, parameters and allocation outcomes", "why_tests_cant": "all images; exchanged dimensions go unnoticed on square images", "anchors": ["bindings/python/resdet_numpy.py:14-33", "bindings/python/resdet_PIL.py:9-38", "bindings/python/resdet.py:110-114"]}
{"id": "C59", "title": "Python detection", "statement": "Detection from Python on pixels, files and by an analysis returns exactly the lists the library reports, or raises the exception class and message of the library's error code, and keeps only memory the library itself leaks. The program in the README, frame by frame, returns or raises the same as resdetect_file. Deviation: a list shorter than its stated dimensions is read beyond its end.", "quantifier": "all pixels, files, parameters, series of calls and allocation outcomes", "why_tests_cant": "all series of calls and failures", "anchors": ["bindings/python/resdet.py:207-266", "bindings/python/resdet.py:270-291", "bindings/python/resdet.py:356-415", "bindings/python/README.md:74-82"]}
{"id": "C60", "title": "JavaScript detection", "statement": "resDetect, and an Analysis, return exactly the lists the library reports and free everything they allocated, or throw an error with the library's code and message, or an OutOfMemoryError if an allocation failed. Deviation: when one of the binding's own allocations fails, what it had allocated before is lost.", "quantifier": "all pixels, sizes, parameters and allocation outcomes", "why_tests_cant": "all allocation failures", "anchors": ["bindings/emscripten/resdet.mts:94-161", "bindings/emscripten/resdet.mts:197-239"]}
{"id": "C61", "title": "PNG reader is safe", "statement": "For every non-interlaced PNG file and any other bytes, the libpng reader has no undefined behaviour in opening, reads, seeks and closing, whatever the library and the allocator do; it returns known codes, fills exactly width*height samples per frame and leaves nothing allocated or open. Deviation: for interlaced files interlace handling is asked for after png_read_update_info, so rows may stay incomplete and uninitialised memory is used.", "quantifier": "all byte streams, decodings that satisfy libpng's documentation, series of calls and allocation outcomes", "why_tests_cant": "all library errors at all points, with longjmp", "anchors": ["lib/image/libpng.c:13-170"]}
{"id": "C62", "title": "PNG transformations", "statement": "For every header the PNG specification allows, the transformations asked for give 8-bit grey or RGB rows without alpha, and the channel count used by the reader is the number of bytes of a pixel.", "quantifier": "all valid headers, with and without tRNS", "why_tests_cant": "all combinations of colour type, depth and transparency", "anchors": ["lib/image/libpng.c:76-100"]}
{"id": "C63", "title": "PNG values", "statement": "A PNG file that libpng decodes gives one frame of its dimensions; each sample is the 8-bit value over 255 correctly rounded, for colour the mean of three such values, within [0,1] and 2^-22 of the exact mean.", "quantifier": "all decoded rows", "why_tests_cant": "all images", "anchors": ["lib/image/libpng.c:106-146"]}
{"id": "C64", "title": "JPEG reader is safe", "statement": "For every file that libjpeg decodes without a message while lines are read, the libjpeg reader has no undefined behaviour, whatever the allocator does; codes, frame sizes and resources are as for the PNG reader. Deviation: a message while lines are read is sent to an error manager that was local to the call that opened the file.", "quantifier": "all byte streams, decodings that satisfy libjpeg's documentation, series of calls and allocation outcomes", "why_tests_cant": "all library errors at all points, with longjmp", "anchors": ["lib/image/libjpeg.c:13-120"]}
{"id": "C65", "title": "JPEG values", "statement": "A JPEG file that libjpeg decodes gives one frame of the output dimensions; each sample is the 8-bit grey value over 255, correctly rounded, however many lines each call delivers.", "quantifier": "all decoded rows and all ways to deliver them", "why_tests_cant": "all images and deliveries", "anchors": ["lib/image/libjpeg.c:77-108"]}
{"id": "C66", "title": "MagickWand reader is safe", "statement": "The MagickWand reader has no undefined behaviour, returns known codes, fills exactly width*height samples per frame and destroys the wand, whatever the library and the allocator do. Deviation: a failure to export pixels is ignored, and the frame is reported without having been written.", "quantifier": "all library behaviours, series of calls and allocation outcomes", "why_tests_cant": "all failures of the library", "anchors": ["lib/image/magickwand.c:24-98"]}
{"id": "C67", "title": "MagickWand frames and errors", "statement": "Reads give the images of the file in order and seeks skip that many. If the file cannot be read the error is errno, RDENOMEM, RDEUNSUPP or RDEINVAL according to the exception. Deviation: if errno is 0 the error becomes RDETOOBIG.", "quantifier": "all files, exceptions and series of calls", "why_tests_cant": "all exceptions and histories", "anchors": ["lib/image/magickwand.c:32-98"]}
{"id": "C68", "title": "FFmpeg reader is safe", "statement": "The FFmpeg reader has no undefined behaviour, terminates, returns known codes, fills exactly width*height samples per frame and releases all contexts, whatever the demuxer, decoder, scaler and allocator return.", "quantifier": "all library behaviours, series of calls and allocation outcomes", "why_tests_cant": "all failures of the library at all points", "anchors": ["lib/image/ffmpeg.c:23-168"]}
{"id": "C69", "title": "FFmpeg frames", "statement": "Reads give the pictures of the chosen stream in order, including those held back by the decoder until it is drained, and skip packets of other streams; seeks skip that many pictures. Deviation: an error while packets are read is taken for the end of the file and not reported.", "quantifier": "all packet sequences, pictures per packet, and series of calls", "why_tests_cant": "all interleavings of packets and pictures", "anchors": ["lib/image/ffmpeg.c:119-168"]}
{"id": "C70", "title": "FFmpeg errors", "statement": "When a step of opening fails the error reported is that error if it is an errno and RDEINVAL otherwise, and nothing is left behind. Deviation: an error of avcodec_parameters_to_context is always reported as RDEINVAL.", "quantifier": "all steps and error values", "why_tests_cant": "all failing steps", "anchors": ["lib/image/ffmpeg.c:23-32", "lib/image/ffmpeg.c:50-117"]}
{"id": "C71", "title": "Readable files open", "statement": "A file the library can read opens unless memory runs out or the image is over the limit. Deviation: if FFmpeg's stream is not number 0, a lack of memory for the codec context is reported as an invalid file.", "quantifier": "all files and allocation outcomes", "why_tests_cant": "all patterns of allocation failure", "anchors": ["lib/image/libpng.c:35-104", "lib/image/libjpeg.c:34-75", "lib/image/magickwand.c:32-77", "lib/image/ffmpeg.c:50-117"]}
{"id": "C72", "title": "Why native readers refuse files", "statement": "Whatever the file holds, if the PGM, PFM or YUV4MPEG2 reader gives no image then an allocation failed (out of memory), or the file could not be opened (its errno), or the image is reported as too large or invalid; a file that cannot be opened always gives its errno and a file that does not start like its format always gives invalid image. Deviations: signed numbers are accepted in headers, negative ones modulo 2^64, and PGM and PFM images without pixels are reported as too large.", "quantifier": "all files, file names, readers and allocation outcomes", "why_tests_cant": "all byte sequences and allocation failures", "anchors": ["lib/image/pgm.c:38-69", "lib/image/pfm.c:88-120", "lib/image/y4m.c:28-137", "lib/image.c:47-90"]}
{"id": "C73", "title": "Rounding errors of the KISS transform", "statement": "Computed in C floats, with trigonometric tables accurate to 2^-24, every coefficient of an image of up to 2^20 x 2^20 samples of magnitude at most M is finite and differs from the exact DCT coefficient by at most 4whM((1+loss(w))(1+loss(h))-1), where loss depends on the radices of the size only (for 1920x1080 the error is below 0.0072 % of 4whM). A coefficient larger than that has the right sign.", "quantifier": "all images, sizes up to 2^20, sample bounds up to 2^20 and accurate tables", "why_tests_cant": "a worst-case rounding bound over all float images and all radices", "anchors": ["lib/kissfft/kiss_fft.c:15-303", "lib/kissfft/kiss_fftr.c:63-117", "lib/transform/kiss_fft.c:kiss_dct", "lib/transform/kiss_fft.c:resdet_transform"]}
{"id": "C74", "title": "Upscales are detected in C floats", "statement": "The KISS build reports the original width (height) with confidence 1 for frames that are s-fold nearest-neighbour upscales, whenever the exact coefficients around the original size exceed the rounding error bound; nothing is assumed of the computed coefficients.", "quantifier": "all upscale factors, sizes, images, frame counts, ranges and thresholds", "why_tests_cant": "all images and sizes, in floating point", "anchors": ["lib/methods.c:detect_method_sign", "lib/transform/kiss_fft.c:resdet_transform", "lib/analysis.c"]}
{"id": "C75", "title": "Python image objects", "statement": "On a well-formed file every sequence of reads, seeks and closes of a Python image gets the replies that belong to its frames: reads fill the buffer with the next frame and return True, then False; seeks skip frames, tell the callback 1, 2, ... and return False if there are too few; calls on a closed image raise. On any file replies match the calls, exceptions match error codes, and nothing stays allocated or open. Deviation: a negative offset is not rejected but passes all frames.", "quantifier": "all files, readers, sequences of calls, offsets and allocation failures", "why_tests_cant": "unbounded sequences of calls on unbounded sets of files; the tests seek once", "anchors": ["bindings/python/resdet.py:153-200", "bindings/python/resdet.py:270-291", "lib/image.c:resdet_seek_frame", "lib/image.c:resdet_read_image_frame"]}
{"id": "C76", "title": "Method objects and reader lists in the bindings", "statement": "methods() in Python and JavaScript lists one object per method of the library, in order, with its name, threshold and address, wherever the table is; Method.get returns the listed object of that name or None/undefined; passing an object selects its method. list_image_readers() is the list of the library. Deviation: since None selects the default, an unknown method name silently means \"sign\".", "quantifier": "all table addresses, pointer sizes 4 and 8, names and reader configurations; for the deviation all images, files and parameters", "why_tests_cant": "the layout arithmetic must hold for every address and pointer size, and the equality with the default for every input", "anchors": ["bindings/python/resdet.py:67-85", "bindings/python/resdet.py:323-340", "bindings/python/libresdet_api.py:23-28", "bindings/emscripten/resdet.mts:35-59", "bindings/emscripten/resdet.mts:164-169", "lib/methods.c:99-118"]}
{"id": "C77", "title": "Iterating over images in Python", "statement": "Iterating over a numpy or PIL image object gives one array or image per frame, in order, with exactly the samples of the frame, and ends with an exception if and only if reading ended with an error; nothing stays allocated. list(buffer) is the samples of the frames in the buffer.", "quantifier": "all files, readers, frame counts and allocation failures", "why_tests_cant": "the tests iterate over one file of two frames", "anchors": ["bindings/python/resdet_numpy.py:9-24", "bindings/python/resdet_PIL.py:8-21", "bindings/python/resdet.py:116-133"]}
{"id": "C78", "title": "Memory requests are large enough", "statement": "Every byte count the library passes to malloc, calloc or realloc for a buffer whose size depends on the image is exactly the size of that buffer, in size_t arithmetic: coefficients, KISS tables and FFT blocks, search window, result lists, frames, PNG, JPEG and Y4M buffers. With a 64-bit size_t this holds for every size the library accepts and every floating point precision it can be built with. With a 32-bit size_t (WebAssembly) single KISS requests can wrap around, but only if all requests together exceed the address space; bytes skipped per colour PFM frame can wrap.", "quantifier": "all widths, heights, ranges, frame counts, colour spaces, precisions, backends and widths of size_t", "why_tests_cant": "the sizes at which a product wraps need gigabytes of memory, and the tests run on one platform", "anchors": ["lib/resdet_internal.h:46-50", "lib/analysis.c:17-32", "lib/analysis.c:142", "lib/transform/kiss_fft.c:18-43", "lib/kissfft/kiss_fftr.c:20-47", "lib/kissfft/kiss_fft.c:340-355", "lib/image.c:76", "lib/image.c:235", "lib/image/libpng.c:114", "lib/image/libjpeg.c:83", "lib/image/y4m.c:80-126", "lib/image/pfm.c:172-183"]}
{"id": "C79", "title": "Interpolated upscales are detected", "statement": "Resampling a line of N samples, mirrored at its ends, to M >= N samples with a symmetric kernel multiplies its DCT coefficients by the response of the kernel, up to aliasing; for whole factors there is no aliasing. The KISS build therefore reports N with confidence 1, in C floats, for frames resampled from N samples with positive responses around N and then changed by up to d per sample, whenever the exact coefficients around N exceed the stated bound on rounding errors, d and aliasing. The responses are positive for repetition and linear interpolation with every whole factor, for Catmull and Rom's cubic kernel with factor 2, and for linear interpolation from 2p to 3p samples, whose aliasing is at most (pi range / N)^2 / 6 per unit.", "quantifier": "all images, kernels with bounded support, sizes up to 2^20, factors, ranges, frame counts, sample errors and trigonometric tables within 2^-24", "why_tests_cant": "the tests use one upscaled photograph with one unknown kernel; this is about all images, and says why the sign method works", "anchors": ["lib/methods.c:detect_method_sign", "lib/transform/kiss_fft.c:resdet_transform", "lib/analysis.c"]}
{"id": "C80", "title": "What the program prints can be read back", "statement": "The text printed to standard output, byte for byte: sizes as decimal numerals, confidences as the nearest decimal fractions, with -v 1 the two best sizes, with -v 2 and 3 the two lists, by default the sizes, best guesses and table. Two runs that print the same text at the same verbosity report the same best sizes, with -v 2 and 3 the same lists (with -v 3 with confidences within 10^-6 of each other), by default the same image size and lists with confidences within 0.000101. The columns of the table are aligned if widths have at most five digits and confidences are below 99.99%; a confidence of 100% moves the height out of its column.", "quantifier": "all runs of the program: arguments, files, environments, verbosities", "why_tests_cant": "the project's own tests of the program look at a few outputs of small images; that no two different results print the same is about all pairs", "anchors": ["src/resdet.c:main", "src/resdet.c:236-270"]}
{"id": "C81", "title": "Thresholds are honoured in print", "statement": "If -x is given a percentage with at most two digits behind the point and strtod is correctly rounded, then no size other than that of the image is printed with a smaller percentage, nor with -v 3 with a smaller confidence, although the threshold is divided by 100 and rounded to float, and each confidence is multiplied by 100 in float and rounded to two digits.", "quantifier": "all such numerals, images, methods and other options", "why_tests_cant": "only particular combinations of threshold and confidence could expose the three roundings", "anchors": ["src/resdet.c:main", "lib/util.c:resdet_parameters_set_threshold", "lib/analysis.c"]}
{"id": "C82", "title": "The texts of the program agree with it", "statement": "The help text has an entry for each option that the program accepts and gives the range and thresholds in effect by default; the usage message names each option. -V prints the versions and the readers of the build, and -R list the readers, a line each. The first line of the help text omits -R, and the entry of -p is not on a line of its own.", "quantifier": "all options, configurations and program names", "why_tests_cant": "the option string, the help text, the defaults and the method table are in different places, and tests do not compare them", "anchors": ["src/resdet.c:help", "src/resdet.c:usage", "src/resdet.c:main"]}
{"id": "C83", "title": "The trigonometric tables are accurate", "statement": "The three tables of sines and cosines that the KISS transform computes are within 2^-24 of the exact values, provided that cos and sin of the C library are within 2^-30 of theirs for arguments up to 8 and atan is at 1; hence the transform is as accurate as C73 says without any assumption on its tables.", "quantifier": "all C libraries with this accuracy, all lengths up to 2^40, all table entries", "why_tests_cant": "tests compare a few results of whole transforms, not table entries, and never for all lengths", "anchors": ["lib/kissfft/kiss_fft.c:kiss_fft_alloc", "lib/kissfft/kiss_fftr.c:kiss_fftr_alloc", "lib/transform/kiss_fft.c:resdet_create_plan"]}
{"id": "C84", "title": "From the bytes of an upscaled film to the text printed", "statement": "Given a well-formed PGM, PFM or YUV4MPEG2 film within the limits, memory enough and finite samples, the command line program succeeds and prints the library's results for the frames selected. If all these frames were scaled up by interpolation from N columns (rows), up to rounding and noise, the program with the sign method exits with 0 and prints N with 100%, in the table, in the lists of -v 2 and -v 3; with -v 1 it prints another size than that of the file.", "quantifier": "all such files, kernels, sizes up to 2^20, options, C libraries with good cos and sin, qsort functions", "why_tests_cant": "needs every layer at once: option parsing, format readers, floating point transform, detection, sorting, printing", "anchors": ["src/resdet.c:main", "lib/image.c", "lib/analysis.c", "lib/methods.c", "lib/transform/kiss_fft.c"]}
{"id": "C85", "title": "The signs of the exact coefficients decide", "statement": "If the transform in use computes finite coefficients within e of the exact ones (with KISS e is the bound of C73), then with the sign method and no compression filter: when c_k pairs of exact coefficients of frame k at distance 1..range on both sides of N exceed e and have opposite signs, and the mean part of such pairs less a rounding term reaches the threshold, size N is reported with at least this confidence; when the pairs exceed e and have the same sign, and one minus their part plus the rounding term is below the threshold, N is not reported.", "quantifier": "all builds with an accurate transform (KISS or FFTW), frame counts up to 2^53, sizes, ranges, thresholds, images", "why_tests_cant": "tests see single photographs; the statement relates every report to exact real coefficients that no program computes", "anchors": ["lib/methods.c:detect_method_sign", "lib/analysis.c:generate_dimension_results", "lib/transform/kiss_fft.c", "lib/transform/fftw.c"]}
{"id": "C86", "title": "Upscales with partly unclear coefficients", "statement": "Frames whose rows (columns) were scaled up from N samples by interpolation with a symmetric kernel, up to an error d per sample: if only some of the pairs of coefficients around N are clear of the errors of the transform, of d and of aliasing, N is reported with at least the confidence these pairs amount to, provided that it reaches the threshold; whatever the other pairs are.", "quantifier": "all kernels, sizes, frames, noise, thresholds, any accurate transform", "why_tests_cant": "real photographs have some coefficients near zero in every row; a test cannot tell whether these or the clear ones decided", "anchors": ["lib/methods.c:detect_method_sign", "lib/analysis.c", "README.md"]}
{"id": "C87", "title": "The block that holds an FFT state", "statement": "kiss_fftr_alloc asks for one block and places in it its own structure, the structure and n twiddles of the complex FFT, n entries of tmpbuf and n/2 super twiddles. All lie inside the block, none overlap, their sizes are those of the arrays the transform accesses, and the inner call that fills the complex FFT is never refused. With memory of the caller the lenmem protocol holds: too small a block is refused and the size needed is told, a block of that size is taken. The parts are aligned if the outer structure's size is a multiple of the inner one's alignment; with 4-byte pointers and double coefficients aligned to 8 bytes it is not.", "quantifier": "all lengths, precisions, widths of size_t in which the block can be described", "why_tests_cant": "overlapping or truncated tables would corrupt results only at some lengths, and misalignment shows on some processors only", "anchors": ["lib/kissfft/kiss_fftr.c:kiss_fftr_alloc", "lib/kissfft/kiss_fft.c:kiss_fft_alloc", "lib/kissfft/_kiss_fft_guts.h:kiss_fft_state", "configure"]}
{"id": "C88", "title": "Cubic upscales", "statement": "Frames made s times as wide (high), s any whole number from 2 on, with any of Mitchell and Netravali's cubic kernels (B and C between 0 and 1: B-spline, Catmull-Rom, Mitchell, Keys) and then changed by at most d per sample: their old width (height) is reported with confidence 1 if the range is at most a tenth of it and the exact coefficients around it are larger than the errors. The same from 2p to 3p samples, as from 720p to 1080p, with an explicit bound for what aliases, which is of second order for kernels with B + 2C = 1.", "quantifier": "all B, C in [0,1], whole factors, sizes, frames, noise", "why_tests_cant": "the signs of the response at every frequency around the old size, for a two-parameter family of kernels and all factors, cannot be sampled", "anchors": ["lib/methods.c:detect_method_sign", "lib/analysis.c", "lib/transform/kissfft.c", "README.md"]}
{"id": "C89", "title": "Several clients at once", "statement": "Any number of clients, each with an analysis or an image of its own, make their calls in any order. Whatever allocations fail, every call is defined and has a documented outcome, a client given enough turns completes, and result lists and buffers handed out stay allocated. If memory does not run out and files do not change, every client is told exactly what it would be told with the library to itself, so the order does not show. When all are done no file is open and only what was handed out is allocated. Calls are taken as atomic.", "quantifier": "all numbers of clients, tasks, schedules, starting heaps, allocation failures", "why_tests_cant": "the number of interleavings is unbounded, and shared state shows only in some of them", "anchors": ["doc/libresdet.md:Thread Safety", "lib/analysis.c", "lib/image.c", "lib/methods.c"]}
{"id": "C90", "title": "Every precision setting", "statement": "For every choice of COEFF_PRECISION and INTER_PRECISION, with long double as binary64, the 80-bit x87 type or binary128: intermediates are never less precise than coefficients, so every sample and coefficient keeps its value and sign when converted; all four methods stay in bounds; a confidence is a number from 0 to 1 after any number of frames, and after k <= 2^p frames (p bits of precision) it is the exact mean up to 2^-25 + (k+10)/2^p; when all pairs (or none) meet the criterion in each of at most 2^p frames it is exactly 1 (or 0); the default setting is the model used elsewhere. From 2^(p+1) frames on, unanimous frames give at most 1/2, as the sum stays at 2^p.", "quantifier": "all precision settings, planes, layouts, ranges, methods, numbers of frames below 2^64", "why_tests_cant": "the tests build one configuration; rounding depends on all values, and the sum stops growing only after 2^24 frames or more", "anchors": ["lib/precision.h:9-54", "lib/methods.c:16-97", "lib/analysis.c:108-151"]}
{"id": "C91", "title": "Configuring and building", "statement": "configure accepts every command line of its options if it finds its tools, and refuses any other option without touching an old config.mak. The readers of the built library are exactly those that are not omitted or disabled and whose libraries pkg-config finds; the object of a reader is linked exactly if the table of readers refers to it, with exactly one transform and no object twice; configure warns exactly if there is no reader. Precisions and limits are those asked for, the intermediates never less precise than the coefficients, FFTW in the precision of the coefficients, and such a build meets the conditions under which the other properties are claimed. Refuted: the form '--coeff-precision D' of the help text is refused; an unknown intermediate precision is silently replaced; --coeff-precision=2 mixes double with float libraries; FFmpeg is left out silently without pkg-config.", "quantifier": "all machines (what commands and pkg-config answer), environments, command lines and previous states", "why_tests_cant": "each run of the tests sees one machine and one set of options out of thousands of combinations", "anchors": ["configure:5-286", "Makefile:3-62", "lib/precision.h:9-66", "lib/resdet_internal.h:32-58", "lib/image_readers.c"]}
{"id": "C92", "title": "Installing and uninstalling", "statement": "With static libraries everywhere, and with shared ones where they end in .so, make uninstall removes every file made by make install and make install-lib, wherever the prefixes point; a shared library is installed under the name by which programs look for it; resdet.pc states the version the library reports, and leads to the installed header and library if their directories are not moved. Refuted: on Darwin the library and a link to it remain, on Windows the library; with --libprefix resdet.pc leads elsewhere; make uninstall-lib removes the program.", "quantifier": "all machines, environments, prefixes and command lines of configure", "why_tests_cant": "the tests do not install anything, and the branches depend on the platform", "anchors": ["Makefile:75-134", "configure:101-104", "configure:179-211", "lib/resdet.pc.in:1-14"]}
{"id": "C93", "title": "The lines visualize.sh draws", "statement": "If resdet, given the words of -r as options, detects sizes in the image, and identify reports the size of the image, visualize.sh draws two lines of the length asked for (or 50), in the colour and thickness asked for: one that ends at the right edge, at resdet's best guess of the height, and one that ends at the lower edge, at its best guess of the width; options in -r that choose another form of output do not change that. If resdet prints nothing, it draws nothing and ends with status 1. It ends with status 1 if a program is missing, with 2 for a wrong command line, with 0 for -h. Refuted: when resdet fails and prints something, as it does for an unknown image reader, the script draws at what it printed.", "quantifier": "all images, environments, command lines whose options have their values as arguments of their own, and answers of identify", "why_tests_cant": "the tests do not run the script, which depends on two other projects; it relies on the last -v winning and on the exact text at -v 1", "anchors": ["src/visualize.sh:1-64", "src/resdet.c:72", "src/resdet.c:75-89"]}
{"id": "C94", "title": "The KISS transform in every COEFF_PRECISION", "statement": "In every precision of the coefficients, the KISS backend computes finite coefficients for every image of at most 2^20 x 2^20 samples (fewer where u is above 2^-24) of magnitude at most 2^20, each within a stated bound of the exact cosine transform. The bound is proportional to the error u of one table entry or operation, so images that a float build is proved to detect are clear of the errors of the others. Coefficients larger than the bound have the right sign; nearest-neighbour upscales whose exact coefficients exceed it get the confidence 1 in every combination of COEFF_PRECISION and INTER_PRECISION. Long double coefficients are computed in double, since configure defines kiss_fft_scalar so, and the result is that of the double transform, converted.", "quantifier": "all images, sizes up to 2^20, precisions, long double formats (binary64, x87, binary128), tables with errors up to u for 2^-p <= u <= 2^-20 with length times u at most 1/16, series of at most 2^p images", "why_tests_cant": "the tests run one build with one precision on a few images; the bound is over all images and rounding patterns", "anchors": ["lib/precision.h:21-31", "lib/transform/kiss_fft.c:22-82", "lib/kissfft/_kiss_fft_guts.h:113-138", "lib/analysis.c:106-121", "configure:213-218"]}
{"id": "C95", "title": "The trigonometric tables in every precision", "statement": "In every combination of COEFF_PRECISION and INTER_PRECISION, given a C library whose cos, sin and atan are accurate to a stated error, the tables the KISS backend computes for lengths up to 2^20 are within a stated error of the exact sines and cosines: 2^-46 with double or long double coefficients, 2^-24 with float coefficients and wider intermediates, 2^-20 where both are floats and the phases are computed in float. The coefficients computed with these tables then obey the bound of C94, and nearest-neighbour upscales clear of it get the confidence 1, with no assumption on the tables. In the default build these are the tables of C83.", "quantifier": "all precisions, long double formats (binary64, x87, binary128), lengths up to 2^20 (65536 with floats only for the bound on coefficients), C libraries within the stated errors (2^-23 for the float functions, 2^-51 for the others), images and series", "why_tests_cant": "the tests build one precision; the error of a table entry depends on the length and the index through several rounded operations", "anchors": ["lib/transform/kiss_fft.c:53-62", "lib/kissfft/kiss_fft.c:355-361", "lib/kissfft/kiss_fftr.c:52-58", "lib/kissfft/_kiss_fft_guts.h:127-145", "lib/precision.h:33-54"]}
{"id": "C96", "title": "Lanczos upscales", "statement": "Frames made s times as wide (high), s any whole number from 2 on, with Lanczos' kernel of any number a >= 2 of lobes, as it is or with the weights of each new sample divided by their sum as programs do, and then changed by at most d per sample: their old width (height) N is reported with confidence 1 if the range is at most N / 7a, or N / 15a with divided weights, and the exact coefficients around N are larger than the errors. The sum of the weights is between 0.59 and 1.28 everywhere, and dividing by it keeps images of one colour.", "quantifier": "all numbers of lobes, whole factors, sizes up to 2^20, frames, noise, ranges within the stated part of N", "why_tests_cant": "the response at the end of the old spectrum is an alternating sum over s phases and a lobes for every s and a at once", "anchors": ["lib/methods.c:detect_method_sign", "lib/analysis.c", "lib/transform/kiss_fft.c", "README.md"]}
{"id": "C97", "title": "Inverse transforms", "statement": "The transforms of KISS FFT that resdet compiles and does not call: in exact arithmetic a state made for the inverse computes the unnormalised inverse Fourier transform of every in_stride-th input, forward and inverse one after the other multiply by the length, kiss_fftri turns any n+1 coefficients into the 2n real samples that have this spectrum, and kiss_fftr followed by kiss_fftri multiplies by 2n. For any scalars and any failing allocations there is no undefined behaviour, buffers keep their sizes and memory is returned; transforming in place gives the same result, and changes nothing if its buffer cannot be allocated. A state for the wrong direction makes the real transforms write nothing. kiss_fft_next_fast_size returns the least 2-3-5 product from n on for 1 <= n <= 2125764000 and n itself if negative, and the macro for real transforms the least even length whose half is such a product; they do not terminate for 0 and overflow above (finding).", "quantifier": "all lengths, strides, buffers, scalars, allocation outcomes, all ints", "why_tests_cant": "the project has no test of these functions and no caller; the identities hold for every length and the termination of the size search for every int", "anchors": ["lib/kissfft/kiss_fft.c:kf_bfly4", "lib/kissfft/kiss_fft.c:kiss_fft_stride", "lib/kissfft/kiss_fft.c:kiss_fft_next_fast_size", "lib/kissfft/kiss_fftr.c:kiss_fftri"]}
{"id": "C98", "title": "Turned and recoloured images", "statement": "The sign method does not depend on how a picture is turned: if frames are mirrored, upside down, or both, if their contrast is changed (also inverted) or their brightness, and if samples are off by up to d, size N is reported if and only if it was, and with the same confidence; with rows and columns exchanged or after a quarter turn a width becomes a height and the other way round. The exact coefficients around N must exceed the errors, and the brightness may only change if coefficient 0 is not among them. In exact arithmetic each coefficient but the first changes by the contrast and a sign, and the sign of the product of the two coefficients mirrored at any N stays.", "quantifier": "all sizes, images, numbers of frames, contrasts, brightnesses, ranges, thresholds, filters and accurate transforms", "why_tests_cant": "a test compares a few pictures in a few orientations; the claim is an equality of confidences over all pictures and all combinations of changes, which rests on an identity of cosine transforms", "anchors": ["lib/methods.c:detect_method_sign", "lib/analysis.c:generate_dimension_results", "lib/transform/kiss_fft.c:resdet_transform"]}
{"id": "C99", "title": "The methods compared", "statement": "The sign method reports whatever another method reports: for the same frames, range and filter and a threshold no higher, each size that the magnitude, original or zero crossing method reports is reported by the sign method, with a confidence no smaller. For the original method this holds with the same parameters, set or left at their defaults, since its default threshold is higher; for a single frame its confidences are those of the sign method or 0. It rests on: a pair of floats whose quotient plus one is below one in magnitude has different signs, after all roundings and with the divisor kept away from zero; for quotients that are not finite it depends on the C library's frexp.", "quantifier": "all frames, transforms, sizes, ranges, thresholds, filters, all pairs of floats", "why_tests_cant": "relates pairs of executions with different methods, for all coefficients, including rounding of quotients and means", "anchors": ["lib/methods.c:detect_method_sign", "lib/methods.c:detect_method_magnitude", "lib/methods.c:detect_method_original", "lib/methods.c:detect_method_zerocrossing"]}
{"id": "C100", "title": "Upscales and the zero crossing method", "statement": "The zero crossing method reports size N, without filter, if on enough lines the exact coefficients at N - 1 and N + 1 have opposite signs and exceed the one at N by twice the error of the transform; the confidence is at least the part of the lines on which they do, in the mean over the frames, up to rounding. For frames upscaled from N samples with any symmetric kernel that responds positively at N - 1, N and N + 1, the coefficient at N vanishes but for aliasing and errors and its neighbours are opposed, so N is reported if enough lines have neighbours clear of errors and aliasing. Repeated, linear, cubic and Lanczos upscales by whole factors have no aliasing there. It is not reported if on too many lines the coefficients at N - 1 and N + 1 clearly have the same sign.", "quantifier": "all sizes, numbers of frames, source images, kernels, noise up to d, thresholds and accurate transforms", "why_tests_cant": "the project has no test of this method; the claim holds for every kernel and picture and rests on the exact coefficient N of an upscale being zero", "anchors": ["lib/methods.c:detect_method_zerocrossing", "lib/analysis.c:generate_dimension_results", "lib/transform/kiss_fft.c:resdet_transform"]}
