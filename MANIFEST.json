{"claims": [
 {"property": "C01", "status": "proved", "theorems": ["get_method_exact", "get_method_unknown", "get_method_default"], "note": ""},
 {"property": "C02", "status": "proved", "theorems": ["setter_history", "setter_history_valid", "setter_null", "setter_step"], "note": ""},
 {"property": "C03", "status": "proved", "theorems": ["error_message", "max_error", "error_message_int_min_refuted", "analysis_codes"], "note": "INT_MIN is the one code for which the function is undefined."},
 {"property": "C04", "status": "proved", "theorems": ["size_limit", "create_outcome"], "note": ""},
 {"property": "C05", "status": "proved", "theorems": ["analysis_safe", "create_leak_refuted"], "note": "One block can leak in the KISS plan construction; analysis_safe states exactly that."},
 {"property": "C06", "status": "proved", "theorems": ["confidence_range", "confidence_after_nomem_refuted"], "note": "confidence_range is about analyses none of whose frames ran out of memory; otherwise it fails, see the witness."},
 {"property": "C07", "status": "proved", "theorems": ["list_order"], "note": ""},
 {"property": "C08", "status": "proved", "theorems": ["exact_results", "no_duplicates"], "note": ""},
 {"property": "C09", "status": "proved", "theorems": ["window_only", "narrow_dimension"], "note": ""},
 {"property": "C10", "status": "proved", "theorems": ["invalid_image", "valid_image_accepted"], "note": ""},
 {"property": "C100", "status": "proved", "theorems": ["crossed_width", "crossed_height", "crossing_upscale_width", "crossing_upscale_height", "crossing_kernels", "width_not_crossed", "height_not_crossed"], "note": "Reported from the exact coefficients and from upscales with any kernel, and not reported when the neighbours agree in sign; for widths and heights. The filter is off in the first four, as in C85."},
 {"property": "C11", "status": "proved", "theorems": ["no_images"], "note": ""},
 {"property": "C12", "status": "proved", "theorems": ["same_images_same_results", "same_images_same_fetch"], "note": ""},
 {"property": "C13", "status": "proved", "theorems": ["result_outputs", "result_null"], "note": ""},
 {"property": "C14", "status": "proved", "theorems": ["resdetect_sequential", "resdetect_outcome"], "note": ""},
 {"property": "C15", "status": "proved", "theorems": ["file_by_hand", "file_functions_defined"], "note": "by_hand_file: create, analyse each frame, results or the read error, destroy. The leak of create_analysis (C08) shows up here too."},
 {"property": "C16", "status": "proved", "theorems": ["mean_error"], "note": ""},
 {"property": "C17", "status": "proved", "theorems": ["method_counts", "single_frame"], "note": ""},
 {"property": "C18", "status": "proved", "theorems": ["analysis_parameters", "default_threshold"], "note": ""},
 {"property": "C19", "status": "proved", "theorems": ["threshold_monotone"], "note": ""},
 {"property": "C20", "status": "proved", "theorems": ["threshold_zero", "threshold_zero_every_line_refuted"], "note": ""},
 {"property": "C21", "status": "proved", "theorems": ["transpose"], "note": ""},
 {"property": "C22", "status": "proved", "theorems": ["exact_results", "filter_law", "filter_documentation_refuted"], "note": "Sides up to 2^22; the documented behaviour is refuted."},
 {"property": "C23", "status": "proved", "theorems": ["zerox_range", "zerox_window"], "note": ""},
 {"property": "C24", "status": "proved", "theorems": ["same_images_same_results", "invalid_image"], "note": ""},
 {"property": "C25", "status": "proved", "theorems": ["factor_table"], "note": ""},
 {"property": "C26", "status": "proved", "theorems": ["fft_is_dft", "fft_out_of_memory_refuted"], "note": "Holds while the scratch allocation of radices above 5 succeeds; otherwise the output is silently wrong, see the witness."},
 {"property": "C27", "status": "proved", "theorems": ["real_fft_is_dft"], "note": ""},
 {"property": "C28", "status": "proved", "theorems": ["transform_is_dct"], "note": "FFTW itself is a library; the theorem identifies the KISS result with the definition FFTW documents for REDFT10."},
 {"property": "C29", "status": "proved", "theorems": ["transform_safe", "transform_deterministic", "kiss_env"], "note": ""},
 {"property": "C30", "status": "proved", "theorems": ["upscale_signs", "upscale_width", "upscale_height"], "note": "The detection theorems assume the computed coefficients have the sign of the exact ones; C73 and C74 discharge this for the KISS transform."},
 {"property": "C31", "status": "proved", "theorems": ["pgm_round_trip", "pgm_magic_refuted", "pgm_comment_refuted"], "note": "for all files of the format defined in SpecFormats.v, all hosts, streams, allocation patterns; the findings are the _refuted theorems"},
 {"property": "C32", "status": "proved", "theorems": ["pfm_round_trip"], "note": "any number of frames, grey and colour mixed for reads; %f is an oracle of the host"},
 {"property": "C33", "status": "proved", "theorems": ["y4m_round_trip", "y4m_411_refuted", "y4m_alpha_refuted", "y4m_16_bit_refuted", "y4m_limit_refuted"], "note": "the findings are the _refuted theorems"},
 {"property": "C34", "status": "proved", "theorems": ["seek_then_read", "mixed_seek_refuted"], "note": "for the three native readers; the general form (every program of reads and seeks) is in the round trip theorems"},
 {"property": "C35", "status": "proved", "theorems": ["seek_zero", "seek_zero_pfm_refuted"], "note": "refuted for PFM, proved for PGM and Y4M"},
 {"property": "C36", "status": "proved", "theorems": ["seek_progress"], "note": ""},
 {"property": "C37", "status": "proved", "theorems": ["read_needs_samples", "pgm_truncated", "pfm_truncated", "y4m_truncated", "truncated_chroma_refuted"], "note": "any input for the first theorem; truncated well-formed files for the next three"},
 {"property": "C38", "status": "proved", "theorems": ["open_outcome"], "note": ""},
 {"property": "C39", "status": "proved", "theorems": ["pipes_and_files", "truncated_chroma_refuted"], "note": ""},
 {"property": "C40", "status": "proved", "theorems": ["reader_by_type", "unknown_type", "reader_name", "exact_name_refuted"], "note": "Reader names are compared without case, so the claim 'exact name' is refuted and the statement corrected."},
 {"property": "C41", "status": "proved", "theorems": ["read_image", "read_image_limit_refuted"], "note": ""},
 {"property": "C42", "status": "proved", "theorems": ["image_program_safe", "file_functions_defined"], "note": "External readers are oracles that hold no modelled memory or file."},
 {"property": "C43", "status": "proved", "theorems": ["frames_end"], "note": "External readers are assumed to have finitely many frames."},
 {"property": "C44", "status": "proved", "theorems": ["normalised", "pgm_normalised", "y4m_normalised", "pgm_sample_refuted", "pgm_maxval_refuted"], "note": "the values are IEEE single precision"},
 {"property": "C45", "status": "proved", "theorems": ["hostile_input", "image_program_safe", "hostile_number_refuted", "hostile_char_refuted", "hostile_name_refuted"], "note": "Undefined behaviour remains only where the C standard leaves scanf overflow and ctype on negative chars undefined; witnesses given."},
 {"property": "C46", "status": "proved", "theorems": ["silent_status", "run_results", "run_reported", "silent_status_refuted"], "note": "The status on failure is not a different one: with -v 0 an image that is not upscaled and an unreadable file both give 1 (silent_status_refuted)."},
 {"property": "C47", "status": "proved", "theorems": ["frame_range", "frame_range_passed", "run_results", "progress_notes"], "note": ""},
 {"property": "C48", "status": "proved", "theorems": ["best_guess", "run_results", "run_reported"], "note": ""},
 {"property": "C49", "status": "proved", "theorems": ["comparison_counts", "comparison_order_refuted"], "note": "original statement fails for lists in order of confidence; the statement says what the comparison does"},
 {"property": "C50", "status": "proved", "theorems": ["stat_run", "stat_ascending", "stat_outliers_refuted"], "note": "every detected resolution is listed as an extreme outlier"},
 {"property": "C51", "status": "proved", "theorems": ["python_parameters", "python_rejected_refuted", "python_masked_refuted", "python_argument_leak_refuted"], "note": "Deviations refuted with witnesses: rejected values ignored, integers masked, leak on a wrong type."},
 {"property": "C52", "status": "proved", "theorems": ["js_object", "js_rejected_refuted", "js_rejected_leak_refuted"], "note": "Deviations refuted with witnesses."},
 {"property": "C53", "status": "proved", "theorems": ["python_index", "python_read_image", "python_negative_refuted", "python_column_refuted", "python_dimensions_refuted", "python_closed_refuted", "python_reused_refuted"], "note": "Deviations refuted with witnesses."},
 {"property": "C54", "status": "proved", "theorems": ["option_words", "options_in_effect", "option_numbers", "option_verbosity", "option_parameters", "filter_by_name", "reader_option_refuted", "verbosity_option_refuted", "option_end"], "note": "Only the first -R is checked, and -v takes any text."},
 {"property": "C55", "status": "proved", "theorems": ["cli_safe", "known_codes", "cli_memory_refuted"], "note": "The parameters are lost when -t and -R are both given."},
 {"property": "C56", "status": "proved", "theorems": ["imgread_run", "imgread_round_trip", "imgread_big_endian_refuted", "imgread_status_refuted", "imgread_arguments_refuted"], "note": "writes to the output are assumed to succeed"},
 {"property": "C57", "status": "proved", "theorems": ["profile_run", "profile_time", "profile_time_text", "profile_time_text_refuted", "profile_last_line_refuted"], "note": "getline is modelled as the list of lines of the dictionary"},
 {"property": "C58", "status": "proved", "theorems": ["numpy_frames", "numpy_order", "pil_detect", "numpy_rows_refuted", "numpy_bytes_refuted", "pil_read_refuted"], "note": "Deviations refuted with witnesses."},
 {"property": "C59", "status": "proved", "theorems": ["python_detect", "python_detect_file", "python_readme", "python_session", "python_short_list_refuted"], "note": "Deviation refuted with a witness."},
 {"property": "C60", "status": "proved", "theorems": ["js_detect", "js_analysis_created", "js_analyze_image", "js_analysis_results", "js_memory_leak_refuted"], "note": "Deviation refuted with a witness."},
 {"property": "C61", "status": "proved", "theorems": ["png_safe", "png_interlaced_refuted"], "note": "Against png_ok, what libpng's documentation promises."},
 {"property": "C62", "status": "proved", "theorems": ["png_transformed"], "note": ""},
 {"property": "C63", "status": "proved", "theorems": ["png_values", "png_mean"], "note": ""},
 {"property": "C64", "status": "proved", "theorems": ["jpeg_safe", "jpeg_message_refuted"], "note": "Against jpeg_ok, what libjpeg's documentation promises."},
 {"property": "C65", "status": "proved", "theorems": ["jpeg_values"], "note": ""},
 {"property": "C66", "status": "proved", "theorems": ["magick_safe", "magick_export_refuted"], "note": "Against magick_ok."},
 {"property": "C67", "status": "proved", "theorems": ["magick_frames", "magick_failure", "magick_errno_refuted"], "note": ""},
 {"property": "C68", "status": "proved", "theorems": ["ff_safe"], "note": "Against ff_ok."},
 {"property": "C69", "status": "proved", "theorems": ["ff_frames", "ff_read_error_refuted"], "note": ""},
 {"property": "C70", "status": "proved", "theorems": ["ff_failure", "ff_parameters_refuted"], "note": ""},
 {"property": "C71", "status": "proved", "theorems": ["library_opens", "ff_memory_refuted"], "note": ""},
 {"property": "C72", "status": "proved", "theorems": ["native_refusal", "native_errors", "header_sign_refuted", "empty_image_refuted"], "note": ""},
 {"property": "C73", "status": "proved", "theorems": ["transform_accuracy", "kiss_signs"], "note": "The tables are assumed accurate to 2^-24; the C library's cos and sin are not modelled."},
 {"property": "C74", "status": "proved", "theorems": ["kiss_upscale_width", "kiss_upscale_height"], "note": ""},
 {"property": "C75", "status": "proved", "theorems": ["python_film", "python_image_session", "python_negative_seek"], "note": "python_negative_seek: a negative offset passes all frames instead of raising."},
 {"property": "C76", "status": "proved", "theorems": ["method_lists", "method_get", "unknown_method", "python_readers"], "note": "unknown_method: an unknown name behaves as the default method."},
 {"property": "C77", "status": "proved", "theorems": ["numpy_film", "numpy_iteration", "pil_iteration", "buffer_list"], "note": ""},
 {"property": "C78", "status": "proved", "theorems": ["size_limit_words", "size_limit_64", "requests_64", "requests_made", "requests_32", "kiss_request_32_refuted", "image_requests", "y4m_requests", "pfm_skip_exact", "pfm_skip_refuted"], "note": ""},
 {"property": "C79", "status": "proved", "theorems": ["interpolation_coefficients", "whole_factors", "nearest_response", "linear_response", "cubic_response", "halves_response", "interpolated_width", "interpolated_height", "common_upscale_width", "common_upscale_height", "halves_upscale_width"], "note": "Like C74, for nearest-neighbour, linear and cubic interpolation and samples that were rounded."},
 {"property": "C80", "status": "proved", "theorems": ["number_text", "fraction_text", "brief_text", "list_text", "table_text", "text_unambiguous", "table_alignment_refuted"], "note": "printf is modelled with correct rounding in the C locale; the alignment of the table is refuted for confidences of 100%"},
 {"property": "C81", "status": "proved", "theorems": ["threshold_text"], "note": ""},
 {"property": "C82", "status": "proved", "theorems": ["help_entries", "usage_options", "help_defaults", "help_synopsis_refuted", "help_lines_refuted", "version_text", "reader_list_text"], "note": "two defects of the help text are stated as refutations"},
 {"property": "C83", "status": "proved", "theorems": ["tables_accurate", "transform_from_libm"], "note": ""},
 {"property": "C84", "status": "proved", "theorems": ["film_run", "upscaled_run"], "note": "assumes the KISS transform, no compression filter and at most 2^53 frames"},
 {"property": "C85", "status": "proved", "theorems": ["kiss_accurate", "width_reported", "height_reported", "width_not_reported", "height_not_reported"], "note": "FFTW itself is not modelled: its accuracy is a hypothesis; KISS's is proved"},
 {"property": "C86", "status": "proved", "theorems": ["partly_interpolated_width", "partly_interpolated_height"], "note": "any accurate transform; KISS is one by kiss_accurate"},
 {"property": "C87", "status": "proved", "theorems": ["fftr_block", "fftr_arrays", "fft_protocol", "fftr_protocol", "fftr_aligned", "fftr_aligned_refuted"], "note": "alignment refuted for 32-bit builds with double coefficients"},
 {"property": "C88", "status": "proved", "theorems": ["cubic_kernels", "cubics_respond", "cubics_halves", "cubic_upscale_width", "cubic_upscale_height", "cubic_halves_width", "cubic_halves_height"], "note": "Fourth differences give the response in closed form for every whole factor; it is positive within a tenth of the old size. Only whole factors and 3/2."},
 {"property": "C89", "status": "proved", "theorems": ["clients_safe", "clients_undisturbed", "order_hidden", "clients_leave"], "note": "calls of different clients are interleaved as a whole; races inside a call, FFTW's planner and MagickWand's global state are not modelled"},
 {"property": "C90", "status": "proved", "theorems": ["precision_default", "precision_rule", "precision_confidence", "precision_unanimous", "precision_stuck", "precision_long_refuted"], "note": "Methods and result arithmetic in every precision; transforms are only modelled in the default one. precision_long_refuted: the exact 1 does not extend to more than 2^p frames."},
 {"property": "C91", "status": "proved", "theorems": ["configure_outcome", "built_readers", "built_objects", "built_warning", "built_precisions", "built_limits", "usage_form_refuted", "inter_setting_refuted", "coeff_setting_refuted", "ffmpeg_check_refuted"], "note": "all machines and command lines; shell variables hold text that neither splits nor expands further"},
 {"property": "C92", "status": "proved", "theorems": ["installed_removed", "installed_loads", "versions_agree", "pc_directories", "pc_directories_refuted", "uninstall_refuted", "uninstall_lib_refuted"], "note": "the uninstall property fails for dylib and dll, as refuted"},
 {"property": "C93", "status": "proved", "theorems": ["visualize_draws", "visualize_stops", "visualize_refuses", "visualize_status_refuted"], "note": "file name expansion in -r and -s and bash arithmetic beyond decimal numbers are outside the model; visualize_draws is for numbers written without leading zeros"},
 {"property": "C94", "status": "proved", "theorems": ["scalar_accuracy", "scalar_signs", "scalar_long", "scalar_float", "scalar_no_worse", "scalar_upscale_width", "scalar_upscale_height"], "note": "tables with errors up to u are a hypothesis here; C95 derives them; sizes above 2^20 are outside the bound"},
 {"property": "C95", "status": "proved", "theorems": ["trig_tables", "trig_default", "trig_accuracy", "trig_upscale_width", "trig_upscale_height"], "note": "the C library's cos, sin and atan are assumed accurate to 2^-51 (float functions 2^-23)"},
 {"property": "C96", "status": "proved", "theorems": ["lanczos_kernels", "lanczos_respond", "lanczos_upscale_width", "lanczos_upscale_height"], "note": "The kernel's sum over its lobes is alternating, which bounds the response at N from below; it changes by at most a stated amount within the range. Only whole factors."},
 {"property": "C97", "status": "proved", "theorems": ["inverse_forward", "inverse_fft", "inverse_round_trip", "inverse_real", "inverse_real_round_trip", "inverse_safe", "inverse_in_place", "inverse_misuse", "next_fast_size", "next_fast_size_real", "next_fast_size_refuted"], "note": "Transforms with st->inverse, strides, in place, kiss_fftri; next_fast_size_refuted records the arguments that loop or overflow."},
 {"property": "C98", "status": "proved", "theorems": ["reworked_coefficients", "reworked_width", "reworked_height", "turned_width", "turned_height"], "note": "For any transform that is accurate in the sense of C85, which the KISS build is; the other methods are not covered."},
 {"property": "C99", "status": "proved", "theorems": ["criteria_imply_signs", "sign_reports_all", "sign_reports_original", "original_confidence"], "note": "For the magnitude method, coefficients must be finite and at most 2^48 in magnitude, so that quotients are finite, or else the C library's frexp must set a positive exponent for others."}
]}
