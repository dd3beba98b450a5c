{
 "claims": [
  {
   "property": "C01",
   "status": "partial",
   "theorems": [
    "C01_dispose_exact_partial",
    "C01_slice_type_01_refuted",
    "C01_trailing_pseudo_refuted",
    "C01_flush_refuted"
   ],
   "note": "Exact for units without start-code type 01/02 and not ending in a pseudo start code; both excluded cases, and the last unit of a stream (decoded by flush without cleaning), are proved to deviate (findings)."
  },
  {
   "property": "C02",
   "status": "proved",
   "theorems": [
    "C02_inplace"
   ],
   "note": ""
  },
  {
   "property": "C03",
   "status": "partial",
   "theorems": [
    "C03_roundtrip_partial",
    "C03_slice_type_01_refuted"
   ],
   "note": "All unit types except 01/02 (proved to fail for 01), payload nonempty and not ending in a zero byte."
  },
  {
   "property": "C04",
   "status": "proved",
   "theorems": [
    "C04_find_first",
    "C04_find_none"
   ],
   "note": ""
  },
  {
   "property": "C05",
   "status": "partial",
   "theorems": [
    "C05_pic_start_code_partial",
    "C05_hidden_refuted"
   ],
   "note": "A unit start code overlapping a slice start code 00 00 01 00 is missed; shown exactly and refuted by witness."
  },
  {
   "property": "C06",
   "status": "proved",
   "theorems": [
    "C06_u_v_value",
    "C06_u_v_fail"
   ],
   "note": "Fields of at most 31 bits."
  },
  {
   "property": "C07",
   "status": "proved",
   "theorems": [
    "C07_ue_roundtrip",
    "C07_se_roundtrip"
   ],
   "note": ""
  },
  {
   "property": "C08",
   "status": "partial",
   "theorems": [
    "C08_u_v_reads_past_end_refuted",
    "C08_ue_v_unbounded_scan_refuted",
    "C08_u_v_safe_with_slack_partial",
    "C08_ue_v_safe_with_slack_partial"
   ],
   "note": "False as stated (two refutations); proved under the slack and stop-bit conditions the callers provide."
  },
  {
   "property": "C09",
   "status": "proved",
   "theorems": [
    "C09_accepted_geometry",
    "C09_roundtrip",
    "C09_build_depth",
    "C09_output_depth_refuted"
   ],
   "note": "Accepted geometry for every stream (also truncated); full write/read round trip and rejection of illegal headers; build depth check. Refuted side claim: announced output depth (header.cc:173) differs from the depth pictures are written with (header.cc:1055)."
  },
  {
   "property": "C10",
   "status": "proved",
   "theorems": [
    "C10_unwrap",
    "C10_display_index",
    "C10_gap_256_refuted"
   ],
   "note": "Unwrapping is exact up to one constant multiple of 256 for gaps 1..255, any history length. Gap of exactly 256 refuted."
  },
  {
   "property": "C11",
   "status": "partial",
   "theorems": [
    "C11_accepted_fits",
    "C11_picture_fits",
    "C11_sequence_overflow_refuted",
    "C11_inter_overflow_refuted",
    "C11_truncated_index_refuted",
    "C11_intra_safe_partial"
   ],
   "note": "Every delivered set fits. The full claim (no store outside) is refuted for sequence-level and inter explicit RPS with count 5..7 and for a truncated index; proved for the intra header under an untruncated index."
  },
  {
   "property": "C12",
   "status": "partial",
   "theorems": [
    "C12_luma_range",
    "C12_luma_monotone",
    "C12_chroma_range_partial",
    "C12_chroma_hbd_refuted"
   ],
   "note": "Luma and 8-bit chroma thresholds: in range, monotone, zero at low QP, for all QPs and offsets. High-bit-depth chroma refuted (quant.h:96 has no upper clip); holds when QP+delta is a legal QP."
  },
  {
   "property": "C13",
   "status": "proved",
   "theorems": [
    "C13_deliver_min",
    "C13_increasing",
    "C13_new_sequence_refuted"
   ],
   "note": "Delivery of the smallest waiting index and strict increase under the no-late-arrival condition of the statement; a new sequence header that restarts the display index is proved to break the order across the header."
  },
  {
   "property": "C14",
   "status": "proved",
   "theorems": [
    "C14_exactly_once"
   ],
   "note": ""
  },
  {
   "property": "C15",
   "status": "proved",
   "theorems": [
    "C15_insert_sorted",
    "C15_queue"
   ],
   "note": ""
  },
  {
   "property": "C16",
   "status": "partial",
   "theorems": [
    "C16_end_only_when_done",
    "C16_flush_drains_partial",
    "C16_flush_returns_partial",
    "C16_flush_hangs_refuted"
   ],
   "note": "End is reported only when nothing is waiting or in flight (proved). Draining in finitely many calls is proved when every started picture completes; a picture without slices never completes and flush hangs (refuted by witness)."
  },
  {
   "property": "C17",
   "status": "partial",
   "theorems": [
    "C17_header_first",
    "C17_same_size_refuted"
   ],
   "note": "Proved for headers that change the picture size (the decoder's notion of new); a header of the same size with other changed fields is not announced (refuted by witness)."
  },
  {
   "property": "C18",
   "status": "proved",
   "theorems": [
    "C18_reject",
    "C18_accept"
   ],
   "note": "Acceptance under the size limits of C20 and when a buffer is free (otherwise the call waits)."
  },
  {
   "property": "C19",
   "status": "proved",
   "theorems": [
    "C19_units",
    "C19_concat",
    "C19_openings",
    "C19_recut"
   ],
   "note": "Unit contents after cleaning; units ended by a flush are handed over uncleaned (see C01_flush_refuted)."
  },
  {
   "property": "C20",
   "status": "partial",
   "theorems": [
    "C20_inside_partial",
    "C20_buffers_conserved",
    "C20_overflow_refuted"
   ],
   "note": "Holds for packets up to MAX_ES_FRAME_SIZE; refuted for longer packets that open a new unit."
  },
  {
   "property": "C21",
   "status": "partial",
   "theorems": [
    "C21_target_unused",
    "C21_given_up_for_a_reason",
    "C21_fallback_overwrites_reference_refuted",
    "C21_background_overwritten_refuted"
   ],
   "note": "All interleavings of the API thread, decoding tasks and output. The target is never in use; it is no announced reference unless the fallback took it. Refuted for the fallback (F26) and for the background buffer (F27)."
  },
  {
   "property": "C22",
   "status": "partial",
   "theorems": [
    "C22_users_are_the_owners",
    "C22_users_never_negative",
    "C22_reusable_iff_released_partial",
    "C22_search_finds_free_partial",
    "C22_no_invalid_release_partial",
    "C22_background_release_refuted",
    "C22_reset_release_refuted",
    "C22_dropped_picture_leaks_refuted"
   ],
   "note": "Users are exactly the owners and never negative; a buffer is taken iff unused and unmarked, and the search finds one. No invalid release without background pictures and without a resolution change while buffers are in use; refuted for those two (F27, F28) and for pictures without slices (F29)."
  },
  {
   "property": "C23",
   "status": "proved",
   "theorems": [
    "C23_references_exact",
    "C23_reference_not_given_up",
    "C23_dropped_for_a_reason"
   ],
   "note": "References of a started picture are exact, still in use and announced; a picture dropped before acceptance misses a reference or is a B picture whose references do not surround it."
  },
  {
   "property": "C24",
   "status": "proved",
   "theorems": [
    "C24_exactly_once",
    "C24_descriptors",
    "C24_pick",
    "C24_wait",
    "C24_exit_refuted"
   ],
   "note": "Thread pool as a transition system: every critical section of threadpool.cc is one step and activities interleave freely. Started in submission order, each job executed at most once and only if submitted, 128 descriptors never lost or shared, wait only returns an executed job. Holds for a pool that is not being deleted: C24_exit_refuted shows that jobs queued at davs2_threadpool_delete may never run. Fairness of the scheduler is not modelled; C24_pick states that an idle worker can always take a queued job."
  },
  {
   "property": "C25",
   "status": "proved",
   "theorems": [
    "C25_bounds",
    "C25_no_wait"
   ],
   "note": "No schedule of any length leaves the arrays; pushes never wait."
  },
  {
   "property": "C26",
   "status": "proved",
   "theorems": [
    "C26_queue",
    "C26_fifo",
    "C26_exclusive",
    "C26_double_append_refuted"
   ],
   "note": "Pointer-level model of the lists; critical sections are atomic, append is split into preparing the node and linking it. Precondition: a node is appended only by its owner; C26_double_append_refuted shows the effect of releasing the same picture twice."
  },
  {
   "property": "C27",
   "status": "partial",
   "theorems": [
    "C27_order",
    "C27_one_thread_rows_above",
    "C27_runs_end",
    "C27_progress",
    "C27_progress_partial",
    "C27_lost_wakeup_refuted",
    "C27_bad_header_refuted",
    "C27_row_workers_refuted",
    "C27_cache_ahead_refuted",
    "C27_default_build",
    "C27_self_deadlock_iff",
    "C27_default_build_refuted",
    "C27_not_reference",
    "C27_delivered_iff"
   ],
   "note": "Order: for every schedule, any size, one or several workers. Runs always end (explicit bound). Progress holds with the parsed count published under the mutex; as the code is, the one other end is a lost wake-up after the last broadcast (refuted by witness), plus bad slice headers and the unused several-worker mode (refuted). Default build: exact condition for the self-deadlock, raster order and delivery proved. Memory is sequentially consistent in the model; decoding_error is 0."
  },
  {
   "property": "C28",
   "status": "partial",
   "theorems": [
    "C28_frame",
    "C28_dpb",
    "C28_extra",
    "C28_extra_refuted"
   ],
   "note": "Frame, decoded-picture buffer and decoder extra buffer: proved for all sizes, formats, base addresses. False for the extra buffer of pictures needing 2 GB or more (C28_extra_refuted): they are rejected."
  },
  {
   "property": "C29",
   "status": "proved",
   "theorems": [
    "C29_extended",
    "C29_inside"
   ],
   "note": "All plane sizes, LCU sizes and contents; the rows may change any sample from four lines above the row downwards before they are padded."
  },
  {
   "property": "C30",
   "status": "partial",
   "theorems": [
    "C30_same_depth",
    "C30_reduced_partial",
    "C30_properties",
    "C30_frames_kept",
    "C30_white_refuted",
    "C30_not_written_refuted",
    "C30_recycled_refuted"
   ],
   "note": "Proved for equal depths and for reduction of all but the brightest samples; refuted for those (F40), for unsupported depth pairs (F41) and for recycled pictures in high-bit-depth builds (F42)."
  },
  {
   "property": "C31",
   "status": "proved",
   "theorems": [
    "C31_contexts"
   ],
   "note": "Every update history from the reset state; the table-driven update equals the arithmetic rule."
  },
  {
   "property": "C32",
   "status": "partial",
   "theorems": [
    "C32_order",
    "C32_start",
    "C32_inside",
    "C32_n_bits",
    "C32_wrap_refuted"
   ],
   "note": "Order, exhaustion flag, independence of bytes outside the slice, n-bit requests; holds up to 128 requests beyond the end. C32_wrap_refuted: the 129th request past the end wraps the 8-bit counter and shifts by more than 63."
  },
  {
   "property": "C33",
   "status": "proved",
   "theorems": [
    "C33_continue0",
    "C33_continue0_ext"
   ],
   "note": "Both batched loops, in every state reachable by decoding a slice. When the data runs out inside the loop both report the error and count 0; the register contents after an error are not compared."
  },
  {
   "property": "C34",
   "status": "partial",
   "theorems": [
    "C34_total",
    "C34_step",
    "C34_offset",
    "C34_start_refuted",
    "C34_bypass_refuted"
   ],
   "note": "Termination, definedness, register widths and bit bound for all slices and request sequences. Offset below range: proved for context-coded symbols and the end flag, and per step for equiprobable symbols outside the saturated state; false otherwise (C34_start_refuted, C34_bypass_refuted)."
  },
  {
   "property": "C35",
   "status": "proved",
   "theorems": [
    "C35_block_partial",
    "C35_block",
    "C35_no_hang"
   ],
   "note": "All block shapes the decoder uses, any slice data, any decoder state; with the reader in use whenever reading ends (undefined escape arithmetic is C37)."
  },
  {
   "property": "C36",
   "status": "partial",
   "theorems": [
    "C36_legal_sums_partial",
    "C36_tables_partial",
    "C36_accumulation_refuted",
    "C36_negative_refuted",
    "C36_depth12_refuted"
   ],
   "note": "Refuted: only the difference is clipped, so legal differences accumulate outside the 80-entry tables; 12-bit QPs accepted by is_valid_qp also exceed them. Proved for streams whose signalled sums are QPs 0..79."
  },
  {
   "property": "C37",
   "status": "partial",
   "theorems": [
    "C37_value",
    "C37_level_partial",
    "C37_mvd_partial",
    "C37_mvd_refuted"
   ],
   "note": "False in general: a run of 31 zeros overflows (C37_mvd_refuted). Proved: exact value, and definedness for codes with at most 28 leading zeros."
  },
  {
   "property": "C38",
   "status": "partial",
   "theorems": [
    "C38_params",
    "C38_bands",
    "C38_bands_refuted"
   ],
   "note": "Ranges proved for all data; the two band pairs can coincide on truncated data (C38_bands_refuted) and only there (C38_bands)."
  },
  {
   "property": "C39",
   "status": "proved",
   "theorems": [
    "C39_block",
    "C39_matrix",
    "C39_no_overflow",
    "C39_range",
    "C39_sizes"
   ],
   "note": "All eleven sizes, all contents, both secondary transforms, depths 8 to 12: result equals the matrix definition with its own wave table, nothing else is written, no intermediate value of a butterfly leaves 32 bits, results in the residual range; exactly the listed sizes have a function."
  },
  {
   "property": "C40",
   "status": "proved",
   "theorems": [
    "C40_doubled",
    "C40_in_place",
    "C40_positions"
   ],
   "note": "In-place doubling for any even size, and the three sizes of the program as the doubled smaller transform."
  },
  {
   "property": "C41",
   "status": "proved",
   "theorems": [
    "C41_dequant",
    "C41_monotone",
    "C41_block"
   ],
   "note": "All 16-bit levels, QP 0..79, depths 8/10/12, block sizes 4..64."
  },
  {
   "property": "C42",
   "status": "proved",
   "theorems": [
    "C42_reconstruct",
    "C42_reconstruct_separate",
    "C42_zero_residual"
   ],
   "note": "In-place and separate-buffer form of the C kernel, all block sizes, strides, depths 8..16; the C kernels only, not the SIMD versions."
  },
  {
   "property": "C43",
   "status": "proved",
   "theorems": [
    "C43_luma",
    "C43_chroma",
    "C43_range",
    "C43_copy",
    "C43_constant",
    "C43_storage",
    "C43_average"
   ],
   "note": "C kernels; assembly kernels are out of scope. Luma, chroma, all fractional positions, all contents, with the 16-bit intermediate array; bit depths 8 to 12."
  },
  {
   "property": "C44",
   "status": "partial",
   "theorems": [
    "C44_inside",
    "C44_luma",
    "C44_chroma",
    "C44_bipred",
    "C44_bipred_chroma",
    "C44_wide_refuted"
   ],
   "note": "Proved for pictures of at most 8184 columns and lines (all vectors, positions and block sizes), including equality with the endless picture; false beyond that (C44_wide_refuted, finding F45)."
  },
  {
   "property": "C45",
   "status": "partial",
   "theorems": [
    "C45_default_partial",
    "C45_default_monotone_partial",
    "C45_accuracy_partial",
    "C45_distance",
    "C45_skip_partial",
    "C45_biskip_partial",
    "C45_overflow_refuted",
    "C45_skip_symmetry_refuted",
    "C45_saturation_refuted",
    "C45_field_partial",
    "C45_frame",
    "C45_field_abort_refuted",
    "C45_collocated_refuted"
   ],
   "note": "Rounding, saturation, symmetry and monotonicity hold when the product fits int; in fields the displacement on the screen is scaled. Overflow, asymmetric rounding of skip scaling, wrap-around before saturation, the assertion of getDeltas for odd POCs and the correction of collocated vectors are refuted."
  },
  {
   "property": "C46",
   "status": "proved",
   "theorems": [
    "C46_between",
    "C46_choice"
   ],
   "note": "All triples of 16-bit components."
  },
  {
   "property": "C47",
   "status": "proved",
   "theorems": [
    "C47_prediction_shapes",
    "C47_transform_shapes",
    "C47_prediction_tiles",
    "C47_transform_tiles",
    "C47_transform_sizes",
    "C47_aligned"
   ],
   "note": "All levels, partition types and splits, from the packed-byte shifts of the code to the tiling of every position; sizes and alignment of the units as used by transform and motion compensation."
  },
  {
   "property": "C48",
   "status": "proved",
   "theorems": [
    "C48_predicted_samples_are_legal",
    "C48_directional_between_four_samples",
    "C48_border_inside_buffer",
    "C48_local_arrays",
    "C48_depends_only_on_border"
   ],
   "note": "All modes, shapes and border contents filled as the fill functions do; local arrays large enough and filled from inside the border buffer (C48_local_arrays). The C versions, not the SIMD ones."
  },
  {
   "property": "C49",
   "status": "proved",
   "theorems": [
    "C49_specialised_equals_general",
    "C49_mode5_needs_padding_refuted",
    "C49_directional_rule"
   ],
   "note": "All specialised predictors equal the general one for every border; modes 5 and 31 under the padding the fill functions establish, refuted without."
  },
  {
   "property": "C50",
   "status": "proved",
   "theorems": [
    "C50_luma",
    "C50_luma_read",
    "C50_chroma",
    "C50_chroma_read",
    "C50_neighbours",
    "C50_units"
   ],
   "note": "Luma codes, chroma symbols, stored neighbouring modes and the units of an intra coding unit. The one luma code left over (31) gives mode 32, and the fifth chroma symbol is an error when the luma mode is one of the four fixed ones."
  },
  {
   "property": "C51",
   "status": "proved",
   "theorems": [
    "C51_neighbours",
    "C51_ranges"
   ],
   "note": "All five bits, for every block of every intra coding unit, against a recursive decoding order; the range version assumes slices of whole LCU rows, which is how the decoder starts slices."
  },
  {
   "property": "C52",
   "status": "proved",
   "theorems": [
    "C52_picture",
    "C52_lcu",
    "C52_slice_255_refuted"
   ],
   "note": "Both passes are modelled with the entropy decoder and coding unit reading left open (arbitrary functions); slice numbers must not be stored as -1 (C52_slice_255_refuted shows it for the 256th slice). C52_lcu adds disjoint coefficient places."
  },
  {
   "property": "C53",
   "status": "proved",
   "theorems": [
    "C53_edge",
    "C53_range",
    "C53_untouched",
    "C53_chroma_local",
    "C53_mirror"
   ],
   "note": "lf_edge_core in both directions, luma and chroma, all samples, thresholds and flags. The computation of edge flags is not part of this claim."
  },
  {
   "property": "C54",
   "status": "proved",
   "theorems": [
    "C54_edge_0",
    "C54_edge_90",
    "C54_edge_135",
    "C54_edge_45",
    "C54_regions"
   ],
   "note": "All four C kernels (the SIMD versions are not modelled), for every block, stride, availability pattern and stack content; the regions of the decoder meet the hypotheses (C54_regions)."
  },
  {
   "property": "C55",
   "status": "partial",
   "theorems": [
    "C55_tiles_luma",
    "C55_tiles_chroma",
    "C55_stale_slices_refuted"
   ],
   "note": "For every table of slice numbers that stays fixed during the picture the regions tile luma and 4:2:0 chroma. With rows decoded one after another the table below the current row is stale: refuted (F31)."
  },
  {
   "property": "C56",
   "status": "proved",
   "theorems": [
    "C56_band",
    "C56_other_depth_refuted"
   ],
   "note": "For the parameters the parser produces (C38) and the depth of the picture; refuted if another decoder changed the process-wide depth (F33)."
  },
  {
   "property": "C57",
   "status": "partial",
   "theorems": [
    "C57_normalised",
    "C57_flat",
    "C57_range",
    "C57_kernels",
    "C57_region",
    "C57_selected",
    "C57_no_overflow",
    "C57_overflow_refuted"
   ],
   "note": "Proved: normalisation, flat areas, range, kernels against a 17-tap specification, region index, selected filter, no overflow for conforming coefficients. Not true: no overflow for unchecked coefficients (refuted)."
  },
  {
   "property": "C58",
   "status": "partial",
   "theorems": [
    "C58_roundtrip_partial",
    "C58_filters_refuted",
    "C58_distance_refuted",
    "C58_truncated_refuted"
   ],
   "note": "Round trip of every encodable parameter set without leaving the tables; accepted data always has at most 16 filters (C57_selected). False for other data: three refutations."
  },
  {
   "property": "C59",
   "status": "proved",
   "theorems": [
    "C59_clip_pixel",
    "C59_clip",
    "C59_median",
    "C59_median_refuted",
    "C59_sign",
    "C59_align",
    "C59_bit_scan"
   ],
   "note": "Clip, median, sign, align and the portable bit scans; median is refuted for differences that overflow int, which no caller produces."
  },
  {
   "property": "C60",
   "status": "proved",
   "theorems": [
    "C60_plain",
    "C60_window",
    "C60_unique_refuted"
   ],
   "note": "pmvr_mv_derivation for all 16-bit predictors and differences."
  },
  {
   "property": "C61",
   "status": "partial",
   "theorems": [
    "C61_covers",
    "C61_pattern_refuted"
   ],
   "note": "Proved for every block whose reading does not stop early; refuted for truncated data, where pattern -1 is kept (C61_pattern_refuted)."
  },
  {
   "property": "C62",
   "status": "proved",
   "theorems": [
    "C62_cu_type",
    "C62_skip_modes",
    "C62_intra_type",
    "C62_cbp",
    "C62_b_direction",
    "C62_b_refs",
    "C62_f_direction",
    "C62_f_directions",
    "C62_reference",
    "C62_dmh",
    "C62_luma_mode",
    "C62_luma_mode_onto",
    "C62_luma_mode_unique",
    "C62_chroma_mode",
    "C62_delta_qp"
   ],
   "note": "Ranges of all coding-unit elements, context bounds, bijective luma mode coding. Weighting of neighbours' flags is taken as any pair of bits."
  },
  {
   "property": "C63",
   "status": "partial",
   "theorems": [
    "C63_serial",
    "C63_delayed",
    "C63_one_row_refuted",
    "C63_slices_refuted"
   ],
   "note": "Both orders, luma and chroma, filtering across slices on, any local reconstruction; C72 and C73 instantiate it with the model of deblocking. Refuted for pictures one LCU high in the two-thread order (F32) and for slices starting inside an LCU row with filtering across slices off (F34)."
  },
  {
   "property": "C64",
   "status": "partial",
   "theorems": [
    "C64_serial",
    "C64_delayed",
    "C64_one_row_refuted",
    "C64_slices_refuted"
   ],
   "note": "Both orders equal whole-plane filtering when filtering across slices is on (delayed order: at least two LCU rows); refuted for one-row pictures and for separately filtered slices. row_local is a hypothesis on reconstruction and deblocking."
  },
  {
   "property": "C65",
   "status": "proved",
   "theorems": [
    "C65_luma",
    "C65_chroma"
   ],
   "note": "Uses the rule of C29 and C64 that decoding and filtering LCU row k+1 changes only lines from four above its first line on."
  },
  {
   "property": "C66",
   "status": "proved",
   "theorems": [
    "C66_luma",
    "C66_chroma"
   ],
   "note": "All unit sizes, splits, patterns and contents; the destination line must be at least as long as the unit. Intra units run the same code per block with prediction in between, which is not part of this theorem."
  },
  {
   "property": "C67",
   "status": "proved",
   "theorems": [
    "C67_luma",
    "C67_chroma"
   ],
   "note": "Luma and both chroma planes; references exist, hold samples of the depth and are padded as C29 and C65 provide, pictures of at most 8184 columns and lines (F45). Waiting for reference rows is C65; motion derivation is C45, C46 and C60."
  },
  {
   "property": "C68",
   "status": "proved",
   "theorems": [
    "C68_all_modes_follow_the_rule"
   ],
   "note": "All 33 modes and nine shapes; left shift of a negative value taken as multiplication."
  },
  {
   "property": "C69",
   "status": "proved",
   "theorems": [
    "C69_border_is_the_rule",
    "C69_luma_blocks",
    "C69_chroma_blocks"
   ],
   "note": "Luma and chroma blocks; the hypothesis that ready samples are where decoding leaves them is C70 for the samples outside the LCU. Slices are whole LCU rows, as C51."
  },
  {
   "property": "C70",
   "status": "proved",
   "theorems": [
    "C70_cached_border_is_unfiltered"
   ],
   "note": "Raster order, which both row orders use (one thread reconstructs a picture). recon and deblock are arbitrary functions."
  },
  {
   "property": "C71",
   "status": "proved",
   "theorems": [
    "C71_lcu_edges",
    "C71_picture_edges"
   ],
   "note": "Edge flags of an LCU and of a picture equal the kind of the edge (independent rule on the partition). Needs the flags cleared at the start of the picture, as init_frame does, and an LCU belonging to one slice."
  },
  {
   "property": "C72",
   "status": "partial",
   "theorems": [
    "C72_picture",
    "C72_one_column_partial",
    "C72_one_column_refuted"
   ],
   "note": "Proved for every picture at least two LCUs wide (luma, 4:2:0 chroma, luma only). False for pictures one LCU wide: C72_one_column_refuted; C72_one_column_partial says what happens instead. HDR_CHROMA_DELTA_QP is 0 in this source and not modelled."
  },
  {
   "property": "C73",
   "status": "partial",
   "theorems": [
    "C73_one_thread",
    "C73_row_threads"
   ],
   "note": "Both row orders, three planes of a 4:2:0 picture with filtering across slices on and all filters enabled, at least two LCUs wide (and two high for the delayed order). What is missing: the slice-boundary case, refuted in C63/C64, and one-LCU-wide pictures, refuted in C72."
  },
  {
   "property": "C74",
   "status": "proved",
   "theorems": [
    "C74_predictor",
    "C74_range_refuted"
   ],
   "note": "For pictures of type I, P, B, F (S: finding F58), frame coding, provided scaling stays in 32 bit; C74_range_refuted shows the overflow."
  },
  {
   "property": "C75",
   "status": "proved",
   "theorems": [
    "C75_spatial_b",
    "C75_spatial_f"
   ],
   "note": "Pure functions of the six neighbours; how the neighbours are found is covered by C77/C78 (independence) and C74 (availability)."
  },
  {
   "property": "C76",
   "status": "proved",
   "theorems": [
    "C76_unit"
   ],
   "note": "For units read without error; syntax elements in the ranges shown by C55-C62; frame coding; S pictures excluded (F58)."
  },
  {
   "property": "C77",
   "status": "proved",
   "theorems": [
    "C77_no_leftovers",
    "C77_s_picture_refuted"
   ],
   "note": "Holds for I, P, B, F pictures; C77_s_picture_refuted: false for S pictures."
  },
  {
   "property": "C78",
   "status": "proved",
   "theorems": [
    "C78_picture",
    "C78_order"
   ],
   "note": "For pictures parsed completely (no lost slices, slice numbers other than 255); the run ends at the first unit with an error."
  },
  {
   "property": "C79",
   "status": "proved",
   "theorems": [
    "C79_kept"
   ],
   "note": "One call per LCU row; frame coding."
  },
  {
   "property": "C80",
   "status": "proved",
   "theorems": [
    "C80_coded"
   ],
   "note": "Units that decode without error under the same conditions as C76; differences of 16 bit, as mv_t holds them. Sequences with field coding (offset of scale_mv_*_y) are not modelled."
  },
  {
   "property": "C81",
   "status": "proved",
   "theorems": [
    "C81_skipped"
   ],
   "note": "Units that decode without error; kept vectors are 16 bit because mv_t holds int16. Sequences with field coding (offset of scale_mv_*_y) are not modelled. Spatial selection is the specification of C75."
  },
  {
   "property": "C82",
   "status": "proved",
   "theorems": [
    "C82_first",
    "C82_none",
    "C82_next",
    "C82_next_none",
    "C82_header",
    "C82_picture"
   ],
   "note": "The search, the header and the walk over LCUs (SlModel.v); what an LCU does is a parameter of the theorem, quantified over."
  },
  {
   "property": "C83",
   "status": "partial",
   "theorems": [
    "C83_in_order_partial",
    "C83_lost_slice_refuted"
   ],
   "note": "Proved for pictures whose slices are complete and in order; refuted for pictures with a lost slice: the position in the header has no effect (F66)."
  },
  {
   "property": "C84",
   "status": "partial",
   "theorems": [
    "C84_reach_partial",
    "C84_leftover_refuted"
   ],
   "note": "Refuted: up to 32 bytes per LCU row behind the unit can influence decoding (F67); proved that nothing beyond them does."
  },
  {
   "property": "C85",
   "status": "partial",
   "theorems": [
    "C85_interval_partial",
    "C85_disjoint",
    "C85_nine_ones_refuted"
   ],
   "note": "Proved for every slice and every sequence of requests except slices starting with nine ones and equiprobable bins after 254 doublings without a less probable bin; both exceptions are refuted with witnesses."
  },
  {
   "property": "C86",
   "status": "partial",
   "theorems": [
    "C86_round_trip_partial",
    "C86_every_bins_partial",
    "C86_saturated_refuted"
   ],
   "note": "Proved for every sequence of bins whose equiprobable bins do not come after 254 doublings without a less probable bin; that case is refuted."
  },
  {
   "property": "C87",
   "status": "partial",
   "theorems": [
    "C87_mvd",
    "C87_mvd_wide",
    "C87_delta_qp",
    "C87_luma_mode",
    "C87_chroma_mode",
    "C87_cu_type",
    "C87_cu_skip",
    "C87_directions_b",
    "C87_directions_f",
    "C87_reference",
    "C87_dmh",
    "C87_cbp_intra",
    "C87_cbp_inter",
    "C87_sao_merge",
    "C87_sao_plane",
    "C87_sequence",
    "C87_coded_partial"
   ],
   "note": "All readers of coding-unit and sample-adaptive-offset elements of SynModel against the binarisations of BinSpec, in every state of a slice; coefficients are C88. Partial only in C87_coded_partial: the slice exists unless an equiprobable bin comes after 254 doublings without a less probable one, where C86 fails."
  },
  {
   "property": "C88",
   "status": "proved",
   "theorems": [
    "C88_block",
    "C88_places",
    "C88_unit"
   ],
   "note": "Levels of a block: C88_block; their places: C88_places; all blocks of a unit: C88_unit. Existence of a slice for the bins is C87_coded_partial."
  },
  {
   "property": "C89",
   "status": "proved",
   "theorems": [
    "C89_edge_0",
    "C89_edge_90",
    "C89_edge_135",
    "C89_edge_45",
    "C89_band",
    "C89_offsets"
   ],
   "note": "All ten kernels, SSE and AVX2, 8-bit build. Loads beyond the block are not checked against the allocation."
  },
  {
   "property": "C90",
   "status": "partial",
   "theorems": [
    "C90_alf_partial",
    "C90_byte_saturation_refuted",
    "C90_word_saturation_refuted",
    "C90_overshoot_refuted",
    "C90_mask_index_refuted"
   ],
   "note": "Agreement on the block for coefficients of one byte whose sums stay in 16 bits, with up to 15 samples written on the right of the last LCU of a row; refuted for other conforming coefficients (bytes and words saturate), for the samples on the right and for the index of the mask."
  },
  {
   "property": "C91",
   "status": "proved",
   "theorems": [
    "C91_average",
    "C91_plane_copy"
   ],
   "note": "Equality of the whole memory."
  },
  {
   "property": "C92",
   "status": "proved",
   "theorems": [
    "C92_luma_vertical",
    "C92_luma_horizontal",
    "C92_chroma_vertical",
    "C92_chroma_horizontal",
    "C92_thresholds_fit",
    "C92_same_picture",
    "C92_picture"
   ],
   "note": "8-bit build; strides of at least eight; memory holds bytes. The two chroma planes are separate memories (C28). Edge kernels against the specification of C53, whole pictures against the C kernels and against C72. The AVX2 kernels of the same file pair are commented out of the function table and not modelled."
  },
  {
   "property": "C93",
   "status": "partial",
   "theorems": [
    "C93_luma",
    "C93_luma_samples",
    "C93_chroma_partial",
    "C93_chroma_samples_partial",
    "C93_chroma_refuted"
   ],
   "note": "Luma complete, against the C kernels and against the samples of the standard; heights must be multiples of four (chroma two), as all prediction units have. Chroma without one case: a line position of 7/8 with a 6 behind the table of coefficients (F74), for which the claim is refuted. The vertical chroma kernel in use is the C one."
  },
  {
   "property": "C94",
   "status": "partial",
   "theorems": [
    "C94_target",
    "C94_skip",
    "C94_reference_partial",
    "C94_reference_refuted",
    "C94_count_refuted",
    "C94_poc_refuted"
   ],
   "note": "Target, skipped picture and (with C22) releases: proved for all interleavings; a reference assertion holds exactly when the stream refers to a live reference. The assertion on references fails for a stream that refers to a non-reference picture, the count in has_blocking fails when a picture is both in the output list and not yet released, and picture numbers can be negative (all refuted with reachable states)."
  },
  {
   "property": "C95",
   "status": "partial",
   "theorems": [
    "C95_lives",
    "C95_close_partial",
    "C95_lost",
    "C95_close_refuted"
   ],
   "note": "Proved: every block follows its life cycle under all interleavings; close releases every block at rest, and exactly the blocks in a task, in the output queue or with the caller are lost (C95_lost); the unconditional claim is refuted (C95_close_refuted). Frames of the picture buffer are C21-C23; allocation failures are not modelled."
  },
  {
   "property": "C96",
   "status": "proved",
   "theorems": [
    "C96_found",
    "C96_ends"
   ],
   "note": "Bytes without start code emulation (what an encoder guarantees); the unit is given without slack behind it. Creation of a new picture buffer is assumed to succeed."
  },
  {
   "property": "C97",
   "status": "partial",
   "theorems": [
    "C97_luma",
    "C97_luma_samples",
    "C97_chroma_partial",
    "C97_chroma_samples_partial",
    "C97_chroma_refuted"
   ],
   "note": "Luma in full (C97_luma, C97_luma_samples). Chroma (C97_chroma_partial, C97_chroma_samples_partial) except for line position 7/8 between columns when a 6 follows the filter table in memory: that case is false, C97_chroma_refuted (F74)."
  },
  {
   "property": "C98",
   "status": "proved",
   "theorems": [
    "C98_block",
    "C98_residual",
    "C98_strides",
    "C98_avx2_stride_refuted"
   ],
   "note": "All intrinsic kernels of all sizes and patterns, SSE2 and AVX2, each modelled as the list of vector statements its loops unroll to. A verified symbolic evaluator computes each stored word as a linear form; the check against the matrix of the specification is by computation, the theorem is for all memories, coefficients, depths and register contents. Assembly functions of 8-bit builds (4x4; 8x8 without AVX2) are not modelled. At strides other than the block width the AVX2 kernels differ from the C functions (C98_avx2_stride_refuted); the decoder never uses one."
  },
  {
   "property": "C99",
   "status": "proved",
   "theorems": [
    "C99_secondary",
    "C99_4x4",
    "C99_doubling"
   ],
   "note": "Secondary transforms lane by lane; doubling kernels by the evaluator of C98."
  },
  {
   "property": "C100",
   "status": "proved",
   "theorems": [
    "C100_border_is_the_rule",
    "C100_luma",
    "C100_chroma",
    "C100_byte_behind_refuted"
   ],
   "note": "All four functions, with alignment faults as undefined outcomes. Prediction itself is that of the C predictors (the vector predictors are not modelled). Loads that read 8 bytes past the samples used are not tracked."
  },
  {
   "property": "C101",
   "status": "partial",
   "theorems": [
    "C101_sse",
    "C101_avx2",
    "C101_sse_equals_c",
    "C101_avx2_equals_c",
    "C101_luma_buffer",
    "C101_luma_buffer_refuted",
    "C101_chroma_buffer",
    "C101_chroma_buffer_refuted",
    "C101_rows_below_refuted",
    "C101_mode16_refuted",
    "C101_mode13_refuted",
    "C101_mode13_any_mask"
   ],
   "note": "All 21 predictors of the SSE table and those of the AVX2 table give the block of the rule and of the C functions. Refuted in part: modes 8 and 32 of AVX2 write below blocks of four rows, mode 16 there reads outside its array, mode 13 reads a mask behind its table, mode 3 reads past the border buffer."
  },
  {
   "property": "C102",
   "status": "proved",
   "theorems": [
    "C102_sse",
    "C102_avx2",
    "C102_equal_c",
    "C102_rest_unused"
   ],
   "note": "Both tables, all shapes. The SSE and the AVX2 functions are proved to give the rule of C68 and hence the C functions' block; the samples beyond the border and the junk of local arrays are proved not to matter."
  },
  {
   "property": "C103",
   "status": "partial",
   "theorems": [
    "C103_sse_luma",
    "C103_avx2_luma_partial",
    "C103_chroma_partial",
    "C103_chroma_v_refuted",
    "C103_sse_blocks",
    "C103_avx2_blocks_partial"
   ],
   "note": "SSE luma is complete. AVX2 excludes the shapes for which C101 shows the functions to leave their tables or to write below the block, and mode 3 on 64x64; chroma excludes mode 3 on 32x32, where the second component reads past buf_edge_pixels (C103_chroma_v_refuted)."
  },
  {
   "property": "C104",
   "status": "partial",
   "theorems": [
    "C104_md5",
    "C104_small_letters_refuted",
    "C104_long_refuted"
   ],
   "note": "Complete for files below 2^37 bytes; beyond, the int loop counter overflows (C104_long_refuted). Partial words at the end of the file are taken to be stored by fread."
  },
  {
   "property": "C105",
   "status": "proved",
   "theorems": [
    "C105_packets",
    "C105_cut_unique",
    "C105_stream",
    "C105_count",
    "C105_count_ends"
   ],
   "note": "Packets of every nonempty file are the unique cut before start codes; streams unit by unit; counting."
  },
  {
   "property": "C106",
   "status": "partial",
   "theorems": [
    "C106_raw",
    "C106_y4m_partial",
    "C106_rate_refuted",
    "C106_planes_refuted",
    "C106_resize_refuted"
   ],
   "note": "Raw file complete. y4m file for the rate codes 1 to 8; codes 9 to 13, 4:0:0 pictures and changes of size are refuted."
  },
  {
   "property": "C107",
   "status": "partial",
   "theorems": [
    "C107_features",
    "C107_disable_avx",
    "C107_text_fits",
    "C107_cache_refuted"
   ],
   "note": "Instruction sets, disable_avx and the length of the text complete; the cache line flag is refuted."
  },
  {
   "property": "C108",
   "status": "partial",
   "theorems": [
    "C108_threads",
    "C108_processors_partial",
    "C108_processors_refuted"
   ],
   "note": "Thread numbers complete; counting processors holds below number 128 and is refuted above."
  },
  {
   "property": "C109",
   "status": "partial",
   "theorems": [
    "C109_calls",
    "C109_first_open",
    "C109_runs_partial",
    "C109_without_avx",
    "C109_second_refuted",
    "C109_disable_avx_refuted"
   ],
   "note": "Functions are identified by name; which instruction sets a function needs is read off its intrinsics. C109_runs_partial leaves out the 4x4 secondary transform, for which the claim is false (C109_second_refuted, F97); disable_avx is honoured by the first decoder of the process only (C109_without_avx, C109_disable_avx_refuted, F98). Concurrent openings are not modelled."
  },
  {
   "property": "C110",
   "status": "proved",
   "theorems": [
    "C110_recon_4x4",
    "C110_add",
    "C110_recon",
    "C110_residual16",
    "C110_same_residual_refuted",
    "C110_any_residual_refuted"
   ],
   "note": "Assembly idct_4x4_sse2 and all 8-bit pixel_add_ps functions, instruction for instruction. The transform's words and the addition alone differ from C for large values (two refutations); the samples of a block do not. idct_8x8_ssse3 is C115."
  },
  {
   "property": "C111",
   "status": "partial",
   "theorems": [
    "C111_memcpy",
    "C111_memzero",
    "C111_aligned",
    "C111_aligned_refuted",
    "C111_rows",
    "C111_planes",
    "C111_memset_partial",
    "C111_memset_refuted",
    "C111_memzero_aligned",
    "C111_memzero_aligned_refuted"
   ],
   "note": "memcpy, memzero and the aligned functions for the sizes stated, composed with the strides of the frame allocator; memset for values of a signed byte. The rest is false: memset of 128..255 is refuted, as are the aligned functions on other sizes."
  },
  {
   "property": "C112",
   "status": "proved",
   "theorems": [
    "C112_sse4",
    "C112_levels",
    "C112_shift_refuted",
    "C112_count_refuted"
   ],
   "note": "the refuted theorems are about registers and sizes outside the statement"
  },
  {
   "property": "C113",
   "status": "proved",
   "theorems": [
    "C113_user",
    "C113_no_leak",
    "C113_kept",
    "C113_calloc_refuted",
    "C113_wrap_refuted"
   ],
   "note": "davs2_calloc, which nothing calls, is refuted"
  },
  {
   "property": "C114",
   "status": "proved",
   "theorems": [
    "C114_copies",
    "C114_same",
    "C114_sizes",
    "C114_called",
    "C114_overlap_refuted"
   ],
   "note": "A checker of straight-line copies is proved sound for all addresses, strides and memories and run on the 77 assembly functions. C114_overlap_refuted shows why the blocks must not overlap. A chroma block with a side of 2 or 6 is copied by block_copy, which is outside this property."
  },
  {
   "property": "C115",
   "status": "proved",
   "theorems": [
    "C115_residual16",
    "C115_limited",
    "C115_recon",
    "C115_same_residual_refuted",
    "C115_upper_half_refuted"
   ],
   "note": "Depths 8 and 10 (the code has both; the table uses it for 8). The residual words differ from C for large values and the upper half of the stride register matters (two refutations, F107)."
  }
 ]
}