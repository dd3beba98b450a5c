{"id": "C01", "title": "Emulation-prevention removal is exact", "statement": "For every elementary-stream unit handed to the decoder, the bytes that reach the header and slice parsers are the unit with exactly the emulation-prevention bit pairs removed: reading the payload bit by bit, the two bits '10' that follow 22 zero bits starting at a byte boundary disappear inside slice data, every other bit is kept in order, and each start code begins on a byte boundary again.", "quantifier": "all byte strings of any length (any number of start codes and pseudo start codes, at any alignment)", "why_tests_cant": "The removal shifts all following bits by 2/4/6 positions, so behaviour depends on the whole history of the stream; finite test vectors only cover a few alignments.", "anchors": ["source/common/bitstream.cc:bs_dispose_pseudo_code"]}
{"id": "C02", "title": "Emulation-prevention removal is safe in place", "statement": "Cleaning a unit in its own buffer never changes what is read later: the write position never passes the read position, the cleaned unit is never longer than the original, and the result equals that of cleaning into a separate buffer.", "quantifier": "all byte strings and all prefixes (every intermediate loop state)", "why_tests_cant": "An overtaking write only corrupts data for particular combinations of start-code insertions and removals; a test can show one input is fine, not that none overtakes.", "anchors": ["source/common/bitstream.cc:bs_dispose_pseudo_code", "source/common/davs2.cc:davs2_decoder_send_packet"]}
{"id": "C03", "title": "Emulation prevention round trip", "statement": "A payload protected by the AVS2 emulation-prevention rule (insert '10' after 22 zero bits that start at a byte boundary) and then cleaned by the decoder yields the original payload.", "quantifier": "all payload bit strings of any length", "why_tests_cant": "Requires every possible placement of zero runs relative to earlier insertions.", "anchors": ["source/common/bitstream.cc:bs_dispose_pseudo_code"]}
{"id": "C04", "title": "Start-code search finds the first start code", "statement": "Searching a buffer for a start code returns the position of the first 00 00 01 prefix that is followed by a type byte, and reports none exactly when there is no such position.", "quantifier": "all byte strings of any length", "why_tests_cant": "First-occurrence and no-false-negative claims range over all buffers.", "anchors": ["source/common/bitstream.cc:find_start_code"]}
{"id": "C05", "title": "Unit boundary detection across packet borders", "statement": "When a packet is appended to a partially assembled unit, a new access unit is recognised exactly at a 00 00 01 prefix whose type byte is a unit-opening code (I/PB picture header, sequence header, sequence end, video edit), even if the prefix is split between the tail of the previous packet and the head of the new one; the reported offset is the position of the prefix (negative when it began in the previous packet).", "quantifier": "all packet contents and all three-byte tails of the previously assembled data", "why_tests_cant": "Every split of the four bytes over the packet border and every interleaving with other start codes must work.", "anchors": ["source/common/bitstream.cc:find_pic_start_code", "source/common/davs2.cc:davs2_pack_es_unit"]}
{"id": "C06", "title": "Fixed-length fields are read MSB first", "statement": "Reading an n-bit field returns the big-endian value of the next n bits and advances the position by n; if the read fails the position is unchanged and -1 is returned.", "quantifier": "all buffers, bit positions and field widths below 32", "why_tests_cant": "All alignments and widths; the failure path depends on the distance to the end of the buffer.", "anchors": ["source/common/vlc.h:read_bits", "source/common/vlc.h:vlc_u_v"]}
{"id": "C07", "title": "Exp-Golomb round trip", "statement": "Writing any unsigned (resp. signed) value as ue(v) (resp. se(v)) at any bit position and parsing it back returns that value and advances the position by exactly the code length.", "quantifier": "all values representable by the 32-bit parser, all preceding and following bits", "why_tests_cant": "Unbounded value range and all alignments.", "anchors": ["source/common/vlc.h:get_vlc_symbol", "source/common/vlc.h:vlc_ue_v", "source/common/vlc.h:vlc_se_v"]}
{"id": "C08", "title": "Header parsing never reads past the unit", "statement": "No syntax-element read performed on a unit touches a byte outside that unit's data.", "quantifier": "all buffers and all bit positions inside them", "why_tests_cant": "Out-of-bounds reads of a few bytes do not change test outcomes and depend on exact distance to the end.", "anchors": ["source/common/vlc.h:read_bits", "source/common/vlc.h:get_vlc_symbol"]}
{"id": "C09", "title": "Accepted sequence headers describe a decodable geometry", "statement": "Whenever a sequence header is accepted, the picture is at least 16x16, the coded size is the display size rounded up to whole 8x8 units, the chroma format is 4:2:0 or 4:0:0, the bit depth is 8, 10 or 12 and supported by the build, the LCU is 16, 32 or 64, and the number of reference configurations fits the decoder's table; otherwise the header is rejected with an error.", "quantifier": "all bit strings presented as a sequence header", "why_tests_cant": "Acceptance is a predicate over arbitrary attacker-chosen bits.", "anchors": ["source/common/header.cc:parse_sequence_header"]}
{"id": "C10", "title": "Picture order survives wrap-around of the 8-bit coding-order index", "statement": "For pictures whose coding-order index is transmitted modulo 256, the internal order assigned to successive pictures is strictly increasing as long as consecutive pictures are less than 256 apart, no matter how many times the 8-bit counter wraps, and its low 8 bits always equal the transmitted value.", "quantifier": "all histories (sequences of pictures) of any length", "why_tests_cant": "Needs streams longer than several wraps with arbitrary gaps; invariant over unbounded histories.", "anchors": ["source/common/header.cc:parse_picture_header"]}
{"id": "C11", "title": "Reference-picture-set entries fit their tables", "statement": "Every reference-picture-set accepted by the parser has no more reference and removal entries than the decoder's per-picture tables can hold.", "quantifier": "all bit strings presented as sequence/picture headers", "why_tests_cant": "The 3-bit count admits values a conforming encoder never sends.", "anchors": ["source/common/header.cc:parse_sequence_header", "source/common/header.cc:parse_picture_header_inter"]}
{"id": "C12", "title": "Deblocking thresholds are always in table range", "statement": "For every picture QP, offset and bit depth the deblocking strength is looked up inside the 64-entry tables, never decreases when QP grows, and is zero for the lowest QPs (no filtering).", "quantifier": "all QPs, offsets and supported bit depths", "why_tests_cant": "Full product of QP, offsets and depths.", "anchors": ["source/common/header.cc:deblock_init_frame_parames", "source/common/deblock.cc:lf_scu_deblock"]}
{"id": "C13", "title": "Pictures are delivered in display order", "statement": "In every run of decode / receive / flush calls, a picture is delivered only when every picture with a smaller display index that was already waiting has been delivered before, and the sequence of delivered display indices is strictly increasing as long as no picture arrives after its slot was passed.", "quantifier": "all interleavings of picture completions (any order, any gaps) with receive and flush calls, any length", "why_tests_cant": "Reordering depends on the completion order chosen by the scheduler and on stream gaps.", "anchors": ["source/common/davs2.cc:output_list_get_one_output_picture", "source/common/decoder.cc:task_send_picture_to_output_list"]}
{"id": "C14", "title": "Every decoded picture is delivered exactly once", "statement": "A picture that has been completed is delivered to the caller exactly once: it is never lost, never duplicated, and what is still waiting is exactly what was completed minus what was delivered.", "quantifier": "all interleavings of completions, receive and flush calls, any length", "why_tests_cant": "Conservation over unbounded histories.", "anchors": ["source/common/davs2.cc:decoder_get_output", "source/common/decoder.cc:task_send_picture_to_output_list"]}
{"id": "C15", "title": "The reorder queue is sorted by display index", "statement": "Whatever order worker threads finish pictures in, the waiting list is always sorted by display index and contains exactly the pictures inserted so far.", "quantifier": "all sequences of insertions of any length with arbitrary, possibly repeated, indices", "why_tests_cant": "All permutations of completion orders.", "anchors": ["source/common/decoder.cc:task_send_picture_to_output_list"]}
{"id": "C16", "title": "Flush drains everything before reporting the end", "statement": "While completed pictures are waiting, flushing returns them one by one; the end-of-stream result is returned only when nothing is waiting any more, and repeated flushing reaches it after finitely many calls.", "quantifier": "all decoder states reachable by any history", "why_tests_cant": "Termination and completeness over all states.", "anchors": ["source/common/davs2.cc:davs2_decoder_flush", "source/common/davs2.cc:decoder_get_output", "source/common/davs2.cc:output_list_get_one_output_picture"]}
{"id": "C17", "title": "A new sequence header is announced before its pictures", "statement": "After a new sequence header has been parsed, the next successful receive call reports the header before any further picture, and it is reported once per new header.", "quantifier": "all interleavings of header parsing, picture completion and receive calls", "why_tests_cant": "Interleavings over unbounded histories.", "anchors": ["source/common/davs2.cc:decoder_get_output", "source/common/header.cc:task_set_sequence_head"]}
{"id": "C18", "title": "Malformed packets are rejected without side effects", "statement": "Sending a packet that is null, empty, shorter than four bytes, or does not begin with a start-code prefix returns an error and leaves the decoder state unchanged; every other packet is accepted.", "quantifier": "all packets and all decoder states", "why_tests_cant": "Ranges over arbitrary states and contents.", "anchors": ["source/common/davs2.cc:davs2_decoder_send_packet"]}
{"id": "C19", "title": "Packet boundaries do not matter for unit contents", "statement": "The units passed to the parsers, concatenated, are the concatenation of all packet payloads in order (no byte lost, duplicated or reordered), every unit after the first starts at a unit-opening start code, and re-cutting the same byte stream into different packets does not change the concatenation.", "quantifier": "all packet sequences of any length and any sizes", "why_tests_cant": "All segmentations of all streams.", "anchors": ["source/common/davs2.cc:davs2_pack_es_unit"]}
{"id": "C20", "title": "Unit assembly stays inside its buffer", "statement": "Appending a packet never writes beyond the capacity of the unit buffer the bytes are copied into.", "quantifier": "all packet sizes and all states of the partially assembled unit", "why_tests_cant": "Only packets larger than the default capacity at particular states expose a violation.", "anchors": ["source/common/davs2.cc:davs2_pack_es_unit", "source/common/davs2.cc:es_unit_alloc"]}
{"id": "C21", "title": "A picture in use is never overwritten", "statement": "A frame buffer that is being decoded, waits for output, is held by the caller, or may still be referenced is never chosen as the target of a new picture.", "quantifier": "all histories of decode, output, release and reference-removal operations", "why_tests_cant": "Safety over unbounded histories and all reference structures.", "anchors": ["source/common/header.cc:task_get_references", "source/common/header.cc:task_release_frames", "source/common/davs2.cc:davs2_decoder_frame_unref"]}
{"id": "C22", "title": "Frame reference counts balance", "statement": "For every picture, the number of references taken equals the number released once it has been decoded, output, given back and its dependents are finished; no count ever becomes negative, and a frame becomes reusable exactly when its count is zero and it is not marked as a future reference.", "quantifier": "all histories of decode/output/release operations", "why_tests_cant": "Conservation law over unbounded histories.", "anchors": ["source/common/header.cc:task_get_references", "source/common/header.cc:task_release_frames", "source/common/header.cc:release_one_frame"]}
{"id": "C23", "title": "Inter pictures only use existing references with the required order", "statement": "A P/F picture is decoded only if each of its references is present in the buffer at the signalled coding distance, and a B picture only with exactly two references, one strictly later and one strictly earlier in display order; otherwise the picture is dropped with an error.", "quantifier": "all buffer contents, reference sets and picture types", "why_tests_cant": "All buffer states and reference sets.", "anchors": ["source/common/header.cc:task_get_references"]}
{"id": "C24", "title": "Every submitted job runs exactly once, in submission order per worker pick-up", "statement": "Each job given to the thread pool is started exactly once, jobs are started in submission order, and job descriptors are neither lost nor used by two jobs at the same time.", "quantifier": "all schedules of any number of producers and workers", "why_tests_cant": "All thread interleavings.", "anchors": ["source/common/threadpool.cc:davs2_threadpool_run", "source/common/threadpool.cc:davs2_threadpool_thread", "source/common/threadpool.cc:davs2_threadpool_wait"]}
{"id": "C25", "title": "Thread-pool queues never overflow or underflow", "statement": "In every schedule the three job queues stay within their fixed capacity and a push or a pop never indexes outside the array.", "quantifier": "all schedules of any length", "why_tests_cant": "All thread interleavings.", "anchors": ["source/common/threadpool.cc:davs2_sync_job_list_push", "source/common/threadpool.cc:davs2_sync_job_list_pop", "source/common/threadpool.cc:davs2_job_shift"]}
{"id": "C26", "title": "Shared packet and picture lists behave as FIFO queues", "statement": "The linked lists through which units and pictures circulate behave as FIFO queues: nodes come out in the order they were appended, each exactly once, the count always equals the number of linked nodes, and removal from an empty list returns nothing.", "quantifier": "all sequences of append and remove operations of any length on any number of lists sharing nodes one at a time", "why_tests_cant": "Pointer-level invariants over unbounded operation sequences.", "anchors": ["source/common/common.cc:xl_append", "source/common/common.cc:xl_remove_head", "source/common/common.cc:xl_remove_head_ex"]}
{"id": "C27", "title": "Row-parallel reconstruction respects dependencies and does not deadlock", "statement": "Under every schedule of row workers, a block is reconstructed only after the blocks it depends on (left neighbour and the block above-right in the previous row, or the end of that row) are finished, and as long as blocks remain some worker can make progress.", "quantifier": "all picture sizes, all schedules", "why_tests_cant": "All interleavings; deadlock is schedule dependent.", "anchors": ["source/common/decoder.cc:decode_one_lcu_row", "source/common/decoder.cc:wait_lcu_row_reconed", "source/common/decoder.cc:decode_lcu_row"]}
{"id": "C28", "title": "Frame memory layout is disjoint and inside the allocation", "statement": "For every accepted picture size the luma and chroma planes (including padding) and the motion-data arrays carved out of a frame allocation are pairwise disjoint, aligned, and inside the allocated size.", "quantifier": "all picture sizes, chroma formats, allocation base addresses", "why_tests_cant": "All sizes and base alignments.", "anchors": ["source/common/frame.cc:davs2_frame_new", "source/common/frame.cc:davs2_frame_get_size"]}
{"id": "C29", "title": "Reference padding replicates the picture edge", "statement": "After a picture has been padded row by row, every sample at distance up to the padding size outside the picture equals the nearest picture sample, and samples inside the picture are unchanged.", "quantifier": "all picture sizes and contents, all LCU sizes", "why_tests_cant": "All geometries; row-wise processing order matters.", "anchors": ["source/common/frame.cc:pad_line_lcu", "source/common/frame.cc:pad_line_pixel"]}
{"id": "C30", "title": "Output pictures carry the decoded samples", "statement": "A delivered picture of the stream's own depth contains exactly the decoded samples of the display area of each plane, and when the depth is reduced each sample is the rounded scaled value, never exceeding the output range; type, index and time stamps are those of the decoded picture.", "quantifier": "all picture sizes, sample values, strides and supported depths", "why_tests_cant": "All geometries and sample values.", "anchors": ["source/common/decoder.cc:davs2_write_a_frame"]}
{"id": "C31", "title": "Entropy-coder contexts stay in their legal range", "statement": "After any sequence of adaptation steps starting from the reset state, every context's probability index stays strictly between 0 and 1024 with a non-zero coarse value, the adaptation-speed index within 0..3, and the table-driven update used by the decoder equals the arithmetic update rule of the standard.", "quantifier": "all sequences of MPS/LPS updates of any length", "why_tests_cant": "Unbounded histories; a zero coarse value would hang the decoder.", "anchors": ["source/common/aec.cc:update_ctx_mps", "source/common/aec.cc:update_ctx_lps", "source/common/aec.cc:init_aec_context_tab", "source/common/aec.cc:aec_init_contexts"]}
{"id": "C32", "title": "The entropy decoder consumes the slice bits in order", "statement": "The bits handed to the arithmetic decoder are exactly the slice bytes from the start position, most significant bit first, each once, for every length of the slice data; when they are exhausted the error flag is raised and no byte outside the slice is read.", "quantifier": "all slice data of any length and any number of requests", "why_tests_cant": "The 8-byte refill with a partial last word depends on length modulo 8 and request pattern.", "anchors": ["source/common/aec.cc:aec_get_next_bit", "source/common/aec.cc:aec_get_next_n_bit", "source/common/aec.cc:aec_start_decoding"]}
{"id": "C33", "title": "Batched symbol decoding equals repeated single-symbol decoding", "statement": "The specialised loops that decode runs of symbols give the same symbols, the same adapted contexts and the same decoder state as decoding the symbols one at a time.", "quantifier": "all decoder states, contexts, maximum counts and remaining data", "why_tests_cant": "All states.", "anchors": ["source/common/aec.cc:biari_decode_symbol", "source/common/aec.cc:biari_decode_symbol_continue0", "source/common/aec.cc:biari_decode_symbol_continu0_ext"]}
{"id": "C34", "title": "Arithmetic decoding keeps its registers in range and terminates", "statement": "From the state after initialisation, every sequence of symbol decodes keeps the range and value registers inside their declared widths, keeps the offset below the range, and each decode terminates having consumed a bounded number of bits.", "quantifier": "all slice data and all sequences of decode requests of any length", "why_tests_cant": "Invariant over unbounded runs; a violation hangs or desynchronises the decoder.", "anchors": ["source/common/aec.cc:biari_decode_symbol", "source/common/aec.cc:biari_decode_symbol_eq_prob", "source/common/aec.cc:biari_decode_final"]}
{"id": "C35", "title": "Coefficient positions never leave the block", "statement": "Whatever the slice data contains, the coefficients of a coefficient group are written at distinct positions inside that 4x4 group, at most 16 of them, and the group lies inside the transform block.", "quantifier": "all slice data, all block shapes", "why_tests_cant": "Arbitrary corrupt data.", "anchors": ["source/common/aec.cc:aec_read_run_level", "source/common/aec.cc:aec_read_last_coeff_pos_in_cg", "source/common/aec.cc:aec_read_run_luma1"]}
{"id": "C36", "title": "Block QP always addresses the quantiser tables", "statement": "The QP used to dequantise any block is inside the quantiser tables for every sequence of transmitted QP differences.", "quantifier": "all sequences of QP differences", "why_tests_cant": "Accumulation over arbitrarily many blocks.", "anchors": ["source/common/aec.cc:cu_read_cbp", "source/common/quant.h:cu_get_quant_params"]}
{"id": "C37", "title": "Escape codes decode to a defined value", "statement": "Every escape-coded coefficient level or motion-vector difference read from slice data is computed without undefined arithmetic.", "quantifier": "all slice data", "why_tests_cant": "Needs pathological zero runs.", "anchors": ["source/common/aec.cc:aec_read_mvd", "source/common/aec.cc:aec_read_run_level"]}
{"id": "C38", "title": "Sample-adaptive-offset parameters are in range for any data", "statement": "Whatever the slice data contains, decoded SAO offsets lie within the limits of their class, edge types are 0..3, band indices are 0..31 and the two bands of a band offset never collide.", "quantifier": "all slice data", "why_tests_cant": "Arbitrary corrupt data.", "anchors": ["source/common/aec.cc:read_sao_offset", "source/common/aec.cc:read_sao_type", "source/common/sao.cc:sao_read_lcu"]}
{"id": "C39", "title": "Inverse transforms equal the matrix definition", "statement": "For every coefficient block the fast inverse transforms of size 4, 8, 16 and 32 (square and non-square combinations) produce the rounded, clipped product with the transform matrix, with no intermediate overflow and all results in the declared residual range.", "quantifier": "all 16-bit coefficient blocks, all sizes and bit depths", "why_tests_cant": "2^16 values per coefficient, up to 1024 coefficients.", "anchors": ["source/common/transform.cc:partialButterflyInverse4_c", "source/common/transform.cc:partialButterflyInverse8_c", "source/common/transform.cc:partialButterflyInverse16_c", "source/common/transform.cc:partialButterflyInverse32_c"]}
{"id": "C40", "title": "64-point blocks are the interpolated 32-point transform", "statement": "For 64x64, 64x16 and 16x64 blocks the residual at even positions is the (halved) smaller transform and at odd positions the average of its even neighbours, the last even position repeating at the border, although the computation is done in place with two different strides.", "quantifier": "all coefficient blocks", "why_tests_cant": "In-place overlap correctness for all data.", "anchors": ["source/common/transform.cc:idct_64x64_c", "source/common/transform.cc:idct_64x16_c", "source/common/transform.cc:idct_16x64_c"]}
{"id": "C41", "title": "Dequantisation is overflow-free, saturating and zero-preserving", "statement": "For every 16-bit level and every QP in the tables, dequantisation computes without overflow, keeps zero at zero, never changes the sign, is monotone in the level and saturates to 16 bits.", "quantifier": "all levels, QPs, bit depths and block sizes", "why_tests_cant": "Full product of levels, QPs and sizes.", "anchors": ["source/common/quant.cc:dequant_c", "source/common/quant.h:cu_get_quant_params", "source/common/aec.cc:aec_read_run_level"]}
{"id": "C42", "title": "Reconstructed samples stay in sample range", "statement": "Adding a residual to a prediction yields the saturated sum, so every reconstructed sample is between 0 and the maximum sample value, for every residual.", "quantifier": "all predictions, residuals and block sizes", "why_tests_cant": "All sample/residual combinations, all sizes and strides.", "anchors": ["source/common/pixel.cc:PIXEL_ADD_PS_C", "source/common/common.h:DAVS2_CLIP1"]}
{"id": "C43", "title": "Interpolation is range-safe and reproduces constant areas", "statement": "For every sub-sample position and every reference content, interpolated samples are in sample range, intermediate values fit their storage, a constant area is reproduced exactly, and the full-sample position is a copy.", "quantifier": "all reference contents, all fractional positions, all block sizes", "why_tests_cant": "All contents.", "anchors": ["source/common/mc.cc:intpl_luma_block_ext_c", "source/common/mc.cc:intpl_chroma_block_ext_c", "source/common/mc.cc:mc_luma", "source/common/mc.cc:mc_chroma"]}
{"id": "C44", "title": "Motion compensation stays inside the padded reference", "statement": "For every motion vector and block position inside the picture, all reference samples read for luma and chroma prediction lie inside the padded reference planes.", "quantifier": "all picture sizes accepted, block positions/sizes and motion vectors", "why_tests_cant": "All vectors and positions.", "anchors": ["source/common/cu.cc:cu_get_mc_pos", "source/common/cu.cc:cu_get_mc_pos_mv", "source/common/mc.cc:mc_luma", "source/common/mc.cc:mc_chroma"]}
{"id": "C45", "title": "Motion-vector scaling is symmetric, exact for equal distances where representable, and saturating", "statement": "Scaling a motion vector by the ratio of temporal distances treats positive and negative vectors symmetrically, returns zero for zero, is monotone, and is computed without overflow for every legal distance pair.", "quantifier": "all motion vectors and temporal distances", "why_tests_cant": "Full product of vectors and distances.", "anchors": ["source/common/predict.h:scale_mv_default", "source/common/predict.h:scale_mv_skip", "source/common/predict.h:scale_mv_biskip", "source/common/header.cc:task_get_references"]}
{"id": "C46", "title": "The motion-vector predictor lies between its candidates", "statement": "The median-type predictor computed from three neighbouring vectors always lies between the smallest and the largest of them and equals the common value when they agree.", "quantifier": "all triples of vectors", "why_tests_cant": "2^48 triples.", "anchors": ["source/common/predict.cc:derive_median_mv"]}
{"id": "C47", "title": "Prediction and transform units tile the coding unit", "statement": "For every coding-unit size and partition type the prediction units, and for every split type the transform units, partition the coding unit: every sample is in exactly one unit.", "quantifier": "all levels, partition types, split types and sample positions", "why_tests_cant": "The packed 4-byte shift arithmetic must be right for every combination and position.", "anchors": ["source/common/cu.cc:cu_init_prediction_units", "source/common/cu.cc:cu_init_transform_units"]}
{"id": "C48", "title": "Intra prediction yields legal samples", "statement": "For every intra mode, block shape and neighbour content, each predicted sample lies in sample range; angular predictions additionally lie between the smallest and largest reference sample used and stay inside the reference border buffer.", "quantifier": "all modes, block sizes and neighbour contents", "why_tests_cant": "All contents and shapes.", "anchors": ["source/common/intra.cc:intra_pred_ang_x_c", "source/common/intra.cc:intra_pred_ang_y_c", "source/common/intra.cc:intra_pred_ang_xy_c", "source/common/intra.cc:intra_pred_dc_c", "source/common/intra.cc:intra_pred_plane_c", "source/common/intra.cc:intra_pred_bilinear_c"]}
{"id": "C49", "title": "Specialised angular predictors equal the generic rule", "statement": "The hand-optimised predictors for individual directions give the same block as the generic direction rule for every block size and every neighbour content.", "quantifier": "all neighbour contents and block sizes", "why_tests_cant": "All contents; index slips only show for particular sizes.", "anchors": ["source/common/intra.cc:intra_pred_ang_x_3_c", "source/common/intra.cc:intra_pred_ang_x_c", "source/common/intra.cc:intra_pred_ang_y_c"]}
{"id": "C50", "title": "Intra mode coding is unambiguous", "statement": "For every pair of neighbouring modes, the transmitted luma-mode symbols map one-to-one onto the 33 prediction modes; the same holds for the chroma mode symbols.", "quantifier": "all neighbour mode pairs and all symbols", "why_tests_cant": "All combinations of context and symbol.", "anchors": ["source/common/cu.cc:cu_read_intrapred_mode_luma", "source/common/aec.cc:aec_read_intra_pmode_c"]}
{"id": "C51", "title": "Neighbour availability tables match decoding order", "statement": "A top-right or bottom-left neighbour is declared available exactly when it precedes the current block in the recursive decoding order.", "quantifier": "all block positions and LCU sizes", "why_tests_cant": "Table correctness against an independent order definition.", "anchors": ["source/common/intra.cc:tab_TR_Avail64", "source/common/intra.cc:tab_DL_Avail64", "source/common/intra.cc:get_intra_neighbors"]}
{"id": "C52", "title": "The coding quadtree covers the picture exactly once", "statement": "For every picture size and every sequence of split decisions, the coding units parsed cover every 8x8 unit inside the picture exactly once and none outside, and the reconstruction pass visits the same units in the same order.", "quantifier": "all picture sizes, LCU sizes and split decisions", "why_tests_cant": "Exponentially many quadtrees.", "anchors": ["source/common/cu.cc:decode_lcu_parse", "source/common/cu.cc:decode_lcu_recon"]}
{"id": "C53", "title": "Deblocking is range-safe and local", "statement": "Deblocking an edge changes at most three samples on each side (two for chroma), leaves them untouched when the edge step is at most one or at least the threshold or the edge is disabled, and every new sample lies between the smallest and largest of the six samples around the edge.", "quantifier": "all sample values, thresholds and edge flags", "why_tests_cant": "All sample combinations.", "anchors": ["source/common/deblock.cc:lf_edge_core"]}
{"id": "C54", "title": "SAO edge offset equals its pointwise definition", "statement": "For all four edge classes, each filtered sample equals the saturated sum of the original sample and the offset selected by comparing it with its two neighbours in the class direction, for exactly the samples whose neighbours are available; other samples are unchanged.", "quantifier": "all block sizes, contents and availability patterns", "why_tests_cant": "The row-buffered implementation must agree for every geometry and availability pattern.", "anchors": ["source/common/sao.cc:sao_block_eo_0_c", "source/common/sao.cc:sao_block_eo_90_c", "source/common/sao.cc:sao_block_eo_135_c", "source/common/sao.cc:sao_block_eo_45_c"]}
{"id": "C55", "title": "SAO regions tile the picture", "statement": "The shifted filter regions of all LCUs partition every plane: each sample is filtered by exactly one LCU's parameters, for every slice layout and loop-filter-across-slice setting.", "quantifier": "all picture sizes, LCU sizes, slice layouts", "why_tests_cant": "All geometries and layouts.", "anchors": ["source/common/sao.cc:sao_get_neighbor_avail"]}
{"id": "C56", "title": "SAO band offset only touches the selected bands", "statement": "With band offset, each sample is changed by the offset of its own band only, stays in range, and samples outside the four signalled bands are unchanged.", "quantifier": "all sample values, bands and offsets", "why_tests_cant": "All combinations.", "anchors": ["source/common/sao.cc:sao_block_bo_c", "source/common/sao.cc:sao_read_lcu"]}
{"id": "C57", "title": "Adaptive loop filter is normalised and range-safe", "statement": "Filter coefficients reconstructed from the stream always sum to 64 plus the transmitted centre difference, so with a zero centre difference flat areas are unchanged; every filtered sample is in range, and the filter selected for a region is one of the transmitted filters.", "quantifier": "all transmitted coefficients, contents, regions", "why_tests_cant": "All coefficients and contents.", "anchors": ["source/common/alf.cc:alf_recon_coefficients", "source/common/alf.cc:alf_filter_block1", "source/common/alf.cc:alf_init_var_table"]}
{"id": "C58", "title": "Adaptive-loop-filter parameters fit their tables", "statement": "Parsing adaptive-loop-filter parameters never stores outside the 16-filter tables.", "quantifier": "all bit strings presented as picture headers", "why_tests_cant": "Arbitrary corrupt data.", "anchors": ["source/common/alf.cc:vlc_read_alf_coeff"]}
{"id": "C59", "title": "Sample helper functions match their definitions", "statement": "Saturation returns the nearest value in range, the median-of-three returns the middle value, the sign helpers return the sign, rounding-up alignment returns the next multiple, for every argument.", "quantifier": "all arguments of the declared widths", "why_tests_cant": "The branch-free bit tricks must hold for all values.", "anchors": ["source/common/common.h:davs2_clip_pixel", "source/common/common.h:davs2_clip3", "source/common/common.h:davs2_median", "source/common/common.h:davs2_sign2", "source/common/common.h:davs2_sign3"]}
{"id": "C60", "title": "Motion vectors are reconstructed at the right precision", "statement": "A motion vector is predictor plus transmitted difference, saturated to 16 bits; with progressive precision it has quarter-sample precision only inside the window of half a sample around the rounded predictor, and every vector outside the window lies on the half-sample grid.", "quantifier": "all predictors and differences", "why_tests_cant": "2^64 combinations of predictor and difference.", "anchors": ["source/common/predict.h:pmvr_mv_derivation", "source/common/cu.cc:cu_read_mv"]}
{"id": "C61", "title": "The transform never skips a decoded coefficient", "statement": "The reduced-transform hint stored with a block (full, half, quarter) is always a valid choice, and every coefficient decoded for the block lies in the part of the block that the chosen transform reads.", "quantifier": "all slice data, all block shapes", "why_tests_cant": "A wrong hint only shows for particular coefficient positions; corrupt data are unbounded.", "anchors": ["source/common/aec.cc:aec_read_run_level", "source/common/cu.cc:cu_read_all_coeffs", "source/common/transform.cc:inv_transform"]}
{"id": "C62", "title": "Every coding-unit syntax element is in range for any data", "statement": "Whatever the slice data contains, each coding-unit element (prediction type, skip mode, direction, reference index, intra modes, coded block pattern, transform split, quantiser change) is inside the range its consumers index tables with, no context array is read outside its bounds, and every intra luma mode has exactly one code.", "quantifier": "all slice data, all neighbour states", "why_tests_cant": "Arbitrary corrupt data; one out-of-range value per element suffices to break memory safety.", "anchors": ["source/common/aec.cc:aec_read_cu_type", "source/common/aec.cc:aec_read_inter_pred_dir", "source/common/aec.cc:aec_read_intra_pmode", "source/common/aec.cc:cu_read_cbp", "source/common/cu.cc:cu_read_intrapred_mode_luma"]}
{"id": "C63", "title": "Row-wise sample adaptive offset equals whole-picture offset", "statement": "Filtering LCU rows as soon as they are deblocked (or one row later, in the two-thread order), interleaved with the reconstruction of the rows below, leaves every sample of a plane with the value that offset applied to the completely deblocked plane would give; the result does not depend on which of the two orders was used.", "quantifier": "all picture sizes, LCU sizes, sample contents, parameters, reconstruction results and initial contents of the temporary frame", "why_tests_cant": "Only a few samples near row boundaries could differ, for particular contents; the two orders are chosen by thread timing.", "anchors": ["source/common/sao.cc:sao_lcurow", "source/common/decoder.cc:decode_one_lcu_row", "source/common/decoder.cc:decode_lcu_row_recon", "source/common/frame.cc:davs2_frame_copy_lcurow"]}
{"id": "C64", "title": "Row-wise in-loop filtering equals whole-picture filtering", "statement": "Deblocking, sample adaptive offset and adaptive loop filter, run row by row behind the reconstruction in either of the two thread orders, leave every sample of a plane with the value that the three filters, applied one after the other to the whole plane, would give.", "quantifier": "all picture sizes, LCU sizes, sample contents, offset and filter parameters, reconstruction results and initial contents of the temporary frames", "why_tests_cant": "Differences would be confined to a few lines at row boundaries for particular contents; the order is chosen by thread timing.", "anchors": ["source/common/alf.cc:alf_lcurow", "source/common/alf.cc:alf_filter_block1", "source/common/alf.cc:alf_filter_block2", "source/common/sao.cc:sao_lcurow", "source/common/decoder.cc:decode_lcu_row_recon"]}
{"id": "C65", "title": "Inter prediction waits for final reference lines", "statement": "The LCU row a worker waits for before predicting a block is far enough down: every reference line the interpolation of the block reads (luma and chroma) is final when that row has been signalled, because later rows of the reference only change lines below.", "quantifier": "all vectors, block heights, picture heights and LCU sizes", "why_tests_cant": "A missing line is only visible under particular thread timing and vectors.", "anchors": ["source/common/cu.cc:decoder_wait_row", "source/common/cu.cc:davs2_get_inter_pred", "source/common/decoder.cc:decoder_signal"]}
{"id": "C66", "title": "The residual of a coding unit is added where it belongs", "statement": "Reconstructing a coding unit adds to every sample of a coded transform unit the inverse transform of that unit's own coefficients, clipped to the sample range; uncoded units, samples outside the coding unit and the coefficients of other coding units stay as they are.", "quantifier": "all sizes, splits, coded block patterns, coefficients, positions and depths", "why_tests_cant": "Wrong places in the coefficient buffer or in the plane show only for particular splits and contents.", "anchors": ["source/common/transform.cc:davs2_get_recons", "source/common/transform.cc:get_quanted_coeffs", "source/common/cu.cc:cu_recon"]}
{"id": "C67", "title": "Inter coding units are reconstructed as specified, end to end", "statement": "After reconstructing an inter coding unit every sample equals the clipped sum of the interpolated (and, for two references, averaged) reference samples its own prediction unit points to and the residual of its own transform unit; samples outside the unit do not change. This holds for forward, backward, bidirectional, symmetric, dual and multi-hypothesis prediction.", "quantifier": "all pictures, partitions, directions, vectors, references, residuals and depths", "why_tests_cant": "The space of partitions, vectors and contents is unbounded; errors show only at particular combinations.", "anchors": ["source/common/cu.cc:davs2_get_inter_pred", "source/common/cu.cc:cu_recon", "source/common/mc.cc:mc_luma", "source/common/mc.cc:mc_chroma"]}
{"id": "C68", "title": "Every intra mode computes its formula", "statement": "Whatever routine is selected for a mode, the predicted block is the one given by the formula of that mode from the border samples: mean, plane, bilinear surface, copy of the row above or of the column to the left, or the direction followed to the smoothed border; no sample outside the block changes.", "quantifier": "all 33 modes, nine block shapes, border contents and bit depths", "why_tests_cant": "Border contents are unbounded; rounding and index slips show for particular contents and shapes only.", "anchors": ["source/common/intra.h:intra_pred", "source/common/intra.cc:intra_pred_dc_c", "source/common/intra.cc:intra_pred_plane_c", "source/common/intra.cc:intra_pred_bilinear_c", "source/common/intra.cc:intra_pred_ang_xy_c"]}
{"id": "C69", "title": "Intra blocks are predicted from the right neighbours", "statement": "The border an intra block is predicted from consists of the reconstructed, unfiltered samples around the block that are in the picture, in the slice and already decoded; what is missing is replaced by the rule (middle grey, nearest sample, repetition of the last sample), and the prediction written is the formula of the mode applied to that border. This holds for every luma and chroma block of every intra coding unit, whichever of the four fill routines its position in the LCU selects.", "quantifier": "all pictures, LCU sizes, coding units, partitions, modes and slice layouts of whole rows", "why_tests_cant": "Positions, partitions and contents are unbounded; an off-by-one shows only in particular places of an LCU.", "anchors": ["source/common/intra.cc:davs2_get_intra_pred", "source/common/intra.cc:davs2_get_intra_pred_chroma", "source/common/intra.cc:fill_reference_samples_0_c", "source/common/intra.cc:fill_reference_samples_xy_c", "source/common/intra.cc:get_intra_neighbors"]}
{"id": "C70", "title": "Borders kept between LCUs are unfiltered", "statement": "When an LCU is reconstructed, the cached line above it (twice its width), the column to its left and the corner hold the samples as their own LCU's reconstruction left them, although deblocking has meanwhile changed the picture there.", "quantifier": "all picture and LCU sizes, whatever reconstruction and deblocking do", "why_tests_cant": "Depends on the order of caching, storing and filtering over whole pictures.", "anchors": ["source/common/decoder.cc:davs2_cache_lcu_border", "source/common/decoder.cc:decode_one_lcu_row", "source/common/decoder.cc:decode_lcu_row_recon"]}
{"id": "C71", "title": "Deblocking marks exactly the edges of blocks", "statement": "Of every 8x8 unit the left and the upper edge are marked for filtering if and only if they lie on the border of a coding unit, of a prediction unit or of a transform block; borders of coding units and ordinary prediction units for luma and chroma, the others for luma only; never the border of the picture, and not between slices if filtering across slices is off.", "quantifier": "all partitions of all pictures into coding units, all prediction types and transform splits", "why_tests_cant": "Partitions are unbounded in number; a wrong mark shows as a faint block edge only.", "anchors": ["source/common/deblock.cc:lf_lcu_set_edge_filter", "source/common/deblock.cc:lf_set_edge_filter_param"]}
{"id": "C72", "title": "Deblocking LCU by LCU is deblocking the picture", "statement": "Although each LCU is deblocked as soon as it is reconstructed, with its neighbours still missing, the picture ends up as if all vertical edges of the reconstructed picture had been filtered first and then all horizontal edges, with thresholds from the QPs on both sides; nothing outside the planes is written.", "quantifier": "all pictures at least two LCUs wide, partitions, QPs, vectors, sample values, 4:2:0 and luma only", "why_tests_cant": "Every sample may depend on up to four LCUs decoded at different times; contents are unbounded.", "anchors": ["source/common/deblock.cc:davs2_lcu_deblock", "source/common/deblock.cc:lf_scu_deblock", "source/common/deblock.cc:lf_skip_filter"]}
{"id": "C73", "title": "All in-loop filters in sequence", "statement": "A picture decoded row by row - reconstructed, deblocked, offset and filtered at once, or with offset and adaptive filter one row behind - holds in its three planes the reconstruction deblocked as a whole, then offset as a whole, then filtered as a whole.", "quantifier": "all pictures at least two LCUs wide, all filter parameters and sample values", "why_tests_cant": "The filters overwrite the samples the next row needs; an error shows only at particular lines and contents.", "anchors": ["source/common/decoder.cc:decode_one_lcu_row", "source/common/decoder.cc:decode_lcu_row_recon", "source/common/sao.cc:sao_lcurow", "source/common/alf.cc:alf_lcurow"]}
{"id": "C74", "title": "The motion vector predictor is the right one", "statement": "The vector predicted for a part of a coding unit is computed from the units to its left, above and above right (above left if that one is not there), counting exactly those that are in the picture, in the slice, already decoded and use the list; their vectors are scaled by the distances of the references, and a single one, the one the shape of the part prefers, or a median-like combination is taken.", "quantifier": "all picture types but S, partitions, positions, LCU sizes, slices, references, distances and maps of motion", "why_tests_cant": "Neighbourhoods and vectors are unbounded; availability goes wrong only for particular positions in an LCU.", "anchors": ["source/common/predict.cc:get_mvp_default", "source/common/predict.cc:cu_get_neighbors_default_mvp", "source/common/predict.h:cu_get_neighbor_spatial", "source/common/predict.cc:derive_mv_pred_type"]}
{"id": "C75", "title": "Spatial skip candidates", "statement": "The motion a spatially skipped or direct unit inherits is decided by the directions (B pictures) or the number of references (P and F pictures) of its six neighbours in their order: which neighbour a mode takes, what replaces it if there is none, and the zero vector as last resort; uninitialised memory does not matter.", "quantifier": "all neighbourhoods and modes", "why_tests_cant": "Six neighbours with directions, references and vectors give a space that enumeration of vectors cannot cover.", "anchors": ["source/common/predict.cc:get_mv_bskip_spatial", "source/common/predict.cc:get_mv_fskip_spatial"]}
{"id": "C76", "title": "The motion of a coding unit is consistent", "statement": "After a coding unit is read, the maps that later units, reconstruction, deblocking and later pictures read hold the motion of its parts, all over the unit and nowhere else; directions and references go together, and every reference is one of the picture.", "quantifier": "all picture types but S, partitions, positions and syntax elements", "why_tests_cant": "Partitions, modes and contents of the maps are unbounded.", "anchors": ["source/common/cu.cc:cu_read_info", "source/common/cu.cc:cu_read_header", "source/common/cu.cc:cu_read_mv", "source/common/cu.cc:cu_store_references", "source/common/predict.cc:fill_mv_and_ref_for_skip", "source/common/aec.cc:aec_read_inter_pred_dir"]}
{"id": "C77", "title": "Motion does not depend on leftovers", "statement": "Decoder structures are reused without being cleared. Still the motion of a coding unit depends only on its syntax elements and on what was decoded before it in the same slice: neither on what the structure of the unit held before, nor on the maps elsewhere, nor on uninitialised memory.", "quantifier": "all picture types but S, states of the structures and maps", "why_tests_cant": "A dependence on stale data shows only for particular histories of earlier pictures.", "anchors": ["source/common/cu.cc:cu_read_info", "source/common/decoder.cc:init_frame", "source/common/predict.cc:get_mv_fskip_spatial"]}
{"id": "C78", "title": "The motion of a picture is determined by its syntax", "statement": "The coding units of a picture are parsed in decoding order, everything to the left and above a unit before it; hence the motion of a whole picture is a function of its syntax elements, references and slices alone, whatever was left in the structures by the picture decoded there before, and covers all of the picture.", "quantifier": "all pictures, quadtrees, syntax elements and leftovers", "why_tests_cant": "Depends on every earlier unit of a picture of any size and on the history of the decoder.", "anchors": ["source/common/cu.cc:decode_lcu_parse", "source/common/decoder.cc:decode_lcu_row_parse", "source/common/cu.cc:cu_read_info"]}
{"id": "C79", "title": "The motion kept for later pictures", "statement": "Of every block of 16x16 samples the first vector and reference of the unit at its centre are kept, or of the unit in the middle of what the border of the picture leaves; storing an LCU row reads and writes that LCU row only.", "quantifier": "all picture and LCU sizes", "why_tests_cant": "Sizes are unbounded; borders go wrong for particular sizes only.", "anchors": ["source/common/decoder.cc:save_mv_ref_info"]}
{"id": "C80", "title": "The vectors of coded units", "statement": "In a coded (not skipped) inter unit every part gets, as forward vector, the predictor of its position plus the next vector difference of the stream, saturated to 16 bit, differences of all forward vectors coming before the backward ones; with progressive vector resolution, far differences count in half samples. The second vector of a symmetric part is the mirrored, of a two-reference part the scaled first one.", "quantifier": "all B, P, F pictures, partitions, positions, differences, maps", "why_tests_cant": "The vector depends on every unit decoded before through the predictor.", "anchors": ["source/common/cu.cc:cu_read_mv", "source/common/predict.h:pmvr_mv_derivation", "source/common/predict.cc:get_mvp_default"]}
{"id": "C81", "title": "The motion of skipped and direct units", "statement": "A skipped or direct unit takes, in the temporal mode, for each quarter (or the whole unit of 8x8) the vector kept for the first reference scaled to the distances of this picture (in B pictures forward and mirrored backward, with the predictors instead where the kept block is intra; with weighted skip a second vector scaled to the chosen reference); in a spatial mode, one block with the vectors chosen among the six neighbours by mode.", "quantifier": "all B, P, F pictures, unit sizes, modes, positions, neighbours and kept motion", "why_tests_cant": "Kept motion and neighbours come from unbounded histories.", "anchors": ["source/common/predict.cc:fill_mv_and_ref_for_skip", "source/common/predict.cc:fill_mv_pf_skip_temporal", "source/common/predict.cc:fill_mv_bskip", "source/common/predict.cc:get_mv_pf_skip_temporal"]}
{"id": "C82", "title": "Pictures are decoded slice by slice", "statement": "The first slice of a picture is found behind any user data. Behind the end flag of a slice the next one is found if it begins in the next four whole bytes. Its header - quantiser, whether units change it, offset flags - is read back as written, the entropy decoder starts afresh at the first whole byte behind the header, and the LCUs are decoded in raster order without gap, each with the header and number of its slice, wherever in an LCU row slices begin or end.", "quantifier": "all pictures of complete slices, header contents, LCU contents and picture sizes", "why_tests_cant": "Every split of a picture into slices and every slice content is a different walk; a wrong state at a slice border shows only for particular splits.", "anchors": ["source/common/decoder.cc:check_slice_header", "source/common/decoder.cc:decode_one_lcu_row", "source/common/decoder.cc:decode_user_data", "source/common/decoder.cc:decoder_decode_picture_data", "source/common/bitstream.cc:found_slice_header", "source/common/header.cc:parse_slice_header"]}
{"id": "C83", "title": "Slices are decoded where their header says", "statement": "The first LCU decoded from a slice is the one at the row and column its header names.", "quantifier": "all sequences of slices", "why_tests_cant": "Only pictures with lost slices tell the two positions apart, and there are unboundedly many.", "anchors": ["source/common/header.cc:parse_slice_header", "source/common/decoder.cc:decode_one_lcu_row"]}
{"id": "C84", "title": "What lies in memory behind a unit does not matter", "statement": "The decoded picture is a function of the bytes of its unit: memory behind it, left over from earlier units, has no influence.", "quantifier": "all units, complete or truncated, and all memory contents", "why_tests_cant": "Depends on leftovers of earlier units in reused buffers, which a test of one stream does not vary.", "anchors": ["source/common/bitstream.cc:found_slice_header", "source/common/header.cc:parse_slice_header", "source/common/aec.cc:aec_start_decoding"]}
{"id": "C85", "title": "The entropy decoder is an interval decoder", "statement": "The bins delivered for a slice are exactly those whose interval, in the arithmetic code with unlimited precision and adaptive contexts, contains the slice read as a binary fraction; intervals of different bins are disjoint, so no other bins could be meant.", "quantifier": "all slices and all sequences of context-coded, equiprobable and final bins", "why_tests_cant": "The registers approximate numbers of thousands of bits; a wrong carry, bound or normalisation shows only after long particular histories.", "anchors": ["source/common/aec.cc:biari_decode_symbol", "source/common/aec.cc:biari_decode_symbol_eq_prob", "source/common/aec.cc:biari_decode_final", "source/common/aec.cc:aec_start_decoding"]}
{"id": "C86", "title": "What an encoder codes is what is decoded", "statement": "Every sequence of bins has a code: any slice that lies in the interval an encoder computes for the bins, followed by 33 more bytes, is decoded to exactly these bins, without error.", "quantifier": "all sequences of bins and requests and all continuations of the code", "why_tests_cant": "A round trip over unboundedly many bins and contexts.", "anchors": ["source/common/aec.cc:biari_decode_symbol", "source/common/aec.cc:biari_decode_symbol_eq_prob", "source/common/aec.cc:biari_decode_final", "source/common/aec.cc:aec_start_decoding"]}
{"id": "C87", "title": "Syntax elements are read back as they are binarised", "statement": "A reader that meets the bins an encoder writes for a value returns that value and leaves the decoder exactly behind these bins: vector differences, quantiser steps, luma and chroma intra modes, unit types with their skip modes, prediction directions with what is stored for them, references, multi-hypothesis modes, coded-block patterns with the transform split, merge flags and sample-adaptive-offset parameters as stored; and so for any number of elements in a row. With the arithmetic code, every such value has a slice from which it is read.", "quantifier": "all values in the range of each element, all neighbour states, all decoder states of a slice", "why_tests_cant": "The bins of an element depend on values, contexts and sizes jointly; an escape code or a shortened unary code that is off by one shows for single values only.", "anchors": ["source/common/aec.cc:aec_read_mvds", "source/common/aec.cc:aec_read_cu_delta_qp", "source/common/aec.cc:aec_read_intra_pmode", "source/common/aec.cc:aec_read_intra_pmode_c", "source/common/aec.cc:aec_read_cu_type", "source/common/aec.cc:aec_read_b_pdir", "source/common/aec.cc:aec_read_pdir_dhp", "source/common/aec.cc:aec_read_ref_frame", "source/common/aec.cc:aec_read_dmh_mode", "source/common/aec.cc:aec_read_cbp", "source/common/aec.cc:aec_read_sao_offsets", "source/common/aec.cc:aec_read_sao_type", "source/common/sao.cc:sao_read_lcu", "source/common/cu.cc:cu_read_intrapred_mode_luma"]}
{"id": "C88", "title": "Coefficients are read back as they are coded", "statement": "From the bins an encoder writes for the quantised levels of a coding unit the decoder restores every level: each one that is not zero is scaled, rounded and clipped and stored at its column and row of the right block, nothing else is written, the recorded pattern is the smallest that covers the levels, and the decoder stands exactly behind these bins.", "quantifier": "all 16-bit levels in blocks of every size, split and scan class, all quantisers, all decoder states of a slice", "why_tests_cant": "Contexts depend on the history of magnitudes, on windows of six positions and on the place of the group; block contents are unbounded in practice.", "anchors": ["source/common/aec.cc:aec_read_run_level", "source/common/aec.cc:aec_read_last_cg_pos", "source/common/aec.cc:aec_read_last_coeff_pos_in_cg", "source/common/aec.cc:aec_read_run_luma1", "source/common/aec.cc:aec_read_run_luma2", "source/common/aec.cc:aec_read_run_chroma", "source/common/cu.cc:cu_read_all_coeffs"]}
{"id": "C89", "title": "The vector kernels of sample adaptive offset do what the C kernels do", "statement": "On a processor with SSE4 or AVX2 the decoded picture is the same as without: every edge and band kernel, in either instruction set, gives each sample of a block the value the standard prescribes and leaves every other byte of memory alone, for any width, height, stride and pattern of available neighbours.", "quantifier": "all 8-bit sources, block sizes, strides, availability patterns, offsets the parser can produce, and whatever lies behind the table of masks", "why_tests_cant": "Widths that are no multiple of the vector and lanes that meet at the end of a row give thousands of combinations, and tests run on one processor.", "anchors": ["source/common/vec/intrinsic_sao.cc:SAO_on_block_eo_0_sse128", "source/common/vec/intrinsic_sao.cc:SAO_on_block_eo_90_sse128", "source/common/vec/intrinsic_sao.cc:SAO_on_block_eo_135_sse128", "source/common/vec/intrinsic_sao.cc:SAO_on_block_eo_45_sse128", "source/common/vec/intrinsic_sao.cc:SAO_on_block_bo_sse128", "source/common/vec/intrinsic_sao_avx2.cc:SAO_on_block_eo_0_avx2", "source/common/vec/intrinsic_sao_avx2.cc:SAO_on_block_eo_90_avx2", "source/common/vec/intrinsic_sao_avx2.cc:SAO_on_block_eo_135_avx2", "source/common/vec/intrinsic_sao_avx2.cc:SAO_on_block_eo_45_avx2", "source/common/vec/intrinsic_sao_avx2.cc:SAO_on_block_bo_avx2"]}
{"id": "C90", "title": "The vector kernel of the adaptive loop filter does what the C kernel does", "statement": "With SSE4 the adaptive loop filter gives each sample of an LCU the same value as the C code, and writes nothing else.", "quantifier": "all 8-bit sources, LCU positions and sizes, all transmitted coefficients in the ranges of the standard", "why_tests_cant": "Saturation shows only for combinations of coefficients and samples that no ordinary encoder produces.", "anchors": ["source/common/vec/intrinsic_alf.cc:alf_filter_block_sse128"]}
{"id": "C91", "title": "Block average and plane copy with SSE are the same as in C", "statement": "The SSE versions of the average of two predictions and of plane copy leave memory byte for byte as the C versions do.", "quantifier": "all block sizes, strides and contents", "why_tests_cant": "Every width has its own mixture of whole and masked stores.", "anchors": ["source/common/vec/intrinsic_pixel.cc:avs_pixel_average_sse128", "source/common/vec/intrinsic_pixel.cc:plane_copy_c_sse2"]}
{"id": "C92", "title": "The vector kernels of deblocking do what the C kernels do", "statement": "With SSE4 every deblocked picture is byte for byte the one the C code gives: each of the four edge kernels gives every sample of its edge the value the standard prescribes and leaves all other bytes as they were, though it rewrites whole vectors; and the thresholds fit the byte they are kept in.", "quantifier": "all 8-bit pictures, partitions, quantisers, offsets, strides of at least eight, both edge flags", "why_tests_cant": "Strengths differ from line to line of one vector; which lines share one depends on the picture, and tests run on one processor.", "anchors": ["source/common/vec/intrinsic_deblock.cc:deblock_edge_ver_sse128", "source/common/vec/intrinsic_deblock.cc:deblock_edge_hor_sse128", "source/common/vec/intrinsic_deblock.cc:deblock_edge_ver_c_sse128", "source/common/vec/intrinsic_deblock.cc:deblock_edge_hor_c_sse128", "source/common/deblock.cc:davs2_deblock_init"]}
{"id": "C93", "title": "Motion compensation with the SSE kernels is motion compensation", "statement": "With the SSE kernels of interpolation every predicted block is the one of the standard and of the C code, sample for sample, and no other byte is written: along lines, down columns and both, for luma and for chroma.", "quantifier": "all 8-bit references, positions, quarter and eighth fractions, widths up to 64 (32 for chroma), strides, heights that are multiples of four (two), contents of local arrays", "why_tests_cant": "The kernels rely on 16-bit intermediate sums, on pairing of coefficients and on masked stores; a wrong lane or saturation shows for single samples only.", "anchors": ["source/common/vec/intrinsic_inter_pred.cc:intpl_chroma_block_hor_sse128", "source/common/vec/intrinsic_inter_pred.cc:intpl_luma_block_hor_sse128", "source/common/vec/intrinsic_inter_pred.cc:intpl_luma_block_ver0_sse128", "source/common/vec/intrinsic_inter_pred.cc:intpl_luma_block_ver1_sse128", "source/common/vec/intrinsic_inter_pred.cc:intpl_luma_block_ver2_sse128", "source/common/vec/intrinsic_inter_pred.cc:intpl_chroma_block_ext_sse128", "source/common/vec/intrinsic_inter_pred.cc:intpl_luma_block_ext_sse128", "source/common/mc.cc:mc_luma", "source/common/mc.cc:mc_chroma"]}
{"id": "C94", "title": "Assertions of the picture buffer hold for every stream", "statement": "The builds made with build/linux/configure keep assertions, so a failing one ends the caller's process. Whatever pictures, reference sets and removals a stream announces and however decoding tasks and the output side interleave, no assertion in task_get_references, has_blocking, release_one_frame or parse_picture_header fails: a buffer taken as target is not marked disposable, a picture skipped to is displayed after the expected one, a reference found is a live reference, pictures in output and in decoding never outnumber the buffers, and picture numbers are not negative.", "quantifier": "all sequences of picture requests, all interleavings with tasks and output, all buffer counts, all header values", "why_tests_cant": "Depends on stream contents chosen by the sender and on the timing of three threads; a test sees one schedule.", "anchors": ["source/common/header.cc:task_get_references", "source/common/header.cc:has_blocking", "source/common/header.cc:parse_picture_header"]}
{"id": "C95", "title": "Buffers and output pictures belong to one party at a time and go away with the handle", "statement": "From open to close every stream buffer and every output picture is allocated once, is never written, reused or released while a decoding task, the output queue or the caller has it, is only shown with the dimensions it was made for, and is released exactly once when the handle is closed.", "quantifier": "all sequences of packets, flushes, deliveries and returns, all interleavings with decoding tasks, any number of buffers", "why_tests_cant": "Leaks and early reuse depend on the interleaving of the caller with worker threads; each run shows one.", "anchors": ["source/common/davs2.cc:davs2_pack_es_unit", "source/common/davs2.cc:destroy_all_lists", "source/common/davs2.cc:davs2_decoder_frame_unref", "source/common/davs2.cc:davs2_decoder_close", "source/common/decoder.cc:get_one_free_picture", "source/common/davs2.cc:task_unload_packet"]}
{"id": "C96", "title": "The headers in front of a picture are found and take effect", "statement": "A packet may carry any number of sequence headers, extensions and user data in front of a picture. The picture header is found, every sequence header before it has taken effect, in order and with the values that were written, and extensions and user data have none; on arbitrary bytes the search ends.", "quantifier": "all lists of headers, extensions and user data without start code emulation, all syntax element values, both kinds of picture; termination on all bytes", "why_tests_cant": "Orders and numbers of headers are unlimited, and searching resumes at the position where the previous header stopped, which depends on its contents.", "anchors": ["source/common/header.cc:parse_header", "source/common/header.cc:parse_sequence_header", "source/common/bitstream.cc:find_start_code"]}
{"id": "C97", "title": "Motion compensation with the AVX2 kernels is motion compensation", "statement": "On a processor with AVX2 every predicted block is the one of the standard and of the C code, sample for sample, and no other byte is written: along lines, down columns and both, for luma and for chroma, with the kernels selected by the width of the block.", "quantifier": "all 8-bit references, positions, quarter and eighth fractions, luma widths up to 64 and heights that are multiples of four, chroma widths up to 32 and heights that are multiples of two, strides, contents of local arrays", "why_tests_cant": "Each width has its own kernel; lanes are permuted across halves of the registers, and only a machine with AVX2 runs them.", "anchors": ["source/common/vec/intrinsic_inter_pred_avx2.cc:intpl_luma_block_hor_w16_avx2", "source/common/vec/intrinsic_inter_pred_avx2.cc:intpl_luma_block_ver_w16_avx2", "source/common/vec/intrinsic_inter_pred_avx2.cc:intpl_luma_block_ext_w16_avx2", "source/common/vec/intrinsic_inter_pred_avx2.cc:intpl_luma_block_ext_w24_avx2", "source/common/vec/intrinsic_inter_pred_avx2.cc:intpl_chroma_block_ext_w16_avx2", "source/common/vec/intrinsic_inter_pred_avx2.cc:intpl_luma_block_hor_avx2", "source/common/mc.cc:mc_luma", "source/common/mc.cc:mc_chroma"]}
{"id": "C98", "title": "The inverse transform is the same with vector functions", "statement": "With the SSE2 functions, and with the AVX2 functions as well, the inverse transform of every block leaves exactly the memory the C functions leave, and so the residual of the standard; the short functions, chosen by the pattern stored with a block, give the same as the full ones on every block with that pattern.", "quantifier": "all block sizes and patterns, bit depths 8 to 12, all 16-bit coefficients, all modes of the secondary transform, all contents of local variables", "why_tests_cant": "Each size and pattern has its own function of hundreds of vector statements with its own copies of the coefficients; an error in one lane shows only for blocks of that size, that pattern and a processor of that kind, and there are 2^16 values for each of up to 1024 coefficients.", "anchors": ["source/common/vec/intrinsic_idct.cc:idct_4x4_sse128", "source/common/vec/intrinsic_idct.cc:idct_16x16_half_sse128", "source/common/vec/intrinsic_idct.cc:idct_32x32_quad_sse128", "source/common/vec/intrinsic_idct.cc:idct_64x64_sse128", "source/common/vec/intrinsic_idct_avx2.cc:idct_32x32_avx2", "source/common/vec/intrinsic_idct_avx2.cc:inv_wavelet_64x64_avx2", "source/common/transform.cc:davs2_dct_init", "source/common/transform.cc:inv_transform"]}
{"id": "C99", "title": "Secondary transform and doubling are the same with vector functions", "statement": "The SSE functions of the secondary transform leave the memory the C functions leave for every mode and availability, at any pitch; the six vector functions that double a block compute, in place, the doubled block of the standard and write nothing else.", "quantifier": "all 16-bit values, all modes, pitches of at least four, bit depths 8 to 12, all contents of local variables", "why_tests_cant": "The functions read and write the same array in overlapping order, and one of them computes with registers that were never set.", "anchors": ["source/common/vec/intrinsic_idct.cc:inv_transform_2nd_sse128", "source/common/vec/intrinsic_idct.cc:inv_transform_4x4_2nd_sse128", "source/common/vec/intrinsic_idct.cc:inv_wavelet_64x64_sse128", "source/common/vec/intrinsic_idct_avx2.cc:inv_wavelet_16x64_avx2"]}
{"id": "C100", "title": "Intra borders filled with vector functions", "statement": "The vector functions that collect the neighbouring samples of an intra block leave the same border as the rule says, for all four places of a block in its LCU; the block predicted from it is the one the C functions give, and aligned stores never fault.", "quantifier": "all block shapes, positions, availabilities, samples, previous contents of the buffer, modes", "why_tests_cant": "The functions overrun the border by a byte in two of nine shapes and use aligned stores into the middle of a buffer; whether either matters depends on the layout of the buffer and on what the predictors read.", "anchors": ["source/common/vec/intrinsic_intra-filledge.cc:fill_edge_samples_0_sse128", "source/common/vec/intrinsic_intra-filledge.cc:fill_edge_samples_xy_sse128", "source/common/intra.cc:davs2_get_intra_pred", "source/common/intra.cc:davs2_get_intra_pred_chroma"]}
{"id": "C101", "title": "Directional prediction is the same with vector functions", "statement": "The SSE and AVX2 predictors of the vertical, the horizontal and the directional modes give the block of the rule, which is the one of the C functions, sample for sample; they write nothing outside the block and read nothing outside the border buffer and their own arrays.", "quantifier": "all block shapes, borders of 8-bit samples padded as the filling functions pad them, strides, contents of the picture and of local arrays; each of the 21 modes of each table", "why_tests_cant": "Each mode has its own function with its own coefficients, shuffles and masks and a branch for each width; some compute lines twice as long as needed in local arrays, and a wrong lane shows only for that mode, that shape and a processor of that kind.", "anchors": ["source/common/vec/intrinsic_intra-pred.cc:intra_pred_ang_x_3_sse128", "source/common/vec/intrinsic_intra-pred.cc:intra_pred_ang_y_25_sse128", "source/common/vec/intrinsic_intra-pred.cc:intra_pred_ang_xy_13_sse128", "source/common/vec/intrinsic_intra-pred_avx2.cc:intra_pred_ang_x_8_avx", "source/common/vec/intrinsic_intra-pred_avx2.cc:intra_pred_ang_y_32_avx", "source/common/vec/intrinsic_intra-pred_avx2.cc:intra_pred_ang_xy_16_avx", "source/common/intra.cc:davs2_intra_pred_init"]}
{"id": "C102", "title": "DC, plane and bilinear prediction are the same with vector functions", "statement": "The SSE and AVX2 predictors of the DC, plane and bilinear modes give the block of the rule, which is the one of the C functions, sample for sample, and write nothing else; samples their wide loads find beyond the two sides of the block, and what their local arrays held, make no difference.", "quantifier": "all block shapes, borders of 8-bit samples, strides, availabilities, contents of the picture and of local arrays", "why_tests_cant": "The functions compute with 16-bit and 32-bit lanes that wrap, through saturating packs and masked stores; whether a lane can overflow depends on the extreme corners of all borders for each shape.", "anchors": ["source/common/vec/intrinsic_intra-pred.cc:intra_pred_dc_sse128", "source/common/vec/intrinsic_intra-pred.cc:intra_pred_plane_sse128", "source/common/vec/intrinsic_intra-pred.cc:intra_pred_bilinear_sse128", "source/common/vec/intrinsic_intra-pred_avx2.cc:intra_pred_dc_avx", "source/common/vec/intrinsic_intra-pred_avx2.cc:intra_pred_plane_avx", "source/common/vec/intrinsic_intra-pred_avx2.cc:intra_pred_bilinear_avx", "source/common/intra.cc:davs2_intra_pred_init"]}
{"id": "C103", "title": "Intra prediction from the picture with vector functions", "statement": "On a processor with SSE4, filling the border and predicting from it leaves exactly the picture the C functions leave, for every mode and block; so each block of an intra coding unit is the block of the rule applied to the neighbours that are in the picture, in the slice and decoded before it. The same with AVX2.", "quantifier": "all modes, shapes, positions, slices, pictures of 8-bit samples, contents of buffers and local arrays, both compilers", "why_tests_cant": "Border and predictors interact through bytes beyond the border that the vector functions write and read; whether one function's overrun reaches another's result depends on shape, position and mode together.", "anchors": ["source/common/intra.cc:davs2_get_intra_pred", "source/common/intra.cc:davs2_get_intra_pred_chroma", "source/common/intra.cc:davs2_intra_pred_init"]}
{"id": "C104", "title": "The MD5 check of the program", "statement": "The text the command-line program compares with the reference given by --md5 is the MD5 digest (RFC 1321) of the whole output file in hexadecimal, for files of every length.", "quantifier": "all files, of any length and contents", "why_tests_cant": "Padding has a case for each length modulo 64 and lengths beyond 2^29 bytes use a second word of the bit count; each of the 64 operations has its own word, rotation and constant.", "anchors": ["source/test/md5.h:md5", "source/test/md5.h:FileMD5", "source/test/test.c:main"]}
{"id": "C105", "title": "The program sends the file whole and cut before start codes", "statement": "The packets the command-line program sends are the bytes of the input file, all, once and in order; each but the first begins with a start code, none holds another one behind its first four bytes, and their time stamps count up and down from 0. A proper stream is sent unit by unit, the number of frames announced is the number of its pictures, and counting ends for every file. A refused packet is the last.", "quantifier": "all nonempty files; all streams of any number of units; all answers of the decoder", "why_tests_cant": "Start codes can straddle any cut, stand in the last bytes or overlap; off-by-one errors in the searched length show only at particular distances from the end of the file.", "anchors": ["source/test/inputstream.h:find_start_code", "source/test/inputstream.h:check_frame", "source/test/inputstream.h:find_one_frame", "source/test/inputstream.h:count_frames", "source/test/test.c:test_decoder"]}
{"id": "C106", "title": "The program writes the pictures whole and in order", "statement": "The raw output file is the pictures in the order of output, without padding: every byte of every sample stands at the offset the sizes before it give. The y4m file is one line naming size, rate and depth of the stream and the pictures, each behind the word FRAME.", "quantifier": "all sequences of headers and pictures with any sizes, strides, depths and numbers of planes", "why_tests_cant": "Strides, plane counts and sizes vary independently, and the line is printed into a fixed buffer whose sufficiency depends on the largest numbers a header may hold.", "anchors": ["source/test/utils.h:write_frame_plane", "source/test/utils.h:write_frame", "source/test/utils.h:write_y4m_header", "source/test/test.c:output_decoded_frame"]}
{"id": "C107", "title": "Vector functions are chosen only where they can run", "statement": "The library uses an instruction set exactly when the processor names it and, for AVX and AVX2, the operating system saves its registers; disable_avx takes AVX and AVX2 away and nothing else; the list of features it logs fits its buffer on every processor.", "quantifier": "all answers of CPUID and XGETBV, both values of disable_avx", "why_tests_cant": "One machine has one processor and one operating system; missing OS support, old vendors and rare feature combinations cannot be had on a test machine.", "anchors": ["source/common/cpu.cc:davs2_cpu_detect", "source/common/cpu.cc:davs2_get_simd_capabilities", "source/common/davs2.cc:davs2_decoder_open"]}
{"id": "C108", "title": "The number of threads", "statement": "A decoder opened with a positive number of threads gets that number, at most 8; opened with 0 or less it gets the number of processors the process may use, at most 8. Its decoders fit the memory allocated for them.", "quantifier": "all requested numbers, all sets of processors", "why_tests_cant": "The set of processors is a property of the machine and the way the process was started.", "anchors": ["source/common/davs2.cc:davs2_decoder_open", "source/common/cpu.cc:davs2_cpu_num_processors"]}
{"id": "C109", "title": "Every call through the function table reaches the right function", "statement": "Whatever features are detected, every call through the function table reaches a function, and the one for its block size, prediction mode, filter and fraction; the functions reached use only instruction sets the machine has; with disable_avx none of them needs AVX.", "quantifier": "all feature words, all answers of CPUID and XGETBV, all sequences of decoder openings, all block shapes, modes and fractions", "why_tests_cant": "A test machine has one feature word; a NULL or a function of another size in a member that only other processors use is never called there.", "anchors": ["source/common/primitives.cc:init_all_primitives", "source/common/memory.cc:davs2_memory_init", "source/common/intra.cc:davs2_intra_pred_init", "source/common/pixel.cc:davs2_pixel_init", "source/common/mc.cc:davs2_mc_init", "source/common/quant.cc:davs2_quant_init", "source/common/transform.cc:davs2_dct_init", "source/common/deblock.cc:davs2_deblock_init", "source/common/sao.cc:davs2_sao_init", "source/common/alf.cc:davs2_alf_init", "source/common/pixel.cc:g_partition_map_tab"]}
{"id": "C110", "title": "Assembly reconstruction of a block gives the samples of the C functions", "statement": "In the 8-bit build, a 4x4 block whose coefficients go through the assembly inverse transform and whose residual is added by the assembly addition has exactly the samples of the C transform and the C addition; so has a block of any other size with the vector transforms and the assembly addition; the addition writes nothing outside the block.", "quantifier": "all 16-bit coefficients, all predictions, all strides not below the width, all register contents, all twenty sizes of the addition, SSE4 and AVX2", "why_tests_cant": "The residual words of the two 4x4 transforms do differ for large coefficients, so comparing functions one by one fails where the decoder is right, and random samples rarely reach the saturated range.", "anchors": ["source/common/x86/dct8.asm:idct_4x4_sse2", "source/common/x86/pixeladd8.asm:pixel_add_ps", "source/common/transform.cc:davs2_get_recons", "source/common/pixel.cc:PIXEL_ADD_PS_C"]}
{"id": "C111", "title": "The fast memory functions do what memcpy and memset do", "statement": "fast_memcpy copies and fast_memzero clears exactly the bytes asked for, whatever their number; memcpy_aligned does so for sizes that are multiples of 16, which all row and plane sizes of the decoder are, with 8-bit and 16-bit samples; memzero_aligned does so for multiples of 16 (SSE2) or 32 (AVX); fast_memset sets the bytes to the value given. None of them writes another byte.", "quantifier": "all sizes, all addresses of areas that do not meet, all memory contents, all strides align_stride can give", "why_tests_cant": "Each function has three loops with remainders; an error for one remainder, or a write just before the destination, shows only with sizes and neighbours a test happens to have.", "anchors": ["source/common/x86/mc-a2.asm:memcpy_aligned", "source/common/x86/mc-a2.asm:fast_memcpy", "source/common/x86/mc-a2.asm:fast_memzero", "source/common/x86/mc-a2.asm:fast_memset", "source/common/vec/intrinsic_pixel.cc:davs2_memzero_aligned_c_sse2", "source/common/vec/intrinsic_pixel_avx.cc:davs2_memzero_aligned_c_avx", "source/common/frame.cc:pad_line_lcu"]}
{"id": "C112", "title": "Assembly dequantisation gives the coefficients of the C function", "statement": "Wherever dequant_c is defined, dequant_sse4 leaves the same coefficients in a block of any number of coefficients that is a multiple of 16, and changes nothing else; so for every sample depth, QP, block size and all levels.", "quantifier": "all memory contents, all scales and shifts, all block sizes that are multiples of 16, all QPs and depths", "why_tests_cant": "The register holds wrapped 32-bit products and a saturating pack where the C code tests for zero and clips; that they agree needs the range of scale and shift for each QP, not a few blocks.", "anchors": ["source/common/x86/quant8.asm:dequant", "source/common/quant.cc:dequant_c", "source/common/quant.cc:dequant_coeffs", "source/common/quant.h:cu_get_quant_params"]}
{"id": "C113", "title": "Memory from the library's allocator is aligned, private, kept and given back whole", "statement": "For every sequence of requests, writes inside pieces owned, and releases of pieces owned, davs2_malloc gives pieces that start at multiples of 32 and do not meet, what is written stays until it is overwritten or released, davs2_free hands exactly the block of malloc to free, and when everything is released nothing is left.", "quantifier": "all sequences of calls, all sizes up to 2^64 - 40, all answers of malloc including NULL, all writes", "why_tests_cant": "The pointer for free is hidden in the word before the piece; a test sees the placements of one C library and no alignment the others can give.", "anchors": ["source/common/common.h:davs2_malloc", "source/common/common.h:davs2_calloc", "source/common/common.h:davs2_free"]}
{"id": "C114", "title": "The block copy functions copy the block and nothing else, in every version", "statement": "For each of the 25 block sizes, for samples and for coefficients, the SSE2, AVX and C versions put the source block at the destination, whatever the strides and the registers, and change no other byte, when the blocks do not overlap and a row fits the destination stride; so the versions agree, and with any set of detected features a prediction from a whole-sample position is the reference block.", "quantifier": "all 25 sizes and all versions, all addresses and strides of blocks that do not overlap, all memory contents, all feature sets", "why_tests_cant": "The 77 functions are written out by macros with loads of 4 to 32 bytes; one wrong offset or stride in one of them shows only for its size, and a store past the row only with the neighbour a test happens to look at.", "anchors": ["source/common/x86/blockcopy8.asm:blockcopy_pp", "source/common/x86/blockcopy8.asm:blockcopy_ss", "source/common/pixel.cc:BLOCKCOPY_PP_C", "source/common/pixel.cc:davs2_pixel_init", "source/common/mc.cc:mc_luma"]}
{"id": "C115", "title": "The assembly 8x8 transform reconstructs the samples of the C code", "statement": "For every 8x8 block of 16-bit coefficients idct_8x8_ssse3 writes the two-pass transform limited to 16 bits and nothing else, whatever the registers held; the C residual is this value limited once more, and added to 8-bit samples by the assembly both give the same samples.", "quantifier": "all coefficient blocks, all strides from 8 on, all memory and register contents, all predictions", "why_tests_cant": "The code folds the butterflies into multiply-add tables with byte shuffles and saturating packs; that no 32-bit sum wraps and no saturation differs needs all coefficient values, not sample blocks.", "anchors": ["source/common/x86/dct8.asm:idct_8x8", "source/common/x86/dct8.asm:patial_butterfly_inverse_internal_pass1", "source/common/x86/dct8.asm:PARTIAL_BUTTERFLY_PROCESS_ROW", "source/common/transform.cc:idct_8x8_c", "source/common/transform.cc:davs2_dct_init"]}
