# Formal model of davs2 in Rocq

Target: `/repo` (pkuvcl/davs2, C++). The model is in `rocq/theories`, property
theorems in `rocq/theories/*Props.v`, properties in `properties.jsonl`, status in
`MANIFEST.json`.

## 1. Trusted base

* The kernel of Coq 8.16.1 (including its `vm_compute` conversion).
* `Print Assumptions` under every property theorem. Section 5 lists the result
  for each file. No axiom is declared in this development.
* The hand translation from C++ to Gallina. Every model definition cites the file
  and lines it was written from and says what was simplified.
* C semantics as used by the model: `int` is 32-bit two's complement; shifts of
  negative numbers right are arithmetic; `int8_t/int16_t/uint8_t` conversions
  wrap. Signed overflow, over-wide shifts and out-of-bounds accesses are never
  given a value silently: they are an explicit error outcome or are excluded by a
  proved bound.

## 2. General conventions

* `XxxModel.v` holds definitions only (one section per C function), `XxxSpec.v`
  the independent specification, `XxxProofs.v` lemmas, `XxxProps.v` the property
  theorems, each closed by `exact`, followed by `Print Assumptions` and by an
  `Example` showing that the hypotheses can be met by a non-trivial case.
* Buffers are lists of bytes (`Z`) with explicit length, or total functions
  `Z -> Z` when only a window is read (kernels); reads outside the allocated
  window are errors in the former case and are bounded by a theorem in the latter.
* Threads: shared-memory code under a mutex is one atomic step of a transition
  system; theorems quantify over all finite schedules (lists of steps).
* A statement that is false of the faithful model is kept in view and refuted by
  a theorem `..._refuted` with a concrete witness (finding, section 4); what does
  hold is then proved with the missing precondition explicit.

## 3. Plan per property

| id | modelled | method |
|----|----------|--------|
| C01 | `bs_dispose_pseudo_code` as a byte-by-byte state machine | refinement to a bit-level specification |
| C02 | same, with an explicit single buffer | invariant `i_dst <= i_pos`; in-place = out-of-place |
| C03 | same, plus a specification encoder | round trip by induction over the payload |
| C04 | `find_start_code` | characterisation by induction over the buffer |
| C05 | `find_pic_start_code` | characterisation by induction |
| C06 | `read_bits`, `vlc_u_v` | equality with big-endian value, induction over width |
| C07 | `get_vlc_symbol`, `vlc_ue_v`, `vlc_se_v` | round trip with a specification encoder |
| C08 | the same with checked reads | refuted (findings F1, F2) plus safety under slack bytes |
| C09 | `parse_sequence_header` over a bit reader | case analysis of the parser |
| C10 | COI unwrapping in `parse_picture_header` | invariant by induction over the picture history |
| C11 | RPS parsing | refuted (F3); bounded variant proved |
| C12 | threshold set-up and table lookup | table checks lifted to all QPs |
| C13-C17 | output list, `decoder_get_output`, flush, header announcement as a state machine | invariants by induction over operations |
| C18 | validation in `davs2_decoder_send_packet` | case analysis |
| C19, C20 | `davs2_pack_es_unit` | invariant by induction over packets; capacity refuted (F4) |
| C21-C23 | DPB operations (`task_get_references`, release, unref, output) | invariant by induction over operations |
| C24, C25 | thread pool as transition system | invariant over all schedules |
| C26 | `xlist_t` with a pointer heap | refinement to a list queue |
| C27 | row workers and parser as transition system; one-thread row loop | invariant, progress, termination measure, refutations |
| C28 | `davs2_frame_get_size`, `davs2_frame_new`, `create_dpb`, `decoder_alloc_extra_buffer` layouts | linear arithmetic over all sizes, induction over frames |
| C29 | `pad_line_pixel`, `pad_line_lcu` | loop invariants |
| C30 | `davs2_write_a_frame` sample copy / depth conversion | induction over rows and samples |
| C31 | context update and tables | finite domain check lifted; invariant by induction |
| C32 | AEC bit reader with 8-byte refill | refinement to a bit list |
| C33 | `biari_decode_symbol*` | equality with iterated decoding by induction |
| C34 | same | invariant by induction over decodes |
| C35 | run/level loop | invariant |
| C36 | QP accumulation | refuted (F) |
| C37 | escape code loops | refuted (F); bounded variant |
| C38 | SAO syntax | invariant |
| C39 | butterflies | ring equality with matrix product |
| C40 | wavelet up-sampling in place | loop invariants over arrays |
| C41 | dequantisation | arithmetic bounds |
| C42 | `add_ps` | arithmetic |
| C43 | interpolation kernels | arithmetic bounds |
| C44 | `cu_get_mc_pos*`, sample addresses | arithmetic; refuted for very wide pictures |
| C45, C46 | MV scaling (frames and fields), median | arithmetic; overflow, field assertion refuted |
| C47 | PU/TU tables | finite shapes, all positions |
| C48-C51 | intra predictors, mode derivation, availability tables | arithmetic, finite tables |
| C52 | quadtree parse/recon | induction over the tree |
| C53 | `lf_edge_core` | arithmetic |
| C54-C56 | SAO kernels and regions | loop invariants, arithmetic |
| C57, C58 | ALF | arithmetic; refuted bound |
| C59 | helpers | arithmetic / bit-vector reasoning on Z |
| C60 | motion vector difference parsing and PMVR | case analysis, round trip |
| C61 | coding-unit and transform syntax | case analysis of the decoder |
| C62 | coefficient syntax | invariants over the run/level loop |
| C63 | `sao_lcurow`, row copies, both row orders | invariant over rows; refuted for single-row pictures and mid-row slices |
| C64 | `alf_lcurow`, block kernels, `davs2_frame_copy_lcurow` with padding, the chain in both row orders | invariant over rows; refuted for single-row pictures and separately filtered slices |
| C65 | `decoder_wait_row` as called for inter prediction | arithmetic over the rule of C29/C64 |
| C66 | `get_quanted_coeffs`, `davs2_get_recons`, residual part of `cu_recon` | induction over the transform units, over C39 and C47 |
| C67 | `davs2_get_inter_pred`, inter branch of `cu_recon` | induction over the prediction units, over C44, C47 and C66 |
| C68 | `intra_pred` and all C predictors | loop invariants, one lemma per predictor |
| C69 | the four fill functions, `davs2_get_intra_pred`, `davs2_get_intra_pred_chroma` | composition of C51, C68 and the filling |
| C70 | `davs2_cache_lcu_border` and the stored line, LCU loop of a picture | invariant over the LCUs in raster order |
| C71 | `lf_lcu_set_edge_filter`, `lf_set_edge_filter_param` | induction over the quadtree |
| C72 | `davs2_lcu_deblock`, `lf_scu_deblock`, `lf_skip_filter`, LCU loop of a picture | invariant over edges in the order of the code: which samples are final |
| C73 | rows of a picture through deblocking, `sao_lcurow`, `alf_lcurow` | composition of C64, C71 and C72 |
| C74 | `get_mvp_default` and all it calls | case analysis over C45 and the availability tables |
| C75 | `get_mv_bskip_spatial`, `get_mv_fskip_spatial` | induction over the neighbours |
| C76, C77 | `cu_read_info` up to the vectors, all skip and direct modes | relational invariant over the parts of a unit |
| C78 | quadtree order, units of a picture | induction over the quadtree, then over the units |
| C79 | `save_mv_ref_info` | loop invariant |
| C80 | `cu_read_mv`, `pmvr_mv_derivation` | induction over the parts, predictors moved to the final maps |
| C81 | `fill_mv_and_ref_for_skip` and what it calls | induction over the parts, predictors moved to the final maps |
| C82 | `decode_user_data`, `found_slice_header`, `parse_slice_header`, `check_slice_header`, the LCU loops of `decode_one_lcu_row` and `decoder_decode_picture_data`; the content of an LCU is a parameter | refinement: the state in front of an LCU lies inside or in front of a slice of the described sequence |
| C83 | as C82 | from C82 for slices in place; refuted for lost slices |
| C84 | as C82 | two runs on memories that agree on the unit and 32 bytes per LCU row, side by side; refuted for the unit alone |
| C85 | `AecModel` (as C32-C34), specification `CodSpec` (an encoder in exact integers) | refinement: the registers represent the interval and the offset in both domains; disjointness by induction |
| C86 | as C85 | follows from C85, disjointness and the bits a request can take; the code string is constructed |
| C87 | the element readers of `SynModel` (as C35-C40), specification `BinSpec` (binarisations) | a calculus of readers and bins: sequencing, unary, fixed-length and Exp-Golomb codes; with C86 for the existence of the slice |
| C88 | the coefficient readers of `SynModel` (as C35, C36), specification `CofSpec` (binarisation of a block, independent of the reader: contexts from the largest magnitude so far and windows of positions) | induction over the coded positions of a group and over the groups, in the calculus of C87 |
| C89 | the ten kernels of `vec/intrinsic_sao.cc` and `vec/intrinsic_sao_avx2.cc`, 8-bit | lane lemmas (saturating 16-bit arithmetic is exact here), rows as fills by vectors, then the generic kernels of C48 |
| C90 | `vec/intrinsic_alf.cc: alf_filter_block_sse128`, 8-bit | lane of the dot product, loop invariant over vectors; refuted for large coefficients |
| C91 | `vec/intrinsic_pixel.cc: avs_pixel_average_sse128, plane_copy_c_sse2` | loop invariant over vectors |
| C92 | `vec/intrinsic_deblock.cc: deblock_edge_{ver,hor}{,_c}_sse128`, choice in `deblock.cc` | lanes of each register against the line they hold; two runs side by side over the picture |
| C93 | `vec/intrinsic_inter_pred.cc: intpl_{luma,chroma}_block_{hor,ext}_sse128`, `intpl_luma_block_ver{0,1,2}_sse128`, called from `mc.cc: mc_luma`, `mc_chroma` | lanes against the taps of one sample; blocks of columns and lines; equal memories |
| C94 | assertions of `header.cc: task_get_references`, `has_blocking`, `parse_picture_header` | invariant of the picture buffer; three refuted |
| C95 | `davs2.cc` (units, output pictures, close), `decoder.cc: get_one_free_picture` | automaton of the life of a block; places of blocks as an invariant; leak at close refuted |
| C96 | `header.cc: parse_header`, `parse_sequence_header` | induction over the things in front of the picture; parsers never move back |
| C97 | `intrinsic_inter_pred_avx2.cc`: all kernels and the choice by width; `intrinsic_inter_pred.cc`: the vertical kernels for other widths | every lane of a register is the tap sum of its sample; lines and pieces of lines as fills; first pass as an array of words |
| C98 | `intrinsic_idct.cc`, `intrinsic_idct_avx2.cc`: all transform kernels, statement for statement; the table of `davs2_dct_init`; `inv_transform` | a symbolic evaluator of vector programs, proved sound; its result for each kernel is matched with the transform matrix of the specification |
| C99 | `intrinsic_idct.cc`: the secondary transforms; both files: the doubling kernels | lane by lane for the secondary transforms; the same evaluator for doubling |
| C100 | `intrinsic_intra-filledge.cc`: all four functions; `davs2_get_intra_pred`, `davs2_get_intra_pred_chroma` with them | stage by stage against the C functions; a mask for the one byte that differs |
| C101 | `intrinsic_intra-pred.cc`, `intrinsic_intra-pred_avx2.cc`: vertical, horizontal and the directional predictors of the tables | trees of a small language; a symbolic evaluation proved sound by a relation between two structures of operations, run on every shape |
| C102 | `intrinsic_intra-pred.cc`, `intrinsic_intra-pred_avx2.cc`: `intra_pred_dc_*`, `intra_pred_plane_*`, `intra_pred_bilinear_*` | loops by induction over rows and registers; lanes shown not to wrap from the range of the border |
| C103 | `davs2_get_intra_pred`, `davs2_get_intra_pred_chroma` with the tables of `davs2_intra_pred_init` | composition of C69, C100, C101 and C102; ranges of the border buffer |
| C104 | `test/md5.h`: the macros, `md5` statement for statement, `FileMD5`; the text of `test.c:356-359` | operation by operation against RFC 1321 with rotating registers; the constants recomputed from the series of the sine; padding by cases |
| C105 | `test/inputstream.h`: `find_start_code`, `check_frame`, `find_one_frame`, `count_frames`; the send loop of `test.c:test_decoder` | search lemma, induction over the rest of the file; the cut is shown to be unique; streams by induction over units |
| C106 | `test/utils.h`: `write_frame_plane`, `write_frame`, `write_y4m_header`; `test.c:output_decoded_frame` without messages and PSNR | raster of a plane as nested loops; offsets by the sizes before; printed numbers read back |
| C107 | `cpu.cc:davs2_cpu_detect` (64-bit build), `davs2_get_simd_capabilities`, `davs2.cc:469-477` | bit by bit: conditional `|=` and `&= ~` as boolean formulas; flags that exclude each other bound the text |
| C108 | `cpu.cc:davs2_cpu_num_processors` (Linux), the thread numbers of `davs2.cc:davs2_decoder_open` | counting; cases |
| C109 | `primitives.cc:init_all_primitives`, the nine `*_init` functions, `pixel.cc:g_partition_map_tab`, the calls through the table | last assignment wins, by induction; the assignments checked one by one; composed with C107 |
| C110 | `x86/dct8.asm:idct_4x4_sse2`, `x86/pixeladd8.asm:pixel_add_ps_*` (8-bit), instruction for instruction | the evaluator of C98 for the transform; lanes and lines for the addition; composed with C98 |
| C111 | `x86/mc-a2.asm:memcpy_aligned_mmx`, `fast_memcpy_mmx`, `fast_memzero_mmx`, `fast_memset_mmx`; `memzero_aligned_c_sse2`, `_avx`; row copies of `frame.cc` | loads, stores and loop counters as written; prefetch, `sfence`, `emms`, the order of non-temporal stores and the unused return value left out; addresses do not wrap |
| C112 | `x86/quant8.asm:dequant_sse4`, instruction for instruction, on 64-bit argument registers | compared with `dequant_c` of C41 on the coefficients in memory; registers as in System V x86-64 (on Win64 the arguments come in other registers) |
| C113 | `common.h:davs2_malloc`, `davs2_calloc`, `davs2_free` on a heap of the C library | `malloc` answers NULL or any fresh block; a user that keeps to its own pieces is the hypothesis; that each part of the decoder is such a user is not part of it |
| C114 | `x86/blockcopy8.asm`: `blockcopy_pp` and `blockcopy_ss` of all 25 sizes, sse2 and avx, `pixel.cc` `davs2_blockcopy_pp`, `davs2_blockcopy_ss`, and the members `copy_pp`, `copy_ss` of C109 | the lists of instructions were written by a script from the text of the file, macros and `%rep` expanded; loop counters are numbers of turns; blocks do not overlap and the destination rows do not either |
| C115 | `x86/dct8.asm`: `idct_8x8_ssse3` with its two internal passes and tables, instruction for instruction on 8 words or 4 double words | the stack buffer is apart from source and destination; the secondary transform before it is not combined with it |

Vector kernels: C89-C93 and C97-C103 are about SSE and AVX2 intrinsics. A register is a function from byte
positions to bytes (in C98 and C101 a list of lanes), and each intrinsic is a definition of `VxModelBase.v`, `VdModel.v`,
`ViModel.v`, `VjModel.v`, `VtModel.v`, `VpModel.v` or `VqModel.v`, written after the instruction set reference; that these
definitions are what the processor does is part of the trusted base of those properties.

Not modelled at all: the rest of the SIMD code (in `source/common/vec`: AVX2 deblocking, the older SSE kernels of interpolation,
which are compiled but not chosen; all of `x86` but the functions of C110-C112, C114 and C115; on processors without AVX2 the 8-bit table has the function of C115
where C98 has `idct_8x8_sse128`; C98 has `idct_4x4_sse128`, the entry of the 10-bit build, where the 8-bit table has the function of C110), the command-line application apart from C104-C106 (its options, messages and PSNR),
`win32thread`, logging, memory allocation failure.

## 4. Findings

Each finding is a place where the natural reading of a property is false of the code. Those
with a theorem name are machine-checked; the others were seen while reading and are recorded
because a property states its precondition around them.

Bit stream and packets

* F1. `vlc_u_v`/`read_bits` read up to four bytes past the end of the unit
  (`C08_u_v_reads_past_end_refuted`); `get_vlc_symbol` scans for a one bit without any bound
  (`C08_ue_v_unbounded_scan_refuted`). Callers rely on slack behind the buffer.
* F2. A slice whose first data bytes look like start code 0x01 is treated differently by the
  pseudo-start-code removal (`C01_slice_type_01_refuted`, `C03_slice_type_01_refuted`), a
  trailing pseudo code is not removed (`C01_trailing_pseudo_refuted`), and the unit handed over
  by a flush is not cleaned at all (`C01_flush_refuted`).
* F3. `find_pic_start_code` can step over a start code (`C05_hidden_refuted`).
* F4. A packet larger than MAX_ES_FRAME_SIZE (4,000,000) overruns the assembly buffer
  (`C20_overflow_refuted`).

Headers

* F5. RPS counts read with 3 bits index arrays of smaller size
  (`C11_sequence_overflow_refuted`, `C11_inter_overflow_refuted`); a truncated RPS index is -1
  (`C11_truncated_index_refuted`).
* F6. The announced output depth is taken from `encoding_precision`, the pictures are written
  with `sample_precision` (`C09_output_depth_refuted`).
* F7. A COI gap of 256 pictures is read as no gap (`C10_gap_256_refuted`).
* F8. `((upper << 18) + lower) * 400` for the bit rate, and the 32-bit `bbv_delay`, overflow
  `int` (header.cc:279). Reads after the end return -1 and the header can still be accepted.
* F9. `(width & 0)` in header.cc:1094 is a typo that disables a test.
* F10. The default 8x8 weighting matrix has a 28 where its neighbours suggest 112
  (quant.cc:59); weighted quantisation is switched off without reading its flag (header.cc:446).
* F11. Decoder instances share the globals `g_bit_depth` and `max_pel_value`.

Output and buffers

* F12. Display order is violated across a sequence change because the POC restarts
  (`C13_new_sequence_refuted`); a header of the same size is not announced
  (`C17_same_size_refuted`) and keeps frames of another chroma format.
* F13. A picture without slices is never output and makes a flush wait for ever
  (`C16_flush_hangs_refuted`).
* F14. Returning a frame twice corrupts the recycle list (`C26_double_append_refuted`);
  `xl_remove_head` waits with `if` instead of `while`, so that a spurious wake-up returns NULL
  to callers that dereference it.
* F15. Deleting the thread pool drops queued jobs (`C24_exit_refuted`).
* F16. A negative POC can collide with the sentinel -1.

Quantisation and filters

* F17. Chroma QP with high bit depth reads outside its table (`C12_chroma_hbd_refuted`);
  accumulated QPs leave the tables in both directions and `is_valid_qp` only logs
  (`C36_accumulation_refuted`, `C36_negative_refuted`, `C36_depth12_refuted`).
* F18. `deblock_init_frame_parames` uses the previous picture's chroma delta.

Entropy decoding

* F19. More than 128 bit requests after the end of the data shift a 64-bit register by more
  than its width (`C32_wrap_refuted`). It is reachable because `decode_lcu_parse` ignores
  errors of `cu_read_info` and AEC_RETURN_ON_ERROR clears the flag.
* F20. Nine leading one bits start the decoder with offset = range (`C34_start_refuted`); a
  bypass symbol in the saturated state keeps the wrong domain flag (`C34_bypass_refuted`).
* F21. Escape codes overflow `int` after 31 zeros (`C37_mvd_refuted`).
* F22. On truncated data two SAO bands coincide (`C38_bands_refuted`).
* F23. On truncated data a coding unit is accepted with `dct_pattern` -1, which then indexes
  the table of inverse transforms (`C61_pattern_refuted`; cu.cc:643 does not test the result).
* F24. `1 << (level - 4)` in `cu_read_header` shifts by -1 for 8x8 units. The change of the
  QP is cast to 8 bits before its range is tested.

Motion vectors

* F25. MV scaling overflows `int` (`C45_overflow_refuted`); skip scaling is not symmetric
  (`C45_skip_symmetry_refuted`) and is cut to 16 bits before saturation
  (`C45_saturation_refuted`). Different PMVR differences give the same vector
  (`C60_unique_refuted`). `davs2_median` overflows for extreme arguments
  (`C59_median_refuted`).

Decoded-picture buffer

* F26. When every buffer holds a picture that is still announced as a reference, the fallback
  of `task_get_references` (header.cc:1405-1440) overwrites the oldest of them
  (`C21_fallback_overwrites_reference_refuted`).
* F27. The background picture is created with reference count 0 (decoder.cc:908) and no
  reference is taken before it is decoded into. Its release brings the count below zero
  (`C22_background_release_refuted`), and it is overwritten while its previous content waits
  for output (`C21_background_overwritten_refuted`).
* F28. `destroy_dpb` marks frames in use "free when not referenced" and then frees the block
  that contains all of them (header.cc:872-897), so a later release touches freed memory
  (`C22_reset_release_refuted`).
* F29. A picture packet without slices frees its task but neither outputs the picture nor
  releases its frames (decoder.cc:1170-1188): the buffer is lost
  (`C22_dropped_picture_leaks_refuted`).
* F30. A stored display order of -1 means "no picture", although -1 is also a display order a
  stream can produce; such a picture is never found as a reference. P pictures with an empty
  reference list are accepted.
* F31. `sao_get_neighbor_avail` asks for the slice number of the LCU below, which in the
  one-thread order is not parsed yet; the numbers are not reset between pictures
  (decoder.cc:90 is commented out), so those of the previous picture are used. Samples can be
  in no region (never filtered) or in two (`C55_stale_slices_refuted`).
* F32. In the two-thread order (`decode_lcu_row_recon`, decoder.cc:662-677) offset and ALF run for
  the row above and for the last row, both inside `if (i_lcu_y)`: a picture one LCU high is never
  filtered, but it is in the one-thread order. Which order is used depends on
  whether a pool thread is free (`C63_one_row_refuted`).
* F33. `sao_block_bo_c` takes the band from the global `g_bit_depth` (sao.cc:345), not from its
  `bit_depth` argument: with decoders of different depths in one process the band index can
  leave the table (`C56_other_depth_refuted`).
* F34. With filtering across slices off and a slice starting inside an LCU row, the region of the
  LCU above the new slice extends four samples left into a column that deblocking of the next
  row still changes: these samples are filtered before they are deblocked in the one-thread order,
  after it in the other (`C63_slices_refuted`).
* F35. `sao_lcurow` uses `slice_sao_on` of the slice parsed last for the whole row
  (sao.cc:603), also for LCUs of earlier slices in the row.
* F36. `deriveBoundaryAvail` (alf.cc:276-295) compares slices only for the upper neighbour; the test for
  the lower one is commented out. With filtering across slices off, the LCU above a slice
  boundary leaves its last four lines to the row below, and that row does not take them: four lines
  above every slice boundary are never filtered (`C64_slices_refuted`).
* F37. A picture one LCU high is filtered by ALF in the one-thread order only
  (`C64_one_row_refuted`; same cause as F32).
* F38. `vlc_read_alf_coeff` (alf.cc:373-391) checks neither the number of filters nor the region
  distances: 17 or more filters store behind `coeffmulti`, a distance sum above 15 behind
  `filterPattern`, and a header that ends early yields the distance -1, which overwrites the member in
  front of `filterPattern` (`C58_filters_refuted`, `C58_distance_refuted`, `C58_truncated_refuted`).
* F39. ALF coefficients are not checked either: `alf_recon_coefficients` overflows `int` for values
  the code accepts (`C57_overflow_refuted`).
* F40. Depth reduction in `davs2_write_a_frame` (decoder.cc:1022, 1037, 1051) clips to the coded
  range before the cast to `uint8_t`: in a 10-bit picture shown with 8 bits the samples 1022 and 1023
  round to 256 and are delivered as 0 (`C30_white_refuted`).
* F41. `davs2_write_a_frame` has no branch for an output depth above the coded depth, nor for a
  reduction to 10 bits. A Main-10 header with encoding precision 8 and sample precision 10 is accepted, and its
  pictures are delivered unwritten, with two bytes per sample in a buffer allocated for one
  (`C30_not_written_refuted`). The sequence information given to the caller reports the encoding
  precision as output depth (header.cc:173), not the one used here.
* F42. The direct branch of `davs2_write_a_frame` (decoder.cc:961-969) replaces the plane pointers of the
  pool picture and nobody restores them (the source has a TODO). In a high-bit-depth build a later
  sequence of equal size but with depth reduction copies into the frame that the picture
  showed before (`C30_recycled_refuted`).
* F43. `decoder_alloc_extra_buffer` compares its size as `int` (decoder.cc:923): pictures whose buffers
  need 2 GB or more (16384x16384 with both filters) are rejected although the memory was
  allocated and suffices (`C28_extra_refuted`).
* F44 (read, not proved). `ALIGN_POINTER` assigns a `uint8_t *`; used on `pel_t *` (frame.cc:284-286)
  it does not compile in C++ when `pel_t` is `uint16_t`. The model gives the meaning it would
  have with the cast.
* F45. cu.cc:937-942 stores the limited block position, in quarter samples, in the 16-bit
  components of a motion vector. The position goes up to 4 * (size + 4) + 7, so in pictures of
  more than 8184 columns (or lines) it wraps: with 8192 columns a block near the right border is
  predicted from 8188 columns to the left of the picture, with more columns every block from
  column 8192 on is wrong even without motion, and for lines the reads are far outside the plane
  (`C44_wide_refuted`). The sequence header accepts up to 16383.
* F46 (read, not proved). `decode_lcu_parse` (cu.cc:1294-1333) ignores the results of its recursive
  calls, so an error in a unit below LCU level does not stop the slice; `cu_read_all_coeffs` does not
  check the negative pattern index of an unsplit luma block (cu.cc:650) as it does for the others.
* F47 (read, not proved). For an S picture `task_get_references` (header.cc:1464-1471) clears motion vectors
  and reference indices of every frame of the DPB, also of frames that other threads are still
  decoding or using as collocated motion.
* F48 (read, not proved). `create_dpb` runs again only when width or height change (header.cc:1090), not when
  the chroma format does, so the frames keep the layout of the previous format.
* F49 (proved: `C52_slice_255_refuted`). The slice number is stored as `int8_t` (cu.cc:1228) and -1 is the mark
  of a unit with an error (cu.cc:1328, 1366). The units of the 256th slice of a picture are parsed and then
  not reconstructed; slices whose numbers differ by 256 also count as the same slice for availability.
* F50 (proved: `C49_mode5_needs_padding_refuted`). The predictor of mode 5 for blocks of 8x32 (and by symmetry
  mode 31 for 32x8) does not follow the general rule for every border: it repeats one entry where the rule walks
  on. The two agree because the filling functions repeat the last border sample, which C49 states as hypothesis
  and C69 derives.
* F51 (read, not proved). `intra_pred_plane_c` shifts the possibly negative gradient sum to the left (`iH << 5`),
  undefined before C++20; the model gives it the arithmetic meaning.
* F52 (read, not proved). Behind the last LCU of a row `davs2_cache_lcu_border` still copies `2 * w + 1` samples
  starting at the last column of `intra_border` (decoder.cc:131): it reads up to 128 samples past the array, into
  the next array of the same allocation. The values are not used.
* F53 (proved: `C27_self_deadlock_iff`, `C27_default_build_refuted`). In the default build a row that meets a bad slice
  header returns before `decoder_signal` (decoder.cc:410-412); the next complete row of a reference picture waits in its own
  `decoder_signal` for the row above, which nobody signals any more: the decoding thread waits for itself for ever. A coding
  unit cut off right behind a slice start code suffices (`aec_start_decoding` reports an error, `decoding_error` stays 0).
  If it is the last row, the picture is never delivered and its task never freed (`C27_delivered_iff`).
* F54 (proved: `C27_lost_wakeup_refuted`). `decode_one_lcu_row_parse` writes `i_parsed_lcu_xy` and broadcasts without the mutex
  (decoder.cc:581-582): the last broadcast of a picture can fall between the reader's test and its sleep. Only in builds
  with `CTRL_AEC_THREAD`.
* F55 (proved: `C27_bad_header_refuted`). In the same builds a bad slice header leaves LCUs that are never published; the
  reconstruction thread waits for them for ever if no later row is parsed.
* F56 (proved: `C27_row_workers_refuted`, `C27_cache_ahead_refuted`). Were several row workers started per picture
  (`b_next_row_launched`, a TODO in the source), they would deadlock: `num_decoded_lcu_in_row[y]++` wakes nobody, and the
  signal of a row is given by the worker of the next one. They would also cache the samples above the next LCU too early.
* F57 (proved: `C72_one_column_refuted`). `davs2_lcu_deblock` shortens the run of horizontal edges by one unit for the first
  LCU of a row (the last column is left for the next LCU) and makes up for it only in later LCUs (deblock.cc:527-539): in a
  picture one LCU wide the horizontal edges of the last eight columns are never filtered.
* F58 (proved: `C77_s_picture_refuted`). In S pictures inter units are read as skipped, `fill_mv_and_ref_for_skip` has no branch
  for S pictures and no references are read (predict.cc:614-662, aec.cc:1403-1436): reference indices and vectors are what the
  `cu_t` of the unit held from an earlier picture, -1 after an intra unit, which is then used as an index of `fref`.
* F59 (read off). The memset in `get_mv_fskip_spatial` (predict.cc:412) adds up the sizes of the arrays and is two bytes short
  of the structure; harmless, the last component is always written before it is read (part of C75).
* F60 (proved: `C74_range_refuted`). Scaling a neighbour's vector (predict.h `scale_mv_default`) is done in `int` without a
  limit: a vector of -32768 quarter samples at distance 2, scaled to a reference at distance 16, overflows (undefined).
* F61 (read off). `cu_get_neighbors` fetches a collocated neighbour with the wrong line length and dereferences `fref[0]` even if it is
  null (predict.h:267-279); the value is never used.
* F62 (read off). Errors of `cu_read_references` are ignored (cu.cc:737-817): with truncated data the references of an earlier unit
  are used. In the model such a unit ends in `Fail`.
* F63 (read off). Skipped units of P and F pictures leave `p_dirpred` at its initial -1 (only references and vectors are
  stored); nothing reads it there, since only B pictures look at directions.
* F64 (read off). `p_tmv` and the slice numbers are not cleared between pictures (decoder.cc:67-111): if slices are lost, units left over from an
  earlier picture with the same slice number count as available neighbours. C78 is about complete pictures.
* F65 (read off). G and GB pictures are decoded as inter pictures: `aec_read_cu_type` (aec.cc:1000) compares with I only,
  header.cc:340 makes the type of an intra-coded background picture 3 or 6.
* F66 (proved: `C83_lost_slice_refuted`). The position in a slice header is read and dropped (header.cc:777-797, `mb_row` has no
  reader): slices are decoded one behind the other from the first LCU on. After a lost slice everything that follows is shifted, without an error.
* F67 (proved: `C84_leftover_refuted`). `found_slice_header` (bitstream.cc:83-96) is not told the length of the unit: with
  missing slices the bytes behind it, remains of earlier units or of the emulation prevention removal in place, are searched for
  a start code. If one is there, the rest of the LCU row is given up (and see F53), otherwise decoding goes on with the exhausted entropy decoder.
* F68 (read off). An end flag that is not followed by a start code within four bytes is ignored and decoding goes on with the
  old slice header and entropy decoder; `b_slice_checked` is not an error state.
* F69 (proved: `C86_saturated_refuted`). An equiprobable bin in the saturated state (`i_value_s` at its bound 254 and the range
  shifted as often: 254 doublings since the last less probable bin) is not followed by a switch to the R domain (aec.cc:474-512): of two such bins coded as 0, 1
  the second is decoded as 0. `C85_nine_ones_refuted`: a slice that starts with nine ones lies outside of the interval of every sequence of bins; it is decoded without complaint.
* F70 (proved: `C90_byte_saturation_refuted`, `C90_word_saturation_refuted`). `alf_filter_block_sse128` packs the coefficients
  into signed bytes and adds in 16 bits with saturation (intrinsic_alf.cc:72-187). With transmitted coefficients in the ranges of the standard
  a plane of 100 becomes 0 (derived centre coefficient 192) and, with all derived coefficients in -64..127, a plane of 255 becomes 129; the C kernel leaves both alone:
  the picture depends on the processor. The first case needs a derived centre coefficient above 127, which the parser does not reject; the second does not.
* F71 (proved: `C90_overshoot_refuted`). In the same function the column of the masked store is computed from the picture
  (`xPosEnd16` includes `lcu_pix_x`) but compared with a column of the block (intrinsic_alf.cc:63-65, 189): in the last LCU of a row up to 15 samples behind the picture are overwritten. They lie in the padding, which is filled later.
* F72 (proved: `C90_mask_index_refuted`). It loads `intrinsic_mask[(lcu_width & 15) - 1]` unconditionally (intrinsic_alf.cc:69):
  for a width that is a multiple of 16 this is the element -1, undefined although the value is not used.
* F73 (read off). `davs2_memzero_aligned_c_sse2/avx` and `davs2_memcpy_aligned_c_sse2` drop the last `n mod 16` (32) bytes
  (intrinsic_pixel.cc:124-152); no caller passes such a size.
* F74 (proved, C93_chroma_refuted and C97_chroma_refuted; refutes part of C93 and C97). `intpl_chroma_block_ext_sse128` chooses its branch for symmetric
  filters with `coef_y[1] == coef_y[6]` (intrinsic_inter_pred.cc:4146), copied from the luma kernel; chroma filters have
  four taps. For line positions 1/8 to 6/8 the entry read belongs to the next filter and differs, so even the symmetric
  filter 4/8 takes the general branch; for 7/8 it is read beyond the end of `INTPL_FILTERS_C`. If a 6 is found there,
  mirrored coefficients are used and the prediction is wrong. That branch also stores the first line twice in its last,
  masked columns (4272).
* F75 (proved: `C45_field_abort_refuted`). `getDeltas` (predict.h:76-117) asserts that the
  POCs it gets are even, but is given `i_poc` itself, while the distances are
  doubled. The GNU builds keep assertions (build/linux/configure defines NDEBUG for MSVC only): in a field-coded sequence the
  first vertical scaling in a picture of odd POC ends the process. Without assertions the result is right (`C45_field_partial`).
* F76 (proved: `C45_collocated_refuted`). Vectors taken from the collocated field (temporal skip and direct) are corrected as if they
  started in the current field (`oriPOC = fdec->i_poc`), wrong by four quarter lines before scaling if the collocated field has the other parity.
* F77 (proved: `C94_reference_refuted`, `C94_poc_refuted`). Two assertions are left to the stream: header.cc:1305-1306 (a picture may
  refer to any number; if that picture is in the buffer but not a reference, the process ends although the `if` below handles the case) and
  header.cc:747 (POC below zero: first picture with `coi + display_delay < picture_reorder_delay`). A few bytes suffice to end the process of a GNU build.
* F78 (proved: `C94_count_refuted`). header.cc:1230 counts a picture twice between its insertion into the output list and its release by the decoder
  (decoder.cc:521-524): with the expected picture lost and the buffer full the assertion fails, depending on timing.
* F79 (proved: `C95_close_refuted`, `C95_lost`). `davs2_decoder_close` frees idle units, recycled pictures and the unit being filled, but neither
  pictures waiting in `outpics.pics`, nor pictures still held by the caller, nor units of jobs that were never started. A caller that stops in
  the middle of a stream leaks them.
* F80 (read off). `davs2_decoder_open` reads `param->info_level` before its test for NULL (davs2.cc:451, 463). If a unit cannot be
  allocated, the `fail` path calls `davs2_decoder_close`, which joins a thread pool that does not exist (NULL dereference, threadpool.cc:340).
  `davs2_decoder_frame_unref` leaves `out_frame->magic` set: returning a picture twice puts it twice into the list of free pictures.
* F81 (proved harmless, C99_doubling). `inv_wavelet_64x64_avx2` (intrinsic_idct_avx2.cc:1906-2139) fills `T..[0]` and `T..[1]` but its
  butterflies run for `i < 4`: they read six registers that were never set (undefined in C). Their results are not used.
* F82 (proved, C98_avx2_stride_refuted). The AVX2 functions ignore `i_dst` and always store at the width of the block, and
  `idct_8x32_sse128` is right for a stride of 8 only (it stores at `pass * 8 * i_dst + k * 8`). `inv_transform` passes the width, so no stream shows it.
* F83 (proved harmless, C100_byte_behind_refuted and C100_luma). The vector fill functions set `k - j + 1` bytes where `k - j` are
  meant (intrinsic_intra-filledge.cc:62, 182, 304, 424): in 16x4 and 32x8 blocks the byte behind the border is overwritten. No predictor reads it.
* F84 (read, not proved). `davs2_calloc` (common.h:1258-1264) clears the first of `count` elements only. Nothing calls it.
* F85 (proved, C101_rows_below_refuted, C101_mode16_refuted). The AVX2 predictors for modes 8, 16 and 32 write eight rows at a time
  (`bsy >>= 1; for (i = 0; i < bsy; i += 4)`): on blocks of 4 rows (4x4, 16x4) they overwrite the four rows below the block. Mode 16 fills these
  rows from in front of its local array (intrinsic_intra-pred_avx2.cc:6317-6327, `pfirst[0] - i - 2` with `left_size` = 1): an
  out of bounds read. Blocks below are decoded later, so the picture is right except for rows below the picture.
* F86 (proved, C101_mode13_refuted and C101_mode13_any_mask). `intra_pred_ang_xy_13_avx` loads `intrinsic_mask_256_8bit[bsx - 1]`
  (intrinsic_intra-pred_avx2.cc:5079) from a table of 16 rows also for `bsx` of 32 and 64: an out of bounds read of up to 1.5 kB. The mask is then not used.
* F87 (proved, C101_luma_buffer_refuted, C101_chroma_buffer_refuted, C103_chroma_v_refuted). Mode 3 reads past the border buffer: the AVX2 function on
  64x64 luma blocks up to EP[268] where EP[256] is the last, both functions on 32x32 chroma blocks up to EP[131] and EP[140] where EP[128] is the last (for V the
  end of `buf_edge_pixels`). What follows in the structure is `pred_blk`; the values are not used.
* F88 (read off). `intra_pred_hor_sse128` computes `0x01010101 * rpSrc[-y]` (intrinsic_intra-pred.cc:135, 141) in `int`: for samples of 128 and more
  this overflows, undefined in C.
* F89 (proved, C104_small_letters_refuted). The program prints the digest in capitals and compares with `strcmp` (test/test.c:356-359): a reference
  with small letters, as `md5sum` prints it, never matches.
* F90 (proved, C104_long_refuted). The loop counter of `FileMD5` is an `int` (test/md5.h:205): output files of 2^37 bytes and more
  overflow it.
* F91 (read off). `FileMD5` reads words with `fread(&x, 4, 16, f)`: for lengths that are no multiple of four the last word is a partial element,
  whose value the C standard leaves indeterminate; the model stores the bytes, as the usual libraries do.
* F92 (proved, C106_rate_refuted). With `--y4m` the program looks the frame rate up in a table of nine rows (test/test.c:120-132), while the library
  accepts the codes 1 to 13 (header.cc:58, 273-276): a stream of 100 frames a second or more makes it read behind the table.
* F93 (proved, C106_planes_refuted). The y4m line always says `C420` (utils.h:172-180); of a 4:0:0 stream only the luma plane is written (utils.h:202), so
  frames have other lengths than the line promises.
* F94 (proved, C106_resize_refuted). The y4m line is written once (utils.h:167); after a sequence header with another size the pictures no longer have the
  size it names.  The depth in it is the announced output depth, which can differ from the depth of the pictures (C09_output_depth_refuted).
* F95 (proved, C107_cache_refuted). `strchr` finds the terminating zero too (cpu.cc:352-357): an empty cache descriptor, and always the cleared low byte of eax, counts
  as a cache line of 64 bytes.  Only the logged text and the choice of `SSE3` in it depend on it.
* F96 (proved, C108_processors_refuted). On Linux processors are counted up to `sizeof(cpu_set_t)` = 128, the size in bytes, not in processors (cpu.cc:404): in a process
  bound to processors from 128 on the count is 0, and `davs2_decoder_open` with `threads` = 0 returns NULL.
* F97 (proved, C109_second_refuted). `inv_transform_4x4_2nd_sse128` uses `_mm_min_epi32` and `_mm_max_epi32` (SSE4.1, vec/intrinsic_idct.cc) and is put into the
  table for SSE2 (transform.cc:959): a processor with SSE2 and without SSE4.1 meets an unknown instruction at the first 4x4 secondary transform.
* F98 (proved, C109_disable_avx_refuted). `init_all_primitives` fills the table once per process and only counts afterwards (primitives.cc:53-57): `disable_avx` of every decoder
  but the first has no effect. The counter is set before the table is filled and without a lock, so a second thread opening a decoder at the same time can go on with NULL members.
* F99. The Makefile compiles every file for x86-64 with `-mavx` (build/linux/Makefile:88), so the compiler may use AVX in the C functions too: the choice by features and
  `disable_avx` do not keep the built library from needing AVX. C109 takes C functions to need nothing.
* F100 (proved, C110_same_residual_refuted, C110_any_residual_refuted). `idct_4x4_sse2` (x86/dct8.asm) does not limit its result to `d + 1` bits as `idct_4x4_c` does (one
  coefficient of 32767 gives 256 instead of 255), and `pixel_add_ps` wraps at 16 bits where `DAVS2_CLIP1` does not. After the addition the samples agree all the same (C110_recon_4x4).
* F101 (proved, C111_aligned_refuted). `memcpy_aligned_mmx` (x86/mc-a2.asm:412) counts down by 32 and writes up to 31 bytes below the destination when the size is not a multiple
  of 16, though the table gives it the type of `memcpy`. All callers pass multiples of 32 (C111_rows, C111_planes). It has no `emms`, unlike the three functions below it.
* F102 (proved, C111_memset_refuted). `fast_memset_mmx` (x86/mc-a2.asm:610) packs with signed saturation: for a value of 128 to 255 every full group of eight bytes becomes 127 and
  only the last bytes get the value. Nothing calls it today.
* F103 (proved, C111_memzero_aligned_refuted). `memzero_aligned_c_sse2` and `memzero_aligned_c_avx` leave the last `n mod 16` or `n mod 32` bytes uncleared where
  `memzero_aligned_c` clears them, and fault on an unaligned address. Nothing calls the table member today.
* F104 (proved, C112_shift_refuted, C112_count_refuted). `dequant_sse4` (x86/quant8.asm) uses all 64 bits of the registers of its `int` arguments `i_coef` and `shift`, of which the
  System V calling convention fixes only the lower 32: with anything in the upper half it shifts by 31 or runs past the block. Compilers normally clear the upper half. With fewer
  than 16 coefficients the loop counter starts at 0 and runs through memory. `dequant_coeffs`, the only user of the table member, is not called: `aec.cc` dequantises on its own.
* F105 (proved, C113_calloc_refuted). `davs2_calloc` (common.h:1258) clears `size` bytes instead of `count * size`, and does not check the product. Nothing calls it today.
* F106 (proved, C113_wrap_refuted). `davs2_malloc` does not check `i_size + 39`: from 2^64 - 39 on it asks `malloc` for a few bytes and writes and returns a pointer behind them. No caller
  is known to reach such a size.
* F107 (proved, C115_upper_half_refuted). `idct_8x8_ssse3` (x86/dct8.asm:467) doubles and uses all 64 bits of the register of its `int` argument `i_dst`, where `idct_4x4_sse2` uses
  `r2d`: with anything in the upper half the lines after the first are written elsewhere. Compilers normally clear or extend it. Its residuals keep 16 bits where the C function keeps 9
  (C115_same_residual_refuted); only the sums with the prediction agree.

## 5. Assumptions

`Print Assumptions` stands under every property theorem. For every theorem listed here its
output is "Closed under the global context": no axiom, of the standard library or otherwise,
is used.

| file | theorems |
|------|----------|
| `AecProps.v` | `C31_contexts`, `C32_order`, `C32_start`, `C32_inside`, `C32_n_bits`, `C32_wrap_refuted`, `C33_continue0`, `C33_continue0_ext`, `C34_total`, `C34_step`, `C34_offset`, `C34_start_refuted`, `C34_bypass_refuted` |
| `AlfProps.v` | `C57_normalised`, `C57_flat`, `C57_range`, `C57_kernels`, `C57_region`, `C57_selected`, `C57_no_overflow`, `C57_overflow_refuted`, `C58_roundtrip_partial`, `C58_filters_refuted`, `C58_distance_refuted`, `C58_truncated_refuted`, `C64_serial`, `C64_delayed`, `C64_one_row_refuted`, `C64_slices_refuted` |
| `ApProps.v` | `C105_packets`, `C105_cut_unique`, `C105_stream`, `C105_count`, `C105_count_ends`, `C106_raw`, `C106_y4m_partial`, `C106_rate_refuted`, `C106_planes_refuted`, `C106_resize_refuted` |
| `BcProps.v` | `C114_copies`, `C114_same`, `C114_sizes`, `C114_called`, `C114_overlap_refuted` |
| `BinProps.v` | `C87_mvd`, `C87_mvd_wide`, `C87_delta_qp`, `C87_luma_mode`, `C87_chroma_mode`, `C87_cu_type`, `C87_cu_skip`, `C87_directions_b`, `C87_directions_f`, `C87_reference`, `C87_dmh`, `C87_cbp_intra`, `C87_cbp_inter`, `C87_sao_merge`, `C87_sao_plane`, `C87_sequence`, `C87_coded_partial` |
| `BsProps.v` | `C01_dispose_exact_partial`, `C01_slice_type_01_refuted`, `C01_trailing_pseudo_refuted`, `C02_inplace`, `C03_roundtrip_partial`, `C03_slice_type_01_refuted`, `C04_find_first`, `C04_find_none`, `C05_pic_start_code_partial`, `C05_hidden_refuted` |
| `CodProps.v` | `C85_interval_partial`, `C85_disjoint`, `C86_round_trip_partial`, `C86_every_bins_partial`, `C86_saturated_refuted`, `C85_nine_ones_refuted` |
| `CofProps.v` | `C88_block`, `C88_places`, `C88_unit` |
| `CpProps.v` | `C107_features`, `C107_disable_avx`, `C107_text_fits`, `C107_cache_refuted`, `C108_threads`, `C108_processors_partial`, `C108_processors_refuted` |
| `CuProps.v` | `C47_prediction_shapes`, `C47_transform_shapes`, `C47_prediction_tiles`, `C47_transform_tiles`, `C47_transform_sizes`, `C47_aligned`, `C66_luma`, `C66_chroma`, `C67_luma`, `C67_chroma` |
| `DbProps.v` | `C71_lcu_edges`, `C71_picture_edges`, `C72_picture`, `C72_one_column_partial`, `C72_one_column_refuted`, `C73_one_thread`, `C73_row_threads` |
| `DpbProps.v` | `C21_target_unused`, `C21_given_up_for_a_reason`, `C21_fallback_overwrites_reference_refuted`, `C21_background_overwritten_refuted`, `C22_users_are_the_owners`, `C22_users_never_negative`, `C22_reusable_iff_released_partial`, `C22_search_finds_free_partial`, `C22_no_invalid_release_partial`, `C22_background_release_refuted`, `C22_reset_release_refuted`, `C22_dropped_picture_leaks_refuted`, `C23_references_exact`, `C23_reference_not_given_up`, `C23_dropped_for_a_reason` |
| `DpbPropsA.v` | `C94_target`, `C94_skip`, `C94_reference_partial`, `C94_reference_refuted`, `C94_count_refuted`, `C94_poc_refuted` |
| `DqProps.v` | `C112_sse4`, `C112_levels`, `C112_shift_refuted`, `C112_count_refuted` |
| `EgProps.v` | `C69_border_is_the_rule`, `C69_luma_blocks`, `C69_chroma_blocks`, `C70_cached_border_is_unfiltered` |
| `FrmProps.v` | `C28_frame`, `C28_dpb`, `C28_extra`, `C28_extra_refuted`, `C29_extended`, `C29_inside`, `C30_same_depth`, `C30_reduced_partial`, `C30_properties`, `C30_frames_kept`, `C30_white_refuted`, `C30_not_written_refuted`, `C30_recycled_refuted` |
| `FtProps.v` | `C109_calls`, `C109_first_open`, `C109_runs_partial`, `C109_without_avx`, `C109_second_refuted`, `C109_disable_avx_refuted` |
| `HdrProps.v` | `C09_accepted_geometry`, `C09_roundtrip`, `C09_build_depth`, `C09_output_depth_refuted`, `C10_unwrap`, `C10_display_index`, `C10_gap_256_refuted`, `C11_accepted_fits`, `C11_picture_fits`, `C11_sequence_overflow_refuted`, `C11_inter_overflow_refuted`, `C11_truncated_index_refuted`, `C11_intra_safe_partial` |
| `HpProps.v` | `C113_user`, `C113_no_leak`, `C113_kept`, `C113_calloc_refuted`, `C113_wrap_refuted` |
| `ImProps.v` | `C50_luma`, `C50_luma_read`, `C50_chroma`, `C50_chroma_read`, `C50_neighbours`, `C50_units` |
| `IprProps.v` | `C48_predicted_samples_are_legal`, `C48_directional_between_four_samples`, `C48_border_inside_buffer`, `C48_local_arrays`, `C48_depends_only_on_border`, `C49_specialised_equals_general`, `C49_mode5_needs_padding_refuted`, `C49_directional_rule`, `C68_all_modes_follow_the_rule` |
| `LfProps.v` | `C53_edge`, `C53_range`, `C53_untouched`, `C53_chroma_local`, `C53_mirror` |
| `McProps.v` | `C43_luma`, `C43_chroma`, `C43_range`, `C43_copy`, `C43_constant`, `C43_storage`, `C43_average`, `C44_inside`, `C44_luma`, `C44_chroma`, `C44_bipred`, `C44_bipred_chroma`, `C44_wide_refuted`, `C65_luma`, `C65_chroma` |
| `MdProps.v` | `C104_md5`, `C104_small_letters_refuted`, `C104_long_refuted` |
| `MmProps.v` | `C111_memcpy`, `C111_memzero`, `C111_aligned`, `C111_aligned_refuted`, `C111_rows`, `C111_planes`, `C111_memset_partial`, `C111_memset_refuted`, `C111_memzero_aligned`, `C111_memzero_aligned_refuted` |
| `MpProps.v` | `C74_predictor`, `C74_range_refuted`, `C75_spatial_b`, `C75_spatial_f`, `C76_unit`, `C77_no_leftovers`, `C77_s_picture_refuted`, `C78_picture`, `C78_order`, `C79_kept`, `C80_coded`, `C81_skipped` |
| `MvProps.v` | `C45_default_partial`, `C45_default_monotone_partial`, `C45_accuracy_partial`, `C45_distance`, `C45_skip_partial`, `C45_biskip_partial`, `C45_overflow_refuted`, `C45_skip_symmetry_refuted`, `C45_saturation_refuted`, `C46_between`, `C46_choice`, `C60_plain`, `C60_window`, `C60_unique_refuted` |
| `MvPropsF.v` | `C45_field_partial`, `C45_frame`, `C45_field_abort_refuted`, `C45_collocated_refuted` |
| `NbProps.v` | `C51_neighbours`, `C51_ranges` |
| `OutProps.v` | `C13_deliver_min`, `C13_increasing`, `C13_new_sequence_refuted`, `C14_exactly_once`, `C15_insert_sorted`, `C15_queue`, `C16_end_only_when_done`, `C16_flush_drains_partial`, `C16_flush_returns_partial`, `C16_flush_hangs_refuted`, `C17_header_first`, `C17_same_size_refuted` |
| `OwnProps.v` | `C95_lives`, `C95_close_partial`, `C95_lost`, `C95_close_refuted` |
| `PackProps.v` | `C18_reject`, `C18_accept`, `C19_units`, `C19_concat`, `C19_openings`, `C19_recut`, `C01_flush_refuted`, `C20_inside_partial`, `C20_buffers_conserved`, `C20_overflow_refuted` |
| `QpProps.v` | `C12_luma_range`, `C12_luma_monotone`, `C12_chroma_range_partial`, `C12_chroma_hbd_refuted`, `C36_legal_sums_partial`, `C36_tables_partial`, `C36_accumulation_refuted`, `C36_negative_refuted`, `C36_depth12_refuted`, `C41_dequant`, `C41_monotone`, `C41_block` |
| `QtProps.v` | `C52_picture`, `C52_lcu`, `C52_slice_255_refuted` |
| `SaoProps.v` | `C54_edge_0`, `C54_edge_90`, `C54_edge_135`, `C54_edge_45`, `C54_regions`, `C55_tiles_luma`, `C55_tiles_chroma`, `C55_stale_slices_refuted`, `C56_band`, `C56_other_depth_refuted`, `C63_serial`, `C63_delayed`, `C63_one_row_refuted`, `C63_slices_refuted` |
| `SlProps.v` | `C82_first`, `C82_none`, `C82_next`, `C82_next_none`, `C82_header`, `C82_picture`, `C83_in_order_partial`, `C83_lost_slice_refuted`, `C84_reach_partial`, `C84_leftover_refuted` |
| `SynProps.v` | `C35_block_partial`, `C35_block`, `C35_no_hang`, `C37_value`, `C37_level_partial`, `C37_mvd_partial`, `C37_mvd_refuted`, `C38_params`, `C38_bands`, `C38_bands_refuted`, `C61_covers`, `C61_pattern_refuted`, `C62_cu_type`, `C62_skip_modes`, `C62_intra_type`, `C62_cbp`, `C62_b_direction`, `C62_b_refs`, `C62_f_direction`, `C62_f_directions`, `C62_reference`, `C62_dmh`, `C62_luma_mode`, `C62_luma_mode_onto`, `C62_luma_mode_unique`, `C62_chroma_mode`, `C62_delta_qp` |
| `TpProps.v` | `C24_exactly_once`, `C24_descriptors`, `C24_pick`, `C24_wait`, `C24_exit_refuted`, `C25_bounds`, `C25_no_wait` |
| `TrProps.v` | `C39_block`, `C39_matrix`, `C39_no_overflow`, `C39_range`, `C39_sizes`, `C40_doubled`, `C40_in_place`, `C40_positions` |
| `UhProps.v` | `C96_found`, `C96_ends` |
| `UtilProps.v` | `C42_reconstruct`, `C42_reconstruct_separate`, `C42_zero_residual`, `C59_clip_pixel`, `C59_clip`, `C59_median`, `C59_median_refuted`, `C59_sign`, `C59_align`, `C59_bit_scan` |
| `VdProps.v` | `C92_luma_vertical`, `C92_luma_horizontal`, `C92_chroma_vertical`, `C92_chroma_horizontal`, `C92_thresholds_fit`, `C92_same_picture`, `C92_picture` |
| `VfProps.v` | `C100_border_is_the_rule`, `C100_luma`, `C100_chroma`, `C100_byte_behind_refuted` |
| `VgProps.v` | `C103_sse_luma`, `C103_avx2_luma_partial`, `C103_chroma_partial`, `C103_chroma_v_refuted`, `C103_sse_blocks`, `C103_avx2_blocks_partial` |
| `ViProps.v` | `C93_luma`, `C93_luma_samples`, `C93_chroma_partial`, `C93_chroma_samples_partial`, `C93_chroma_refuted` |
| `VjProps.v` | `C97_luma`, `C97_luma_samples`, `C97_chroma_partial`, `C97_chroma_samples_partial`, `C97_chroma_refuted` |
| `VlcProps.v` | `C06_u_v_value`, `C06_u_v_fail`, `C07_ue_roundtrip`, `C07_se_roundtrip`, `C08_u_v_reads_past_end_refuted`, `C08_ue_v_unbounded_scan_refuted`, `C08_u_v_safe_with_slack_partial`, `C08_ue_v_safe_with_slack_partial` |
| `VpProps.v` | `C101_sse`, `C101_avx2`, `C101_sse_equals_c`, `C101_avx2_equals_c`, `C101_luma_buffer`, `C101_luma_buffer_refuted`, `C101_chroma_buffer`, `C101_chroma_buffer_refuted`, `C101_rows_below_refuted`, `C101_mode16_refuted`, `C101_mode13_refuted`, `C101_mode13_any_mask` |
| `VqProps.v` | `C102_sse`, `C102_avx2`, `C102_equal_c`, `C102_rest_unused` |
| `VtProps.v` | `C98_block`, `C98_residual`, `C98_strides`, `C98_avx2_stride_refuted`, `C99_secondary`, `C99_4x4`, `C99_doubling` |
| `VxProps.v` | `C89_edge_0`, `C89_edge_90`, `C89_edge_135`, `C89_edge_45`, `C89_band`, `C89_offsets`, `C90_alf_partial`, `C90_byte_saturation_refuted`, `C90_word_saturation_refuted`, `C90_overshoot_refuted`, `C90_mask_index_refuted`, `C91_average`, `C91_plane_copy` |
| `WvProps.v` | `C27_order`, `C27_one_thread_rows_above`, `C27_runs_end`, `C27_progress`, `C27_progress_partial`, `C27_lost_wakeup_refuted`, `C27_bad_header_refuted`, `C27_row_workers_refuted`, `C27_cache_ahead_refuted`, `C27_default_build`, `C27_self_deadlock_iff`, `C27_default_build_refuted`, `C27_not_reference`, `C27_delivered_iff` |
| `XaProps.v` | `C110_recon_4x4`, `C110_add`, `C110_recon`, `C110_residual16`, `C110_same_residual_refuted`, `C110_any_residual_refuted` |
| `XbProps.v` | `C115_residual16`, `C115_limited`, `C115_recon`, `C115_same_residual_refuted`, `C115_upper_half_refuted` |
| `XlProps.v` | `C26_queue`, `C26_fifo`, `C26_exclusive`, `C26_double_append_refuted` |
