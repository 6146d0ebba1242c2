{
 "claims": [
  {
   "property": "C01",
   "status": "proved",
   "theorems": [
    "C01_reads_exact",
    "C01_align_exact"
   ],
   "note": "The windowed reader (model of src/getbits.c) returns the bits of the byte string, zeros and a sticky error after the end."
  },
  {
   "property": "C02",
   "status": "proved",
   "theorems": [
    "C02_at_pos_reachable",
    "C02_leb128",
    "C02_ns",
    "C02_uvlc",
    "C02_uvlc_length_refuted",
    "C02_subexp",
    "C02_leb128_roundtrip",
    "C02_ns_roundtrip",
    "C02_uvlc_roundtrip",
    "C02_subexp_roundtrip"
   ],
   "note": "leb128, ns, uvlc (below 32 leading zeros), signed subexp equal the AV1 descriptors and invert their encoders. C02_uvlc_length_refuted: for 32 or more leading zeros dav1d consumes a different number of bits than the specification."
  },
  {
   "property": "C03",
   "status": "proved",
   "theorems": [
    "C03_total"
   ],
   "note": "Model of dav1d_parse_sequence_header and everything it calls; memory allocation is taken to succeed."
  },
  {
   "property": "C04",
   "status": "proved",
   "theorems": [
    "C04_matches_spec",
    "C04_ranges",
    "C04_reduced_level_refuted"
   ],
   "note": "Accept/reject decision and every field equal the AV1 sequence_header_obu table plus trailing-bits rule, in strict and lenient mode, at any position. seq_rel records one deviation, isolated in C04_reduced_level_refuted: with reduced_still_picture_header the reported major level lacks the +2 applied otherwise."
  },
  {
   "property": "C05",
   "status": "proved",
   "theorems": [
    "C05_last_wins",
    "C05_walk_unique"
   ],
   "note": "The OBU walk is defined by the OBU header syntax; result is the last sequence header, ENOENT iff the walk has none, EINVAL iff the walk is malformed or a header is invalid."
  },
  {
   "property": "C06",
   "status": "proved",
   "theorems": [
    "C06_progress",
    "C06_one_obu",
    "C06_packet",
    "C06_api_total"
   ],
   "note": "Model of dav1d_parse_obus, gen_picture, dav1d_send_data, dav1d_get_picture, dav1d_flush, with tile decoding and allocation of picture buffers as an arbitrary oracle. Every call terminates with a result, no undefined operation, consumption is exactly the OBU walk."
  },
  {
   "property": "C07",
   "status": "proved",
   "theorems": [
    "C07_dropped",
    "C07_processed",
    "C07_selected"
   ],
   "note": "layer_dropped is the drop rule of section 6.2.1/7.18; operating point selection from the sequence header."
  },
  {
   "property": "C08",
   "status": "proved",
   "theorems": [
    "C08_no_overrun",
    "C08_partition"
   ],
   "note": "parse_tiling within the full frame header model; reachable = any history of accepted headers. Array accesses are checked operations in the model, so Ok excludes overruns."
  },
  {
   "property": "C09",
   "status": "proved",
   "theorems": [
    "C09_set_frame_refs",
    "C09_accepted",
    "C09_indices"
   ],
   "note": "Function equality for all order hints, plus the statement for accepted headers."
  },
  {
   "property": "C10",
   "status": "proved",
   "theorems": [
    "C10_range",
    "C10_spec"
   ],
   "note": "Range by induction over histories (reachable), and equality with the specification's gm_params."
  },
  {
   "property": "C11",
   "status": "proved",
   "theorems": [
    "C11_ranges",
    "C11_inherited"
   ],
   "note": "Ranges for any accepted header, inheritance from a reference."
  },
  {
   "property": "C12",
   "status": "proved",
   "theorems": [
    "C12_matches_spec",
    "C12_window_size_irrelevant",
    "C12_literal",
    "C12_uniform",
    "C12_subexp",
    "C12_hi_tok",
    "C12_readers_are_programs",
    "C12_spec_states",
    "C12_equal_after_overread_refuted"
   ],
   "note": "Every program of entropy-decoder calls (up to 10^8 calls) returns the specification's symbols up to the point where more than 15 bits past the tile end were needed; C12_equal_after_overread_refuted shows that after that point the two may differ."
  },
  {
   "property": "C13",
   "status": "proved",
   "theorems": [
    "C13_safe",
    "C13_result_range"
   ],
   "note": "Same programs: no undefined arithmetic, no read outside the tile, all results in range, for 32 and 64 bit windows."
  },
  {
   "property": "C14",
   "status": "proved",
   "theorems": [
    "C14_adapt_forever",
    "C14_cdfs_stay_valid"
   ],
   "note": "Adaptation keeps every CDF a valid CDF, for any symbol history."
  },
  {
   "property": "C15",
   "status": "proved",
   "theorems": [
    "C15_safe",
    "C15_not_early",
    "C15_once",
    "C15_all_released",
    "C15_releaser",
    "C15_no_wait",
    "C15_writable",
    "C15_data",
    "C15_props",
    "C15_picture",
    "C15_picture_alloc",
    "C15_wrap_again_refuted"
   ],
   "note": "Protocol part: any number of threads, every access to a reference object is one step. Client part: every function of data.c and the reference handling of picture.c keeps 'the caller owns exactly the references in its structs'. Fewer than 2^31 references. Refuted side statement: dav1d_data_wrap_user_data or dav1d_data_wrap on data that already holds references loses them."
  },
  {
   "property": "C16",
   "status": "proved",
   "theorems": [
    "C16_safe",
    "C16_distinct",
    "C16_pop",
    "C16_undisturbed",
    "C16_alive",
    "C16_destroyed_once",
    "C16_no_leak",
    "C16_finishes",
    "C16_no_wait"
   ],
   "note": "Any number of concurrent pop/push/end calls, interleaved at the granularity of the locked sections and single memory operations outside the lock, with allocation failing at any time. The users' rules: only buffers in use are pushed, pop and end are not called after end, fewer than 2^31 buffers."
  },
  {
   "property": "C17",
   "status": "proved",
   "theorems": [
    "C17_send",
    "C17_input",
    "C17_total",
    "C17_fresh",
    "C17_order",
    "C17_pictures",
    "C17_again",
    "C17_drained",
    "C17_drained_refuted",
    "C17_drained_refused_refuted",
    "C17_error_lost_refuted"
   ],
   "note": "Over all call sequences of the modelled API (send, get, flush) with arbitrary packets and an arbitrary outcome of every allocation, submission and frame decode. Three _refuted theorems record where the code falls short of what a caller may expect: a second drain may ask for more although a frame is in flight (also after a refused frame), and an error is dropped when a picture is ready at the same time."
  },
  {
   "property": "C18",
   "status": "proved",
   "theorems": [
    "C18_choice",
    "C18_all_layers",
    "C18_units",
    "C18_cut_after_packets",
    "C18_split_unit_refuted",
    "C18_hidden_first_refuted",
    "C18_new_sequence_refuted"
   ],
   "note": "C18_choice is the exact rule for every session; C18_units gives one picture per unit, of its highest layer, for units that are not split across packets and whose pictures are marked. Three _refuted theorems show what happens otherwise: a split unit gives two pictures, a hidden first frame loses the mark of the new unit, and a following sequence without layers drops the held picture."
  },
  {
   "property": "C19",
   "status": "proved",
   "theorems": [
    "C19_decoded",
    "C19_failed",
    "C19_refused",
    "C19_skipped",
    "C19_shown",
    "C19_otherwise"
   ],
   "note": "Effect of every outcome of a frame on the eight reference slots. Tile decoding result is an arbitrary oracle."
  },
  {
   "property": "C20",
   "status": "proved",
   "theorems": [
    "C20_defined",
    "C20_tiles",
    "C20_disjoint",
    "C20_rejected",
    "C20_unique",
    "C20_submitted"
   ],
   "note": "Tile data are bytes and a group is shorter than 2^63. Setup of the tile state other than the data pointer, row and column is left out."
  },
  {
   "property": "C21",
   "status": "proved",
   "theorems": [
    "C21_submitted",
    "C21_out_of_order",
    "C21_more",
    "C21_last",
    "C21_too_many",
    "C21_range_refuted"
   ],
   "note": "C21_range_refuted: a tile group whose end index is past the last tile is accepted (last tile data dropped into the frame), contrary to the expected rejection."
  },
  {
   "property": "C22",
   "status": "proved",
   "theorems": [
    "C22_allocation",
    "C22_inside",
    "C22_disjoint"
   ],
   "note": "dav1d_default_picture_alloc with exact int/ptrdiff_t/size_t arithmetic on 32- and 64-bit targets. Allocation failure not modelled; the pool's aligned allocation is taken to be 64-byte aligned."
  },
  {
   "property": "C23",
   "status": "proved",
   "theorems": [
    "C23_accepted",
    "C23_rejected",
    "C23_counts",
    "C23_frame_delay",
    "C23_size_limit"
   ],
   "note": "dav1d_open with resource acquisition succeeding. The worker count and the frame size limit of 32-bit targets are covered too."
  },
  {
   "property": "C24",
   "status": "proved",
   "theorems": [
    "C24_at_most_once",
    "C24_exclusive",
    "C24_return",
    "C24_quiet",
    "C24_no_deadlock",
    "C24_bounded"
   ],
   "note": "Transition system over the delayed_fg fields with any number of workers at the granularity of critical sections and atomic operations; sequentially consistent atomics. Other worker duties are one busy phase; spurious wakeups cover early signals. Flush during grain application not modelled."
  },
  {
   "property": "C25",
   "status": "proved",
   "theorems": [
    "C25_defined",
    "C25_exact",
    "C25_insert",
    "C25_merge",
    "C25_order_total",
    "C25_order_trans",
    "C25_flush"
   ],
   "note": "Pointer-level model of insert_tasks, insert_tasks_between, add_pending, merge_pending_frame, the removal code and dav1d_task_create_tile_sbrow's list building; each is one critical section. Init tasks are alone in the queue. The updates of the scan position hints are not modelled; a scan may start from any hint before the task taken."
  },
  {
   "property": "C26",
   "status": "proved",
   "theorems": [
    "C26_defined",
    "C26_safe",
    "C26_monotone",
    "C26_error",
    "C26_exact",
    "C26_complete",
    "C26_done",
    "C26_no_deadlock"
   ],
   "note": "Transition system over the frame progress bitmap and the progress publication, any number of workers; sequentially consistent atomics; no flush."
  },
  {
   "property": "C27",
   "status": "proved",
   "theorems": [
    "C27_accepted",
    "C27_submitted",
    "C27_error"
   ],
   "note": "For every buffer and reachable decoder state."
  },
  {
   "property": "C28",
   "status": "proved",
   "theorems": [
    "C28_in_range",
    "C28_injective",
    "C28_surjective",
    "C28_zero",
    "C28_mapping",
    "C28_conformant",
    "C28_legal",
    "C28_clamped_refuted",
    "C28_no_feature_refuted",
    "C28_prediction",
    "C28_temporal",
    "C28_block"
   ],
   "note": "read_segment_id / segmentation prediction and temporal prediction of decode.c. Two deviations from the specification text for non-conformant input are proved as _refuted: an out-of-range code yields segment 0 instead of the Clip3 value, and with no active feature the last active id is -1 so the code is taken literally."
  },
  {
   "property": "C29",
   "status": "proved",
   "theorems": [
    "C29_shortcut",
    "C29_dispatched",
    "C29_range_needed"
   ],
   "note": "The DC coefficient is in the range the decoder clamps coefficients to; a side theorem shows the shortcut overflows for some value outside it. Covers the C functions, not the assembly."
  },
  {
   "property": "C30",
   "status": "proved",
   "theorems": [
    "C30_ivf_play",
    "C30_ivf_fps",
    "C30_ivf_slices",
    "C30_ivf_truncated",
    "C30_ivf_open_defined",
    "C30_ivf_no_frames_refuted",
    "C30_ivf_zero_length_refuted",
    "C30_annexb_roundtrip",
    "C30_annexb_truncated",
    "C30_annexb_slices",
    "C30_annexb_open_defined",
    "C30_section5_roundtrip",
    "C30_section5_exact",
    "C30_section5_open_defined"
   ],
   "note": "Refuted side statements: opening an IVF file with a header and no frames divides by zero (ivf.c:127); a zero-length IVF frame is reported like the end of file although later frames follow. fread of size 0 returns 0 (C11 7.21.8.1)."
  },
  {
   "property": "C31",
   "status": "proved",
   "theorems": [
    "C31_section5",
    "C31_annexb",
    "C31_ivf",
    "C31_select_section5",
    "C31_select_annexb",
    "C31_select_ivf",
    "C31_section5_hang_refuted",
    "C31_obu_header_overflow_refuted",
    "C31_annexb_underread_refuted",
    "C31_straddling_header_refuted"
   ],
   "note": "Refuted for size fields of about 2^31 and more: section5_probe loops forever on a padding OBU of size 2^32-6, parse_obu_header overflows int, annexb_probe continues at offset -1 of its buffer; a valid stream whose OBU header straddles the end of the probe buffer is rejected."
  },
  {
   "property": "C32",
   "status": "proved",
   "theorems": [
    "C32_chunking",
    "C32_pictures",
    "C32_verify",
    "C32_verify_short"
   ],
   "note": "Little-endian build. The file handle and the printing of the final newline's stream are not modelled; the text printed is. RFC 1321's sine table is recomputed in the specification. md5_verify is specified for texts starting with 32 hexadecimal digits and for short texts."
  },
  {
   "property": "C33",
   "status": "proved",
   "theorems": [
    "C33_tile_end"
   ],
   "note": "Tile-end check of dav1d_decode_tile_sbrow equals exit_symbol conformance of the specification."
  },
  {
   "property": "C34",
   "status": "proved",
   "theorems": [
    "C34_matches_spec",
    "C34_slots"
   ],
   "note": "Whole uncompressed_header syntax. Deviations kept in the table and marked there: (D1) superres minimum width, (D2) intrabc condition."
  },
  {
   "property": "C35",
   "status": "partial",
   "theorems": [
    "C35_restart",
    "C35_histories",
    "C35_states",
    "C35_only_by_error",
    "C35_flush",
    "C35_stuck_refuted"
   ],
   "note": "Refuted as stated: a frame header that shows an empty slot leaves c->frame_hdr set, after which every packet that starts with a temporal delimiter is rejected until a flush (C35_stuck_refuted, reached in C35_stuck_reached). In every other state (C35_states) decoding from a temporal delimiter, sequence header and key frame on is exactly that of a new decoder (C35_restart), provided the key frame gets decoded; pictures are compared without the metadata that is passed through (content light level etc. of the old sequence may be attached)."
  },
  {
   "property": "C36",
   "status": "proved",
   "theorems": [
    "C36_content_light",
    "C36_mastering_display",
    "C36_itut_t35",
    "C36_other",
    "C36_new_picture",
    "C36_used_once"
   ],
   "note": "t35_message, metadata_hdr_cll, metadata_hdr_mdcv are the syntax tables of the AV1 specification."
  },
  {
   "property": "C37",
   "status": "proved",
   "theorems": [
    "C37_references",
    "C37_cdf",
    "C37_motion_fields",
    "C37_segmentation_map"
   ],
   "note": "Job records handed to the tile decoder; allocation failures are an oracle."
  },
  {
   "property": "C38",
   "status": "proved",
   "theorems": [
    "C38_offset",
    "C38_parts",
    "C38_lowest_pixel",
    "C38_lr_ref",
    "C38_frames"
   ],
   "note": "How much of its part a tile uses is not modelled; the parts are what the sizes of the buffers provide per pixel."
  },
  {
   "property": "C39",
   "status": "proved",
   "theorems": [
    "C39_defined",
    "C39_ready",
    "C39_cdef_lines",
    "C39_lr_lines",
    "C39_tile_states_refuted",
    "C39_negative_stride_refuted"
   ],
   "note": "Proved for all histories in which the allocation of f->ts does not fail and strides are positive or there is one thread. Refuted otherwise: after a failed allocation of f->ts a later frame with the old tile count uses a null pointer; with negative strides (dav1d --negstride) and threads the loop restoration line buffer is reused when only the product of stride and height is the same, and is overrun."
  },
  {
   "property": "C40",
   "status": "proved",
   "theorems": [
    "C40_defined",
    "C40_lossless",
    "C40_table"
   ],
   "note": "Coefficients are in the clamped range and zero behind the end of block (block_ok). The C functions only; the assembly versions are not modelled."
  },
  {
   "property": "C41",
   "status": "proved",
   "theorems": [
    "C41_reconstruction",
    "C41_conforming",
    "C41_lossless",
    "C41_one_dimension"
   ],
   "note": "Two forms: for all blocks, with the rotations of the specification saturating to the width it requires of them; for conforming blocks (where the specification's own width requirement holds) without saturation."
  },
  {
   "property": "C42",
   "status": "proved",
   "theorems": [
    "C42_position",
    "C42_permutation",
    "C42_injective",
    "C42_skipped_rows"
   ],
   "note": "The scan tables are transcribed from the source by a script and compared with the specification's scan generation."
  },
  {
   "property": "C43",
   "status": "proved",
   "theorems": [
    "C43_follows_syntax",
    "C43_only_syntax",
    "C43_defined",
    "C43_pixels"
   ],
   "note": "The hypotheses describe how the block's fields of the code correspond to the syntax variables (matches), the range of the quantizers (quant), and a clear coefficient buffer. Up to 32 zero bits of a Golomb code are counted, as the code does; conforming streams have at most 20."
  },
  {
   "property": "C44",
   "status": "proved",
   "theorems": [
    "C44_output",
    "C44_writes",
    "C44_restricted",
    "C44_skipped",
    "C44_parameters"
   ],
   "note": "The C functions, not the assembly versions. Buffers have equal strides for input and output that are multiples of 32, as the code asserts and the default allocator provides. Grain parameters inherited from a reference frame of a sequence with a different monochrome setting are outside the hypotheses."
  },
  {
   "property": "C45",
   "status": "proved",
   "theorems": [
    "C45_direction",
    "C45_superblock_row",
    "C45_frame",
    "C45_frame_defined",
    "C45_threads"
   ],
   "note": "The C functions. Deblocking is any work that leaves finished rows alone and completes the rows needed next; the masks of skipped blocks and the lines saved for other threads (copy_lpf) are hypotheses on their content. Concurrency is covered by footprints: a pass depends only on its own rows, own line slots and saved lines, so the order of passes is irrelevant."
  },
  {
   "property": "C46",
   "status": "proved",
   "theorems": [
    "C46_single",
    "C46_prepared",
    "C46_compound_luma",
    "C46_compound_chroma",
    "C46_intrabc"
   ],
   "note": "The C functions. Reference samples, motion vectors and block positions are any values of their types; the wait for the rows of a reference that is still being decoded is not part of it. The content of the wedge mask tables is a hypothesis here (wedge_ok); C47 proves it. Samples of the current frame not decoded yet, which intra block copy may copy without using them, hold some pixel value. Overlapped prediction is C48; warped prediction is C50."
  },
  {
   "property": "C47",
   "status": "proved",
   "theorems": [
    "C47_init",
    "C47_wedge_luma",
    "C47_wedge_chroma",
    "C47_interintra",
    "C47_interintra_wedge",
    "C47_compound_wedge"
   ],
   "note": "The member order, sizes and alignments of struct dav1d_masks are part of the model; each mask pointer is a member and an offset in it, and leaving the member is undefined. The offsets are stored in units of 8 bytes in 16 bits as in the C code."
  },
  {
   "property": "C48",
   "status": "proved",
   "theorems": [
    "C48_weights",
    "C48_obmc",
    "C48_interintra"
   ],
   "note": "The C functions. The contents of the rows of refmvs_block and of the filter contexts for the neighbours are hypotheses (obmc_ok), with neighbouring blocks at multiples of their sizes (tiled). The intra prediction of an inter-intra block is any array of pixels."
  },
  {
   "property": "C49",
   "status": "proved",
   "theorems": [
    "C49_divisor",
    "C49_shear",
    "C49_samples",
    "C49_local_warp",
    "C49_second_pass"
   ],
   "note": "The contents of the rows of refmvs_block around the block, that the blocks do not overlap and lie at multiples of their sizes, and the flag for the block above right are hypotheses (nbhd). The prediction with the model is C50."
  },
  {
   "property": "C50",
   "status": "proved",
   "theorems": [
    "C50_warp",
    "C50_single",
    "C50_local",
    "C50_compound_luma",
    "C50_compound_chroma",
    "C50_wide_refuted"
   ],
   "note": "The C functions. That a block with a local warp does not use the global one (decode.c:1776-1780) is part of motion_ok. C50_wide_refuted: dav1d calls a reference scaled if its size differs, the specification if the rounded scale factor differs from one; for a frame of 65536 samples and a reference one sample narrower, both within the accepted limits, the specification warps a block that dav1d does not."
  },
  {
   "property": "C51",
   "status": "proved",
   "theorems": [
    "C51_mode",
    "C51_filter",
    "C51_interintra",
    "C51_cfl",
    "C51_palette"
   ],
   "note": "The C functions. The caller's view of the frame (samples already decoded to the left and above, flags for the neighbours, the position in the tile) is the hypothesis of the section; the frame ends where the tile ends or the tile end needs no sample after it. The padding of chroma from luma against MaxLumaW and MaxLumaH of the specification is an argument."
  },
  {
   "property": "C52",
   "status": "proved",
   "theorems": [
    "C52_limits",
    "C52_levels",
    "C52_level_zero",
    "C52_edge",
    "C52_luma_cols",
    "C52_luma_rows",
    "C52_chroma_cols",
    "C52_chroma_rows"
   ],
   "note": "The C functions. The masks are arguments; C53 is about how they are built. The calls for U and V alternate in the code; each plane is done on its own here. An absent feature of a segment is value 0, as the header parser stores it."
  },
  {
   "property": "C53",
   "status": "proved",
   "theorems": [
    "C53_inside",
    "C53_luma_intra",
    "C53_luma_inter",
    "C53_chroma",
    "C53_tile_luma",
    "C53_tile_chroma",
    "C53_tile_block",
    "C53_tile_cols",
    "C53_tile_rows"
   ],
   "note": "One block at a time, and the tile boundaries of a superblock row. The luma and chroma parts of the two functions that build masks, and the corrections of luma and chroma masks at tile boundaries, are separate definitions."
  }
 ]
}