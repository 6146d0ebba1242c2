{"id": "C01", "title": "Header bit reading is exact and never leaves the buffer", "statement": "While parsing headers, every fixed-width read (unsigned or signed) of 1..32 bits returns exactly the next bits of the input in big-endian order, padded with zero bits after the end of the buffer; no byte outside the caller's buffer is ever read; the sticky error state is raised exactly when a read goes past the last bit.", "quantifier": "every buffer content and length, every sequence of reads of every width 1..32, every starting bit position", "why_tests_cant": "The reader keeps a partially filled 64-bit window with four refill paths and a negative-count over-read state; the interesting cases depend on alignment x width x distance to the end and cannot be enumerated.", "anchors": ["src/getbits.c:dav1d_get_bit", "src/getbits.c:refill", "src/getbits.c:GET_BITS", "src/getbits.c:dav1d_init_get_bits", "src/getbits.h:dav1d_bytealign_get_bits", "src/getbits.h:dav1d_get_bits_pos"]}
{"id": "C02", "title": "Variable-length integers decode to what the AV1 specification says", "statement": "leb128(), ns(n), uvlc() and the subexponential codes used for global motion are decoded to the value the specification assigns to the bit string, consume exactly the specified number of bits, reject leb128 values above 2^32-1 or longer than 8 bytes, and always yield a value in the specified range; encoding any legal value and decoding it gives the value back.", "quantifier": "every bit string, every parameter n, every encodable value", "why_tests_cant": "The value spaces are 2^32 or unbounded, and the rejection boundaries are rarely hit by real streams.", "anchors": ["src/getbits.c:dav1d_get_uleb128", "src/getbits.c:dav1d_get_uniform", "src/getbits.c:dav1d_get_vlc", "src/getbits.c:get_bits_subexp_u", "src/getbits.c:dav1d_get_bits_subexp"]}
{"id": "C03", "title": "dav1d_parse_sequence_header is total and memory safe", "statement": "For every byte buffer, dav1d_parse_sequence_header terminates, reads only bytes inside the buffer, performs no undefined operation, and returns success, 'not found' or 'invalid'.", "quantifier": "every buffer of every length >= 1 (arbitrary, possibly hostile bytes)", "why_tests_cant": "Hostile inputs are unbounded; fuzzing samples them.", "anchors": ["src/obu.c:dav1d_parse_sequence_header", "src/obu.c:parse_seq_hdr", "src/obu.c:check_trailing_bits"]}
{"id": "C04", "title": "The sequence header returned is the one the specification describes", "statement": "Whenever a sequence header is accepted, every reported field (profile, level, dimensions, bit depth, chroma layout, colour description, timing and operating-point data, coding-tool flags) equals the value the AV1 syntax assigns to the bits of the OBU, and lies in its documented range; in particular 1<=max_width,max_height<=65536, bit depth in {8,10,12}, profile 0..2 with the matching chroma layout.", "quantifier": "every bit string accepted as a sequence header", "why_tests_cant": "There are dozens of conditional fields; tests cover the handful of combinations encoders emit.", "anchors": ["src/obu.c:parse_seq_hdr"]}
{"id": "C05", "title": "The last sequence header of a packet wins and the choice does not depend on other OBUs", "statement": "dav1d_parse_sequence_header walks the OBUs of the buffer exactly as the OBU length fields dictate, ignores everything but sequence headers, and returns the last one; it reports 'not found' exactly when the walk completes without meeting one.", "quantifier": "every sequence of well-formed OBUs, with or without extension, and any number of sequence headers", "why_tests_cant": "Unbounded OBU sequences.", "anchors": ["src/obu.c:dav1d_parse_sequence_header"]}
{"id": "C06", "title": "Packet parsing always makes progress and stays inside the packet", "statement": "Each OBU-parsing step consumes between 1 byte and the number of bytes left, or reports an error without consuming; hence any packet is fully processed in at most as many steps as it has bytes.", "quantifier": "every packet content and every decoder state", "why_tests_cant": "A zero or over-long step would be a hang or over-read for some hostile length field.", "anchors": ["src/obu.c:dav1d_parse_obus", "src/lib.c:gen_picture"]}
{"id": "C07", "title": "Only OBUs of the selected operating point are processed", "statement": "An OBU with an extension header is ignored exactly when the active operating point is scalable (its idc is non-zero) and does not include the OBU's temporal or spatial layer; sequence headers and temporal delimiters are never dropped.", "quantifier": "every operating-point idc, every OBU header", "why_tests_cant": "All idc x layer x type combinations interact with parser state.", "anchors": ["src/obu.c:dav1d_parse_obus"]}
{"id": "C08", "title": "The tile grid of an accepted frame is a partition", "statement": "For every frame header that is accepted, tile column starts and tile row starts are strictly increasing, start at 0 and end at the frame size in superblocks, there are at most 64 columns and 64 rows, no array is overrun while they are computed, and the context-update tile exists.", "quantifier": "every frame size, superblock size and every bit string coding the tile layout (uniform or explicit)", "why_tests_cant": "Tile layouts are coded with data-dependent loops over frame sizes up to 65536x65536.", "anchors": ["src/obu.c:parse_frame_hdr", "src/obu.c:tile_log2"]}
{"id": "C09", "title": "Short reference signalling matches the specification and always selects valid slots", "statement": "With frame_ref_short_signaling, the seven reference indices computed equal the AV1 set_frame_refs process and always lie in 0..7, for every combination of order hints in the reference slots.", "quantifier": "every 8-tuple of order hints, order-hint width, last/gold index and current order hint", "why_tests_cant": "2^64 slot states.", "anchors": ["src/obu.c:parse_frame_hdr", "src/env.h:get_poc_diff"]}
{"id": "C10", "title": "Global motion parameters stay in the legal range for any stream history", "statement": "The warp parameters decoded for each reference frame lie in the ranges of the specification whatever the previous frames' parameters were, by induction over the history of accepted frames.", "quantifier": "every bit string and every history of accepted frames", "why_tests_cant": "The value depends on an unbounded chain of delta-coded predictions.", "anchors": ["src/obu.c:parse_frame_hdr", "src/getbits.c:dav1d_get_bits_subexp"]}
{"id": "C11", "title": "Film grain parameters of an accepted frame are well formed", "statement": "At most 14 luma and 10 chroma points, with strictly increasing x values in 0..255; the autoregression lag is in 0..3 with all coefficients in -128..127 stored within their arrays; shifts and multipliers are in their documented ranges; parameters inherited from a reference are exactly those of that reference apart from the seed.", "quantifier": "every bit string and reference state", "why_tests_cant": "Hostile parameter sets would index the grain tables out of bounds.", "anchors": ["src/obu.c:parse_frame_hdr"]}
{"id": "C12", "title": "Arithmetic decoding equals the specification until over-read is reported", "statement": "For any tile data, every symbol, boolean, literal and adaptive CDF obtained by the windowed entropy decoder equals that of the AV1 specification's bit-serial symbol decoder for any sequence of decode calls, as long as the decoder's over-read test (cnt <= -15) has not fired; the test fires exactly when the specification's bit-count conformance limit is exceeded.", "quantifier": "every tile payload, every sequence of decode operations with valid CDFs, window sizes 32 and 64", "why_tests_cant": "The specification shifts one bit at a time while the implementation keeps an inverted, lazily refilled window: equivalence is a refinement over unbounded histories.", "anchors": ["src/msac.c:ctx_refill", "src/msac.c:ctx_norm", "src/msac.c:dav1d_msac_decode_symbol_adapt_c", "src/msac.c:dav1d_msac_decode_bool_c", "src/msac.c:dav1d_msac_decode_bool_equi_c", "src/msac.c:dav1d_msac_init", "src/decode.c:dav1d_decode_tile_sbrow"]}
{"id": "C13", "title": "Entropy decoding is memory safe and returns in-range symbols", "statement": "Each decode call reads only bytes of the tile's payload, performs no out-of-range shift or CDF access, keeps the range register in 32768..65535, and returns a symbol in 0..n for an (n+1)-symbol alphabet, whatever the payload.", "quantifier": "every payload (including empty remainders and over-read states), every valid CDF, every operation history", "why_tests_cant": "Must hold for all hostile payloads.", "anchors": ["src/msac.c", "src/msac.h"]}
{"id": "C14", "title": "Adaptive CDFs stay valid forever", "statement": "Starting from any valid CDF, any number of symbol adaptations leaves the CDF valid (monotone, within 0..32768, counter 0..32), so adaptation can never drive the decoder into an invalid state.", "quantifier": "every initial valid CDF, every unbounded sequence of coded symbols", "why_tests_cant": "Unbounded symbol sequences.", "anchors": ["src/msac.c:dav1d_msac_decode_symbol_adapt_c", "src/msac.c:dav1d_msac_decode_bool_adapt_c"]}
{"id": "C15", "title": "Every buffer is freed exactly once, after its last reference is dropped", "statement": "For any sequence of create/wrap/ref/unref/move operations on data and reference objects that respects ownership, the caller's free callback runs exactly once for each buffer, exactly when the last reference goes away, and never while a reference exists.", "quantifier": "every operation history and every interleaving of the atomic reference-count operations of concurrent owners", "why_tests_cant": "Histories and schedules are unbounded.", "anchors": ["src/ref.c:dav1d_ref_dec", "src/ref.h:dav1d_ref_init", "src/data.c", "src/mem.c"]}
{"id": "C16", "title": "Pooled buffers are never shared and the pool is destroyed exactly once", "statement": "A pooled buffer handed out is not handed out again before it is returned; after the owner closes the pool, the pool and every buffer are freed exactly once, when and only when the last outstanding buffer has come back; in any interleaving of threads.", "quantifier": "every history and interleaving of pop/push/end at lock granularity, any number of buffers and threads", "why_tests_cant": "Depends on the order of close versus late picture release in other threads.", "anchors": ["src/mem.c:dav1d_mem_pool_push", "src/mem.c:dav1d_mem_pool_pop", "src/mem.c:dav1d_mem_pool_end", "src/mem.c:dav1d_mem_pool_init"]}
{"id": "C17", "title": "send/get contract: data is taken exactly once and pictures come out in order", "statement": "For any sequence of dav1d_send_data / dav1d_get_picture calls: send_data returns EAGAIN and leaves the caller's data untouched iff a packet is still pending; on success ownership of the packet moves to the decoder; every byte of every accepted packet is parsed exactly once and in order (until an error discards the rest of that packet); the pictures returned are exactly the ones decoding produces, in production order, without loss or duplication; get_picture returns EAGAIN only when all input is consumed and no picture is ready.", "quantifier": "every call sequence, every packet content (as an arbitrary per-step parse outcome), single- and frame-threaded operation", "why_tests_cant": "Unbounded API histories.", "anchors": ["src/lib.c:dav1d_send_data", "src/lib.c:dav1d_get_picture", "src/lib.c:gen_picture", "src/lib.c:drain_picture", "src/lib.c:output_picture_ready", "src/lib.c:output_image"]}
{"id": "C18", "title": "Spatial-layer output selection", "statement": "When only the highest spatial layer is requested, packets hold whole temporal units and each unit starts with a shown picture, exactly one picture per temporal unit is output and it is the highest spatial layer available for that unit; in general a produced picture is held until the next one and output if it is of the highest layer, if the next one starts a unit, or when the input is used up; with all_layers set every shown picture is output.", "quantifier": "every sequence of temporal units and layer ids", "why_tests_cant": "Depends on one-picture lookahead across calls and drain.", "anchors": ["src/lib.c:output_picture_ready", "src/lib.c:output_image", "src/obu.c:dav1d_parse_obus"]}
{"id": "C19", "title": "Reference slots are updated exactly as refresh flags dictate", "statement": "After each frame, slot i holds the new frame iff bit i of its refresh flags is set, otherwise its previous content; showing an existing key frame refreshes every slot with it; showing another existing frame changes no slot; a failed or skipped frame never leaves a slot pointing at a picture that was not produced.", "quantifier": "every history of frame headers", "why_tests_cant": "Unbounded reference histories.", "anchors": ["src/decode.c:dav1d_submit_frame", "src/obu.c:dav1d_parse_obus"]}
{"id": "C20", "title": "Tile data is split without gaps, overlaps or over-reads", "statement": "The payload handed to each tile decoder lies inside its tile group, tiles are consecutive and disjoint, the last tile of a group takes the rest, and any inconsistent size field is rejected with an error.", "quantifier": "every tile-group payload, every number of tiles and size-field width", "why_tests_cant": "Hostile size fields.", "anchors": ["src/decode.c:dav1d_decode_frame_init_cdf", "src/obu.c:parse_tile_hdr", "src/obu.c:dav1d_parse_obus"]}
{"id": "C21", "title": "Tile groups are accepted only in order and each tile is decoded once", "statement": "A frame is submitted for decoding exactly when its tile groups, in order, cover tiles 0..n-1 without gap or overlap; any other sequence of tile groups is rejected.", "quantifier": "every sequence of tile-group headers", "why_tests_cant": "Unbounded sequences of groups.", "anchors": ["src/obu.c:dav1d_parse_obus", "src/obu.c:parse_tile_hdr"]}
{"id": "C22", "title": "Default picture buffers are large enough, aligned and non-overlapping", "statement": "For every picture size up to 65536x65536, layout and bit depth, the default allocator returns planes that are 64-byte aligned with 64-byte-multiple strides, contain every 8x8-block-aligned row the decoder writes, do not overlap and end inside the allocation; sizes that would overflow are impossible.", "quantifier": "every width, height, layout and bit depth", "why_tests_cant": "2^32 geometries with address arithmetic.", "anchors": ["src/picture.c:dav1d_default_picture_alloc", "src/picture.c:picture_alloc"]}
{"id": "C23", "title": "Thread and frame-delay settings", "statement": "dav1d_open uses at least one and at most 256 threads and a number of frame contexts between 1 and min(max_frame_delay if set, 8 if derived, thread count); dav1d_get_frame_delay reports the very value dav1d_open will use.", "quantifier": "every settings value and core count", "why_tests_cant": "All settings combinations.", "anchors": ["src/lib.c:get_num_threads", "src/lib.c:dav1d_get_frame_delay", "src/lib.c:dav1d_open"]}
{"id": "C24", "title": "Parallel film grain applies every row exactly once and finishes only when all are done", "statement": "When worker threads share film-grain application, each 32-row strip is claimed by exactly one worker, the caller is released only after the last strip has been finished, and is always released.", "quantifier": "every number of rows and workers, every interleaving of their atomic steps", "why_tests_cant": "Schedules are unbounded.", "anchors": ["src/thread_task.c:delayed_fg_task", "src/thread_task.c:dav1d_task_delayed_fg"]}
{"id": "C25", "title": "The task queue never loses, duplicates or misorders tasks", "statement": "Inserting tasks keeps the pending queue ordered by the scheduler's priority and preserves exactly the multiset of tasks, for any interleaving of direct and deferred insertion.", "quantifier": "every queue content and every insertion sequence", "why_tests_cant": "Linked-list edits with position hints over unbounded histories.", "anchors": ["src/thread_task.c:insert_tasks", "src/thread_task.c:insert_tasks_between", "src/thread_task.c:add_pending", "src/thread_task.c:merge_pending_frame"]}
{"id": "C26", "title": "Published frame progress never runs ahead of finished rows", "statement": "Whatever order superblock rows finish their last stage in, the progress value published to waiting threads is exactly the number of leading rows that are complete; so a dependent frame never reads rows that are not written and is never left waiting when all rows are complete.", "quantifier": "every number of rows, every completion order and interleaving", "why_tests_cant": "Bitmap logic over arbitrary completion orders.", "anchors": ["src/thread_task.c:get_frame_progress", "src/thread_task.c:dav1d_worker_task"]}
{"id": "C27", "title": "Frame size limit is enforced", "statement": "No frame whose upscaled_width x height exceeds the frame_size_limit setting is ever accepted for decoding; a limit of 0 means unlimited.", "quantifier": "every header and limit value", "why_tests_cant": "64-bit product of attacker-controlled values.", "anchors": ["src/obu.c:dav1d_parse_obus", "src/lib.c:dav1d_open"]}
{"id": "C28", "title": "Segment ids decode bijectively and in range", "statement": "For every predicted segment id and number of segments, the mapping from coded difference to segment id is a bijection onto the legal ids, matches the specification, and out-of-range results are clamped as the specification says.", "quantifier": "every prediction, difference and maximum", "why_tests_cant": "The function is a piecewise fold whose correctness is a bijection claim.", "anchors": ["src/decode.c:neg_deinterleave"]}
{"id": "C29", "title": "Inverse-transform DC shortcut equals the full transform", "statement": "When only the DC coefficient is non-zero, the shortcut reconstruction gives for each DCT_DCT block size exactly the pixels the general separable transform with the same rounding and clamping gives.", "quantifier": "every DC coefficient value, every destination block, every size the shortcut handles, 8 and high bit depth", "why_tests_cant": "2^32 coefficient values x sizes.", "anchors": ["src/itx_tmpl.c:inv_txfm_add_c", "src/itx_1d.c"]}
{"id": "C30", "title": "IVF, Annex B and Section 5 demuxers recover exactly the packets", "statement": "For any sequence of packets serialised in the container format, the demuxer opens the file, reports the number of frames or temporal units, and returns exactly these packets in order and then end of file; for IVF any interleaving of reads and seeks returns the frames, offsets and time stamps of the file, with seeks going to the first frame at or after the time stamp; from a truncated file exactly a prefix of the packets is returned; a packet returned from any file at all is a part of that file delimited as the format says.", "quantifier": "every packet sequence, contents and lengths (non-empty packets), every sequence of reads and seeks, every truncation point, every file for the slice statements", "why_tests_cant": "Unbounded files; time stamp regeneration when the stored ones are not increasing.", "anchors": ["tools/input/ivf.c", "tools/input/annexb.c", "tools/input/section5.c", "tools/input/parse.h"]}
{"id": "C31", "title": "Container probing is memory safe, terminates and recognises the formats", "statement": "For every 2048-byte buffer in which no size field on the way is 2^31-4096 or more, the probes read only bytes of the buffer, have no integer overflow, end, and accept exactly the buffers the format definitions (as far as the probe looks) allow; the start of a low-overhead, Annex B or IVF stream selects its own demuxer and no other. (For larger size fields the probes loop, overflow or read in front of the buffer; see the refuted theorems.)", "quantifier": "every probe buffer content; every start of stream", "why_tests_cant": "Needs specific hostile 32-bit size values and overlapping formats.", "anchors": ["tools/input/annexb.c:annexb_probe", "tools/input/section5.c:section5_probe", "tools/input/ivf.c:ivf_probe", "tools/input/parse.h:parse_obu_header", "tools/input/input.c:input_open"]}
{"id": "C32", "title": "The MD5 writer computes the MD5 of the frame bytes, independent of chunking", "statement": "However the picture data is cut into rows, the digest produced equals RFC 1321 MD5 of the concatenated bytes.", "quantifier": "every byte string and every chunking", "why_tests_cant": "Buffering state across arbitrary splits.", "anchors": ["tools/output/md5.c:md5_update", "tools/output/md5.c:md5_finish", "tools/output/md5.c:md5_body"]}
{"id": "C33", "title": "End-of-tile padding check accepts exactly the conformant tiles", "statement": "At the end of a tile, in strict mode the decoder accepts the tile exactly when the specification's exit process for the symbol decoder finds a legal padding (a one bit followed by zeros up to the tile end), and in every mode a tile whose symbols were read too far past its data is rejected by the final check.", "quantifier": "every tile byte string and every sequence of symbols read from it", "why_tests_cant": "Relates the internal bit window to a position in an arbitrary byte string.", "anchors": ["src/decode.c:check_trailing_bits_after_symbol_coder", "src/decode.c:dav1d_decode_tile_sbrow"]}
{"id": "C34", "title": "The frame header used for decoding is the one the specification describes", "statement": "For every stream history, a frame header is accepted exactly when the AV1 syntax and the conformance requirements dav1d checks accept it, and then every field of the header reported with the picture (and used for decoding) equals the value the AV1 syntax assigns to the bits, including values derived or inherited from reference frames, and lies in its documented range; parsing never performs an undefined operation.", "quantifier": "all bit strings, all sequence headers, all histories of previously accepted frame headers, both strictness settings", "why_tests_cant": "The header has hundreds of bits and depends on up to eight earlier headers; tests visit a vanishing part of the space.", "anchors": ["src/obu.c: parse_frame_hdr, read_frame_size, tile_log2", "include/dav1d/headers.h: Dav1dFrameHeader"]}
{"id": "C35", "title": "A decoder recovers after an error", "statement": "After any error return, feeding a packet that starts with a new coded video sequence (temporal delimiter, sequence header, key frame) is processed exactly as the stream says, independent of what failed before; an error is not repeated for later correct data.", "quantifier": "every history of packets including malformed ones", "why_tests_cant": "Depends on state left behind by every possible failure point.", "anchors": ["src/obu.c:dav1d_parse_obus", "src/lib.c:gen_picture", "src/lib.c:dav1d_parse_obus error paths"]}
{"id": "C36", "title": "HDR and ITU-T T.35 metadata reach the pictures they belong to", "statement": "A well-formed content-light, mastering-display or T.35 metadata message becomes current exactly with the values the syntax tables assign to its bits, malformed HDR messages are errors and malformed T.35 or unknown messages are ignored, and a newly decoded shown picture carries exactly the metadata current when its frame was submitted.", "quantifier": "every metadata payload, every stream position and history", "why_tests_cant": "Payload content and position relative to frames are unbounded.", "anchors": ["src/obu.c:dav1d_parse_obus (DAV1D_OBU_METADATA)", "src/picture.c:dav1d_thread_picture_alloc"]}
{"id": "C37", "title": "A frame is decoded only from existing, compatible reference data", "statement": "Every frame handed to the tile decoder refers to seven existing decoded pictures of compatible size and format taken from the slots its header names, an existing CDF context, and motion fields or segmentation maps only of frames with the same block dimensions.", "quantifier": "every stream and history, both error and success paths", "why_tests_cant": "Reference slots evolve over unbounded histories, including failed frames.", "anchors": ["src/decode.c:dav1d_submit_frame"]}
{"id": "C38", "title": "Every tile has its own part of the frame's work buffers", "statement": "The 32-bit start offsets of the tiles never wrap around, and the parts of the block, coefficient, palette index and lowest-pixel buffers that belong to different tiles are disjoint and inside the buffers allocated for the frame.", "quantifier": "every frame size up to 65536x65536, every tiling, superblock size, layout and bit depth", "why_tests_cant": "Overflow needs frames of several gigapixels; overlaps show only as races between threads.", "anchors": ["src/decode.c:dav1d_decode_frame_init", "src/decode.c:setup_tile"]}
{"id": "C39", "title": "Work buffers kept from frame to frame fit the frame they are used for", "statement": "After any sequence of frames of any sizes with any pattern of failed allocations, preparing a frame either fails or leaves every work buffer and line pointer valid for exactly that frame.", "quantifier": "every sequence of frames and of allocation failures, positive and negative strides", "why_tests_cant": "Depends on the order of frame sizes and on rare allocation failures.", "anchors": ["src/decode.c:dav1d_decode_frame_init"]}
{"id": "C40", "title": "The inverse transforms never overflow and leave the coefficient buffer zero", "statement": "For every block the decoder can meet, whatever its coefficients, the inverse transforms perform no undefined operation (no signed overflow, no read of uninitialised or out of range elements), produce pixels in range, and leave the coefficient buffer zero for the next block.", "quantifier": "every block size, transform type, end of block, bit depth, clamped coefficients and pixels", "why_tests_cant": "The extreme coefficients that could overflow an intermediate lie in a space of dimension up to 1024.", "anchors": ["src/itx_tmpl.c:inv_txfm_add_c", "src/itx_1d.c", "src/itx_tmpl.c:dav1d_itx_dsp_init"]}
{"id": "C41", "title": "Residuals are reconstructed exactly as the AV1 specification says", "statement": "For every block the pixels after the inverse transform equal those of the two-dimensional inverse transform process of the AV1 specification (butterfly by butterfly), including lossless blocks.", "quantifier": "every block size, transform type, end of block, bit depth, coefficients and pixels", "why_tests_cant": "Bit-exactness must hold for all coefficient blocks; a rounding difference may need a single coefficient pattern.", "anchors": ["src/itx_tmpl.c:inv_txfm_add_c", "src/itx_1d.c:dav1d_tx1d_fns", "src/itx_tmpl.c:inv_txfm_add_wht_wht_4x4_c"]}
{"id": "C42", "title": "Coefficients are placed where the AV1 scan order says", "statement": "The place a decoded coefficient is stored at is the place the AV1 scan process assigns to its scan index, every place occurs exactly once, and the rows the inverse transform skips because of the end of block hold no coefficient.", "quantifier": "every transform size, type and scan index", "why_tests_cant": "Tables of thousands of entries; an error affects only particular end-of-block values.", "anchors": ["src/scan.c", "src/itx_tmpl.c:inv_txfm_add_c", "src/recon_tmpl.c:decode_coefs", "src/tables.c:dav1d_tx_type_class"]}
{"id": "C43", "title": "Coefficient decoding follows the AV1 coefficient syntax", "statement": "For every transform block, whatever the arithmetic decoder delivers, decode_coefs asks for the symbols of the coefficient syntax in the same order and from the corresponding probability tables, ends with the transform type, end of block, dequantised coefficients and contexts of the specification, does nothing undefined, and the inverse transform of its result adds the residual of the specification and leaves the coefficient buffer clear.", "quantifier": "every transform size, type, plane, block size, subsampling, bit depth, quantizer, neighbouring contexts and every sequence of symbols", "why_tests_cant": "The contexts depend on all the levels decoded before in the block; a wrong context in a rare position desynchronises the arithmetic decoder only for particular streams.", "anchors": ["src/recon_tmpl.c:decode_coefs", "src/recon_tmpl.c:get_skip_ctx", "src/recon_tmpl.c:get_dc_sign_ctx", "src/recon_tmpl.c:get_lo_ctx", "src/recon_tmpl.c:read_golomb"]}
{"id": "C44", "title": "Film grain is applied exactly as the AV1 specification says", "statement": "For every picture with film grain parameters from an accepted frame header, the output planes equal those of the film grain synthesis process of the AV1 specification, nothing undefined happens on the way, only visible output pixels (and one column of padding of the input) are written, and the pictures output without synthesis are those the process would not change.", "quantifier": "every parameter set the header syntax allows, every size, bit depth and chroma layout, every picture content", "why_tests_cant": "Noise depends on pseudo random offsets, overlaps of blocks at borders and odd sizes; a wrong rounding shows only for particular seeds and positions.", "anchors": ["src/fg_apply_tmpl.c:dav1d_apply_grain", "src/fg_apply_tmpl.c:dav1d_prep_grain", "src/fg_apply_tmpl.c:dav1d_apply_grain_row", "src/filmgrain_tmpl.c:generate_grain_y_c", "src/filmgrain_tmpl.c:generate_grain_uv_c", "src/filmgrain_tmpl.c:fgy_32x32xn_c", "src/filmgrain_tmpl.c:fguv_32x32xn_c", "src/fg_apply_tmpl.c:generate_scaling", "src/lib.c:has_grain"]}
{"id": "C45", "title": "The directional enhancement filter (CDEF) follows the AV1 specification", "statement": "For every frame, after all superblock rows are deblocked and filtered, every pixel of every plane equals that of the CDEF process of the AV1 specification applied to the deblocked frame, in place and whether one thread filters the superblock rows in order or several threads in any order, with nothing undefined on the way (no unset or out of range read) and no other pixels changed.", "quantifier": "every frame size, bit depth, chroma layout, superblock size, strength, damping, skip pattern and pixel content; every order of the superblock rows with several threads", "why_tests_cant": "The filter works in place and keeps the unfiltered neighbours in several small buffers; a stale buffer shows only for particular patterns of skipped blocks at particular borders or schedules.", "anchors": ["src/cdef_apply_tmpl.c:dav1d_cdef_brow", "src/cdef_tmpl.c:cdef_filter_block_c", "src/cdef_tmpl.c:cdef_find_dir_c", "src/cdef_tmpl.c:padding", "src/recon_tmpl.c:dav1d_filter_sbrow_cdef"]}
{"id": "C46", "title": "Translational motion compensation follows the AV1 specification", "statement": "For every inter block without warping, the prediction that is written equals sample by sample the block inter prediction process of the AV1 specification from the reference frame, whatever the motion vector points to (also far outside the reference), at the same or a different reference size; so does the combination of the two predictions of a compound block (average, distance, difference and wedge weights), and intra block copy. Nothing outside the reference planes is read and nothing but the block is written.", "quantifier": "every bit depth, chroma layout and plane, block size and position, motion vector, interpolation filter pair, reference frame size within the limits that frame headers are checked for, and reference content", "why_tests_cant": "Edge emulation, the scaled position arithmetic and the split of the filters into special cases agree with the specification only if many constants match; a wrong one shows for rare vectors near borders or for scaled references.", "anchors": ["src/recon_tmpl.c:mc", "src/recon_tmpl.c:dav1d_recon_b_inter", "src/mc_tmpl.c:put_8tap_c", "src/mc_tmpl.c:put_8tap_scaled_c", "src/mc_tmpl.c:prep_8tap_c", "src/mc_tmpl.c:put_bilin_c", "src/mc_tmpl.c:emu_edge_c", "src/mc_tmpl.c:avg_c", "src/mc_tmpl.c:w_avg_c", "src/mc_tmpl.c:mask_c", "src/mc_tmpl.c:w_mask_c", "src/tables.c:dav1d_mc_subpel_filters"]}
{"id": "C47", "title": "The wedge and inter-intra masks are those of the AV1 specification", "statement": "The table that dav1d_init_ii_wedge_masks builds at start-up holds, for every block size, chroma subsampling, sign and mask number, the wedge masks of the AV1 specification (averaged for the subsampled planes) and the inter-intra masks of every mode, at the places where WEDGE_MASK and II_MASK look for them; building it stays inside of the table, and no offset is cut off by its 16 bit type. A wedge compound block decoded with this table is the one of the specification.", "quantifier": "every block size with wedges, layout, sign, wedge index, inter-intra mode and mask position", "why_tests_cant": "The table is built from compressed templates, mirrored and transposed, with precomputed sign words and shared arrays; a wrong sign bit or offset affects one mask of hundreds.", "anchors": ["src/wedge.c:dav1d_init_ii_wedge_masks", "src/wedge.c:fill2d_16x2", "src/wedge.c:init_chroma", "src/wedge.c:build_nondc_ii_masks", "src/wedge.h:WEDGE_MASK", "src/wedge.h:II_MASK"]}
{"id": "C48", "title": "Overlapped motion compensation and inter-intra blending follow the AV1 specification", "statement": "For every block predicted with overlapped motion compensation, the samples after obmc() equal those of the overlapped motion compensation process of the AV1 specification: the same neighbours above and to the left are used, predicted with their own vectors, references and filters, and blended with the same weights in the same order; only the block is written. For every inter-intra block the written samples are the rounded blend of intra and inter prediction with the masks of the specification.", "quantifier": "every block size that allows it, position in frame and tile, chroma layout and plane, bit depth, arrangement of the neighbouring blocks, their vectors, references and filters, and all sample contents; every inter-intra size, mode and wedge", "why_tests_cant": "The C code predicts fewer rows than it names and blends only three quarters of the overlap; it finds the neighbours through ring buffers of rows and contexts, and the step over them depends on their sizes.", "anchors": ["src/recon_tmpl.c:obmc", "src/mc_tmpl.c:blend_c", "src/mc_tmpl.c:blend_v_c", "src/mc_tmpl.c:blend_h_c", "src/tables.c:dav1d_obmc_masks", "src/recon_tmpl.c:dav1d_recon_b_inter"]}
{"id": "C49", "title": "Local warped motion is found as the AV1 specification says", "statement": "For every block of which the neighbours are any aligned tiling of already decoded blocks, find_matching_ref finds neighbours exactly if the AV1 specification finds warp samples, and the model derive_warpmv fits to them (and its shear parameters, or that there is none) is exactly LocalWarpParams of the specification; no signed overflow, shift or table access is undefined on the way, and the second pass of frame threading recovers the same model from the 16 bit values kept by the first.", "quantifier": "every block size and position in frame and tile, every arrangement, reference and motion vector of the neighbours, every motion vector of the block; every divisor of the division table; every model in range for the shear", "why_tests_cant": "The samples are kept as two 64 bit masks and found again later from those; the arithmetic casts 64 bit values to int and stores into 16 bits, and the limit of eight samples is applied in a different place than in the specification.", "anchors": ["src/decode.c:find_matching_ref", "src/decode.c:derive_warpmv", "src/warpmv.c:dav1d_find_affine_int", "src/warpmv.c:dav1d_get_shear_params", "src/warpmv.c:dav1d_set_affine_mv2d", "src/warpmv.c:resolve_divisor_32", "src/warpmv.c:resolve_divisor_64", "src/decode.c:decode_b"]}
{"id": "C50", "title": "Warped prediction follows the AV1 specification", "statement": "For every inter block with one or two references, each prediction is a warp or a translation exactly as the AV1 specification says (block size in the plane, integer vectors, scaled references, validity of the model, local before global), and the warped samples equal those of its block warp process; nothing outside the reference plane is read, only the block is written, and no arithmetic overflows.", "quantifier": "every bit depth, chroma layout and plane, block size and position, warp model in the range that local and global models can have, frames below 32768 samples in either direction, and all reference contents", "why_tests_cant": "The position arithmetic is done in steps of 8x8 blocks with 64 bit products cut to int, the low bits of the filter position are masked off, and the choice is made from flags computed once per frame.", "anchors": ["src/recon_tmpl.c:warp_affine", "src/mc_tmpl.c:warp_affine_8x8_c", "src/mc_tmpl.c:warp_affine_8x8t_c", "src/tables.c:dav1d_mc_warp_filter", "src/recon_tmpl.c:dav1d_recon_b_inter", "src/decode.c:dav1d_submit_frame"]}
{"id": "C51", "title": "Intra prediction follows the AV1 specification", "statement": "For every intra predicted block (all thirteen modes with their angle offsets, the recursive filter, chroma from luma, palettes, and the intra part of inter-intra blocks) the edge samples that dav1d_prepare_intra_edges gathers and the functions of src/ipred_tmpl.c give exactly the samples of the intra prediction, chroma from luma and palette processes of the AV1 specification; samples that are not available or lie after the end of the tile are not read, only the block is written, and every access to the edge buffers is inside of them.", "quantifier": "every block size, bit depth, mode and angle, edge filter and smooth flags, availability of the left, above, above right and below left neighbours, distance to the tile and frame end, and all sample contents; every chroma subsampling, padding and alpha for chroma from luma", "why_tests_cant": "Missing edges are replaced by other modes, edge filters and upsampling are done on copies with positions relative to different ends, and the limits of the frame enter twice; an error shows only for particular angles at particular borders.", "anchors": ["src/ipred_prepare_tmpl.c:dav1d_prepare_intra_edges", "src/ipred_tmpl.c:ipred_z1_c", "src/ipred_tmpl.c:ipred_z2_c", "src/ipred_tmpl.c:ipred_z3_c", "src/ipred_tmpl.c:filter_edge", "src/ipred_tmpl.c:upsample_edge", "src/ipred_tmpl.c:ipred_filter_c", "src/ipred_tmpl.c:ipred_paeth_c", "src/ipred_tmpl.c:ipred_smooth_c", "src/ipred_tmpl.c:dc_gen", "src/ipred_tmpl.c:cfl_ac_c", "src/ipred_tmpl.c:cfl_pred", "src/ipred_tmpl.c:pal_pred_c", "src/tables.c:dav1d_dr_intra_derivative", "src/tables.c:dav1d_filter_intra_taps"]}
{"id": "C52", "title": "The deblocking filter follows the AV1 specification", "statement": "The limits and the filter levels that dav1d precomputes equal those of the AV1 specification for every segment, plane, direction, reference and mode type, and dav1d_loopfilter_sbrow_cols and dav1d_loopfilter_sbrow_rows change every line of samples of a superblock row, luma and chroma, exactly as the edge loop and the sample filters of the specification do for the edges in the masks; no other sample changes, and nothing outside the planes, the masks and the tables is accessed.", "quantifier": "every bit depth, chroma layout, superblock size and position, frame size in units of four samples, sharpness, level, delta and segment feature value, all masks whose filters stay inside the frame, and all sample contents", "why_tests_cant": "The masks pack 32 units with halves that are shifted by the subsampling, the vertical edges merge two 64 sample halves only for some superblock rows, the level of an edge falls back to the block before it, and the filters are written with unrolled sums; an error appears only at certain positions or sizes.", "anchors": ["src/loopfilter_tmpl.c:loop_filter", "src/loopfilter_tmpl.c:loop_filter_h_sb128y_c", "src/loopfilter_tmpl.c:loop_filter_v_sb128y_c", "src/loopfilter_tmpl.c:loop_filter_h_sb128uv_c", "src/loopfilter_tmpl.c:loop_filter_v_sb128uv_c", "src/lf_apply_tmpl.c:filter_plane_cols_y", "src/lf_apply_tmpl.c:filter_plane_rows_y", "src/lf_apply_tmpl.c:filter_plane_cols_uv", "src/lf_apply_tmpl.c:filter_plane_rows_uv", "src/lf_apply_tmpl.c:dav1d_loopfilter_sbrow_cols", "src/lf_apply_tmpl.c:dav1d_loopfilter_sbrow_rows", "src/lf_mask.c:dav1d_calc_eih", "src/lf_mask.c:dav1d_calc_lf_values"]}
{"id": "C53", "title": "The loop filter masks follow the AV1 specification", "statement": "The masks that dav1d builds for the luma and chroma of a block, intra or inter, hold, at every position of the block, exactly the edges and filter sizes that the AV1 specification derives from the transform sizes, block size, skip and intra flags; the filter levels and the contexts of the block are stored at its positions, and no mask, level or context outside of the block changes. At every boundary of tile columns and tile rows in a superblock row the correction of the masks gives the filter size of the transforms on both sides, and no other edge changes.", "quantifier": "every block position and size inside and across the picture border, every transform size that fits the block, every tree of transform splits of an inter block, chroma subsampling, skip and intra flags, level values and contexts, and masks that are clear in the block", "why_tests_cant": "The masks are 32 positions split into two words, whose split depends on the subsampling; the inner edges are set with shifted 64 bit differences; the sizes are capped differently for luma and chroma; the luma of an inter block is walked along the steps of a tree of transforms; tiles are decoded independently, so the size before the first block of a tile is patched afterwards.", "anchors": ["src/lf_mask.c:decomp_tx", "src/lf_mask.c:mask_edges_inter", "src/lf_mask.c:mask_edges_intra", "src/lf_mask.c:mask_edges_chroma", "src/lf_mask.c:dav1d_create_lf_mask_intra", "src/lf_mask.c:dav1d_create_lf_mask_inter", "src/lf_apply_tmpl.c:dav1d_loopfilter_sbrow_cols"]}
