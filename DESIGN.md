# A Rocq model of dav1d

## Method

Each piece of C code is transcribed into a small, total, computable Gallina
function over `Z` (file `*Model.v`).  C integer widths are explicit (`u8`,
`u16`, `u32`, `u64`, `s32` wrap-around helpers); an out-of-bounds read, a
failed `assert`, an out-of-range shift or a signed overflow yields the distinct
outcome `Undef`, so "no undefined behaviour" is a theorem, not an assumption.
Specifications (`*Spec.v`) are written from the AV1 bitstream specification, the
RFC or the API documentation and do not use the model's helpers.  Proofs live
in `*Proofs.v`.  The property theorems are restated in `theories/Props/Cxx.v`
files, which contain only statements closed with `exact`, satisfiability
examples, and `Print Assumptions`.

## Plan per property

| id | modelled code | proof technique |
|----|---------------|-----------------|
| C01 | getbits.c reader state machine, byte memory with bounds | refinement to "bit i of the stream" function; invariant on window/position |
| C02 | uleb128 / uniform / vlc / subexp as programs over the reader | equality with spec functions, encoder round trip |
| C03-C05 | parse_seq_hdr, dav1d_parse_sequence_header, check_trailing_bits | weakest-precondition pass over the parser program + refinement to AV1 syntax written independently |
| C06, C07 | dav1d_parse_obus framing | case analysis over the framing model with abstract payload handlers |
| C08 | tiling section of parse_frame_hdr | loop invariants |
| C09 | short ref signalling section, get_poc_diff | equality with set_frame_refs of the AV1 spec |
| C10 | gmv section, subexp | invariant by induction over the frame history |
| C11 | film grain section | wp over parser program |
| C12-C14 | msac.c/.h | refinement of the inverted lazily refilled window to the bit-serial spec decoder; invariants |
| C15 | ref.c, data.c | ghost ownership invariant over all histories / interleavings |
| C16 | mem.c pool | lock-granularity transition system, inductive invariant |
| C17, C18 | lib.c API state machine, abstract parser steps | inductive invariant over call histories against a queue spec |
| C19 | dav1d_submit_frame ref update, show-existing | history refinement to abstract slot map |
| C20, C21 | tile group bookkeeping and tile size parsing | loop invariants |
| C22 | default picture alloc | arithmetic |
| C23 | get_num_threads | arithmetic |
| C24 | delayed_fg_task | small-step interleaving model, inductive invariant + termination measure |
| C25 | insert_tasks etc. | list refinement |
| C26 | get_frame_progress | bitmap invariant |
| C27 | frame size limit check | arithmetic / wp |
| C28 | neg_deinterleave | bijection proof |
| C29 | inv_txfm_add_c + itx_1d.c | symbolic evaluation at DC-only input |
| C30, C31 | tools/input | round trip induction; refutation witnesses where the C code is wrong |
| C32 | md5.c | chunking invariance + refinement to RFC 1321 |
| C33 | end of tile check in decode_tile_sbrow (Msac) | window arithmetic over the reader state |
| C34 | complete parse_frame_hdr (Obu/Frame*.v) | lock-step simulation of two bit-reading programs |
| C35 | decoder state after errors | restart simulation against a new decoder; refuting session |
| C36, C37 | metadata OBUs, dav1d_submit_frame (Dec) | history invariants |
| C38, C39 | dav1d_decode_frame_init, setup_tile (Mem, Tile) | arithmetic and history invariants |
| C40, C41 | itx_1d.c, itx_tmpl.c | programs over a small expression language; interval analysis and symbolic equality with the butterfly specification (Itx) |
| C42, C43 | scan tables, decode_coefs | table comparison; lock-step simulation of two symbol-reading programs (Itx, Coef) |
| C44 | fg_apply_tmpl.c, filmgrain_tmpl.c | loop invariants over partial arrays (Base/Loop.v) against 7.18.3 (Grain) |
| C45 | cdef_apply_tmpl.c, cdef_tmpl.c, filter_sbrow_cdef | loop invariants: pixels before/after, saved columns and rows, against 7.15 (Cdef) |
| C46 | mc(), mc_tmpl.c (8-tap, bilinear, scaled, emu_edge, avg, w_avg, mask, w_mask) | one kernel lemma per filter case, a window lemma for edge emulation, against 7.11.3.1-7.11.3.4, 7.11.3.12-7.11.3.15 (Mc) |
| C47 | wedge.c, wedge.h (dav1d_init_ii_wedge_masks, WEDGE_MASK, II_MASK) | one footprint per written array and offset column, all apart from each other; values against 7.11.3.11, 7.11.3.13 (Mc/MaskSpec) |
| C48 | recon_tmpl.c obmc(), mc_tmpl.c blend_c/blend_v_c/blend_h_c, tables.c dav1d_obmc_masks | the loops over the neighbours visit the list of 7.11.3.10 and keep the block equal to the folded overlaps (Mc/ObmcSpec); that no overlap leaves the block follows from the alignment of blocks (Mc/ObmcFit) |
| C49 | decode.c find_matching_ref/derive_warpmv, warpmv.c | the mask bits are the places of the samples of 7.10.4 (Warp/Masks, Points); the 64 bit sums stay in range and the casts are harmless by the Cauchy-Schwarz inequality (Warp/Solve) |
| C50 | recon_tmpl.c warp_affine and its callers, mc_tmpl.c warp_affine_8x8(t) | one kernel lemma for both outputs with the filter position split by 64 (Warp/Block), then the choice against 7.11.3.1 (Warp/Choice); the compound lemmas of C46 are generic in the two predictions |
| C51 | ipred_prepare_tmpl.c, ipred_tmpl.c | the edge buffer as an array with a lemma per edge (Ipred/Edge); filter and upsampling as functions of an unbounded edge, with tail and border constancy to absorb the different limits (Ipred/Arrays, Zones, Zone2); one lemma per predictor, assembled by the mode conversion (Ipred/Intra) |
| C52 | loopfilter_tmpl.c, lf_apply_tmpl.c (cols, rows), lf_mask.c (limits, levels) | one line of samples against the specification (Lf/Line, Edge); strips of 32 units from the masks (Lf/Strip); the masks of a superblock as sizes of edges (Lf/Frame); columns and rows of a superblock row as a fold over each line (Lf/Sbrow), with the sizes of the subsampled planes (Lf/Deblock); tables by computation and loop invariants (Lf/Levels) |
| C53 | lf_mask.c (masks), lf_apply_tmpl.c (tile boundaries) | the masks as a bit for each size and position (Lf/MaskBits); one direction of a block and the size of each edge (Lf/MaskBlock); luma of an intra block and chroma (Lf/MaskCreate); the tree of transforms of an inter block (Lf/MaskDecomp), the walk along it (Lf/MaskWalk) and its luma (Lf/MaskInter); a tile boundary (Lf/MaskTile) and the loops over all of them (Lf/MaskTiles) |

## Module map

`Base` (C integers, outcomes, loops), `GetBits` (bit reader), `Obu` (sequence and
frame headers, OBU framing, tile groups), `Msac` (arithmetic decoder), `Mem`
(references, pools, work buffers), `Dec`, `Lib` (decoder state machine, API), `Sched`
(task scheduling), `Seg`, `Tile` (segmentation map, tiles), `Itx`, `Coef` (residuals),
`Grain` (film grain), `Cdef` (CDEF), `Mc` (motion compensation), `Warp` (warped motion), `Tools` (demuxers, md5), `Props` (the property theorems).

## Trusted base

Coq 8.16.1's kernel and standard library; the transcription of C into Gallina
(each definition cites the lines it models); no axioms (each property file
prints its assumptions).
