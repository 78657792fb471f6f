{
 "claims": [
  {
   "property": "C01",
   "status": "proved",
   "theorems": [
    "C01_round_trip",
    "C01_large_refuted"
   ],
   "note": "Heatshrink compressor as any function producing a valid token stream; crle body below 2^28 bytes; sizes below 2^27 (refuted for larger to files)."
  },
  {
   "property": "C02",
   "status": "proved",
   "theorems": [
    "C02_meaning"
   ],
   "note": "none/crle/heatshrink; with none compression the header lies in the first piece (see C04)"
  },
  {
   "property": "C03",
   "status": "proved",
   "theorems": [
    "C03_chunking"
   ],
   "note": "crle without zero-length segments, with none compression the header lies in the first piece or the patch is fed at once"
  },
  {
   "property": "C04",
   "status": "proved",
   "theorems": [
    "C04_refuted"
   ],
   "note": "The property is false of the code; the theorem is the counterexample."
  },
  {
   "property": "C05",
   "status": "proved",
   "theorems": [
    "C05_success_size"
   ],
   "note": "arbitrary patch bytes, callbacks, chunking; count modulo 2^word_bits"
  },
  {
   "property": "C06",
   "status": "proved",
   "theorems": [
    "C06_bounded",
    "C06_refuted"
   ],
   "note": "Proved for arbitrary callbacks, call sequences and (prefixes of) patches without negative sizes, in all three compressions. The unrestricted statement is false: C06_refuted shows negative sizes bypassing the bound check."
  },
  {
   "property": "C07",
   "status": "proved",
   "theorems": [
    "C07_failure_sticky",
    "C07_finalize_refuted"
   ],
   "note": "sequential applier; after a process() error. After a finalize() error it is false, shown by the refuted theorem"
  },
  {
   "property": "C08",
   "status": "proved",
   "theorems": [
    "C08_dump_restore",
    "C08_same_verdict",
    "C08_transparent",
    "C08_restorable",
    "C08_empty_refuted"
   ],
   "note": "Any history of process / dump / crash / restore cycles (none, crle, heatshrink): the rest of the patch completes the described output; arbitrary patches get the verdict of an uninterrupted run. False only for the heatshrink patch that creates an empty file (C08_empty_refuted: uninitialised decoder in finalize after restore). A dump of an applier that already failed is outside the statement."
  },
  {
   "property": "C09",
   "status": "proved",
   "theorems": [
    "C09_truncated",
    "C09_truncated_calls"
   ],
   "note": "no run that returns reports success, whatever the callbacks do; finalize() fails in any sequence of calls"
  },
  {
   "property": "C10",
   "status": "proved",
   "theorems": [
    "C10_refuted",
    "C10_none_trailing",
    "C10_heatshrink_pending"
   ],
   "note": "none: exact error code for trailing bytes; heatshrink: a stream with data still pending in a back reference is reported as corrupt; refuted for crle (trailing bytes accepted)"
  },
  {
   "property": "C11",
   "status": "proved",
   "theorems": [
    "C11_no_undefined_behaviour",
    "C11_callbacks_no_undefined_behaviour",
    "C11_refuted"
   ],
   "note": "Proved for every byte string, call sequence and honest callbacks on a from area of at most 2 GB, except crle patches with an empty segment; C11_refuted shows both exceptions are real."
  },
  {
   "property": "C12",
   "status": "proved",
   "theorems": [
    "C12_terminates",
    "C12_callbacks_terminate"
   ],
   "note": "arbitrary callbacks and patch bytes; process/finalize protocol and the callback API"
  },
  {
   "property": "C13",
   "status": "proved",
   "theorems": [
    "C13_python",
    "C13_c_body",
    "C13_c_header"
   ],
   "note": "The C body reader is stated over the uncompressed patch reader; the compressed readers deliver the same bytes by C16/C17."
  },
  {
   "property": "C14",
   "status": "proved",
   "theorems": [
    "C14_addresses",
    "C14_refuted"
   ],
   "note": "Proved for every address except 2^63, where packing overflows a signed 64 bit integer."
  },
  {
   "property": "C15",
   "status": "proved",
   "theorems": [
    "C15_lossless"
   ],
   "note": "Any compress() pieces, any decompress() schedule."
  },
  {
   "property": "C16",
   "status": "proved",
   "theorems": [
    "C16_c_decodes_python"
   ],
   "note": "Non-empty data below 2^28 bytes, any schedule of arriving input and requests."
  },
  {
   "property": "C17",
   "status": "proved",
   "theorems": [
    "C17_lzss"
   ],
   "note": "Window 8, lookahead 7, as configured in heatshrink_config.h."
  },
  {
   "property": "C18",
   "status": "proved",
   "theorems": [
    "C18_decoder_safe",
    "C18_reader_safe"
   ],
   "note": "All window/lookahead sizes 1..15 for the decoder itself."
  },
  {
   "property": "C19",
   "status": "proved",
   "theorems": [
    "C19_round_trip",
    "C19_meaning"
   ],
   "note": "Creation is the Python creator without a data format (suffix array algorithm and heatshrink compressor universally quantified), application the C code on flash memory. Precondition beyond the property text: the to data fits in the memory, sizes below 2^27 (limit of the C size fields), crle body below 2^28; for compression none the first piece contains the header (see C04)."
  },
  {
   "property": "C20",
   "status": "proved",
   "theorems": [
    "C20_resume"
   ],
   "note": ""
  },
  {
   "property": "C21",
   "status": "proved",
   "theorems": [
    "C21_refuted"
   ],
   "note": "The property is false of the code; the refutation is proved."
  },
  {
   "property": "C22",
   "status": "proved",
   "theorems": [
    "C22_bounds"
   ],
   "note": ""
  },
  {
   "property": "C23",
   "status": "proved",
   "theorems": [
    "C23_refuted"
   ],
   "note": "The property is false of the code; the refutation is proved."
  },
  {
   "property": "C24",
   "status": "proved",
   "theorems": [
    "C24_steps"
   ],
   "note": ""
  },
  {
   "property": "C25",
   "status": "proved",
   "theorems": [
    "C25_correct"
   ],
   "note": "Files below 2^30 bytes."
  },
  {
   "property": "C26",
   "status": "proved",
   "theorems": [
    "C26_in_bounds"
   ],
   "note": "Files below 2^30 bytes."
  },
  {
   "property": "C27",
   "status": "proved",
   "theorems": [
    "C26_in_bounds",
    "C27_refuted"
   ],
   "note": "Refuted from 2^30 bytes on, proved below."
  },
  {
   "property": "C28",
   "status": "proved",
   "theorems": [
    "C28_true_match",
    "C28_refuted"
   ],
   "note": "True match proved, longest match refuted."
  },
  {
   "property": "C29",
   "status": "proved",
   "theorems": [
    "C29_round_trip"
   ],
   "note": "Files below 2^30 bytes (bsdiff limit); none, crle, and heatshrink with any encoder/decoder of the external package that follows the format."
  },
  {
   "property": "C30",
   "status": "proved",
   "theorems": [
    "C30_round_trip",
    "C30_meaning",
    "C30_large_to_refuted",
    "C30_large_shift_refuted"
   ],
   "note": "For every from and to data, memory, segment and shift size accepted by the creator with shift <= memory and to fitting: created and applied, nothing behind the memory changes. Also for every well-formed patch (C30_meaning). The two conditions are shown to be needed."
  },
  {
   "property": "C31",
   "status": "proved",
   "theorems": [
    "C31_round_trip",
    "C31_meaning",
    "C31_fields"
   ],
   "note": "bz2 is an external package: its compressor and decompressor are parameters, assumed lossless (bz_lossless) and not to make data more than about twice as long."
  },
  {
   "property": "C32",
   "status": "proved",
   "theorems": [
    "C32_agree",
    "C32_in_place_agree"
   ],
   "note": "None, crle and heatshrink; sizes below 2^27; for none the header must be in the first piece fed to C (C04). C32_in_place_agree: the same for in-place patches."
  },
  {
   "property": "C33",
   "status": "proved",
   "theorems": [
    "C33_report",
    "C33_created",
    "C33_other",
    "C33_hdiffpatch",
    "C33_sums",
    "C33_applies",
    "C33_truncated",
    "C33_negative_refuted",
    "C33_in_place",
    "C33_trailing_refuted"
   ],
   "note": "For well-formed and created sequential and in-place patches, and created sequential ones with the compressions of other packages. For arbitrary bodies that decompress, acceptance by patch_info implies that apply_patch does not reject the patch, if no reported size is negative; with negative sizes the two disagree (C33_negative_refuted), and patch_info does not check what follows an in-place patch (C33_trailing_refuted). Created hdiffpatch patches: C33_hdiffpatch."
  },
  {
   "property": "C34",
   "status": "proved",
   "theorems": [
    "C34_truncated",
    "C34_overlong",
    "C34_in_place_truncated",
    "C34_in_place_overlong",
    "C34_empty_refuted",
    "C34_crle_refuted"
   ],
   "note": "Sequential and in-place patches. The exceptions (empty to file; crle segments without content) are stated and shown to be real by the _refuted theorems."
  },
  {
   "property": "C35",
   "status": "proved",
   "theorems": [
    "C35_bw",
    "C35_bl",
    "C35_add",
    "C35_adrp",
    "C35_word",
    "C35_call0",
    "C35_found"
   ],
   "note": "All instruction words of every recognised class; and for every file the values the disassemblers find pack back to the bytes at their addresses."
  },
  {
   "property": "C36",
   "status": "proved",
   "theorems": [
    "C36_lossless",
    "C36_round_trip",
    "C36_short_refuted",
    "C36_far_refuted"
   ],
   "note": "All images, any correct matching-blocks result, overlapping fields included, for consistent data segments; end to end through create_patch() and apply_patch(). Refuted without the consistency (silently wrong output) and for AArch64 pointers 2^63 apart."
  },
  {
   "property": "C37",
   "status": "proved",
   "theorems": [
    "C37_refuted",
    "C37_high_refuted",
    "C37_low",
    "C37_wide"
   ],
   "note": "Refuted: the patch is created but applying it raises, for every 32 bit pointer from 2^31 on. All pointers below, and all 64 bit pointers, are packed correctly."
  },
  {
   "property": "C38",
   "status": "proved",
   "theorems": [
    "C38_strings",
    "C38_min_refuted"
   ],
   "note": "All ints but INT_MIN, for which the negation is undefined (refuted part)."
  },
  {
   "property": "C39",
   "status": "proved",
   "theorems": [
    "C39_refuted",
    "C39_zero"
   ],
   "note": "False whenever the to file is not empty (proved for every created patch on a disk where every fclose fails); what holds: a result of 0 implies every fclose succeeded, for any stdio."
  },
  {
   "property": "C40",
   "status": "proved",
   "theorems": [
    "C40_requests",
    "C40_in_order",
    "C40_in_place_requests",
    "C40_in_place_in_order"
   ],
   "note": "Sequential and in-place callback APIs. For the in-place API the memory callbacks return zero or negative codes, as documented: positive codes are passed on as results."
  },
  {
   "property": "C41",
   "status": "proved",
   "theorems": [
    "C41_total",
    "C41_formats",
    "C41_readers",
    "C41_any",
    "C41_negative_refuted"
   ],
   "note": "Compression none, crle, heatshrink, unknown numbers or any other that ends on any data; the data format readers included; hdiffpatch is assumed to terminate."
  },
  {
   "property": "C42",
   "status": "proved",
   "theorems": [
    "C42_total",
    "C42_short_refuted"
   ],
   "note": "Contents of the streams are arbitrary, the streams themselves are well-formed bz2 streams. That as much is written as announced is refuted: a short extra stream is not noticed."
  },
  {
   "property": "C43",
   "status": "proved",
   "theorems": [
    "C43_files",
    "C43_in_place"
   ],
   "note": "Against a file system in which nothing fails; the in-place function with NULL step callbacks and memory files up to INT_MAX bytes (offsets are cast to int)."
  },
  {
   "property": "C44",
   "status": "proved",
   "theorems": [
    "C44_discipline"
   ],
   "note": "For any behaviour of stdio, any patch and any result; step callbacks do not touch the files."
  },
  {
   "property": "C45",
   "status": "proved",
   "theorems": [
    "C45_refuted"
   ],
   "note": "The property is false: the to file is opened for writing before the patch is opened."
  },
  {
   "property": "C46",
   "status": "proved",
   "theorems": [
    "C46_no_erased_read"
   ],
   "note": "For memories without erased cells at the start; cells erased before the update may be read by the shift, which copies whole segments."
  },
  {
   "property": "C47",
   "status": "proved",
   "theorems": [
    "C47_terminates",
    "C47_callbacks_terminate"
   ],
   "note": "Any bytes, any callbacks; undefined behaviour (division by a zero segment size, int overflow) is a separate outcome that also ends the run."
  },
  {
   "property": "C48",
   "status": "proved",
   "theorems": [
    "C48_sequential",
    "C48_sequential_callbacks",
    "C48_lzma",
    "C48_lzma_callbacks",
    "C48_in_place",
    "C48_in_place_callbacks",
    "C48_in_place_lzma",
    "C48_in_place_lzma_callbacks",
    "C48_in_place_refuted"
   ],
   "note": "In place with memory callback codes that are not positive and not -11; C48_in_place_refuted shows why -11 is excluded. The theorems with lzma in their names cover a library with LZMA, with any decoder."
  },
  {
   "property": "C49",
   "status": "proved",
   "theorems": [
    "C49_sequential",
    "C49_sequential_callbacks",
    "C49_lzma",
    "C49_lzma_callbacks",
    "C49_in_place",
    "C49_in_place_callbacks",
    "C49_in_place_lzma",
    "C49_in_place_lzma_callbacks",
    "C49_in_place_refuted"
   ],
   "note": "In place with documented memory callback codes; C49_in_place_refuted shows a raw code coming out. The theorems with lzma in their names cover a library with LZMA, with any decoder; they are about the protocol of init, process and finalize, not about arbitrary sequences of calls."
  },
  {
   "property": "C50",
   "status": "proved",
   "theorems": [
    "C50_refuted",
    "C50_no_undefined_behaviour",
    "C50_callbacks_no_undefined_behaviour"
   ],
   "note": "Refuted in general by three short patches; proved with the conditions that exclude them. Bodies that cannot be decompressed to the end of what was fed are not covered."
  },
  {
   "property": "C51",
   "status": "proved",
   "theorems": [
    "C51_refuted",
    "C51_changes_within_memory",
    "C51_callbacks_changes_within_memory",
    "C51_reads_refuted"
   ],
   "note": "Refuted for inconsistent headers and negative sizes; proved for consistent headers and non-negative sizes with any callbacks that return documented codes. Reads are not bounded (C51_reads_refuted)."
  },
  {
   "property": "C52",
   "status": "proved",
   "theorems": [
    "C52_success",
    "C52_callbacks_success"
   ],
   "note": "Devices with step callbacks that skip completed steps are covered by C20, C21 and C24, not here. Positions are exact unless 2^word_bits bytes are written."
  },
  {
   "property": "C53",
   "status": "proved",
   "theorems": [
    "C53_failure_sticky",
    "C53_finalize_refuted"
   ],
   "note": "Holds for errors of process(); the refuted theorem shows that errors of finalize() are not final."
  },
  {
   "property": "C54",
   "status": "proved",
   "theorems": [
    "C54_truncated",
    "C54_truncated_calls",
    "C54_callbacks_truncated"
   ],
   "note": "Erase callbacks failing with -11 are excluded; C48_in_place_refuted shows what happens then."
  },
  {
   "property": "C55",
   "status": "proved",
   "theorems": [
    "C55_meaning",
    "C55_callbacks_meaning",
    "C55_as_uncompressed"
   ],
   "note": "Sequential applier of a build with LZMA; liblzma is any decoder meeting LzmaSpec.v, all allocations succeed."
  },
  {
   "property": "C56",
   "status": "proved",
   "theorems": [
    "C56_no_undefined_behaviour",
    "C56_callbacks",
    "C56_callbacks_any_read",
    "C56_finalize_twice_refuted"
   ],
   "note": "Any decoder that keeps to its buffers, any pattern of failing malloc(). Calling finalize() twice is refuted."
  },
  {
   "property": "C57",
   "status": "proved",
   "theorems": [
    "C57_terminates",
    "C56_callbacks",
    "C57_callbacks_terminate"
   ],
   "note": "For decoders with bounded output per input byte."
  },
  {
   "property": "C58",
   "status": "proved",
   "theorems": [
    "C58_others_unaffected"
   ],
   "note": "Equality of results and worlds for any patch not announcing LZMA."
  },
  {
   "property": "C59",
   "status": "proved",
   "theorems": [
    "C59_truncated",
    "C59_truncated_rejected_refuted"
   ],
   "note": "Truncated LZMA patches can be accepted (refuted), but then with the complete effect (proved)."
  },
  {
   "property": "C60",
   "status": "proved",
   "theorems": [
    "C60_total",
    "C60_known",
    "C60_zstd",
    "C60_small_memory",
    "C60_unwritten_refuted"
   ],
   "note": "Any compression that ends on any data; proved to be so for none, crle, heatshrink, zstd and unknown numbers. Success with a negative segment size although nothing is written is shown as a refutation."
  },
  {
   "property": "C61",
   "status": "proved",
   "theorems": [
    "C61_round_trip",
    "C61_in_place",
    "C61_short",
    "C61_long_refuted",
    "C61_zstd",
    "C61_lz4_frame"
   ],
   "note": "The packages are parameters with an explicit contract. A created patch whose last 4096-byte piece holds only the end mark of the stream is refused (C61_long_refuted)."
  },
  {
   "property": "C62",
   "status": "proved",
   "theorems": [
    "C62_meaning",
    "C62_callbacks_meaning"
   ],
   "note": "liblzma and malloc() are parameters; enough memory is assumed."
  },
  {
   "property": "C63",
   "status": "proved",
   "theorems": [
    "C63_resume",
    "C63_safe",
    "C63_steps"
   ],
   "note": "liblzma and malloc() are parameters; enough memory is assumed. Loss of power while the completion is recorded is excluded as in C20 (C21_refuted)."
  },
  {
   "property": "C64",
   "status": "proved",
   "theorems": [
    "C64_as_uncompressed",
    "C64_same_result_refuted",
    "C64_returns",
    "C64_callbacks_return",
    "C64_changes_within_memory"
   ],
   "note": "For streams that decode. C64_same_result_refuted shows that results differ for bytes behind the last segment."
  },
  {
   "property": "C65",
   "status": "proved",
   "theorems": [
    "C65_others_unaffected"
   ],
   "note": ""
  },
  {
   "property": "C66",
   "status": "proved",
   "theorems": [
    "C66_sequential",
    "C66_in_place",
    "C66_sequential_lzma",
    "C66_in_place_lzma",
    "C66_negative_refuted"
   ],
   "note": "Which patches are refused is in RefuseSpec.v. Refuted for negative sizes in the header."
  },
  {
   "property": "C67",
   "status": "proved",
   "theorems": [
    "C67_ends_clean",
    "C67_callbacks_end_clean"
   ],
   "note": "In-place LZMA patches of any content, any decoder meeting lib_ok and bounded_output, any failing allocations and callbacks. Undefined outcomes (signed overflow, segment size zero, short memory reads) are those of C50 and are not excluded here."
  },
  {
   "property": "C68",
   "status": "proved",
   "theorems": [
    "C68_status",
    "C68_usage",
    "C68_apply_patch",
    "C68_apply_patch_in_place",
    "C68_close_refuted"
   ],
   "note": "Exit status and output of c/main.c for any behaviour of stdio. C68_close_refuted: status 0 although fclose() failed (consequence of C39_refuted)."
  },
  {
   "property": "C69",
   "status": "proved",
   "theorems": [
    "C69_hdiffpatch",
    "C69_match_blocks",
    "C69_own_compressions",
    "C69_other_compressions",
    "C69_mmap_refuted"
   ],
   "note": "The library (a git submodule that is not in the repository) is a parameter with a contract; C69_mmap_refuted is the exception for files that cannot be memory mapped."
  },
  {
   "property": "C70",
   "status": "proved",
   "theorems": [
    "C70_truncated",
    "C70_other_source",
    "C70_corrupt_refuted",
    "C70_trailing_refuted",
    "C70_size_refuted",
    "C70_memory_refuted"
   ],
   "note": "Truncation for the compressions none and crle; the _refuted theorems are the faults that are not refused."
  },
  {
   "property": "C71",
   "status": "proved",
   "theorems": [
    "C71_unsupported",
    "C71_blocks_in_place",
    "C71_blocks_refuted"
   ],
   "note": "C71_blocks_refuted is the exception: KeyError."
  },
  {
   "property": "C72",
   "status": "proved",
   "theorems": [
    "C72_unique",
    "C72_sequential",
    "C72_sequential_other",
    "C72_in_place",
    "C72_in_place_other",
    "C72_bsdiff"
   ],
   "note": "That sais and divsufsort compute suffix arrays is assumed, not proved: is_suffix_array is a hypothesis."
  },
  {
   "property": "C73",
   "status": "proved",
   "theorems": [
    "C73_meaning",
    "C73_length",
    "C73_python",
    "C73_agree",
    "C73_plain",
    "C73_sign_refuted",
    "C73_negative_refuted",
    "C73_seek_refuted",
    "C73_trailing_refuted"
   ],
   "note": "For the file environment of the model and compressions none, crle and heatshrink (the body must be a valid stream; below 2^31 bytes). The refuted theorems show where C and Python differ."
  },
  {
   "property": "C74",
   "status": "proved",
   "theorems": [
    "C74_accepts",
    "C74_limits",
    "C74_exactly"
   ],
   "note": "Both directions for uncompressed patches; for crle and heatshrink the direction that they are accepted, and that patches outside of the limits are not. From files below 2 GB."
  },
  {
   "property": "C75",
   "status": "proved",
   "theorems": [
    "C75_meaning",
    "C75_accepts",
    "C75_exactly",
    "C75_callbacks"
   ],
   "note": "For sequential patches of all modelled compressions (none, crle, heatshrink) the meaning and the acceptance; the equivalence for uncompressed patches. The three files are distinct, the patch file is not empty and stdio does not fail."
  },
  {
   "property": "C76",
   "status": "proved",
   "theorems": [
    "C76_sequential",
    "C76_in_place",
    "C76_bsdiff",
    "C76_other",
    "C76_other_in_place"
   ],
   "note": "Sequential and in-place patches with all compressions, and BSDIFF40 patches; the packages of lzma, bz2, zstd and lz4 are assumed lossless. Distinct names; writing and closing do not fail."
  },
  {
   "property": "C77",
   "status": "proved",
   "theorems": [
    "C77_unopened",
    "C77_unopened_in_place",
    "C77_others",
    "C77_lost_refuted",
    "C77_same_refuted"
   ],
   "note": "Holds for all other files. The to file itself is lost when the patch is bad (C77_lost_refuted), and the patch when it is named as to file too (C77_same_refuted)."
  },
  {
   "property": "C78",
   "status": "proved",
   "theorems": [
    "C78_exactly",
    "C78_plain",
    "C78_length",
    "C78_strict"
   ],
   "note": "Sequential patches without a data format patch. C78_exactly: compressions none, crle and heatshrink with a body that is not empty, the heatshrink2 package behaving as stated in PySpec.v; C78_plain: all uncompressed patches. Which exception is raised is not stated."
  },
  {
   "property": "C79",
   "status": "proved",
   "theorems": [
    "C79_exactly",
    "C79_length"
   ],
   "note": "Headers whose sizes are positive or zero and fit into the memory; C60 covers the others. Bodies that read memory at or before the end of the segment being written are excluded (verdict Stale). Compressions none, crle and heatshrink with a body that is not empty, the heatshrink2 package behaving as stated in PySpec.v."
  },
  {
   "property": "C80",
   "status": "proved",
   "theorems": [
    "C80_exactly",
    "C80_length"
   ],
   "note": "Both directions, for any content of the three streams; compressed streams are those the bz2 package decompresses (corrupt bz2 data is outside)."
  },
  {
   "property": "C81",
   "status": "proved",
   "theorems": [
    "C81_dump",
    "C81_unwritten",
    "C81_restore",
    "C81_others",
    "C81_failure_is_final_refuted"
   ],
   "note": "Full. After a failed restore the applier must not be used: it has not failed (refuted)."
  },
  {
   "property": "C82",
   "status": "proved",
   "theorems": [
    "C82_sequential",
    "C82_in_place",
    "C82_bsdiff"
   ],
   "note": "Uncompressed sequential patches; in-place patches with none, crle and heatshrink whose bodies do not use memory already written; BSDIFF40 patches. Distinct names; writing and closing do not fail."
  },
  {
   "property": "C83",
   "status": "proved",
   "theorems": [
    "C83_total",
    "C83_code",
    "C83_data",
    "C83_data_largest",
    "C83_offset",
    "C83_offset_given",
    "C83_disjoint_refuted",
    "C83_covered_refuted"
   ],
   "note": "Over the sections and symbols that elftools delivers, with sizes that are not negative. The data addresses may lie among the code addresses (C83_disjoint_refuted) and need not cover an object that contains another one (C83_covered_refuted)."
  },
  {
   "property": "C84",
   "status": "proved",
   "theorems": [
    "C84_understood",
    "C84_result",
    "C84_parts"
   ],
   "note": "Strings of ASCII characters; int(value, 0) of Python is modelled, with all bases, signs and underscores."
  },
  {
   "property": "C85",
   "status": "proved",
   "theorems": [
    "C85_apply",
    "C85_in_place",
    "C85_info",
    "C85_bsdiff",
    "C85_bsdiff_short"
   ],
   "note": "Except for BSDIFF40 patches decided by the first byte alone, for every rest of the patch and every data. That nothing has been written before the exception is not part of the model."
  },
  {
   "property": "C86",
   "status": "proved",
   "theorems": [
    "C86_ranges",
    "C86_any",
    "C86_order_refuted"
   ],
   "note": "From and to ranges for created patches; the to ranges for any patch patch_info() accepts whose segment size is positive and to size not negative. An empty from range may be printed with its end before its beginning (C86_order_refuted)."
  }
 ]
}
