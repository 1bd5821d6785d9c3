{
 "claims": [
  {
   "property": "C01",
   "status": "partial",
   "theorems": [
    "C01_images_inside_buffers_partial",
    "C01_exactly_inside",
    "C01_registers_inside",
    "C01_short_strides",
    "C01_short_strides_refuted",
    "C01_refuted",
    "C38_refuted"
   ],
   "note": "Every instruction set. Proved when both images lie inside their buffers with rows apart (SSE2 and AVX2 may still read up to 8 bytes after a BGR source); C01_refuted shows accepted calls that access bytes outside of the buffers; C01_exactly_inside says which calls do (rows apart): exactly the accepted ones whose destination, or what is read of their source, is not inside of the buffers. (What is read, last_read: up to 8 bytes after a BGR source, and the last alpha byte of a BGRA source only for some widths.) C01_short_strides: conversions to and from YCbCr with strides that make rows overlap are refused or stay inside of the buffers on 64-bit targets; C01_short_strides_refuted: re-orderings with such strides panic in debug builds."
  },
  {
   "property": "C02",
   "status": "partial",
   "theorems": [
    "C02_accepted_planes_fit_partial",
    "C02_success_inside",
    "C02_refuted"
   ],
   "note": "Every instruction set. Proved for planes that have more than one row or a row that does not exceed the stride, and that have at most two rows or no padding; refuted in general (out_of_bounds is called with row and stride swapped: the call is accepted and faults); C02_success_inside: for any strides with rows apart, a call that returns Ok had its images inside of the buffers; the last alpha byte of a BGRA source may be missing exactly where the instruction set does not read it (last_read)."
  },
  {
   "property": "C03",
   "status": "proved",
   "theorems": [
    "C03_sufficient_buffers_accepted"
   ],
   "note": "Every instruction set."
  },
  {
   "property": "C04",
   "status": "proved",
   "theorems": [
    "C04_errors_change_nothing"
   ],
   "note": "Every instruction set."
  },
  {
   "property": "C05",
   "status": "proved",
   "theorems": [
    "C05_error_classification"
   ],
   "note": "Every instruction set."
  },
  {
   "property": "C06",
   "status": "proved",
   "theorems": [
    "C06_supported_conversions"
   ],
   "note": "For every module of conversion functions."
  },
  {
   "property": "C07",
   "status": "proved",
   "theorems": [
    "C07_dispatch_exact",
    "C07_no_aliasing"
   ],
   "note": "For every module of conversion functions."
  },
  {
   "property": "C08",
   "status": "proved",
   "theorems": [
    "C08_validation",
    "C05_error_classification"
   ],
   "note": ""
  },
  {
   "property": "C09",
   "status": "proved",
   "theorems": [
    "C09_default_sizes",
    "C09_documented_sizes"
   ],
   "note": ""
  },
  {
   "property": "C10",
   "status": "partial",
   "theorems": [
    "C10_sizes_with_strides_partial",
    "C10_one_plane",
    "C13_exact_sizes",
    "C10_refuted"
   ],
   "note": "Proved for more than one plane; refuted for one plane, where C10_one_plane gives the exact difference."
  },
  {
   "property": "C11",
   "status": "partial",
   "theorems": [
    "C11_advertised_sizes_accepted_partial",
    "C11_exactly_refused",
    "C11_refuted"
   ],
   "note": "Every instruction set. Refuted for one-plane NV12 with row padding, and C11_exactly_refused shows that this is the only case."
  },
  {
   "property": "C12",
   "status": "proved",
   "theorems": [
    "C12_writes_only_its_entries"
   ],
   "note": ""
  },
  {
   "property": "C13",
   "status": "partial",
   "theorems": [
    "C13_no_overflow_partial",
    "C13_exact_sizes",
    "C13_refuted"
   ],
   "note": "Proved for 64-bit targets and dimensions below 2^31; refuted for larger ones. C13_exact_sizes: the exact answer for every valid request, panics and wrapped sizes included."
  },
  {
   "property": "C14",
   "status": "proved",
   "theorems": [
    "C14_rgb_to_ycbcr_formula",
    "C14_neon",
    "C14_exactly"
   ],
   "note": "Scalar, SSE2, AVX2: the formula; NEON: the formula with exact halves rounded upwards in the vector columns."
  },
  {
   "property": "C15",
   "status": "partial",
   "theorems": [
    "C15_ycbcr_to_rgb_formula_partial",
    "C15_nominal_samples",
    "C15_every_pixel",
    "C15_refuted",
    "C15_exactly"
   ],
   "note": "Scalar and NEON: proved. SSE2 and AVX2: proved unless the unsaturated blue reaches 512 (16-bit overflow), where C15_every_pixel gives the exact result and C15_refuted a witness. C15_exactly says for which bytes it holds and for which it does not."
  },
  {
   "property": "C16",
   "status": "partial",
   "theorems": [
    "C16_rgb_to_ycbcr_accuracy",
    "C16_ycbcr_to_rgb_accuracy_partial",
    "C16_refuted",
    "C16_ycbcr_to_rgb_exactly"
   ],
   "note": "Every instruction set. RGB to YCbCr within 0.51; YCbCr to RGB within 0.54 in the limited range spaces, within 2.4 in the full range ones (C16_refuted: more than 1 there), and not where SSE2 and AVX2 overflow. C16_ycbcr_to_rgb_exactly: these bounds hold exactly for the pixels that do not overflow."
  },
  {
   "property": "C17",
   "status": "proved",
   "theorems": [
    "C17_nominal_range",
    "C17_no_truncation",
    "C17_luma_cast",
    "C17_chroma_cast",
    "C14_rgb_to_ycbcr_formula",
    "C14_neon"
   ],
   "note": "Every instruction set."
  },
  {
   "property": "C18",
   "status": "partial",
   "theorems": [
    "C18_saturation_partial",
    "C18_refuted",
    "C18_saturating_cast",
    "C15_every_pixel",
    "C18_exactly"
   ],
   "note": "Scalar and NEON: proved. SSE2 and AVX2: proved unless the unsaturated blue reaches 512 (C18_refuted). C18_exactly: red and green always saturate, blue exactly where nothing overflows."
  },
  {
   "property": "C19",
   "status": "partial",
   "theorems": [
    "C19_grey_to_neutral",
    "C19_black_white",
    "C19_neutral_to_grey_partial",
    "C19_neutral_close",
    "C19_black_white_back_partial",
    "C19_refuted",
    "C19_full_range"
   ],
   "note": "Every instruction set. Proved but for the way back in the full range spaces, whose constants are centred on 127 (C19_refuted). C19_full_range: what they give instead, and that chroma 127 gives exact greys."
  },
  {
   "property": "C20",
   "status": "proved",
   "theorems": [
    "C20_alpha_opaque",
    "C20_alpha_ignored"
   ],
   "note": "Every instruction set."
  },
  {
   "property": "C21",
   "status": "proved",
   "theorems": [
    "C21_reordering_exact",
    "C21_round_trip"
   ],
   "note": "Every instruction set."
  },
  {
   "property": "C22",
   "status": "proved",
   "theorems": [
    "C22_only_image_written"
   ],
   "note": "Every instruction set."
  },
  {
   "property": "C23",
   "status": "proved",
   "theorems": [
    "C23_layout_independent"
   ],
   "note": "Every instruction set (the same for both calls)."
  },
  {
   "property": "C24",
   "status": "proved",
   "theorems": [
    "C24_nv12_interleaves_i420",
    "C24_equal_sources",
    "C24_equal_sources_all_formats",
    "C23_layout_independent"
   ],
   "note": "Every instruction set (the same for both calls)."
  },
  {
   "property": "C25",
   "status": "partial",
   "theorems": [
    "C25_same_bytes_partial",
    "C25_near",
    "C25_refuted",
    "C25_exactly"
   ],
   "note": "Scalar, SSE2 and AVX2 agree; NEON has the same luma, and chroma that differs by at most 1 at exact halves (C25_refuted). C25_exactly says for which bytes it holds and for which it does not."
  },
  {
   "property": "C26",
   "status": "partial",
   "theorems": [
    "C26_same_bytes_partial",
    "C26_nominal_samples",
    "C26_refuted",
    "C26_exactly"
   ],
   "note": "Scalar and NEON agree; SSE2 and AVX2 agree with them unless the unsaturated blue reaches 512. C26_exactly says for which bytes it holds and for which it does not."
  },
  {
   "property": "C27",
   "status": "proved",
   "theorems": [
    "C27_same_bytes"
   ],
   "note": ""
  },
  {
   "property": "C28",
   "status": "partial",
   "theorems": [
    "C28_selected_only_if_reported_partial",
    "C28_vendor_exact",
    "C28_described",
    "C28_description",
    "C28_refuted"
   ],
   "note": "The cpuid bits are checked, but not that leaf 7 exists nor that the operating system enabled AVX (C28_refuted)."
  },
  {
   "property": "C29",
   "status": "proved",
   "theorems": [
    "C29_once_only",
    "C29_same_context",
    "C29_published",
    "C29_progress"
   ],
   "note": "OnceLock is modelled by its documented contract."
  },
  {
   "property": "C30",
   "status": "proved",
   "theorems": [
    "C30_null_pointers",
    "C30_unknown_enums",
    "C30_bad_planes",
    "C30_null_planes",
    "C30_same_errors",
    "C30_same_success",
    "C30_sizes_bad",
    "C30_sizes_same"
   ],
   "note": ""
  },
  {
   "property": "C31",
   "status": "proved",
   "theorems": [
    "C31_empty_image"
   ],
   "note": "Every instruction set."
  },
  {
   "property": "C32",
   "status": "proved",
   "theorems": [
    "C32_no_overflow",
    "C32_same_result"
   ],
   "note": "Every instruction set."
  },
  {
   "property": "C33",
   "status": "proved",
   "theorems": [
    "C33_round_trip",
    "C33_round_trip_uniform"
   ],
   "note": "Any two instruction sets; the bounds are reached."
  },
  {
   "property": "C34",
   "status": "partial",
   "theorems": [
    "C34_luma_monotone",
    "C34_rgb_monotone_partial",
    "C34_refuted",
    "C34_exactly"
   ],
   "note": "Proved but for blues of 512 or more on SSE2 and AVX2 (C34_refuted). C34_exactly: for which pixels it holds and for which it does not."
  },
  {
   "property": "C35",
   "status": "proved",
   "theorems": [
    "C35_uniform_block",
    "C35_between"
   ],
   "note": "Every instruction set (the same for both calls)."
  },
  {
   "property": "C36",
   "status": "proved",
   "theorems": [
    "C36_samples_local"
   ],
   "note": "Every instruction set."
  },
  {
   "property": "C37",
   "status": "partial",
   "theorems": [
    "C37_same_errors_partial",
    "C37_same_result_partial",
    "C37_exactly",
    "C37_refuted"
   ],
   "note": "Every instruction set. Refuted: 4*width wraps on 32-bit targets. C37_exactly: debug builds stop exactly when a row (or one-plane luma) has 2^32 bytes or more, release builds check the sizes modulo 2^32."
  },
  {
   "property": "C38",
   "status": "partial",
   "theorems": [
    "C38_documented_call_partial",
    "C38_exactly_with_room",
    "C38_room",
    "C38_refuted"
   ],
   "note": "Proved but for conversions from BGR to YCbCr on SSE2 and AVX2 whose source buffer has no spare bytes: exactly these read after its end (C38_exactly_with_room, C38_refuted)."
  },
  {
   "property": "C39",
   "status": "partial",
   "theorems": [
    "C39_documented_forward_partial",
    "C39_documented_inverse_partial",
    "C39_refuted",
    "C39_documented_inverse_exactly"
   ],
   "note": "Every instruction set. Forward within 0.76 except BT.709 limited range, whose printed coefficients are wrong (C39_refuted: white is 271 by the formula, 235 by the code). Inverse within 1 (limited) or 2.5 (full), and not where SSE2 and AVX2 overflow. C39_documented_inverse_exactly: the inverse bounds hold exactly for the pixels that do not overflow."
  },
  {
   "property": "C40",
   "status": "proved",
   "theorems": [
    "C40_bands",
    "C40_last_band",
    "C40_all_bands"
   ],
   "note": "Every instruction set. One-plane NV12 excluded: its rows are not contiguous."
  },
  {
   "property": "C41",
   "status": "proved",
   "theorems": [
    "C41_forward_weights",
    "C41_inverse_weights"
   ],
   "note": ""
  },
  {
   "property": "C42",
   "status": "proved",
   "theorems": [
    "C42_description",
    "C42_unref",
    "C42_no_leak"
   ],
   "note": "The allocator may return any address that is not in use."
  },
  {
   "property": "C43",
   "status": "proved",
   "theorems": [
    "C43_test_sets"
   ],
   "note": ""
  },
  {
   "property": "C44",
   "status": "proved",
   "theorems": [
    "C44_one_set",
    "C44_x86_same"
   ],
   "note": ""
  },
  {
   "property": "C45",
   "status": "partial",
   "theorems": [
    "C45_rectangles_partial",
    "C45_refuted",
    "C45_exactly"
   ],
   "note": "Missing: chroma ties on NEON and blues of 512 or more on SSE2 and AVX2, which depend on the column (C45_refuted). C45_exactly says for which bytes it holds and for which it does not."
  },
  {
   "property": "C46",
   "status": "proved",
   "theorems": [
    "C46_exact_acceptance",
    "C46_exact_any_word",
    "C46_laid_out_accepted"
   ],
   "note": "Every target (C46_exact_any_word) for rows and one-plane luma that fit in a machine word; what happens to larger ones is C37_exactly."
  },
  {
   "property": "C47",
   "status": "proved",
   "theorems": [
    "C47_c_converts",
    "C47_room",
    "C47_exactly_inside"
   ],
   "note": ""
  },
  {
   "property": "C48",
   "status": "partial",
   "theorems": [
    "C48_recoded_partial",
    "C48_inside_partial",
    "C48_lossless",
    "C48_drift",
    "C48_refuted"
   ],
   "note": "Limited range: proved for all colours decoded without clamping, any number of generations. Full range: false (C48_refuted); BT.601 drifts by exactly one per generation (C48_drift)."
  },
  {
   "property": "C49",
   "status": "partial",
   "theorems": [
    "C49_same_result_partial",
    "C49_same_outcome",
    "C49_same_sizes",
    "C49_reorder_refuted",
    "C49_reorder_exactly",
    "C49_c_same_outcome"
   ],
   "note": "Proved for all conversions from or to YCbCr and for narrow images to RGB; refuted for the other re-orderings, where still answers and faults agree and C49_reorder_exactly gives every byte of the result on a big-endian machine."
  },
  {
   "property": "C50",
   "status": "partial",
   "theorems": [
    "C50_pixel_formats",
    "C50_color_spaces",
    "C50_results",
    "C50_prototypes",
    "C50_call",
    "C50_conversions",
    "C50_colors",
    "C50_table_partial",
    "C50_table_only",
    "C50_table_refuted",
    "C50_stride_auto"
   ],
   "note": "Everything but one entry of the table of plane counts: I422 with one plane is documented and refused (C50_table_refuted). C enumerations are taken to have 4 bytes."
  },
  {
   "property": "C51",
   "status": "proved",
   "theorems": [
    "C51_reference",
    "C51_documented"
   ],
   "note": "Every instruction set, with its own arithmetic (SetSpec.set_cols). Accepted images have to be inside of their buffers; C01 and C02 are about the others."
  },
  {
   "property": "C52",
   "status": "partial",
   "theorems": [
    "C52_settled_partial",
    "C52_bounded_partial",
    "C52_refuted",
    "C52_settled_pixel_partial",
    "C52_every_generation",
    "C52_exactly"
   ],
   "note": "Limited range spaces, components 2 to 253 (C52_settled_pixel_partial: all colours whose samples are decoded without clamping): false in the full range spaces and for a few colours at the ends (C52_refuted). C52_every_generation and C52_exactly hold for all spaces and colours: every pixel of every generation, and which pixels stay and which change."
  },
  {
   "property": "C53",
   "status": "proved",
   "theorems": [
    "C53_limited",
    "C53_full",
    "C53_tables",
    "C53_reference"
   ],
   "note": "Doubles as in SpecFloat. C53_full includes the comparison of the errors measured over all 2^24 colours."
  },
  {
   "property": "C54",
   "status": "partial",
   "theorems": [
    "C54_encoded",
    "C54_decoded_partial",
    "C54_opaque",
    "C54_transcoded_partial",
    "C54_refuted",
    "C54_decoded_exactly"
   ],
   "note": "Encoding: proved. Decoding: but for blues of 512 or more on SSE2 and AVX2; on SSE2, NV12 to RGB is portable code and NV12 to BGRA vector code, so the routes differ there (C54_refuted). C54_decoded_exactly: for which pixels it holds and for which it does not."
  },
  {
   "property": "C55",
   "status": "proved",
   "theorems": [
    "C55_same_course",
    "C55_same_course_c",
    "C55_every_frame"
   ],
   "note": "All four instruction sets, all targets."
  },
  {
   "property": "C56",
   "status": "partial",
   "theorems": [
    "C56_moved_partial",
    "C56_motions",
    "C56_upside_down",
    "C56_refuted",
    "C56_exactly"
   ],
   "note": "For any rearrangement of pixels (blocks), with the rotations etc. as instances. False for pixels that move between vector and scalar columns on NEON (ties) and on SSE2/AVX2 (blue from 512): C56_refuted. Upside down there is no exception. C56_exactly says for which bytes it holds and for which it does not."
  },
  {
   "property": "C57",
   "status": "partial",
   "theorems": [
    "C57_encoded",
    "C57_decoded_partial",
    "C57_refuted",
    "C57_decoded_exactly"
   ],
   "note": "Encoding: in full. Decoding: false on SSE2 and AVX2 where blue crosses 512 (C57_refuted), proved elsewhere. C57_decoded_exactly: for which pixels it holds and for which it does not."
  },
  {
   "property": "C58",
   "status": "proved",
   "theorems": [
    "C58_undisturbed",
    "C58_finishes",
    "C58_nothing_else_changes",
    "C58_no_data_race",
    "C58_calls_that_return",
    "C58_bands_are_threads",
    "C58_one_picture"
   ],
   "note": "Threads whose calls do not fault when they are alone, and whose slices obey Rust's borrowing rules."
  },
  {
   "property": "C59",
   "status": "proved",
   "theorems": [
    "C59_destination_never_read",
    "C59_destination_never_read_c",
    "C59_no_access_without_conversion",
    "C59_no_access_without_conversion_c",
    "C59_last_write_stays",
    "C59_what_is_read_decides",
    "C59_written_exactly",
    "C59_written_exactly_c"
   ],
   "note": "Accesses of bytes, as Trace.v records them; the last two theorems for images with rows apart."
  },
  {
   "property": "C60",
   "status": "proved",
   "theorems": [
    "C60_undisturbed",
    "C60_finishes",
    "C60_nothing_else_changes",
    "C60_no_data_race",
    "C60_rectangles_may_run",
    "C60_one_picture",
    "C60_aligned_columns"
   ],
   "note": "One call per thread; a step is one arithmetic operation or one access to one byte. The memory behind the source pointers is taken as a whole: no destination row may lie in it."
  },
  {
   "property": "C61",
   "status": "proved",
   "theorems": [
    "C61_same_positions",
    "C61_same_positions_c"
   ],
   "note": "Positions in the buffers, byte by byte, in order; not timing, and not the accesses to registers, stack and tables of constants, which the model does not have."
  },
  {
   "property": "C62",
   "status": "proved",
   "theorems": [
    "C62_written_once",
    "C62_written_once_c",
    "C62_one_value",
    "C62_one_value_c",
    "C62_no_third_value",
    "C62_no_third_value_c",
    "C62_written_once_avx2_refuted"
   ],
   "note": "Byte by byte, in the order of the stores of the program; what compiler and processor make of the order is not modelled. NV12 to RGB with AVX2 writes some bytes twice (C62_written_once_avx2_refuted), with the same value both times, so the other theorems have no exception."
  },
  {
   "property": "C63",
   "status": "proved",
   "theorems": [
    "C63_linear",
    "C63_linear_c",
    "C63_sizes",
    "C63_sizes_c",
    "C63_accesses"
   ],
   "note": "Steps are the operations of the model that can fail; what lies between two of them is straight-line code. Time, caches and the cost of an instruction are not modelled."
  },
  {
   "property": "C64",
   "status": "proved",
   "theorems": [
    "C64_reads_source",
    "C64_reads_source_c",
    "C64_reads_image",
    "C64_reads_image_c",
    "C64_reads_tight",
    "C64_reads_tight_c",
    "C64_reads_lines",
    "C64_reads_image_rgb_refuted",
    "C64_reads_image_bgr_refuted",
    "C64_same_build",
    "C64_same_build_c"
   ],
   "note": "The two refutations show that both exceptions named in the property are real."
  },
  {
   "property": "C65",
   "status": "proved",
   "theorems": [
    "C65_reads_all",
    "C65_reads_all_c",
    "C65_exactly"
   ],
   "note": ""
  },
  {
   "property": "C66",
   "status": "proved",
   "theorems": [
    "C66_encoded_grey",
    "C66_encoded_ends",
    "C66_decoded_grey"
   ],
   "note": ""
  },
  {
   "property": "C67",
   "status": "proved",
   "theorems": [
    "C67_average"
   ],
   "note": ""
  },
  {
   "property": "C68",
   "status": "proved",
   "theorems": [
    "C68_encoded",
    "C68_decoded"
   ],
   "note": ""
  },
  {
   "property": "C69",
   "status": "proved",
   "theorems": [
    "C69_encoded",
    "C69_decoded"
   ],
   "note": ""
  },
  {
   "property": "C70",
   "status": "partial",
   "theorems": [
    "C70_flat_partial",
    "C70_encoded_exactly",
    "C70_decoded_exactly",
    "C70_reordered",
    "C70_refuted"
   ],
   "note": "Proved for the portable code and for all colours without a chroma tie (NEON) or a blue of 512 or more (SSE2, AVX2); false for these (C70_refuted: a seam in front of the last columns). C70_encoded_exactly and C70_decoded_exactly: for which colours and widths it holds and for which it does not."
  },
  {
   "property": "C71",
   "status": "proved",
   "theorems": [
    "C71_negative"
   ],
   "note": ""
  }
 ]
}