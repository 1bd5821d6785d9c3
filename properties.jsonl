{"id": "C01", "title": "convert_image never accesses memory outside the caller's buffers", "statement": "For every call to the safe function convert_image, with any dimensions, formats, strides and buffers, no byte outside the slices passed in src_buffers/dst_buffers is read or written.", "quantifier": "all widths and heights (u32), all source/destination formats, all strides (usize), all buffer lengths and contents, every instruction set", "why_tests_cant": "The kernels use raw pointers, so a violation is silent on most inputs; only specific combinations of width, height, stride and buffer length expose it and the input space is unbounded.", "anchors": ["src/convert_image/x86.rs:rgb_to_bgra", "src/convert_image/x86.rs:bgr_to_rgb", "src/convert_image/sse2.rs:rgb_to_i444_sse2", "src/convert_image/avx2.rs:rgb_to_i444_avx2", "src/convert_image/common.rs:out_of_bounds", "src/lib.rs:convert_image"]}
{"id": "C02", "title": "Ok is returned only if every buffer can hold its plane", "statement": "If convert_image returns Ok for non-zero dimensions then every plane buffer of source and destination has at least stride*(rows-1)+row_bytes bytes, where stride is the given stride (or row_bytes if 0).", "quantifier": "all dimensions, formats, strides, buffer lengths", "why_tests_cant": "Requires the acceptance test to be right at every boundary of an unbounded arithmetic relation between four usize values.", "anchors": ["src/convert_image/common.rs:out_of_bounds", "src/convert_image/x86.rs:rgb_bgra", "src/convert_image/x86.rs:i444_rgb", "src/lib.rs:convert_image"]}
{"id": "C03", "title": "Sufficient buffers are never rejected", "statement": "If formats are valid and supported, strides are zero or at least the row size, and every plane buffer holds at least stride*rows bytes, then convert_image does not return NotEnoughData.", "quantifier": "all dimensions, formats, strides and buffer lengths satisfying the condition", "why_tests_cant": "Universal statement over unbounded sizes including sizes near usize::MAX.", "anchors": ["src/convert_image/common.rs:out_of_bounds", "src/convert_image/x86.rs:nv12_rgb", "src/convert_image/x86.rs:rgb_nv12", "src/lib.rs:convert_image"]}
{"id": "C04", "title": "A failed conversion leaves the destination untouched", "statement": "Whenever convert_image returns an error, every byte of every destination buffer is unchanged.", "quantifier": "all arguments for which an error is returned, every instruction set", "why_tests_cant": "All error paths for all arguments must be covered, including those inside the per-format converters.", "anchors": ["src/lib.rs:convert_image", "src/convert_image/x86.rs:nv12_rgb", "src/convert_image/sse2.rs:nv12_rgb", "src/convert_image/avx2.rs:nv12_rgb", "src/convert_image/neon.rs:rgb_nv12"]}
{"id": "C05", "title": "Error classification and precedence", "statement": "convert_image returns InvalidValue exactly when a colour space does not match the model of its pixel format or a format's plane count/dimensions are invalid; otherwise InvalidOperation exactly when the pair of (format, colour space) is not a supported conversion; otherwise Ok or NotEnoughData.", "quantifier": "all u32 dimensions, all 9x5 source and 9x5 destination format/colour-space pairs, all plane counts, strides, buffers", "why_tests_cant": "Plane counts and dimensions range over all of u32; tests sample a few.", "anchors": ["src/lib.rs:convert_image", "src/dispatcher.rs:get_pixel_format_mode", "src/pixel_format.rs:is_compatible"]}
{"id": "C06", "title": "Supported conversions are exactly the documented ones, on every instruction set", "statement": "A well-formed request is dispatched to a converter iff the (source format, destination format) pair is listed in the README table, for each of the four YCbCr colour spaces (and RGB-to-RGB in the RGB space), and identically for the x86, SSE2, AVX2 and NEON tables.", "quantifier": "all format and colour-space pairs, all instruction sets", "why_tests_cant": "Needs the table built by the dispatch macros to be inspected in full for each instruction set; tests only run the host's.", "anchors": ["src/lib.rs:set_dispatch_table", "src/dispatcher.rs:get_index", "README.md"]}
{"id": "C07", "title": "No two requests share a dispatch slot", "statement": "The converter run by convert_image is the one registered for exactly the requested source format, source colour space, destination format and destination colour space; distinct valid requests never alias, and no request is looked up outside the table.", "quantifier": "all valid pairs of image descriptions", "why_tests_cant": "An aliasing pair silently runs the wrong conversion; must be excluded for all pairs.", "anchors": ["src/dispatcher.rs:get_index", "src/dispatcher.rs:get_image_index", "src/dispatcher.rs:TABLE_SIZE"]}
{"id": "C08", "title": "Plane-count and dimension validation", "statement": "An image description is accepted iff: I444, I422 and I420 have 3 planes, Nv12 has 1 or 2 planes and all others exactly 1 plane; width is even for I422, I420, Nv12; height is even for I420, Nv12 - for all 2^32 plane counts, widths, heights.", "quantifier": "all u32 num_planes, width, height, all nine pixel formats", "why_tests_cant": "The check uses wrapping 32-bit arithmetic; a wrap-around collision would only appear for one of 2^32 plane counts.", "anchors": ["src/pixel_format.rs:is_compatible", "src/pixel_format.rs:are_planes_compatible"]}
{"id": "C09", "title": "Advertised buffer sizes without strides", "statement": "get_buffers_size with no strides succeeds for a valid description and returns, per plane, exactly rows*row_bytes of the documented layout (4wh, 3wh, wh, wh/2, wh/4, 3wh/2 for one-plane Nv12), as long as the total fits usize.", "quantifier": "all u32 dimensions, all formats and plane counts", "why_tests_cant": "The size computation is encoded in bit-packed shift tables; must be right for all sizes.", "anchors": ["src/pixel_format.rs:get_buffers_size", "src/lib.rs:get_buffers_size"]}
{"id": "C10", "title": "Advertised buffer sizes with custom strides", "statement": "With explicit strides get_buffers_size returns, per plane, stride*rows (row_bytes*rows where the stride is 0).", "quantifier": "all u32 dimensions, formats, plane counts, stride lists", "why_tests_cant": "Unbounded stride values and list lengths.", "anchors": ["src/pixel_format.rs:get_buffers_size"]}
{"id": "C11", "title": "Buffers of the advertised size are accepted", "statement": "If buffers are allocated with the sizes returned by get_buffers_size for the same dimensions, format and strides, then convert_image with them does not fail with NotEnoughData.", "quantifier": "all supported conversions, dimensions, strides", "why_tests_cant": "Relates two independent computations for all inputs.", "anchors": ["src/pixel_format.rs:get_buffers_size", "src/convert_image/x86.rs:rgb_nv12", "src/convert_image/x86.rs:nv12_rgb"]}
{"id": "C12", "title": "get_buffers_size writes only its plane entries", "statement": "On success get_buffers_size writes exactly the first num_planes entries of buffers_size; on error nothing is written.", "quantifier": "all arguments", "why_tests_cant": "Frame property over all slice lengths and error paths.", "anchors": ["src/pixel_format.rs:get_buffers_size", "src/lib.rs:get_buffers_size"]}
{"id": "C13", "title": "Size computation does not overflow", "statement": "get_buffers_size never overflows usize (panic in debug, wrong size in release).", "quantifier": "all u32 dimensions, all formats, strides", "why_tests_cant": "Only extreme dimensions overflow; allocation-based tests cannot reach them.", "anchors": ["src/pixel_format.rs:get_buffers_size"]}
{"id": "C14", "title": "RGB to YCbCr result is the fixed-point formula at every pixel", "statement": "For a successful ARGB/BGRA/BGR to I444/I420/NV12 conversion every luma byte (x,y) equals the 16.16 fixed-point transform of source pixel (x,y), and every chroma byte is the transform of the pixel (I444) or of the sum of its 2x2 block (I420, NV12), for every image size, stride and content.", "quantifier": "all image sizes, strides, contents, 3 source formats, 3 destination formats, 4 colour spaces", "why_tests_cant": "Unbounded images; per-pixel correctness at all positions, in particular at the vector/scalar seam.", "anchors": ["src/convert_image/x86.rs:rgb_to_i444", "src/convert_image/x86.rs:rgb_to_i420", "src/convert_image/x86.rs:rgb_to_nv12", "src/convert_image/sse2.rs:rgb_i444", "src/convert_image/avx2.rs:rgb_i444"]}
{"id": "C15", "title": "YCbCr to RGB result is the fixed-point formula at every pixel", "statement": "For a successful I444/I420/NV12 to BGRA/RGBA/RGB conversion every colour byte of pixel (x,y) equals the saturated fixed-point transform of its Y sample and of the Cb/Cr samples covering it.", "quantifier": "all image sizes, strides, contents, all supported YCbCr to RGB conversions", "why_tests_cant": "Unbounded images and positions.", "anchors": ["src/convert_image/x86.rs:i444_to_bgra", "src/convert_image/x86.rs:i420_to_bgra", "src/convert_image/x86.rs:nv12_to_bgra", "src/convert_image/x86.rs:nv12_to_rgb"]}
{"id": "C16", "title": "Accuracy against the ITU-R definitions", "statement": "The computed Y, Cb, Cr (R, G, B) differ from the exact real-valued BT.601/BT.709 (limited and full range) result, clamped to the representable range, by less than one code value.", "quantifier": "all 2^24 pixel values, all four colour spaces, all three components, both directions", "why_tests_cant": "2^24 values times all spaces; the bound must hold for each one.", "anchors": ["src/convert_image/common.rs:XR_601", "src/convert_image/x86.rs:FORWARD_WEIGHTS", "src/convert_image/x86.rs:BACKWARD_WEIGHTS"]}
{"id": "C17", "title": "RGB to YCbCr never wraps and stays in nominal range", "statement": "Every computed Y/Cb/Cr value lies in 0..255 before truncation to u8, so truncation never changes it; for the limited-range spaces Y is in 16..235 and Cb,Cr in 16..240.", "quantifier": "all RGB values (and all 2x2 sums), all colour spaces", "why_tests_cant": "A single wrapping combination among 2^24 (2^96 for 2x2 blocks) would break it.", "anchors": ["src/convert_image/x86.rs:pack_i32x2", "src/convert_image/x86.rs:rgb_to_i420"]}
{"id": "C18", "title": "YCbCr to RGB saturates", "statement": "Out-of-gamut YCbCr values are clamped: negative results give 0, results above 255 give 255, and no value wraps around.", "quantifier": "all 2^24 YCbCr values, all colour spaces", "why_tests_cant": "Bit-trick saturation must be right for every i32 reachable value.", "anchors": ["src/convert_image/x86.rs:fix_to_u8_sat"]}
{"id": "C19", "title": "Grey, black and white are preserved", "statement": "Grey pixels (r=g=b) convert to neutral chroma 128; neutral chroma converts to r=g=b; black and white map to the nominal extremes (16/235 or 0/255) and back exactly to 0 and 255.", "quantifier": "all grey levels and luma levels, all colour spaces", "why_tests_cant": "Universal over levels and spaces; a visible tint otherwise.", "anchors": ["src/convert_image/common.rs:YR_601", "src/convert_image/x86.rs:FORWARD_WEIGHTS", "src/convert_image/x86.rs:BACKWARD_WEIGHTS"]}
{"id": "C20", "title": "Alpha is ignored on input and opaque on output", "statement": "Changing alpha bytes of an ARGB or BGRA source changes no destination byte; every alpha byte of a BGRA/RGBA destination written by a conversion is 255.", "quantifier": "all images, conversions, alpha values", "why_tests_cant": "Non-interference statement over pairs of runs.", "anchors": ["src/convert_image/x86.rs:unpack_ui8x3_i32", "src/convert_image/x86.rs:pack_ui8x3", "src/convert_image/x86.rs:rgb_to_bgra", "src/convert_image/x86.rs:bgra_to_rgb"]}
{"id": "C21", "title": "RGB re-orderings are exact", "statement": "RGB to BGRA, BGRA to RGB and BGR to RGB copy each colour component unchanged to its new position for every width (word-at-a-time body and byte tail), and RGB to BGRA to RGB is the identity on pixels.", "quantifier": "all widths, heights, strides, contents", "why_tests_cant": "Word-level shuffles differ by width modulo 8/16/32 and by last line; must hold for all.", "anchors": ["src/convert_image/x86.rs:rgb_to_bgra", "src/convert_image/x86.rs:bgra_to_rgb", "src/convert_image/x86.rs:bgr_to_rgb", "src/convert_image/avx2.rs:rgb_to_bgra_avx2"]}
{"id": "C22", "title": "Only the image area of the destination is written", "statement": "A conversion modifies only bytes that belong to destination pixels: row padding (stride beyond the row), bytes after the last row, and buffers beyond the used planes keep their value.", "quantifier": "all conversions, sizes, strides, destination contents", "why_tests_cant": "Frame property over unbounded images.", "anchors": ["src/convert_image/x86.rs:rgb_to_i420", "src/convert_image/x86.rs:rgb_to_bgra", "src/convert_image/sse2.rs:rgb_i420"]}
{"id": "C23", "title": "Strides and padding do not influence the result", "statement": "Two calls whose source images have the same pixels, but different strides, padding bytes or trailing bytes, produce the same destination pixels whatever the destination strides.", "quantifier": "all pairs of layouts of one image", "why_tests_cant": "Relational property over unbounded images.", "anchors": ["src/convert_image/x86.rs:rgb_to_i444", "src/convert_image/x86.rs:rgb_to_bgra", "src/lib.rs:convert_image"]}
{"id": "C24", "title": "NV12 layouts agree with each other and with I420", "statement": "One-plane and two-plane NV12 conversions give the same samples; the NV12 chroma plane is exactly the interleaving of the I420 chroma planes for the same source; and NV12/I420 sources with equal samples give equal RGB.", "quantifier": "all images", "why_tests_cant": "Relational property over unbounded images.", "anchors": ["src/convert_image/x86.rs:rgb_to_nv12", "src/convert_image/x86.rs:rgb_to_i420", "src/convert_image/x86.rs:nv12_to_bgra", "src/convert_image/x86.rs:i420_to_bgra", "src/convert_image/x86.rs:rgb_nv12"]}
{"id": "C25", "title": "RGB to YCbCr does not depend on the instruction set", "statement": "The destination bytes produced by ARGB/BGRA/BGR to I444/I420/NV12 are the same on scalar, SSE2, AVX2 and NEON paths.", "quantifier": "all images, formats, colour spaces, instruction sets", "why_tests_cant": "Tests run one machine and sample values; ties and seams are rare.", "anchors": ["src/convert_image/sse2.rs:rgb_to_i420_4x", "src/convert_image/avx2.rs:rgb_to_i420_8x", "src/convert_image/neon.rs:rgb_to_i420_8x", "src/convert_image/x86.rs:rgb_to_i420"]}
{"id": "C26", "title": "YCbCr to RGB does not depend on the instruction set", "statement": "The destination bytes produced by I444/I420/NV12 to BGRA/RGBA/RGB are the same on scalar, SSE2, AVX2 and NEON paths.", "quantifier": "all images, formats, colour spaces, instruction sets", "why_tests_cant": "Vector code uses 16-bit arithmetic; only extreme sample values overflow.", "anchors": ["src/convert_image/sse2.rs:nv12_to_bgra_sse2", "src/convert_image/avx2.rs:nv12_to_bgra_avx2", "src/convert_image/x86.rs:nv12_to_bgra"]}
{"id": "C27", "title": "RGB re-orderings do not depend on the instruction set", "statement": "RGB to BGRA, BGRA to RGB, BGR to RGB give the same bytes on all instruction sets.", "quantifier": "all images, instruction sets", "why_tests_cant": "Shuffle constants and seams differ per instruction set; must agree for all widths.", "anchors": ["src/convert_image/sse2.rs:rgb_to_bgra_sse2", "src/convert_image/avx2.rs:rgb_to_bgra_avx2", "src/convert_image/avx2.rs:bgra_to_rgb_avx2", "src/convert_image/avx2.rs:bgr_to_rgb_avx2", "src/convert_image/neon.rs:rgb_to_bgra_neon"]}
{"id": "C28", "title": "CPU detection only selects supported code paths", "statement": "The AVX2 (SSE2) path is selected only if the processor reports AVX2 (SSE2) through a cpuid leaf it implements; AMD processors never use AVX2; describe_acceleration reports the selected set.", "quantifier": "all cpuid answers", "why_tests_cant": "Cannot enumerate processors.", "anchors": ["src/cpu_info.rs:get", "src/cpu_info.rs:compare_cpu_manufacturer", "src/lib.rs:describe_acceleration"]}
{"id": "C29", "title": "Initialisation is once-only and race free", "statement": "For any interleaving of any number of threads calling the API, the dispatch table is initialised at most once, every call uses the same table, and no call observes a partially built table.", "quantifier": "all thread counts and interleavings", "why_tests_cant": "Schedules cannot be enumerated by tests.", "anchors": ["src/lib.rs:global", "src/lib.rs:Context"]}
{"id": "C30", "title": "C API is null-safe and equivalent to the Rust API", "statement": "dcp_convert_image / dcp_get_buffers_size return failure with InvalidValue for null mandatory pointers, unknown enum values or bad plane counts, without touching any buffer; otherwise their result is that of the Rust function; the error location is written only on failure and only if non-null.", "quantifier": "all pointer/enum/plane-count combinations", "why_tests_cant": "All raw u32 enum values and null combinations.", "anchors": ["src/lib.rs:c_api"]}
{"id": "C31", "title": "Zero-sized images are accepted and touch nothing", "statement": "If width or height is 0 and the conversion is valid and supported, convert_image returns Ok and no byte is read or written, whatever the strides and buffers.", "quantifier": "all supported conversions, strides, buffers", "why_tests_cant": "Universal over strides and buffers.", "anchors": ["src/convert_image/x86.rs:rgb_i444", "src/convert_image/sse2.rs:rgb_i444", "src/convert_image/avx2.rs:rgb_i444", "src/convert_image/neon.rs:rgb_i444"]}
{"id": "C32", "title": "Conversion arithmetic never overflows", "statement": "With buffers of the required size, no integer operation (i32 or usize) of a conversion overflows, so debug builds do not panic and release builds do not wrap.", "quantifier": "all images, colour spaces, dimensions", "why_tests_cant": "All 2^24 values per pixel and all offsets up to 2^63.", "anchors": ["src/convert_image/x86.rs:affine_transform", "src/convert_image/x86.rs:mulhi_i32", "src/convert_image/common.rs:wg_index"]}
{"id": "C33", "title": "RGB to I444 to RGB round trip is nearly lossless", "statement": "Converting an RGB pixel to I444 and back to BGRA in the same colour space changes each component by at most a small constant.", "quantifier": "all 2^24 pixel values, all colour spaces", "why_tests_cant": "2^24 values per colour space, both directions composed.", "anchors": ["src/convert_image/x86.rs:rgb_to_i444", "src/convert_image/x86.rs:i444_to_bgra"]}
{"id": "C34", "title": "Monotonicity", "statement": "Luma is non-decreasing in each of r, g, b; every output component of YCbCr to RGB is non-decreasing in Y.", "quantifier": "all pairs of ordered pixels, all colour spaces", "why_tests_cant": "Pairs of 2^24 values.", "anchors": ["src/convert_image/x86.rs:affine_transform", "src/convert_image/x86.rs:fix_to_u8_sat"]}
{"id": "C35", "title": "Subsampled chroma of a uniform block equals full-resolution chroma", "statement": "If the four pixels of a 2x2 block are equal, their I420/NV12 chroma equals their I444 chroma; in general the subsampled chroma lies between the minimum and maximum chroma of the block up to rounding.", "quantifier": "all blocks, all colour spaces", "why_tests_cant": "2^96 blocks.", "anchors": ["src/convert_image/x86.rs:rgb_to_i420", "src/convert_image/x86.rs:rgb_to_i444"]}
{"id": "C36", "title": "Pixels are independent", "statement": "Changing one source pixel changes only the destination samples computed from it (its own pixel, or its 2x2 block for subsampled formats).", "quantifier": "all images and pixels", "why_tests_cant": "Non-interference over unbounded images.", "anchors": ["src/convert_image/x86.rs:rgb_to_i420", "src/convert_image/x86.rs:i420_to_bgra"]}
{"id": "C37", "title": "32-bit targets", "statement": "On 32-bit targets (wasm32, i686) the checks of convert_image are as effective as on 64-bit ones: arithmetic on dimensions never wraps before the bounds checks.", "quantifier": "all dimensions on a 32-bit target", "why_tests_cant": "Only extreme dimensions wrap.", "anchors": ["src/convert_image/x86.rs:rgb_i444", "src/convert_image/common.rs:out_of_bounds"]}
{"id": "C38", "title": "With correctly sized buffers conversion terminates normally", "statement": "If formats are valid and supported, strides are 0 or at least the row size and buffers have stride*rows bytes, convert_image returns Ok(()): no error, no panic, no out-of-bounds access.", "quantifier": "all dimensions, supported conversions, strides, contents", "why_tests_cant": "Unbounded images.", "anchors": ["src/lib.rs:convert_image", "src/convert_image/x86.rs:rgb_to_bgra"]}
{"id": "C39", "title": "The documented formulas", "statement": "Every converted sample is within rounding distance of the formulas printed in the documentation of convert_image (Algorithm 1 and Algorithm 2).", "quantifier": "all images, colour spaces, instruction sets", "why_tests_cant": "2^24 colours, 4 colour spaces, subsampling; the documentation is prose.", "anchors": ["src/lib.rs:convert_image", "src/convert_image/x86.rs:rgb_to_i444", "src/convert_image/x86.rs:i444_to_bgra"]}
{"id": "C40", "title": "Converting an image in bands gives the same bytes", "statement": "Splitting an image into horizontal bands (starting at even rows where chroma is shared) and converting each with its own call gives exactly the bytes of one call on the whole image.", "quantifier": "all images, strides, cuts, conversions, instruction sets", "why_tests_cant": "Unbounded sizes and cut positions.", "anchors": ["src/lib.rs:convert_image", "src/convert_image/x86.rs:rgb_to_i420", "src/convert_image/sse2.rs:rgb_to_i444_sse2"]}
{"id": "C41", "title": "The fixed-point constants are those of BT.601 and BT.709", "statement": "The weights of common.rs are the exact coefficients in fixed point to within rounding; chroma weights add up to zero, luma weights to the exact span; the offsets encode black, the middle of chroma and one half.", "quantifier": "all constants of the four colour spaces", "why_tests_cant": "A wrong last digit changes few results, by one; tests compare with the same constants.", "anchors": ["src/convert_image/common.rs:Colorimetry"]}
{"id": "C42", "title": "Strings given to C programs", "statement": "dcp_describe_acceleration always gives a non-null pointer to the complete NUL-terminated description, never changes earlier strings, and dcp_unref_string frees exactly that string; null is ignored.", "quantifier": "all histories of allocations and frees, all contexts", "why_tests_cant": "Histories are unbounded; a leak or double free is silent.", "anchors": ["src/lib.rs:dcp_describe_acceleration", "src/lib.rs:dcp_unref_string"]}
{"id": "C43", "title": "The test hook never selects instructions the processor lacks", "statement": "With the feature test_instruction_sets, whatever value TEST_SET has, convert_image uses converters of a set that the processor supports; asking for a supported set by name selects it; by default the best is used.", "quantifier": "all values of TEST_SET, all names, all processors", "why_tests_cant": "A test machine has one processor.", "anchors": ["src/lib.rs:initialize_with_instruction_set", "src/lib.rs:convert_image"]}
{"id": "C44", "title": "One process, one instruction set", "statement": "All calls of a process behave according to the same instruction set, whatever cpuid would answer at later calls; conversions from RGB give the same bytes on all x86 processors.", "quantifier": "all sequences of calls, all processor behaviours over time", "why_tests_cant": "Sequences are unbounded; migrations between unlike cores cannot be provoked in a test.", "anchors": ["src/lib.rs:Context", "src/lib.rs:convert_image", "src/cpu_info.rs:get"]}
{"id": "C45", "title": "Converting a rectangle gives the pixels of the whole", "statement": "Converting any rectangle of an image (even corner for subsampled targets), stored in any layout, gives the same pixels as converting the whole image.", "quantifier": "all images, rectangles, layouts", "why_tests_cant": "The vector and the scalar code treat different columns; positions are unbounded.", "anchors": ["src/convert_image/x86.rs:rgb_to_i444", "src/convert_image/sse2.rs:rgb_to_i444_sse2", "src/convert_image/neon.rs:rgb_to_i444_neon"]}
{"id": "C46", "title": "Exactly which buffers are accepted", "statement": "For valid formats and supported conversions, convert_image answers NotEnoughData exactly if some plane holds less than its rows need or less than one whole stride; in particular unpadded last rows are accepted.", "quantifier": "64-bit targets, planes below 2^64 bytes; all images, strides, buffer sizes, conversions, instruction sets", "why_tests_cant": "Acceptance thresholds for unbounded sizes and strides; tests try a few.", "anchors": ["src/convert_image/common.rs:out_of_bounds", "src/convert_image/x86.rs:rgb_to_i420", "src/convert_image/x86.rs:i444_to_bgra"]}
{"id": "C47", "title": "The C function converts whatever lies inside of the caller's memory", "statement": "dcp_convert_image, which is not told the sizes of the buffers, converts all images that lie inside of the caller's memory with their rows apart, including those for which convert_image answers NotEnoughData.", "quantifier": "all images, strides up to isize::MAX, memory contents, error pointers", "why_tests_cant": "Memory safety of the C interface for all sizes.", "anchors": ["src/lib.rs:dcp_convert_image"]}
{"id": "C48", "title": "Decoding and encoding again loses nothing", "statement": "Decoding a YCbCr image to RGB and encoding it again in the same format and colour space, any number of times, gives back the same samples for all colours that RGB can represent.", "quantifier": "all images, colour spaces, YCbCr and RGB formats, instruction sets, numbers of generations", "why_tests_cant": "2^24 colours per space and unbounded generations; an error of one per generation is within the tolerance of the repository's tests.", "anchors": ["src/convert_image/x86.rs:i444_to_bgra", "src/convert_image/x86.rs:rgb_to_i444", "src/convert_image/common.rs:Colorimetry"]}
{"id": "C49", "title": "The byte order of the machine does not matter", "statement": "The portable code gives the same answers, sizes, bytes and faults on big-endian and little-endian machines.", "quantifier": "all calls, conversions, targets, debug and release builds", "why_tests_cant": "No big-endian machine runs the tests; the statement is about all calls.", "anchors": ["src/convert_image/x86.rs:bgr_to_rgb", "src/convert_image/x86.rs:bgra_to_rgb", "src/convert_image/x86.rs:rgb_to_bgra", "src/lib.rs:Context"]}
{"id": "C50", "title": "The C header describes the library", "statement": "The enumerators, structure, functions and documented tables of the C header agree with the Rust code: same names, values, layout, parameter order, accepted codes, conversions, plane counts and sizes.", "quantifier": "all enumerators, all 32-bit codes, all targets of either byte order, all image dimensions", "why_tests_cant": "The header is not compiled against the Rust declarations; a value or field out of order silently selects another format.", "anchors": ["include/dcv_color_primitives.h:DcpPixelFormat", "include/dcv_color_primitives.h:DcpImageFormat", "src/lib.rs:ImageFormat", "src/lib.rs:dcp_convert_image"]}
{"id": "C51", "title": "convert_image is a reference implementation", "statement": "For every well-formed call on images inside of their buffers, the answer of convert_image and every byte of every buffer afterwards are those of a short executable reference function.", "quantifier": "all calls: dimensions, strides, buffers, formats, instruction sets, refused or accepted", "why_tests_cant": "Equality of two functions on unboundedly many inputs, with no byte of memory left out.", "anchors": ["src/lib.rs:convert_image", "src/convert_image/x86.rs:rgb_to_i420", "src/convert_image/x86.rs:i444_to_bgra", "src/convert_image/common.rs:out_of_bounds"]}
{"id": "C52", "title": "An RGB image loses at most once", "statement": "Encoding an RGB image as I444 and decoding it again, any number of times, changes it the first time only, by at most (1, 1, 2) per pixel.", "quantifier": "all images, colours, numbers of generations and instruction sets", "why_tests_cant": "Sequences of conversions of any length on all 2^24 colours.", "anchors": ["src/convert_image/x86.rs:rgb_to_i444", "src/convert_image/x86.rs:i444_to_bgra", "src/convert_image/x86.rs:fix_to_u8_sat"]}
{"id": "C53", "title": "The generator script prints the constants in use", "statement": "genweights.py, run for a model and range, prints exactly the constants of common.rs, and the reference data it prints for its table of pixels are the samples that convert_image produces from it on every instruction set (and likewise for any other table, except that NEON rounds exact halves of chroma the other way).", "quantifier": "all models and ranges; all tables of pixels, sizes, formats, instruction sets", "why_tests_cant": "The tests use the script's output for one table of 8x8 pixels; nothing compares the constants with the script.", "anchors": ["genweights.py:max_uv_error", "src/convert_image/common.rs:XR_601", "src/convert_image/x86.rs:rgb_to_i420", "src/convert_image/x86.rs:rgb_to_i444"]}
{"id": "C54", "title": "The route does not matter", "statement": "Converting an image directly or through intermediate RGB formats gives the same pixels: a BGR image encoded as NV12 equals the same image re-ordered to RGB, to BGRA, then encoded; NV12 decoded to RGB equals NV12 decoded to BGRA then re-ordered.", "quantifier": "all supported conversions, all sizes, layouts and contents, any number of re-orderings in between, each call on any instruction set", "why_tests_cant": "Tests convert in one step and compare with constants; the routes use different kernels (bytes per pixel, vector widths), and chains of any length are not tested.", "anchors": ["src/convert_image/x86.rs:rgb_to_nv12", "src/convert_image/x86.rs:nv12_rgb", "src/convert_image/x86.rs:bgra_to_rgb", "src/convert_image/x86.rs:rgb_to_bgra"]}
{"id": "C55", "title": "The contents of the buffers decide nothing but the result", "statement": "Whether a call succeeds, which error it returns and whether it faults depends on sizes, formats and strides only, never on the pixel values; a layout that was converted once can be converted with any other contents.", "quantifier": "all calls (no layout, size, format or target excluded), all contents, all instruction sets, Rust and C interface", "why_tests_cant": "Tests use a handful of contents per layout; an overflow, table index or early exit that depends on pixel values only shows for particular values.", "anchors": ["src/lib.rs:convert_image", "src/convert_image/x86.rs:rgb_to_nv12", "src/convert_image/sse2.rs:rgb_to_nv12_sse2", "src/convert_image/avx2.rs:rgb_to_nv12", "src/convert_image/neon.rs:rgb_to_nv12_neon"]}
{"id": "C56", "title": "A moved picture converts to the moved result", "statement": "Converting a mirrored, flipped, transposed, rotated or cropped picture gives the conversion of the picture, mirrored, flipped, transposed, rotated or cropped in the same way (2x2 blocks staying together for subsampled targets).", "quantifier": "all pictures, sizes, layouts, conversions, all rearrangements of the pixels (blocks), all instruction sets", "why_tests_cant": "Quantifies over all rearrangements and sizes; left and right columns run through different code, and a difference between them only shows for particular widths and colours.", "anchors": ["src/lib.rs:convert_image", "src/convert_image/x86.rs:rgb_to_nv12", "src/convert_image/sse2.rs:rgb_to_nv12_sse2", "src/convert_image/avx2.rs:nv12_to_rgb_avx2", "src/convert_image/neon.rs:rgb_to_nv12_neon"]}
{"id": "C57", "title": "Similar pictures convert to similar pictures", "statement": "If no component of two RGB pictures differs by more than d, no sample of their encodings does; if no sample of two YCbCr pixels differs by more than d, their decodings differ by at most 3d in red and green and 4d in blue.", "quantifier": "all pairs of pictures, all d, sizes, layouts, colour spaces, all instruction sets", "why_tests_cant": "Quantifies over pairs of pictures; a discontinuity (wrap-around) only shows at particular values.", "anchors": ["src/lib.rs:convert_image", "src/convert_image/x86.rs:rgb_to_nv12", "src/convert_image/sse2.rs:rgb_to_nv12_sse2", "src/convert_image/avx2.rs:nv12_to_rgb_avx2", "src/convert_image/neon.rs:rgb_to_nv12_neon"]}
{"id": "C58", "title": "Conversions at the same time do not disturb each other", "statement": "Threads that convert different images at the same time (no thread writes what another one uses; sources may be shared) get the answers and the destination contents they would get alone, whatever the interleaving of their single byte accesses; each finishes after a number of its own steps, nothing outside of the destinations is written at any time, and there is never a data race. In particular the bands of one picture can be converted by threads of their own into one destination.", "quantifier": "all numbers of threads and calls, all interleavings, all images, formats, buffers, instruction sets and targets", "why_tests_cant": "Schedules cannot be enumerated; an access outside of a band, or a temporary write that is undone later, only shows for particular interleavings.", "anchors": ["src/lib.rs:convert_image", "src/lib.rs:Context::global", "src/convert_image/x86.rs:rgb_to_nv12", "src/convert_image/sse2.rs:rgb_to_nv12_sse2", "src/convert_image/avx2.rs:nv12_to_rgb_avx2", "src/convert_image/neon.rs:rgb_to_nv12_neon"]}
{"id": "C59", "title": "The destination is write-only", "statement": "No call of convert_image or dcp_convert_image reads a byte of a destination buffer, at any time, whatever its outcome; a call that answers an error, or whose image has no pixels, accesses no buffer at all; and a successful call writes each byte of the destination image and no other byte of the destination, not even temporarily.", "quantifier": "all images, layouts, contents, instruction sets and targets; for the first part also calls that fail, panic or leave their buffers", "why_tests_cant": "A test sees the bytes before and after a call. A byte that is read and ignored, or written and restored, leaves no trace there, although it matters for write-combined memory, for other threads, and for uninitialised destinations.", "anchors": ["src/lib.rs:convert_image", "src/lib.rs:dcp_convert_image", "src/convert_image/x86.rs:rgb_to_nv12", "src/convert_image/sse2.rs:rgb_to_nv12_sse2", "src/convert_image/avx2.rs:nv12_to_rgb_avx2", "src/convert_image/neon.rs:rgb_to_nv12_neon"]}
{"id": "C60", "title": "C programs may convert into interleaved memory at the same time", "statement": "Calls of dcp_convert_image made at the same time by different threads do not disturb each other if the rows of their destination images share no byte with each other or with the sources, even when the memory behind the pointers overlaps, as for rectangles of one picture whose rows lie between each other: each call returns success, every byte of its image is what the call alone would have written, and nothing else is changed at any time. In particular rectangles that cover a picture, on chroma boundaries, leave the bytes that one call for the picture leaves, with every instruction set if they start and end at whole groups of pixels.", "quantifier": "any number of calls; all interleavings of their steps; all images, contents, instruction sets and targets", "why_tests_cant": "A test runs a few interleavings. That no call writes padding, not even to restore it, and never reads the destination, is what makes the calls independent; neither is visible in the result of a single call.", "anchors": ["src/lib.rs:dcp_convert_image", "src/convert_image/x86.rs:rgb_to_nv12", "src/convert_image/sse2.rs:rgb_to_nv12_sse2", "src/convert_image/avx2.rs:nv12_to_rgb_avx2", "src/convert_image/neon.rs:rgb_to_nv12_neon"]}
{"id": "C61", "title": "Which bytes are touched does not depend on the contents", "statement": "Two calls of convert_image or dcp_convert_image with the same arguments, on buffers of the same sizes, read and write the same positions of the same buffers in the same order, whatever the bytes in the buffers: the pattern of memory accesses carries nothing about the picture.", "quantifier": "all pairs of contents; all images, layouts, sizes, instruction sets and targets, also calls that fail or stop with a fault", "why_tests_cant": "A statement about pairs of runs and about every single access. A test sees results; a table look-up indexed by a pixel, or a branch that skips the chroma of grey blocks, gives the right result and another pattern of accesses.", "anchors": ["src/lib.rs:convert_image", "src/lib.rs:dcp_convert_image", "src/convert_image/x86.rs:rgb_to_nv12", "src/convert_image/x86.rs:fix_to_u8_sat", "src/convert_image/sse2.rs:rgb_to_nv12_sse2", "src/convert_image/avx2.rs:nv12_to_rgb_avx2", "src/convert_image/neon.rs:rgb_to_nv12_neon"]}
{"id": "C62", "title": "Every byte of the destination image is written once", "statement": "A successful conversion writes each byte of the destination image exactly once and writes nothing else, so the number of bytes written is the size of the image; during the call every byte of the destination therefore holds its old or its final value, never a third one. Exception: NV12 to RGB with AVX2 stores 48 bytes of pixels as two overlapping registers and writes some bytes twice, both times with the same value.", "quantifier": "all images, layouts, sizes, contents, instruction sets and targets, for the Rust and the C function; every moment of the call", "why_tests_cant": "A test sees the destination after the call. A kernel that clears the rows first, stores a wide register and repairs the bytes after it, or computes the last columns a second time with the scalar code gives the right result and shows intermediate values to a concurrent reader (a display scanning out the buffer, a device reading write-combined memory).", "anchors": ["src/lib.rs:convert_image", "src/lib.rs:dcp_convert_image", "src/convert_image/x86.rs:rgb_to_nv12", "src/convert_image/x86.rs:rgb_to_bgra", "src/convert_image/sse2.rs:rgb_to_i420_sse2", "src/convert_image/avx2.rs:nv12_to_rgb_avx2", "src/convert_image/avx2.rs:bgra_to_rgb_avx2", "src/convert_image/neon.rs:rgb_to_nv12_neon"]}
{"id": "C63", "title": "The work is proportional to the picture", "statement": "A call of convert_image or dcp_convert_image takes at most 40 steps for each pixel and 100 more, a step being a byte read, a byte written or an integer operation that could overflow; this holds however the call ends, whatever the formats, strides, buffers and contents. get_buffers_size takes at most 11 steps for every picture.", "quantifier": "all arguments (valid or not), all contents of memory, instruction sets, word sizes and byte orders; calls that succeed, fail, panic or fault", "why_tests_cant": "Benchmarks time some sizes. A loop bound taken from the stride instead of the width, a wrapped-around subtraction that makes a loop run four billion times, or a row that is converted again for each of its pixels shows up for some arguments only, and is a denial of service where sizes come from the network.", "anchors": ["src/lib.rs:convert_image", "src/lib.rs:dcp_convert_image", "src/lib.rs:get_buffers_size", "src/convert_image/x86.rs:rgb_to_bgra", "src/convert_image/x86.rs:bgra_to_rgb", "src/convert_image/x86.rs:rgb_to_nv12", "src/convert_image/sse2.rs:rgb_to_bgra_sse2", "src/convert_image/avx2.rs:bgra_to_rgb_avx2", "src/convert_image/neon.rs:rgb_to_nv12_neon"]}
{"id": "C64", "title": "Only the source image is read, the same in every build", "statement": "A successful call of convert_image or dcp_convert_image never reads the destination, and of the source buffers it reads bytes of the image only; the two exceptions are the bytes that SSE2 and AVX2 read after the end of a row from BGR to YCbCr, and up to two bytes after the end of every row but the last one from RGB to BGRA (bytes of the next row where there is no padding; on the portable code nothing but padding). A debug and a release build for the same target make the same reads and writes in the same order.", "quantifier": "all images that lie within their buffers, contents, strides, instruction sets, word sizes of 32 and 64 bits", "why_tests_cant": "Tests compare what is written. A read of the padding between rows, of the next row or of the destination shows in no result, but it is a data race where another thread owns those bytes, and a fault where they are not mapped. That overflow checks do not change the accesses is a statement about two programs.", "anchors": ["src/lib.rs:convert_image", "src/lib.rs:dcp_convert_image", "src/convert_image/x86.rs:rgb_to_bgra", "src/convert_image/x86.rs:nv12_to_bgra", "src/convert_image/x86.rs:i420_to_bgra", "src/convert_image/sse2.rs:rgb_to_nv12_sse2", "src/convert_image/avx2.rs:bgra_to_rgb_avx2", "src/convert_image/neon.rs:rgb_to_i420_neon"]}
{"id": "C65", "title": "No pixel of the source is ignored", "statement": "A successful call of convert_image or dcp_convert_image reads every byte of the source image except maybe the alpha of its pixels, and exactly these bytes decide the result: for each of them there are two sources of the same layout that differ in this byte only and have different results, and sources that differ only in another byte have the same result.", "quantifier": "all images that lie within their buffers, positions, strides, formats, instruction sets, word sizes of 32 and 64 bits", "why_tests_cant": "A test compares one picture with one expected result; a byte that a kernel skips at some width or row (the last columns, the last row, the second chroma sample) shows only if the tested picture happens to differ there. That no byte outside of the picture decides anything is about all contents of it.", "anchors": ["src/lib.rs:convert_image", "src/lib.rs:dcp_convert_image", "src/convert_image/x86.rs:rgb_to_nv12", "src/convert_image/x86.rs:nv12_to_bgra", "src/convert_image/x86.rs:i420_to_bgra", "src/convert_image/sse2.rs:rgb_to_nv12_sse2", "src/convert_image/avx2.rs:nv12_to_bgra_avx2", "src/convert_image/neon.rs:rgb_to_i420_neon"]}
{"id": "C66", "title": "Only greys become grey", "statement": "After a conversion from RGB to YCbCr, a pixel with neutral chroma (128, 128) was a grey: its red and blue differed from its green by at most 1 (on average over a 2x2 block by at most 5/3 where chroma is subsampled); a pixel with the lowest luma was black, and one with the highest was white, up to 2 in red and 8 in blue. After a conversion from YCbCr to RGB, a pixel is a grey between black and white exactly if its chroma is the neutral one (128, in the full range spaces 127).", "quantifier": "all images that lie within their buffers, pixels, colour spaces, formats, instruction sets", "why_tests_cant": "Tests check that greys stay grey. That no other colour is turned into grey, black or white is a statement about all 2^24 colours in every column of every layout, and on the vector paths a wrong lane or a wrong sign shows only for some of them.", "anchors": ["src/convert_image/x86.rs:rgb_to_i444", "src/convert_image/x86.rs:rgb_to_nv12", "src/convert_image/x86.rs:i444_to_bgra", "src/convert_image/sse2.rs:rgb_to_i444_sse2", "src/convert_image/avx2.rs:i420_to_bgra_avx2", "src/convert_image/neon.rs:rgb_to_i444_neon", "src/convert_image/common.rs:Colorimetry"]}
{"id": "C67", "title": "Subsampled chroma is the average of full chroma", "statement": "Converting the same RGB image to I444 and to I420 or NV12, each chroma value of the subsampled image differs by less than one from the average of the four chroma values of its block in I444; by at most one if the two conversions ran on different instruction sets.", "quantifier": "all RGB images that lie within their buffers, blocks, contents, colour spaces, strides, instruction sets", "why_tests_cant": "The subsampled kernels add the four pixels and weigh the sum with constants and rounding of their own, in other shuffles than the I444 kernels; a weight, a rounding constant or a lane that is wrong for one of the four positions is visible only for blocks that are not uniform.", "anchors": ["src/convert_image/x86.rs:rgb_to_i444", "src/convert_image/x86.rs:rgb_to_i420", "src/convert_image/x86.rs:rgb_to_nv12", "src/convert_image/sse2.rs:rgb_to_i420_sse2", "src/convert_image/sse2.rs:rgb_to_i444_sse2", "src/convert_image/avx2.rs:rgb_to_i444_avx2", "src/convert_image/neon.rs:rgb_to_i420_neon"]}
{"id": "C68", "title": "Brightness and colour are kept apart", "statement": "Adding a grey to the pixels of an RGB picture, a different one to each pixel if wanted, leaves the chroma of the encoded picture exactly as it was (up to one step between NEON and another instruction set) and moves the luma by as much in the full range spaces, by 219/255 of it up to one step in the others. Adding to the luma of a YCbCr picture moves all components that are not clamped by as much, or by 255/219 of it up to one step.", "quantifier": "all pairs of images that differ in this way, greys, formats, colour spaces, strides, instruction sets", "why_tests_cant": "It holds because the chroma weights add up to exactly zero and because no rounding depends on the brightness; a weight that is off by one, or a rounding bias, changes some chroma by one for some of the 2^24 colours and 511 greys.", "anchors": ["src/convert_image/x86.rs:rgb_to_i444", "src/convert_image/x86.rs:rgb_to_i420", "src/convert_image/x86.rs:rgb_to_nv12", "src/convert_image/x86.rs:i444_to_bgra", "src/convert_image/sse2.rs:rgb_to_i420_sse2", "src/convert_image/avx2.rs:i420_to_bgra_avx2", "src/convert_image/neon.rs:rgb_to_i444_neon", "src/convert_image/common.rs:Colorimetry"]}
{"id": "C69", "title": "Pictures mix alike before and after conversion", "statement": "If one picture is the weighted mean of two others (a cross-fade, rounded to whole values), its conversion is the weighted mean of their conversions: the encoded samples up to 3/2, the decoded components that are not clamped up to 3.", "quantifier": "all triples of images related in this way, weights, formats, colour spaces, strides, instruction sets (a different one for each picture)", "why_tests_cant": "Triples of pictures and all weights; a single wrong rounding or a coefficient that applies to part of the range only shows for few of them.", "anchors": ["src/convert_image/x86.rs:rgb_to_i444", "src/convert_image/x86.rs:rgb_to_i420", "src/convert_image/x86.rs:rgb_to_nv12", "src/convert_image/x86.rs:i444_to_bgra", "src/convert_image/sse2.rs:rgb_to_i420_sse2", "src/convert_image/avx2.rs:i420_to_bgra_avx2", "src/convert_image/neon.rs:rgb_to_i444_neon", "src/convert_image/common.rs:Colorimetry"]}
{"id": "C70", "title": "A picture of one colour becomes a picture of one colour", "statement": "If all pixels of the source have the same colour, all pixels of the destination have the same colour: no seam between the columns done by vector code and those done one by one.", "quantifier": "all colours, sizes, formats, colour spaces, strides, instruction sets", "why_tests_cant": "A seam shows for some colours and some widths only; 2^24 colours times all widths cannot be tried.", "anchors": ["src/convert_image/x86.rs:rgb_to_i444", "src/convert_image/x86.rs:i444_to_bgra", "src/convert_image/sse2.rs:i444_to_bgra_sse2", "src/convert_image/avx2.rs:i444_to_bgra_avx2", "src/convert_image/neon.rs:rgb_to_i444_neon"]}
{"id": "C71", "title": "The negative of a picture", "statement": "A picture and its negative are encoded to luma values that add up to black plus white, up to one step, and to chroma values that add up to 256: neither bright nor dark, neither blue nor yellow are favoured.", "quantifier": "all pictures, formats, colour spaces, strides, pairs of instruction sets", "why_tests_cant": "A rounding that always goes one way is within the tolerance of the repository's tests at every single pixel; the symmetry needs weights that add up to zero and rounding to the nearest for all 2^24 colours and sums of four.", "anchors": ["src/convert_image/x86.rs:rgb_to_i444", "src/convert_image/x86.rs:rgb_to_i420", "src/convert_image/x86.rs:rgb_to_nv12", "src/convert_image/sse2.rs:rgb_to_i420_sse2", "src/convert_image/avx2.rs:rgb_to_i420_avx2", "src/convert_image/neon.rs:rgb_to_i420_neon", "src/convert_image/common.rs:Colorimetry"]}
