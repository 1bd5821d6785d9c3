# Formal model of dcv-color-primitives: design

Model and proofs are in `rocq/theories` (Coq 8.16.1, standard library only).
The code modelled is `/repo/src` at the pinned commit; nothing was built or run.

## 1. Shape of the model

* **Machine integers** are `Z` with the width written out. `usize` arithmetic goes through
  `uadd/usub/umul`, `i32` arithmetic through `iadd/isub/imul`: on overflow they *fault* when the target is a
  checked (debug) build and wrap when it is not (release). The target (`usize` modulus, checked or not,
  byte order) is a parameter of every run, so theorems speak about 32 and 64 bit, debug and release builds. `is_target`
  means little endian; C49 is about the others.
* **Memory** is the list of source buffers and the list of destination buffers, each a list of bytes.
  A Rust slice is a *view* (plane, offset, length). Every load and store of the `unsafe` kernels checks both the
  view and the buffer; leaving them is the explicit outcome `Fault OOB_read/OOB_write` (undefined behaviour in
  Rust). Slice and index panics are `Fault Panic_slice/Panic_index`.
* **Code** is written in a small monad, function by function, each definition citing file and lines. A program is a
  tree of primitive steps (`Base.M`: one arithmetic operation, one access to one byte, ...); `run` says what it does to
  the memory of one call when nothing else runs, `Thread.act` gives its next step, for programs that run at the same
  time (C58).
* **SIMD registers** are byte lists (x86, little endian) or lane lists (NEON); each intrinsic used is a Gallina
  function on them (`Simd.v`, first part of `Neon.v`).
* **API**: `convert_image`, `get_buffers_size`, `describe_acceleration`, dispatch table, cpu detection, C API.
* **Instruction sets**: `converters set` (`Sets.v`) is the content of the dispatch table for
  `set = X86 | Sse2 | Avx2 | Neon`. Theorems about `convert_image` quantify over `set`.

Reasoning principle: `exec c ws v` says "from every memory with the given source bytes and buffer lengths, command
`c` terminates without fault, returns `v` and performs exactly the list of byte writes `ws`"; `runs` says the same
with the set of (address, value) pairs. Loops give concatenations, so the write set of a whole kernel is computed
compositionally, by induction, for every width and height, and final memory contents follow from membership in it.

Vector kernels: `VecForward.v`, `VecBackward.v`, `VecReorder.v` prove the loops once, for any group width and any
register functions that meet a per-group contract; `X86Forward.v`, `Sse2*.v`, `Avx2*.v`, `Neon*.v` prove the contract
lane by lane for the register programs. `HybridFacts.v` joins the columns done by the vector kernel with those done
by the portable kernel. `ConvProofs.v` and `SetProofs.v` go from kernels to the functions of the dispatch table.

Over-reads: SSE2 and AVX2 read up to 4 or 8 bytes after the last BGR pixel. `SetSpec.over_read` says how many.
The kernel contracts need this slack after the source image; `Pad.v` compares a run with a run on a longer buffer
(it stops at `OOB_read`, or it does exactly the same), which gives results without the slack.

## 2. How to read a theorem

The statements use the model's entry points (`convert`, `c_convert`, `get_buffers_size`, `converters`, ... in `Api.v`,
`Lib.v`, `Sets.v`) and the specification files, which do not depend on the model of the kernels:

| file | contents |
|---|---|
| `Spec.v` | rounding, weights and pixel formulas, planes of an image in memory, `expected` bytes |
| `SimdSpec.v`, `SetSpec.v` | the arithmetic of the vector columns where it differs, `vector_part`, `over_read`, `blue_fits`, `tie` |
| `ApiSpec.v` | valid images, supported conversions, sizes, `converted`, `documented_call`, `pixel`, `covers` |
| `Itu.v`, `PixelSpec.v` | BT.601/BT.709 over the rationals; nominal ranges, error bounds |
| `DocSpec.v`, `WeightSpec.v` | the formulas of the documentation; what a fixed-point constant has to be near |
| `BandSpec.v`, `ProcessSpec.v` | images cut into bands; histories of a process |
| `AcceptSpec.v`, `ReachSpec.v` | which buffers are accepted; how far images extend, what is read |
| `SizeSpec.v`, `CpuSpec.v`, `TripSpec.v` | the sizes as the code has them; what a processor reports; colours that come back |
| `DataSpec.v` | calls that run the same course |
| `MoveSpec.v` | rearrangements of the pixels of a picture |
| `CourseSpec.v` | the position of an access |
| `WriteSpec.v` | how often a byte is written; the size of an image in bytes |
| `WorkSpec.v` | how many steps a program takes |
| `ReadSpec.v` | the bytes near an image that a conversion may read |
| `EverySpec.v` | the bytes of an image that carry colour |
| `OnlySpec.v` | the chroma of greys |
| `ModSpec.v` | rows and planes of a machine word or more; buffers that are taken when sizes are counted modulo that |
| `TraceSpec.v` | the byte written last at a place; calls of the C function that convert |
| `CThreadSpec.v` | calls of C programs that may run at the same time |
| `TileSpec.v` | a picture in rectangles, and the calls for them |
| `ThreadSpec.v` | what a thread does alone, Rust's borrowing rules for the slices of threads, bands of a picture as threads |
| `RouteSpec.v` | chains of re-orderings |
| `GenSpec.v` | constants of a colour space in the order of the script, tables of pixels |
| `RgbTripSpec.v` | RGB images encoded and decoded many times |
| `RefSpec.v` | executable reference implementation of `convert_image` |
| `HeaderSpec.v` | C names of the Rust values, contents of a C structure, readings of the header's tables |
| `RecodeSpec.v` | a colour encoded as I444 and decoded again, many times |
| `MixSpec.v` | weighted means of values and colours |
| `FlatSpec.v`, `NegSpec.v` | pictures of one colour; negatives |
| `BrightSpec.v` | how luma and components have to follow a change of brightness |
| `EndianSpec.v`, `BigOrderSpec.v` | targets of the other byte order, outcomes up to the bytes written; bytes of the re-orderings there |

`successful_call impl T w h src dst sb db m'`: a well-formed call on images inside their buffers returned `Ok(())`
and left memory `m'`. `Props*.v` contain only theorems closed by `exact` (refutations: by computation), each followed
by `Print Assumptions` and by a concrete case.

## 3. Files

| files | contents |
|---|---|
| `Base.v` | integers, memory, views, monad, loops |
| `Fmt.v`, `Dispatch.v`, `CpuInfo.v`, `Common.v` | `pixel_format.rs`, `color_space.rs`, `dispatcher.rs`, `cpu_info.rs`, `common.rs` |
| `Scalar.v`, `Wrappers.v` | kernels of `x86.rs`; validating wrappers (the same text in the four files) |
| `Simd.v`, `Vector.v`, `Sse2.v`, `Avx2.v`, `Neon.v` | intrinsics; `sse2.rs`, `avx2.rs`, `neon.rs` |
| `Lib.v`, `Sets.v`, `Once.v`, `Api.v`, `Process.v` | `lib.rs`: table, context, API, C API; races for the context; calls; processes |
| `Trace.v` | the accesses of a call, in their order |
| `CThread.v` | threads of a C program; the memory behind the pointers may overlap |
| `Thread.v` | threads of a Rust program that call `convert_image` on one common memory |
| `GenWeights.v` | `genweights.py` |
| `Header.v`, `HeaderFacts.v` | `include/dcv_color_primitives.h` and the declarations it mirrors; proofs |
| `Spec.v` ... `PixelSpec.v`, `DocSpec.v`, `BandSpec.v`, `WeightSpec.v`, `ProcessSpec.v`, `AcceptSpec.v`, `ReachSpec.v`, `SizeSpec.v`, `CpuSpec.v`, `TripSpec.v` | specification, see section 2 |
| `Exec.v`, `Area.v`, `KernelBase.v`, `Bytes.v`, `PixelFacts.v`, `SimdFacts.v` | reasoning tools |
| `ForwardProofs.v`, `BackwardProofs.v`, `ReorderProofs.v` | portable kernels |
| `Vec*.v`, `X86Forward.v`, `Sse2Forward.v` ... `Avx2Reorder.v` | vector kernels |
| `WrapperFacts.v`, `ConvProofs.v`, `HybridFacts.v`, `LibFacts.v`, `ApiProofs.v`, `SetProofs.v`, `FinalProofs.v`, `ConvertProofs.v`, `ResultFacts.v`, `Quiet.v`, `CallFacts.v`, `Pad.v`, `PadFacts.v` | from kernels to the API |
| `SizeFacts.v`, `SizeProps.v`, `SizeExact.v`, `OnceFacts.v`, `CApiFacts.v`, `CpuFacts.v`, `PropFacts.v`, `ItuFacts.v`, `PixelProps.v`, `PixelApi.v`, `TripFacts.v`, `DocFacts.v`, `BandFacts.v`, `CropFacts.v`, `ProcessFacts.v` | facts behind the theorems |
| `AcceptFacts.v`, `CastFacts.v`, `NeedFacts.v`, `AlphaFacts.v`, `ExactFacts.v` | exact acceptance, casts, reads that must happen |
| `Extend.v`, `ReachFacts.v`, `InsideFacts.v` | the same call with longer buffers; calls that succeed are inside of their buffers |
| `DataFacts.v` | runs on buffers of the same sizes with other contents |
| `MoveFacts.v` | moved and similar pictures |
| `TraceFacts.v`, `TraceRunFacts.v`, `StillFacts.v` | programs that read sources only; what the accesses determine; calls without accesses |
| `CThreadFacts.v`, `CThreadRunFacts.v` | one thread of a C program; all of them |
| `TileFacts.v`, `TileRunFacts.v`, `TileColFacts.v` | rectangles of a picture: planes, calls, columns |
| `ThreadFacts.v`, `ThreadBandFacts.v` | threads; pictures shared by threads |
| `WhereSpec.v`, `WhereFacts.v` | in which columns an instruction set differs from the portable code, and so for which pixels exactly two calls agree |
| `WorkFacts.v`, `WorkRunFacts.v` | how many steps the kernels and the calls take |
| `ModFacts.v` | the checks when a product does not fit in a machine word |
| `EveryFacts.v`, `OnlyFacts.v`, `MeanFacts.v`, `BrightFacts.v` | two pictures that differ in one byte; which colours become grey; averages of chroma; brighter pictures |
| `RecodeFacts.v`, `MixFacts.v`, `FlatFacts.v`, `NegFacts.v` | every generation of RGB - I444 - RGB; mixtures of pictures; pictures of one colour; negatives |
| `RouteFacts.v` | conversions by different routes |
| `WrapSpec.v`, `WrapFacts.v` | the decoded pixels that overflow, and what exactly is lost there |
| `FloatFacts.v`, `GenError.v` | doubles: order, distance of sums and products from the exact ones; the errors measured by genweights.py |
| `GenFacts.v` | the generator script |
| `RgbTripFacts.v` | repeated round trips of RGB images |
| `RefFacts.v` | equality with the reference implementation |
| `BigFacts.v`, `BigReorder.v`, `BigOrderFacts.v`, `BigC.v` | runs on two targets that differ in the byte order; the re-orderings on a big-endian one |
| `PropsConvert.v`, `PropsApi.v`, `PropsPixel.v`, `PropsMore.v`, `PropsInside.v`, `PropsSize.v`, `PropsTrip.v`, `PropsEndian.v`, `PropsBigOrder.v`, `PropsMod.v`, `PropsEvery.v`, `PropsOnly.v`, `PropsMean.v`, `PropsBright.v`, `PropsMix.v`, `PropsFlat.v`, `PropsNeg.v`, `PropsHeader.v`, `PropsRef.v`, `PropsRgbTrip.v`, `PropsRecode.v`, `PropsGen.v`, `PropsRoute.v`, `PropsData.v`, `PropsMove.v`, `PropsWhere.v`, `PropsWrap.v`, `PropsThread.v`, `PropsTrace.v`, `PropsCThread.v`, `PropsTile.v`, `PropsCourse.v`, `PropsWrite.v`, `PropsWork.v` | the property theorems |
| `RepoTests.v` | the repository's own tests (`tests/conversions.rs`, `errors.rs`, `tests.rs`), run on the model |
| `CTests.v` | the error and size tests of `c_tests/unit.c` on the model of the C interface; the data of `tests/conversions.rs` on the reference of `RefSpec.v` |

## 4. Trusted base

* Coq's kernel (8.16.1), including its virtual machine for the steps by `vm_compute`; `coqchk` re-checks the
  compiled files without it.
* `Print Assumptions`: "Closed under the global context" for every theorem of `Props*.v`. No axiom is used.
  (`coqchk` lists seven constants of `Coq.ssr.ssrunder`, a library file that is loaded and not used.)
* That the model is the code: it was transcribed by reading. The semantics of Rust integers, slices, raw pointers
  and casts is that of `Base.v`; the semantics of the vector instructions is that of `Simd.v` and `Neon.v`, written
  after the Intel and Arm intrinsics references.
* Python's floating point numbers (`genweights.py`) are IEEE doubles as defined by the library's `SpecFloat`.
* `std::sync::OnceLock` by its documented contract; `is_aarch64_feature_detected!` and `cpuid` are arbitrary inputs.
* Callers of the C functions: pointers that are not null point to the memory they say.

### Modelled

All of `src/pixel_format.rs`, `color_space.rs`, `dispatcher.rs`, `cpu_info.rs`, `convert_image/common.rs`,
`convert_image/x86.rs`, `sse2.rs`, `avx2.rs`, `neon.rs`; of `lib.rs`: the dispatch table, `Context`,
`describe_acceleration`, `get_buffers_size`, `convert_image`, the `test_instruction_sets` feature, and the C functions
`dcp_get_buffers_size`, `dcp_convert_image`, `dcp_describe_acceleration`, `dcp_unref_string`. The C header, and
`genweights.py`.

### Not modelled

* the texts of error messages (`Display for ErrorKind`);
* `static_assert.rs` (compile-time only), `build-aux`, tests and benches; of `genweights.py` the printing and
  the errors it reports (the chroma errors are modelled as far as they decide which constants are printed);
* big-endian aarch64 (the vector code of `neon.rs` there; the portable code is modelled for either byte order);
* alignment (all vector accesses are unaligned ones), `vzeroupper`, prefetching, timing;
* memory aliasing between the buffers of one call: Rust's references rule it out; C callers are assumed not to pass
  overlapping source and destination buffers. Destination memory of different calls may overlap (C60).

### Simplifications

* Threads (C58): steps of all threads in one sequence (sequential consistency: C58_no_data_race shows that there is no
  race, so that weaker memory orders make no difference); one instruction set for all, from the start (C44 and C29 are
  about the context); a thread that faults stops.
* `const` generics and macro parameters are ordinary arguments. The nine wrappers, the same text in the four files,
  are modelled once with the kernel as parameter.
* Pointer arithmetic is index arithmetic on a view: `p.add(i)` never wraps around the address space.
* `[MaybeUninit; 4]` arrays of the C functions are lists with a declared length (`Arr`): reading an entry that was
  not filled is a fault.

## 5. Properties

Nothing in the list is outside what an executable model can express. "partial" means that the full statement is
false of the code: the `_refuted` theorem has the witness, and the other theorems say what does hold.

| id | claim | modelled by | proof | status | theorems |
|---|---|---|---|---|---|
| C01 | convert_image never accesses memory outside the caller's buffers | all kernels and wrappers, accesses checked against the buffers | `exec`/`runs` of every kernel shows that each access is inside; refutation by computing two accepted calls; exact condition by comparing the run with runs on longer buffers (`Extend.v`), whose result is known and would depend on the missing bytes; the last alpha byte of BGRA, on which no result depends, by following the loads (`AlphaFacts.v`) | partial | `C01_images_inside_buffers_partial`, `C01_exactly_inside`, `C01_registers_inside`, `C01_short_strides`, `C01_short_strides_refuted`, `C01_refuted`, `C38_refuted` |
| C02 | Ok is returned only if every buffer can hold its plane | the wrappers' bounds checks | arithmetic on `stride + row*(h-1) <= len`; refutation by computation; successful calls as in C01 | partial | `C02_accepted_planes_fit_partial`, `C02_success_inside`, `C02_refuted` |
| C03 | Sufficient buffers are never rejected | wrappers | arithmetic: the documented sizes pass the checks | proved | `C03_sufficient_buffers_accepted` |
| C04 | A failed conversion leaves the destination untouched | wrappers, `convert_image` | `Quiet.v`: every path to `Err` is before the first write | proved | `C04_errors_change_nothing` |
| C05 | Error classification and precedence | `convert_image` | case analysis of its checks against `valid_image`/`supported` | proved | `C05_error_classification` |
| C06 | Supported conversions are exactly the documented ones, on every instruction set | dispatch table | the table contains an entry exactly for the pairs of README.md (finite sweep, lifted to all formats) | proved | `C06_supported_conversions` |
| C07 | No two requests share a dispatch slot | dispatch index arithmetic | finite sweep over formats and colour spaces, lifted | proved | `C07_dispatch_exact`, `C07_no_aliasing` |
| C08 | Plane-count and dimension validation | `is_compatible`, `convert_image` | case analysis and parity of u32 | proved | `C08_validation`, `C05_error_classification` |
| C09 | Advertised buffer sizes without strides | `get_buffers_size` | arithmetic for every size | proved | `C09_default_sizes`, `C09_documented_sizes` |
| C10 | Advertised buffer sizes with custom strides | `get_buffers_size` | arithmetic; refutation by computation | partial | `C10_sizes_with_strides_partial`, `C10_one_plane`, `C13_exact_sizes`, `C10_refuted` |
| C11 | Buffers of the advertised size are accepted | `get_buffers_size`, `convert_image` | composition of C03 and C09; refutation by computation | partial | `C11_advertised_sizes_accepted_partial`, `C11_exactly_refused`, `C11_refuted` |
| C12 | get_buffers_size writes only its plane entries | `get_buffers_size` | frame property of its writes | proved | `C12_writes_only_its_entries` |
| C13 | Size computation does not overflow | `get_buffers_size`, checked arithmetic | bounds on the products; refutation by computation | partial | `C13_no_overflow_partial`, `C13_exact_sizes`, `C13_refuted` |
| C14 | RGB to YCbCr result is the fixed-point formula at every pixel | kernels of all instruction sets | write set of each kernel = specified samples (loops by induction, registers lane by lane) | proved | `C14_rgb_to_ycbcr_formula`, `C14_neon`, `C14_exactly` |
| C15 | YCbCr to RGB result is the fixed-point formula at every pixel | kernels of all instruction sets | same; 16-bit wrap-around described exactly by `ycc_to_rgb_wrap` | partial | `C15_ycbcr_to_rgb_formula_partial`, `C15_nominal_samples`, `C15_every_pixel`, `C15_refuted`, `C15_exactly` |
| C16 | Accuracy against the ITU-R definitions | pixel formulas + C14/C15 | linear arithmetic over Z and Q against `Itu.v` | partial | `C16_rgb_to_ycbcr_accuracy`, `C16_ycbcr_to_rgb_accuracy_partial`, `C16_refuted`, `C16_ycbcr_to_rgb_exactly` |
| C17 | RGB to YCbCr never wraps and stays in nominal range | pixel formulas + C14 | linear arithmetic | proved | `C17_nominal_range`, `C17_no_truncation`, `C17_luma_cast`, `C17_chroma_cast`, `C14_rgb_to_ycbcr_formula`, `C14_neon` |
| C18 | YCbCr to RGB saturates | pixel formulas + C15 | linear arithmetic; refutation by computation | partial | `C18_saturation_partial`, `C18_refuted`, `C18_saturating_cast`, `C15_every_pixel`, `C18_exactly` |
| C19 | Grey, black and white are preserved | pixel formulas + C14/C15 | linear arithmetic; refutation by computation | partial | `C19_grey_to_neutral`, `C19_black_white`, `C19_neutral_to_grey_partial`, `C19_neutral_close`, `C19_black_white_back_partial`, `C19_refuted`, `C19_full_range` |
| C20 | Alpha is ignored on input and opaque on output | kernels of all instruction sets | alpha bytes of the write sets; independence of `pixel` from alpha | proved | `C20_alpha_opaque`, `C20_alpha_ignored` |
| C21 | RGB re-orderings are exact | re-ordering kernels of all instruction sets | write sets; word-at-a-time scalar code proved on byte lists | proved | `C21_reordering_exact`, `C21_round_trip` |
| C22 | Only the image area of the destination is written | kernels of all instruction sets | the write set is the image (`runs` gives equality of sets, not inclusion) | proved | `C22_only_image_written` |
| C23 | Strides and padding do not influence the result | kernels of all instruction sets | results depend on `pixel` of the source only | proved | `C23_layout_independent` |
| C24 | NV12 layouts agree with each other and with I420 | kernels of all instruction sets | C14/C15 for the formats compared | proved | `C24_nv12_interleaves_i420`, `C24_equal_sources`, `C24_equal_sources_all_formats`, `C23_layout_independent` |
| C25 | RGB to YCbCr does not depend on the instruction set | kernels of all instruction sets | C14 for each set; refutation by computation | partial | `C25_same_bytes_partial`, `C25_near`, `C25_refuted`, `C25_exactly` |
| C26 | YCbCr to RGB does not depend on the instruction set | kernels of all instruction sets | C15 for each set; refutation by computation | partial | `C26_same_bytes_partial`, `C26_nominal_samples`, `C26_refuted`, `C26_exactly` |
| C27 | RGB re-orderings do not depend on the instruction set | re-ordering kernels of all instruction sets | C21 for each set | proved | `C27_same_bytes` |
| C28 | CPU detection only selects supported code paths | `cpu_info.rs` | case analysis for every cpuid function; refutation by a cpuid function | partial | `C28_selected_only_if_reported_partial`, `C28_vendor_exact`, `C28_described`, `C28_description`, `C28_refuted` |
| C29 | Initialisation is once-only and race free | `Context::global` | invariant of a transition system of any number of threads | proved | `C29_once_only`, `C29_same_context`, `C29_published`, `C29_progress` |
| C30 | C API is null-safe and equivalent to the Rust API | C functions | case analysis; simulation of the Rust function with slices of length isize::MAX | proved | `C30_null_pointers`, `C30_unknown_enums`, `C30_bad_planes`, `C30_null_planes`, `C30_same_errors`, `C30_same_success`, `C30_sizes_bad`, `C30_sizes_same` |
| C31 | Zero-sized images are accepted and touch nothing | wrappers | case analysis | proved | `C31_empty_image` |
| C32 | Conversion arithmetic never overflows | all code, checked targets | `exec` holds for checked and unchecked targets with the same writes | proved | `C32_no_overflow`, `C32_same_result` |
| C33 | RGB to I444 to RGB round trip is nearly lossless | C14 then C15 | linear arithmetic on the composed formulas; results are nominal, so that nothing wraps | proved | `C33_round_trip`, `C33_round_trip_uniform` |
| C34 | Monotonicity | C14, C15 | monotonicity of the formulas | partial | `C34_luma_monotone`, `C34_rgb_monotone_partial`, `C34_refuted`, `C34_exactly` |
| C35 | Subsampled chroma of a uniform block equals full-resolution chroma | C14 | scaling and convexity of the rounding | proved | `C35_uniform_block`, `C35_between` |
| C36 | Pixels are independent | kernels of all instruction sets | each byte of the specification uses its own pixel or block only | proved | `C36_samples_local` |
| C37 | 32-bit targets | 32-bit targets | the checks coincide when nothing overflows; exact outcome of the checks when something does (`ModSpec.v`); refutation by computation | partial | `C37_same_errors_partial`, `C37_same_result_partial`, `C37_exactly`, `C37_refuted` |
| C38 | With correctly sized buffers conversion terminates normally | everything | composition of C03 and kernel correctness; `Pad.v` for BGR sources; `NeedFacts.v`: a run that ends did load its last register | partial | `C38_documented_call_partial`, `C38_exactly_with_room`, `C38_room`, `C38_refuted` |
| C39 | The documented formulas | everything, against the formulas of lib.rs:809-871 (`DocSpec.v`) | C14/C15, then linear arithmetic over the rationals | partial | `C39_documented_forward_partial`, `C39_documented_inverse_partial`, `C39_refuted`, `C39_documented_inverse_exactly` |
| C40 | Converting an image in bands gives the same bytes | two calls, buffers cut at row boundaries (`BandSpec.v`) | sample by sample from `success_conv`; equality of all bytes by extensionality | proved | `C40_bands`, `C40_last_band`, `C40_all_bands` |
| C41 | The constants are those of BT.601 and BT.709 | constants of `common.rs`, against `Itu.v` (`WeightSpec.v`) | exact rational computation, 4 colour spaces | proved | `C41_forward_weights`, `C41_inverse_weights` |
| C42 | Strings given to C programs | `dcp_describe_acceleration`, `dcp_unref_string`, heap of live strings (`Process.v`) | invariant of all histories | proved | `C42_description`, `C42_unref`, `C42_no_leak` |
| C43 | The test hook never selects missing instructions | `test_converters`, `TEST_SET`, `initialize_with_instruction_set` (`Process.v`) | case analysis | proved | `C43_test_sets` |
| C44 | One process, one instruction set | sequences of calls around the lock (`Process.v`) | induction on the calls | proved | `C44_one_set`, `C44_x86_same` |
| C45 | Converting a rectangle gives the pixels of the whole | two calls | C14/C15/C21 for both | partial | `C45_rectangles_partial`, `C45_refuted`, `C45_exactly` |
| C46 | Exactly which buffers are accepted | wrappers, `convert_image` (`AcceptSpec.v`) | exact arithmetic of the checks in both directions | proved | `C46_exact_acceptance`, `C46_exact_any_word`, `C46_laid_out_accepted` |
| C47 | The C function converts whatever lies inside of the caller's memory | `dcp_convert_image` | the Rust call with the buffers it pretends to have; kernel correctness on the real ones; exact condition as in C01 | proved | `C47_c_converts`, `C47_room`, `C47_exactly_inside` |
| C48 | Decoding and encoding again loses nothing | two calls, and sequences of such pairs (`generations`) | limited range: linear arithmetic on the floors; full range: differences to luma depend on chroma only, all 65536 pairs tried; induction on the generations | partial: false in the full range spaces | `C48_recoded_partial`, `C48_inside_partial`, `C48_lossless`, `C48_drift`, `C48_refuted` |
| C49 | The byte order of the machine does not matter | portable kernels with words in the order of the target (`Base.in_order`), wrappers, `convert_image`, sizes | relation between the runs on two targets, closed under the monad; for words up to the bytes written; refutation by computation; the kernels of the re-orderings run step by step with words in the other order | partial | `C49_same_result_partial`, `C49_same_outcome`, `C49_same_sizes`, `C49_reorder_refuted`, `C49_reorder_exactly`, `C49_c_same_outcome` |
| C50 | The C header describes the library | `Header.v`: enumerations, structure, prototypes and tables of the header, and the Rust declarations; `dcp_convert_image` | names related by `HeaderSpec.v`; bytes of a structure stored by C read back by Rust for any values and byte order; tables through C06, C08, C09 | partial | `C50_pixel_formats`, `C50_color_spaces`, `C50_results`, `C50_prototypes`, `C50_call`, `C50_conversions`, `C50_colors`, `C50_table_partial`, `C50_table_only`, `C50_table_refuted`, `C50_stride_auto` |
| C51 | convert_image is a reference implementation | everything behind `convert_image`; reference in `RefSpec.v` | `converted` determines every byte; answers by C04, C05, C31, C46 and the cases of C01 | proved | `C51_reference`, `C51_documented` |
| C52 | An RGB image loses at most once | sequences of pairs of calls (`rgb_generations`) | after the first time all pixels are decoded without clamping; then as C48; induction on the generations. An encoded colour never makes blue overflow, so every generation is the formula of one pixel | partial: false in the full range spaces and at the ends of the range; there the exact colours are given | `C52_settled_partial`, `C52_settled_pixel_partial`, `C52_bounded_partial`, `C52_every_generation`, `C52_exactly`, `C52_refuted` |
| C53 | The generator script prints the constants in use | `GenWeights.v`: genweights.py, with IEEE doubles (`SpecFloat`) | computation; the errors over 2^24 colours are bounded analytically, with the rounding errors of the doubles (`FloatFacts.v`) and a sweep of two corners of the colour cube; tables by C14 | proved | `C53_limited`, `C53_full`, `C53_tables`, `C53_reference` |
| C54 | The route does not matter | chains of calls (`RouteSpec.v`) | induction on the chain, with C14, C15, C21 | partial | `C54_encoded`, `C54_decoded_partial`, `C54_opaque`, `C54_transcoded_partial`, `C54_refuted`, `C54_decoded_exactly` |
| C55 | The contents of the buffers decide nothing but the result | everything behind `convert_image` and `dcp_convert_image` | relation between two runs on buffers of the same sizes, kernel by kernel, for all instruction sets | proved | `C55_same_course`, `C55_same_course_c`, `C55_every_frame` |
| C56 | A moved picture converts to the moved result | everything behind `convert_image`; motions in `MoveSpec.v` | C14/C15/C21 for both calls; block sums are invariant under permutations | partial: false between vector and scalar columns | `C56_moved_partial`, `C56_motions`, `C56_upside_down`, `C56_refuted`, `C56_exactly` |
| C57 | Similar pictures convert to similar pictures | everything behind `convert_image` | C14/C15, then the sums of the absolute weights and one unit for each rounding | partial: false where blue wraps | `C57_encoded`, `C57_decoded_partial`, `C57_refuted`, `C57_decoded_exactly` |
| C58 | Conversions at the same time do not disturb each other | `Thread.v`: the programs of `convert_image`, step by step, on one memory | the remaining program of a thread, run alone on the thread's view of the memory, keeps its result (invariant over all schedules); a step count that decreases; C40 for the bands of a picture | proved | `C58_undisturbed`, `C58_finishes`, `C58_nothing_else_changes`, `C58_no_data_race`, `C58_calls_that_return`, `C58_bands_are_threads`, `C58_one_picture` |
| C59 | The destination is write-only | `Trace.v`: the programs of `convert_image` and `dcp_convert_image`, with every byte access recorded | a predicate on programs (only source planes are read, whatever the values), followed through all kernels; replay: a run is determined by the bytes it reads; for the bytes written, the result of C22 on two contents of the destination | proved | `C59_destination_never_read`, `C59_destination_never_read_c`, `C59_no_access_without_conversion`, `C59_no_access_without_conversion_c`, `C59_last_write_stays`, `C59_what_is_read_decides`, `C59_written_exactly`, `C59_written_exactly_c` |
| C60 | C programs may convert into interleaved memory at the same time | `CThread.v`: threads that run the program of `dcp_convert_image` on a common memory, one step at a time | invariant of all threads: what remains of a call, run on the memory as it is now, completes the list of accesses of the call alone (C59: accesses depend on the sources only, and only bytes of the image are written); for rectangles, the bytes of each are bytes of the picture and the results agree byte by byte | proved | `C60_undisturbed`, `C60_finishes`, `C60_nothing_else_changes`, `C60_no_data_race`, `C60_rectangles_may_run`, `C60_one_picture`, `C60_aligned_columns` |
| C61 | Which bytes are touched does not depend on the contents | `Trace.v`, everything behind `convert_image` and `dcp_convert_image` | the relation of C55 between two runs also says that they touch the same positions in the same order; kernel by kernel, for all instruction sets | proved | `C61_same_positions`, `C61_same_positions_c` |
| C62 | Every byte of the destination image is written once | `Trace.v`, everything behind `convert_image` and `dcp_convert_image` | an upper bound of the number of byte writes by structural recursion over the program (every kernel, vector part plus scalar part); it is the size of the image; with C59 (the image is what is written) and the pigeonhole principle no byte is written twice; for AVX2 NV12 → RGB a program without the repeated stores ends in the same memory and makes the same set of writes, and it is counted instead (`TwiceFacts.v`) | proved | `C62_written_once`, `C62_written_once_c`, `C62_one_value`, `C62_one_value_c`, `C62_no_third_value`, `C62_no_third_value_c`; `C62_written_once_avx2_refuted` |
| C63 | The work is proportional to the picture | `steps` (`WorkSpec.v`): the operations of the programs of `convert_image`, `dcp_convert_image`, `get_buffers_size`, `dcp_get_buffers_size`, counted | a budget followed through every function by structural recursion over the program, whatever is read and wherever it faults; loops by induction; every entry of the dispatch table | proved | `C63_linear`, `C63_linear_c`, `C63_sizes`, `C63_sizes_c`, `C63_accesses` |
| C64 | Only the source image is read, the same in every build | `accesses`, `c_accesses` (`Trace.v`): the loads and stores of `convert_image` and `dcp_convert_image`, in order; `near_image` (`ReadSpec.v`) | a set of positions followed through every function by structural recursion over the program; loops by induction over an invariant of the carried offsets; every entry of the dispatch table; a run that overflows nowhere is the run of both builds | proved | `C64_reads_source`, `C64_reads_source_c`, `C64_reads_image`, `C64_reads_image_c`, `C64_reads_tight`, `C64_reads_tight_c`, `C64_reads_lines`, `C64_reads_image_rgb_refuted`, `C64_reads_image_bgr_refuted`, `C64_same_build`, `C64_same_build_c` |
| C65 | No pixel of the source is ignored | `accesses`, `c_accesses` (`Trace.v`); `colour_byte`, `differ_at` (`EverySpec.v`) | a call on a source that is 128 everywhere and one on the same source with 255 in one colour byte have different results by C14, C15 and C21; had the byte not been read, the runs would be the same (C59), and which bytes are read does not depend on the contents (C61); the other direction from the formulas | proved | `C65_reads_all`, `C65_reads_all_c`, `C65_exactly` |
| C66 | Only greys become grey | the conversions; `neutral` (`OnlySpec.v`) | C14_exactly and C15_exactly give the bytes of every pixel on every instruction set; the bounds follow from the weights by linear arithmetic | proved | `C66_encoded_grey`, `C66_encoded_ends`, `C66_decoded_grey` |
| C67 | Subsampled chroma is the average of full chroma | the conversions to I444, I420 and NV12 | C14_exactly gives each chroma as a rounded quotient, up or down at halves; the errors of the four and of the sum add up | proved | `C67_average` |
| C68 | Brightness and colour are kept apart | the conversions to and from YCbCr | C14_exactly and C15_exactly give the bytes; the chroma weights of a grey are zero, the luma weights bound the quotients | proved | `C68_encoded`, `C68_decoded` |
| C69 | Pictures mix alike before and after conversion | the conversions to and from YCbCr | C14 and C15_exactly give the bytes; the formulas are linear up to roundings, whose errors are added up | proved | `C69_encoded`, `C69_decoded` |
| C70 | A picture of one colour becomes a picture of one colour | all conversions | C14_exactly and C15_exactly compared at two pixels; the columns of vector code come first, so the first and the last one decide | partial: seams for colours with chroma ties (NEON) or blue from 512 (SSE2, AVX2) | `C70_flat_partial`, `C70_encoded_exactly`, `C70_decoded_exactly`, `C70_reordered`, `C70_refuted` |
| C71 | The negative of a picture | the conversions to YCbCr | C14 gives the samples; the weights of chroma add up to zero, rounding to the nearest is odd but for ties | proved | `C71_negative` |

## 6. Findings

Behaviour of the code that contradicts its documentation or what a user would expect, each with a theorem.

1. `out_of_bounds(size, width, height_minus_one, stride)` is called with row size and stride the wrong way round: the
   check is `stride + row*(h-1) <= len`. With padded rows, buffers that are too small are accepted and the kernels
   access bytes outside of them (`C01_refuted`, `C02_refuted`).
2. The re-ordering wrappers (BGR to RGB, BGRA to RGB, RGB to BGRA) check the width instead of the row size
   (`C02_refuted`, second part).
3. BGR to YCbCr on SSE2 and AVX2 reads up to 4 or 8 bytes after the last pixel: out of bounds for a buffer of exactly
   the documented size (`C38_refuted`).
4. YCbCr to RGB on SSE2 and AVX2 overflows 16 bits when blue reaches 512 (limited range spaces, out-of-range samples):
   0 instead of 255 (`C15_refuted`, `C18_refuted`, `C26_refuted`, `C34_refuted`). On SSE2, NV12 to RGB is portable code:
   it differs there from NV12 to BGRA (`C54_refuted`).
5. NEON rounds chroma ties upwards, the others downwards: results differ by 1 (`C25_refuted`).
6. The full range YCbCr to RGB constants are centred on 127 instead of 128 (`(C_MAX + C_MIN) >> 1` in the generator
   script, `C53_middle`): neutral chroma is not grey, black and
   white do not come back, errors up to 2.4 (`C16_refuted`, `C19_refuted`).
7. `get_buffers_size` with strides for one plane ignores or misuses them (`C10_refuted`, `C11_refuted`), and its
   products overflow for large dimensions (`C13_refuted`).
8. On 32-bit targets `DEPTH * width` wraps (`C37_refuted`); `C37_exactly` says when, and which buffers a release build
   then takes: those that are large enough for the sizes modulo 2^32.
9. `cpuid(7)` is executed without checking that the leaf exists, and AVX2 is used without checking that the operating
   system saves the registers (`C28_refuted`).
10. The documentation says that I422 images have 1 or 3 planes; the code accepts 3 only (`C08_validation`, `C50_table_refuted`).
    (The header also uses `size_t` without including a file that is required to define it.)
11. One-plane NV12 with a huge stride overflows before any check; in the re-ordering kernels strides smaller than a row
    underflow (`C01_short_strides_refuted`: debug builds panic). Both are excluded by hypotheses of the theorems
    (`sizes_ok`, `rows_apart`) and are part of the reason why C01, C02 and C32 need them.
12. The documentation's RGB to YCbCr formulas for BT.709 (limited range) lack the factor 219/255: they give 271 for
    white, the code gives 235 (`C39_refuted`).
13. `dcp_convert_image` makes stride slices of `isize::MAX` entries of 8 bytes: longer than any Rust slice may be
    (`slice::from_raw_parts` allows `isize::MAX` bytes). Not modelled: a slice is a pointer and a length here. A debug
    build of a recent compiler stops at this call when strides are given.
14. Because of 6, every generation of decoding and encoding in full-range BT.601 adds exactly 1 to both chroma values
    (`C48_drift`), and in full-range BT.709 1 to blue difference and 0 or 1 to the others (`C48_recoded_partial`). The
    limited range spaces are lossless for colours that RGB can represent (`C48_lossless`).
15. Architectures other than x86 and aarch64 run the portable code, whose re-orderings load, swap and store words as if
    the first byte were the least significant one: on a big-endian machine BGR to RGB, BGRA to RGB (8 pixels and wider)
    and RGB to BGRA produce wrong colours (`C49_reorder_refuted`; `C49_reorder_exactly` says which byte goes where). All other conversions are right there too.
16. The portable RGB to BGRA loads words of eight and four bytes of which it uses six and three: it reads up to two bytes
    after the end of every row but the last (`C64_reads_image_rgb_refuted`; `spill` says how many). Alone it keeps to
    the padding (`C64_reads_lines`); behind vector registers it may read the first bytes of the next row, because it is
    told the width of its columns only. After the last row it never does, so no buffer is overrun.
17. Vector code and the code for the last columns round chroma ties differently on NEON and treat blues of 512 or more
    differently on SSE2 and AVX2: a picture of one colour gets a seam there (`C70_refuted`; `C70_encoded_exactly` and
    `C70_decoded_exactly` say for which colours and widths).

## 7. Tests of the model against the repository's tests

`RepoTests.v` transcribes the drivers, the inputs and the expected values of `tests/conversions.rs`, `tests/errors.rs`
and `tests/tests.rs` and runs them on the model. Committed are a few of the runs, which the checker without virtual
machine can repeat in a minute. All sizes and formats of the drivers were run once on the four instruction sets (30 000
conversions with reference values, 20 000 from YCbCr, 21 000 re-orderings, all error cases, with some of the paddings):
no difference. These are tests of the transcription, not proofs.

## 8. Tests of the theorems against wrong programs

`seeded/LOG.jsonl`: one line per bug planted in a scratch copy of the model, with the theorems that stopped proving.  A theorem is listed as failed when its unchanged proof no longer goes through, and that includes failing because a lemma it rests on failed: the list does not show that the statement itself became false (an edit that leaves all results alone, such as running a loop twice, also breaks the proofs of theorems that still hold).
